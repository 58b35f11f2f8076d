(** The filter for equatorial waves. *)
From Coq Require Import Reals Qreals ZArith QArith Qabs String List.
From Verif Require Import PyBase WavesModel KfModel KfSpec KfProofs.
From Coq Require Import List.
Import ListNotations.
Open Scope Z_scope.

(** ** C96: the mask *)

(** Which coefficients are kept does not depend on them; the others become zero, and the shape stays. *)
Theorem C96_keep : forall junk nk nf obsPerDay tMin tMax kMin kMax hMin hMax name, (0 < nk)%nat ->
  (exists keep, forall M, Shape nk nf M -> exists out,
     kf_filter_mask junk M obsPerDay tMin tMax kMin kMax hMin hMax name = Ok out /\ Masked nk nf keep M out) \/
  (exists e, forall M, Shape nk nf M -> kf_filter_mask junk M obsPerDay tMin tMax kMin kMax hMin hMax name = Err e).
Proof. exact C96_keep_proof. Qed.
Print Assumptions C96_keep.

(** Masking again changes nothing. *)
Theorem C96_again : forall junk nk nf M out obsPerDay tMin tMax kMin kMax hMin hMax name, (0 < nk)%nat -> Shape nk nf M ->
  kf_filter_mask junk M obsPerDay tMin tMax kMin kMax hMin hMax name = Ok out ->
  kf_filter_mask junk out obsPerDay tMin tMax kMin kMax hMin hMax name = Ok out.
Proof. exact C96_again_proof. Qed.
Print Assumptions C96_again.

(** Kept are the periods, the wavenumbers and the frequencies between those of the waves of both depths.  A frequency of 0
    is kept if the frequency of the deeper wave is negative. *)
Theorem C96_mask : forall junk nk nf M obsPerDay tMin tMax kMin kMax hMin hMax name, (0 < nk)%nat -> (0 < nf)%nat -> Shape nk nf M ->
  (0 < obsPerDay)%Q -> (0 < tMin)%Q -> (0 < tMax)%Q -> (0 < hMin)%Q -> (0 < hMax)%Q -> KnownWave name ->
  let nt := (2 * (Z.of_nat nf - 1))%Z in
  let T := (IZR nt * 86400 / (2 * PI * Q2R obsPerDay))%R in
  let speed h := sqrt (9.80665 * Q2R h) in
  exists out jlo jhi lo hi, kf_filter_mask junk M obsPerDay tMin tMax kMin kMax hMin hMax name = Ok out /\
    Nearest (inject_Z nt / (tMax * obsPerDay)) jlo /\ Nearest (inject_Z nt / (tMin * obsPerDay)) jhi /\
    Limit nk kMin lo /\ Limit nk kMax hi /\
    Masked nk nf (fun row j =>
      let i := (nk - 1 - row)%nat in
      jlo <= Z.of_nat j <= jhi /\ Between lo hi (Z.of_nat i) /\
      exists w0 w1 z0 z1,
        WaveFrequency name (PlaceWavenumber nk i) (speed hMin) w0 /\ WaveFrequency name (PlaceWavenumber nk i) (speed hMax) w1 /\
        Floor (w0 * T) z0 /\ Ceiling (w1 * T) z1 /\ z0 <= Z.of_nat j /\ (Z.of_nat j <= z1 \/ j = 0%nat)) M out.
Proof. exact C96_mask_proof. Qed.
Print Assumptions C96_mask.

Example C96_mask_case : Shape 2 3 [[(1, 2); (3, 4); (5, 6)]; [(7, 8); (9, 0); (1, 1)]]%R /\ KnownWave "Kelvin".
Proof. exact C96_mask_case_proof. Qed.

(** Without depths (-9999), or for a name that is not known, only periods and wavenumbers matter. *)
Theorem C96_open : forall junk nk nf M obsPerDay tMin tMax kMin kMax hMin hMax name, (0 < nk)%nat -> (0 < nf)%nat -> Shape nk nf M ->
  (0 < obsPerDay)%Q -> (0 < tMin)%Q -> (0 < tMax)%Q ->
  ((hMin == -9999)%Q /\ (hMax == -9999)%Q) \/ ~ KnownWave name ->
  let nt := (2 * (Z.of_nat nf - 1))%Z in
  exists out jlo jhi lo hi, kf_filter_mask junk M obsPerDay tMin tMax kMin kMax hMin hMax name = Ok out /\
    Nearest (inject_Z nt / (tMax * obsPerDay)) jlo /\ Nearest (inject_Z nt / (tMin * obsPerDay)) jhi /\
    Limit nk kMin lo /\ Limit nk kMax hi /\
    Masked nk nf (fun row j => jlo <= Z.of_nat j <= jhi /\ Between lo hi (Z.of_nat (nk - 1 - row))) M out.
Proof. exact C96_open_proof. Qed.
Print Assumptions C96_open.

(** If only one depth is given, the result depends on what happened to be in the memory. *)
Theorem C96_single_refuted : forall hMin hMax, ((hMin == -9999)%Q /\ ~ (hMax == -9999)%Q) \/ (~ (hMin == -9999)%Q /\ (hMax == -9999)%Q) ->
  exists junk junk' M out, kf_filter_mask junk M 1 2 20 1 2 hMin hMax "Kelvin" = Ok out /\ kf_filter_mask junk' M 1 2 20 1 2 hMin hMax "Kelvin" = Err ValueError.
Proof. exact C96_single_refuted_proof. Qed.
Print Assumptions C96_single_refuted.

Example C96_single_refuted_case : (-9999 == -9999)%Q /\ ~ (90 == -9999)%Q.
Proof. exact C96_single_refuted_case_proof. Qed.

(** One wavenumber alone cannot be asked for: equal limits keep all wavenumbers. *)
Theorem C96_equal_refuted : forall junk nk nf M obsPerDay tMin tMax k name, (0 < nk)%nat -> (0 < nf)%nat -> Shape nk nf M ->
  (0 < obsPerDay)%Q -> (0 < tMin)%Q -> (0 < tMax)%Q ->
  let nt := (2 * (Z.of_nat nf - 1))%Z in
  exists out jlo jhi, kf_filter_mask junk M obsPerDay tMin tMax k k (-9999) (-9999) name = Ok out /\
    Nearest (inject_Z nt / (tMax * obsPerDay)) jlo /\ Nearest (inject_Z nt / (tMin * obsPerDay)) jhi /\
    Masked nk nf (fun row j => jlo <= Z.of_nat j <= jhi) M out.
Proof. exact C96_equal_refuted_proof. Qed.
Print Assumptions C96_equal_refuted.

(** A period of 0 raises ZeroDivisionError, a negative depth other than -9999 ValueError. *)
Theorem C96_exceptions : forall junk nk nf M obsPerDay tMin tMax kMin kMax hMin hMax name, (0 < nk)%nat -> Shape nk nf M ->
  ((tMax * obsPerDay == 0)%Q \/ (tMin * obsPerDay == 0)%Q ->
     kf_filter_mask junk M obsPerDay tMin tMax kMin kMax hMin hMax name = Err ZeroDivisionError) /\
  (~ (tMax * obsPerDay == 0)%Q -> ~ (tMin * obsPerDay == 0)%Q -> KnownWave name ->
     ~ (hMin == -9999)%Q -> ~ (hMax == -9999)%Q -> (hMin < 0 \/ hMax < 0)%Q ->
     kf_filter_mask junk M obsPerDay tMin tMax kMin kMax hMin hMax name = Err ValueError).
Proof. exact C96_exceptions_proof. Qed.
Print Assumptions C96_exceptions.

(** ** C97: the filter *)

(** If all periods and wavenumbers are asked for, the data of an even number of times come back. *)
Theorem C97_identity : forall junk data nk nt obsPerDay tMin tMax k name, (0 < nk)%nat -> (0 < nt)%nat -> Nat.Even nt -> Shape nt nk data ->
  (0 < tMin * obsPerDay <= 2)%Q -> (2 * inject_Z (Z.of_nat nt) <= tMax * obsPerDay)%Q -> (0 < obsPerDay)%Q ->
  kf_filter junk data obsPerDay tMin tMax k k (-9999) (-9999) name = Ok data.
Proof. exact C97_identity_proof. Qed.
Print Assumptions C97_identity.

Example C97_identity_case : Shape 2 3 [[1; 5; 2]; [4; 4; 0]]%R /\ Nat.Even 2 /\ (0 < 2 * 1 <= 2)%Q /\ (2 * inject_Z (Z.of_nat 2) <= 4 * 1)%Q.
Proof. exact C97_identity_case_proof. Qed.

(** A wave that moves east with [k] crests is kept or removed as if it had [k - 1]. *)
Theorem C97_east : forall junk nk nt k j a phi obsPerDay tMin tMax kMin kMax name jlo jhi,
  (0 < k < nk)%nat -> (0 < 2 * j < nt)%nat -> Nat.Even nt -> (0 < obsPerDay)%Q -> (0 < tMin)%Q -> (0 < tMax)%Q ->
  Nearest (inject_Z (Z.of_nat nt) / (tMax * obsPerDay)) jlo -> Nearest (inject_Z (Z.of_nat nt) / (tMin * obsPerDay)) jhi ->
  0 <= kMin < kMax -> kMax <= Z.of_nat nk / 2 ->
  let out := kf_filter junk (EastWave nk nt k j a phi) obsPerDay tMin tMax (inject_Z kMin) (inject_Z kMax) (-9999) (-9999) name in
  (jlo <= Z.of_nat j <= jhi /\ kMin <= Z.of_nat k - 1 <= kMax -> out = Ok (EastWave nk nt k j a phi)) /\
  (~ (jlo <= Z.of_nat j <= jhi /\ kMin <= Z.of_nat k - 1 <= kMax) -> out = Ok (Zeros nk nt)).
Proof. exact C97_east_proof. Qed.
Print Assumptions C97_east.

Example C97_east_case : (0 < 3 < 8)%nat /\ (0 < 2 * 2 < 8)%nat /\ Nat.Even 8 /\ Nearest (inject_Z (Z.of_nat 8) / (4 * 1)) 2 /\ Nearest (inject_Z (Z.of_nat 8) / (2 * 1)) 4 /\ 0 <= 1 < 2 /\ 2 <= Z.of_nat 8 / 2.
Proof. exact C97_east_case_proof. Qed.

(** One that moves west with [k] crests as if it had [k + 1]; with negative limits for waves that move west. *)
Theorem C97_west : forall junk nk nt k j a phi obsPerDay tMin tMax kMin kMax name jlo jhi,
  (k < nk)%nat -> (0 < 2 * j < nt)%nat -> Nat.Even nt -> (0 < obsPerDay)%Q -> (0 < tMin)%Q -> (0 < tMax)%Q ->
  Nearest (inject_Z (Z.of_nat nt) / (tMax * obsPerDay)) jlo -> Nearest (inject_Z (Z.of_nat nt) / (tMin * obsPerDay)) jhi ->
  kMin < kMax < 0 -> Z.of_nat nk / 2 <= Z.of_nat nk + kMin ->
  let out := kf_filter junk (WestWave nk nt k j a phi) obsPerDay tMin tMax (inject_Z kMin) (inject_Z kMax) (-9999) (-9999) name in
  (jlo <= Z.of_nat j <= jhi /\ kMin <= - (Z.of_nat k + 1) <= kMax -> out = Ok (WestWave nk nt k j a phi)) /\
  (~ (jlo <= Z.of_nat j <= jhi /\ kMin <= - (Z.of_nat k + 1) <= kMax) -> out = Ok (Zeros nk nt)).
Proof. exact C97_west_proof. Qed.
Print Assumptions C97_west.

(** So waves within the range asked for are removed, and others kept. *)
Theorem C97_range_refuted :
  (forall junk, kf_filter junk (EastWave 8 8 1 2 1 0) 1 2 8 1 2 (-9999) (-9999) "Kelvin" = Ok (Zeros 8 8)) /\
  (forall junk, kf_filter junk (EastWave 8 8 3 2 1 0) 1 2 8 1 2 (-9999) (-9999) "Kelvin" = Ok (EastWave 8 8 3 2 1 0)) /\
  EastWave 8 8 1 2 1 0 <> Zeros 8 8.
Proof. exact C97_range_refuted_proof. Qed.
Print Assumptions C97_range_refuted.

(** The result should have the times of the data; of an odd number of times one is lost. *)
Theorem C97_times : forall junk data nk nt obsPerDay tMin tMax kMin kMax hMin hMax name out, Shape nt nk data -> (0 < nk)%nat ->
  kf_filter junk data obsPerDay tMin tMax kMin kMax hMin hMax name = Ok out -> Shape (2 * (nt / 2)) nk out.
Proof. exact C97_times_proof. Qed.
Print Assumptions C97_times.

Theorem C97_times_refuted : forall junk data nk nt obsPerDay tMin tMax kMin kMax hMin hMax name out, Shape nt nk data -> (0 < nk)%nat -> Nat.Odd nt ->
  kf_filter junk data obsPerDay tMin tMax kMin kMax hMin hMax name = Ok out -> S (List.length out) = nt.
Proof. exact C97_times_refuted_proof. Qed.
Print Assumptions C97_times_refuted.

(** Empty or ragged data raise ValueError. *)
Theorem C97_exceptions : forall junk data obsPerDay tMin tMax kMin kMax hMin hMax name,
  (data = [] \/ (exists row, In row data /\ List.length row <> List.length (hd [] data)) \/ (exists rest, data = [] :: rest) ->
   kf_filter junk data obsPerDay tMin tMax kMin kMax hMin hMax name = Err ValueError).
Proof. exact C97_exceptions_proof. Qed.
Print Assumptions C97_exceptions.
