(** The filter of the OMI index. *)
From Coq Require Import Reals Qreals ZArith QArith String List.
From Verif Require Import PyBase SpectraSpec KfSpec MjoModel MjoSpec MjoProofs.
From Coq Require Import List.
Import ListNotations.
Open Scope nat_scope.

(** ** C98: filtering periods and wavenumbers *)

(** Mean and trend are removed: what remains has neither, and differs by a line. *)
Theorem C98_detrend : forall y z, detrend y = z <-> Detrended y z.
Proof. exact C98_detrend_proof. Qed.
Print Assumptions C98_detrend.

(** The result is the sum of those parts of the data, without trend, tapered and filled with zeros, whose frequency and
    wavenumber are within the limits; for even numbers of times and longitudes. *)
Theorem C98_filter : forall orig_nt nl data spacing period_min period_max wn_min wn_max w,
  1 < nl -> Nat.Even orig_nt -> Nat.Even nl -> (Z.of_nat orig_nt <= 131072)%Z -> Forall (Shape orig_nt nl) data ->
  (0 < spacing)%Q -> ~ (period_min == 0)%Q -> ~ (period_max == 0)%Q -> ~ (period_min == period_max)%Q -> ~ (wn_min == wn_max)%Q ->
  (inject_Z (Z.of_nat w) <= 10 / spacing)%Q -> (10 / spacing < inject_Z (Z.of_nat w + 1))%Q ->
  let nt := orig_nt + Z.to_nat 1000 in w <= nt ->
  exists out, perform_3dim_spectral_filtering orig_nt nl data spacing period_min period_max wn_min wn_max = Ok out /\
    Forall2 (fun field new => Shape orig_nt nl new /\
      exists z, (forall x, x < nl -> Detrended (Column x field) (z x)) /\
        let padded t x := (nth t (z x) 0 * BothEnds RiseFromZero nt w t)%R in
        forall t x, t < orig_nt -> x < nl ->
          Entry new t x (DoubleSum nt nl (fun p q =>
            if Kept nt nl (Band nt nl spacing period_min period_max wn_min wn_max) p q then Part nt nl padded p q t x else 0%R))) data out.
Proof. exact C98_filter_proof. Qed.
Print Assumptions C98_filter.

Example C98_filter_case : Forall (Shape 2 2) [[[1; 5]; [2; 4]]; [[0; 3]; [7; 7]]]%R /\ Nat.Even 2 /\ (inject_Z (Z.of_nat 10) <= 10 / 1)%Q /\ (10 / 1 < inject_Z (Z.of_nat 10 + 1))%Q /\ 10 <= 2 + Z.to_nat 1000.
Proof. exact C98_filter_case_proof. Qed.

(** For any numbers of times and longitudes: coefficients are looked for at the wrong place if a number is odd. *)
Theorem C98_any : forall orig_nt nl data spacing period_min period_max wn_min wn_max w,
  1 < nl -> (Z.of_nat orig_nt <= 131072)%Z -> Forall (Shape orig_nt nl) data ->
  (0 < spacing)%Q -> ~ (period_min == 0)%Q -> ~ (period_max == 0)%Q -> ~ (period_min == period_max)%Q -> ~ (wn_min == wn_max)%Q ->
  (inject_Z (Z.of_nat w) <= 10 / spacing)%Q -> (10 / spacing < inject_Z (Z.of_nat w + 1))%Q ->
  let nt := orig_nt + Z.to_nat 1000 in w <= nt ->
  exists out, perform_3dim_spectral_filtering orig_nt nl data spacing period_min period_max wn_min wn_max = Ok out /\
    Forall2 (fun field new => Shape orig_nt nl new /\
      exists z, (forall x, x < nl -> Detrended (Column x field) (z x)) /\
        let padded t x := (nth t (z x) 0 * BothEnds RiseFromZero nt w t)%R in
        forall t x, t < orig_nt -> x < nl ->
          Entry new t x (DoubleSum nt nl (fun p q =>
            if Kept nt nl (Band nt nl spacing period_min period_max wn_min wn_max) (Exchanged nt p) (Exchanged nl q)
            then Part nt nl padded p q t x else 0%R))) data out.
Proof. exact C98_any_proof. Qed.
Print Assumptions C98_any.

(** At one latitude a wave that moves east with [k] crests and [j] periods is kept exactly if both are within the limits;
    one that moves west has a negative wavenumber. *)
Theorem C98_waves : forall nt nl k j a phi dataperday freq_min freq_max wn_min wn_max,
  Nat.Even nt -> Nat.Even nl -> 1 < nl -> 0 < 2 * j < nt -> 2 * k < nl -> ~ (freq_min == freq_max)%Q -> ~ (wn_min == wn_max)%Q ->
  let f := (inject_Z (Z.of_nat j) * dataperday / inject_Z (Z.of_nat nt))%Q in
  let run v := filter_field nt nl dataperday freq_min freq_max wn_min wn_max v in
  let inside s := (freq_min <= f <= freq_max)%Q /\ (wn_min <= inject_Z s <= wn_max)%Q in
  (inside (Z.of_nat k) -> run (EastWave nl nt k j a phi) = Ok (EastWave nl nt k j a phi)) /\
  (~ inside (Z.of_nat k) -> run (EastWave nl nt k j a phi) = Ok (Zeros nl nt)) /\
  (inside (- Z.of_nat k)%Z -> run (WestWave nl nt k j a phi) = Ok (WestWave nl nt k j a phi)) /\
  (~ inside (- Z.of_nat k)%Z -> run (WestWave nl nt k j a phi) = Ok (Zeros nl nt)).
Proof. exact C98_waves_proof. Qed.
Print Assumptions C98_waves.

(** If the number of times is odd, half of a wave is kept for each of the two neighbours of its frequency that are within
    the limits. *)
Theorem C98_odd : forall nt nl k j a phi dataperday freq_min freq_max wn_min wn_max,
  Nat.Odd nt -> Nat.Even nl -> 1 < nl -> 0 < j -> 2 * (j + 1) < nt -> 0 < 2 * k < nl -> (0 < freq_min)%Q -> ~ (freq_min == freq_max)%Q -> ~ (wn_min == wn_max)%Q ->
  let f i := (inject_Z (Z.of_nat i) * dataperday / inject_Z (Z.of_nat nt))%Q in
  let half i := if Qle_bool freq_min (f i) && Qle_bool (f i) freq_max && Qle_bool wn_min (inject_Z (Z.of_nat k)) && Qle_bool (inject_Z (Z.of_nat k)) wn_max
                then (1 / 2)%R else 0%R in
  filter_field nt nl dataperday freq_min freq_max wn_min wn_max (EastWave nl nt k j a phi) =
  Ok (EastWave nl nt k j ((half (j - 1)%nat + half (j + 1)%nat) * a)%R phi).
Proof. exact C98_odd_proof. Qed.
Print Assumptions C98_odd.

Theorem C98_odd_refuted :
  filter_field 9 4 1 (2 # 9) (4 # 9) (-1) 1 (EastWave 4 9 1 2 1 0) = Ok (EastWave 4 9 1 2 (1 / 2) 0) /\
  filter_field 9 4 1 (2 # 9) (4 # 9) (-1) 1 (EastWave 4 9 1 1 1 0) = Ok (EastWave 4 9 1 1 (1 / 2) 0) /\
  EastWave 4 9 1 2 1 0 <> EastWave 4 9 1 2 (1 / 2) 0.
Proof. exact C98_odd_refuted_proof. Qed.
Print Assumptions C98_odd_refuted.

(** A single wavenumber or a single period cannot be asked for: with equal limits nothing is kept. *)
Theorem C98_equal_refuted : forall nt nl v dataperday freq_min freq_max wn_min wn_max, 1 < nl -> 0 < nt ->
  (freq_min == freq_max)%Q \/ (wn_min == wn_max)%Q ->
  filter_field nt nl dataperday freq_min freq_max wn_min wn_max v = Ok (Zeros nl nt).
Proof. exact C98_equal_refuted_proof. Qed.
Print Assumptions C98_equal_refuted.

(** A step or period of 0 raises ZeroDivisionError; more than 131072 times, no longitude, or tapering of more than there is
    ValueError; one longitude IndexError. *)
Theorem C98_exceptions : forall orig_nt nl data spacing period_min period_max wn_min wn_max,
  let run := perform_3dim_spectral_filtering orig_nt nl data spacing period_min period_max wn_min wn_max in
  ((spacing == 0)%Q \/ (period_min == 0)%Q \/ (period_max == 0)%Q -> run = Err ZeroDivisionError) /\
  ((0 < spacing)%Q -> ~ (period_min == 0)%Q -> ~ (period_max == 0)%Q ->
     ((131072 < Z.of_nat orig_nt)%Z -> run = Err ValueError) /\
     ((Z.of_nat orig_nt <= 131072)%Z -> data <> [] ->
        (nl = 0 -> run = Err ValueError) /\
        (0 < nl -> (inject_Z (Z.of_nat orig_nt + 1001) <= 10 / spacing)%Q -> run = Err ValueError) /\
        (nl = 1 -> (10 / spacing < inject_Z (Z.of_nat orig_nt + 1001))%Q -> run = Err IndexError))).
Proof. exact C98_exceptions_proof. Qed.
Print Assumptions C98_exceptions.
