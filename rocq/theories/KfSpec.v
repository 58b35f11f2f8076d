(** Words for the statements about the filter for equatorial waves. *)
From Coq Require Import Reals Qreals ZArith QArith Qabs String List.
Import ListNotations.

(** [z] is the integer next to [q]; of two, the even one. *)
Definition Nearest (q : Q) (z : Z) : Prop :=
  (Qabs (q - inject_Z z) <= 1 # 2)%Q /\ ((Qabs (q - inject_Z z) == 1 # 2)%Q -> Z.Even z).
(** An array with [n] rows of [m] entries. *)
Definition Shape {A} (n m : nat) (M : list (list A)) : Prop := List.length M = n /\ Forall (fun row => List.length row = m) M.
(** The entry of an array at a place. *)
Definition Entry {A} (M : list (list A)) (i j : nat) (v : A) : Prop :=
  exists row, nth_error M i = Some row /\ nth_error row j = Some v.
(** [out] has the entries of [M] where [keep] holds and zeros elsewhere. *)
Definition Masked (n m : nat) (keep : nat -> nat -> Prop) (M out : list (list (R * R))) : Prop :=
  Shape n m out /\ forall i j v, Entry M i j v -> (keep i j -> Entry out i j v) /\ (~ keep i j -> Entry out i j (0, 0)%R).

Open Scope R_scope.
(** The earth at the equator. *)
Definition beta_equator : R := 2 * 0.00007292 / 6371008.
(** Angular frequency [w] of a kind of wave with wavenumber [k] per metre and speed [c]. *)
Definition WaveFrequency (name : string) (k c w : R) : Prop :=
  (In name ["Kelvin"; "kelvin"; "KELVIN"]%string /\ w = k * c) \/
  (In name ["ER"; "er"]%string /\ w * (k * k + 3 * beta_equator / c) = - beta_equator * k) \/
  (In name ["MRG"; "IG0"; "mrg"; "ig0"]%string /\ 0 < w /\ w * w = k * c * w + beta_equator * c) \/
  (In name ["IG1"; "ig1"]%string /\ 0 < w /\ w * w = 3 * beta_equator * c + k * k * (c * c)) \/
  (In name ["IG2"; "ig2"]%string /\ 0 < w /\ w * w = 5 * beta_equator * c + k * k * (c * c)).
(** [z] is the largest integer up to [x]; the smallest one from [x]. *)
Definition Floor (x : R) (z : Z) : Prop := IZR z <= x < IZR z + 1.
Definition Ceiling (x : R) (z : Z) : Prop := IZR z - 1 < x <= IZR z.
(** A wave around [nk] longitudes during [nt] times: [k] crests and [j] periods, moving east; or west. *)
Definition EastWave (nk nt k j : nat) (a phi : R) : list (list R) :=
  map (fun t => map (fun x => a * cos (2 * PI * INR k * INR x / INR nk - 2 * PI * INR j * INR t / INR nt + phi)) (seq 0 nk)) (seq 0 nt).
Definition WestWave (nk nt k j : nat) (a phi : R) : list (list R) :=
  map (fun t => map (fun x => a * cos (2 * PI * INR k * INR x / INR nk + 2 * PI * INR j * INR t / INR nt + phi)) (seq 0 nk)) (seq 0 nt).
Definition Zeros (nk nt : nat) : list (list R) := map (fun _ => map (fun _ => 0) (seq 0 nk)) (seq 0 nt).

Open Scope Z_scope.
(** The place of a limit of the wavenumbers among [nk] places: from the start, or from the end if it is negative, and not
    beyond the middle. *)
Definition Limit (nk : nat) (k : Q) (z : Z) : Prop :=
  (k < 0 -> exists r, Nearest (inject_Z (Z.of_nat nk) + k) r /\ z = Z.max r (Z.of_nat nk / 2))%Q /\
  (0 <= k -> exists r, Nearest k r /\ z = Z.min r (Z.of_nat nk / 2))%Q.
(** Between the limits, also across the end of the places. *)
Definition Between (lo hi i : Z) : Prop := (lo < hi -> lo <= i <= hi) /\ (hi <= lo -> i <= hi \/ lo <= i).
(** The wavenumber per metre that belongs to place [i] of [nk]. *)
Definition PlaceWavenumber (nk i : nat) : R :=
  if (2 * i <? nk)%nat then (INR i / 6371008)%R else ((INR i - INR nk) / 6371008)%R.
Definition KnownWave (name : string) : Prop :=
  In name ["Kelvin"; "kelvin"; "KELVIN"; "ER"; "er"; "MRG"; "IG0"; "mrg"; "ig0"; "IG1"; "ig1"; "IG2"; "ig2"]%string.
