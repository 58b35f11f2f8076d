(** Words for the statements about the filter of periods and the zonal mean of the variance. *)
From Coq Require Import Reals Qreals ZArith QArith List.
From Verif Require Import WavesSpec.
Import ListNotations.
Open Scope nat_scope.

(** How much of the cosine and of the sine with [m] periods in [n] values is in [v]. *)
Definition CosSum (n : nat) (v : nat -> R) (m : nat) : R := Total (map (fun s => v s * cos (Turn n m s))%R (seq 0 n)).
Definition SinSum (n : nat) (v : nat -> R) (m : nat) : R := Total (map (fun s => v s * sin (Turn n m s))%R (seq 0 n)).
(** The sum of the cosines chosen by [kc] and the sines chosen by [ks], at time [t]. *)
Definition Chosen (n : nat) (kc ks : nat -> bool) (v : nat -> R) (t : nat) : R :=
  Total (map (fun m => 2 / INR n * ((if kc m then CosSum n v m * cos (Turn n m t) else 0) +
                                    (if ks m then SinSum n v m * sin (Turn n m t) else 0)))%R (seq 1 (n / 2 - 1))).
(** [k] periods in [n] values [dt] days apart: a period within the limits, of more than two values. *)
Definition WithinPeriods (n : nat) (dt a b : Q) (k : nat) : bool :=
  let p := (inject_Z (Z.of_nat n) * dt / inject_Z (Z.of_nat k))%Q in
  (2 * k <? n) && Qle_bool a p && Qle_bool p b.
(** [new] is [c] times [old] plus a line. *)
Definition LineIn (c : R) (old new : list R) : Prop :=
  length new = length old /\ exists a b : R, forall t, t < length old -> nth t new 0%R = (c * nth t old 0 + (a + b * INR t))%R.

(** The values that are there. *)
Definition Present (l : list (option Q)) : list Q := flat_map (fun o => match o with Some x => [x] | None => [] end) l.
Definition MeanQ (l : list Q) : Q := (fold_right Qplus 0 l / inject_Z (Z.of_nat (length l)))%Q.
Definition VarianceQ (l : list Q) : Q := MeanQ (map (fun x => (x - MeanQ l) ^ 2)%Q l).
(** The series at longitude [j]. *)
Definition SeriesAt (j : nat) (data : list (list (option Q))) : list (option Q) := map (fun row => nth j row None) data.
(** The variances of the longitudes with values. *)
Definition Variances (nlon : nat) (data : list (list (option Q))) : list Q :=
  flat_map (fun j => match Present (SeriesAt j data) with [] => [] | xs => [VarianceQ xs] end) (seq 0 nlon).
(** Rows of [nlon] values. *)
Definition Full (nlon : nat) (data : list (list (option Q))) : Prop := Forall (fun row => length row = nlon) data.
