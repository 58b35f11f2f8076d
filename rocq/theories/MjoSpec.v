(** Words for the statements about the filter of the OMI index. *)
From Coq Require Import Reals Qreals ZArith QArith List.
Import ListNotations.
Open Scope nat_scope.

(** The sum over two indices. *)
Definition DoubleSum (n m : nat) (f : nat -> nat -> R) : R :=
  fold_right Rplus 0%R (map (fun p => f (fst p) (snd p)) (list_prod (seq 0 n) (seq 0 m))).
(** The part of a field of [nt] times and [nl] longitudes that belongs to [p] periods and [q] waves around the circle, at
    time [t] and longitude [x]. *)
Definition Part (nt nl : nat) (v : nat -> nat -> R) (p q t x : nat) : R :=
  (DoubleSum nt nl (fun t' x' => v t' x' * cos (2 * PI * INR p * (INR t - INR t') / INR nt + 2 * PI * INR q * (INR x - INR x') / INR nl))
   / (INR nt * INR nl))%R.
(** The number that place [i] of a transform of [n] values stands for: negative in the second half. *)
Definition Signed (n i : nat) : Z := if 2 * i <=? n then Z.of_nat i else (Z.of_nat i - Z.of_nat n)%Z.
(** Whether frequency (per day) and wavenumber (east positive) of place [p], [q] are within the limits. *)
Definition Band (nt nl : nat) (spacing period_min period_max wn_min wn_max : Q) (p q : nat) : bool :=
  let f := (inject_Z (Signed nt p) / (inject_Z (Z.of_nat nt) * spacing))%Q in
  let s := inject_Z (- Signed nl q) in
  Qle_bool (1 / period_max) f && Qle_bool f (1 / period_min) && Qle_bool wn_min s && Qle_bool s wn_max.
(** The place of the conjugate coefficient. *)
Definition Opposite (n i : nat) : nat := if i =? 0 then 0 else n - i.
(** A coefficient is kept if it, and its conjugate, are within the limits; only those with a frequency from 0 count. *)
Definition Kept (nt nl : nat) (band : nat -> nat -> bool) (p q : nat) : bool :=
  ((nt <? 2 * p) || band p q) && ((nt <? 2 * Opposite nt p) || band (Opposite nt p) (Opposite nl q)).
(** [z] is [y] without its mean and its trend. *)
Definition Detrended (y z : list R) : Prop :=
  length z = length y /\
  (exists a b : R, forall t v w, nth_error y t = Some v -> nth_error z t = Some w -> w = v - (a + b * INR t))%R /\
  fold_right Rplus 0%R z = 0%R /\ fold_right Rplus 0%R (map (fun p => INR (fst p) * snd p)%R (combine (seq 0 (length z)) z)) = 0%R.
(** The values at longitude [x] of all times. *)
Definition Column (x : nat) (field : list (list R)) : list R := map (fun row => nth x row 0%R) field.
(** The place at which a coefficient is looked for after both halves were exchanged twice: its own if [n] is even, the one
    before if [n] is odd. *)
Definition Exchanged (n i : nat) : nat := (i + 2 * (n / 2)) mod n.
