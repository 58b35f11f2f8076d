(** Words for the statements about spectra of tropical waves. *)
From Coq Require Import Reals QArith List.
Import ListNotations.
Open Scope nat_scope.

(** The weight at place [k] of the first [m] of a cosine bell: between the places the bell starts from 0 and ends at 1. *)
Definition Rise (m k : nat) : R := ((1 - cos (PI * (INR k + 1 / 2) / INR m)) / 2)%R.
(** The same with the value 0 at the place itself. *)
Definition RiseFromZero (m k : nat) : R := ((1 - cos (PI * INR k / INR m)) / 2)%R.
(** The weight at place [p] of [n] if both ends are tapered over [m] places with [rise]. *)
Definition BothEnds (rise : nat -> nat -> R) (n m p : nat) : R :=
  ((if p <? m then rise m p else 1) * (if n - 1 - p <? m then rise m (n - 1 - p)%nat else 1))%R.

(** The cell in row [k] and column [j]. *)
Definition Cell (data : list (list (option Q))) (k j : nat) : option (option Q) :=
  match nth_error data k with Some row => nth_error row j | None => None end.
(** The values of column [j] that are not missing, of the times up to [i] that are at most 120 days before time [i];
    times are seconds. *)
Definition Last120 (time : list Z) (data : list (list (option Q))) (i j : nat) : list Q :=
  flat_map (fun k => match nth_error time i, nth_error time k, Cell data k j with
                     | Some ti, Some tk, Some (Some x) => if Z.leb (ti - tk) (120 * 86400) then [x] else []
                     | _, _, _ => []
                     end) (seq 0 (S i)).
(** The mean of numbers. *)
Definition MeanOf (l : list Q) (m : Q) : Prop :=
  l <> [] /\ (m * inject_Z (Z.of_nat (length l)) == fold_right Qplus 0 l)%Q.
(** Times with equal steps of [dt] seconds. *)
Definition EqualSteps (t0 dt : Z) (time : list Z) : Prop :=
  forall k t, nth_error time k = Some t -> t = (t0 + Z.of_nat k * dt)%Z.
(** The rows have equal lengths. *)
Definition Grid {A : Type} (width : nat) (data : list (list A)) : Prop := Forall (fun row => length row = width) data.
(** The wavenumber [k] in the order of the transform of [n] values: negative ones come after the others. *)
Definition TransformPlace (n : nat) (k : Z) : nat := Z.to_nat (k mod Z.of_nat n).
