(** Words for the statements about the wind power of the Madden-Julian oscillation. *)
From Coq Require Import Reals List.
Import ListNotations.
Open Scope nat_scope.

(** The width of an equatorial Kelvin wave in degrees: wave speed and the change of the Coriolis parameter per metre. *)
Definition Width : R := (sqrt (sqrt (8829 / 1000) / (228 / 10 ^ 13)) / 111000)%R.
Section Latitudes.
Variables (first last : R) (n : nat).
(** The step, in widths, and the middle of step [j], of [n] steps between the first and the last latitude. *)
Definition Step : R := ((last - first) / Width / INR n)%R.
Definition Middle (j : nat) : R := (first / Width + (INR j + 1 / 2) * Step)%R.
(** [m] is the middle nearest to the equator, the first one if there are two. *)
Definition Nearest (m : nat) : Prop :=
  m < n /\ (forall j, j < n -> (Rabs (Middle m) <= Rabs (Middle j))%R) /\ (forall j, j < m -> (Rabs (Middle m) < Rabs (Middle j))%R).
(** [phi] solves the equation of the Kelvin wave by the trapezoidal rule: the slope between two middles is minus the mean of
    latitude times [phi]. *)
Definition Trapezoid (phi : nat -> R) : Prop :=
  forall j, j + 1 < n -> ((phi (j + 1)%nat - phi j) / Step = - (Middle j * phi j + Middle (j + 1)%nat * phi (j + 1)%nat) / 2)%R.
(** No middle is where a quotient would have the divisor 0. *)
Definition Regular : Prop := forall j, j < n -> (Middle j * Step <> 2 /\ Middle j * Step <> -2)%R.
End Latitudes.
(** A field is as large as it should be. *)
Definition OfShape (nt nlat nlon : nat) (f : list (list (list (option R)))) : Prop :=
  length f = nt /\ Forall (fun g => length g = nlat /\ Forall (fun r => length r = nlon) g) f.
Definition Entry (f : list (list (list (option R)))) (t j i : nat) : option R := nth i (nth j (nth t f []) []) None.
