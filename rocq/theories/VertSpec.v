(** Vertical interpolation and heights of pressure levels. *)
From Coq Require Import Reals List.
Import ListNotations.
Open Scope R_scope.

(** Level [i] of a column has the number [v]. *)
Definition At (column : list (option R)) (i : nat) (v : R) : Prop := nth_error column i = Some (Some v).
(** Level [i] of a column is missing. *)
Definition Gap (column : list (option R)) (i : nat) : Prop := nth_error column i = Some None.

(** Heights grow (fall) with the level number, apart from missing ones. *)
Definition Rising (z : list (option R)) : Prop :=
  forall i j a b, (i < j)%nat -> At z i a -> At z j b -> a < b.
Definition Falling (z : list (option R)) : Prop :=
  forall i j a b, (i < j)%nat -> At z i a -> At z j b -> b < a.

(** Linear interpolation between (h0, a) and (h1, b). *)
Definition line_through (h0 h1 a b x : R) : R := a + (x - h0) / (h1 - h0) * (b - a).

(** Pressure decreases with height and is positive; temperatures are positive. *)
Fixpoint Atmosphere (levels : list (R * R)) : Prop :=
  match levels with
  | [] => True
  | (p, t) :: rest => 0 < p /\ 0 < t /\ match rest with [] => True | (q, _) :: _ => q < p end /\ Atmosphere rest
  end.
(** Hypsometric equation: thickness of the layer between two pressures. *)
Definition hypsometric (ratio t lower upper : R) : R := ratio * t * ln (lower / upper).
(** Height of the last of some successive levels above the pressure [from]. *)
Fixpoint column_thickness (ratio from : R) (levels : list (R * R)) : R :=
  match levels with
  | [] => 0
  | (p, t) :: rest => hypsometric ratio t from p + column_thickness ratio p rest
  end.
