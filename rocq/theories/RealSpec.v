(** Published value of a real quantity; see [Nearest] and [Published] in BaseSpec. *)
From Coq Require Import Reals Qreals.
From Verif Require Import PyBase BaseSpec.

Definition NearestR (d : nat) (x : R) (w : Q) : Prop :=
  MultipleOf d w /\ (Q2R w <= x + Q2R (half_unit d))%R /\ (x - Q2R (half_unit d) < Q2R w)%R.

Definition PublishedR (x : option R) (r : option Q) : Prop :=
  match x, r with
  | None, None => True
  | Some v, Some w => NearestR 7 v w
  | _, _ => False
  end.
