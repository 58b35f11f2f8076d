(** Vocabulary of the properties of piecewise linear functions and of the difficulty index. *)
From Coq Require Import Qabs.
From Verif Require Import PyBase.
Open Scope Q_scope.

(** Nodes in strictly ascending order. *)
Fixpoint StrictlyAscending (l : list Q) : Prop :=
  match l with
  | [] => True
  | x :: t => (forall y, In y t -> x < y) /\ StrictlyAscending t
  end.

(** Neighbouring nodes. *)
Definition Neighbours (xs ys : list Q) (x0 y0 x1 y1 : Q) : Prop :=
  exists k, nth_error xs k = Some x0 /\ nth_error ys k = Some y0 /\
            nth_error xs (S k) = Some x1 /\ nth_error ys (S k) = Some y1.

(** The height at [x] of the straight line through two points. *)
Definition line (x0 y0 x1 y1 x : Q) : Q := y0 + (y1 - y0) * ((x - x0) / (x1 - x0)).

(** [m] is the largest member. *)
Definition Largest (m : Q) (l : list Q) : Prop := In m l /\ forall x, In x l -> x <= m.

(** Share of the members below the threshold. *)
Fixpoint below (threshold : Q) (l : list Q) : nat :=
  match l with
  | [] => 0
  | x :: t => (if Qlt_le_dec x threshold then 1 else 0) + below threshold t
  end.
Definition fraction_below (threshold : Q) (l : list Q) : Q :=
  inject_Z (Z.of_nat (below threshold l)) / inject_Z (Z.of_nat (length l)).

(** The documented index of one grid point: the taper times the average of the normalised spread
    and of the closeness of the share below the threshold to [1 - under_factor]. *)
Definition index_formula (taper spread largest_spread under_factor share : Q) : Q :=
  taper * ((spread / largest_spread + (1 - Qabs (1 - under_factor - share))) / 2).

(** The distance from 1 to the next number in single precision. *)
Definition single_precision : Q := 1 # 8388608.
