(** Words for the statements about tropical diagnostics. *)
From Coq Require Import List QArith.
Import ListNotations.
Open Scope Q_scope.

(** The same meridian. *)
Definition SamePlace (x y : Q) : Prop := exists turns : Z, x == y + 360 * inject_Z turns.
(** Every value of [row'] is a value of [row] from the same meridian. *)
Definition AtPlace {A : Type} (lon : list Q) (row : list A) (lon' : list Q) (row' : list A) : Prop :=
  length row' = length lon' /\
  forall i x v, nth_error lon' i = Some x -> nth_error row' i = Some v ->
    exists j y, nth_error lon j = Some y /\ nth_error row j = Some v /\ SamePlace x y.
(** No meridian twice. *)
Definition Meridians (lon : list Q) : Prop :=
  forall i j x y, nth_error lon i = Some x -> nth_error lon j = Some y -> SamePlace x y -> i = j.
(** Every row of the data has [n] values. *)
Definition Wide {A : Type} (n : nat) (data : list (list (list A))) : Prop :=
  Forall (Forall (fun row => length row = n)) data.
(** The sum of numbers. *)
Definition Total (l : list Q) : Q := fold_right Qplus 0 l.
(** The value at place [i], if there is a place [i] and its value is not missing. *)
Definition Present (l : list (option Q)) (i : nat) (x : Q) : Prop := nth_error l i = Some (Some x).
(** Place [i] of the list has a missing value. *)
Definition Missing (l : list (option Q)) (i : nat) : Prop := nth_error l i = Some None.
(** Place [i] has no number: it is missing or outside the list. *)
Definition Without (l : list (option Q)) (i : nat) : Prop := forall x, ~ Present l i x.
(** The value [f x y] at every place of two rows; missing if one of them is. *)
Definition Cellwise (f : Q -> Q -> Q) (r s t : list (option Q)) : Prop :=
  length t = length r /\
  forall i, (forall x y, Present r i x -> Present s i y -> exists z, Present t i z /\ z == f x y) /\
            ((i < length r)%nat -> Missing r i \/ Missing s i -> Missing t i).
(** Latitudes that mirror each other, from south to north or from north to south. *)
Definition Mirrored (lat : list Q) : Prop :=
  forall k x y, nth_error lat k = Some x -> nth_error lat (length lat - 1 - k) = Some y -> y == - x.
Definition SouthToNorth (lat : list Q) : Prop :=
  forall i j x y, (i < j)%nat -> nth_error lat i = Some x -> nth_error lat j = Some y -> x < y.
Definition NorthToSouth (lat : list Q) : Prop :=
  forall i j x y, (i < j)%nat -> nth_error lat i = Some x -> nth_error lat j = Some y -> y < x.
