(** Terms of the statements C143 and C144. *)
From Coq Require Import Reals List.
Import ListNotations.
Open Scope R_scope.

(** Sums over the numbers below [n]. *)
Definition Sum (n : nat) (f : nat -> R) : R := fold_right Rplus 0 (map f (seq 0 n)).
(** A matrix as rows, and its element. *)
Definition rows (n p : nat) (x : nat -> nat -> R) : list (list R) := map (fun t => map (x t) (seq 0 p)) (seq 0 n).
Definition elem (m : list (list R)) (i j : nat) : R := nth j (nth i m []) 0.
Definition IsRows (m : list (list R)) (n p : nat) : Prop := length m = n /\ Forall (fun row => length row = p) m.
(** [q] vectors of length [n] (the columns of [u], the rows of [v]) that are orthogonal and of length one. *)
Definition OrthoColumns (n q : nat) (u : list (list R)) : Prop :=
  forall k l, (k < q)%nat -> (l < q)%nat -> Sum n (fun t => elem u t k * elem u t l) = if Nat.eqb k l then 1 else 0.
Definition OrthoRows (q p : nat) (v : list (list R)) : Prop :=
  forall k l, (k < q)%nat -> (l < q)%nat -> Sum p (fun j => elem v k j * elem v l j) = if Nat.eqb k l then 1 else 0.
(** The singular value decomposition of an n by p matrix. *)
Record IsSvd (n p : nat) (x : nat -> nat -> R) (d : list (list R) * list R * list (list R)) : Prop := {
  svd_left : IsRows (fst (fst d)) n (Nat.min n p) /\ OrthoColumns n (Nat.min n p) (fst (fst d));
  svd_right : IsRows (snd d) (Nat.min n p) p /\ OrthoRows (Nat.min n p) p (snd d);
  svd_length : length (snd (fst d)) = Nat.min n p;
  svd_order : forall k l, (k <= l)%nat -> (l < Nat.min n p)%nat -> 0 <= nth l (snd (fst d)) 0 <= nth k (snd (fst d)) 0;
  svd_product : forall t j, (t < n)%nat -> (j < p)%nat -> x t j = Sum (Nat.min n p) (fun k => elem (fst (fst d)) t k * nth k (snd (fst d)) 0 * elem (snd d) k j) }.

(** Arrays of any number of dimensions in row order: the place of an index, an index with [t] put in at [dim], sizes without [dim]. *)
Fixpoint Offset (shape idx : list nat) : nat :=
  match shape, idx with _ :: shape', i :: idx' => (i * fold_right Nat.mul 1%nat shape' + Offset shape' idx')%nat | _, _ => 0%nat end.
Definition With (dim t : nat) (idx : list nat) : list nat := firstn dim idx ++ t :: skipn dim idx.
Definition Others (dim : nat) (shape : list nat) : list nat := firstn dim shape ++ skipn (S dim) shape.
Definition InShape (idx shape : list nat) : Prop := Forall2 lt idx shape.
Definition Size (shape : list nat) : nat := fold_right Nat.mul 1%nat shape.
(** [x] holds the data, one row for each place along [dim]. *)
Definition DataRows (shape : list nat) (value : list nat -> R) (dim : nat) (x : nat -> nat -> R) : Prop :=
  forall t idx, (t < nth dim shape 0)%nat -> InShape idx (Others dim shape) -> x t (Offset (Others dim shape) idx) = value (With dim t idx).
(** Mean and standard deviation of a column, and its standardised values. *)
Definition Mean (n : nat) (f : nat -> R) : R := Sum n f / INR n.
Definition Deviation (n : nat) (f : nat -> R) : R := sqrt (Mean n (fun t => (f t - Mean n f) * (f t - Mean n f))).
Definition Standard (n : nat) (x : nat -> nat -> R) (t j : nat) : R :=
  (x t j - Mean n (fun t => x t j)) / Deviation n (fun t => x t j).
(** The sum of all squares. *)
Definition Energy (n p : nat) (x : nat -> nat -> R) : R := Sum n (fun t => Sum p (fun j => x t j * x t j)).

(** Years of days of grid points, all of the same sizes; the value of year [y], day [d] and place [j]. *)
Definition Years (eofin : list (list (list R))) (nd np : nat) : Prop := Forall (fun year => IsRows year nd np) eofin.
Definition record_ (eofin : list (list (list R))) (y d j : nat) : R := nth j (nth d (nth y eofin []) []) 0.
(** All values are there. *)
Definition Present (m : list (list (option R))) (n p : nat) (x : nat -> nat -> R) : Prop :=
  m = map (fun t => map (fun j => Some (x t j)) (seq 0 p)) (seq 0 n).
(** For the examples: two times and two places; the data (3, 0), (0, 1); the decompositions of such data, of their centered columns and of one number. *)
Definition two_by_two (idx : list nat) : R := match idx with [0%nat; 0%nat] => 3 | [1%nat; 1%nat] => 1 | _ => 0 end.
Definition small (t j : nat) : R := match t, j with 0%nat, 0%nat => 3 | 1%nat, 1%nat => 1 | _, _ => 0 end.
Definition easy_svd (_ : list (list R)) : list (list R) * list R * list (list R) := ([[1; 0]; [0; 1]], [3; 1], [[1; 0]; [0; 1]]).
(** Three years of one day and place, already without mean and trend; two years without any change. *)
Definition hump : list (list (list R)) := [[[1]]; [[-2]]; [[1]]].
Definition hump_svd : list (list R) * list R * list (list R) := ([[1 / sqrt 6]; [-2 / sqrt 6]; [1 / sqrt 6]], [sqrt 6], [[1]]).
Definition flat : list (list (list R)) := [[[0; 0]]; [[0; 0]]].
Definition flat_svd : list (list R) * list R * list (list R) := ([[1; 0]; [0; 1]], [0; 0], [[1; 0]; [0; 1]]).
