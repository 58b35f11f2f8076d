(** Series of numbers with missing values: autocorrelation, runs, standard errors. *)
From Coq Require Import Reals Qreals.
From Verif Require Import PyBase ColumnModel BaseSpec AggSpec Sl1l2Spec BootSpec.
Open Scope string_scope.
Open Scope Q_scope.

Definition self (x : Q) : Q := x.
(** Mean of the present values. *)
Definition series_mean (x : list pyval) : Q := mean_of self (known x).

(** Pairs of present values [k] places apart. *)
Fixpoint both (l : list (pyval * pyval)) : list (Q * Q) :=
  match l with
  | [] => []
  | (Some a, Some b) :: t => (a, b) :: both t
  | _ :: t => both t
  end.
Definition lag_pairs (k : nat) (x : list pyval) : list (Q * Q) := both (combine x (skipn k x)).

(** Autocovariance around [m] and autocorrelation at lag [k]. *)
Definition acov_around (m : Q) (k : nat) (x : list pyval) : Q :=
  total_of (fun p => (fst p - m) * (snd p - m)) (lag_pairs k x) / (count (lag_pairs k x) + inject_Z (Z.of_nat k)).
Definition acov (k : nat) (x : list pyval) : Q := acov_around (series_mean x) k x.
Definition acor (k : nat) (x : list pyval) : Q := acov k x / acov 0 x.

(** Not all present values are equal. *)
Definition Varies (x : list pyval) : Prop := exists a b, In a (known x) /\ In b (known x) /\ ~ a == b.
(** [a * v + b] of the present values. *)
Definition affine (a b : Q) (x : list pyval) : list pyval := map (option_map (fun v => a * v + b)) x.
(** No missing value. *)
Definition Complete (x : list pyval) : Prop := ~ In None x.
(** Lists of equal numbers. *)
Definition same_numbers (l l' : list Q) : Prop := Forall2 Qeq l l'.

(** Least-squares slope of the second members on the first. *)
Definition slope (l : list (Q * Q)) : Q := codev fst snd l / codev fst fst l.
(** Successive values. *)
Definition successive (l : list Q) : list (Q * Q) := combine l (tl l).

(** The value that separates high from low ones. *)
Definition ThresholdOf (name : string) (l : list Q) (t : Q) : Prop :=
  (name = "median" /\ Quantile l (1 # 2) t) \/ (name = "mean" /\ t == mean_of self l).
(** Sides on which the values different from [t] lie: [true] is above. *)
Fixpoint sides (t : Q) (l : list Q) : list bool :=
  match l with
  | [] => []
  | x :: rest =>
      match Qcompare x t with Gt => true :: sides t rest | Lt => false :: sides t rest | Eq => sides t rest end
  end.
Definition above (t : Q) (l : list Q) : nat := length (filter (fun b => b) (sides t l)).
Definition below (t : Q) (l : list Q) : nat := length (filter negb (sides t l)).
(** Number of places where the side changes, and number of runs. *)
Fixpoint switches (s : list bool) : nat :=
  match s with
  | a :: ((b :: _) as rest) => (if Bool.eqb a b then 0 else 1) + switches rest
  | _ => 0
  end.
Definition runs_of (s : list bool) : nat := match s with [] => 0 | _ => 1 + switches s end.

(** Expected number of runs and its variance for [p] high and [q] low values. *)
Definition runs_mean (p q : nat) : Q :=
  let p := inject_Z (Z.of_nat p) in let q := inject_Z (Z.of_nat q) in 1 + 2 * p * q / (p + q).
Definition runs_var (p q : nat) : Q :=
  let p := inject_Z (Z.of_nat p) in let q := inject_Z (Z.of_nat q) in
  2 * p * q * (2 * p * q - p - q) / ((p + q) * (p + q) * (p + q - 1)).
Definition runs_statistic (p q r : nat) : R :=
  (Q2R (inject_Z (Z.of_nat r) - runs_mean p q) / sqrt (Q2R (runs_var p q)))%R.
(** There are enough values on both sides. *)
Definition EnoughRuns (p q : nat) : Prop := (1 <= p)%nat /\ (1 <= q)%nat /\ (3 <= p + q)%nat.
Definition alternatives : list string := ["two.sided"; "left.sided"; "right.sided"].

(** Series for the examples. *)
Definition gap_series : list pyval :=
  [Some 3; Some 3; None; Some (-1); None; Some (-1); None; Some (-1); None; Some (-1); None; Some (-1); None; Some (-1)].
Definition small_series : list pyval := [Some 1; Some 4; None; Some 2; Some 5; Some 3; Some 9].
