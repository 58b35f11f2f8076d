(** Specification of weather regimes. *)
From Verif Require Import PyBase BaseSpec BlockSpec CblSpec.
From Coq Require Import Reals Qreals Permutation.
From Coq Require Import List.
Open Scope Z_scope.

(** ** Regimes by frequency *)
(** The order of a list from the smallest to the greatest value; equal values in any order. *)
Definition Sorts (l : list Q) (order : list nat) : Prop :=
  Permutation order (seq 0 (length l)) /\
  forall k1 k2 i1 i2 q1 q2, (k1 < k2)%nat -> nth_error order k1 = Some i1 -> nth_error order k2 = Some i2 ->
    nth_error l i1 = Some q1 -> nth_error l i2 = Some q2 -> (q1 <= q2)%Q.
(** The share of days with a label. *)
Definition Share (labels : list Q) (label q : Q) : Prop :=
  exists marks, Forall2 (fun v m => (v == label)%Q /\ m = 1%nat \/ ~ (v == label)%Q /\ m = 0%nat) labels marks /\
    (q * inject_Z (Z.of_nat (length labels)) == inject_Z (Z.of_nat (list_sum marks)))%Q.

(** ** Matching of forecast regimes *)
(** The result of a reordering: place [w] has the pattern and share of the regime [order w] (counted from 1), and
    the days of that regime the label [w + 1]; days of regimes that are not in the order have no label. *)
Definition Taken {A : Type} (order : list Z) (old : list A) (new : list (option A)) : Prop :=
  length new = length old /\
  forall w o, nth_error order w = Some o -> exists x, nth_error old (Z.to_nat (o - 1)) = Some x /\ nth_error new w = Some (Some x).
Definition Labelled (order : list Z) (v : Q) (new : option Q) : Prop :=
  match new with
  | Some q => exists w o, nth_error order w = Some o /\ (v == inject_Z o)%Q /\ q = inject_Z (Z.of_nat w + 1) /\
                forall w' o', (w < w')%nat -> nth_error order w' = Some o' -> ~ (v == inject_Z o')%Q
  | None => forall o, In o order -> ~ (v == inject_Z o)%Q
  end.
Definition Reordered {A : Type} (order : list Z) (patterns : list A) (perc labels : list Q)
  (new : list (option A) * list (option Q) * list (option Q)) : Prop :=
  Taken order patterns (fst (fst new)) /\ Taken order perc (snd (fst new)) /\ Forall2 (Labelled order) labels (snd new).
(** Sum of the products of the deviations from the means. *)
Definition Comoment (x y : list Q) (c : Q) : Prop :=
  exists mx my, (mx == qsum x / inject_Z (Z.of_nat (length x)))%Q /\ (my == qsum y / inject_Z (Z.of_nat (length y)))%Q /\
    (c == qsum (map (fun p => ((fst p - mx) * (snd p - my))%Q) (combine x y)))%Q.
(** The coefficient of correlation. *)
Definition Correlation (x y : list Q) (r : R) : Prop :=
  length x = length y /\ exists sxy sxx syy, Comoment x y sxy /\ Comoment x x sxx /\ Comoment y y syy /\
    (0 < sxx)%Q /\ (0 < syy)%Q /\ (r * (sqrt (Q2R sxx) * sqrt (Q2R syy)) = Q2R sxy)%R.
(** The forecast regime (from 1) with the greatest correlation; the first of several. *)
Definition BestMatch (obs fcst : list (list Q)) (w : nat) (o : Z) : Prop :=
  exists x y r, nth_error obs w = Some x /\ 1 <= o /\ nth_error fcst (Z.to_nat (o - 1)) = Some y /\ Correlation x y r /\
    forall k y' r', nth_error fcst k = Some y' -> Correlation x y' r' -> (r' <= r)%R /\ (Z.of_nat k < o - 1 -> (r' < r)%R).
(** Not all values are the same. *)
Definition Varies (x : list Q) : Prop := exists p q, In p x /\ In q x /\ ~ (p == q)%Q.

(** ** Frequencies *)
(** The number of days with a label among the [n] days from [d]. *)
Fixpoint days_with (label : Q) (l : list Q) : Z :=
  match l with [] => 0 | v :: t => (if Qeq_bool v label then 1 else 0) + days_with label t end.

(** ** Anomalies *)
(** A cell of an array by year, day, latitude and longitude. *)
Definition At {A : Type} (data : list (list (list (list A)))) (y d i j : nat) (x : A) : Prop :=
  exists days day row, nth_error data y = Some days /\ nth_error days d = Some day /\ nth_error day i = Some row /\ nth_error row j = Some x.
Definition Grid {A : Type} (ndays nlat nlon : nat) (data : list (list (list (list A)))) : Prop :=
  forall days, In days data -> length days = ndays /\ forall day, In day days -> length day = nlat /\ forall row, In row day -> length row = nlon.
(** The deviation from the mean of the same day in all years, times a weight. *)
Definition AnomalyOf (years : list heights) (d i j : nat) (weight : R) (q : Q) (r : R) : Prop :=
  exists vs qs m, length vs = length years /\ (forall y v, nth_error vs y = Some v -> At years y d i j v) /\ Present vs qs /\
    (m == qsum qs / inject_Z (Z.of_nat (length qs)))%Q /\ r = (Q2R (q - m) * weight)%R.
(** For examples: an order of a list from the smallest value, by insertion. *)
Fixpoint sort_insert (l : list Q) (i : nat) (order : list nat) : list nat :=
  match order with
  | [] => [i]
  | k :: t => if Qle_bool (nth k l 0%Q) (nth i l 0%Q) then k :: sort_insert l i t else i :: k :: t
  end.
Definition sort_order (l : list Q) : list nat := fold_left (fun acc i => sort_insert l i acc) (seq 0 (length l)) [].
(** For examples: two or three years of one day. *)
Definition anomaly_years : list heights := [[[[Some 1%Q; Some 1%Q]; [Some 0%Q; None]]]; [[[Some 2%Q; Some 4%Q]; [None; None]]]].
Definition trend_years : list heights := [[[[Some 1%Q]; [None]]]; [[[Some 3%Q]; [None]]]; [[[Some 5%Q]; [None]]]].
