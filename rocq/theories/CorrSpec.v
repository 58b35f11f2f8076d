(** Words for the statements about correlations. *)
From Coq Require Import Reals List Sorting.Sorted Sorting.Permutation.
From Verif Require Import ActivitySpec CorrModel.
Import ListNotations.
Open Scope nat_scope.

(** The pairs without a missing value. *)
Definition Pairs (x y : list (option R)) : list (R * R) :=
  flat_map (fun p => match p with (Some a, Some b) => [(a, b)] | _ => [] end) (combine x y).
(** All values are equal. *)
Definition AllSame (x : list R) : Prop := forall u v, In u x -> In v x -> u = v.
(** [m] is the mean of the two values in the middle (of an odd number: the value in the middle). *)
Definition Median (l : list R) (m : R) : Prop :=
  exists s a b, Permutation l s /\ StronglySorted Rle s /\
    nth_error s ((length s - 1) / 2) = Some a /\ nth_error s (length s / 2) = Some b /\ (2 * m = a + b)%R.
(** The median and the median distance from it. *)
Definition Center (x : list R) (m d : R) : Prop := Median x m /\ Median (map (fun v => Rabs (v - m)) x) d.
(** The correlation of deviations. *)
Definition Cosine (a b : list R) (r : R) : Prop :=
  length a = length b /\ (0 < Product a a)%R /\ (0 < Product b b)%R /\ (r * sqrt (Product a a * Product b b) = Product a b)%R.
(** Deviations with weights that fall to 0 at nine times the median distance. *)
Definition Biweighted (x xn : list R) : Prop :=
  exists m d, Center x m d /\ (0 < d)%R /\
    Forall2 (fun v w => (Rabs (v - m) < 9 * d -> w = (v - m) * (1 - ((v - m) / (9 * d)) ^ 2) ^ 2)%R /\
                        (9 * d <= Rabs (v - m) -> w = 0)%R) x xn.
(** [w] is the distance from the median [m] that four fifths (rounded down) of the values do not exceed. *)
Definition Reach (x : list R) (m w : R) : Prop :=
  Median x m /\
  exists s, Permutation (map (fun v => Rabs (v - m)) x) s /\ StronglySorted Rle s /\ nth_error s (4 * length x / 5 - 1) = Some w.
(** Deviations from the bent mean [c], in units of [w], cut at -1 and 1. *)
Definition Bent (x a : list R) : Prop :=
  exists m w c, Reach x m w /\ (0 < w)%R /\
    (exists low mid high, Permutation x (low ++ mid ++ high) /\ Forall (fun v => v < m - w)%R low /\
       Forall (fun v => m - w <= v <= m + w)%R mid /\ Forall (fun v => m + w < v)%R high /\ mid <> [] /\
       (c * INR (length mid) = fold_right Rplus 0 mid + w * (INR (length high) - INR (length low)))%R) /\
    a = map (fun v => Rmax (-1) (Rmin 1 ((v - c) / w))) x.
(** A value and its negative. *)
Definition Opposite (c c' : option R) : Prop :=
  match c, c' with Some u, Some v => v = (- u)%R | None, None => True | _, _ => False end.
