(** Standard errors of series and statistics of revision series. *)
From Coq Require Import Reals Qreals.
From Verif Require Import PyBase ColumnModel BaseSpec AggSpec Sl1l2Spec BootSpec SeriesModel SeriesSpec.
Open Scope string_scope.
Open Scope Q_scope.

(** Unbiased variance. *)
Definition sample_variance (l : list Q) : Q := codev self self l / (count l - 1).
(** Not all values are equal. *)
Definition Spread (l : list Q) : Prop := exists a b, In a l /\ In b l /\ ~ a == b.
(** Standard error of the mean of [n] values of variance [v]. *)
Definition plain_error (v : Q) (n : nat) : R := (sqrt (Q2R v) / sqrt (INR n))%R.
(** Factor applied to it for an autocorrelation coefficient [a]. *)
Definition inflation (a : Q) : R :=
  if Qlt_le_dec a (3 # 10) then 1%R
  else if Qlt_le_dec a (99 # 100) then sqrt (Q2R ((1 + a) / (1 - a))) else 1%R.
(** A coefficient that is not a correlation. *)
Definition impossible (a : Q) : Prop := a < -1 \/ 1 < a.
Definition flag_of (a : Q) : Z := if Qlt_le_dec a (-1) then 1%Z else if Qlt_le_dec 1 a then 1%Z else 0%Z.
(** Series of numbers, and the numbers present in a series. *)
Definition numbers (l : list Q) : list sval := map Num l.
Fixpoint present (l : list sval) : list Q :=
  match l with [] => [] | Num q :: t => q :: present t | _ :: t => present t end.
(** Standard error from a distance [w] of the quartiles of [n] values. *)
Definition quartile_error (w : Q) (n : nat) : R := (Q2R w * sqrt (PI / 2) / ((1349 / 1000) * sqrt (INR n)))%R.
(** [w] is the distance between the quartiles. *)
Definition QuartileRange (l : list Q) (w : Q) : Prop :=
  exists a b, Quantile l (1 # 4) a /\ Quantile l (3 # 4) b /\ w == b - a.

(** [q] is [x] rounded to two decimals, a tie going to the even side. *)
Definition Rounded2 (x : R) (q : Q) : Prop :=
  exists k, q == k # 100 /\ (Rabs (x - IZR k / 100) <= 1 / 200)%R /\ ((Rabs (x - IZR k / 100) = 1 / 200)%R -> Z.Even k).
(** Values of one revision, and all revisions in order of first appearance. *)
Definition of_revision (i : string) (rows : list (string * pyval)) : list pyval :=
  map snd (filter (fun r => String.eqb (fst r) i) rows).
Fixpoint first_seen (l : list string) : list string :=
  match l with
  | [] => []
  | i :: t => i :: filter (fun j => negb (String.eqb i j)) (first_seen t)
  end.
Definition revisions (rows : list (string * pyval)) : list string := first_seen (map fst rows).
(** All present values, revision by revision. *)
Definition in_order (rows : list (string * pyval)) : list Q :=
  concat (map (fun i => known (of_revision i rows)) (revisions rows)).
(** Pairs of successive values of the same revision. *)
Definition within (rows : list (string * pyval)) : list (Q * Q) :=
  concat (map (fun i => lag_pairs 1 (of_revision i rows)) (revisions rows)).
(** Lag-1 autocorrelation that pairs values of the same revision only. *)
Definition revision_acor (rows : list (string * pyval)) : Q :=
  let l := in_order rows in let m := mean_of self l in
  (total_of (fun p => (fst p - m) * (snd p - m)) (within rows) / (count (within rows) + 1)) / (codev self self l / count l).
(** The constant divided by the square root of the series length. *)
Definition revision_p (n : nat) : R := (Q2R (6270678 # 100000000) / sqrt (INR n))%R.

(** Data for the examples. *)
Definition falling : list Q := [2; 1; 1; 1; 0].
Definition two_revisions : list (string * pyval) :=
  [("A", Some 1); ("B", Some 4); ("A", Some 2); ("B", Some 7); ("B", None); ("A", Some 5); ("B", Some 3)].
