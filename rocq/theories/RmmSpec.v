(** Words for the statements about the indices RMM and OMI. *)
From Coq Require Import Reals Qreals ZArith QArith List.
From Verif Require Import SpectraSpec.
Import ListNotations.
Open Scope nat_scope.

Definition Sum (l : list R) : R := fold_right Rplus 0%R l.
(** The squared distance of [v] from [a] times [e1] plus [b] times [e2]. *)
Definition Distance (v e1 e2 : list R) (a b : R) : R :=
  Sum (map (fun i => (nth i v 0 - (a * nth i e1 0 + b * nth i e2 0)) ^ 2)%R (seq 0 (length v))).
(** The coefficients [p] come nearest to [v], and are the least that do. *)
Definition BestFit (v e1 e2 : list R) (p : R * R) : Prop :=
  forall a b : R, (Distance v e1 e2 (fst p) (snd p) <= Distance v e1 e2 a b)%R /\
                  (Distance v e1 e2 a b = Distance v e1 e2 (fst p) (snd p) -> fst p ^ 2 + snd p ^ 2 <= a ^ 2 + b ^ 2)%R.
(** No pattern is a multiple of the other. *)
Definition Independent (e1 e2 : list R) : Prop :=
  forall a b : R, (forall i, a * nth i e1 0 + b * nth i e2 0 = 0)%R -> a = 0%R /\ b = 0%R.
(** [w] is [c] times [u] plus [d] times [v]. *)
Definition Combination (c : R) (u : list R) (d : R) (v w : list R) : Prop :=
  length u = length w /\ length v = length w /\ forall i, nth i w 0%R = (c * nth i u 0 + d * nth i v 0)%R.
Definition Inner (u v : list R) : R := Sum (map (fun i => nth i u 0 * nth i v 0)%R (seq 0 (length u))).

(** An array of [n] times and [width] longitudes without missing values. *)
Definition Complete (n width : nat) (data : list (list (option Q))) : Prop :=
  length data = n /\ Grid width data /\ Forall (Forall (fun o => o <> None)) data.
(** [a] is what remains at time [i] and longitude [j] of the value without the mean of the last 120 days, over [n]. *)
Definition Anomaly (time : list Z) (data : list (list (option Q))) (n : Q) (i j : nat) (a : R) : Prop :=
  exists x m, Cell data i j = Some (Some x) /\ MeanOf (Last120 time data i j) m /\ a = ((Q2R x - Q2R m) / Q2R n)%R.
(** [data'] is [data] with the number [c j] added at each longitude [j]. *)
Definition Shifted (c : nat -> Q) (data data' : list (list (option Q))) : Prop :=
  forall i j x, Cell data i j = Some (Some x) -> exists y, Cell data' i j = Some (Some y) /\ (y == x + c j)%Q.
(** Three rows of [width] numbers. *)
Definition ThreeRows (width : nat) (p : list (list R)) : Prop := length p = 3 /\ Forall (fun r => length r = width) p.

(** The values of time [i] at all places, latitude by latitude. *)
Definition DayRow (i : nat) (data : list (list (list R))) : list R := concat (map (fun f => nth i f []) data).
(** Variance of numbers. *)
Definition Average (l : list R) : R := (Sum l / INR (length l))%R.
Definition Spread (l : list R) : R := Average (map (fun x => (x - Average l) ^ 2)%R l).
(** [new] is [c] times [old] plus a line in time, which may be another one at each place. *)
Definition LineAdded (c : R) (old new : list (list (list R))) : Prop :=
  length new = length old /\
  forall k f f', nth_error old k = Some f -> nth_error new k = Some f' ->
    exists a b : nat -> R, forall t x row row' v v', nth_error f t = Some row -> nth_error f' t = Some row' ->
      nth_error row x = Some v -> nth_error row' x = Some v' -> v' = (c * v + (a x + b x * INR t))%R.
