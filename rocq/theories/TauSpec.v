(** Words for the statements about the wind stress of the Madden-Julian oscillation. *)
From Coq Require Import Reals ZArith Bool List.
Import ListNotations.
Open Scope nat_scope.

(** The sum over the numbers below [n]. *)
Definition SumBelow (n : nat) (f : nat -> R) : R := fold_right Rplus 0%R (map f (seq 0 n)).
(** A series, which is 0 before its first and after its last value. *)
Definition Around0 (s : list R) (z : Z) : R := if (z <? 0)%Z then 0%R else nth (Z.to_nat z) s 0%R.
(** The sum of the values around time [t] times the weights of the filter [f], the later ones first. *)
Definition Smooth (f : list R) (s : Z -> R) (t : Z) : R :=
  SumBelow (length f) (fun i => nth i f 0 * s (t + Z.of_nat ((length f - 1) / 2) - Z.of_nat i)%Z)%R.
(** What the second filter makes of the series without what the first filter makes of it. *)
Definition BandPass (s f1 f2 : list R) (t : nat) : R :=
  Smooth f2 (fun z => if (0 <=? z)%Z && (z <? Z.of_nat (length s))%Z then Around0 s z - Smooth f1 (Around0 s) z else 0)%R (Z.of_nat t).

Section Flux.
Variable nt : nat.
(** Points with their series of values or gaps, patterns with a value at each point, and two filters for each point. *)
Variable flux : list (list (option R)).
Variable patterns : list (list (option R)).
Variable filt1 filt2 : list (list R).
(** The value, if there is one. *)
Definition Value (o : option R) : R := match o with Some x => x | None => 0%R end.
(** The points with a value at the eleventh time. *)
Definition Used : list nat := filter (fun i => match nth 10 (nth i flux []) None with Some _ => true | None => false end) (seq 0 (length flux)).
Definition Count : nat := length Used.
Definition Point (k : nat) : nat := nth k Used 0.
(** The series of the [k]-th of them. *)
Definition Series (k : nat) : list R := map Value (nth (Point k) flux []).
(** It after the filters, if there are filters for it. *)
Definition Passed (k t : nat) : R :=
  if k <? length filt1 then BandPass (Series k) (nth k filt1 []) (nth k filt2 []) t else nth t (Series k) 0%R.
(** The coefficient of pattern [j] at time [t]. *)
Definition Coefficient (j t : nat) : R :=
  (SumBelow Count (fun k => Value (nth (Point k) (nth j patterns []) None) * Passed k t) / INR Count)%R.
(** The standard deviation of a coefficient, with one less than the number of times. *)
Definition Mean (f : nat -> R) : R := (SumBelow nt f / INR nt)%R.
Definition Deviation (j : nat) : R := sqrt (SumBelow nt (fun t => (Coefficient j t - Mean (Coefficient j)) ^ 2) / (INR nt - 1))%R.
(** The stress that comes out. *)
Definition Stress (k t : nat) : R :=
  SumBelow 4 (fun j => SumBelow nt (fun s => Passed k s * Coefficient j s) / Deviation j * Coefficient j t)%R.
(** Data as they should be: as many values as times and no gaps at the points that are used; filters for some of these
    points, not longer than the series; at least four patterns. *)
Definition Proper : Prop :=
  10 < nt /\ Forall (fun s => length s = nt) flux /\
  (forall k, k < Count -> Forall (fun o => o <> None) (nth (Point k) flux [])) /\
  2 <= Count /\ length filt1 <= Count /\ length filt1 <= length filt2 /\
  Forall (fun f => 0 < length f <= nt) filt1 /\ Forall (fun f => 0 < length f <= nt) filt2 /\
  4 <= length patterns /\
  Forall (fun p => length p = length flux /\ forall k, k < Count -> nth (Point k) p None <> None) patterns.
End Flux.

(** All values times [c]. *)
Definition Scaled (c : R) (flux : list (list (option R))) : list (list (option R)) := map (map (option_map (Rmult c))) flux.
