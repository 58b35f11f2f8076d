(** Specification of atmospheric blocking. *)
From Verif Require Import PyBase ColumnModel BaseSpec.
From Coq Require Import List.
Open Scope Z_scope.

(** Blocked longitudes of a day on a circle of 360: position [x] and [x + 360] are the same longitude. *)
Definition Blocked (a : list Q) (x : Z) : Prop := exists v, nth_error a (Z.to_nat (x mod 360)) = Some v /\ (v == 1)%Q.
(** From [s] to [e], both blocked, there is no gap between blocked positions of more than half the size
    wanted. *)
Definition Chain (P : Z -> Prop) (crit s e : Z) : Prop :=
  s <= e /\ P s /\ P e /\ forall x, s <= x < e -> P x -> exists y, x < y <= e /\ P y /\ 2 * (y - x) <= crit.
(** The position [y] lies in a chain that is long enough, somewhere from 0 up to [last]. *)
Definition InGroup (P : Z -> Prop) (crit last y : Z) : Prop :=
  exists s e, 0 <= s <= y /\ y <= e < last /\ Chain P crit s e /\ crit <= e - s + 1.
(** A row of zeros and ones, marked where the test holds. *)
Definition Marked (test : Z -> Prop) (g : list Q) : Prop :=
  forall i v, nth_error g i = Some v -> (v = 1%Q /\ test (Z.of_nat i)) \/ (v = 0%Q /\ ~ test (Z.of_nat i)).
(** The rule of the code for a circle of 360 longitudes: positions are looked at twice around the circle, and at
    least twice the size wanted must be in groups. *)
Definition DayGroups (crit : Z) (a g : list Q) : Prop :=
  length g = length a /\
  exists members, NoDup members /\ (forall y, In y members <-> InGroup (Blocked a) crit 720 y) /\
    Marked (fun x => (InGroup (Blocked a) crit 720 x \/ InGroup (Blocked a) crit 720 (x + 360)) /\ 2 * crit <= Z.of_nat (length members)) g.
(** For other grids: blocked positions of the row itself. *)
Definition BlockedRow (a : list Q) (x : Z) : Prop := 0 <= x /\ exists v, nth_error a (Z.to_nat x) = Some v /\ (v == 1)%Q.

(** For examples: a row of 360 longitudes, blocked from [s] to [e] (and around the circle if [e < s]). *)
Definition block_row (n : nat) (s e : Z) : list Q :=
  map (fun i => let x := Z.of_nat i in if (if s <=? e then (s <=? x) && (x <=? e) else (s <=? x) || (x <=? e)) then 1%Q else 0%Q) (seq 0 n).

(** ** Instantaneous blocks *)
(** The whole part of a number. *)
Definition WholePart (q : Q) (z : Z) : Prop :=
  ((0 <= q)%Q -> (inject_Z z <= q)%Q /\ (q < inject_Z (z + 1))%Q) /\ ((q <= 0)%Q -> (inject_Z (z - 1) < q)%Q /\ (q <= inject_Z z)%Q).
(** The rows [lo] to [hi] of an array, or up to its end. *)
Definition RowsOf {A : Type} (lo hi : Z) (l cells : list A) : Prop :=
  exists before after, l = (before ++ cells ++ after)%list /\ Z.of_nat (length before) = lo /\
    (Z.of_nat (length cells) = hi - lo + 1 \/ (after = [] /\ Z.of_nat (length cells) <= hi - lo + 1)).
Definition MeanOf (heights : list (option Q)) (lo hi : Z) (m : Q) : Prop :=
  exists qs, RowsOf lo hi heights (map Some qs) /\ qs <> [] /\ (m == qsum qs / inject_Z (Z.of_nat (length qs)))%Q.
(** The range of latitudes to the north and to the south. *)
Definition Halves (limits north south : Z) : Prop := north + south = limits /\ 0 <= south <= north /\ north <= south + 1.
(** Rows are latitudes from the north: the mean of the northern heights minus that of the southern ones, for a
    center shifted to the north by [l]. *)
Definition Difference (heights : list (option Q)) (limits center l : Z) (v : Q) : Prop :=
  exists n s north south, Halves limits n s /\ MeanOf heights (center - l - n) (center - l) north /\ MeanOf heights (center - l) (center - l + s) south /\
    (v == north - south)%Q.
Definition BlockRule (lat_delta : list Z) (limits center : Z) (heights : list (option Q)) (result : Q * option Q) : Prop :=
  (forall l, In l lat_delta -> exists v, Difference heights limits center l v) ->
  exists m, snd result = Some m /\ (exists l, In l lat_delta /\ Difference heights limits center l m) /\
    (forall l v, In l lat_delta -> Difference heights limits center l v -> (v <= m)%Q) /\
    ((fst result = 1%Q /\ (0 < m)%Q) \/ (fst result = 0%Q /\ (m <= 0)%Q)).
Definition HeightsAt (day : list (list (option Q))) (j : nat) (heights : list (option Q)) : Prop := Forall2 (fun row h => nth_error row j = Some h) day heights.
(** The central latitude of a longitude: the mean of the years. *)
Definition Central (cbl : list (list Q)) (j : nat) (c : Q) : Prop :=
  exists qs, Forall2 (fun row q => nth_error row j = Some q) cbl qs /\ qs <> [] /\ (c == qsum qs / inject_Z (Z.of_nat (length qs)))%Q.
(** For examples: a day of two longitudes; the heights of the first grow to the north. *)
Definition block_day : list (list (option Q)) := map (fun i => [Some (inject_Z (100 - Z.of_nat i)); Some (inject_Z (Z.of_nat i))]) (seq 0 91).
