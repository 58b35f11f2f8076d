(** Words for the statements about blocks that last. *)
From Verif Require Import PyBase.
From Coq Require Import List Sorted.
Import ListNotations.
Open Scope Z_scope.

(** The longitude [x] of a row is blocked; the row is a circle. *)
Definition On (a : list Q) (x : Z) : Prop := exists v, nth_error a (Z.to_nat (x mod Z.of_nat (length a))) = Some v /\ (v == 1)%Q.
(** A whole group of blocked longitudes: from [s] to [e], and no neighbour.  The right end is a place of the row; the left end is
    negative if the group crosses the first longitude. *)
Definition Run (a : list Q) (s e : Z) : Prop :=
  0 <= e < Z.of_nat (length a) /\ s <= e /\ (forall x, s <= x <= e -> On a x) /\ ~ On a (s - 1) /\ ~ On a (e + 1).
(** The place [x] lies in the group from [s] to [e] on a circle of [n] longitudes. *)
Definition Inside (n s e x : Z) : bool := (x - s) mod n <=? e - s.
(** A group: year, day, left and right end. *)
Definition grp : Type := (Z * Z * Z * Z)%type.
Definition gyear (g : grp) : Z := fst (fst (fst g)).
Definition gday (g : grp) : Z := snd (fst (fst g)).
Definition gleft (g : grp) : Z := snd (fst g).
Definition gright (g : grp) : Z := snd g.
Definition Row (gibl : list (list (list Q))) (y d : Z) (a : list Q) : Prop :=
  0 <= y /\ 0 <= d /\ exists days, nth_error gibl (Z.to_nat y) = Some days /\ nth_error days (Z.to_nat d) = Some a.
Definition IsGroup (gibl : list (list (list Q))) (g : grp) : Prop := exists a, Row gibl (gyear g) (gday g) a /\ Run a (gleft g) (gright g).
(** Order in time, and from west to east in a day. *)
Definition Before (g h : grp) : Prop :=
  gyear g < gyear h \/ (gyear g = gyear h /\ (gday g < gday h \/ (gday g = gday h /\ gright g < gright h))).
(** All groups of the array. *)
Definition AllGroups (gibl : list (list (list Q))) (l : list grp) : Prop := StronglySorted Before l /\ forall g, In g l <-> IsGroup gibl g.
(** Every blocked longitude lies among at least [crit] blocked ones. *)
Definition Wide (crit : Z) (a : list Q) : Prop := forall x, On a x -> exists s, s <= x < s + crit /\ forall y, s <= y < s + crit -> On a y.
(** An array of [n] longitudes with such rows, none of them blocked all around. *)
Definition Proper (n crit : Z) (gibl : list (list (list Q))) : Prop :=
  forall y d a, Row gibl y d a -> Z.of_nat (length a) = n /\ Wide crit a /\ exists x, ~ On a x.

(** Number of longitudes in both groups. *)
Definition Overlap (n : Z) (g h : grp) : Z :=
  Z.of_nat (length (filter (fun i => Inside n (gleft g) (gright g) (Z.of_nat i) && Inside n (gleft h) (gright h) (Z.of_nat i)) (seq 0 (Z.to_nat n)))).
(** The group [h] continues [g]: one or two days later in the same year, with enough longitudes in common. *)
Definition Continues (n overlap : Z) (g h : grp) : Prop := gyear g = gyear h /\ 1 <= gday h - gday g <= 2 /\ overlap < Overlap n g h.
Fixpoint Linked (n overlap : Z) (l : list grp) : Prop :=
  match l with
  | g :: ((h :: _) as t) => Continues n overlap g h /\ Linked n overlap t
  | _ => True
  end.
(** The center as the code has it: half way, but counted from the first longitude if the group crosses it. *)
Definition Center (n : Z) (g : grp) : Z :=
  let half := (gright g - gleft g) / 2 in
  if 0 <=? gleft g then gleft g + half
  else if half <=? gright g then half
  else n + gleft g - gright g - 1 + half.
(** Centers not farther than [limit] from the first one. *)
Definition Stays (n limit : Z) (l : list grp) : Prop := match l with [] => True | g :: _ => Forall (fun h => Z.abs (Center n g - Center n h) <= limit) l end.
(** Value of an array. *)
Definition At (freq : list (list (list Z))) (y d x v : Z) : Prop :=
  exists days row, nth_error freq (Z.to_nat y) = Some days /\ nth_error days (Z.to_nat d) = Some row /\ nth_error row (Z.to_nat x) = Some v.
(** The group is of this day and has this longitude. *)
Definition Covers (n y d x : Z) (g : grp) : bool := (gyear g =? y) && (gday g =? d) && Inside n (gleft g) (gright g) x.
(** An array of [ny] years with [nd] days each. *)
Definition Shape (ny nd : nat) (gibl : list (list (list Q))) : Prop := length gibl = ny /\ Forall (fun days => length days = nd) gibl.
(** The longitudes 0 to 359. *)
Definition Degrees : list Z := map Z.of_nat (seq 0 360).
(** For examples: a row of 360 longitudes, blocked from [s] to [e]; days with such rows. *)
Definition Zone (s e : Z) : list Q := map (fun i => if Inside 360 s e (Z.of_nat i) then 1%Q else 0%Q) (seq 0 360).
Definition Clear : list Q := map (fun _ => 0%Q) (seq 0 360).
(** Days with a group of 20 longitudes that starts at [s] and moves to the east by one degree a day. *)
Definition Moving (s : Z) (days : nat) : list (list Q) := map (fun k => Zone (s + Z.of_nat k) (s + Z.of_nat k + 19)) (seq 0 days).
