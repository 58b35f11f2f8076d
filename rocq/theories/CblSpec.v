(** Specification of the central blocking latitudes. *)
From Verif Require Import PyBase BaseSpec BlockSpec.
From Coq Require Import Reals Qreals.
From Coq Require Import List.
Open Scope Z_scope.

(** Years of days of heights by latitude and longitude. *)
Definition heights : Type := list (list (list (option Q))).
(** The heights of one latitude and longitude, day by day. *)
Definition DaysAt (days : heights) (i j : nat) (hs : list (option Q)) : Prop :=
  Forall2 (fun day h => exists row, nth_error day i = Some row /\ nth_error row j = Some h) days hs.
(** The numbers that are there. *)
Inductive Present : list (option Q) -> list Q -> Prop :=
| present_nil : Present [] []
| present_some : forall q hs qs, Present hs qs -> Present (Some q :: hs) (q :: qs)
| present_none : forall hs qs, Present hs qs -> Present (None :: hs) qs.
(** Standard deviation of all numbers. *)
Definition Spread (qs : list Q) (s : R) : Prop :=
  (0 <= s)%R /\ exists m, (m == qsum qs / inject_Z (Z.of_nat (length qs)))%Q /\
    (s * s)%R = Q2R (qsum (map (fun q => ((q - m) * (q - m))%Q) qs) / inject_Z (Z.of_nat (length qs)))%Q.
(** The activity at a latitude and longitude: the standard deviation over the days, times the root of the cosine
    of the latitude. *)
Definition Activity (lats : list Q) (days : heights) (i j : nat) (w : R) : Prop :=
  exists lat hs qs s, nth_error lats i = Some lat /\ DaysAt days i j hs /\ Present hs qs /\ qs <> [] /\ Spread qs s /\
    w = (s * sqrt (cos (Q2R lat * PI / 180)))%R.
(** The latitude of the greatest activity; the first one of several. *)
Definition StormTrack (lats : list Q) (days : heights) (j : nat) (lat : Q) : Prop :=
  exists i w, nth_error lats i = Some lat /\ Activity lats days i j w /\
    forall i' w', Activity lats days i' j w' -> (w' <= w)%R /\ ((i' < i)%nat -> (w' < w)%R).
(** The whole part of the mean of a longitude and its [m] neighbours on both sides of the circle. *)
Definition Smoothed (track : list Q) (m : Z) (j : nat) (v : Q) : Prop :=
  exists qs z, length qs = Z.to_nat (2 * m + 1) /\
    (forall k q, nth_error qs k = Some q -> nth_error track (Z.to_nat ((Z.of_nat j - m + Z.of_nat k) mod 360)) = Some q) /\
    WholePart (qsum qs / inject_Z (2 * m + 1)) z /\ v = inject_Z z.
(** All arrays have the shape of the grid, and 360 longitudes. *)
Definition Shape (lats : list Q) (years : list heights) : Prop :=
  forall days day, In days years -> In day days -> length day = length lats /\ forall row, In row day -> length row = 360%nat.
(** There is a height on at least one day. *)
Definition Measured (days : heights) (i j : nat) : Prop :=
  exists day row q, In day days /\ nth_error day i = Some row /\ nth_error row j = Some (Some q).
(** For examples: days of two latitudes. *)
Definition two_lats (north south : option Q) : list (list (option Q)) := [repeat north 360; repeat south 360].
