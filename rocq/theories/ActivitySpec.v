(** Words for the statements about the activity of tropical waves. *)
From Coq Require Import Reals QArith List.
From Verif Require Import ActivityModel.
Import ListNotations.
Open Scope nat_scope.

(** The Gregorian calendar. *)
Definition LeapYear (y : Z) : Prop := ((4 | y) /\ (~ (100 | y) \/ (400 | y)))%Z.
Definition MonthLength (y m l : Z) : Prop :=
  (In m [1; 3; 5; 7; 8; 10; 12] /\ l = 31 \/ In m [4; 6; 9; 11] /\ l = 30 \/
   m = 2 /\ (LeapYear y /\ l = 29 \/ ~ LeapYear y /\ l = 28))%Z.
(** The calendar day without the year. *)
Definition SameDay (a b : date) : Prop := month a = month b /\ day a = day b.
Definition same_day_dec (a b : date) : {SameDay a b} + {~ SameDay a b}.
Proof.
  destruct (Z.eq_dec (month a) (month b)) as [H|H]; [destruct (Z.eq_dec (day a) (day b)) as [K|K]|].
  - left. split; assumption.
  - right. intros [_ E]. exact (K E).
  - right. intros [E _]. exact (H E).
Defined.
(** The values of a calendar day that are not missing. *)
Definition DayValues (data : list (date * option Q)) (d : date) : list Q :=
  flat_map (fun p => match snd p with Some q => if same_day_dec (fst p) d then [q] else [] | None => [] end) data.
(** All values that are not missing. *)
Definition AllValues (data : list (date * option Q)) : list Q :=
  flat_map (fun p => match snd p with Some q => [q] | None => [] end) data.
(** The mean of numbers. *)
Definition MeanOf (l : list Q) (m : Q) : Prop :=
  l <> [] /\ (m * inject_Z (Z.of_nat (length l)) == fold_right Qplus 0 l)%Q.
(** Places [0], [spd], [2 spd], ... *)
Definition Starts {A : Type} (spd : nat) (l : list A) (a b : A) : Prop :=
  exists i j, i <> j /\ nth_error l (i * spd) = Some a /\ nth_error l (j * spd) = Some b.

(** The value of a grid at a latitude and longitude. *)
Definition ValueAt (g : grid) (lat lon : Q) (v : Q) : Prop :=
  exists i j row lat' lon', nth_error (lats g) i = Some lat' /\ (lat' == lat)%Q /\ nth_error (lons g) j = Some lon' /\ (lon' == lon)%Q /\
    nth_error (cells g) i = Some row /\ nth_error row j = Some v.
(** A row for each latitude, in it a value for each longitude. *)
Definition Regular (g : grid) : Prop :=
  length (cells g) = length (lats g) /\ Forall (fun row => length row = length (lons g)) (cells g).
(** The sum over the places of [e] of its value times the value of [g] there. *)
Definition Projection (e g : grid) (p : Q) : Prop :=
  exists terms, length terms = length (lats e) * length (lons e) /\
    (forall i j lat lon row v w, nth_error (lats e) i = Some lat -> nth_error (lons e) j = Some lon ->
       nth_error (cells e) i = Some row -> nth_error row j = Some v -> ValueAt g lat lon w ->
       exists t, nth_error terms (i * length (lons e) + j) = Some t /\ (t == v * w)%Q) /\
    (p == fold_right Qplus 0 terms)%Q.

(** The line [l] of forecast hour [f]: a series in time. *)
Definition Line (act : list (list (list (option R)))) (f l : nat) : option (list (option R)) :=
  match nth_error act f with Some block => nth_error block l | None => None end.
(** An array of [nlines] lines of [ntim] times for each forecast hour. *)
Definition Shape (nlines ntim : nat) (act : list (list (list (option R)))) : Prop :=
  Forall (fun block => length block = nlines /\ Forall (fun line => length line = ntim) block) act.
(** Deviations from the mean. *)
Definition Deviation (x d : list R) : Prop :=
  exists m, (m * INR (length x) = fold_right Rplus 0 x)%R /\ d = map (fun v => v - m)%R x.
(** The sum of products. *)
Definition Product (a b : list R) : R := fold_right Rplus 0%R (map (fun p => fst p * snd p)%R (combine a b)).
(** The correlation of two series. *)
Definition Correlation (x y : list R) (r : R) : Prop :=
  exists a b, Deviation x a /\ Deviation y b /\ (0 < Product a a)%R /\ (0 < Product b b)%R /\
    (r * sqrt (Product a a * Product b b) = Product a b)%R.
(** The series is complete and varies. *)
Definition Varies (line : list (option R)) : Prop :=
  Forall (fun c => c <> None) line /\ exists u v, In (Some u) line /\ In (Some v) line /\ u <> v.
