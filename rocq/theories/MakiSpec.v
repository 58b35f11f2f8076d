(** Words for the statements about the MaKE and MaKI indices. *)
From Coq Require Import Reals ZArith Bool List.
From Verif Require Import ActivityModel TauSpec.
Import ListNotations.
Open Scope nat_scope.

(** ** The calendar *)
Definition LeapYear (y : Z) : bool := (y mod 4 =? 0)%Z && negb (y mod 100 =? 0)%Z || (y mod 400 =? 0)%Z.
Definition MonthLength (y m : Z) : Z :=
  match m with
  | 2 => if LeapYear y then 29 else 28
  | 4 | 6 | 9 | 11 => 30
  | _ => 31
  end%Z.
(** A day of the calendar. *)
Definition IsDate (d : date) : Prop := (1 <= month d <= 12)%Z /\ (1 <= day d <= MonthLength (year d) (month d))%Z.
(** The months counted from the year 0, and a day of a month. *)
Definition MonthOf (d : date) : Z := (12 * year d + month d)%Z.
Definition OnDay (i d : Z) : date := Date ((i - 1) / 12) ((i - 1) mod 12 + 1) d.
(** The next day. *)
Definition Tomorrow (d : date) : date :=
  if (day d <? MonthLength (year d) (month d))%Z then Date (year d) (month d) (day d + 1) else OnDay (MonthOf d + 1) 1.
(** Each day after the other. *)
Definition Daily (time : list date) : Prop :=
  Forall IsDate time /\ forall t a b, nth_error time t = Some a -> nth_error time (t + 1) = Some b -> b = Tomorrow a.

(** ** The indices *)
Section Series.
Variable nt : nat.
Definition MeanOver (f : nat -> R) : R := (SumBelow nt f / INR nt)%R.
Definition Spread (f : nat -> R) : R := sqrt (SumBelow nt (fun t => (f t - MeanOver f) ^ 2) / INR nt)%R.
Definition Unit (f : nat -> R) (t : nat) : R := (f t / Spread f)%R.
(** Wind power and SST at each longitude and time. *)
Variables wind sst : list (list R).
Definition SeriesIn (data : list (list R)) (l t : nat) : R := nth t (nth l data []) 0%R.
(** The projection of both, each over its standard deviation, on a pattern; the sign is changed. *)
Definition Onto (p : list R) (t : nat) : R :=
  (- (SumBelow (length sst) (fun l => nth l p 0 * Unit (SeriesIn wind l) t) +
      SumBelow (length sst) (fun l => nth (length sst + l) p 0 * Unit (SeriesIn sst l) t)))%R.
Definition DailyMake (p q : list R) (t : nat) : R := (Unit (Onto p) t + Rabs (Unit (Onto q) t))%R.
Definition DailyMaki (p q : list R) (t : nat) : R := (Unit (Onto p) t + Unit (Onto q) t)%R.
(** Data as they should be: nothing constant in time, and patterns for both. *)
Definition Usable (patterns : list (list R)) : Prop :=
  length wind = length sst /\ Forall (fun s => length s = nt) (wind ++ sst) /\
  (forall l, l < length sst -> Spread (SeriesIn wind l) <> 0%R /\ Spread (SeriesIn sst l) <> 0%R) /\
  Forall (fun p => length p = 2 * length sst) patterns /\
  exists p q rest, patterns = p :: q :: rest /\ Spread (Onto p) <> 0%R /\ Spread (Onto q) <> 0%R.
End Series.
(** [m] is the least of the values of [f] from time [t - 90] to [t]. *)
Definition LeastOf91 (f : nat -> R) (t : nat) (m : R) : Prop :=
  (exists s, t - 90 <= s <= t /\ f s = m) /\ forall s, t - 90 <= s <= t -> (m <= f s)%R.
(** A list over its standard deviation. *)
Definition SpreadOf (l : list R) : R := Spread (length l) (fun i => nth i l 0%R).
(** The entries of [out]: labels, and the values over their standard deviation. *)
Definition Entries (labels : list date) (values : list R) : list (date * R) :=
  combine labels (map (fun x => x / SpreadOf values)%R values).
(** Series times positive factors. *)
Definition TimesEach (c : list R) (data : list (list R)) : list (list R) := map (fun p => map (Rmult (fst p)) (snd p)) (combine c data).
