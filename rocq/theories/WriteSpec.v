(** Words for the statements about writing an interpolated dataset. *)
From Verif Require Import PyBase WriteModel.
From Coq Require Import String Ascii List.
Import ListNotations.
Open Scope string_scope.
Open Scope Z_scope.

Definition KeptType (t : dtype) : Prop := In t [Float64; Float32; Int64; Int32; UInt64; UInt32].
Definition SmallType (t : dtype) : Prop := In t [SmallInt; SmallUInt; Boolean; Datetime].
(** A dimension with coordinates of a kind that can be written. *)
Definition GoodDim (d : string * coord) : Prop :=
  match snd d with
  | Numbers t _ => KeptType t /\ fst d <> "time"
  | Times _ => fst d = "time"
  end.
(** A field of floats or long integers, or of small integers, truth values or times without missing values. *)
Definition GoodField (x : field) : Prop :=
  (KeptType (ftype x) \/ SmallType (ftype x) /\ Forall (fun v => exists z : Z, v = Some (inject_Z z)) (fvalues x)) /\
  NoDup (map fst (fattrs x)).
(** A dataset whose dimensions and fields have different names. *)
Definition GoodSet (ds : dset) : Prop :=
  NoDup (map fst (dims ds) ++ map fname (fields ds)) /\ Forall GoodDim (dims ds) /\ Forall GoodField (fields ds) /\ NoDup (map fst (dattrs ds)).
Definition SizeOf (c : coord) : nat := match c with Numbers _ v => length v | Times v => length v end.
(** Names of dimensions and variables that the program adds. *)
Definition Unused (name : string) (ds : dset) : Prop := ~ In name (map fst (dims ds)) /\ ~ In name (map fname (fields ds)).

(** The same dataset at another time. *)
Definition Later (ns : Z) (ds : dset) : dset :=
  {| dims := map (fun d => (fst d, match snd d with Times v => Times (map (fun t => t + ns) v) | c => c end)) (dims ds);
     fields := fields ds; dattrs := dattrs ds |}.

(** Decimal digits. *)
Definition DigitIs (c : ascii) (d : Z) : Prop := 0 <= d <= 9 /\ Z.of_nat (nat_of_ascii c) = 48 + d.
Inductive DecimalText : string -> Z -> Prop :=
| NoDigit : DecimalText "" 0
| NextDigit : forall s n c d, DecimalText s n -> DigitIs c d -> DecimalText (s ++ String c "") (10 * n + d).
(** The text of an hour: year, month, day and hour, then anything. *)
Definition HourText (ref : string) (y m d h : Z) : Prop :=
  exists a b c e rest, ref = a ++ b ++ c ++ e ++ rest /\ String.length a = 4%nat /\ String.length b = 2%nat /\ String.length c = 2%nat /\ String.length e = 2%nat /\
    DecimalText a y /\ DecimalText b m /\ DecimalText c d /\ DecimalText e h.
(** The calendar. *)
Definition LeapYear (y : Z) : Prop := (4 | y) /\ (~ (100 | y) \/ (400 | y)).
Definition MonthLength (y m n : Z) : Prop :=
  (In m [1; 3; 5; 7; 8; 10; 12] /\ n = 31) \/ (In m [4; 6; 9; 11] /\ n = 30) \/ (m = 2 /\ LeapYear y /\ n = 29) \/ (m = 2 /\ ~ LeapYear y /\ n = 28).
Definition RealHour (y m d h : Z) : Prop := 1 <= y <= 9999 /\ 1 <= m <= 12 /\ 0 <= h <= 23 /\ exists n, MonthLength y m n /\ 1 <= d <= n.
(** One hour later. *)
Inductive HourLater : Z * Z * Z * Z -> Z * Z * Z * Z -> Prop :=
| SameDay : forall y m d h, 0 <= h < 23 -> HourLater (y, m, d, h) (y, m, d, h + 1)
| NextDay : forall y m d n, MonthLength y m n -> 1 <= d < n -> HourLater (y, m, d, 23) (y, m, d + 1, 0)
| NextMonth : forall y m n, MonthLength y m n -> m < 12 -> HourLater (y, m, n, 23) (y, m + 1, 1, 0)
| NextYear : forall y, HourLater (y, 12, 31, 23) (y + 1, 1, 1, 0).
(** Seconds since the start of 1970, on one clock. *)
Inductive SecondsSince1970 : Z * Z * Z * Z -> Z -> Prop :=
| Epoch : SecondsSince1970 (1970, 1, 1, 0) 0
| After : forall t t' s, HourLater t t' -> SecondsSince1970 t s -> SecondsSince1970 t' (s + 3600)
| Before : forall t t' s, HourLater t t' -> SecondsSince1970 t' s -> SecondsSince1970 t (s - 3600).

(** The path of an output file: a path from the root stays as it is; otherwise it is inside the directory, if one is given. *)
Definition OutputPath (dir file path : string) : Prop :=
  ((exists rest, file = String "/" rest) /\ path = file) \/
  ((forall rest, file <> String "/" rest) /\
   ((dir = "" /\ path = file) \/ ((exists d, dir = d ++ "/") /\ path = dir ++ file) \/
    (dir <> "" /\ ~ (exists d, dir = d ++ "/") /\ path = dir ++ "/" ++ file))).
