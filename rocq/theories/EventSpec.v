(** Specification of event equalization. *)
From Coq Require Import Ascii Permutation.
From Verif Require Import PyBase ColumnModel BaseSpec.
Open Scope string_scope.

(** The cell of a named column. *)
Definition CellOf (columns : list string) (r : row) (name : string) (c : cell) : Prop :=
  exists i, ColumnAt columns name i /\ nth_error r i = Some c.

(** Strings made of [n] decimal digits. *)
Definition Digit (c : Ascii.ascii) : Prop := In c (list_ascii_of_string "0123456789").
Definition Digits (n : nat) (s : string) : Prop :=
  String.length s = n /\ Forall Digit (list_ascii_of_string s).
(** A whole number: digits with an optional sign, and its value. *)
Definition decimal (s : string) : Z :=
  fold_left (fun a c => 10 * a + (Z.of_nat (Ascii.nat_of_ascii c) - 48))%Z (list_ascii_of_string s) 0%Z.
Definition WholeNumber (v : string) (z : Z) : Prop :=
  exists n s, Digits (S n) s /\
    ((v = s /\ z = decimal s) \/ (v = "+" ++ s /\ z = decimal s) \/
     (v = "-" ++ s /\ z = (- decimal s)%Z)).

(** A cell agrees with a requested value: whole numbers are compared as numbers, "NA" asks
    for a missing cell, anything else is compared as text. *)
Definition Agrees (v : string) (c : cell) : Prop :=
  (exists z q, WholeNumber v z /\ c = CNum q /\ q == inject_Z z) \/
  ((forall z, ~ WholeNumber v z) /\
   ((v = "NA" /\ c = CMiss) \/ (v <> "NA" /\ c = CStr v))).

(** One value for every variable, taken from the variable's list of values. *)
Definition Combination (vars : list (string * list string)) (p : list string) : Prop :=
  Forall2 (fun nv v => In v (snd nv)) vars p.

(** A row belongs to a combination: for every variable its cell agrees with the chosen
    value. *)
Definition BelongsTo (columns : list string)
  (vars : list (string * list string)) (p : list string) (r : row) : Prop :=
  Forall2 (fun nv v => exists c, CellOf columns r (fst nv) c /\ Agrees v c) vars p.

(** The event [k] occurs in the data of the combination. *)
Definition EventOccurs (columns : list string)
  (vars : list (string * list string)) (rows : list (string * row)) (p : list string) (k : string) : Prop :=
  exists r, In (k, r) rows /\ BelongsTo columns vars p r.

(** The event occurs in every combination, and there is at least one combination. *)
Definition Common (columns : list string)
  (vars : list (string * list string)) (rows : list (string * row)) (k : string) : Prop :=
  (exists p, Combination vars p) /\
  forall p, Combination vars p -> EventOccurs columns vars rows p k.

(** [out] is the list of exactly those elements of [l] that satisfy [P], in order,
    with all repetitions. *)
Inductive Selection {A : Type} (P : A -> Prop) : list A -> list A -> Prop :=
| sel_nil : Selection P [] []
| sel_keep x l out : P x -> Selection P l out -> Selection P (x :: l) (x :: out)
| sel_drop x l out : ~ P x -> Selection P l out -> Selection P (x :: l) out.

(** Columns that identify the time of an event; they are never series or fixed variables. *)
Definition TimeColumn (n : string) : Prop :=
  In n [""; "fcst_valid_beg"; "fcst_lead"; "fcst_valid"; "fcst_init"; "fcst_init_beg"; "VALID"; "LEAD"].

(** The columns that make up the event key: a ready key column if there is one, otherwise
    valid time and lead, followed by the independent variable where requested. *)
Definition TimeKey (columns : list string) (base : list string) : Prop :=
  (In "equalize" columns /\ base = ["equalize"]) \/
  (~ In "equalize" columns /\ In "fcst_valid_beg" columns /\ base = ["fcst_valid_beg"; "fcst_lead"]) \/
  (~ In "equalize" columns /\ ~ In "fcst_valid_beg" columns /\ In "fcst_valid" columns /\
   base = ["fcst_valid"; "fcst_lead"]).
Definition KeyColumns (columns : list string) (by_indep : bool) (indy : string) (kc : list string) : Prop :=
  exists base, TimeKey columns base /\
    ((by_indep = true /\ ~ TimeColumn indy /\ kc = base ++ [indy])%list \/
     ((by_indep = false \/ TimeColumn indy) /\ kc = base)) /\
    (forall c, In c kc -> In c columns).

(** Text of a cell, given the text of numbers. *)
Inductive CellText (show : Q -> string) : cell -> string -> Prop :=
| ct_num q : CellText show (CNum q) (show q)
| ct_miss : CellText show CMiss "nan"
| ct_str s : CellText show (CStr s) s.

(** The event key of a row: the texts of the key columns separated by single blanks. *)
Definition EventKey (show : Q -> string) (columns kc : list string) (r : row) (k : string) : Prop :=
  exists ts, Forall2 (fun n t => exists c, CellOf columns r n c /\ CellText show c t) kc ts /\
             k = String.concat " " ts.
(** The rows of a table, each with its event key. *)
Definition Keyed (show : Q -> string) (columns kc : list string) (data : tdata)
  (rows : list (string * row)) : Prop :=
  Forall2 (fun r kr => snd kr = r /\ EventKey show columns kc r (fst kr)) data rows.

(** ASCII white space. *)
Definition Blank (s : string) : Prop :=
  exists n, In n [9; 10; 11; 12; 13; 32]%nat /\ s = String (Ascii.ascii_of_nat n) "".
(** A date and time: YYYY-MM-DD hh:mm:ss. *)
Definition DateTime (w : string) : Prop :=
  exists y m d b h mi s,
    Digits 4 y /\ Digits 2 m /\ Digits 2 d /\ Blank b /\ Digits 2 h /\ Digits 2 mi /\ Digits 2 s /\
    w = y ++ "-" ++ m ++ "-" ++ d ++ b ++ h ++ ":" ++ mi ++ ":" ++ s.
(** A series value and its members: several date-times joined by ':', or a text without any
    date-time in it, cut at every ':'. *)
Definition Group (s : string) (l : list string) : Prop :=
  (l <> [] /\ Forall DateTime l /\ s = String.concat ":" l) \/
  ((forall a w b, s = a ++ w ++ b -> ~ DateTime w) /\
   l <> [] /\ s = String.concat ":" l /\
   Forall (fun m => ~ In ":"%char (list_ascii_of_string m)) l).

(** The variables over whose combinations the events are equalized: series variables with
    their ungrouped values, then fixed variables, time columns left out. *)
Definition Variables (series fixed vars : list (string * list string)) : Prop :=
  exists series',
    Forall2 (fun nv nv' => fst nv' = fst nv /\
               exists ls, Forall2 Group (snd nv) ls /\ snd nv' = concat ls) series series' /\
    Selection (fun nv => ~ TimeColumn (fst nv)) (series' ++ fixed)%list vars.

(** The table handed on after equalization: every kept row with its key added at the end. *)
Definition with_key (rows : list (string * row)) : tdata :=
  map (fun kr => snd kr ++ [CStr (fst kr)])%list rows.

(** Same variables, listed in another order or with their values in another order or number. *)
Definition SameVariables (vars vars' : list (string * list string)) : Prop :=
  exists mid, Permutation vars mid /\
    Forall2 (fun a b => fst a = fst b /\ forall v, In v (snd a) <-> In v (snd b)) mid vars'.
