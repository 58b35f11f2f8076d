(** Specification of the drivers of event equalization. *)
From Coq Require Import Ascii.
From Verif Require Import PyBase ColumnModel BaseSpec EventSpec.
From Coq Require Import List.
Open Scope string_scope.

(** Variables with their statistics, one after the other. *)
Definition axis_pairs (fcst_vars : list (string * list string)) : list (string * string) :=
  concat (map (fun vs => map (fun st => (fst vs, st)) (snd vs)) fcst_vars).

(** The members of grouped series values. *)
Definition Members (groups members : list string) : Prop :=
  exists ls, Forall2 Group groups ls /\ members = concat ls.

(** The row has a listed value of the series variable, as far as there is such a column. *)
Definition Listed (columns : list string) (var : string) (values : list string) (r : row) : Prop :=
  forall c, CellOf columns r var c -> exists s, c = CStr s /\ In s values.
(** The row belongs to the forecast variable and statistic, as far as there are such columns. *)
Definition OfStatistic (columns : list string) (vs : string * string) (r : row) : Prop :=
  (forall c, CellOf columns r "fcst_var" c -> c = CStr (fst vs)) /\
  (forall c, CellOf columns r "stat_name" c -> c = CStr (snd vs)).

(** [out] are exactly those rows whose event occurs in every combination. *)
Definition Equalized (show : Q -> string) (columns kc : list string) (vars : list (string * list string))
  (data out : tdata) : Prop :=
  exists rows kept, Keyed show columns kc data rows /\
    Selection (fun kr => Common columns vars rows (fst kr)) rows kept /\ out = map snd kept.

(** An event of the given statistic occurs in the rows of a combination. *)
Definition OccursFor (show : Q -> string) (columns kc : list string) (vars : list (string * list string))
  (vs : string * string) (rows : tdata) (p : list string) (k : string) : Prop :=
  exists r, In r rows /\ CellOf columns r "fcst_var" (CStr (fst vs)) /\ CellOf columns r "stat_name" (CStr (snd vs)) /\
    EventKey show columns kc r k /\ BelongsTo columns vars p r.
(** An event occurs in the rows of a combination. *)
Definition Occurs (show : Q -> string) (columns kc : list string) (vars : list (string * list string))
  (rows : tdata) (p : list string) (k : string) : Prop :=
  exists r, In r rows /\ EventKey show columns kc r k /\ BelongsTo columns vars p r.

(** Two dictionaries of series: the second one has precedence. *)
Definition Merged (s1 s2 m : list (string * list string)) : Prop :=
  NoDup (map fst m) /\
  forall name vals, In (name, vals) m <-> In (name, vals) s2 \/ (In (name, vals) s1 /\ ~ In name (map fst s2)).

(** The rows with their keys appended. *)
Definition WithKeys (show : Q -> string) (columns kc : list string) (rows rows' : tdata) : Prop :=
  Forall2 (fun r r' => exists k, EventKey show columns kc r k /\ r' = (r ++ [CStr k])%list) rows rows'.

(** The pieces of a text between the colons. *)
Definition Pieces (s : string) (l : list string) : Prop :=
  l <> [] /\ s = String.concat ":" l /\ Forall (fun m => ~ In ":"%char (list_ascii_of_string m)) l.

(** For examples: a table of two models, two masks, two statistics. *)
Definition show_lead (q : Q) : string := if Qeq_bool q 12 then "12" else "24".
Definition eqz_columns : list string := ["fcst_valid_beg"; "fcst_lead"; "model"; "vx_mask"; "fcst_var"; "stat_name"].
Definition eqz_row (t m v st : string) : row := [CStr t; CNum 12; CStr m; CStr v; CStr "TMP"; CStr st].
