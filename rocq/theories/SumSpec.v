(** Specification of the aggregation of joined field values. *)
From Coq Require Import Ascii Sorted.
From Verif Require Import PyBase ColumnModel BaseSpec AggSpec EventSpec.
Open Scope string_scope.
Open Scope Q_scope.

(** Line types whose fields are means over the matched pairs, with these fields. *)
Definition moment_lines : list (string * list string) :=
  [("sl1l2", ["fbar"; "obar"; "fobar"; "ffbar"; "oobar"]);
   ("vl1l2", ["ufbar"; "vfbar"; "uobar"; "vobar"; "uvfobar"; "uvffbar"; "uvoobar"; "f_speed_bar"; "o_speed_bar"]);
   ("val1l2", ["ufabar"; "vfabar"; "uoabar"; "voabar"; "uvfoabar"; "uvffabar"; "uvooabar"]);
   ("grad", ["fgbar"; "ogbar"; "mgbar"; "egbar"])].

(** The aggregation gives the named field a value equal to [v]. *)
Definition Gives (agg : list (string * option Q)) (name : string) (v : Q) : Prop :=
  exists q, In (name, Some q) agg /\ q == v.

(** The lines hold means of the same fields. *)
Definition SameFields {A : Type} (names : list string) (fields : list (string * (A -> Q))) : Prop :=
  forall n, In n names <-> In n (map fst fields).

(** Neighbourhood lines: fractions of a forecast and an observed field at the same points.
    FBS is the mean squared difference, FSS compares it with its largest possible value. *)
Definition square_diff (p : Q * Q) : Q := (fst p - snd p) * (fst p - snd p).
Definition square_sum (p : Q * Q) : Q := fst p * fst p + snd p * snd p.
Definition nbr_fields : list (string * (Q * Q -> Q)) :=
  [("fbs", square_diff); ("f_rate", fst); ("o_rate", snd)].
Definition NbrRow (columns : list string) (b : list (Q * Q)) (r : row) : Prop :=
  SummaryRow nbr_fields columns b r /\
  ~ mean_of square_sum b == 0 /\
  CellHolds columns r "fss" (1 - mean_of square_diff b / mean_of square_sum b).

(** Ensemble lines: the root mean square of the error, the skill relative to climatology and
    plain means.  A case is a list of numbers, one per field. *)
Record ens_case : Type := { e_sq : Q; e_sq_oerr : Q; e_crps : Q; e_climo : Q; e_me : Q; e_ign : Q;
  e_spread : Q; e_me_oerr : Q; e_spread_oerr : Q; e_spread_plus : Q }.
Definition ens_fields : list (string * (ens_case -> Q)) :=
  [("me", e_me); ("crps", e_crps); ("ign", e_ign); ("spread", e_spread); ("me_oerr", e_me_oerr);
   ("spread_oerr", e_spread_oerr); ("spread_plus_oerr", e_spread_plus)].
Definition EnsRow (columns : list string) (b : list ens_case) (r : row) : Prop :=
  SummaryRow ens_fields columns b r /\
  (exists m, CellHolds columns r "rmse" m /\ m * m == mean_of e_sq b) /\
  (exists m, CellHolds columns r "rmse_oerr" m /\ m * m == mean_of e_sq_oerr b) /\
  ~ mean_of e_crps b == 0 /\ ~ mean_of e_climo b == 0 /\
  CellHolds columns r "crpss" (1 - mean_of e_crps b / mean_of e_climo b).

(** Ranked probability lines: score, complement and score of climatology of each case. *)
Definition rps_fields : list (string * (Q * Q * Q -> Q)) :=
  [("rps", fun c => fst (fst c)); ("rps_comp", fun c => snd (fst c))].
Definition RpsRow (columns : list string) (b : list (Q * Q * Q)) (r : row) : Prop :=
  SummaryRow rps_fields columns b r /\
  ~ mean_of (fun c => fst (fst c)) b == 0 /\ ~ mean_of snd b == 0 /\
  CellHolds columns r "rpss" (1 - mean_of (fun c => fst (fst c)) b / mean_of snd b).

(** The index labels of a frame read from a file, or of part of it: ascending. *)
Definition Ascending (fr : list (nat * row)) : Prop := StronglySorted lt (map fst fr).

(** The single values joined by semicolons. *)
Definition Joined (vals : list string) (joined : string) : Prop :=
  (2 <= length vals)%nat /\ Forall (fun s => ~ In ";"%char (list_ascii_of_string s)) vals /\
  joined = String.concat ";" vals.

(** Equal cells; a missing cell equals nothing. *)
Definition SameCell (a b : cell) : Prop :=
  match a, b with
  | CNum p, CNum q => p == q
  | CStr s, CStr t => s = t
  | _, _ => False
  end.

(** The row's value of the series variable is one of the joined ones. *)
Definition Member (columns : list string) (var : string) (vals : list string) (r : row) : Prop :=
  exists s, CellOf columns r var (CStr s) /\ In s vals.
(** The row is of the given valid time, and of the given lead time. *)
Definition ValidAt (columns : list string) (v : cell) (r : row) : Prop :=
  exists c, CellOf columns r "fcst_valid_beg" c /\ SameCell c v.
Definition LeadAt (columns : list string) (l : cell) (r : row) : Prop :=
  exists c, CellOf columns r "fcst_lead" c /\ SameCell c l.
Definition TimeAt (columns : list string) (t : cell * cell) (r : row) : Prop :=
  ValidAt columns (fst t) r /\ LeadAt columns (snd t) r.
Definition DifferentTimes (t u : cell * cell) : Prop :=
  ~ (SameCell (fst t) (fst u) /\ SameCell (snd t) (snd u)).
(** The row's lead time is one of the given whole numbers. *)
Definition LeadMember (columns : list string) (leads : list Z) (r : row) : Prop :=
  exists z, In z leads /\ LeadAt columns (CNum (inject_Z z)) r.

(** Pairwise different elements. *)
Definition Pairwise {A : Type} (D : A -> A -> Prop) (l : list A) : Prop := ForallOrdPairs D l.

(** The cases behind a list of rows. *)
Definition cases_of {A : Type} (cases : row -> list A) (rows : list (nat * row)) : list A :=
  concat (map (fun x => cases (snd x)) rows).

(** Two lines of one pair each, with columns in the order of a MET file. *)
Definition ex_columns : list string :=
  ["fcst_valid_beg"; "fcst_lead"; "vx_mask"; "total"; "fbar"; "obar"; "fobar"; "ffbar"; "oobar"].
Definition ex_fields : list (string * (Q * Q -> Q)) :=
  [("fbar", fst); ("obar", snd); ("fobar", fun p => fst p * snd p); ("ffbar", fun p => fst p * fst p);
   ("oobar", fun p => snd p * snd p)].
Definition ex_row (valid : string) (lead : Q) (mask : string) (b : list (Q * Q)) : row :=
  CStr valid :: CNum lead :: CStr mask :: CNum (count b) ::
  map (fun nf => CNum (mean_of (snd nf) b)) ex_fields.
(** Cases recovered from a line of one pair. *)
Definition ex_cases (r : row) : list (Q * Q) :=
  match r with
  | [_; _; _; _; CNum f; CNum o; _; _; _] => [(f, o)]
  | _ => []
  end.
