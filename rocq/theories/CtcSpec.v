(** Textbook definitions of the contingency-table scores, as functions of the pooled
    counts h (hits), fa (false alarms), m (misses), c (correct negatives) and the
    total t; each of them may be undefined.  No function of the model is used. *)
From Verif Require Import PyBase ColumnModel BaseSpec.

Definition tb_acc (h fa m c t : option Q) := oratio (oadd h c) t.
Definition tb_fbias (h fa m c t : option Q) := oratio (oadd h fa) (oadd h m).
Definition tb_fmean (h fa m c t : option Q) := oratio (oadd h fa) t.
Definition tb_pody (h fa m c t : option Q) := oratio h (oadd h m).
Definition tb_pofd (h fa m c t : option Q) := oratio fa (oadd fa c).
Definition tb_podn (h fa m c t : option Q) := oratio c (oadd fa c).
Definition tb_far (h fa m c t : option Q) := oratio fa (oadd h fa).
Definition tb_csi (h fa m c t : option Q) := oratio h (oadd (oadd h fa) m).
(** hits expected by chance: (h+fa)(h+m)/t *)
Definition tb_chance (h fa m c t : option Q) := omul (oratio (oadd h fa) t) (oadd h m).
Definition tb_gss (h fa m c t : option Q) :=
  let e := tb_chance h fa m c t in
  oratio (osub h e) (osub (oadd (oadd h fa) m) e).
(** correct forecasts expected by chance *)
Definition tb_chance2 (h fa m c t : option Q) :=
  oadd (omul (oratio (oadd h fa) t) (oadd h m)) (omul (oratio (oadd m c) t) (oadd fa c)).
Definition tb_hss (h fa m c t : option Q) :=
  let e := tb_chance2 h fa m c t in
  oratio (osub (oadd h c) e) (osub t e).
Definition tb_orss (h fa m c t : option Q) :=
  oratio (osub (omul h c) (omul fa m)) (oadd (omul h c) (omul fa m)).

(** The five columns of a contingency table and their totals. *)
Record CtcTotals (data : tdata) (columns : list string) (h fa m c t : option Q) : Prop := {
  ct_rect : Rectangular data columns;
  ct_num : forall name, In name ["fy_oy"; "fy_on"; "fn_oy"; "fn_on"; "total"]%string ->
             NumericColumn data columns name;
  ct_h : ColumnTotal data columns "fy_oy" h;
  ct_fa : ColumnTotal data columns "fy_on" fa;
  ct_m : ColumnTotal data columns "fn_oy" m;
  ct_c : ColumnTotal data columns "fn_on" c;
  ct_t : ColumnTotal data columns "total" t
}.

(** Counts of a genuine contingency table: non-negative and adding up to the total. *)
Record Genuine (h fa m c t : Q) : Prop := {
  gn_h : 0 <= h; gn_fa : 0 <= fa; gn_m : 0 <= m; gn_c : 0 <= c;
  gn_t : t == h + fa + m + c
}.

(** Every cell of the named column is a number; [vs] are those numbers. *)
Definition AllNumbers (data : tdata) (columns : list string) (name : string) (vs : list Q) : Prop :=
  exists i, ColumnAt columns name i /\
            map (fun r => nth_error r i) data = map (fun q => Some (CNum q)) vs.

(** Row-level description of a contingency table row with columns
    fy_oy, fy_on, fn_oy, fn_on, total. *)
Definition ctc_columns : list string := ["fy_oy"; "fy_on"; "fn_oy"; "fn_on"; "total"]%string.
Definition ctc_row (h fa m c : Q) : row := [CNum h; CNum fa; CNum m; CNum c; CNum (h + fa + m + c)].

(** The score returns a number equal to [v]. *)
Definition Scores (data : tdata) (columns : list string) (f : tdata -> list string -> res pyval) (v : Q) : Prop :=
  exists r, f data columns = Ok (Some r) /\ r == v.
