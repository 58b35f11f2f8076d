(** Properties C12 to C14: event equalization. *)
From Verif Require Import PyBase ColumnModel BaseSpec EventModel EventSpec EventProofs.
Open Scope string_scope.

(** C12: equalization succeeds, and keeps exactly the rows whose event occurs in the data of
    every combination of series and fixed values, in their order and with their content. *)
Theorem C12_keeps_common_events :
  forall show data columns indy series fixed by_indep kc vars rows,
  Rectangular data columns ->
  NoDup (map fst series ++ map fst fixed) ->
  KeyColumns columns by_indep indy kc ->
  Variables series fixed vars ->
  (forall n, In n (map fst vars) -> In n columns) ->
  Keyed show columns kc data rows ->
  exists out,
    event_equalize show data columns indy series (map fst fixed) (map snd fixed) by_indep = Ok out /\
    Selection (fun kr => Common columns vars rows (fst kr)) rows out.
Proof. exact event_equalize_spec. Qed.
Print Assumptions C12_keeps_common_events.

(** C12: every rectangular table whose key columns exist has event keys. *)
Theorem C12_keys_exist : forall show columns kc data,
  (forall c, In c kc -> In c columns) -> Rectangular data columns ->
  exists rows, Keyed show columns kc data rows.
Proof. exact keyed_exists. Qed.
Print Assumptions C12_keys_exist.

(** C12: a grouped series value is replaced by its members. *)
Theorem C12_groups : forall s l, Group s l -> ungroup s = l.
Proof. exact ungroup_group. Qed.
Print Assumptions C12_groups.

(** C12: without a valid time the request fails with a KeyError. *)
Theorem C12_no_valid_time : forall show data columns indy series fix_vars fix_vals by_indep,
  ~ In "equalize" columns -> ~ In "fcst_valid_beg" columns -> ~ In "fcst_valid" columns ->
  event_equalize show data columns indy series fix_vars fix_vals by_indep = Err KeyError.
Proof. exact event_equalize_no_time. Qed.
Print Assumptions C12_no_valid_time.

(** C13: after equalization any two combinations have the same events. *)
Theorem C13_balanced :
  forall show data columns indy series fixed by_indep kc vars out,
  Rectangular data columns ->
  NoDup (map fst series ++ map fst fixed) ->
  KeyColumns columns by_indep indy kc ->
  Variables series fixed vars ->
  (forall n, In n (map fst vars) -> In n columns) ->
  event_equalize show data columns indy series (map fst fixed) (map snd fixed) by_indep = Ok out ->
  forall p1 p2 k, Combination vars p1 -> Combination vars p2 ->
    (EventOccurs columns vars out p1 k <-> EventOccurs columns vars out p2 k).
Proof. exact event_equalize_balanced. Qed.
Print Assumptions C13_balanced.

(** C13: equalizing the delivered table (which carries its keys in a new column) once more
    changes nothing, whether or not the independent variable is used again; where it is,
    rows of the same event must have the same value of it. *)
Theorem C13_idempotent :
  forall show data columns indy series fixed by_indep again kc vars out,
  Rectangular data columns ->
  ~ In "equalize" columns ->
  NoDup (map fst series ++ map fst fixed) ->
  KeyColumns columns by_indep indy kc ->
  Variables series fixed vars ->
  (forall n, In n (map fst vars) -> In n columns) ->
  (again = true -> ~ TimeColumn indy -> In indy columns /\
     forall k r1 r2 c1 c2 t1 t2, In (k, r1) out -> In (k, r2) out ->
       CellOf columns r1 indy c1 -> CellOf columns r2 indy c2 ->
       CellText show c1 t1 -> CellText show c2 t2 -> t1 = t2) ->
  event_equalize show data columns indy series (map fst fixed) (map snd fixed) by_indep = Ok out ->
  exists out',
    event_equalize show (with_key out) (columns ++ ["equalize"]) indy series
      (map fst fixed) (map snd fixed) again = Ok out' /\
    map snd out' = with_key out.
Proof. exact event_equalize_again. Qed.
Print Assumptions C13_idempotent.

(** C13: neither the order of the variables nor the order or repetition of their values matters. *)
Theorem C13_order_independent :
  forall show data columns indy by_indep series fixed series' fixed' kc vars vars',
  Rectangular data columns ->
  NoDup (map fst series ++ map fst fixed) -> NoDup (map fst series' ++ map fst fixed') ->
  KeyColumns columns by_indep indy kc ->
  Variables series fixed vars -> Variables series' fixed' vars' ->
  SameVariables vars vars' ->
  (forall n, In n (map fst vars) -> In n columns) ->
  (forall n, In n (map fst vars') -> In n columns) ->
  event_equalize show data columns indy series (map fst fixed) (map snd fixed) by_indep =
  event_equalize show data columns indy series' (map fst fixed') (map snd fixed') by_indep.
Proof. exact event_equalize_order. Qed.
Print Assumptions C13_order_independent.

(** C14: equalization against a list of cases keeps exactly the rows whose key is listed. *)
Theorem C14_keeps_listed : forall show data columns cases rows,
  Rectangular data columns -> In "fcst_valid" columns -> In "fcst_lead" columns -> ~ In "equalize" columns ->
  Keyed show columns ["fcst_valid"; "fcst_lead"] data rows ->
  exists kept, Selection (fun kr => In (fst kr) cases) rows kept /\
    event_equalize_against_values show data columns cases = Ok (map snd kept).
Proof. exact against_values_spec. Qed.
Print Assumptions C14_keeps_listed.
(** C14: no valid time, no rows; no lead column, a KeyError. *)
Theorem C14_no_time : forall show data columns cases,
  ~ In "fcst_valid" columns -> event_equalize_against_values show data columns cases = Ok [].
Proof. exact against_values_no_time. Qed.
Print Assumptions C14_no_time.
Theorem C14_no_lead : forall show data columns cases,
  In "fcst_valid" columns -> ~ In "fcst_lead" columns ->
  event_equalize_against_values show data columns cases = Err KeyError.
Proof. exact against_values_no_lead. Qed.
Print Assumptions C14_no_lead.
(** C14: a table that already has keys is rejected. *)
Theorem C14_keyed : forall show data columns cases,
  In "fcst_valid" columns -> In "fcst_lead" columns -> In "equalize" columns ->
  event_equalize_against_values show data columns cases = Err ValueError.
Proof. exact against_values_keyed. Qed.
Print Assumptions C14_keyed.

(** ** Concrete cases *)
Definition show0 (q : Q) : string := if Qeq_bool q 12 then "12" else "24".
Definition cols0 : list string := ["fcst_valid_beg"; "fcst_lead"; "model"; "vx_mask"; "me"].
Definition row0 (t : string) (l : Q) (m : string) (v : string) (x : Q) : row :=
  [CStr t; CNum l; CStr m; CStr v; CNum x].
Definition data0 : tdata :=
  [row0 "d1" 12 "A" "NH" 1; row0 "d1" 12 "B" "NH" 2; row0 "d2" 12 "A" "NH" 3;
   row0 "d2" 24 "B" "NH" 4; row0 "d3" 24 "B" "NH" 5; row0 "d3" 24 "A" "NH" 6].
Example C12_case_runs :
  event_equalize show0 data0 cols0 "fcst_lead" [("model", ["A:B"])] ["vx_mask"] [["NH"]] true =
  Ok [("d1 12", row0 "d1" 12 "A" "NH" 1); ("d1 12", row0 "d1" 12 "B" "NH" 2);
      ("d3 24", row0 "d3" 24 "B" "NH" 5); ("d3 24", row0 "d3" 24 "A" "NH" 6)].
Proof. reflexivity. Qed.
Example C12_case_rectangular : Rectangular data0 cols0.
Proof. intros r H. cbn in H. repeat (destruct H as [<-|H]; [reflexivity|]). destruct H. Qed.
Example C12_case_keys : KeyColumns cols0 true "fcst_lead" ["fcst_valid_beg"; "fcst_lead"].
Proof.
  exists ["fcst_valid_beg"; "fcst_lead"]. split; [|split].
  - right. left. split; [|split; [now left|reflexivity]]. cbn. intuition discriminate.
  - right. split; [right; cbn; tauto|reflexivity].
  - intros c [<-|[<-|[]]]; cbn; tauto.
Qed.
Example C12_case_variables :
  Variables [("model", ["A:B"])] [("vx_mask", ["NH"])] [("model", ["A"; "B"]); ("vx_mask", ["NH"])].
Proof. exact case_variables. Qed.
Example C12_case_dates :
  Group "2020-01-01 00:00:00:2020-01-02 12:30:00" ["2020-01-01 00:00:00"; "2020-01-02 12:30:00"].
Proof. exact case_dates. Qed.
Example C12_case_nodup : NoDup (map fst [("model", ["A:B"])] ++ map fst [("vx_mask", ["NH"])]).
Proof. cbn. repeat constructor; cbn; intuition discriminate. Qed.
Example C13_case_same :
  SameVariables [("model", ["A"; "B"]); ("vx_mask", ["NH"])] [("vx_mask", ["NH"; "NH"]); ("model", ["B"; "A"])].
Proof. exact case_same. Qed.
Example C13_case_again :
  event_equalize show0
    (with_key [("d1 12", row0 "d1" 12 "A" "NH" 1); ("d1 12", row0 "d1" 12 "B" "NH" 2);
               ("d3 24", row0 "d3" 24 "B" "NH" 5); ("d3 24", row0 "d3" 24 "A" "NH" 6)])
    (cols0 ++ ["equalize"]) "fcst_lead" [("model", ["A:B"])] ["vx_mask"] [["NH"]] true =
  Ok [("d1 12", row0 "d1" 12 "A" "NH" 1 ++ [CStr "d1 12"]); ("d1 12", row0 "d1" 12 "B" "NH" 2 ++ [CStr "d1 12"]);
      ("d3 24", row0 "d3" 24 "B" "NH" 5 ++ [CStr "d3 24"]); ("d3 24", row0 "d3" 24 "A" "NH" 6 ++ [CStr "d3 24"])]%list.
Proof. reflexivity. Qed.
Example C14_case :
  event_equalize_against_values show0 data0 ["fcst_valid"; "fcst_lead"; "model"; "vx_mask"; "me"] ["d2 24"; "d1 12"] =
  Ok [row0 "d1" 12 "A" "NH" 1; row0 "d1" 12 "B" "NH" 2; row0 "d2" 24 "B" "NH" 4].
Proof. reflexivity. Qed.
