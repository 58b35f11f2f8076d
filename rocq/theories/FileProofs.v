(** Proofs about the files of the programs. *)
From Coq Require Import Reals Qreals.
From Verif Require Import PyBase ColumnModel BaseSpec BaseProofs EventModel EventSpec EventProofs UtilModel BootModel DriveModel DriveSpec DriveProofs
  EqzModel EclvDriveModel EclvDriveSpec CardModel ModeDriveModel FileModel FileSpec.
From Verif Require SumDriveModel AggModel BlockProofs EqzProofs TrackProofs.
From Coq Require Import List Lia.
Open Scope string_scope.

(* ---------- runs of the two programs that may extend their output ---------- *)
Section Runs.
Variable show : Q -> string.
Variable order : list string -> list string.

Definition read_of (w : world) (path : string) : frame + failure :=
  match w path with None => inr (NoFile path) | Some lines => table_of show lines end.
Lemma read_csv_eq path w : read_csv show path w = (w, read_of w path).
Proof. unfold read_csv, read_of. destruct (w path); reflexivity. Qed.

Definition of_res {A : Type} (r : res A) : A + failure := match r with Ok x => inl x | Err e => inr (Raised e) end.
Lemma lift_eq {A : Type} (r : res A) w : lift r w = (w, of_res r).
Proof. destruct r; reflexivity. Qed.

Definition job_table (j : job) (w : world) : (list string * list line) + failure :=
  match j with
  | Statistics p => match read_of w (agg_input p) with inl f => of_res (agg_table show order p f) | inr e => inr e end
  | Economic p =>
      match of_res (arange (eclv_step p)) with
      | inr e => inr e
      | inl _ => match of_res (line_type_columns (eclv_line_type p)) with
                 | inr e => inr e
                 | inl _ => match read_of w (eclv_input p) with inl f => of_res (eclv_table show p f) | inr e => inr e end
                 end
      end
  end.
Lemma run_job_eq j w : run_job show order j w =
  match job_table j w with
  | inl t => to_csv (output_of j) (appends (append_of j)) (fst t) (snd t) w
  | inr f => (w, inr f)
  end.
Proof.
  destruct j as [p|p]; cbn [run_job job_table output_of append_of].
  - unfold agg_stat, andthen. rewrite read_csv_eq. destruct (read_of w (agg_input p)) as [f|f]; [|reflexivity].
    rewrite lift_eq. destruct (of_res _); reflexivity.
  - unfold agg_eclv, andthen. rewrite lift_eq. destruct (of_res (arange _)) as [?|?]; [|reflexivity].
    rewrite lift_eq. destruct (of_res (line_type_columns _)) as [?|?]; [|reflexivity].
    rewrite read_csv_eq. destruct (read_of w (eclv_input p)) as [f|f]; [|reflexivity].
    rewrite lift_eq. destruct (of_res _); reflexivity.
Qed.
Lemma job_table_append a j w : job_table (with_append a j) w = job_table j w.
Proof. destruct j as [[]|[]]; reflexivity. Qed.
Lemma output_append a j : output_of (with_append a j) = output_of j.
Proof. destruct j as [[]|[]]; reflexivity. Qed.
Lemma append_append a j : append_of (with_append a j) = a.
Proof. destruct j as [[]|[]]; reflexivity. Qed.
Lemma job_table_input j w w' : w (input_of j) = w' (input_of j) -> job_table j w = job_table j w'.
Proof. destruct j as [p|p]; cbn [input_of job_table]; unfold read_of; intro E; rewrite E; reflexivity. Qed.

Lemma to_csv_at path a names rows (w : world) : fst (to_csv path a names rows w) path =
  Some ((if a then match w path with Some l => l | None => [] end else []) ++ (if a then [] else [map Given names]) ++ rows)%list.
Proof. unfold to_csv. cbn [fst]. rewrite String.eqb_refl. reflexivity. Qed.
Lemma to_csv_others path a names rows (w : world) : Others path w (fst (to_csv path a names rows w)).
Proof. intros p NE. unfold to_csv. cbn [fst]. destruct (String.eqb_spec p path); [contradiction|reflexivity]. Qed.

Lemma gives_table j w t : job_table j w = inl t -> Gives show order w j t.
Proof.
  intro E. exists (fst (to_csv (output_of j) false (fst t) (snd t) w)). split.
  - rewrite run_job_eq, job_table_append, E, output_append, append_append. reflexivity.
  - rewrite to_csv_at. reflexivity.
Qed.
Lemma done_table j w w' : run_job show order j w = (w', inl tt) ->
  exists t, job_table j w = inl t /\ w' = fst (to_csv (output_of j) (appends (append_of j)) (fst t) (snd t) w).
Proof. rewrite run_job_eq. destruct (job_table j w) as [t|f]; [|discriminate]. intro E. exists t. rewrite E. auto. Qed.
Lemma appends_true a : appends a = true <-> a = Some (PText "True").
Proof.
  destruct a as [[s|b|]|]; cbn; try (split; discriminate). rewrite String.eqb_eq. split; [intros ->; reflexivity|congruence].
Qed.
Lemma appends_false a : a <> Some (PText "True") -> appends a = false.
Proof. intro H. destruct (appends a) eqn:E; [|reflexivity]. apply appends_true in E. contradiction. Qed.

Lemma history_rest path : forall rest w0 w w' lines,
  (forall j, In j rest -> output_of j = path /\ input_of j <> path /\ append_of j = Some (PText "True")) ->
  Others path w0 w -> LinesBefore w path lines -> AllDone show order rest w w' -> rest <> [] \/ w path = Some lines ->
  exists tables, Forall2 (Gives show order w0) rest tables /\ w' path = Some (lines ++ concat (map snd tables))%list /\ Others path w0 w'.
Proof.
  induction rest as [|j rest IH]; intros w0 w w' lines H O L D NE.
  - inversion D; subst. exists []. split; [constructor|]. cbn. rewrite app_nil_r. split; [|exact O]. destruct NE as [NE|NE]; [contradiction|exact NE].
  - inversion D as [|? ? ? w1 ? E D1]; subst. destruct (done_table _ _ _ E) as (t & T & ->).
    destruct (H j (or_introl eq_refl)) as (Ho & Hi & Ha). subst path.
    rewrite Ha in D1. change (appends (Some (PText "True"))) with true in D1.
    destruct (IH w0 (fst (to_csv (output_of j) true (fst t) (snd t) w)) w' (lines ++ snd t)%list) as (ts & F & X & O2).
    + intros j' Hj. apply H. right. exact Hj.
    + intros p NP. rewrite (to_csv_others (output_of j) true (fst t) (snd t) w p NP). apply O. exact NP.
    + left. rewrite to_csv_at. destruct L as [->|[-> ->]]; reflexivity.
    + exact D1.
    + right. rewrite to_csv_at. destruct L as [->|[-> ->]]; reflexivity.
    + exists (t :: ts). split; [|split; [|exact O2]].
      * constructor; [|exact F]. apply gives_table. rewrite <- T. apply job_table_input. symmetry. apply O. exact Hi.
      * rewrite X. cbn [map concat]. rewrite app_assoc. reflexivity.
Qed.
End Runs.

(* ---------- reading what was written ---------- *)
Lemma distinct_true l : NoDup l -> distinct l = true.
Proof.
  induction 1 as [|x l H ND IH]; [reflexivity|]. cbn [distinct]. rewrite IH. destruct (mem x l) eqn:E; [|reflexivity].
  apply mem_iff in E. contradiction.
Qed.
Lemma mapM_names show l : mapM (name_of show) (map Given l) = Ok l.
Proof. induction l as [|x l IH]; [reflexivity|]. cbn [map mapM]. rewrite IH. reflexivity. Qed.
Lemma mapM_cells l : mapM cell_of (map Kept l) = Ok l.
Proof. induction l as [|x l IH]; [reflexivity|]. cbn [map mapM]. rewrite IH. reflexivity. Qed.
Lemma mapM_rows l : mapM (mapM cell_of) (map (map Kept) l) = Ok l.
Proof. induction l as [|x l IH]; [reflexivity|]. cbn [map mapM]. rewrite mapM_cells. cbn [bind]. rewrite IH. reflexivity. Qed.
Lemma filter_all_true {A : Type} (f : A -> bool) l : (forall x, In x l -> f x = true) -> filter f l = l.
Proof.
  induction l as [|x l IH]; intro H; [reflexivity|]. cbn [filter]. rewrite (H x (or_introl eq_refl)). f_equal. apply IH. intros y Hy. apply H. right. exact Hy.
Qed.
Lemma table_lines show columns data : columns <> [] -> NoDup columns -> Rectangular data columns ->
  table_of show (TableLines columns data) = inl (columns, data).
Proof.
  intros NE ND RE. unfold table_of, TableLines. rewrite filter_all_true.
  - rewrite mapM_names. cbn [bind]. rewrite mapM_rows. cbn [bind]. rewrite (distinct_true _ ND). cbn [andb].
    replace (forallb (fun r : row => Nat.eqb (length r) (length columns)) data) with true; [reflexivity|].
    symmetry. apply forallb_forall. intros r Hr. apply Nat.eqb_eq, RE, Hr.
  - assert (forall A B (f : A -> B) l, l <> [] -> negb (match map f l with [] => true | _ => false end) = true) as K
      by (intros A B f [|x l] H; [contradiction|reflexivity]).
    intros x [<-|Hx].
    + apply K. exact NE.
    + apply in_map_iff in Hx. destruct Hx as (r & <- & Hr). unfold is_blank. apply K. intros ->. apply RE in Hr.
      destruct columns; [contradiction|discriminate].
Qed.
Lemma read_holds show w path columns data : HoldsTable w path columns data -> read_of show w path = inl (columns, data).
Proof. intros (NE & ND & RE & E). unfold read_of. rewrite E. apply table_lines; assumption. Qed.

(* ---------- lines ---------- *)
Lemma field_line names r n f : In n names -> AggModel.assoc n r = Some f -> FieldOf names (line_at names r) n f.
Proof.
  intros H A. apply In_nth_error in H. destruct H as (i & H). exists i. split; [exact H|]. unfold line_at. rewrite nth_error_map, H. cbn.
  unfold field_at. rewrite A. reflexivity.
Qed.
Lemma field_line_none names r n : In n names -> AggModel.assoc n r = None -> FieldOf names (line_at names r) n (Kept CMiss).
Proof.
  intros H A. apply In_nth_error in H. destruct H as (i & H). exists i. split; [exact H|]. unfold line_at. rewrite nth_error_map, H. cbn.
  unfold field_at. rewrite A. reflexivity.
Qed.
Lemma assoc_texts_in pt t n v : NoDup (map fst pt) -> In (n, v) pt -> AggModel.assoc n (texts pt ++ t)%list = Some (Given v).
Proof.
  induction pt as [|[m u] pt IH]; intros ND H; [destruct H|]. cbn [texts map fst snd app AggModel.assoc]. cbn [map fst] in ND. inversion ND; subst.
  destruct H as [H|H].
  - injection H as -> ->. rewrite String.eqb_refl. reflexivity.
  - destruct (String.eqb_spec m n) as [->|NE]; [|apply IH; assumption]. exfalso. apply H2. apply in_map_iff. exists (n, v). auto.
Qed.
Lemma assoc_texts_out pt t n : ~ In n (map fst pt) -> AggModel.assoc n (texts pt ++ t)%list = AggModel.assoc n t.
Proof.
  induction pt as [|[m u] pt IH]; intro H; [reflexivity|]. cbn [texts map fst snd app AggModel.assoc].
  destruct (String.eqb_spec m n) as [->|NE]; [exfalso; apply H; left; reflexivity|]. apply IH. intro X. apply H. right. exact X.
Qed.
Lemma number_field names r n v : In n names -> AggModel.assoc n r = Some (number v) -> NumberField names (line_at names r) n v.
Proof.
  intros H A. apply (field_line names r n _ H) in A. destruct v as [q|]; [right; exists q; auto|left; auto].
Qed.
Lemma text_field names r n v : In n names -> AggModel.assoc n r = Some (text_or_none v) -> TextField names (line_at names r) n v.
Proof.
  intros H A. apply (field_line names r n _ H) in A. destruct v as [q|]; [right; exists q; auto|left; auto].
Qed.
Lemma line_length names r : length (line_at names r) = length names.
Proof. unfold line_at. apply map_length. Qed.
Lemma combine_fst_incl {A B : Type} (l : list A) (m : list B) : incl (map fst (combine l m)) l.
Proof. revert m. induction l as [|x l IH]; intros [|y m] z H; try (destruct H; fail). cbn in H. destruct H as [<-|H]; [left; reflexivity|right; exact (IH m z H)]. Qed.
Lemma combine_fst_nodup {A B : Type} (l : list A) (m : list B) : NoDup l -> NoDup (map fst (combine l m)).
Proof.
  revert m. induction l as [|x l IH]; intros [|y m] H; try constructor. 
  - inversion H; subst. intro X. apply (combine_fst_incl l m) in X. contradiction.
  - inversion H; subst. apply IH. assumption.
Qed.

(* ---------- the points of the output ---------- *)
Lemma points_names e single lt groups columns data rq known : forall points st fv dist st' out,
  points_loop e single lt groups columns data rq known points st fv dist = Ok (st', out) ->
  forall o, In o out -> exists p, point_of o = combine (map fst (all_fields_values rq)) p.
Proof.
  induction points as [|p points IH]; intros st fv dist st' out H o Ho; cbn [points_loop] in H.
  - injection H as <- <-. destruct Ho.
  - destruct (is_derived_point (Some p)).
    + destruct (get_bootstrapped_stats_for_derived _ _ _ _ _ _ _ _) as [r|]; [|discriminate H]. cbn [bind] in H.
      destruct fv as [fv|]; [|discriminate H].
      destruct (points_loop _ _ _ _ _ _ _ _ points _ _ _) as [[s o']|] eqn:L; [|discriminate H]. cbn [bind fst snd] in H. injection H as <- <-.
      destruct Ho as [<-|Ho]; [exists p; reflexivity|]. exact (IH _ _ _ _ _ L o Ho).
    + destruct (plain_point _ _ _ _ _ _ _ _) as [[[r n] f]|]; [|discriminate H]. cbn [bind] in H.
      destruct (points_loop _ _ _ _ _ _ _ _ points _ _ _) as [[s o']|] eqn:L; [|discriminate H]. cbn [bind fst snd] in H. injection H as <- <-.
      destruct Ho as [<-|Ho]; [exists p; reflexivity|]. exact (IH _ _ _ _ _ L o Ho).
Qed.
Lemma axis_names e single lt groups columns data rq st known st' known' out :
  proceed_with_axis e single lt groups columns data rq st known = Ok (st', known', out) ->
  forall o, In o out -> exists p, point_of o = combine (map fst (all_fields_values rq)) p.
Proof.
  unfold proceed_with_axis. destruct data as [|d ds]; [intro H; injection H as <- <- <-; intros o []|].
  match goal with |- bind ?x _ = _ -> _ => destruct x as [dp|]; [|discriminate] end. cbn [bind].
  destruct (points_loop _ _ _ _ _ _ _ _ _ _ _ _) as [[s o']|] eqn:L; [|discriminate]. cbn [bind fst snd]. intro H. injection H as <- <- <-.
  exact (points_names _ _ _ _ _ _ _ _ _ _ _ _ _ _ L).
Qed.
Lemma stats_names e single lt columns data rq1 rq2 out :
  DriveModel.calculate_stats e single lt columns data rq1 rq2 = Ok out ->
  forall o, In o out -> exists rq p, (rq = rq1 \/ (rq = rq2 /\ series_val rq2 <> [])) /\ point_of o = combine (map fst (all_fields_values rq)) p.
Proof.
  unfold DriveModel.calculate_stats.
  destruct (proceed_with_axis _ _ _ _ _ _ rq1 _ _) as [[[st kn] o1]|] eqn:A1; [|discriminate]. cbn [bind].
  destruct (series_val rq2) as [|s ss] eqn:S2.
  - intro H. injection H as <-. intros o Ho. destruct (axis_names _ _ _ _ _ _ _ _ _ _ _ _ A1 o Ho) as (p & P). exists rq1, p. auto.
  - destruct (proceed_with_axis _ _ _ _ _ _ rq2 _ _) as [[[st2 kn2] o2]|] eqn:A2; [|discriminate]. cbn [bind snd]. intro H. injection H as <-. intros o Ho.
    apply in_app_or in Ho. destruct Ho as [Ho|Ho].
    + destruct (axis_names _ _ _ _ _ _ _ _ _ _ _ _ A1 o Ho) as (p & P). exists rq1, p. auto.
    + destruct (axis_names _ _ _ _ _ _ _ _ _ _ _ _ A2 o Ho) as (p & P). exists rq2, p. split; [right; split; [reflexivity|discriminate]|exact P].
Qed.
Lemma stat_line names o : NoDup (map fst (point_of o)) -> (forall n, In n (map fst (point_of o)) -> ~ In n result_columns) ->
  incl (map fst (point_of o)) names -> incl result_columns names -> StatLine names o (line_at names (agg_line o)).
Proof.
  intros ND NR I1 I2.
  assert (forall n, In n result_columns -> AggModel.assoc n (agg_line o) =
    AggModel.assoc n [("fcst_var", text_or_none (fcst_var_of o)); ("stat_value", number (value (stat_of o)));
    ("stat_btcl", number (lower_bound (stat_of o))); ("stat_btcu", number (upper_bound (stat_of o)));
    ("nstats", count_of (nstats o))]) as K.
  { intros n Hn. unfold agg_line. apply assoc_texts_out. intro X. exact (NR n X Hn). }
  split; [apply line_length|]. split; [|split].
  - intros n v H. apply field_line; [apply I1; apply in_map_iff; exists (n, v); auto|]. unfold agg_line. apply assoc_texts_in; assumption.
  - intros n Hn NP NRn. apply field_line_none; [exact Hn|]. unfold agg_line. rewrite assoc_texts_out by exact NP.
    cbn [AggModel.assoc]. repeat match goal with |- context[String.eqb ?a n] => destruct (String.eqb_spec a n) as [<-|_]; [exfalso; apply NRn; cbn; tauto|] end.
    reflexivity.
  - split; [apply text_field|split; [apply number_field|split; [apply number_field|split; apply number_field]]];
      try (apply I2; cbn; tauto); rewrite K by (cbn; tauto); reflexivity.
Qed.

(* ---------- the switch ---------- *)
Lemma off_truthy v : Off v -> truthy (parse_bool v) = false.
Proof. intros [->|[->|[->| ->]]]; reflexivity. Qed.
Lemma on_truthy v : On v -> truthy (parse_bool v) = true.
Proof. intros [->| ->]; reflexivity. Qed.
Lemma other_truthy v : OtherText v -> truthy (parse_bool v) = true.
Proof.
  intros (s & -> & T & F & E). cbn. destruct (String.eqb_spec s "True"); [contradiction|]. destruct (String.eqb_spec s "False"); [contradiction|]. cbn.
  destruct (String.eqb_spec s ""); [contradiction|reflexivity].
Qed.
Lemma truthy_off v : truthy (parse_bool v) = false -> Off v.
Proof.
  destruct v as [s|[|]|]; cbn; try discriminate; intro H; [|right; left; reflexivity|right; right; left; reflexivity].
  destruct (String.eqb_spec s "True"); [discriminate H|]. destruct (String.eqb_spec s "False") as [EF|NF]; [left; rewrite EF; reflexivity|].
  cbn in H. destruct (String.eqb_spec s "") as [EE|]; [right; right; right; rewrite EE; reflexivity|discriminate H].
Qed.
Lemma not_off v : ~ Off v -> truthy (parse_bool v) = true.
Proof. intro H. destruct (truthy (parse_bool v)) eqn:E; [reflexivity|]. apply truthy_off in E. contradiction. Qed.
Lemma same_runs v v' : truthy (parse_bool v) = truthy (parse_bool v') -> SameRuns v v'.
Proof.
  intros E show order w. repeat split; intros [].
  - unfold agg_stat, agg_table, agg_switch. cbn [FileModel.agg_input FileModel.agg_event_equal FileModel.agg_fixed FileModel.agg_rq1 FileModel.agg_rq2 FileModel.agg_var1 FileModel.agg_var2 FileModel.agg_engine FileModel.agg_single FileModel.agg_line_type FileModel.agg_output FileModel.agg_append]. rewrite E. reflexivity.
  - unfold agg_eclv, eclv_table, eclv_switch. cbn [FileModel.eclv_input FileModel.eclv_output FileModel.eclv_append FileModel.eclv_event_equal FileModel.eclv_by_indep FileModel.eclv_fixed FileModel.eclv_series FileModel.eclv_line_type FileModel.eclv_step FileModel.eclv_base_rate FileModel.eclv_samples FileModel.eclv_np_float]. rewrite E. reflexivity.
  - unfold sum_stat, sum_table, sum_equalized, sum_switch. cbn [FileModel.sum_input FileModel.sum_output FileModel.sum_event_equal FileModel.sum_fixed FileModel.sum_var1 FileModel.sum_var2 FileModel.sum_line_type FileModel.sum_indy FileModel.sum_indy_vals FileModel.sum_series1 FileModel.sum_series2 FileModel.sum_statistic]. rewrite E. reflexivity.
  - unfold agg_stat_eqz, eqz_switch. cbn [FileModel.eqz_input FileModel.eqz_cases FileModel.eqz_output FileModel.eqz_event_equal FileModel.eqz_var1 FileModel.eqz_var2 FileModel.eqz_series1 FileModel.eqz_series2]. rewrite E. reflexivity.
  - destruct mode_eqz. unfold agg_stat_bootstrap, bootstrap_equalization, agg_stat_eqz, mode_switch, eqz_switch.
    cbn [FileModel.mode_eqz FileModel.mode_rq1 FileModel.mode_rq2 FileModel.mode_text FileModel.mode_calc FileModel.mode_samples FileModel.eqz_input FileModel.eqz_cases FileModel.eqz_output FileModel.eqz_event_equal FileModel.eqz_var1 FileModel.eqz_var2 FileModel.eqz_series1 FileModel.eqz_series2]. rewrite E. reflexivity.
Qed.


(* ---------- the points of objects and of economic values ---------- *)
Lemma set_first_points test f : (forall o, mode_point (f o) = mode_point o) -> forall l l', set_first test f l = Ok l' -> map mode_point l' = map mode_point l.
Proof.
  intro K. induction l as [|o l IH]; intros l' H; [discriminate|]. cbn [set_first] in H. destruct (test o).
  - injection H as <-. cbn [map]. rewrite K. reflexivity.
  - destruct (set_first test f l) as [t|]; [|discriminate]. cbn [bind] in H. injection H as <-. cbn [map]. rewrite (IH _ eq_refl). reflexivity.
Qed.
Lemma mode_all_points text calc samples columns rows rq var iv cases : forall keys out out',
  mode_all text calc samples columns rows rq var iv cases keys out = Ok out' -> map mode_point out' = map mode_point out.
Proof.
  induction keys as [|k keys IH]; intros out out' H; cbn [mode_all] in H; [injection H as <-; reflexivity|].
  destruct (mode_one _ _ _ _ _ _ _ _ _ k out) as [o1|] eqn:E; [|discriminate]. cbn [bind] in H. rewrite (IH _ _ H). clear IH H.
  unfold mode_one in E. destruct (mode_rows _ _ _ _ _) as [pd|]; [|discriminate]. cbn [bind] in E.
  destruct (mode_stats _ _ _ _ _ _ _ _) as [r|]; [|discriminate]. cbn [bind] in E.
  refine (set_first_points _ _ _ _ _ E). intros o. reflexivity.
Qed.
Lemma mode_indys_points text calc samples columns data rq var : forall indys cases out out',
  mode_indys text calc samples columns data rq var indys cases out = Ok out' -> map mode_point out' = map mode_point out.
Proof.
  induction indys as [|i indys IH]; intros cases out out' H; cbn [mode_indys] in H; [injection H as <-; reflexivity|].
  destruct (point_data _ _ _) as [pd|]; [|discriminate]. cbn [bind] in H.
  destruct (mode_cases _ _ _ _ _ _) as [cs|]; [|discriminate]. cbn [bind] in H.
  destruct (mode_all _ _ _ _ _ _ _ _ _ _ _) as [o1|] eqn:E; [|discriminate]. cbn [bind] in H.
  rewrite (IH _ _ _ H). exact (mode_all_points _ _ _ _ _ _ _ _ _ _ _ _ E).
Qed.
Lemma mode_axis_points text calc samples columns data rq out : mode_axis text calc samples columns data rq = Ok out ->
  forall o, In o out -> exists p, mode_point o = combine (map fst (dict_set "stat_name" (list_stat rq) (dict_set (indy_var rq) (indy_vals rq) (series_val rq)))) p.
Proof.
  unfold mode_axis. intros H o Ho. apply mode_indys_points in H. apply (in_map mode_point) in Ho. rewrite H, map_map in Ho. cbn [mode_point] in Ho.
  apply in_map_iff in Ho. destruct Ho as (p & <- & _). exists p. reflexivity.
Qed.
Lemma mode_line_of names o : NoDup (map fst (mode_point o)) -> (forall n, In n (map fst (mode_point o)) -> ~ In n result_columns) ->
  incl (map fst (mode_point o)) names -> incl result_columns names -> ModeLine names o (line_at names (mode_line o)).
Proof.
  intros ND NR I1 I2.
  assert (forall n, In n result_columns -> AggModel.assoc n (mode_line o) =
    AggModel.assoc n [("fcst_var", text_or_none (mode_var o)); ("stat_value", number (value (mode_result o)));
    ("stat_btcl", number (lower_bound (mode_result o))); ("stat_btcu", number (upper_bound (mode_result o)));
    ("nstats", match mode_nstats o with Some n => count_of n | None => Kept CMiss end)]) as K.
  { intros n Hn. unfold mode_line. apply assoc_texts_out. intro X. exact (NR n X Hn). }
  split; [apply line_length|]. split.
  - intros n v H. apply field_line; [apply I1; apply in_map_iff; exists (n, v); auto|]. unfold mode_line. apply assoc_texts_in; assumption.
  - split; [apply text_field|split; [apply number_field|split; [apply number_field|split; apply number_field]]];
      try (apply I2; cbn; tauto); rewrite K by (cbn; tauto); try reflexivity. destruct (mode_nstats o); reflexivity.
Qed.
Lemma eclv_rows_point p th n : forall xs ys lows highs out, eclv_rows p th n xs ys lows highs = Ok out -> forall o, In o out -> eclv_point o = p.
Proof.
  induction xs as [|x xs IH]; intros [|y ys] [|l lows] [|h highs] out H o Ho; cbn [eclv_rows] in H; try discriminate H.
  - injection H as <-. destruct Ho.
  - destruct (eclv_rows p th n xs ys lows highs) as [rest|] eqn:E; [|discriminate]. cbn [bind] in H. injection H as <-.
    destruct Ho as [<-|Ho]; [reflexivity|exact (IH _ _ _ _ E o Ho)].
Qed.
Lemma mapM_source {A B : Type} (f : A -> res B) : forall l m y, mapM f l = Ok m -> In y m -> exists x, In x l /\ f x = Ok y.
Proof.
  induction l as [|x l IH]; intros m y H Hy; cbn [mapM] in H; [injection H as <-; destruct Hy|].
  destruct (f x) as [z|] eqn:E; [|discriminate]. cbn [bind] in H. destruct (mapM f l) as [t|] eqn:E2; [|discriminate]. cbn [bind] in H. injection H as <-.
  destruct Hy as [<-|Hy]; [exists x; split; [left; reflexivity|exact E]|]. destruct (IH t y eq_refl Hy) as (x' & I & F). exists x'. split; [right; exact I|exact F].
Qed.
Lemma eclv_one_point b lt columns data series steps br names boot point out :
  eclv_one b lt columns data series steps br names boot point = Ok out -> forall o, In o out -> eclv_point o = combine (map fst series) point.
Proof.
  unfold eclv_one. intro H. destruct (point_data _ _ _) as [pd|]; [|discriminate]. cbn [bind] in H.
  destruct (eclv_thresholds _ _) as [ths|]; [|discriminate]. cbn [bind] in H.
  match type of H with bind ?x _ = _ => destruct x as [rs|]; [|discriminate] end. cbn [bind] in H.
  match type of H with bind ?x _ = _ => destruct x as [blocks|] eqn:E; [|discriminate] end. cbn [bind] in H. injection H as <-.
  intros o Ho. apply in_concat in Ho. destruct Ho as (bl & Hb & Ho). destruct (mapM_source _ _ _ _ E Hb) as ([th r] & _ & F). cbn [fst snd] in F.
  destruct r as [r|]; [|discriminate]. cbn [bind] in F. destruct (eclv_value r) as [[cl v]|]; [|discriminate].
  match type of F with (if ?c then _ else _) = _ => destruct c; [|discriminate] end. exact (eclv_rows_point _ _ _ _ _ _ _ _ F o Ho).
Qed.
Lemma eclv_points b lt columns data series step br boot out : aggregate_eclv b lt columns data series step br boot = Ok out ->
  forall o, In o out -> exists p, eclv_point o = combine (map fst series) p.
Proof.
  unfold aggregate_eclv. destruct (arange step); [|discriminate]. cbn [bind]. destruct (line_type_columns lt); [|discriminate]. cbn [bind].
  destruct data as [|d ds]; [intro H; injection H as <-; intros o []|].
  match goal with |- bind ?x _ = _ -> _ => destruct x as [blocks|] eqn:E; [|discriminate] end. cbn [bind]. intro H. injection H as <-.
  intros o Ho. apply in_concat in Ho. destruct Ho as (bl & Hb & Ho). destruct (mapM_source _ _ _ _ E Hb) as (p & _ & F). exists p. exact (eclv_one_point _ _ _ _ _ _ _ _ _ _ _ F o Ho).
Qed.
Lemma eclv_line_of names o : NoDup (map fst (eclv_point o)) -> (forall n, In n (map fst (eclv_point o)) -> ~ In n ECLV_HEADER) ->
  incl (map fst (eclv_point o)) names -> incl ECLV_HEADER names -> EclvLine names o (line_at names (eclv_fields o)).
Proof.
  intros ND NR I1 I2.
  assert (forall n, In n ECLV_HEADER -> AggModel.assoc n (eclv_fields o) =
    AggModel.assoc n [("thresh_i", number (Some (thresh_i o))); ("x_pnt_i", number (Some (x_pnt_i o))); ("y_pnt_i", number (y_pnt_i o));
    ("stat_btcl", number (stat_btcl o)); ("stat_btcu", number (stat_btcu o)); ("nstats", count_of (eclv_nstats o))]) as K.
  { intros n Hn. unfold eclv_fields. apply assoc_texts_out. intro X. exact (NR n X Hn). }
  split; [apply line_length|]. split.
  - intros n v H. apply field_line; [apply I1; apply in_map_iff; exists (n, v); auto|]. unfold eclv_fields. apply assoc_texts_in; assumption.
  - split; [|split; [|split; [|split; [|split]]]]; apply number_field; try (apply I2; cbn; tauto); rewrite K by (cbn; tauto); reflexivity.
Qed.
Lemma forall2_map_r {A B : Type} (P : A -> B -> Prop) f l : (forall x, In x l -> P x (f x)) -> Forall2 P l (map f l).
Proof. induction l as [|x l IH]; intro H; constructor; [apply H; left; reflexivity|]. apply IH. intros y Hy. apply H. right. exact Hy. Qed.

(* ---------- names ---------- *)
Definition later_names (f1 f2 : list string) : list string := filter (fun n => negb (mem n (f1 ++ RESULT_COLUMNS)%list)) f2.
Lemma union_names f1 f2 : union_columns (f1 ++ RESULT_COLUMNS) (f2 ++ RESULT_COLUMNS) = ((f1 ++ RESULT_COLUMNS) ++ later_names f1 f2)%list.
Proof.
  unfold union_columns. f_equal. rewrite filter_app. unfold later_names.
  replace (filter (fun n => negb (mem n (f1 ++ RESULT_COLUMNS)%list)) RESULT_COLUMNS) with (@nil string); [apply app_nil_r|].
  symmetry. assert (forall l, incl l (f1 ++ RESULT_COLUMNS)%list -> filter (fun n => negb (mem n (f1 ++ RESULT_COLUMNS)%list)) l = []) as K.
  { induction l as [|x l IH]; intro H; [reflexivity|]. cbn [filter]. rewrite (proj2 (mem_iff x _) (H x (or_introl eq_refl))). cbn [negb].
    apply IH. intros y Hy. apply H. right. exact Hy. }
  apply K. apply incl_appr, incl_refl.
Qed.
Lemma later_selection f1 f2 : (forall n, In n f2 -> ~ In n RESULT_COLUMNS) -> Selection (fun n => ~ In n f1) f2 (later_names f1 f2).
Proof.
  intro H. induction f2 as [|x f2 IH]; [constructor|]. unfold later_names. cbn [filter].
  assert (Selection (fun n => ~ In n f1) f2 (later_names f1 f2)) as T by (apply IH; intros n Hn; apply H; right; exact Hn).
  destruct (mem x (f1 ++ RESULT_COLUMNS)%list) eqn:E; cbn [negb].
  - apply sel_drop; [|exact T]. apply mem_iff in E. apply in_app_or in E. destruct E as [E|E]; [tauto|]. exfalso. exact (H x (or_introl eq_refl) E).
  - apply sel_keep; [|exact T]. intro X. apply mem_false in E. apply E. apply in_or_app. left. exact X.
Qed.
Lemma nodup_two {A : Type} (a b : list A) : NoDup a -> NoDup b -> (forall x, In x a -> ~ In x b) -> NoDup (a ++ b)%list.
Proof.
  induction a as [|x a IH]; intros Na Nb D; [exact Nb|]. inversion Na; subst. cbn [app]. constructor.
  - intro X. apply in_app_or in X. destruct X as [X|X]; [contradiction|]. exact (D x (or_introl eq_refl) X).
  - apply IH; [assumption|exact Nb|]. intros y Hy. apply D. right. exact Hy.
Qed.
Lemma nodup_results : NoDup RESULT_COLUMNS.
Proof. repeat constructor; cbn; intuition discriminate. Qed.

(* ---------- the other programs ---------- *)
Lemma holds_after path columns data names rows (w : world) : columns <> [] -> NoDup columns -> Rectangular data columns -> names = columns -> rows = map (map Kept) data ->
  HoldsTable (fst (to_csv path false names rows w)) path columns data.
Proof. intros NE ND RE -> ->. split; [exact NE|]. split; [exact ND|]. split; [exact RE|]. rewrite to_csv_at. reflexivity. Qed.
Lemma card_nothing cdf emc nd columns data rq : forall points dist out, card_loop cdf emc nd columns data rq [] points dist = Ok out -> out = [].
Proof.
  induction points as [|p points IH]; intros dist out H; cbn [card_loop] in H; [injection H as <-; reflexivity|].
  destruct (is_derived_point (Some p)).
  - unfold card_derived in H. cbn [UtilModel.lookup bind] in H. discriminate H.
  - destruct (card_point _ _ _ _) as [rows|]; [|discriminate]. cbn [bind] in H. exact (IH _ _ H).
Qed.

Lemma mask_in {A : Type} : forall bs (l : list A), incl (mask bs l) l.
Proof.
  induction bs as [|b bs IH]; intros [|x l] y H; cbn [mask] in H; try (destruct H; fail); try (destruct b; destruct H; fail).
  destruct b; [destruct H as [<-|H]; [left; reflexivity|right; exact (IH l y H)]|right; exact (IH l y H)].
Qed.
Lemma filter_column_in columns name test data out : filter_column columns name test data = Ok out -> incl out data.
Proof.
  unfold filter_column. destruct (index_of name columns); [|discriminate]. destruct (mapM _ data) as [bs|]; [|discriminate]. cbn [bind]. intro H. injection H as <-. apply mask_in.
Qed.
Lemma eqz_pair_in show input prev fv sv out : eqz_pair show input prev fv sv = Ok out -> incl out (snd input).
Proof.
  unfold eqz_pair. intro H. destruct (filter_column (fst input) "fcst_var" _ (snd input)) as [d1|] eqn:E1; [|discriminate]. cbn [bind] in H.
  destruct (filter_column (fst input) (fst sv) _ d1) as [d2|] eqn:E2; [|discriminate]. cbn [bind] in H.
  destruct (filter_column (fst prev) "fcst_var" _ (snd prev)) as [p1|]; [|discriminate]. cbn [bind] in H.
  destruct (filter_column (fst prev) (fst sv) _ p1) as [p2|]; [|discriminate]. cbn [bind] in H.
  match type of H with bind ?x _ = _ => destruct x as [cs|]; [|discriminate] end. cbn [bind] in H.
  apply filter_column_in in E1. apply filter_column_in in E2. unfold event_equalize_against_values in H.
  destruct (mem "fcst_valid" (fst input)); [|injection H as <-; intros x []].
  destruct (negb _); [discriminate|]. destruct (mem "equalize" _); [discriminate|].
  destruct (mapM _ d2) as [keys|]; [|discriminate]. cbn [bind] in H. injection H as <-. intros r Hr. apply E1, E2.
  apply in_map_iff in Hr. destruct Hr as ([k r'] & <- & Hr). apply filter_In in Hr. destruct Hr as [Hr _]. exact (in_combine_r _ _ _ _ Hr).
Qed.
Lemma eqz_axis_in show input prev vars series out : eqz_on_axis show input prev vars series = Ok out -> incl out (snd input).
Proof.
  unfold eqz_on_axis. destruct (mapM _ vars) as [parts|] eqn:E; [|discriminate]. cbn [bind]. intro H. injection H as <-. intros r Hr.
  apply in_concat in Hr. destruct Hr as (l & Hl & Hr). apply in_map_iff in Hl. destruct Hl as (ls & <- & Hls). apply in_concat in Hr. destruct Hr as (rs & Hrs & Hr).
  destruct (mapM_source _ _ _ _ E Hls) as (fv & _ & F). destruct (mapM_source _ _ _ _ F Hrs) as (sv & _ & G). exact (eqz_pair_in _ _ _ _ _ _ G r Hr).
Qed.
Lemma rectangular_incl (a b : tdata) columns : incl a b -> Rectangular b columns -> Rectangular a columns.
Proof. intros I W r Hr. apply W, I, Hr. Qed.

(* ---------- what a run of the equalization does ---------- *)
Section Equalization.
Variable show : Q -> string.
Definition eqz_result (p : eqz_params) (w : world) : frame + failure :=
  match read_of show w (eqz_input p) with
  | inr e => inr e
  | inl f =>
      match snd f with
      | [] => inl f
      | _ =>
          if truthy (parse_bool (eqz_event_equal p)) then
            match read_of show w (eqz_cases p) with
            | inr e => inr e
            | inl prev =>
                match of_res (eqz_on_axis show f prev (eqz_var1 p) (eqz_series1 p)) with
                | inr e => inr e
                | inl r1 =>
                    match eqz_series2 p with
                    | [] => inl (rows_frame (fst f) r1)
                    | _ => match of_res (eqz_on_axis show f prev (eqz_var2 p) (eqz_series2 p)) with
                           | inr e => inr e
                           | inl r2 => inl (rows_frame (fst f) (r1 ++ r2))
                           end
                    end
                end
            end
          else inl f
      end
  end.
Lemma agg_stat_eqz_eq p w : agg_stat_eqz show p w =
  match eqz_result p w with inr e => (w, inr e) | inl t => to_csv (eqz_output p) false (fst t) (plain_lines (snd t)) w end.
Proof.
  unfold agg_stat_eqz, eqz_result, andthen. rewrite read_csv_eq. destruct (read_of show w (eqz_input p)) as [f|e]; [|reflexivity].
  destruct (snd f); [reflexivity|]. destruct (truthy _); [|reflexivity].
  rewrite read_csv_eq. destruct (read_of show w (eqz_cases p)) as [prev|e]; [|reflexivity].
  rewrite lift_eq. destruct (of_res _) as [r1|e]; [|reflexivity]. destruct (eqz_series2 p); [reflexivity|].
  rewrite lift_eq. destruct (of_res _) as [r2|e]; reflexivity.
Qed.
Definition mode_table (p : mode_params) (f : frame) : (list string * list line) + failure :=
  match of_res (mode_values (mode_text p) (mode_calc p (fst f)) (mode_samples p) (fst f) (snd f) (mode_rq1 p) (mode_rq2 p)) with
  | inr e => inr e
  | inl out =>
      let names := match series_val (mode_rq2 p) with
                   | [] => mode_columns (mode_rq1 p)
                   | _ => union_columns (mode_columns (mode_rq1 p)) (mode_columns (mode_rq2 p))
                   end in
      inl (names, map (fun o => line_at names (mode_line o)) out)
  end.
Lemma bootstrap_off p w : truthy (parse_bool (eqz_event_equal (mode_eqz p))) = false -> agg_stat_bootstrap show p w =
  match read_of show w (eqz_input (mode_eqz p)) with
  | inr e => (w, inr e)
  | inl f => match snd f with
             | [] => to_csv (eqz_output (mode_eqz p)) false [] [] w
             | _ => match mode_table p f with
                    | inr e => (w, inr e)
                    | inl t => to_csv (eqz_output (mode_eqz p)) false (fst t) (snd t) w
                    end
             end
  end.
Proof.
  intro T. unfold agg_stat_bootstrap, mode_table, andthen. rewrite read_csv_eq. destruct (read_of show w _) as [[c d]|e]; [|reflexivity]. cbn [fst snd].
  destruct d as [|r d]; [reflexivity|]. rewrite T. cbn [ret fst snd]. rewrite lift_eq. destruct (of_res _) as [out|e]; reflexivity.
Qed.
Lemma bootstrap_on p w f : truthy (parse_bool (eqz_event_equal (mode_eqz p))) = true -> read_of show w (eqz_input (mode_eqz p)) = inl f -> snd f <> [] ->
  agg_stat_bootstrap show p w =
  match agg_stat_eqz show (mode_eqz p) w with (w', inr e) => (w', inr e) | (w', inl _) => (w', inr (Raised AttributeError)) end.
Proof.
  intros T RD NE. unfold agg_stat_bootstrap, bootstrap_equalization. unfold andthen at 1. rewrite read_csv_eq, RD. unfold andthen at 1. destruct f as [c d]. cbn [fst snd] in *.
  destruct d as [|r d]; [contradiction|]. unfold andthen at 1. rewrite T. unfold andthen at 1. destruct (agg_stat_eqz show (mode_eqz p) w) as [w' [u|e]]; reflexivity.
Qed.
Lemma eqz_frame p w columns data pcolumns prev : HoldsTable w (eqz_input p) columns data -> data <> [] -> HoldsTable w (eqz_cases p) pcolumns prev ->
  truthy (parse_bool (eqz_event_equal p)) = true -> forall t, eqz_result p w = inl t ->
  exists r1 r2, eqz_on_axis show (columns, data) (pcolumns, prev) (eqz_var1 p) (eqz_series1 p) = Ok r1 /\
    ((eqz_series2 p = [] /\ r2 = []) \/
     (eqz_series2 p <> [] /\ eqz_on_axis show (columns, data) (pcolumns, prev) (eqz_var2 p) (eqz_series2 p) = Ok r2)) /\
    t = rows_frame columns (r1 ++ r2)%list.
Proof.
  intros H NE HP T t. unfold eqz_result. rewrite (read_holds show _ _ _ _ H). cbn [fst snd]. destruct data as [|d ds]; [contradiction|]. rewrite T, (read_holds show _ _ _ _ HP).
  destruct (eqz_on_axis show (columns, d :: ds) (pcolumns, prev) (eqz_var1 p) (eqz_series1 p)) as [r1|] eqn:E1; [|discriminate]. cbn [of_res].
  destruct (eqz_series2 p) as [|s ss] eqn:S2.
  - intro X. injection X as <-. exists r1, []. rewrite app_nil_r. auto.
  - destruct (eqz_on_axis show (columns, d :: ds) (pcolumns, prev) (eqz_var2 p) (s :: ss)) as [r2|] eqn:E2; [|discriminate]. cbn [of_res].
    intro X. injection X as <-. exists r1, r2. split; [reflexivity|]. split; [|reflexivity]. right. split; [discriminate|reflexivity].
Qed.
End Equalization.

Lemma run_ok (m : io unit) w : snd (m w) = inl tt -> m w = (fst (m w), inl tt).
Proof. destruct (m w) as [w' r]. cbn. intros ->. reflexivity. Qed.

(** The statements of PropertiesFile.v. *)
Lemma C111_replaces_proof : forall show order j w w',
  append_of j <> Some (PText "True") -> run_job show order j w = (w', inl tt) ->
  (exists names rows, w' (output_of j) = Some (map Given names :: rows) /\ Gives show order w j (names, rows)) /\
  Others (output_of j) w w'.
Proof.
  intros show order j w w' NA H. destruct (done_table _ _ _ _ _ H) as ([names rows] & T & ->). rewrite (appends_false _ NA). split; [|apply to_csv_others].
  exists names, rows. split; [apply to_csv_at|apply gives_table; exact T].
Qed.

Lemma C111_appends_proof : forall show order j w w' before,
  append_of j = Some (PText "True") -> LinesBefore w (output_of j) before -> run_job show order j w = (w', inl tt) ->
  (exists names rows, Gives show order w j (names, rows) /\ w' (output_of j) = Some (before ++ rows)%list) /\
  Others (output_of j) w w'.
Proof.
  intros show order j w w' before A L H. destruct (done_table _ _ _ _ _ H) as ([names rows] & T & ->). rewrite A. change (appends (Some (PText "True"))) with true.
  split; [|apply to_csv_others]. exists names, rows. split; [apply gives_table; exact T|]. rewrite to_csv_at. destruct L as [->|[-> ->]]; reflexivity.
Qed.

Lemma C111_history_proof : forall show order path first rest w w',
  (forall j, In j (first :: rest) -> output_of j = path /\ input_of j <> path) ->
  append_of first <> Some (PText "True") -> (forall j, In j rest -> append_of j = Some (PText "True")) ->
  AllDone show order (first :: rest) w w' ->
  exists names rows tables, Gives show order w first (names, rows) /\ Forall2 (Gives show order w) rest tables /\
    w' path = Some (map Given names :: rows ++ concat (map snd tables))%list /\ Others path w w'.
Proof.
  intros show order path first rest w w' HP NA AR D. inversion D as [|? ? ? w1 ? E D1]; subst.
  destruct (done_table _ _ _ _ _ E) as ([names rows] & T & ->). rewrite (appends_false _ NA) in D1.
  destruct (HP first (or_introl eq_refl)) as [<- Hi].
  destruct (history_rest show order (output_of first) rest w (fst (to_csv (output_of first) false names rows w)) w' (map Given names :: rows)) as (ts & F & X & O).
  - intros j Hj. destruct (HP j (or_intror Hj)) as [Ho Hn]. split; [exact Ho|]. split; [exact Hn|apply AR; exact Hj].
  - apply to_csv_others.
  - left. apply to_csv_at.
  - exact D1.
  - right. apply to_csv_at.
  - exists names, rows, ts. split; [apply gives_table; exact T|]. split; [exact F|]. split; [exact X|exact O].
Qed.

Lemma C111_history_case_proof :
  exists w', AllDone show_case order_case
      [Statistics (stat_job "d1.data" None "model" "fcst_lead"); Statistics (stat_job "d2.data" (Some (PText "True")) "model" "fcst_lead")]
      files_case w' /\
    w' "out" = Some
      [map Given ["model"; "fcst_lead"; "stat_name"; "fcst_var"; "stat_value"; "stat_btcl"; "stat_btcu"; "nstats"];
       [Given "A"; Given "12"; Given "TOTAL"; Kept CMiss; Kept (CNum 5); Kept CMiss; Kept CMiss; Kept (CNum 1)];
       [Given "A"; Given "12"; Given "TOTAL"; Kept CMiss; Kept (CNum 7); Kept CMiss; Kept CMiss; Kept (CNum 1)]].
Proof.
  eexists. split.
  - eapply done_cons; [apply run_ok; vm_compute; reflexivity|]. eapply done_cons; [apply run_ok; vm_compute; reflexivity|]. apply done_nil.
  - vm_compute. reflexivity.
Qed.

Lemma C111_boolean_refuted_proof : forall show order j w w' before,
  append_of j = Some (PBool true) -> w (output_of j) = Some before -> run_job show order j w = (w', inl tt) ->
  run_job show order (with_append None j) w = (w', inl tt) /\
  exists names rows, w' (output_of j) = Some (map Given names :: rows) /\ Gives show order w j (names, rows).
Proof.
  intros show order j w w' before A B H. destruct (done_table _ _ _ _ _ H) as ([names rows] & T & E). rewrite A in E. change (appends (Some (PBool true))) with false in E.
  split.
  - rewrite run_job_eq, job_table_append, T, output_append, append_append. subst w'. reflexivity.
  - exists names, rows. split; [subst w'; apply to_csv_at|apply gives_table; exact T].
Qed.

Lemma C111_boolean_case_proof :
  exists w', run_job show_case order_case (Statistics (stat_job "d1.data" (Some (PBool true)) "model" "fcst_lead"))
    (fun p => if String.eqb p "out" then Some [[Given "old"]; [Kept (CNum 1)]] else files_case p) = (w', inl tt).
Proof.
  eexists. apply run_ok. vm_compute. reflexivity.
Qed.

Lemma C111_no_file_refuted_proof : forall show order path jobs w w',
  jobs <> [] -> (forall j, In j jobs -> output_of j = path /\ input_of j <> path /\ append_of j = Some (PText "True")) ->
  w path = None -> AllDone show order jobs w w' ->
  exists tables, Forall2 (Gives show order w) jobs tables /\ w' path = Some (concat (map snd tables)).
Proof.
  intros show order path jobs w w' NE HP N D.
  destruct (history_rest show order path jobs w w w' []) as (ts & F & X & _); [exact HP|intros p _; reflexivity|right; auto|exact D|left; exact NE|].
  exists ts. split; [exact F|exact X].
Qed.

Lemma C111_empty_refuted_proof : forall show order j w columns,
  HoldsTable w (input_of j) columns [] -> append_of j <> Some (PText "True") ->
  (forall p, j = Statistics p -> Off (agg_event_equal p)) ->
  (forall p, j = Economic p -> Off (eclv_event_equal p) /\ ~ eclv_step p == 0 /\ In (eclv_line_type p) ["ctc"; "pct"]) ->
  exists w', run_job show order j w = (w', inl tt) /\ w' (output_of j) = Some [[]].
Proof.
  intros show order j w columns H NA HS HE. destruct j as [p|p]; cbn [input_of] in H.
  - specialize (HS p eq_refl). apply off_truthy in HS. pose proof (read_holds show _ _ _ _ H) as RD.
    assert (job_table show order (Statistics p) w = inl ([], [])) as T.
    { cbn [job_table]. rewrite RD. unfold agg_table. rewrite HS. cbn [bind fst snd]. unfold DriveModel.calculate_stats, proceed_with_axis. cbn [bind].
      destruct (series_val (agg_rq2 p)); reflexivity. }
    exists (fst (to_csv (output_of (Statistics p)) false [] [] w)). split; [rewrite run_job_eq, T, (appends_false _ NA); reflexivity|rewrite to_csv_at; reflexivity].
  - destruct (HE p eq_refl) as (HO & HZ & HL). apply off_truthy in HO. pose proof (read_holds show _ _ _ _ H) as RD.
    assert (Qeq_bool (eclv_step p) 0 = false) as Z by (destruct (Qeq_bool (eclv_step p) 0) eqn:Z; [apply Qeq_bool_iff in Z; contradiction|reflexivity]).
    assert (exists l, line_type_columns (eclv_line_type p) = Ok l) as (l & L) by (destruct HL as [<-|[<-|[]]]; eexists; reflexivity).
    assert (job_table show order (Economic p) w = inl ([], [])) as T.
    { cbn [job_table]. rewrite RD. unfold eclv_table, aggregate_eclv. rewrite HO, L. unfold arange. rewrite Z. reflexivity. }
    exists (fst (to_csv (output_of (Economic p)) false [] [] w)). split; [rewrite run_job_eq, T, (appends_false _ NA); reflexivity|rewrite to_csv_at; reflexivity].
Qed.

Lemma C111_empty_case_proof : HoldsTable files_case "empty.data" drive_columns [].
Proof.
  split; [discriminate|]. split; [repeat constructor; cbn; intuition discriminate|]. split; [intros r []|reflexivity].
Qed.

Lemma C111_columns_refuted_proof : exists show order w w' j1 j2 lead,
  AllDone show order [j1; j2] w w' /\ append_of j1 = None /\ append_of j2 = Some (PText "True") /\
  w' (output_of j1) = Some
    [map Given ["model"; "fcst_lead"; "stat_name"; "fcst_var"; "stat_value"; "stat_btcl"; "stat_btcu"; "nstats"];
     [Given "A"; Given lead; Given "TOTAL"; Kept CMiss; Kept (CNum 5); Kept CMiss; Kept CMiss; Kept (CNum 1)];
     [Given lead; Given "A"; Given "TOTAL"; Kept CMiss; Kept (CNum 7); Kept CMiss; Kept CMiss; Kept (CNum 1)]].
Proof.
  exists show_case, order_case, files_case. eexists. exists (Statistics (stat_job "d1.data" None "model" "fcst_lead")), (Statistics (stat_job "d2.data" (Some (PText "True")) "fcst_lead" "model")), "12".
  split; [|split; [reflexivity|split; [reflexivity|]]].
  - eapply done_cons; [apply run_ok; vm_compute; reflexivity|]. eapply done_cons; [apply run_ok; vm_compute; reflexivity|]. apply done_nil.
  - vm_compute. reflexivity.
Qed.

Lemma C112_untouched_proof : forall show order uniq w w' f,
  (forall j, run_job show order j w = (w', inr f) -> w' = w) /\
  (forall p, agg_stat_eqz show p w = (w', inr f) -> w' = w) /\
  (forall p, event_equalize_program show uniq p w = (w', inr f) -> w' = w) /\
  (forall p columns data, HoldsTable w (card_input p) columns data -> data <> [] -> scorecard show p w = (w', inr f) -> w' = w) /\
  (forall p columns data, HoldsTable w (sum_input p) columns data -> data <> [] -> sum_stat show order p w = (w', inr f) -> w' = w) /\
  (forall p, Off (eqz_event_equal (mode_eqz p)) -> agg_stat_bootstrap show p w = (w', inr f) -> w' = w).
Proof.
  intros show order uniq w w' f. split; [|split; [|split; [|split; [|split]]]].
  - intros j. rewrite run_job_eq. destruct (job_table show order j w); [discriminate|]. intro H. injection H as <- _. reflexivity.
  - intros p. rewrite agg_stat_eqz_eq. destruct (eqz_result show p w); [discriminate|]. intro H. injection H as <- _. reflexivity.
  - intros p. unfold event_equalize_program, andthen. rewrite read_csv_eq. destruct (read_of show w _); [|intro H; injection H as <- _; reflexivity].
    rewrite lift_eq. destruct (of_res _); [discriminate|]. intro H. injection H as <- _. reflexivity.
  - intros p columns data H NE. unfold scorecard, andthen. rewrite read_csv_eq, (read_holds show _ _ _ _ H). cbn [fst snd]. destruct data as [|r d]; [contradiction|].
    rewrite lift_eq. destruct (of_res _) as [[|o out]|]; try discriminate. intro X. injection X as <- _. reflexivity.
  - intros p columns data H NE. unfold sum_stat, andthen. rewrite read_csv_eq, (read_holds show _ _ _ _ H). cbn [fst snd]. destruct data as [|r d]; [contradiction|].
    rewrite lift_eq. destruct (of_res _) as [t|]; [discriminate|]. intro X. injection X as <- _. reflexivity.
  - intros p O. apply off_truthy in O. rewrite (bootstrap_off show p w O). destruct (read_of show w _) as [fr|e]; [|intro X; injection X as <- _; reflexivity].
    destruct (snd fr); [discriminate|]. destruct (mode_table p fr); [discriminate|]. intro X. injection X as <- _. reflexivity.
Qed.

Lemma C112_untouched_case_proof :
  exists f, run_job show_case order_case (Statistics (stat_job "d1.data" None "color" "fcst_lead")) files_case = (files_case, inr f).
Proof.
  eexists. rewrite run_job_eq. match goal with |- context[job_table ?s ?o ?j ?w] => let r := eval vm_compute in (job_table s o j w) in replace (job_table s o j w) with r by (vm_compute; reflexivity) end.
  reflexivity.
Qed.

Lemma C112_no_input_proof : forall show order uniq w,
  (forall j, w (input_of j) = None ->
     (forall p, j = Economic p -> ~ eclv_step p == 0 /\ In (eclv_line_type p) ["ctc"; "pct"]) ->
     run_job show order j w = (w, inr (NoFile (input_of j)))) /\
  (forall p, w (card_input p) = None -> scorecard show p w = (w, inr (NoFile (card_input p)))) /\
  (forall p, w (sum_input p) = None -> sum_stat show order p w = (w, inr (NoFile (sum_input p)))) /\
  (forall p, w (eqz_input p) = None -> agg_stat_eqz show p w = (w, inr (NoFile (eqz_input p)))) /\
  (forall p, w (equalize_input p) = None -> event_equalize_program show uniq p w = (w, inr (NoFile (equalize_input p)))) /\
  (forall p, w (eqz_input (mode_eqz p)) = None -> agg_stat_bootstrap show p w = (w, inr (NoFile (eqz_input (mode_eqz p))))).
Proof.
  intros show order uniq w. split; [|split; [|split; [|split; [|split]]]].
  - intros j H HE. rewrite run_job_eq. destruct j as [p|p]; cbn [input_of job_table] in *; unfold read_of; rewrite H; [reflexivity|].
    destruct (HE p eq_refl) as (HZ & HL).
    assert (Qeq_bool (eclv_step p) 0 = false) as Z by (destruct (Qeq_bool (eclv_step p) 0) eqn:Z; [apply Qeq_bool_iff in Z; contradiction|reflexivity]).
    assert (exists l, line_type_columns (eclv_line_type p) = Ok l) as (l & L) by (destruct HL as [<-|[<-|[]]]; eexists; reflexivity).
    unfold arange. rewrite Z, L. reflexivity.
  - intros p H. unfold scorecard, andthen, read_csv. rewrite H. reflexivity.
  - intros p H. unfold sum_stat, andthen, read_csv. rewrite H. reflexivity.
  - intros p H. unfold agg_stat_eqz, andthen, read_csv. rewrite H. reflexivity.
  - intros p H. unfold event_equalize_program, andthen, read_csv. rewrite H. reflexivity.
  - intros p H. unfold agg_stat_bootstrap, andthen, read_csv. rewrite H. reflexivity.
Qed.

Lemma C112_empty_refuted_proof : forall show order w columns,
  (forall p, HoldsTable w (card_input p) columns [] -> exists w', scorecard show p w = (w', inr (Raised ValueError)) /\
     w' (card_output p) = Some [map Given columns] /\ Others (card_output p) w w') /\
  (forall p, HoldsTable w (sum_input p) columns [] -> exists w', sum_stat show order p w = (w', inr (Raised ValueError)) /\
     w' (sum_output p) = Some [map Given columns] /\ Others (sum_output p) w w').
Proof.
  intros show order w columns. split; intros p H; pose proof (read_holds show _ _ _ _ H) as RD.
  - exists (fst (to_csv (card_output p) false columns [] w)). split; [|split; [rewrite to_csv_at; reflexivity|apply to_csv_others]].
    unfold scorecard, andthen. rewrite read_csv_eq, RD. reflexivity.
  - exists (fst (to_csv (sum_output p) false columns [] w)). split; [|split; [rewrite to_csv_at; reflexivity|apply to_csv_others]].
    unfold sum_stat, andthen. rewrite read_csv_eq, RD. reflexivity.
Qed.

Lemma C112_stale_refuted_proof : forall show p w w' columns data,
  HoldsTable w (card_input p) columns data -> data <> [] -> derived_series (card_rq p) = [] ->
  scorecard show p w = (w', inl tt) -> w' = w.
Proof.
  intros show p w w' columns data H NE ND. unfold scorecard, andthen. rewrite read_csv_eq, (read_holds show _ _ _ _ H). cbn [fst snd]. destruct data as [|r d]; [contradiction|].
  rewrite lift_eq. destruct (calculate_scorecard _ _ _ _ _ _) as [out|] eqn:E; cbn [of_res]; [|discriminate].
  unfold calculate_scorecard in E. rewrite ND in E. cbn [bind fst snd] in E. apply card_nothing in E. subst out. intro X. injection X as <-. reflexivity.
Qed.

Lemma C113_switch_proof : forall v v', (On v /\ On v') \/ (Off v /\ Off v') -> SameRuns v v'.
Proof.
  intros v v' H. apply same_runs. destruct H as [[A B]|[A B]]; [rewrite (on_truthy _ A), (on_truthy _ B)|rewrite (off_truthy _ A), (off_truthy _ B)]; reflexivity.
Qed.

Lemma C113_texts_refuted_proof : forall v, OtherText v -> SameRuns v (PBool true).
Proof.
  intros v H. apply same_runs. rewrite (other_truthy _ H). reflexivity.
Qed.

Lemma C113_texts_case_proof :
  OtherText (PText "false") /\ OtherText (PText "no") /\
  exists w1 w2, agg_stat_eqz show_case (eqz_case (PText "false")) files_case = (w1, inl tt) /\
    agg_stat_eqz show_case (eqz_case (PText "False")) files_case = (w2, inl tt) /\ w1 "out" <> w2 "out".
Proof.
  split; [exists "false"; repeat split; discriminate|]. split; [exists "no"; repeat split; discriminate|].
  eexists. eexists. split; [apply run_ok; vm_compute; reflexivity|]. split; [apply run_ok; vm_compute; reflexivity|]. vm_compute. discriminate.
Qed.

Lemma C114_copy_proof : forall show p w columns data,
  HoldsTable w (eqz_input p) columns data -> Off (eqz_event_equal p) \/ data = [] ->
  exists w', agg_stat_eqz show p w = (w', inl tt) /\ HoldsTable w' (eqz_output p) columns data /\ Others (eqz_output p) w w'.
Proof.
  intros show p w columns data H O. pose proof (read_holds show _ _ _ _ H) as RD. destruct H as (NE & ND & RE & _).
  assert (eqz_result show p w = inl (columns, data)) as T.
  { unfold eqz_result. rewrite RD. cbn [fst snd]. destruct O as [O|O]; [|rewrite O; reflexivity]. rewrite (off_truthy _ O). destruct data; reflexivity. }
  exists (fst (to_csv (eqz_output p) false columns (plain_lines data) w)). split; [rewrite agg_stat_eqz_eq, T; reflexivity|].
  split; [apply holds_after; auto|apply to_csv_others].
Qed.

Lemma C114_equalized_proof : forall show p w w' columns data pcolumns prev,
  HoldsTable w (eqz_input p) columns data -> data <> [] -> HoldsTable w (eqz_cases p) pcolumns prev -> ~ Off (eqz_event_equal p) ->
  agg_stat_eqz show p w = (w', inl tt) ->
  exists r1 r2, eqz_on_axis show (columns, data) (pcolumns, prev) (eqz_var1 p) (eqz_series1 p) = Ok r1 /\
    ((eqz_series2 p = [] /\ r2 = []) \/
     (eqz_series2 p <> [] /\ eqz_on_axis show (columns, data) (pcolumns, prev) (eqz_var2 p) (eqz_series2 p) = Ok r2)) /\
    ((r1 ++ r2 <> [] /\ HoldsTable w' (eqz_output p) columns (r1 ++ r2)) \/
     (r1 ++ r2 = [] /\ w' (eqz_output p) = Some [[]]))%list /\
    Others (eqz_output p) w w'.
Proof.
  intros show p w w' columns data pcolumns prev H NE HP NO RUN. apply not_off in NO. rewrite agg_stat_eqz_eq in RUN.
  destruct (eqz_result show p w) as [t|e] eqn:T; [|discriminate].
  destruct (eqz_frame show p w columns data pcolumns prev H NE HP NO t T) as (r1 & r2 & E1 & E2 & ->).
  exists r1, r2. split; [exact E1|]. split; [exact E2|].
  assert (w' = fst (to_csv (eqz_output p) false (fst (rows_frame columns (r1 ++ r2)%list)) (plain_lines (snd (rows_frame columns (r1 ++ r2)%list))) w)) as -> by (rewrite RUN; reflexivity).
  split; [|apply to_csv_others]. destruct H as (NC & ND & RE & _).
  assert (Rectangular (r1 ++ r2)%list columns) as RR.
  { apply (rectangular_incl _ data); [|exact RE]. apply incl_app; [exact (eqz_axis_in _ _ _ _ _ _ E1)|]. destruct E2 as [[_ ->]|[_ E2]]; [intros x []|exact (eqz_axis_in _ _ _ _ _ _ E2)]. }
  destruct (r1 ++ r2)%list as [|r rs] eqn:ER.
  - right. split; [reflexivity|]. rewrite to_csv_at. reflexivity.
  - left. split; [discriminate|]. apply holds_after; auto.
Qed.

Lemma C114_equalized_case_proof :
  ~ Off (PText "True") /\ HoldsTable files_case "objects.data" object_columns [object_row "d1" 5; object_row "d2" 6] /\
  exists w', agg_stat_eqz show_case (eqz_case (PText "True")) files_case = (w', inl tt) /\
    w' "out" = Some (TableLines object_columns [object_row "d1" 5]).
Proof.
  split; [intros [X|[X|[X|X]]]; discriminate X|]. split.
  - split; [discriminate|]. split; [repeat constructor; cbn; intuition discriminate|]. split; [|reflexivity]. intros r [<-|[<-|[]]]; reflexivity.
  - eexists. split; [apply run_ok; vm_compute; reflexivity|]. vm_compute. reflexivity.
Qed.

Lemma C114_bootstrap_refuted_proof : forall show p w columns data,
  HoldsTable w (eqz_input (mode_eqz p)) columns data -> data <> [] -> ~ Off (eqz_event_equal (mode_eqz p)) ->
  (forall w', agg_stat_bootstrap show p w <> (w', inl tt)) /\
  (forall w', agg_stat_eqz show (mode_eqz p) w = (w', inl tt) -> agg_stat_bootstrap show p w = (w', inr (Raised AttributeError))).
Proof.
  intros show p w columns data H NE NO. apply not_off in NO. pose proof (bootstrap_on show p w _ NO (read_holds show _ _ _ _ H) NE) as B. split; intros w'; rewrite B.
  - destruct (agg_stat_eqz show (mode_eqz p) w) as [w1 [u|e]]; discriminate.
  - intros ->. reflexivity.
Qed.

Lemma C114_chain_proof : forall show p q w w1 w2 columns data pcolumns prev kept,
  HoldsTable w (eqz_input p) columns data -> data <> [] -> HoldsTable w (eqz_cases p) pcolumns prev -> ~ Off (eqz_event_equal p) ->
  eqz_series2 p = [] -> eqz_on_axis show (columns, data) (pcolumns, prev) (eqz_var1 p) (eqz_series1 p) = Ok kept -> kept <> [] ->
  agg_stat_eqz show p w = (w1, inl tt) ->
  eqz_input (mode_eqz q) = eqz_output p -> Off (eqz_event_equal (mode_eqz q)) -> agg_stat_bootstrap show q w1 = (w2, inl tt) ->
  exists out names lines, mode_values (mode_text q) (mode_calc q columns) (mode_samples q) columns kept (mode_rq1 q) (mode_rq2 q) = Ok out /\
    w2 (eqz_output (mode_eqz q)) = Some (map Given names :: lines) /\ length lines = length out.
Proof.
  intros show p q w w1 w2 columns data pcolumns prev kept H NE HP NO S2 E1 NK RUN IN OF RUN2.
  destruct (C114_equalized_proof show p w w1 columns data pcolumns prev H NE HP NO RUN) as (r1 & r2 & E1' & [[_ ->]|[X _]] & [[_ HW]|[Z _]] & _); try contradiction.
  - rewrite E1 in E1'. injection E1' as <-. rewrite app_nil_r in HW. rewrite <- IN in HW. apply off_truthy in OF. rewrite (bootstrap_off show q w1 OF) in RUN2.
    rewrite (read_holds show _ _ _ _ HW) in RUN2. cbn [fst snd] in RUN2. destruct kept as [|k ks]; [contradiction|].
    unfold mode_table in RUN2. cbn [fst snd] in RUN2. destruct (mode_values _ _ _ columns (k :: ks) _ _) as [out|] eqn:M; cbn [of_res] in RUN2; [|discriminate].
    cbn [fst snd] in RUN2. apply (f_equal fst) in RUN2. cbn [fst] in RUN2. exists out. eexists. eexists. split; [reflexivity|]. split; [rewrite <- RUN2, to_csv_at; reflexivity|]. rewrite map_length. reflexivity.
  - rewrite E1 in E1'. injection E1' as <-. rewrite app_nil_r in Z. contradiction.
Qed.

Lemma C114_chain_refuted_proof : forall show q w,
  w (eqz_input (mode_eqz q)) = Some [[]] -> agg_stat_bootstrap show q w = (w, inr NoData).
Proof.
  intros show q w H. unfold agg_stat_bootstrap, andthen, read_csv. rewrite H. reflexivity.
Qed.

Lemma C115_statistics_proof : forall show order p w w' columns data fields1 fields2,
  HoldsTable w (agg_input p) columns data -> data <> [] -> Off (agg_event_equal p) -> append_of (Statistics p) = None ->
  Fields (agg_rq1 p) fields1 -> Fields (agg_rq2 p) fields2 ->
  (forall n, In n (map fst (fields1 ++ fields2)) -> ~ In n result_columns) ->
  agg_stat show order p w = (w', inl tt) ->
  exists out names lines,
    DriveModel.calculate_stats (agg_engine p columns) (agg_single p) (agg_line_type p) columns data (agg_rq1 p) (agg_rq2 p) = Ok out /\
    w' (agg_output p) = Some (map Given names :: lines) /\ NoDup names /\
    (exists more, names = (map fst fields1 ++ result_columns ++ more)%list /\
       (series_val (agg_rq2 p) = [] -> more = []) /\
       (series_val (agg_rq2 p) <> [] -> Selection (fun n => ~ In n (map fst fields1)) (map fst fields2) more)) /\
    Forall2 (StatLine names) out lines.
Proof.
  intros show order p w w' columns data fields1 fields2 H NE O AP F1 F2 NR RUN. apply off_truthy in O.
  change (agg_stat show order p) with (run_job show order (Statistics p)) in RUN. destruct (done_table _ _ _ _ _ RUN) as ([names lines] & T & ->). rewrite AP.
  cbn [job_table] in T. rewrite (read_holds show _ _ _ _ H) in T. unfold agg_table in T. rewrite O in T. cbn [bind fst snd] in T.
  destruct (DriveModel.calculate_stats _ _ _ _ _ _ _) as [out|] eqn:CS; cbn [bind of_res] in T; [|discriminate].
  destruct data as [|d ds]; [contradiction|]. injection T as TN TL.
  exists out, names, lines. split; [reflexivity|]. split; [apply to_csv_at|].
  pose proof (fields_value _ _ F1) as V1. pose proof (fields_value _ _ F2) as V2. destruct F1 as [N1 _]. destruct F2 as [N2 _].
  assert (forall n, In n (map fst fields1) -> ~ In n result_columns) as R1 by (intros n Hn; apply NR; rewrite map_app; apply in_or_app; left; exact Hn).
  assert (forall n, In n (map fst fields2) -> ~ In n result_columns) as R2 by (intros n Hn; apply NR; rewrite map_app; apply in_or_app; right; exact Hn).
  assert (exists more, names = (map fst fields1 ++ result_columns ++ more)%list /\ (series_val (agg_rq2 p) = [] -> more = []) /\
       (series_val (agg_rq2 p) <> [] -> more = later_names (map fst fields1) (map fst fields2))) as (more & EN & M1 & M2).
  { rewrite <- TN. unfold agg_columns. rewrite V1, V2. destruct (series_val (agg_rq2 p)) as [|s ss].
    - exists []. split; [rewrite app_nil_r; reflexivity|]. split; [reflexivity|]. intro X. contradiction.
    - exists (later_names (map fst fields1) (map fst fields2)). split; [rewrite union_names, <- app_assoc; reflexivity|]. split; [discriminate|reflexivity]. }
  assert (series_val (agg_rq2 p) <> [] -> Selection (fun n => ~ In n (map fst fields1)) (map fst fields2) more) as M3
    by (intro X; rewrite (M2 X); apply later_selection; exact R2).
  split; [|split].
  - rewrite EN, app_assoc. apply nodup_two.
    + apply nodup_two; [exact N1|exact nodup_results|exact R1].
    + destruct (series_val (agg_rq2 p)) as [|s ss]; [rewrite (M1 eq_refl); constructor|]. rewrite M2 by discriminate. apply NoDup_filter. exact N2.
    + intros n Hn Hm. destruct (series_val (agg_rq2 p)) as [|s ss]; [rewrite (M1 eq_refl) in Hm; destruct Hm|]. rewrite M2 in Hm by discriminate.
      apply filter_In in Hm. destruct Hm as [_ Hm]. apply Bool.negb_true_iff, mem_false in Hm. apply Hm. exact Hn.
  - exists more. split; [exact EN|]. split; [exact M1|exact M3].
  - rewrite <- TL, TN. apply forall2_map_r. intros o Ho. destruct (stats_names _ _ _ _ _ _ _ _ CS o Ho) as (rq & pt & WHICH & EP).
    apply stat_line.
    + rewrite EP. apply combine_fst_nodup. destruct WHICH as [->|[-> _]]; [rewrite V1; exact N1|rewrite V2; exact N2].
    + intros n Hn. rewrite EP in Hn. apply combine_fst_incl in Hn. destruct WHICH as [->|[-> _]]; [rewrite V1 in Hn; exact (R1 n Hn)|rewrite V2 in Hn; exact (R2 n Hn)].
    + rewrite EP. intros n Hn. apply combine_fst_incl in Hn. rewrite EN. destruct WHICH as [->|[-> NS]].
      * rewrite V1 in Hn. apply in_or_app. left. exact Hn.
      * rewrite V2 in Hn. destruct (in_dec string_dec n (map fst fields1)) as [I|I]; [apply in_or_app; left; exact I|].
        apply in_or_app. right. apply in_or_app. right. apply (proj2 (selection_in _ _ _ n (M3 NS))). split; [exact Hn|exact I].
    + rewrite EN. intros n Hn. apply in_or_app. right. apply in_or_app. left. exact Hn.
Qed.

Lemma C115_equalized_proof : forall show order p w w' columns data,
  HoldsTable w (agg_input p) columns data -> ~ Off (agg_event_equal p) -> agg_stat show order p w = (w', inl tt) ->
  exists kept,
    perform_event_equalization show order (agg_fixed p) (indy_var (agg_rq1 p)) (agg_var1 p) (agg_var2 p)
      (series_val (agg_rq1 p)) (series_val (agg_rq2 p)) (columns, data) = Ok kept /\
    forall columns' data', kept = Some (columns', data') -> data' <> [] -> append_of (Statistics p) = None ->
    exists out names lines,
      DriveModel.calculate_stats (agg_engine p columns) (agg_single p) (agg_line_type p) columns' data' (agg_rq1 p) (agg_rq2 p) = Ok out /\
      w' (agg_output p) = Some (map Given names :: lines) /\ length lines = length out.
Proof.
  intros show order p w w' columns data H NO RUN. apply not_off in NO.
  change (agg_stat show order p) with (run_job show order (Statistics p)) in RUN. destruct (done_table _ _ _ _ _ RUN) as ([names lines] & T & ->).
  cbn [job_table] in T. rewrite (read_holds show _ _ _ _ H) in T. unfold agg_table in T. rewrite NO in T. cbn [bind fst snd] in T.
  destruct (perform_event_equalization _ _ _ _ _ _ _ _ _) as [kept|] eqn:PE; cbn [bind] in T; [|discriminate]. exists kept. split; [reflexivity|].
  intros columns' data' -> NE AP. cbn [frame_or_empty fst snd] in T.
  destruct (DriveModel.calculate_stats _ _ _ _ _ _ _) as [out|] eqn:CS; cbn [bind of_res] in T; [|discriminate].
  destruct data' as [|d ds]; [contradiction|]. injection T as TN TL. exists out, names, lines. split; [reflexivity|]. rewrite AP. split; [apply to_csv_at|]. rewrite <- TL. apply map_length.
Qed.

Lemma C115_economic_proof : forall show p w w' columns data,
  HoldsTable w (eclv_input p) columns data -> data <> [] -> append_of (Economic p) = None ->
  NoDup (map fst (eclv_series p)) ->
  (forall n, In n (map fst (eclv_series p)) -> ~ In n ["thresh_i"; "x_pnt_i"; "y_pnt_i"; "stat_btcl"; "stat_btcu"; "nstats"]) ->
  agg_eclv show p w = (w', inl tt) ->
  exists columns' data' out,
    ((Off (eclv_event_equal p) /\ columns' = columns /\ data' = data) \/
     (~ Off (eclv_event_equal p) /\ exists by_indep kept vals,
        (by_indep = false <-> Off (eclv_by_indep p)) /\
        Forall2 (fun kv l => exists d, snd kv = FDict d /\ l = concat (combinations (map snd d))) (eclv_fixed p) vals /\
        event_equalize show data columns "stat_name" (eclv_series p) (map fst (eclv_fixed p)) vals by_indep = Ok kept /\
        (~ In "equalize" columns -> columns' = (columns ++ ["equalize"])%list /\ data' = with_key kept))) /\
    aggregate_eclv (eclv_np_float p) (eclv_line_type p) columns' data' (eclv_series p) (eclv_step p) (eclv_base_rate p) (eclv_samples p) = Ok out /\
    (data' <> [] -> exists lines,
       let names := (map fst (eclv_series p) ++ ["thresh_i"; "x_pnt_i"; "y_pnt_i"; "stat_btcl"; "stat_btcu"; "nstats"])%list in
       w' (eclv_output p) = Some (map Given names :: lines) /\ Forall2 (EclvLine names) out lines) /\
    (data' = [] -> w' (eclv_output p) = Some [[]]).
Proof.
  intros show p w w' columns data H NE AP ND NR RUN.
  change (agg_eclv show p) with (run_job show (fun l => l) (Economic p)) in RUN. destruct (done_table _ _ _ _ _ RUN) as ([names lines] & T & ->).
  rewrite AP. cbn [job_table] in T. rewrite (read_holds show _ _ _ _ H) in T.
  destruct (arange _) as [?|]; cbn [of_res] in T; [|discriminate]. destruct (line_type_columns _) as [?|]; cbn [of_res] in T; [|discriminate].
  unfold eclv_table in T. cbn [fst snd] in T.
  match type of T with of_res (bind ?x _) = _ => destruct x as [[columns' data']|] eqn:EQ; cbn [bind fst snd] in T; [|discriminate] end.
  destruct (aggregate_eclv _ _ _ _ _ _ _ _) as [out|] eqn:AG; cbn [bind of_res] in T; [|discriminate].
  exists columns', data', out. split; [|split; [exact AG|split]].
  - destruct (truthy (parse_bool (eclv_event_equal p))) eqn:ON.
    + right. split; [intro X; rewrite (off_truthy _ X) in ON; discriminate|].
      destruct (mapM _ (eclv_fixed p)) as [vals|] eqn:MV; cbn [bind] in EQ; [|discriminate].
      destruct (event_equalize _ _ _ _ _ _ _ _) as [kept|] eqn:EE; cbn [bind] in EQ; [|discriminate]. injection EQ as EC ED.
      exists (truthy (parse_bool (eclv_by_indep p))), kept, vals. split; [split; [apply truthy_off|apply off_truthy]|]. split; [|split; [exact EE|]].
      * clear EE ED. revert vals MV. induction (eclv_fixed p) as [|kv l IH]; intros vals MV; cbn [mapM] in MV; [injection MV as <-; constructor|].
        destruct (eclv_fixed_values (snd kv)) as [v|] eqn:EV; cbn [bind] in MV; [|discriminate]. destruct (mapM _ l) as [vs|]; cbn [bind] in MV; [|discriminate].
        injection MV as <-. constructor; [|exact (IH vs eq_refl)].
        unfold eclv_fixed_values in EV. destruct (snd kv) as [| |d]; try discriminate. injection EV as <-. exists d. rewrite combinations_product. auto.
      * intro NQ. pose proof (EqzProofs.with_keys_new columns kept NQ) as K. rewrite <- EC, <- ED. unfold with_keys in K. injection K as -> ->. auto.
    + left. split; [apply truthy_off; exact ON|]. injection EQ as <- <-. auto.
  - intro NE'. destruct data' as [|d ds]; [contradiction|]. injection T as TN TL. exists lines. cbv zeta.
    split; [rewrite <- TN; apply to_csv_at|]. rewrite <- TL. apply forall2_map_r. intros o Ho. destruct (eclv_points _ _ _ _ _ _ _ _ _ AG o Ho) as (pt & EP).
    apply eclv_line_of; rewrite ?EP.
    + apply combine_fst_nodup. exact ND.
    + intros n Hn. apply combine_fst_incl in Hn. exact (NR n Hn).
    + intros n Hn. apply combine_fst_incl in Hn. apply in_or_app. left. exact Hn.
    + apply incl_appr, incl_refl.
  - intros ->. injection T as <- <-. rewrite to_csv_at. reflexivity.
Qed.

Lemma C115_economic_case_proof :
  exists w' x ya yb, agg_eclv show_case eclv_case files_case = (w', inl tt) /\ x == 1 # 2 /\ ya == 1 # 2 /\ yb == - (1 # 4) /\
    w' "out" = Some
      (map Given ["model"; "thresh_i"; "x_pnt_i"; "y_pnt_i"; "stat_btcl"; "stat_btcu"; "nstats"] ::
       [[Given "A"; Kept (CNum 0); Kept (CNum x); Kept (CNum ya); Kept CMiss; Kept CMiss; Kept (CNum 2)];
        [Given "B"; Kept (CNum 0); Kept (CNum x); Kept (CNum yb); Kept CMiss; Kept CMiss; Kept (CNum 2)]]).
Proof.
  eexists. exists (2 # 4), (168960 # 337920), (-23200 # 92800). split; [apply run_ok; vm_compute; reflexivity|]. split; [reflexivity|]. split; [reflexivity|]. split; [reflexivity|].
  vm_compute. reflexivity.
Qed.

Lemma C115_objects_proof : forall show p w w' columns data,
  HoldsTable w (eqz_input (mode_eqz p)) columns data -> data <> [] -> Off (eqz_event_equal (mode_eqz p)) ->
  series_val (mode_rq2 p) = [] ->
  let names := (map fst (series_val (mode_rq1 p)) ++ [indy_var (mode_rq1 p); "stat_name"] ++ result_columns)%list in
  NoDup names -> agg_stat_bootstrap show p w = (w', inl tt) ->
  exists out lines,
    mode_values (mode_text p) (mode_calc p columns) (mode_samples p) columns data (mode_rq1 p) (mode_rq2 p) = Ok out /\
    w' (eqz_output (mode_eqz p)) = Some (map Given names :: lines) /\ Forall2 (ModeLine names) out lines.
Proof.
  intros show p w w' columns data H NE O S2 names ND RUN. apply off_truthy in O. rewrite (bootstrap_off show p w O), (read_holds show _ _ _ _ H) in RUN. cbn [fst snd] in RUN.
  destruct data as [|d ds]; [contradiction|]. unfold mode_table in RUN. cbn [fst snd] in RUN. destruct (mode_values _ _ _ _ _ _ _) as [out|] eqn:M; cbn [of_res] in RUN; [|discriminate].
  rewrite S2 in RUN. cbn [fst snd] in RUN.
  assert (map fst (dict_set "stat_name" (list_stat (mode_rq1 p)) (dict_set (indy_var (mode_rq1 p)) (indy_vals (mode_rq1 p)) (series_val (mode_rq1 p)))) =
          map fst (series_val (mode_rq1 p)) ++ [indy_var (mode_rq1 p); "stat_name"])%list as EF.
  { subst names. rewrite (dict_set_new (indy_var (mode_rq1 p))).
    - rewrite dict_set_new; [rewrite !map_app, <- app_assoc; reflexivity|]. intro X. rewrite map_app in X. cbn [map fst] in X.
      rewrite app_assoc in ND. apply TrackProofs.nodup_app_l in ND. destruct ND as [ND _]. apply in_app_or in X. 
      change (map fst (series_val (mode_rq1 p)) ++ [indy_var (mode_rq1 p); "stat_name"])%list with (map fst (series_val (mode_rq1 p)) ++ [indy_var (mode_rq1 p)] ++ ["stat_name"])%list in ND.
      rewrite app_assoc in ND. apply NoDup_remove_2 in ND. rewrite app_nil_r in ND. apply ND. apply in_or_app. exact X.
    - intro X. change ([indy_var (mode_rq1 p); "stat_name"] ++ result_columns)%list with (indy_var (mode_rq1 p) :: "stat_name" :: result_columns)%list in ND.
      apply NoDup_remove_2 in ND. apply ND. apply in_or_app. left. exact X. }
  assert (mode_columns (mode_rq1 p) = names) as EN by (unfold mode_columns; rewrite EF; subst names; rewrite <- app_assoc; reflexivity).
  rewrite EN in RUN. apply (f_equal fst) in RUN. cbn [fst] in RUN. exists out, (map (fun o => line_at names (mode_line o)) out). split; [reflexivity|]. split; [rewrite <- RUN, to_csv_at; reflexivity|].
  apply forall2_map_r. intros o Ho. unfold mode_values in M. destruct (has_columns _ _) as [?|]; cbn [bind] in M; [|discriminate].
  destruct (mode_axis _ _ _ _ _ (mode_rq1 p)) as [o1|] eqn:MA; cbn [bind] in M; [|discriminate]. rewrite S2 in M. injection M as <-.
  destruct (mode_axis_points _ _ _ _ _ _ _ MA o Ho) as (pt & EP). rewrite EF in EP.
  assert (NoDup ((map fst (series_val (mode_rq1 p)) ++ [indy_var (mode_rq1 p); "stat_name"]) ++ result_columns)%list) as ND' by (rewrite <- app_assoc; exact ND).
  apply mode_line_of; rewrite ?EP.
  - apply combine_fst_nodup. exact (proj1 (TrackProofs.nodup_app_l _ _ ND')).
  - intros n Hn Hr. apply combine_fst_incl in Hn. exact (proj2 (proj2 (TrackProofs.nodup_app_l _ _ ND')) n Hn Hr).
  - intros n Hn. apply combine_fst_incl in Hn. subst names. rewrite app_assoc. apply in_or_app. left. exact Hn.
  - subst names. apply incl_appr, incl_appr, incl_refl.
Qed.

Lemma C112_stale_case_proof :
  HoldsTable files_case (card_input card_case) drive_columns [drive_row "d1" 12 "A" "TMP" 5] /\ derived_series (card_rq card_case) = [] /\
  scorecard show_case card_case files_case = (files_case, inl tt).
Proof.
  split; [|split; [reflexivity|]].
  - split; [discriminate|]. split; [repeat constructor; cbn; intuition discriminate|]. split; [|reflexivity]. intros r [<-|[]]; reflexivity.
  - unfold scorecard, andthen. rewrite read_csv_eq.
    match goal with |- context[read_of ?a ?b ?c] => let r := eval vm_compute in (read_of a b c) in replace (read_of a b c) with r by (vm_compute; reflexivity) end. cbn [fst snd].
    rewrite lift_eq. match goal with |- context[of_res ?a] => replace (of_res a) with (@inl (list card_row) failure []) by (vm_compute; reflexivity) end. reflexivity.
Qed.

Lemma C114_bootstrap_case_proof :
  let p := object_case "objects.data" "out" (PText "True") in
  ~ Off (eqz_event_equal (mode_eqz p)) /\
  exists w', agg_stat_bootstrap show_case p files_case = (w', inr (Raised AttributeError)) /\
    w' "out" = Some (TableLines object_columns [object_row "d1" 5]).
Proof.
  intro p. split; [intros [X|[X|[X|X]]]; discriminate X|]. exists (fst (agg_stat_bootstrap show_case p files_case)). split; [|vm_compute; reflexivity].
  apply (f_equal (pair (fst (agg_stat_bootstrap show_case p files_case)))). vm_compute. reflexivity.
Qed.

Lemma C114_chain_case_proof :
  let q := object_case "out" "counts" (PText "False") in
  eqz_on_axis show_case (object_columns, [object_row "d1" 5; object_row "d2" 6])
    ((object_columns ++ ["equalize"])%list, [object_row "d1" 5 ++ [CStr "d1 12"]; object_row "d3" 5 ++ [CStr "d3 12"]]%list)
    [("TMP", ["x"])] [("model", ["A"])] = Ok [object_row "d1" 5] /\
  exists w1 w2, agg_stat_eqz show_case (eqz_case (PText "True")) files_case = (w1, inl tt) /\
    agg_stat_bootstrap show_case q w1 = (w2, inl tt) /\
    w2 "counts" = Some
      [map Given ["model"; "fcst_lead"; "stat_name"; "fcst_var"; "stat_value"; "stat_btcl"; "stat_btcu"; "nstats"];
       [Given "A"; Given "12"; Given "COUNT"; Kept CMiss; Kept (CNum 1); Kept CMiss; Kept CMiss; Kept (CNum 1)]].
Proof.
  intro q. split; [vm_compute; reflexivity|]. eexists. eexists. split; [apply run_ok; vm_compute; reflexivity|]. split; [apply run_ok; vm_compute; reflexivity|]. vm_compute. reflexivity.
Qed.

Lemma C115_statistics_case_proof :
  let fields1 := [("model", ["A"]); ("fcst_lead", ["12"]); ("stat_name", ["TOTAL"])] in
  let fields2 := [("fcst_valid_beg", ["d1"]); ("fcst_lead", ["12"]); ("stat_name", ["TOTAL"])] in
  Fields (agg_rq1 two_axes_case) fields1 /\ Fields (agg_rq2 two_axes_case) fields2 /\
  (forall n, In n (map fst (fields1 ++ fields2)) -> ~ In n result_columns) /\
  exists w', agg_stat show_case order_case two_axes_case files_case = (w', inl tt) /\
    w' "out" = Some
      [map Given ["model"; "fcst_lead"; "stat_name"; "fcst_var"; "stat_value"; "stat_btcl"; "stat_btcu"; "nstats"; "fcst_valid_beg"];
       [Given "A"; Given "12"; Given "TOTAL"; Kept CMiss; Kept (CNum 5); Kept CMiss; Kept CMiss; Kept (CNum 1); Kept CMiss];
       [Kept CMiss; Given "12"; Given "TOTAL"; Kept CMiss; Kept (CNum 5); Kept CMiss; Kept CMiss; Kept (CNum 1); Given "d1"]].
Proof.
  intros fields1 fields2. split; [|split; [|split]].
  - split; [repeat constructor; cbn; intuition discriminate|]. left. split; [discriminate|reflexivity].
  - split; [repeat constructor; cbn; intuition discriminate|]. left. split; [discriminate|reflexivity].
  - intros n Hn Hr. cbn in Hn, Hr. intuition congruence.
  - eexists. split; [apply run_ok; vm_compute; reflexivity|]. vm_compute. reflexivity.
Qed.

Lemma C115_equalized_case_proof :
  exists w', agg_stat show_case order_case equalized_case pairs_case = (w', inl tt) /\
    w' "out" = Some
      [map Given ["model"; "fcst_lead"; "stat_name"; "fcst_var"; "stat_value"; "stat_btcl"; "stat_btcu"; "nstats"];
       [Given "A"; Given "12"; Given "TOTAL"; Kept CMiss; Kept (CNum 5); Kept CMiss; Kept CMiss; Kept (CNum 1)];
       [Given "B"; Given "12"; Given "TOTAL"; Kept CMiss; Kept (CNum 6); Kept CMiss; Kept CMiss; Kept (CNum 1)]].
Proof.
  eexists. split; [apply run_ok; vm_compute; reflexivity|]. vm_compute. reflexivity.
Qed.

Lemma C115_objects_case_proof :
  let p := object_case "objects.data" "out" (PText "False") in
  NoDup (map fst (series_val (mode_rq1 p)) ++ [indy_var (mode_rq1 p); "stat_name"] ++ result_columns)%list /\
  exists w', agg_stat_bootstrap show_case p files_case = (w', inl tt) /\
    w' "out" = Some
      [map Given ["model"; "fcst_lead"; "stat_name"; "fcst_var"; "stat_value"; "stat_btcl"; "stat_btcu"; "nstats"];
       [Given "A"; Given "12"; Given "COUNT"; Kept CMiss; Kept (CNum 2); Kept CMiss; Kept CMiss; Kept (CNum 2)]].
Proof.
  intro p. split; [repeat constructor; cbn; intuition discriminate|]. eexists. split; [apply run_ok; vm_compute; reflexivity|]. vm_compute. reflexivity.
Qed.

Lemma C114_events_proof : forall show uniq p w w' columns data,
  HoldsTable w (equalize_input p) columns data -> event_equalize_program show uniq p w = (w', inl tt) ->
  exists t, agg_stat_event_equalize show uniq (equalize_fixed p) (equalize_indy p) (equalize_series1 p) (equalize_series2 p) (columns, data) = Ok t /\
    (forall c d, t = Some (c, d) -> w' (equalize_output p) = Some (TableLines c d)) /\
    (t = None -> w' (equalize_output p) = Some [[]]) /\
    Others (equalize_output p) w w'.
Proof.
  intros show uniq p w w' columns data H. unfold event_equalize_program, andthen. rewrite read_csv_eq, (read_holds show _ _ _ _ H), lift_eq.
  destruct (agg_stat_event_equalize _ _ _ _ _ _ _) as [t|] eqn:E; cbn [of_res]; [|discriminate]. intro RUN. apply (f_equal fst) in RUN. cbn [fst] in RUN. subst w'.
  exists t. split; [reflexivity|]. split; [|split; [|apply to_csv_others]].
  - intros c d ->. rewrite to_csv_at. reflexivity.
  - intros ->. rewrite to_csv_at. reflexivity.
Qed.

Lemma C114_events_case_proof :
  exists w', event_equalize_program show_case (fun l => l) (EqualizeParams "pairs.data" "out" [] "fcst_lead" [("model", ["A"; "B"])] []) pairs_case = (w', inl tt) /\
    w' "out" = Some (TableLines (drive_columns ++ ["equalize"])
      [drive_row "d1" 12 "A" "TMP" 5 ++ [CStr "d1 12"]; drive_row "d1" 12 "B" "TMP" 6 ++ [CStr "d1 12"]])%list.
Proof.
  eexists. split; [apply run_ok; vm_compute; reflexivity|]. vm_compute. reflexivity.
Qed.

Lemma C115_summary_proof : forall show order p w w' columns data,
  HoldsTable w (sum_input p) columns data -> data <> [] -> Off (sum_event_equal p) -> sum_stat show order p w = (w', inl tt) ->
  exists names rows,
    SumDriveModel.calculate_stats (sum_statistic p) columns data (sum_line_type p) (sum_indy p) (sum_indy_vals p)
      (Some (sum_series1 p)) (sum_series2 p) = Ok (names, rows) /\
    w' (sum_output p) = Some (TableLines names rows) /\ Others (sum_output p) w w'.
Proof.
  intros show order p w w' columns data H NE O. unfold sum_stat, andthen. rewrite read_csv_eq, (read_holds show _ _ _ _ H). cbn [fst snd]. destruct data as [|r d]; [contradiction|].
  rewrite lift_eq. unfold sum_table. rewrite (off_truthy _ O). cbn [fst snd].
  destruct (SumDriveModel.calculate_stats _ _ _ _ _ _ _ _) as [[names rows]|]; cbn [of_res]; [|discriminate]. intro RUN. apply (f_equal fst) in RUN. cbn [fst snd] in RUN. subst w'.
  exists names, rows. split; [reflexivity|]. split; [rewrite to_csv_at; reflexivity|apply to_csv_others].
Qed.

Lemma C115_summary_equalized_proof : forall show order p w w' columns data series2 kept,
  HoldsTable w (sum_input p) columns data -> data <> [] -> ~ Off (sum_event_equal p) -> sum_line_type p <> "sal1l2" ->
  sum_series2 p = Some series2 ->
  perform_event_equalization show order (sum_fixed p) (sum_indy p) (sum_var1 p) (sum_var2 p) (sum_series1 p) series2 (columns, data)
    = Ok (Some (columns, kept)) -> kept <> [] ->
  In (sum_line_type p) ["ctc"; "sl1l2"; "grad"; "vl1l2"; "val1l2"; "pct"; "nbrcnt"; "ecnt"; "nbrctc"; "rps"] ->
  sum_stat show order p w = (w', inl tt) ->
  exists names rows,
    SumDriveModel.calculate_stats (sum_statistic p) columns kept (sum_line_type p) (sum_indy p) (sum_indy_vals p)
      (Some (sum_series1 p)) (Some series2) = Ok (names, rows) /\
    w' (sum_output p) = Some (TableLines names rows) /\ Others (sum_output p) w w'.
Proof.
  intros show order p w w' columns data series2 kept H NE NO NS S2 PE NK IL. unfold sum_stat, andthen. rewrite read_csv_eq, (read_holds show _ _ _ _ H). cbn [fst snd]. destruct data as [|r d]; [contradiction|].
  rewrite lift_eq. unfold sum_table. rewrite (not_off _ NO). cbn [fst snd].
  apply String.eqb_neq in NS. rewrite NS, S2, PE. cbn [frame_or_empty].
  assert (exists fields, AggModel.assoc (sum_line_type p) SumDriveModel.STATISTIC_TO_FIELDS = Some fields) as (fields & EF) by (cbn [In] in IL; repeat (destruct IL as [<-|IL]; [eexists; vm_compute; reflexivity|]); destruct IL).
  rewrite EF. assert (sum_equalized p fields columns (columns, kept) = SumDriveModel.calculate_stats (sum_statistic p) columns kept (sum_line_type p) (sum_indy p) (sum_indy_vals p) (Some (sum_series1 p)) (Some series2)) as ->.
  { unfold sum_equalized, SumDriveModel.calculate_stats. rewrite EF, NS, S2. cbn [fst snd]. destruct kept; [contradiction|]. reflexivity. }
  destruct (SumDriveModel.calculate_stats _ _ _ _ _ _ _ _) as [[names rows]|]; cbn [of_res]; [|discriminate]. intro RUN. apply (f_equal fst) in RUN. cbn [fst snd] in RUN. subst w'.
  exists names, rows. split; [reflexivity|]. split; [rewrite to_csv_at; reflexivity|apply to_csv_others].
Qed.

Lemma C115_summary_case_proof :
  (exists w', sum_stat show_case order_case (summary_case (PText "False")) pairs_case = (w', inl tt) /\
    w' "out" = Some (TableLines (drive_columns ++ ["stat_value"]) [drive_row "d1" 12 "A" "TMP" 5 ++ [CNum 8]; drive_row "d1" 12 "B" "TMP" 6 ++ [CNum 8]; drive_row "d2" 12 "A" "TMP" 9 ++ [CNum 8]])%list) /\
  (exists w', sum_stat show_case order_case (summary_case (PText "True")) pairs_case = (w', inl tt) /\
    w' "out" = Some (TableLines (drive_columns ++ ["stat_value"]) [drive_row "d1" 12 "A" "TMP" 5 ++ [CNum 8]; drive_row "d1" 12 "B" "TMP" 6 ++ [CNum 8]])%list).
Proof.
  split; (eexists; split; [apply run_ok; vm_compute; reflexivity|]; vm_compute; reflexivity).
Qed.

Lemma C115_scorecard_proof : forall show p w w' columns data before,
  HoldsTable w (card_input p) columns data -> data <> [] -> LinesBefore w (card_output p) before -> scorecard show p w = (w', inl tt) ->
  exists out, calculate_scorecard (card_cdf p) (card_emc p) (card_ndays p) columns data (card_rq p) = Ok out /\
    forall first rest, out = first :: rest ->
    let lines := map (map snd) out in
    (card_append p = Some (PText "True") -> w' (card_output p) = Some (before ++ lines)%list) /\
    (card_append p <> Some (PText "True") -> w' (card_output p) = Some (map Given (map fst first) :: lines)) /\
    Others (card_output p) w w'.
Proof.
  intros show p w w' columns data before H NE L. unfold scorecard, andthen. rewrite read_csv_eq, (read_holds show _ _ _ _ H). cbn [fst snd]. destruct data as [|r d]; [contradiction|].
  rewrite lift_eq. destruct (calculate_scorecard _ _ _ _ _ _) as [out|]; cbn [of_res]; [|discriminate]. intro RUN. exists out. split; [reflexivity|].
  intros first rest EO. subst out. cbv zeta. apply (f_equal fst) in RUN. cbn [fst] in RUN. subst w'. split; [|split; [|apply to_csv_others]].
  - intros ->. rewrite to_csv_at. destruct L as [->|[-> ->]]; reflexivity.
  - intro NA. rewrite (appends_false _ NA), to_csv_at. reflexivity.
Qed.

