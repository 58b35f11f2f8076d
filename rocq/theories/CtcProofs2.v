From Coq Require Import Permutation Morphisms Setoid.
From Verif Require Import PyBase ColumnModel BaseSpec BaseProofs CtcModel CtcSpec CtcProofs.

(* ---------- base rate ---------- *)
Lemma raw_sum_numbers vs : exists s, raw_sum_cells (map CNum vs) = Ok (Some s) /\ s == qsum vs.
Proof.
  induction vs as [|v vs [s [E H]]]; simpl.
  - exists 0. split; reflexivity.
  - rewrite E. simpl. eexists; split; [reflexivity|]. rewrite H. reflexivity.
Qed.

Lemma column_at_numbers data i vs :
  map (fun r => nth_error r i) data = map (fun q => Some (CNum q)) vs ->
  column_at data i = Ok (map CNum vs).
Proof.
  revert vs; induction data as [|r rest IH]; intros [|v vs]; simpl; try discriminate; [reflexivity|].
  intro H. injection H as H1 H2. unfold column_at in *. simpl. unfold cell_at at 1. rewrite H1. simpl.
  rewrite (IH vs H2). reflexivity.
Qed.

Lemma raw_sum_all data columns name vs :
  AllNumbers data columns name vs ->
  exists s, raw_sum data columns name = Ok (Some s) /\ s == qsum vs.
Proof.
  intros [i [Hi Hv]]. unfold raw_sum. apply index_of_ColumnAt in Hi. rewrite Hi.
  rewrite (column_at_numbers _ _ _ Hv). simpl. apply raw_sum_numbers.
Qed.

Lemma baser_value data columns hs ms ts :
  AllNumbers data columns "fy_oy" hs -> AllNumbers data columns "fn_oy" ms ->
  AllNumbers data columns "total" ts ->
  exists r, calculate_baser data columns = Ok r /\
    Published (oratio (Some (qsum hs + qsum ms)) (Some (qsum ts))) r.
Proof.
  intros H1 H2 H3.
  destruct (raw_sum_all _ _ _ _ H1) as [a [E1 F1]].
  destruct (raw_sum_all _ _ _ _ H2) as [b [E2 F2]].
  destruct (raw_sum_all _ _ _ _ H3) as [t [E3 F3]].
  unfold calculate_baser. rewrite E1, E2, E3.
  assert (K : oeq (oratio (Some (qsum hs + qsum ms)) (Some (qsum ts))) (oratio (Some (a + b)) (Some t))).
  { apply oratio_proper; simpl; [rewrite F1, F2; reflexivity|symmetry; exact F3]. }
  setoid_rewrite K. simpl.
  repeat qb; simpl; eexists; (split; [reflexivity|]); [exact I|apply published_round].
Qed.

Lemma baser_missing_column data columns :
  (~ In "fy_oy" columns \/ (In "fy_oy" columns /\ exists vs, AllNumbers data columns "fy_oy" vs) /\ ~ In "fn_oy" columns)%string ->
  calculate_baser data columns = Err IndexError.
Proof.
  intro H. unfold calculate_baser, raw_sum at 1.
  destruct H as [H|[[H [vs [i [Hi Hv]]]] H']].
  - apply index_of_None in H. rewrite H. reflexivity.
  - apply index_of_ColumnAt in Hi. rewrite Hi, (column_at_numbers _ _ _ Hv). simpl.
    destruct (raw_sum_numbers vs) as [s [-> _]]. simpl.
    unfold raw_sum. apply index_of_None in H'. rewrite H'. reflexivity.
Qed.

Lemma raw_sum_cells_missing cs : In CMiss cs -> exists e, raw_sum_cells cs = Err TypeError /\ e = TypeError.
Proof.
  induction cs as [|[q| |s] cs IH]; simpl; intro H.
  - contradiction.
  - destruct H as [H|H]; [discriminate|]. destruct (IH H) as [e [-> _]]. simpl. eauto.
  - eauto.
  - eauto.
Qed.

(** One missing cell makes the base rate undefined although the other scores skip it. *)
Lemma baser_missing_cell data columns i r :
  In "fn_oy"%string columns -> In "total"%string columns -> Rectangular data columns ->
  ColumnAt columns "fy_oy" i -> In r data -> nth_error r i = Some CMiss ->
  calculate_baser data columns = Ok None.
Proof.
  intros _ _ HR Hi Hr Hm. unfold calculate_baser, raw_sum at 1.
  pose proof (proj2 (index_of_ColumnAt _ _ _) Hi) as Ei. rewrite Ei.
  assert (Hcol : exists cs, column_at data i = Ok cs /\ In CMiss cs).
  { clear Ei. revert Hr HR. induction data as [|r0 rest IH]; simpl; [contradiction|].
    intros Hr HR. unfold column_at. simpl. unfold cell_at at 1.
    assert (HR' : Rectangular rest columns) by (intros x Hx; apply HR; simpl; auto).
    destruct (nth_error r0 i) as [c0|] eqn:E0.
    2:{ exfalso. apply nth_error_None in E0. rewrite (HR r0 (or_introl eq_refl)) in E0.
        destruct Hi as [Hi _]. assert (i < length columns)%nat by (apply nth_error_Some; congruence). lia. }
    simpl.
    assert (Hall : exists cs, column_at rest i = Ok cs).
    { clear IH Hr. induction rest as [|r1 rest IH]; [exists []; reflexivity|].
      unfold column_at. simpl. unfold cell_at at 1.
      destruct (nth_error r1 i) as [c1|] eqn:E1.
      - simpl. destruct IH as [cs Hcs].
        + intros x Hx; apply HR; simpl in *; destruct Hx; auto.
        + intros x Hx; apply HR'; simpl; auto.
        + unfold column_at in Hcs. rewrite Hcs. simpl. eauto.
      - exfalso. apply nth_error_None in E1. rewrite (HR' r1 (or_introl eq_refl)) in E1.
        destruct Hi as [Hi _]. assert (i < length columns)%nat by (apply nth_error_Some; congruence). lia. }
    destruct Hr as [->|Hr].
    - destruct Hall as [cs Hcs]. unfold column_at in Hcs. rewrite Hcs. simpl.
      exists (c0 :: cs). split; [reflexivity|]. left. congruence.
    - destruct (IH Hr HR') as [cs [Hcs Hin]]. unfold column_at in Hcs. rewrite Hcs. simpl.
      exists (c0 :: cs). split; [reflexivity|]. right; assumption. }
  destruct Hcol as [cs [-> Hin]]. simpl.
  destruct (raw_sum_cells_missing _ Hin) as [e [-> _]]. simpl. reflexivity.
Qed.

(* ---------- extreme forecasts ---------- *)
Section Extreme.
Variables (data : tdata) (columns : list string) (h fa m c t : Q).
Hypothesis HT : CtcTotals data columns (Some h) (Some fa) (Some m) (Some c) (Some t).
Hypothesis HG : Genuine h fa m c t.

Lemma ratio_exact (f : res pyval) num den v :
  (exists r, f = Ok r /\ Published (oratio (Some num) (Some den)) r) ->
  MultipleOf 7 v -> ~ den == 0 -> num == v * den ->
  exists r, f = Ok (Some r) /\ r == v.
Proof.
  intros [r [E HP]] Hv Hd Hn. simpl in HP.
  destruct (Qeq_dec den 0) as [|_]; [contradiction|].
  destruct r as [r|]; [|contradiction].
  exists r. split; [assumption|]. apply published_exact; [assumption|].
  simpl. eapply nearest_compat; [|exact HP]. rewrite Hn. field. assumption.
Qed.

Lemma gss_exact v : MultipleOf 7 v -> ~ t == 0 ->
  ~ h + fa + m - (h + fa) / t * (h + m) == 0 ->
  h - (h + fa) / t * (h + m) == v * (h + fa + m - (h + fa) / t * (h + m)) ->
  exists r, calculate_gss data columns = Ok (Some r) /\ r == v.
Proof.
  intros Hv Ht Hd Hn. destruct (gss_value _ _ _ _ _ _ _ HT) as [r [E HP]].
  unfold tb_gss, tb_chance in HP. simpl in HP.
  destruct (Qeq_dec t 0) as [|_]; [contradiction|]. simpl in HP.
  apply (ratio_exact _ (h - (h + fa) / t * (h + m)) (h + fa + m - (h + fa) / t * (h + m))); auto.
  exists r; split; assumption.
Qed.

Lemma hss_exact v : MultipleOf 7 v -> ~ t == 0 ->
  let e := (h + fa) / t * (h + m) + (m + c) / t * (fa + c) in
  ~ t - e == 0 -> h + c - e == v * (t - e) ->
  exists r, calculate_hss data columns = Ok (Some r) /\ r == v.
Proof.
  intros Hv Ht e Hd Hn. destruct (hss_value _ _ _ _ _ _ _ HT) as [r [E HP]].
  unfold tb_hss, tb_chance2 in HP. simpl in HP.
  destruct (Qeq_dec t 0) as [|_]; [contradiction|]. simpl in HP.
  apply (ratio_exact _ (h + c - e) (t - e)); auto.
  exists r; split; assumption.
Qed.

Lemma hk_exact p q v :
  MultipleOf 7 v -> calculate_pody data columns = Ok (Some p) -> calculate_pofd data columns = Ok (Some q) ->
  p - q == v -> exists r, calculate_hk data columns = Ok (Some r) /\ r == v.
Proof.
  intros Hv E1 E2 H. unfold calculate_hk. rewrite E1, E2. simpl.
  eexists; split; [reflexivity|]. rewrite (rhu_compat _ _ _ H). apply rhu_fix. assumption.
Qed.
End Extreme.

Lemma perfect_scores data columns h c t :
  CtcTotals data columns (Some h) (Some 0) (Some 0) (Some c) (Some t) ->
  0 < h -> 0 < c -> t == h + c ->
  Scores data columns calculate_pody 1 /\ Scores data columns calculate_podn 1 /\
  Scores data columns calculate_csi 1 /\ Scores data columns calculate_gss 1 /\
  Scores data columns calculate_hss 1 /\ Scores data columns calculate_hk 1 /\
  Scores data columns calculate_orss 1 /\ Scores data columns calculate_acc 1 /\
  Scores data columns calculate_fbias 1 /\
  Scores data columns calculate_far 0 /\ Scores data columns calculate_pofd 0.
Proof.
  intros HT Hh Hc Ht.
  assert (Hhc : 0 < h * c) by (apply Qmult_lt_0_compat; assumption).
  assert (P1 : Scores data columns calculate_pody 1).
  { eapply ratio_exact; [apply (pody_value _ _ _ _ _ _ _ HT)|apply multiple_1|lra|lra]. }
  assert (P2 : Scores data columns calculate_pofd 0).
  { eapply ratio_exact; [apply (pofd_value _ _ _ _ _ _ _ HT)|apply multiple_0|lra|lra]. }
  split; [exact P1|].
  split; [eapply ratio_exact; [apply (podn_value _ _ _ _ _ _ _ HT)|apply multiple_1|lra|lra]|].
  split; [eapply ratio_exact; [apply (csi_value _ _ _ _ _ _ _ HT)|apply multiple_1|lra|lra]|].
  split.
  { eapply gss_exact; [exact HT|apply multiple_1|lra| |].
    - setoid_replace (h + 0 + 0 - (h + 0) / t * (h + 0)) with (h * c / t).
      + intro Z. assert (h * c == 0); [|lra].
        setoid_replace (h * c) with (h * c / t * t) by (field; lra). rewrite Z. ring.
      + rewrite Ht. field. lra.
    - ring. }
  split.
  { eapply hss_exact; [exact HT|apply multiple_1|lra| |].
    - setoid_replace (t - ((h + 0) / t * (h + 0) + (0 + c) / t * (0 + c))) with (2 * (h * c) / t).
      + intro Z. assert (2 * (h * c) == 0); [|lra].
        setoid_replace (2 * (h * c)) with (2 * (h * c) / t * t) by (field; lra). rewrite Z. ring.
      + rewrite Ht. field. lra.
    - rewrite Ht at 3. ring. }
  split.
  { destruct P1 as [p [E1 F1]], P2 as [q [E2 F2]].
    eapply hk_exact; [apply multiple_1|eassumption|eassumption|]. rewrite F1, F2. reflexivity. }
  split; [eapply ratio_exact; [apply (orss_value _ _ _ _ _ _ _ HT)|apply multiple_1|lra|lra]|].
  split; [eapply ratio_exact; [apply (acc_value _ _ _ _ _ _ _ HT)|apply multiple_1|lra|lra]|].
  split; [eapply ratio_exact; [apply (fbias_value _ _ _ _ _ _ _ HT)|apply multiple_1|lra|lra]|].
  split; [eapply ratio_exact; [apply (far_value _ _ _ _ _ _ _ HT)|apply multiple_0|lra|lra]|].
  exact P2.
Qed.

Lemma worst_scores data columns fa m t :
  CtcTotals data columns (Some 0) (Some fa) (Some m) (Some 0) (Some t) ->
  0 < fa -> 0 < m -> t == fa + m ->
  Scores data columns calculate_pody 0 /\ Scores data columns calculate_podn 0 /\
  Scores data columns calculate_csi 0 /\ Scores data columns calculate_acc 0 /\
  Scores data columns calculate_far 1 /\ Scores data columns calculate_pofd 1 /\
  Scores data columns calculate_hk (-1) /\ Scores data columns calculate_orss (-1).
Proof.
  intros HT Hfa Hm Ht.
  assert (Hhc : 0 < fa * m) by (apply Qmult_lt_0_compat; assumption).
  assert (P1 : Scores data columns calculate_pody 0).
  { eapply ratio_exact; [apply (pody_value _ _ _ _ _ _ _ HT)|apply multiple_0|lra|lra]. }
  assert (P2 : Scores data columns calculate_pofd 1).
  { eapply ratio_exact; [apply (pofd_value _ _ _ _ _ _ _ HT)|apply multiple_1|lra|lra]. }
  split; [exact P1|].
  split; [eapply ratio_exact; [apply (podn_value _ _ _ _ _ _ _ HT)|apply multiple_0|lra|lra]|].
  split; [eapply ratio_exact; [apply (csi_value _ _ _ _ _ _ _ HT)|apply multiple_0|lra|lra]|].
  split; [eapply ratio_exact; [apply (acc_value _ _ _ _ _ _ _ HT)|apply multiple_0|lra|lra]|].
  split; [eapply ratio_exact; [apply (far_value _ _ _ _ _ _ _ HT)|apply multiple_1|lra|lra]|].
  split; [exact P2|].
  split.
  { destruct P1 as [p [E1 F1]], P2 as [q [E2 F2]].
    eapply hk_exact; [apply multiple_m1|eassumption|eassumption|]. rewrite F1, F2. reflexivity. }
  eapply ratio_exact; [apply (orss_value _ _ _ _ _ _ _ HT)|apply multiple_m1|lra|lra].
Qed.

(** HK range. *)
Lemma hk_value data columns p q :
  calculate_pody data columns = Ok p -> calculate_pofd data columns = Ok q ->
  calculate_hk data columns = Ok (match p, q with Some a, Some b => Some (round_half_up (a - b) 7) | _, _ => None end).
Proof. intros E1 E2. unfold calculate_hk. rewrite E1, E2. destruct p, q; reflexivity. Qed.

Lemma hk_range data columns h fa m c t r :
  CtcTotals data columns (Some h) (Some fa) (Some m) (Some c) (Some t) ->
  Genuine h fa m c t -> calculate_hk data columns = Ok (Some r) -> -1 <= r <= 1.
Proof.
  intros HT HG E.
  destruct (pody_ok data columns) as [p E1], (pofd_ok data columns) as [q E2].
  rewrite (hk_value _ _ _ _ E1 E2) in E. destruct p as [p|], q as [q|]; try discriminate.
  injection E as <-.
  pose proof (pody_range _ _ _ _ _ _ _ HT HG _ E1). pose proof (pofd_range _ _ _ _ _ _ _ HT HG _ E2).
  apply rhu_interval; [apply multiple_m1|apply multiple_1|lra].
Qed.

Lemma odds_range data columns h fa m c t r :
  CtcTotals data columns (Some h) (Some fa) (Some m) (Some c) (Some t) ->
  Genuine h fa m c t -> calculate_odds data columns = Ok (Some r) -> 0 <= r.
Proof.
  intros HT HG E.
  destruct (pody_ok data columns) as [p E1], (pofd_ok data columns) as [q E2].
  unfold calculate_odds in E. rewrite E1, E2 in E.
  destruct p as [p|], q as [q|]; try discriminate. cbn -[round_half_up] in E.
  pose proof (pody_range _ _ _ _ _ _ _ HT HG _ E1) as R1.
  pose proof (pofd_range _ _ _ _ _ _ _ HT HG _ E2) as R2.
  destruct (Qeq_bool (q * (1 - p)) 0) eqn:Eb; [discriminate|].
  apply Qeq_bool_neq in Eb. cbn -[round_half_up] in E. injection E as <-.
  assert (0 <= q * (1 - p)) by (apply Qmult_le_0_compat; lra).
  assert (0 < q * (1 - p)) by (apply pos_of_nonneg; assumption).
  rewrite <- (rhu_fix 0 7 (multiple_0 7)). apply rhu_mono.
  apply Qle_shift_div_l; [assumption|].
  assert (0 <= p * (1 - q)) by (apply Qmult_le_0_compat; lra). lra.
Qed.

(** PODN and POFD complement each other up to one unit of the last decimal. *)
Lemma podn_pofd_complement data columns h fa m c t r s :
  CtcTotals data columns (Some h) (Some fa) (Some m) (Some c) (Some t) ->
  calculate_podn data columns = Ok (Some r) -> calculate_pofd data columns = Ok (Some s) ->
  1 - 2 * half_unit 7 <= r + s <= 1 + 2 * half_unit 7.
Proof.
  intros HT E E'.
  destruct (value_inv _ _ _ (podn_value _ _ _ _ _ _ _ HT) E) as [v [Ev HP]].
  destruct (value_inv _ _ _ (pofd_value _ _ _ _ _ _ _ HT) E') as [v' [Ev' HP']].
  apply oratio_Some in Ev. destruct Ev as [Hn ->].
  apply oratio_Some in Ev'. destruct Ev' as [Hn' ->].
  destruct HP as [_ [A B]], HP' as [_ [A' B']].
  assert (K : c / (fa + c) + fa / (fa + c) == 1) by (field; assumption).
  split; lra.
Qed.

(** The totals raise TypeError exactly when the total is undefined. *)
Lemma total_raises data columns name :
  Rectangular data columns -> NumericColumn data columns name ->
  (pyround (sum_column_data_by_name data columns name true) = Err TypeError <->
   ColumnTotal data columns name None) /\
  (forall o, ColumnTotal data columns name (Some o) ->
   exists r, pyround (sum_column_data_by_name data columns name true) = Ok (Some r) /\ Nearest 7 o r).
Proof.
  intros HR HN. destruct (sum_column_is_total _ _ _ HR HN) as [s [E HT]]. rewrite E. split.
  - split.
    + destruct s as [s|]; simpl; [discriminate|]. intros _; assumption.
    + intro H. pose proof (ColumnTotal_fun _ _ _ _ _ HT H) as K.
      destruct s; simpl in K; [contradiction|]. reflexivity.
  - intros o Ho. pose proof (ColumnTotal_fun _ _ _ _ _ HT Ho) as K.
    destruct s as [s|]; simpl in K; [|contradiction]. simpl. eexists; split; [reflexivity|].
    eapply nearest_compat; [exact K|]. apply rhu_nearest.
Qed.

(** Odds ratio: when odds1 gives a number, odds gives the same number. *)
Lemma odds1_odds data columns r :
  calculate_odds1 data columns = Ok (Some r) -> calculate_odds data columns = Ok (Some r).
Proof.
  unfold calculate_odds1, calculate_odds.
  change (pod_yes data columns) with (calculate_pody data columns).
  destruct (pody_ok data columns) as [p ->], (pofd_ok data columns) as [q ->].
  cbn [bind].
  destruct p as [p|], q as [q|]; cbn -[round_half_up std_exns]; try discriminate.
  - destruct (Qeq_bool (1 - p) 0) eqn:E1; cbn -[round_half_up]; [discriminate|].
    destruct (Qeq_bool (1 - q) 0) eqn:E2; cbn -[round_half_up]; [discriminate|].
    destruct (Qeq_bool (q / (1 - q)) 0) eqn:E3; cbn -[round_half_up]; [discriminate|].
    apply Qeq_bool_neq in E1, E2, E3.
    intro H; injection H as <-.
    destruct (Qeq_bool (q * (1 - p)) 0) eqn:E4; cbn -[round_half_up].
    + exfalso. apply Qeq_bool_iff in E4. apply E3.
      apply Qmult_integral in E4. destruct E4 as [E4|E4]; [|contradiction].
      rewrite E4. reflexivity.
    + apply Qeq_bool_neq in E4. do 2 f_equal. apply rhu_compat. field.
      repeat split; try assumption; intro Z; apply E4; rewrite Z; ring.
  - destruct (Qeq_bool (1 - p) 0) eqn:E1; cbn -[round_half_up]; discriminate.
Qed.

(** A table with positive counts whose odds ratio is nevertheless reported as undefined,
    because POFD is rounded to zero before it is used as a divisor. *)
Lemma odds_undefined_witness :
  let data := [ctc_row 1 1 1 100000000] in
  calculate_odds data ctc_columns = Ok None /\ calculate_odds1 data ctc_columns = Ok None.
Proof. vm_compute. split; reflexivity. Qed.

(* ---------- packaged statements ---------- *)
Lemma ctc_textbook data columns h fa m c t :
  CtcTotals data columns h fa m c t ->
  Forall (fun '(score, textbook) =>
            exists r, score data columns = Ok r /\ Published (textbook h fa m c t) r)
    [ (calculate_acc, tb_acc); (calculate_fbias, tb_fbias); (calculate_fmean, tb_fmean);
      (calculate_pody, tb_pody); (calculate_pofd, tb_pofd); (calculate_podn, tb_podn);
      (calculate_far, tb_far); (calculate_csi, tb_csi); (calculate_gss, tb_gss);
      (calculate_hss, tb_hss); (calculate_orss, tb_orss) ].
Proof.
  intro HT. repeat apply Forall_cons; try apply Forall_nil.
  - apply acc_value; assumption.
  - apply fbias_value; assumption.
  - apply fmean_value; assumption.
  - apply pody_value; assumption.
  - apply pofd_value; assumption.
  - apply podn_value; assumption.
  - apply far_value; assumption.
  - apply csi_value; assumption.
  - apply gss_value; assumption.
  - apply hss_value; assumption.
  - apply orss_value; assumption.
Qed.

Lemma ctc_ranges data columns h fa m c t :
  CtcTotals data columns (Some h) (Some fa) (Some m) (Some c) (Some t) ->
  Genuine h fa m c t ->
  Forall (fun '(score, lo, hi) =>
            forall r, score data columns = Ok (Some r) -> lo <= r <= hi)
    [ (calculate_acc, 0, 1); (calculate_fmean, 0, 1); (calculate_pody, 0, 1);
      (calculate_pofd, 0, 1); (calculate_podn, 0, 1); (calculate_far, 0, 1);
      (calculate_csi, 0, 1); (calculate_hk, -1, 1); (calculate_hss, -1, 1);
      (calculate_orss, -1, 1); (calculate_gss, - (3333333 # 10000000), 1) ].
Proof.
  intros HT HG. repeat apply Forall_cons; try apply Forall_nil; intro r.
  - eapply acc_range; eassumption.
  - eapply fmean_range; eassumption.
  - eapply pody_range; eassumption.
  - eapply pofd_range; eassumption.
  - eapply podn_range; eassumption.
  - eapply far_range; eassumption.
  - eapply csi_range; eassumption.
  - eapply hk_range; eassumption.
  - eapply hss_range; eassumption.
  - eapply orss_range; eassumption.
  - eapply gss_range; eassumption.
Qed.

Lemma ctc_nonneg data columns h fa m c t :
  CtcTotals data columns (Some h) (Some fa) (Some m) (Some c) (Some t) ->
  Genuine h fa m c t ->
  Forall (fun score => forall r, score data columns = Ok (Some r) -> 0 <= r)
    [calculate_fbias; calculate_odds].
Proof.
  intros HT HG. repeat apply Forall_cons; try apply Forall_nil; intro r.
  - eapply fbias_range; eassumption.
  - eapply odds_range; eassumption.
Qed.

Lemma baser_range data columns hs ms ts r :
  AllNumbers data columns "fy_oy" hs -> AllNumbers data columns "fn_oy" ms ->
  AllNumbers data columns "total" ts ->
  0 <= qsum hs + qsum ms <= qsum ts ->
  calculate_baser data columns = Ok (Some r) -> 0 <= r <= 1.
Proof.
  intros H1 H2 H3 [A B] E.
  eapply (ratio_range _ _ _ _ _ _ (baser_value _ _ _ _ _ H1 H2 H3));
  [apply multiple_0 | apply multiple_1 | lra | lra | lra | exact E].
Qed.

Lemma ctc_all_dep data data' columns columns' :
  (forall name, In name ["fy_oy"; "fy_on"; "fn_oy"; "fn_on"; "total"]%string ->
   req (sum_column_data_by_name data columns name true)
       (sum_column_data_by_name data' columns' name true)) ->
  Forall (fun score => score data columns = score data' columns')
    [ calculate_acc; calculate_fbias; calculate_fmean; calculate_pody; calculate_pofd;
      calculate_podn; calculate_far; calculate_csi; calculate_gss; calculate_hk;
      calculate_hss; calculate_odds; calculate_orss ].
Proof.
  intro HS. repeat apply Forall_cons; try apply Forall_nil.
  - apply acc_dep; assumption.
  - apply fbias_dep; assumption.
  - apply fmean_dep; assumption.
  - apply pody_dep; assumption.
  - apply pofd_dep; assumption.
  - apply podn_dep; assumption.
  - apply far_dep; assumption.
  - apply csi_dep; assumption.
  - apply gss_dep; assumption.
  - apply hk_dep; assumption.
  - apply hss_dep; assumption.
  - apply odds_dep; assumption.
  - apply orss_dep; assumption.
Qed.

Lemma ctc_same_totals data data' columns columns' h fa m c t :
  CtcTotals data columns h fa m c t -> CtcTotals data' columns' h fa m c t ->
  Forall (fun score => score data columns = score data' columns')
    [ calculate_acc; calculate_fbias; calculate_fmean; calculate_pody; calculate_pofd;
      calculate_podn; calculate_far; calculate_csi; calculate_gss; calculate_hk;
      calculate_hss; calculate_odds; calculate_orss ].
Proof.
  intros HT HT'. apply ctc_all_dep. eapply same_totals_req; eassumption.
Qed.

Lemma ctc_row_order data data' columns h fa m c t :
  CtcTotals data columns h fa m c t -> Permutation data data' ->
  Forall (fun score => score data columns = score data' columns)
    [ calculate_acc; calculate_fbias; calculate_fmean; calculate_pody; calculate_pofd;
      calculate_podn; calculate_far; calculate_csi; calculate_gss; calculate_hk;
      calculate_hss; calculate_odds; calculate_orss ].
Proof.
  intros HT HP. eapply ctc_same_totals; [eassumption|]. eapply CtcTotals_perm; eassumption.
Qed.

Lemma sum_column_cons r rest columns name i q :
  index_of name columns = Some i -> nth_error r i = Some (CNum q) ->
  req (sum_column_data_by_name (r :: rest) columns name true)
      (s <- column_data_by_name rest columns name ;;
       match s with None => Ok None | Some l => Ok (Some (q + nansum l)) end).
Proof.
  intros Hi Hq. unfold sum_column_data_by_name, column_data_by_name. rewrite Hi.
  unfold column_at. simpl. unfold cell_at at 1. rewrite Hq. simpl.
  destruct (mapM (cell_at i) rest) as [cs|e]; simpl.
  - destruct (mapM to_float cs) as [fs|e]; simpl; [reflexivity|].
    destruct (exn_eqb e IndexError); simpl; reflexivity.
  - destruct (exn_eqb e IndexError); simpl; reflexivity.
Qed.

Lemma column_data_cons r rest columns name i q :
  index_of name columns = Some i -> nth_error r i = Some (CNum q) ->
  column_data_by_name (r :: rest) columns name =
  (s <- column_data_by_name rest columns name ;;
   match s with None => Ok None | Some l => Ok (Some (Some q :: l)) end).
Proof.
  intros Hi Hq. unfold column_data_by_name. rewrite Hi.
  unfold column_at. simpl. unfold cell_at at 1. rewrite Hq. simpl.
  destruct (mapM (cell_at i) rest) as [cs|e]; simpl.
  - destruct (mapM to_float cs) as [fs|e]; simpl; [reflexivity|].
    destruct (exn_eqb e IndexError); simpl; reflexivity.
  - destruct (exn_eqb e IndexError); simpl; reflexivity.
Qed.

Lemma ctc_merge_rows h fa m c h' fa' m' c' rest :
  Forall (fun score =>
            score (ctc_row h fa m c :: ctc_row h' fa' m' c' :: rest) ctc_columns
            = score (ctc_row (h + h') (fa + fa') (m + m') (c + c') :: rest) ctc_columns)
    [ calculate_acc; calculate_fbias; calculate_fmean; calculate_pody; calculate_pofd;
      calculate_podn; calculate_far; calculate_csi; calculate_gss; calculate_hk;
      calculate_hss; calculate_odds; calculate_orss ].
Proof.
  apply ctc_all_dep. intros name Hn.
  assert (K : forall i q q' q'', index_of name ctc_columns = Some i ->
     nth_error (ctc_row h fa m c) i = Some (CNum q) ->
     nth_error (ctc_row h' fa' m' c') i = Some (CNum q') ->
     nth_error (ctc_row (h + h') (fa + fa') (m + m') (c + c')) i = Some (CNum q'') ->
     q'' == q + q' ->
     req (sum_column_data_by_name (ctc_row h fa m c :: ctc_row h' fa' m' c' :: rest) ctc_columns name true)
         (sum_column_data_by_name (ctc_row (h + h') (fa + fa') (m + m') (c + c') :: rest) ctc_columns name true)).
  { intros i q q' q'' Hi E1 E2 E3 Eq.
    rewrite (sum_column_cons _ _ _ _ _ _ Hi E1), (sum_column_cons _ _ _ _ _ _ Hi E3).
    rewrite (column_data_cons _ _ _ _ _ _ Hi E2).
    destruct (column_data_by_name rest ctc_columns name) as [[l|]|e]; simpl; try reflexivity.
    rewrite Eq. ring. }
  simpl in Hn. destruct Hn as [<-|[<-|[<-|[<-|[<-|[]]]]]];
    eapply K; try reflexivity. ring.
Qed.

Lemma ctc_no_exception data columns :
  Forall (fun score => exists r, score data columns = Ok r)
    [ calculate_acc; calculate_fbias; calculate_fmean; calculate_pody; calculate_pofd;
      calculate_podn; calculate_far; calculate_csi; calculate_gss; calculate_hk;
      calculate_hss; calculate_odds; calculate_odds1; calculate_orss ].
Proof.
  repeat apply Forall_cons; try apply Forall_nil.
  - apply acc_ok.
  - apply fbias_ok.
  - apply fmean_ok.
  - apply pody_ok.
  - apply pofd_ok.
  - apply podn_ok.
  - apply far_ok.
  - apply csi_ok.
  - apply gss_ok.
  - apply hk_ok.
  - apply hss_ok.
  - apply odds_ok.
  - apply odds1_ok.
  - apply orss_ok.
Qed.

Lemma ctc_totals_raise data columns :
  Rectangular data columns ->
  Forall (fun '(stat, name) =>
            NumericColumn data columns name ->
            (stat data columns = Err TypeError <-> ColumnTotal data columns name None) /\
            (forall o, ColumnTotal data columns name (Some o) ->
               exists r, stat data columns = Ok (Some r) /\ Nearest 7 o r))
    [ (calculate_ctc_total, "total"); (calculate_cts_total, "total");
      (calculate_ctc_fn_on, "fn_on"); (calculate_ctc_fn_oy, "fn_oy");
      (calculate_ctc_fy_on, "fy_on"); (calculate_ctc_fy_oy, "fy_oy") ]%string.
Proof.
  intro HR. repeat apply Forall_cons; try apply Forall_nil; intro HN; apply total_raises; assumption.
Qed.

Lemma baser_raises data columns :
  ~ In "fy_oy"%string columns -> calculate_baser data columns = Err IndexError.
Proof. intro H. apply baser_missing_column. left; assumption. Qed.

Lemma odds_refuted :
  exists h fa m c, 0 < h /\ 0 < fa /\ 0 < m /\ 0 < c /\
    calculate_odds [ctc_row h fa m c] ctc_columns = Ok None.
Proof.
  exists 1, 1, 1, 100000000. repeat split; try reflexivity.
Qed.

(* ---------- concrete tables ---------- *)
(** Executable sufficient condition for [CtcTotals] on the standard column order. *)
Lemma ctc_totals_intro data h fa m c t :
  Forall (fun r => length r = 5%nat /\ forall i s, nth_error r i <> Some (CStr s)) data ->
  (forall i o, In (i, o) [(0, h); (1, fa); (2, m); (3, c); (4, t)]%nat ->
     (present_at i data = [] -> o = None) /\
     (present_at i data <> [] -> exists q, o = Some q /\ q == qsum (present_at i data))) ->
  CtcTotals data ctc_columns h fa m c t.
Proof.
  intros HF HT.
  assert (AT : forall name i o, In (i, o) [(0, h); (1, fa); (2, m); (3, c); (4, t)]%nat ->
             index_of name ctc_columns = Some i -> ColumnTotal data ctc_columns name o).
  { intros name i o Hin Hi. split.
    - intro K. apply index_of_None in K. congruence.
    - intros j Hj. apply index_of_ColumnAt in Hj. rewrite Hi in Hj. injection Hj as <-.
      apply HT; assumption. }
  split.
  - intros r Hr. rewrite Forall_forall in HF. destruct (HF r Hr). assumption.
  - intros name _ i r s _ Hr. rewrite Forall_forall in HF. destruct (HF r Hr) as [_ K]. apply K.
  - apply AT with 0%nat; simpl; auto.
  - apply AT with 1%nat; simpl; auto.
  - apply AT with 2%nat; simpl; auto.
  - apply AT with 3%nat; simpl; auto 6.
  - apply AT with 4%nat; simpl; auto 7.
Qed.

Ltac concrete_ctc :=
  apply ctc_totals_intro;
  [ repeat (apply Forall_cons; [split; [reflexivity|]; intros i s;
      do 5 (destruct i as [|i]; [discriminate|]); destruct i; discriminate|]); apply Forall_nil
  | intros i o H; simpl in H;
    repeat (destruct H as [H|H]; [injection H as <- <-; simpl; split; [intro; try discriminate; try reflexivity|
       intro; eexists; split; [reflexivity|]; simpl; try ring; try reflexivity]|]); destruct H ].

Lemma ctc_case :
  let data := [ctc_row 10 2 3 85; [CNum 5; CMiss; CNum 1; CNum 4; CNum 10]] in
  CtcTotals data ctc_columns (Some 15) (Some 2) (Some 4) (Some 89) (Some 110) /\
  calculate_pody data ctc_columns = Ok (Some (7894737 # 10000000)).
Proof. split; [concrete_ctc|vm_compute; reflexivity]. Qed.

Lemma gss_case :
  let data := [ctc_row 0 5 5 0] in
  CtcTotals data ctc_columns (Some 0) (Some 5) (Some 5) (Some 0) (Some 10) /\
  Genuine 0 5 5 0 10 /\ calculate_gss data ctc_columns = Ok (Some (-3333333 # 10000000)).
Proof. split; [concrete_ctc|]. split; [split; lra|]. vm_compute. reflexivity. Qed.

Lemma extreme_case :
  CtcTotals [ctc_row 7 0 0 3] ctc_columns (Some 7) (Some 0) (Some 0) (Some 3) (Some 10) /\
  CtcTotals [ctc_row 0 7 3 0] ctc_columns (Some 0) (Some 7) (Some 3) (Some 0) (Some 10).
Proof. split; concrete_ctc. Qed.

(** Marginal totals. *)
Lemma marginal_raises data columns a b :
  Rectangular data columns -> NumericColumn data columns a -> NumericColumn data columns b ->
  (pyround (sum_column_data_by_name data columns a true [+] sum_column_data_by_name data columns b true)
     = Err TypeError <->
   ColumnTotal data columns a None \/ ColumnTotal data columns b None) /\
  (forall x y, ColumnTotal data columns a (Some x) -> ColumnTotal data columns b (Some y) ->
   exists r, pyround (sum_column_data_by_name data columns a true [+] sum_column_data_by_name data columns b true)
     = Ok (Some r) /\ Nearest 7 (x + y) r).
Proof.
  intros HR Ha Hb.
  destruct (sum_column_is_total _ _ _ HR Ha) as [s [E HT]]. rewrite E.
  destruct (sum_column_is_total _ _ _ HR Hb) as [s' [E' HT']]. rewrite E'. split.
  - split.
    + destruct s as [s|], s' as [s'|]; simpl; intro K; try discriminate; auto.
    + intros [H|H].
      * pose proof (ColumnTotal_fun _ _ _ _ _ HT H) as K. destruct s; simpl in K; [contradiction|]. reflexivity.
      * pose proof (ColumnTotal_fun _ _ _ _ _ HT' H) as K. destruct s'; simpl in K; [contradiction|].
        destruct s; reflexivity.
  - intros x y Hx Hy. pose proof (ColumnTotal_fun _ _ _ _ _ HT Hx) as K.
    pose proof (ColumnTotal_fun _ _ _ _ _ HT' Hy) as K'.
    destruct s as [s|]; simpl in K; [|contradiction].
    destruct s' as [s'|]; simpl in K'; [|contradiction].
    simpl. eexists; split; [reflexivity|].
    eapply nearest_compat; [|apply rhu_nearest]. rewrite K, K'. reflexivity.
Qed.

Lemma ctc_marginals_raise data columns :
  Rectangular data columns ->
  Forall (fun '(stat, a, b) =>
            NumericColumn data columns a -> NumericColumn data columns b ->
            (stat data columns = Err TypeError <->
               ColumnTotal data columns a None \/ ColumnTotal data columns b None) /\
            (forall x y, ColumnTotal data columns a (Some x) -> ColumnTotal data columns b (Some y) ->
               exists r, stat data columns = Ok (Some r) /\ Nearest 7 (x + y) r))
    [ (calculate_ctc_oy, "fy_oy", "fn_oy"); (calculate_ctc_on, "fy_on", "fn_on");
      (calculate_ctc_fy, "fy_on", "fy_oy"); (calculate_ctc_fn, "fn_on", "fn_oy") ]%string.
Proof.
  intro HR. repeat apply Forall_cons; try apply Forall_nil; intros Ha Hb; apply marginal_raises; assumption.
Qed.

Lemma raw_sum_cells_std cs : (exists s, raw_sum_cells cs = Ok (Some s)) \/ raw_sum_cells cs = Err TypeError.
Proof.
  induction cs as [|[q| |s] cs IH]; simpl; eauto.
  destruct IH as [[s ->] | ->]; simpl; eauto.
Qed.

Lemma raw_sum_std data columns name :
  Rectangular data columns -> In name columns ->
  (exists s, raw_sum data columns name = Ok (Some s)) \/ raw_sum data columns name = Err TypeError.
Proof.
  intros HR Hin. unfold raw_sum. destruct (index_of name columns) as [i|] eqn:E.
  - assert (C : exists cs, column_at data i = Ok cs).
    { pose proof (index_of_lt _ _ _ E) as L. clear E Hin. unfold column_at. revert HR.
      induction data as [|r rest IH]; intro HR; simpl; [eauto|].
      unfold cell_at at 1. destruct (nth_error r i) eqn:N.
      - simpl. destruct IH as [cs ->]; [intros r' Hr'; apply HR; right; assumption|]. simpl. eauto.
      - apply nth_error_None in N. rewrite (HR r (or_introl eq_refl)) in N. lia. }
    destruct C as [cs ->]. simpl. apply raw_sum_cells_std.
  - apply index_of_None in E. contradiction.
Qed.

Lemma baser_no_exception data columns :
  Rectangular data columns ->
  (forall name, In name ["fy_oy"; "fn_oy"; "total"]%string -> In name columns) ->
  exists r, calculate_baser data columns = Ok r.
Proof.
  intros HR HI. unfold calculate_baser.
  destruct (raw_sum_std data columns "fy_oy" HR) as [[s1 ->]| ->]; [apply HI; simpl; auto|..]; [|simpl; eauto].
  destruct (raw_sum_std data columns "fn_oy" HR) as [[s2 ->]| ->]; [apply HI; simpl; auto|..]; [|simpl; eauto].
  destruct (raw_sum_std data columns "total" HR) as [[s3 ->]| ->]; [apply HI; simpl; auto|..]; [|simpl; eauto].
  simpl. destruct (Qeq_bool s3 0); simpl; eauto.
Qed.
