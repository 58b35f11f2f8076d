From Coq Require Import Permutation Morphisms Setoid.
From Verif Require Import PyBase ColumnModel BaseSpec BaseProofs CtcModel CtcSpec.

Lemma ctc_sums data columns h fa m c t :
  CtcTotals data columns h fa m c t ->
  exists h' fa' m' c' t',
    sum_column_data_by_name data columns "fy_oy" true = Ok h' /\
    sum_column_data_by_name data columns "fy_on" true = Ok fa' /\
    sum_column_data_by_name data columns "fn_oy" true = Ok m' /\
    sum_column_data_by_name data columns "fn_on" true = Ok c' /\
    sum_column_data_by_name data columns "total" true = Ok t' /\
    oeq h' h /\ oeq fa' fa /\ oeq m' m /\ oeq c' c /\ oeq t' t.
Proof.
  intros [HR HN Hh Hfa Hm Hc Ht].
  destruct (sum_column_total _ _ _ _ HR (HN "fy_oy"%string ltac:(simpl; auto 6)) Hh) as [h' [E1 F1]].
  destruct (sum_column_total _ _ _ _ HR (HN "fy_on"%string ltac:(simpl; auto 6)) Hfa) as [fa' [E2 F2]].
  destruct (sum_column_total _ _ _ _ HR (HN "fn_oy"%string ltac:(simpl; auto 6)) Hm) as [m' [E3 F3]].
  destruct (sum_column_total _ _ _ _ HR (HN "fn_on"%string ltac:(simpl; auto 6)) Hc) as [c' [E4 F4]].
  destruct (sum_column_total _ _ _ _ HR (HN "total"%string ltac:(simpl; auto 6)) Ht) as [t' [E5 F5]].
  exists h', fa', m', c', t'. repeat split; assumption.
Qed.

Ltac qb :=
  match goal with
  | |- context [Qeq_bool ?x 0] =>
      let E := fresh "E" in
      destruct (Qeq_bool x 0) eqn:E;
      [apply Qeq_bool_iff in E | apply Qeq_bool_neq in E]
  | |- context [Qeq_dec ?x 0] => destruct (Qeq_dec x 0)
  end; try contradiction.

Ltac ctc_start H :=
  let h' := fresh "h'" in let fa' := fresh "fa'" in let m' := fresh "m'" in
  let c' := fresh "c'" in let t' := fresh "t'" in
  destruct (ctc_sums _ _ _ _ _ _ _ H) as
    [h' [fa' [m' [c' [t' [E1 [E2 [E3 [E4 [E5 [F1 [F2 [F3 [F4 F5]]]]]]]]]]]]]].

Section Values.
Variables (data : tdata) (columns : list string) (h fa m c t : option Q).
Hypothesis HT : CtcTotals data columns h fa m c t.

Ltac fin := simpl; eexists; split; [reflexivity|]; try exact I; try apply published_round.

Lemma acc_value : exists r, calculate_acc data columns = Ok r /\ Published (tb_acc h fa m c t) r.
Proof.
  ctc_start HT. unfold calculate_acc, tb_acc. rewrite E1, E4, E5. setoid_rewrite <- F1.
  setoid_rewrite <- F4. setoid_rewrite <- F5. clear -h'.
  destruct h' as [h'|], c' as [c'|], t' as [t'|]; simpl; repeat qb; fin.
Qed.
Lemma fbias_value : exists r, calculate_fbias data columns = Ok r /\ Published (tb_fbias h fa m c t) r.
Proof.
  ctc_start HT. unfold calculate_fbias, tb_fbias. rewrite E1, E2, E3. setoid_rewrite <- F1.
  setoid_rewrite <- F2. setoid_rewrite <- F3. clear -h'.
  destruct h' as [h'|], fa' as [fa'|], m' as [m'|]; simpl; repeat qb; simpl; try rewrite E; repeat qb; fin.
Qed.
Lemma fmean_value : exists r, calculate_fmean data columns = Ok r /\ Published (tb_fmean h fa m c t) r.
Proof.
  ctc_start HT. unfold calculate_fmean, tb_fmean. rewrite E1, E2, E5. setoid_rewrite <- F1.
  setoid_rewrite <- F2. setoid_rewrite <- F5. clear -h'.
  destruct h' as [h'|], fa' as [fa'|], t' as [t'|]; simpl; repeat qb; simpl; try rewrite E; repeat qb; fin.
Qed.
Lemma pody_value : exists r, calculate_pody data columns = Ok r /\ Published (tb_pody h fa m c t) r.
Proof.
  ctc_start HT. unfold calculate_pody, tb_pody. rewrite E1, E3. setoid_rewrite <- F1.
  setoid_rewrite <- F3. clear -h'.
  destruct h' as [h'|], m' as [m'|]; simpl; repeat qb; fin.
Qed.
Lemma pofd_value : exists r, calculate_pofd data columns = Ok r /\ Published (tb_pofd h fa m c t) r.
Proof.
  ctc_start HT. unfold calculate_pofd, tb_pofd. rewrite E2, E4. setoid_rewrite <- F2.
  setoid_rewrite <- F4. clear -h'.
  destruct fa' as [fa'|], c' as [c'|]; simpl; repeat qb; fin.
Qed.
Lemma podn_value : exists r, calculate_podn data columns = Ok r /\ Published (tb_podn h fa m c t) r.
Proof.
  ctc_start HT. unfold calculate_podn, tb_podn. rewrite E2, E4. setoid_rewrite <- F2.
  setoid_rewrite <- F4. clear -h'.
  destruct fa' as [fa'|], c' as [c'|]; simpl; repeat qb; fin.
Qed.
Lemma far_value : exists r, calculate_far data columns = Ok r /\ Published (tb_far h fa m c t) r.
Proof.
  ctc_start HT. unfold calculate_far, tb_far. rewrite E1, E2. setoid_rewrite <- F1.
  setoid_rewrite <- F2. clear -h'.
  destruct h' as [h'|], fa' as [fa'|]; simpl; repeat qb; fin.
Qed.
Lemma csi_value : exists r, calculate_csi data columns = Ok r /\ Published (tb_csi h fa m c t) r.
Proof.
  ctc_start HT. unfold calculate_csi, tb_csi. rewrite E1, E2, E3. setoid_rewrite <- F1.
  setoid_rewrite <- F2. setoid_rewrite <- F3. clear -h'.
  destruct h' as [h'|], fa' as [fa'|], m' as [m'|]; simpl; repeat qb; fin.
Qed.
Lemma gss_value : exists r, calculate_gss data columns = Ok r /\ Published (tb_gss h fa m c t) r.
Proof.
  ctc_start HT. unfold calculate_gss, tb_gss, tb_chance. rewrite E1, E2, E3, E5. setoid_rewrite <- F1.
  setoid_rewrite <- F2. setoid_rewrite <- F3. setoid_rewrite <- F5. clear -h'.
  destruct h' as [h'|], fa' as [fa'|], m' as [m'|], t' as [t'|]; simpl; repeat qb; simpl; repeat qb; fin.
Qed.
Lemma hss_value : exists r, calculate_hss data columns = Ok r /\ Published (tb_hss h fa m c t) r.
Proof.
  ctc_start HT. unfold calculate_hss, tb_hss, tb_chance2. rewrite E1, E2, E3, E4, E5. setoid_rewrite <- F1.
  setoid_rewrite <- F2. setoid_rewrite <- F3. setoid_rewrite <- F4. setoid_rewrite <- F5. clear -h'.
  destruct h' as [h'|], fa' as [fa'|], m' as [m'|], c' as [c'|], t' as [t'|]; simpl; repeat qb; simpl; repeat qb; fin.
Qed.
Lemma orss_value : exists r, calculate_orss data columns = Ok r /\ Published (tb_orss h fa m c t) r.
Proof.
  ctc_start HT. unfold calculate_orss, tb_orss. rewrite E1, E2, E3, E4. setoid_rewrite <- F1.
  setoid_rewrite <- F2. setoid_rewrite <- F3. setoid_rewrite <- F4. clear -h'.
  destruct h' as [h'|], fa' as [fa'|], m' as [m'|], c' as [c'|]; simpl; repeat qb; fin.
Qed.
Lemma podyes_value : exists r, pod_yes data columns = Ok r /\ Published (tb_pody h fa m c t) r.
Proof. exact pody_value. Qed.
End Values.

(* ---------- ranges ---------- *)
Lemma published_range lo hi v r :
  MultipleOf 7 lo -> MultipleOf 7 hi -> lo <= v <= hi -> Published (Some v) (Some r) ->
  lo <= r <= hi.
Proof.
  intros Hl Hh Hv HP. simpl in HP.
  rewrite <- (nearest_unique 7 v _ _ (rhu_nearest v 7) HP).
  apply rhu_interval; assumption.
Qed.

Lemma published_mono v v' r r' :
  v <= v' -> Published (Some v) (Some r) -> Published (Some v') (Some r') -> r <= r'.
Proof.
  intros H HP HP'. simpl in *.
  rewrite <- (nearest_unique 7 v _ _ (rhu_nearest v 7) HP).
  rewrite <- (nearest_unique 7 v' _ _ (rhu_nearest v' 7) HP').
  apply rhu_mono; assumption.
Qed.

Lemma published_self v : MultipleOf 7 v -> Published (Some v) (Some v).
Proof. intro H. simpl. pose proof (half_unit_pos 7). split; [assumption|]. lra. Qed.

Lemma published_exact v r : MultipleOf 7 v -> Published (Some v) (Some r) -> r == v.
Proof.
  intros H HP. simpl in HP.
  rewrite <- (nearest_unique 7 v _ _ (rhu_nearest v 7) HP).
  apply rhu_fix; assumption.
Qed.

Lemma div_range x y lo hi : 0 < y -> lo * y <= x -> x <= hi * y -> lo <= x / y <= hi.
Proof.
  intros Hy H1 H2. split.
  - apply Qle_shift_div_l; assumption.
  - apply Qle_shift_div_r; assumption.
Qed.

Lemma pos_of_nonneg y : 0 <= y -> ~ y == 0 -> 0 < y.
Proof. intros H1 H2. destruct (Qlt_le_dec 0 y); [assumption|]. exfalso; apply H2; lra. Qed.

Lemma oratio_Some a b v : oratio (Some a) (Some b) = Some v -> ~ b == 0 /\ v = a / b.
Proof. simpl. destruct (Qeq_dec b 0); [discriminate|]. intro H; injection H as <-. auto. Qed.

Lemma value_inv (f : res pyval) x r :
  (exists r, f = Ok r /\ Published x r) -> f = Ok (Some r) ->
  exists v, x = Some v /\ Published (Some v) (Some r).
Proof.
  intros [r' [E HP]] E'. rewrite E in E'. injection E' as ->.
  destruct x as [v|]; [|contradiction]. exists v; auto.
Qed.

(** Generic range lemma for a score that is a ratio of two pooled quantities. *)
Lemma ratio_range (f : res pyval) num den lo hi r :
  (exists r, f = Ok r /\ Published (oratio (Some num) (Some den)) r) ->
  MultipleOf 7 lo -> MultipleOf 7 hi ->
  0 <= den -> lo * den <= num -> num <= hi * den ->
  f = Ok (Some r) -> lo <= r <= hi.
Proof.
  intros H Hl Hh Hd H1 H2 E. destruct (value_inv _ _ _ H E) as [v [Ev HP]].
  apply oratio_Some in Ev. destruct Ev as [Hn ->].
  apply published_range with (v := num / den); auto.
  apply div_range; auto. apply pos_of_nonneg; auto.
Qed.

Section Ranges.
Variables (data : tdata) (columns : list string) (h fa m c t : Q).
Hypothesis HT : CtcTotals data columns (Some h) (Some fa) (Some m) (Some c) (Some t).
Hypothesis HG : Genuine h fa m c t.

Let Hh := gn_h _ _ _ _ _ HG.
Let Hfa := gn_fa _ _ _ _ _ HG.
Let Hm := gn_m _ _ _ _ _ HG.
Let Hc := gn_c _ _ _ _ _ HG.
Let Ht := gn_t _ _ _ _ _ HG.

Ltac rr V := let E := fresh in intro E; eapply (ratio_range _ _ _ _ _ _ V);
  [apply multiple_0 | apply multiple_1 | lra | lra | lra | exact E].

Lemma acc_range r : calculate_acc data columns = Ok (Some r) -> 0 <= r <= 1.
Proof. rr (acc_value _ _ _ _ _ _ _ HT). Qed.
Lemma fmean_range r : calculate_fmean data columns = Ok (Some r) -> 0 <= r <= 1.
Proof. rr (fmean_value _ _ _ _ _ _ _ HT). Qed.
Lemma pody_range r : calculate_pody data columns = Ok (Some r) -> 0 <= r <= 1.
Proof. rr (pody_value _ _ _ _ _ _ _ HT). Qed.
Lemma pofd_range r : calculate_pofd data columns = Ok (Some r) -> 0 <= r <= 1.
Proof. rr (pofd_value _ _ _ _ _ _ _ HT). Qed.
Lemma podn_range r : calculate_podn data columns = Ok (Some r) -> 0 <= r <= 1.
Proof. rr (podn_value _ _ _ _ _ _ _ HT). Qed.
Lemma far_range r : calculate_far data columns = Ok (Some r) -> 0 <= r <= 1.
Proof. rr (far_value _ _ _ _ _ _ _ HT). Qed.
Lemma csi_range r : calculate_csi data columns = Ok (Some r) -> 0 <= r <= 1.
Proof. rr (csi_value _ _ _ _ _ _ _ HT). Qed.
Lemma orss_range r : calculate_orss data columns = Ok (Some r) -> -1 <= r <= 1.
Proof.
  intro E. pose proof (Qmult_le_0_compat h c Hh Hc). pose proof (Qmult_le_0_compat fa m Hfa Hm).
  eapply (ratio_range _ _ _ _ _ _ (orss_value _ _ _ _ _ _ _ HT));
  [apply multiple_m1 | apply multiple_1 | lra | lra | lra | exact E].
Qed.

Lemma fbias_range r : calculate_fbias data columns = Ok (Some r) -> 0 <= r.
Proof.
  intro E. destruct (value_inv _ _ _ (fbias_value _ _ _ _ _ _ _ HT) E) as [v [Ev HP]].
  apply oratio_Some in Ev. destruct Ev as [Hn ->].
  apply (published_mono 0 ((h + fa) / (h + m)) 0 r); [|apply published_self, multiple_0|exact HP].
  apply Qle_shift_div_l; [apply pos_of_nonneg; lra|lra].
Qed.

Lemma oratio_eq a b v : oeq (oratio (Some a) (Some b)) (Some v) -> ~ b == 0 /\ v == a / b.
Proof.
  simpl. destruct (Qeq_dec b 0); simpl; [tauto|]. intro H. split; [assumption|]. symmetry; exact H.
Qed.

Lemma gss_range r : calculate_gss data columns = Ok (Some r) -> - (3333333 # 10000000) <= r <= 1.
Proof.
  intro E. destruct (value_inv _ _ _ (gss_value _ _ _ _ _ _ _ HT) E) as [v [Ev HP]].
  unfold tb_gss, tb_chance in Ev. simpl in Ev.
  destruct (Qeq_dec t 0) as [Et|Et]; [discriminate|]. simpl in Ev.
  destruct (Qeq_dec (h + fa + m - (h + fa) / t * (h + m)) 0) as [Ed|Ed]; [discriminate|].
  injection Ev as <-.
  assert (Htp : 0 < t) by (apply pos_of_nonneg; [lra|assumption]).
  assert (Hhc : 0 <= h * c) by (apply Qmult_le_0_compat; lra).
  assert (Hfm : 0 <= fa * m) by (apply Qmult_le_0_compat; lra).
  assert (Hff : 0 <= fa * fa) by (apply Qmult_le_0_compat; lra).
  assert (Hmm : 0 <= m * m) by (apply Qmult_le_0_compat; lra).
  assert (Hx1 : 0 <= (h + c) * (fa + m)) by (apply Qmult_le_0_compat; lra).
  (* scale numerator and denominator by t *)
  assert (En : h - (h + fa) / t * (h + m) == (h * c - fa * m) / t).
  { rewrite Ht. field. rewrite <- Ht. assumption. }
  assert (Edd : h + fa + m - (h + fa) / t * (h + m) == (t * (fa + m) + h * c - fa * m) / t).
  { rewrite Ht. field. rewrite <- Ht. assumption. }
  rewrite Edd in Ed.
  assert (EQ : (h - (h + fa) / t * (h + m)) / (h + fa + m - (h + fa) / t * (h + m))
               == (h * c - fa * m) / (t * (fa + m) + h * c - fa * m)).
  { rewrite En, Edd. field. split; [|assumption].
    intro Z. apply Ed. rewrite Z. field. assumption. }
  assert (Hden : 0 < t * (fa + m) + h * c - fa * m).
  { apply pos_of_nonneg.
    - rewrite Ht. lra.
    - intro Z. apply Ed. rewrite Z. field. assumption. }
  assert (Hv : - (1#3) <= (h * c - fa * m) / (t * (fa + m) + h * c - fa * m) <= 1).
  { apply div_range; [assumption| |].
    - rewrite Ht. pose proof (Qsq_nonneg (fa - m)). lra.
    - rewrite Ht. assert (0 <= (h + fa + m + c) * (fa + m)) by (apply Qmult_le_0_compat; lra). lra. }
  rewrite <- EQ in Hv.
  split.
  - apply (published_mono (- (1#3)) _ _ r (proj1 Hv)); [|exact HP].
    assert (K : round_half_up (- (1#3)) 7 == - (3333333 # 10000000)) by (vm_compute; reflexivity).
    simpl. pose proof (rhu_nearest (-(1#3)) 7) as N.
    destruct N as [[k Hk] [A B]]. rewrite K in Hk, A, B.
    split; [exists k; exact Hk|]. split; assumption.
  - apply (published_mono _ 1 r 1 (proj2 Hv) HP).
    apply published_self, multiple_1.
Qed.

Lemma hss_range r : calculate_hss data columns = Ok (Some r) -> -1 <= r <= 1.
Proof.
  intro E. destruct (value_inv _ _ _ (hss_value _ _ _ _ _ _ _ HT) E) as [v [Ev HP]].
  unfold tb_hss, tb_chance2 in Ev. simpl in Ev.
  destruct (Qeq_dec t 0) as [Et|Et]; [discriminate|]. simpl in Ev.
  set (e := (h + fa) / t * (h + m) + (m + c) / t * (fa + c)) in *.
  destruct (Qeq_dec (t - e) 0) as [Ed|Ed]; [discriminate|].
  injection Ev as <-.
  assert (Htp : 0 < t) by (apply pos_of_nonneg; [lra|assumption]).
  set (D := (h + m) * (m + c) + (h + fa) * (fa + c)).
  assert (E1 : h + c - e == 2 * (h * c - fa * m) / t).
  { unfold e. rewrite Ht. field. rewrite <- Ht. assumption. }
  assert (E2 : t - e == D / t).
  { unfold e, D. rewrite Ht. field. rewrite <- Ht. assumption. }
  rewrite E2 in Ed.
  assert (HD : 0 < D).
  { apply pos_of_nonneg.
    - unfold D. assert (0 <= (h + m) * (m + c)) by (apply Qmult_le_0_compat; lra).
      assert (0 <= (h + fa) * (fa + c)) by (apply Qmult_le_0_compat; lra). lra.
    - intro Z. apply Ed. rewrite Z. field. assumption. }
  assert (EQ : (h + c - e) / (t - e) == (2 * (h * c - fa * m)) / D).
  { rewrite E1, E2. field. split; [lra|assumption]. }
  pose proof (Qmult_le_0_compat h c Hh Hc). pose proof (Qmult_le_0_compat fa m Hfa Hm).
  pose proof (Qmult_le_0_compat h m Hh Hm). pose proof (Qmult_le_0_compat h fa Hh Hfa).
  pose proof (Qmult_le_0_compat m c Hm Hc). pose proof (Qmult_le_0_compat fa c Hfa Hc).
  pose proof (Qsq_nonneg fa). pose proof (Qsq_nonneg m). pose proof (Qsq_nonneg (fa - m)).
  apply (published_range (-1) 1 ((h + c - e) / (t - e)));
    [apply multiple_m1|apply multiple_1| |exact HP].
  rewrite EQ. apply div_range; [assumption| |]; unfold D; lra.
Qed.

Lemma csi_le_pody r r' :
  calculate_csi data columns = Ok (Some r) -> calculate_pody data columns = Ok (Some r') -> r <= r'.
Proof.
  intros E E'.
  destruct (value_inv _ _ _ (csi_value _ _ _ _ _ _ _ HT) E) as [v [Ev HP]].
  destruct (value_inv _ _ _ (pody_value _ _ _ _ _ _ _ HT) E') as [v' [Ev' HP']].
  apply oratio_Some in Ev. destruct Ev as [Hn ->].
  apply oratio_Some in Ev'. destruct Ev' as [Hn' ->].
  apply (published_mono _ _ _ _) with (2 := HP) (3 := HP').
  assert (0 < h + m) by (apply pos_of_nonneg; [lra|assumption]).
  assert (0 < h + fa + m) by lra.
  apply Qle_shift_div_r; [assumption|].
  setoid_replace (h / (h + m) * (h + fa + m)) with (h + h * fa / (h + m)) by (field; assumption).
  assert (0 <= h * fa / (h + m)).
  { apply Qle_shift_div_l; [assumption|]. pose proof (Qmult_le_0_compat h fa Hh Hfa). lra. }
  lra.
Qed.
End Ranges.

(** HK is the exact difference of the two published rates. *)
Lemma multiple_minus d x y : MultipleOf d x -> MultipleOf d y -> MultipleOf d (x - y).
Proof.
  intros [k Hk] [l Hl]. exists (k - l)%Z.
  setoid_replace ((x - y) * inject_Z (10 ^ Z.of_nat d))
    with (x * inject_Z (10 ^ Z.of_nat d) - y * inject_Z (10 ^ Z.of_nat d)) by ring.
  rewrite Hk, Hl. unfold Qminus. rewrite <- inject_Z_opp, <- inject_Z_plus. reflexivity.
Qed.


(* ---------- exceptions ---------- *)
Lemma mapM_err {A B} (f : A -> res B) (P : exn -> Prop) l e :
  (forall x e, f x = Err e -> P e) -> mapM f l = Err e -> P e.
Proof.
  intro H. induction l as [|x l IH]; simpl; [discriminate|].
  destruct (f x) as [y|e'] eqn:E; simpl.
  - destruct (mapM f l) as [ys|e'']; simpl; [discriminate|]. intro K; injection K as ->. apply IH; reflexivity.
  - intro K; injection K as <-. eapply H; eassumption.
Qed.

(** A column total never raises anything but ValueError (non-numeric text). *)
Lemma sum_column_err data columns name b e :
  sum_column_data_by_name data columns name b = Err e -> e = ValueError.
Proof.
  unfold sum_column_data_by_name, column_data_by_name.
  destruct (index_of name columns) as [i|]; [|discriminate].
  destruct (column_at data i) as [cs|e1] eqn:E1; simpl.
  - destruct (mapM to_float cs) as [fs|e2] eqn:E2; simpl.
    + destruct (forallb is_nan fs), b, (existsb is_nan fs); discriminate.
    + assert (e2 = ValueError) as ->.
      { eapply (mapM_err to_float (fun e => e = ValueError)); [|eassumption].
        intros [q| |s] e0; simpl; congruence. }
      simpl. congruence.
  - assert (e1 = IndexError) as ->.
    { eapply (mapM_err (cell_at i) (fun e => e = IndexError)); [|eassumption].
      intros r e0. unfold cell_at. destruct (nth_error r i); congruence. }
    simpl. discriminate.
Qed.

(** The exceptions a statistic can meet internally. *)
Definition std_err (e : exn) : Prop := e = TypeError \/ e = ZeroDivisionError \/ e = ValueError.
Definition stdr (r : res pyval) : Prop := forall e, r = Err e -> std_err e.

Lemma stdr_sum data columns name b : stdr (sum_column_data_by_name data columns name b).
Proof. intros e H. right; right. eapply sum_column_err; eassumption. Qed.
Lemma stdr_ok v : stdr (Ok v).
Proof. intros e H; discriminate. Qed.
Lemma stdr_bin f a b : stdr a -> stdr b -> stdr (pybin f a b).
Proof.
  intros Ha Hb e. unfold pybin.
  destruct a as [x|ea]; simpl; [|intro H; injection H as ->; apply Ha; reflexivity].
  destruct b as [y|eb]; simpl; [|intro H; injection H as ->; apply Hb; reflexivity].
  destruct x, y; intro H; try discriminate; injection H as <-; left; reflexivity.
Qed.
Lemma stdr_div a b : stdr a -> stdr b -> stdr (pydiv a b).
Proof.
  intros Ha Hb e. unfold pydiv.
  destruct a as [x|ea]; simpl; [|intro H; injection H as ->; apply Ha; reflexivity].
  destruct b as [y|eb]; simpl; [|intro H; injection H as ->; apply Hb; reflexivity].
  destruct x, y; try (intro H; injection H as <-; left; reflexivity).
  destruct (Qeq_bool q0 0); [|discriminate]. intro H; injection H as <-; right; left; reflexivity.
Qed.
Lemma stdr_round a : stdr a -> stdr (pyround a).
Proof.
  intros Ha e. unfold pyround.
  destruct a as [[x|]|ea]; simpl; [discriminate| |intro H; injection H as ->; apply Ha; reflexivity].
  intro H; injection H as <-; left; reflexivity.
Qed.
Lemma stdr_bind (a : res pyval) f : stdr a -> (forall v, stdr (f v)) -> stdr (bind a f).
Proof.
  intros Ha Hf e. destruct a as [v|ea]; simpl; [apply Hf|].
  intro H; injection H as ->; apply Ha; reflexivity.
Qed.
Lemma stdr_if (b : bool) x y : stdr x -> stdr y -> stdr (if b then x else y).
Proof. destruct b; auto. Qed.
Lemma catch_std_ok a d : stdr a -> exists r, catch std_exns a d = Ok r.
Proof.
  intro H. destruct a as [v|e]; simpl; [eauto|].
  destruct (H e eq_refl) as [->|[->| ->]]; simpl; eauto.
Qed.

Ltac std := repeat first
  [ apply stdr_ok | apply stdr_sum | apply stdr_round | apply stdr_bin | apply stdr_div
  | apply stdr_bind; [|intro] | apply stdr_if | unfold pylit ].

Section NoRaise.
Variables (data : tdata) (columns : list string).
Lemma acc_ok : exists r, calculate_acc data columns = Ok r.
Proof. apply catch_std_ok; std. Qed.
Lemma fbias_ok : exists r, calculate_fbias data columns = Ok r.
Proof. apply catch_std_ok; std. Qed.
Lemma fmean_ok : exists r, calculate_fmean data columns = Ok r.
Proof. apply catch_std_ok; std. Qed.
Lemma pody_ok : exists r, calculate_pody data columns = Ok r.
Proof. apply catch_std_ok; std. Qed.
Lemma pofd_ok : exists r, calculate_pofd data columns = Ok r.
Proof. apply catch_std_ok; std. Qed.
Lemma podn_ok : exists r, calculate_podn data columns = Ok r.
Proof. apply catch_std_ok; std. Qed.
Lemma far_ok : exists r, calculate_far data columns = Ok r.
Proof. apply catch_std_ok; std. Qed.
Lemma csi_ok : exists r, calculate_csi data columns = Ok r.
Proof. apply catch_std_ok; std. Qed.
Lemma gss_ok : exists r, calculate_gss data columns = Ok r.
Proof. apply catch_std_ok; std. Qed.
Lemma hss_ok : exists r, calculate_hss data columns = Ok r.
Proof. apply catch_std_ok; std. Qed.
Lemma orss_ok : exists r, calculate_orss data columns = Ok r.
Proof. apply catch_std_ok; std. Qed.
Lemma hk_ok : exists r, calculate_hk data columns = Ok r.
Proof.
  unfold calculate_hk. destruct pody_ok as [[p|] ->], pofd_ok as [[q|] ->]; simpl; eauto.
Qed.
Lemma odds_ok : exists r, calculate_odds data columns = Ok r.
Proof.
  unfold calculate_odds. apply catch_std_ok.
  destruct pody_ok as [[p|] ->], pofd_ok as [[q|] ->]; cbn [bind]; std.
Qed.
Lemma odds1_ok : exists r, calculate_odds1 data columns = Ok r.
Proof.
  unfold calculate_odds1. apply catch_std_ok.
  change (pod_yes data columns) with (calculate_pody data columns).
  destruct pody_ok as [p ->], pofd_ok as [q ->]. std.
Qed.
End NoRaise.

(* ---------- scores depend on the column totals only ---------- *)
(** Equality of results up to the representation of rationals. *)
Definition req (a b : res pyval) : Prop :=
  match a, b with
  | Ok x, Ok y => oeq x y
  | Err e, Err f => e = f
  | _, _ => False
  end.
#[export] Instance req_equiv : Equivalence req.
Proof.
  split.
  - intros [x|e]; simpl; reflexivity.
  - intros [x|e] [y|f]; simpl; auto. intro H; symmetry; exact H.
  - intros [x|e] [y|f] [z|g]; simpl; intuition; [etransitivity; eassumption|congruence].
Qed.
#[export] Instance pyadd_proper : Proper (req ==> req ==> req) (pybin Qplus).
Proof.
  intros [[x|]|e] [[x'|]|e'] H [[y|]|f] [[y'|]|f'] H'; simpl in *; try tauto; try assumption.
  rewrite H, H'; reflexivity.
Qed.
#[export] Instance pysub_proper : Proper (req ==> req ==> req) (pybin Qminus).
Proof.
  intros [[x|]|e] [[x'|]|e'] H [[y|]|f] [[y'|]|f'] H'; simpl in *; try tauto; try assumption.
  rewrite H, H'; reflexivity.
Qed.
#[export] Instance pymul_proper : Proper (req ==> req ==> req) (pybin Qmult).
Proof.
  intros [[x|]|e] [[x'|]|e'] H [[y|]|f] [[y'|]|f'] H'; simpl in *; try tauto; try assumption.
  rewrite H, H'; reflexivity.
Qed.
Lemma Qeq_bool_0_comp x y : x == y -> Qeq_bool x 0 = Qeq_bool y 0.
Proof. intro H. rewrite H. reflexivity. Qed.
#[export] Instance pydiv_proper : Proper (req ==> req ==> req) pydiv.
Proof.
  intros [[x|]|e] [[x'|]|e'] H [[y|]|f] [[y'|]|f'] H'; simpl in *; try tauto; try assumption.
  rewrite (Qeq_bool_0_comp _ _ H'). destruct (Qeq_bool y' 0); simpl; [reflexivity|].
  rewrite H, H'; reflexivity.
Qed.
#[export] Instance pyround_proper : Proper (req ==> eq) pyround.
Proof.
  intros [[x|]|e] [[x'|]|e'] H; simpl in *; try tauto.
  - do 2 f_equal. apply rhu_compat; assumption.
  - congruence.
Qed.
#[export] Instance ok_proper : Proper (oeq ==> req) (@Ok pyval).
Proof. intros a b H; exact H. Qed.
Lemma py_eq0_comp a b : oeq a b -> py_eq0 a = py_eq0 b.
Proof. destruct a, b; simpl; try tauto. apply Qeq_bool_0_comp. Qed.
Lemma bind_comp (a b : res pyval) (f g : pyval -> res pyval) :
  req a b -> (forall x y, oeq x y -> f x = g y) -> bind a f = bind b g.
Proof.
  intros H K. destruct a as [x|e], b as [y|e']; simpl in *; try tauto; [apply K; assumption|congruence].
Qed.

Section Dep.
Variables (data data' : tdata) (columns columns' : list string).
Hypothesis HS : forall name, In name ["fy_oy"; "fy_on"; "fn_oy"; "fn_on"; "total"]%string ->
  req (sum_column_data_by_name data columns name true)
      (sum_column_data_by_name data' columns' name true).

Let H1 := HS "fy_oy" ltac:(simpl; auto 6).
Let H2 := HS "fy_on" ltac:(simpl; auto 6).
Let H3 := HS "fn_oy" ltac:(simpl; auto 6).
Let H4 := HS "fn_on" ltac:(simpl; auto 6).
Let H5 := HS "total" ltac:(simpl; auto 6).

Ltac dep := rewrite ?H1, ?H2, ?H3, ?H4, ?H5; reflexivity.

Lemma acc_dep : calculate_acc data columns = calculate_acc data' columns'.
Proof. unfold calculate_acc. f_equal. dep. Qed.
Lemma pody_dep : calculate_pody data columns = calculate_pody data' columns'.
Proof. unfold calculate_pody. f_equal. dep. Qed.
Lemma pofd_dep : calculate_pofd data columns = calculate_pofd data' columns'.
Proof. unfold calculate_pofd. f_equal. dep. Qed.
Lemma podn_dep : calculate_podn data columns = calculate_podn data' columns'.
Proof. unfold calculate_podn. f_equal. dep. Qed.
Lemma far_dep : calculate_far data columns = calculate_far data' columns'.
Proof. unfold calculate_far. f_equal. dep. Qed.
Lemma csi_dep : calculate_csi data columns = calculate_csi data' columns'.
Proof. unfold calculate_csi. f_equal. dep. Qed.
Lemma orss_dep : calculate_orss data columns = calculate_orss data' columns'.
Proof. unfold calculate_orss. f_equal. dep. Qed.
Lemma fbias_dep : calculate_fbias data columns = calculate_fbias data' columns'.
Proof.
  unfold calculate_fbias. f_equal. apply bind_comp; [rewrite H1, H3; reflexivity|].
  intros x y E. rewrite (py_eq0_comp _ _ E). destruct (py_eq0 y); [reflexivity|].
  rewrite E, H1, H2. reflexivity.
Qed.
Lemma fmean_dep : calculate_fmean data columns = calculate_fmean data' columns'.
Proof.
  unfold calculate_fmean. f_equal. apply bind_comp; [exact H5|].
  intros x y E. rewrite (py_eq0_comp _ _ E). destruct (py_eq0 y); [reflexivity|].
  rewrite E, H1, H2. reflexivity.
Qed.
Lemma gss_dep : calculate_gss data columns = calculate_gss data' columns'.
Proof.
  unfold calculate_gss. f_equal. apply bind_comp; [exact H5|].
  intros x y E. rewrite (py_eq0_comp _ _ E). destruct (py_eq0 y); [reflexivity|].
  apply bind_comp; [exact H1|]. intros a a' Ea.
  apply bind_comp; [exact H2|]. intros b b' Eb.
  apply bind_comp; [exact H3|]. intros d d' Ed.
  apply bind_comp; [rewrite Ea, Eb, Ed, E; reflexivity|]. intros e e' Ee.
  rewrite Ea, Eb, Ed, Ee. reflexivity.
Qed.
Lemma hss_dep : calculate_hss data columns = calculate_hss data' columns'.
Proof.
  unfold calculate_hss. f_equal. apply bind_comp; [exact H5|].
  intros x y E. rewrite (py_eq0_comp _ _ E). destruct (py_eq0 y); [reflexivity|].
  apply bind_comp; [exact H1|]. intros a a' Ea.
  apply bind_comp; [exact H2|]. intros b b' Eb.
  apply bind_comp; [exact H3|]. intros d d' Ed.
  apply bind_comp; [exact H4|]. intros g g' Eg.
  apply bind_comp; [rewrite Ea, Eb, Ed, Eg, E; reflexivity|]. intros e e' Ee.
  rewrite Ea, Eg, Ee, E. reflexivity.
Qed.
Lemma hk_dep : calculate_hk data columns = calculate_hk data' columns'.
Proof. unfold calculate_hk. rewrite pody_dep, pofd_dep. reflexivity. Qed.
Lemma odds_dep : calculate_odds data columns = calculate_odds data' columns'.
Proof. unfold calculate_odds. rewrite pody_dep, pofd_dep. reflexivity. Qed.
End Dep.

(** Tables with the same column totals have the same sums. *)
Lemma same_totals_req data data' columns columns' h fa m c t :
  CtcTotals data columns h fa m c t -> CtcTotals data' columns' h fa m c t ->
  forall name, In name ["fy_oy"; "fy_on"; "fn_oy"; "fn_on"; "total"]%string ->
  req (sum_column_data_by_name data columns name true)
      (sum_column_data_by_name data' columns' name true).
Proof.
  intros HT HT' name Hn.
  destruct (ctc_sums _ _ _ _ _ _ _ HT) as
    [h1 [fa1 [m1 [c1 [t1 [E1 [E2 [E3 [E4 [E5 [F1 [F2 [F3 [F4 F5]]]]]]]]]]]]]].
  destruct (ctc_sums _ _ _ _ _ _ _ HT') as
    [h2 [fa2 [m2 [c2 [t2 [E1' [E2' [E3' [E4' [E5' [F1' [F2' [F3' [F4' F5']]]]]]]]]]]]]].
  simpl in Hn. destruct Hn as [<-|[<-|[<-|[<-|[<-|[]]]]]].
  - rewrite E1, E1'. simpl. rewrite F1, F1'. reflexivity.
  - rewrite E2, E2'. simpl. rewrite F2, F2'. reflexivity.
  - rewrite E3, E3'. simpl. rewrite F3, F3'. reflexivity.
  - rewrite E4, E4'. simpl. rewrite F4, F4'. reflexivity.
  - rewrite E5, E5'. simpl. rewrite F5, F5'. reflexivity.
Qed.

Lemma CtcTotals_perm data data' columns h fa m c t :
  Permutation data data' -> CtcTotals data columns h fa m c t -> CtcTotals data' columns h fa m c t.
Proof.
  intros HP [HR HN A B C D E]. split.
  - eapply Rectangular_perm; eassumption.
  - intros name Hn. eapply NumericColumn_perm; [eassumption|auto].
  - eapply ColumnTotal_perm; eassumption.
  - eapply ColumnTotal_perm; eassumption.
  - eapply ColumnTotal_perm; eassumption.
  - eapply ColumnTotal_perm; eassumption.
  - eapply ColumnTotal_perm; eassumption.
Qed.

Lemma CtcTotals_app d1 d2 columns h fa m c t h' fa' m' c' t' :
  CtcTotals d1 columns h fa m c t -> CtcTotals d2 columns h' fa' m' c' t' ->
  CtcTotals (d1 ++ d2) columns (ototal h h') (ototal fa fa') (ototal m m') (ototal c c') (ototal t t').
Proof.
  intros [HR HN A B C D E] [HR' HN' A' B' C' D' E']. split; try (apply ColumnTotal_app; assumption).
  - intros r Hr. apply in_app_or in Hr. destruct Hr; auto.
  - intros name Hn i r s Hi Hr. apply in_app_or in Hr. destruct Hr; [eapply HN|eapply HN']; eassumption.
Qed.
