(** Proofs for the driver of economic cost/loss values. *)
From Coq Require Import Ascii Permutation Sorted Qround.
From Verif Require Import PyBase ColumnModel BaseSpec BaseProofs EventModel EventSpec EventProofs UtilModel.
From Verif Require Import EclvModel EclvSpec EclvProofs RocProofs EqzProofs BootModel DriveModel DriveSpec DriveProofs EclvDriveModel EclvDriveSpec.
From Verif Require BootProofs.
From Coq Require Import List Lia.
Open Scope string_scope.

(* ---------- the ratios ---------- *)
Lemma ceil_lt (k : Z) y : (k < Qceiling y)%Z <-> inject_Z k < y.
Proof.
  split; intro H.
  - destruct (Qlt_le_dec (inject_Z k) y) as [L|L]; [exact L|]. exfalso.
    pose proof (Qceiling_resp_le _ _ L) as C. rewrite Qceiling_Z in C. lia.
  - rewrite Zlt_Qlt. eapply Qlt_le_trans; [exact H|]. apply Qle_ceiling.
Qed.
Lemma div_lt k step : 0 < step -> (inject_Z k < (1 - step) / step <-> inject_Z (k + 1) * step < 1).
Proof.
  intro P. rewrite inject_Z_plus. change (inject_Z 1) with 1. split; intro H.
  - assert (inject_Z k * step < (1 - step) / step * step) as X by (apply Qmult_lt_compat_r; assumption).
    setoid_replace ((1 - step) / step * step) with (1 - step) in X by (field; lra). lra.
  - apply Qlt_shift_div_l; lra.
Qed.
Lemma arange_ratios step l : 0 < step -> arange step = Ok l -> Ratios step l.
Proof.
  intros P H. unfold arange in H. destruct (Qeq_bool step 0) eqn:E; [apply Qeq_bool_iff in E; lra|]. injection H as <-.
  assert (forall k : nat, step + inject_Z (Z.of_nat k) * step == inject_Z (Z.of_nat k + 1) * step) as V.
  { intro k. rewrite inject_Z_plus. change (inject_Z 1) with 1. ring. }
  split; [|split].
  - generalize (Z.to_nat (Qceiling ((1 - step) / step))) as n. intro n. generalize 0%nat as s. induction n as [|n IH]; intro s; [constructor|].
    cbn [seq map]. constructor; [apply IH|]. apply Forall_forall. intros x Hx. apply in_map_iff in Hx. destruct Hx as (k & <- & Hk). apply in_seq in Hk.
    apply Qplus_lt_r. apply Qmult_lt_compat_r; [exact P|]. rewrite <- Zlt_Qlt. lia.
  - intros x Hx. apply in_map_iff in Hx. destruct Hx as (k & <- & Hk). apply in_seq in Hk. rewrite V. split.
    + apply div_lt; [exact P|]. apply ceil_lt. lia.
    + exists (Z.of_nat k + 1)%Z. split; [lia|]. apply V.
  - intros k Pk H. exists (step + inject_Z (Z.of_nat (Z.to_nat (k - 1))) * step). split.
    + apply in_map_iff. eexists. split; [reflexivity|]. apply in_seq.
      assert (k - 1 < Qceiling ((1 - step) / step))%Z by (apply ceil_lt, div_lt; [exact P|]; replace (k - 1 + 1)%Z with k by lia; exact H). lia.
    + rewrite V. replace (Z.of_nat (Z.to_nat (k - 1)) + 1)%Z with k by lia. reflexivity.
Qed.
Lemma arange_ok step : 0 < step -> exists l, arange step = Ok l.
Proof. intro P. unfold arange. destruct (Qeq_bool step 0) eqn:E; [apply Qeq_bool_iff in E; lra|]. eexists. reflexivity. Qed.
Lemma sorted_sortQ l : StronglySorted Qlt l -> sortQ l = l.
Proof.
  induction 1 as [|x l H IH F]; [reflexivity|]. cbn [sortQ]. rewrite IH. destruct l as [|y l]; [reflexivity|]. cbn [insertQ].
  inversion F; subst. assert (Qle_bool x y = true) as -> by (apply Qle_bool_iff; lra). reflexivity.
Qed.
Lemma ratios_range step l : 0 < step -> Ratios step l -> forall x, In x l -> 0 < x < 1.
Proof.
  intros P (_ & H & _) x Hx. destruct (H x Hx) as (L & k & Pk & E). split; [|exact L]. rewrite E.
  assert (inject_Z 0 * step < inject_Z k * step) as X by (apply Qmult_lt_compat_r; [exact P|]; rewrite <- Zlt_Qlt; exact Pk).
  change (inject_Z 0) with 0 in X. lra.
Qed.

(* ---------- thresholds ---------- *)
Lemma uniqueQ_in l : forall t, (exists x, In x (uniqueQ l) /\ x == t) <-> (exists x, In x l /\ x == t).
Proof.
  induction l as [|y l IH]; intro t; [reflexivity|]. cbn [uniqueQ In]. split.
  - intros (x & [<-|H] & E); [exists y; auto|]. apply filter_In in H. destruct (proj1 (IH t)) as (z & Hz & Ez); [exists x; tauto|]. exists z. auto.
  - intros (x & [<-|H] & E); [exists y; auto|]. destruct (Qeq_dec y t) as [Y|Y]; [exists y; auto|].
    destruct (proj2 (IH t)) as (z & Hz & Ez); [exists x; auto|]. exists z. split; [|exact Ez]. right. apply filter_In. split; [exact Hz|].
    apply negb_true_iff. apply not_true_iff_false. rewrite Qeq_bool_iff. intro K. apply Y. rewrite K. exact Ez.
Qed.
Lemma forall2_in_l {A B} (P : A -> B -> Prop) l m : Forall2 P l m -> forall x, In x l -> exists y, In y m /\ P x y.
Proof. induction 1 as [|a b l m H F IH]; intros x []; [subst; exists b; split; [left; reflexivity|exact H]|]. destruct (IH x H0) as (y & Hy & P'). exists y. split; [right; exact Hy|exact P']. Qed.
Definition apartQ (l : list Q) : Prop := ForallOrdPairs (fun x y => ~ x == y) l.
Lemma apart_filter f l : apartQ l -> apartQ (filter f l).
Proof.
  induction 1 as [|x l F H IH]; [constructor|]. cbn [filter]. destruct (f x); [|exact IH]. constructor; [|exact IH].
  rewrite Forall_forall in *. intros y Hy. apply filter_In in Hy. apply F, Hy.
Qed.
Lemma uniqueQ_apart l : apartQ (uniqueQ l).
Proof.
  induction l as [|x l IH]; [constructor|]. cbn [uniqueQ]. constructor; [|apply apart_filter, IH].
  apply Forall_forall. intros y Hy. apply filter_In in Hy. destruct Hy as [_ Hy]. apply negb_true_iff, not_true_iff_false in Hy. rewrite Qeq_bool_iff in Hy. exact Hy.
Qed.
Lemma insert_sorted x l : StronglySorted Qlt l -> Forall (fun y => ~ x == y) l -> StronglySorted Qlt (insertQ x l).
Proof.
  induction 1 as [|y l S IH F]; intro N; [repeat constructor|]. cbn [insertQ]. inversion N; subst. destruct (Qle_bool x y) eqn:E.
  - apply Qle_bool_iff in E. assert (x < y) as L by (apply Qle_lteq in E; destruct E as [E|E]; [exact E|contradiction]).
    constructor; [constructor; assumption|]. constructor; [exact L|]. eapply Forall_impl; [|exact F]. intros z Hz. cbv beta in Hz. lra.
  - assert (y < x) as L. { destruct (Qlt_le_dec y x) as [L|L]; [exact L|]. apply Qle_bool_iff in L. congruence. }
    constructor; [apply IH; assumption|]. apply Forall_forall. intros z Hz. apply (Permutation_in _ (insertQ_perm x l)) in Hz.
    destruct Hz as [<-|Hz]; [exact L|]. rewrite Forall_forall in F. apply F, Hz.
Qed.
Lemma sortQ_sorted l : apartQ l -> StronglySorted Qlt (sortQ l).
Proof.
  induction 1 as [|x l F H IH]; [constructor|]. cbn [sortQ]. apply insert_sorted; [exact IH|].
  rewrite Forall_forall in *. intros y Hy. apply F. apply (Permutation_in _ (sortQ_perm l)). exact Hy.
Qed.
Lemma thresholds_sound columns rows l : eclv_thresholds columns rows = Ok l -> Thresholds columns rows l.
Proof.
  unfold eclv_thresholds. intro H. destruct (mem "thresh_i" columns) eqn:M.
  - apply mem_iff in M. split; [contradiction|intros _].
    destruct (mapM _ rows) as [ths|] eqn:E; [|discriminate H]. cbn [bind] in H. injection H as <-.
    split; [apply sortQ_sorted, uniqueQ_apart|]. intro t.
    assert (forall t, (exists x, In x (sortQ (uniqueQ ths)) /\ x == t) <-> (exists x, In x ths /\ x == t)) as ->.
    { intro u. rewrite <- (uniqueQ_in ths u). split; intros (x & Hx & Ex); exists x; (split; [|exact Ex]); [apply (Permutation_in _ (sortQ_perm _)), Hx|apply (Permutation_in _ (Permutation_sym (sortQ_perm _))), Hx]. }
    apply mapM_iff in E. split.
    + intros (x & Hx & Ex). destruct (DriveProofs.forall2_in_r _ _ _ _ E Hx) as (r & Hr & G). cbv beta in G.
      destruct (get columns r "thresh_i") as [c|] eqn:Gc; [|discriminate G]. cbn [bind] in G. destruct c; try discriminate G. injection G as ->.
      exists r, x. split; [exact Hr|]. split; [apply get_sound; exact Gc|exact Ex].
    + intros (r & q & Hr & C & Eq). destruct (forall2_in_l _ _ _ E r Hr) as (x & Hx & G). cbv beta in G. apply get_sound in C. rewrite C in G. cbn [bind] in G. injection G as <-. exists q. auto.
  - apply mem_false in M. split; [|contradiction]. intros _. injection H as <-. reflexivity.
Qed.
Lemma thresholds_ok columns rows : Rectangular rows columns -> (forall r c, In r rows -> CellOf columns r "thresh_i" c -> exists q, c = CNum q) ->
  exists l, eclv_thresholds columns rows = Ok l.
Proof.
  intros R H. unfold eclv_thresholds. destruct (mem "thresh_i" columns) eqn:M; [|eexists; reflexivity]. apply mem_iff in M.
  destruct (mapM_total (fun r => c <- get columns r "thresh_i" ;; match c with CNum q => Ok q | _ => Err NotModelled end) rows) as [ths E].
  - intros r Hr. destruct (cell_there columns "thresh_i" r (R r Hr) M) as [c C]. destruct (H r c Hr C) as [q ->]. apply get_sound in C. rewrite C. eexists. reflexivity.
  - rewrite E. eexists. reflexivity.
Qed.

(* ---------- the rows of a curve ---------- *)
Definition ctest (columns names p : list string) (r : row) : bool :=
  forallb (fun nv => ptest columns (fst nv) (isin [want (snd nv)]) r) (combine names p).
Lemma cfilters_value columns names p r :
  forallb (fun fw => ptest columns (fst fw) (isin (snd fw)) r) (eclv_filters columns names p) = ctest columns names p r.
Proof.
  unfold eclv_filters, ctest. induction (combine names p) as [|[n v] l IH]; [reflexivity|]. cbn [flat_map fst snd]. rewrite forallb_app, IH. cbn [forallb fst snd].
  destruct (mem n columns) eqn:M; cbn [forallb fst snd]; [rewrite andb_true_r; reflexivity|]. rewrite (ptest_absent _ _ _ _ M). reflexivity.
Qed.
Lemma cfilters_columns columns names p f : In f (eclv_filters columns names p) -> In (fst f) columns.
Proof.
  unfold eclv_filters. intro H. apply in_flat_map in H. destruct H as ([n v] & _ & H). cbn [fst snd] in H. destruct (mem n columns) eqn:M; [|destruct H].
  destruct H as [<-|[]]. apply mem_iff. exact M.
Qed.
Definition crows (columns : list string) (data : tdata) (series : list (string * list string)) (p : list string) : tdata :=
  filter (ctest columns (map fst series) p) data.
Lemma curve_data columns data series p : Rectangular data columns -> eclv_filters columns (map fst series) p <> [] ->
  exists pd, point_data columns (eclv_filters columns (map fst series) p) data = Ok pd /\ map snd pd = crows columns data series p.
Proof.
  intros R N. unfold point_data. destruct (eclv_filters columns (map fst series) p) as [|f fs] eqn:E; [contradiction|].
  rewrite <- E. rewrite (mapM_map _ (ctest columns (map fst series) p)).
  - cbn [bind]. rewrite mask_labels. eexists. split; [reflexivity|]. apply map_snd_filter.
  - intros r Hr. rewrite passes_value; [rewrite cfilters_value; reflexivity|apply R; exact Hr|]. intros g Hg. eapply cfilters_columns. exact Hg.
Qed.
Lemma isin_one v c : isin [want v] c = true <-> HasValue v c.
Proof. unfold isin. cbn [existsb]. rewrite orb_false_r. apply wanted_iff. Qed.
Lemma crows_selection columns data series p : Rectangular data columns -> Combination series p ->
  Selection (OfCurve columns series p) data (crows columns data series p).
Proof.
  intros R C. apply EventProofs.selection_filter. intros r Hr. specialize (R r Hr). unfold ctest, OfCurve.
  induction C as [|[n vals] v series p H C IH]; cbn [map combine forallb fst snd].
  - split; [constructor|reflexivity].
  - rewrite andb_true_iff, IH. rewrite (ptest_iff _ _ _ (HasValue v) _ R (isin_one v)).
    split; [intros [A B]; constructor; assumption|]. intro F. inversion F; subst. split; assumption.
Qed.
Lemma curve_filters columns series p : Combination series p -> (eclv_filters columns (map fst series) p <> [] <-> exists n, In n (map fst series) /\ In n columns).
Proof.
  intro C. unfold eclv_filters. induction C as [|[n vals] v series p H C IH]; cbn [map combine flat_map fst snd].
  - split; [intro N; contradiction|intros (n & [] & _)].
  - destruct (mem n columns) eqn:M.
    + apply mem_iff in M. split; [intros _; exists n; split; [left; reflexivity|exact M]|discriminate].
    + apply mem_false in M. cbn [app]. rewrite IH. split; intros (x & Hx & Mx).
      * exists x. split; [right; exact Hx|exact Mx].
      * destruct Hx as [<-|Hx]; [contradiction|]. exists x. auto.
Qed.

(* ---------- the columns of the counts ---------- *)
Lemma columnat_fun columns n i j : ColumnAt columns n i -> ColumnAt columns n j -> i = j.
Proof. rewrite <- !index_of_ColumnAt. congruence. Qed.
Lemma present_project columns names n i j : ColumnAt columns n i -> ColumnAt names n j ->
  forall rows values, Forall2 (fun r v => mapM (get columns r) names = Ok v) rows values -> present_at j values = present_at i rows.
Proof.
  intros Ci Cj rows values F. induction F as [|r v rows values H F IH]; [reflexivity|]. cbn [present_at]. rewrite IH.
  assert (nth_error v j = nth_error r i) as ->; [|reflexivity].
  apply mapM_iff in H. destruct Cj as [Nj _]. clear - Ci Nj H. revert j Nj. induction H as [|m c names v G H IH]; intros [|j] Nj; try discriminate Nj.
  - injection Nj as ->. apply get_sound in G. destruct G as (k & Ck & Hk). rewrite (columnat_fun _ _ _ _ Ci Ck). symmetry. exact Hk.
  - apply IH. exact Nj.
Qed.
Lemma total_project columns names n rows values o : In n columns -> In n names ->
  Forall2 (fun r v => mapM (get columns r) names = Ok v) rows values ->
  (ColumnTotal values names n o <-> ColumnTotal rows columns n o).
Proof.
  intros I J F. destruct (in_index _ _ I) as [i Ei]. destruct (in_index _ _ J) as [j Ej]. apply index_of_ColumnAt in Ei, Ej.
  pose proof (present_project _ _ _ _ _ Ei Ej _ _ F) as P. unfold ColumnTotal. split; intros (_ & H); (split; [contradiction|]); intros k Ck.
  - rewrite (columnat_fun _ _ _ _ Ck Ei), <- P. apply H. exact Ej.
  - rewrite (columnat_fun _ _ _ _ Ck Ej), P. apply H. exact Ei.
Qed.
Lemma project_rect columns names rows values : Forall2 (fun r v => mapM (get columns r) names = Ok v) rows values -> Rectangular values names.
Proof. intros F v Hv. destruct (DriveProofs.forall2_in_r _ _ _ _ F Hv) as (r & _ & H). eapply mapM_length. exact H. Qed.
Lemma project_cell columns names rows values n v c : Forall2 (fun r v => mapM (get columns r) names = Ok v) rows values ->
  In v values -> CellOf names v n c -> exists r, In r rows /\ CellOf columns r n c.
Proof.
  intros F Hv (j & (Cj & _) & Hc). destruct (DriveProofs.forall2_in_r _ _ _ _ F Hv) as (r & Hr & H). exists r. split; [exact Hr|]. apply get_sound.
  apply mapM_iff in H. clear - Cj Hc H. revert j Cj Hc. induction H as [|m x names v G H IH]; intros [|j] Cj Hc; try discriminate Cj.
  - injection Cj as ->. injection Hc as ->. exact G.
  - eapply IH; eassumption.
Qed.
Definition ctc_names := ["total"; "fy_oy"; "fy_on"; "fn_oy"; "fn_on"].
Lemma count_names n : In n count_columns -> In n ctc_names.
Proof. intro H. right. exact H. Qed.
Lemma project_ok columns data rows : CountTable columns data -> incl rows data ->
  exists values, mapM (fun r => mapM (get columns r) ctc_names) rows = Ok values.
Proof.
  intros (R & T & H) I. apply mapM_total. intros r Hr. apply mapM_total. intros n Hn.
  assert (In n columns) as M. { destruct Hn as [<-|Hn]; [exact T|]. apply (H n Hn). }
  destruct (cell_there columns n r (R r (I r Hr)) M) as [c C]. exists c. apply get_sound. exact C.
Qed.
Lemma total_nonneg columns data rows n q : CountTable columns data -> incl rows data -> In n count_columns -> ColumnTotal rows columns n (Some q) -> 0 <= q.
Proof.
  intros (R & _ & H) I Hn (_ & T). destruct (H n Hn) as (M & K). destruct (in_index _ _ M) as [i Ei]. apply index_of_ColumnAt in Ei.
  destruct (T i Ei) as (T1 & T2). destruct (present_at i rows) as [|x l] eqn:E; [discriminate (T1 eq_refl)|]. destruct T2 as (q' & [= <-] & Eq); [discriminate|]. rewrite Eq, <- E. clear - Ei K I.
  induction rows as [|r rows IH]; [apply Qle_refl|]. cbn [present_at]. assert (0 <= qsum (present_at i rows)) as P by (apply IH; intros x Hx; apply I; right; exact Hx).
  destruct (nth_error r i) as [[q| |]|] eqn:N; try exact P. unfold qsum. cbn [fold_right]. fold (qsum (present_at i rows)).
  destruct (K r (CNum q) (I r (or_introl eq_refl))) as [X|(q' & [= <-] & Q0)]; [exists i; auto|discriminate X|]. lra.
Qed.
Lemma numeric_project columns data rows values n : CountTable columns data -> incl rows data ->
  Forall2 (fun r v => mapM (get columns r) ctc_names = Ok v) rows values -> In n count_columns -> NumericColumn values ctc_names n.
Proof.
  intros (_ & _ & H) I F Hn j v s Cj Hv E. destruct (H n Hn) as (_ & K).
  destruct (project_cell _ _ _ _ n v (CStr s) F Hv) as (r & Hr & C); [exists j; auto|].
  destruct (K r _ (I r Hr) C) as [X|(q & X & _)]; discriminate X.
Qed.

Lemma curve_calc columns data rows values np th steps step : CountTable columns data -> incl rows data -> 0 < step -> Ratios step steps ->
  mapM (fun r => mapM (get columns r) ctc_names) rows = Ok values ->
  (exists a b c d, Totals columns rows (Some a) (Some b) (Some c) (Some d) /\ genuine4 a b c d /\
     calculate_eclv values ctc_names np (Some th) "ctc" steps 0 = Ok (Some (EclvProofs.eclv_result a b c d steps false))) \/
  (calculate_eclv values ctc_names np (Some th) "ctc" steps 0 = Ok None /\ forall a b c d, Totals columns rows a b c d -> ~ Both a b c d).
Proof.
  intros CT I P RT E. apply mapM_iff in E. pose proof (project_rect _ _ _ _ E) as R.
  assert (forall n, In n count_columns -> exists s, sum_column_data_by_name values ctc_names n true = Ok s /\ ColumnTotal rows columns n s) as S.
  { intros n Hn. destruct (sum_column_is_total values ctc_names n R (numeric_project _ _ _ _ _ CT I E Hn)) as (s & E1 & E2). exists s. split; [exact E1|].
    apply (total_project columns ctc_names n rows values s); [apply CT, Hn|apply count_names, Hn|exact E|exact E2]. }
  destruct (S "fy_oy") as (a & Ea & Ta); [cbn; tauto|]. destruct (S "fy_on") as (b & Eb & Tb); [cbn; tauto|].
  destruct (S "fn_oy") as (c & Ec & Tc); [cbn; tauto|]. destruct (S "fn_on") as (d & Ed & Td); [cbn; tauto|].
  rewrite (eclv_ctc_table _ _ np (Some th) steps 0 a b c d Ea Eb Ec Ed). change (0 =? 1)%Z with false.
  assert (Totals columns rows a b c d) as T by (do 4 (constructor; [assumption|]); constructor).
  assert (forall a' b' c' d', Totals columns rows a' b' c' d' -> oeq a a' /\ oeq b b' /\ oeq c c' /\ oeq d d') as U.
  { intros a' b' c' d' T'. inversion T' as [|? ? ? ? U1 T1]; subst. inversion T1 as [|? ? ? ? U2 T2]; subst. inversion T2 as [|? ? ? ? U3 T3]; subst. inversion T3 as [|? ? ? ? U4 T4]; subst.
    repeat split; eapply ColumnTotal_fun; eassumption. }
  assert ((exists x, In x [a; b; c; d] /\ x = None) \/ exists a' b' c' d', a = Some a' /\ b = Some b' /\ c = Some c' /\ d = Some d') as [(x & Hx & ->)|(a' & b' & c' & d' & -> & -> & -> & ->)].
  { destruct a, b, c, d; try (left; eexists; split; [|reflexivity]; cbn; tauto). right. eauto 10. }
  - right. split; [apply eclv_missing; exact Hx|]. intros a' b' c' d' T' (a1 & b1 & c1 & d1 & (-> & -> & -> & ->) & _).
    destruct (U _ _ _ _ T') as (U1 & U2 & U3 & U4). cbn in Hx. destruct Hx as [->|[->|[->|[->|[]]]]]; [destruct U1|destruct U2|destruct U3|destruct U4].
  - pose proof (total_nonneg _ _ _ _ _ CT I (or_introl eq_refl) Ta) as Pa.
    pose proof (total_nonneg _ _ _ _ _ CT I (or_intror (or_introl eq_refl)) Tb) as Pb.
    pose proof (total_nonneg _ _ _ _ _ CT I (or_intror (or_intror (or_introl eq_refl))) Tc) as Pc.
    pose proof (total_nonneg _ _ _ _ _ CT I (or_intror (or_intror (or_intror (or_introl eq_refl)))) Td) as Pd.
    destruct (Qlt_le_dec 0 (a' + c')) as [G1|G1]; [destruct (Qlt_le_dec 0 (b' + d')) as [G2|G2]|].
    + left. exists a', b', c', d'. assert (genuine4 a' b' c' d') as G by (unfold genuine4; tauto). split; [exact T|]. split; [exact G|].
      apply eclv_exists; [exact G|]. exact (ratios_range _ _ P RT).
    + right. split; [apply eclv_undefined; right; left; lra|]. intros a1 b1 c1 d1 T' (a2 & b2 & c2 & d2 & (-> & -> & -> & ->) & B1 & B2).
      destruct (U _ _ _ _ T') as (U1 & U2 & U3 & U4). cbn in U1, U2, U3, U4. rewrite <- U2, <- U4 in B2. lra.
    + right. split; [apply eclv_undefined; left; lra|]. intros a1 b1 c1 d1 T' (a2 & b2 & c2 & d2 & (-> & -> & -> & ->) & B1 & B2).
      destruct (U _ _ _ _ T') as (U1 & U2 & U3 & U4). cbn in U1, U2, U3, U4. rewrite <- U1, <- U3 in B1. lra.
Qed.

(* ---------- the limits ---------- *)
Lemma ci_limits dist cl v alpha method r : (forall x, In x v -> x <> None) ->
  get_confidence_interval_and_value_eclv dist (Some (cl, v)) alpha method = Ok r ->
  eclv_value r = Some (cl, v) /\ eclv_lower r = Some (map (fun _ => None) cl) /\ eclv_upper r = Some (map (fun _ => None) cl) /\ (method = Pivotal -> cl = []).
Proof.
  intros NV. unfold get_confidence_interval_and_value_eclv.
  destruct (same_lengths (map snd (not_none dist))); [|discriminate]. cbn [negb].
  replace (existsb (fun x : pyval => match x with None => true | _ => false end) v) with false.
  2:{ symmetry. apply not_true_iff_false. intro H. apply existsb_exists in H. destruct H as ([q|] & I & E); [discriminate E|]. now apply (NV None I). }
  destruct (map_res _ (seq 0 (length cl))) as [lim|] eqn:E; [|discriminate]. cbn [bind].
  assert (LL : lim = map (fun _ => (None, None)) cl /\ (method = Pivotal -> cl = [])).
  { apply BootProofs.map_res_inv in E. remember (seq 0 (length cl)) as sq eqn:SQ.
    assert (LS : length sq = length cl) by (subst; apply seq_length). clear SQ. revert cl LS.
    induction E as [|i y sq lim Hy _ IH]; intros [|c cl] LS; try discriminate LS; [split; reflexivity|].
    simpl. destruct (IH cl) as (I1 & _); [simpl in LS; congruence|]. rewrite I1.
    destruct (column_of (map snd (not_none dist)) i) as [col|]; [|discriminate Hy]. cbn [bind] in Hy.
    unfold eclv_limits in Hy. destruct method; [discriminate Hy| |].
    - split; [|discriminate]. f_equal. destruct (all_the_same col); injection Hy as <-; reflexivity.
    - split; [|discriminate]. f_equal. injection Hy as <-. reflexivity. }
  destruct LL as (LL & PV). rewrite LL. assert (L1 : map fst (map (fun _ : Q => (None : pyval, None : pyval)) cl) = map (fun _ => None) cl) by (rewrite map_map; reflexivity).
  assert (L2 : map snd (map (fun _ : Q => (None : pyval, None : pyval)) cl) = map (fun _ => None) cl) by (rewrite map_map; reflexivity).
  rewrite L1, L2. assert (G : list_gt (map (fun _ => None) cl) (map (fun _ => None) cl) = Ok false).
  { clear. induction cl as [|c cl IH]; [reflexivity|]. exact IH. }
  rewrite G. cbn [catch bind]. intro H. injection H as <-. auto.
Qed.
Lemma rows_value p th n xs : forall ys, length ys = length xs ->
  eclv_rows p th n xs ys (map (fun _ => None) xs) (map (fun _ => None) xs) = Ok (map (fun xy => EclvRow p th (fst xy) (snd xy) None None n) (combine xs ys)).
Proof.
  induction xs as [|x xs IH]; intros [|y ys] L; try discriminate L; [reflexivity|]. cbn [map eclv_rows combine]. rewrite IH by (injection L; auto). reflexivity.
Qed.
Lemma repeat_map {A B} (c : B) (l : list A) n : length l = n -> repeat c n = map (fun _ => c) l.
Proof. intros <-. induction l as [|x l IH]; [reflexivity|]. cbn. rewrite IH. reflexivity. Qed.

(* ---------- one curve ---------- *)
Section Curve.
Variables (np : bool) (columns : list string) (data : tdata) (series : list (string * list string)) (step : Q) (steps : list Q).
Variable boot : option ((tdata -> list tdata) * ci_method).
Hypothesis HT : CountTable columns data.
Hypothesis HS : 0 < step.
Hypothesis HR : Ratios step steps.
Let rows p := crows columns data series p.
Definition block (p : list string) (a b c d th : Q) : list eclv_row :=
  map (fun xy => EclvRow (combine (map fst series) p) th (fst xy) (snd xy) None None (length (crows columns data series p)))
    (combine steps (map Some (e_V (EclvProofs.eclv_result a b c d steps false)))).
Lemma curve_cl a b c d : e_cl (EclvProofs.eclv_result a b c d steps false) = steps.
Proof. apply sorted_sortQ, HR. Qed.
Lemma curve_V a b c d : length (e_V (EclvProofs.eclv_result a b c d steps false)) = length steps.
Proof. cbn [EclvProofs.eclv_result e_V]. rewrite map_length. f_equal. apply (curve_cl a b c d). Qed.
Lemma rows_incl p : incl (rows p) data.
Proof. intros r Hr. apply filter_In in Hr. apply Hr. Qed.
Lemma forall2_combine_l {A B C} (P : A -> B -> Prop) (f : A -> B -> C) l m : length l = length m -> (forall x y, In (x, y) (combine l m) -> P x y) -> Forall2 P l m.
Proof. clear. revert m. induction l as [|x l IH]; intros [|y m] L H; try discriminate L; [constructor|]. constructor; [apply H; left; reflexivity|]. apply IH; [injection L; auto|]. intros; apply H; right; assumption. Qed.
Lemma block_rows p a b c d th : Totals columns (rows p) (Some a) (Some b) (Some c) (Some d) -> genuine4 a b c d ->
  CurveRows columns series step p (rows p) th (block p a b c d th).
Proof.
  intros T G. exists a, b, c, d, steps. split; [exact T|]. split; [exact HR|]. unfold block.
  assert (forall x v, In (x, v) (combine steps (e_V (EclvProofs.eclv_result a b c d steps false))) ->
    EconomicValue (hit_rate a b c d) (false_rate a b c d) (base_rate a b c d) x v) as E.
  { intros x v H. rewrite <- (curve_cl a b c d) in H at 1. destruct (EclvProofs.eclv_point _ _ _ _ _ _ _ _ G (ratios_range _ _ HS HR) H) as [Hc Hv].
    eapply EconomicValue_proper; [symmetry; exact Hv|]. apply gv_expense; [apply rates; exact G|exact Hc]. }
  pose proof (curve_V a b c d) as L. revert E L. generalize (e_V (EclvProofs.eclv_result a b c d steps false)) as vs. fold (rows p).
  clear HR. induction steps as [|x xs IH]; intros [|v vs] E L; try discriminate L; [constructor|]. cbn [map combine]. constructor.
  - cbn. repeat split; try reflexivity. exists v. split; [reflexivity|]. apply E. left. reflexivity.
  - apply IH; [intros; apply E; right; assumption|injection L; auto].
Qed.
Lemma step_none (p : list string) th r : eclv_value r = None ->
  (match eclv_value r with
   | None => Err TypeError
   | Some (cl, v) =>
        let n := (length steps + Z.to_nat 0)%nat in
        let limits (o : option (list pyval)) := match o with Some l => l | None => repeat None n end in
        if Nat.eqb (length cl) n
        then eclv_rows (combine (map fst series) p) th (length (rows p)) cl v (limits (eclv_lower r)) (limits (eclv_upper r))
        else Err ValueError
    end) = Err TypeError.
Proof. intros ->. reflexivity. Qed.
Lemma step_some p th r a b c d : eclv_value r = curve (Some (EclvProofs.eclv_result a b c d steps false)) ->
  (eclv_lower r = None \/ eclv_lower r = Some (map (fun _ => None) steps)) -> (eclv_upper r = None \/ eclv_upper r = Some (map (fun _ => None) steps)) ->
  (match eclv_value r with
   | None => Err TypeError
   | Some (cl, v) =>
        let n := (length steps + Z.to_nat 0)%nat in
        let limits (o : option (list pyval)) := match o with Some l => l | None => repeat None n end in
        if Nat.eqb (length cl) n
        then eclv_rows (combine (map fst series) p) th (length (rows p)) cl v (limits (eclv_lower r)) (limits (eclv_upper r))
        else Err ValueError
    end) = Ok (block p a b c d th).
Proof.
  intros -> L U. unfold curve. rewrite curve_cl. cbv zeta. change (Z.to_nat 0) with 0%nat. rewrite Nat.add_0_r, Nat.eqb_refl.
  assert (repeat (None : pyval) (length steps) = map (fun _ => None) steps) as -> by (apply repeat_map; reflexivity).
  assert (match eclv_lower r with Some l => l | None => map (fun _ => None) steps end = map (fun _ => None) steps) as -> by (destruct L as [->| ->]; reflexivity).
  assert (match eclv_upper r with Some l => l | None => map (fun _ => None) steps end = map (fun _ => None) steps) as -> by (destruct U as [->| ->]; reflexivity).
  apply rows_value. rewrite map_length. apply curve_V.
Qed.

Lemma result_cases p values th r : mapM (fun r => mapM (get columns r) ctc_names) (rows p) = Ok values ->
  EclvDriveModel.eclv_result np "ctc" steps 0 ctc_names boot values th = Ok r ->
  eclv_value r = None \/
  exists a b c d, Totals columns (rows p) (Some a) (Some b) (Some c) (Some d) /\ genuine4 a b c d /\
    eclv_value r = curve (Some (EclvProofs.eclv_result a b c d steps false)) /\
    (eclv_lower r = None \/ eclv_lower r = Some (map (fun _ => None) steps)) /\ (eclv_upper r = None \/ eclv_upper r = Some (map (fun _ => None) steps)) /\
    (forall samples, boot = Some (samples, Pivotal) -> steps = []).
Proof.
  intros E H. unfold EclvDriveModel.eclv_result in H.
  destruct (curve_calc columns data (rows p) values np th steps step HT (rows_incl p) HS HR E) as [(a & b & c & d & T & G & C)|(C & _)]; rewrite C in H; cbn [bind] in H.
  - destruct boot as [(samples & method)|].
    + destruct (mapM _ (samples values)) as [dist|x] eqn:D; cbn [bind] in H.
      * destruct (get_confidence_interval_and_value_eclv _ _ _ method) as [r'|x] eqn:CI.
        -- right. exists a, b, c, d. split; [exact T|]. split; [exact G|]. cbn [catch] in H. injection H as ->. unfold curve in CI at 2. apply ci_limits in CI.
           2:{ intros x Hx. apply in_map_iff in Hx. destruct Hx as (y & <- & _). discriminate. }
           rewrite curve_cl in CI. destruct CI as (V & L & U & PV). split; [unfold curve; rewrite curve_cl; exact V|]. split; [right; exact L|]. split; [right; exact U|].
           intros s [= <- ->]. apply PV. reflexivity.
        -- left. cbn [catch] in H. destruct (existsb (exn_eqb x) [KeyError]); [|discriminate H]. injection H as <-. reflexivity.
      * left. cbn [catch] in H. destruct (existsb (exn_eqb x) [KeyError]); [|discriminate H]. injection H as <-. reflexivity.
    + right. exists a, b, c, d. split; [exact T|]. split; [exact G|]. injection H as <-. cbn [eclv_value eclv_lower eclv_upper]. split; [reflexivity|]. split; [left; reflexivity|]. split; [left; reflexivity|]. discriminate.
  - left. destruct boot as [(samples & method)|]; [|injection H as <-; reflexivity].
    destruct (mapM _ (samples values)) as [dist|x] eqn:D; cbn [bind] in H.
    + cbn in H. injection H as <-. reflexivity.
    + cbn [catch] in H. destruct (existsb (exn_eqb x) [KeyError]); [|discriminate H]. injection H as <-. reflexivity.
Qed.
Lemma match_nonempty {A B} (l : list A) (x y : B) : l <> [] -> match l with [] => x | _ => y end = y.
Proof. destruct l; [contradiction|reflexivity]. Qed.
Definition good (p : list string) (th : Q) (out : list eclv_row) : Prop :=
  (exists a b c d, Totals columns (rows p) (Some a) (Some b) (Some c) (Some d) /\ genuine4 a b c d /\ out = block p a b c d th) /\
  (forall samples, boot = Some (samples, Pivotal) -> steps = []).
Lemma one_inv p out : eclv_one np "ctc" columns data series steps 0 ctc_names boot p = Ok out ->
  exists ths curves, out = concat curves /\ eclv_thresholds columns (rows p) = Ok ths /\ Forall2 (good p) ths curves.
Proof.
  unfold eclv_one. intro H. destruct (eclv_filters columns (map fst series) p) as [|f fs] eqn:EF; [discriminate H|].
  destruct (curve_data columns data series p) as (pd & Epd & Erows); [apply HT|rewrite EF; discriminate|]. rewrite EF in Epd. rewrite Epd in H. cbn [bind] in H.
  rewrite Erows in H. fold (rows p) in H. destruct (eclv_thresholds columns (rows p)) as [ths|] eqn:ET; [|discriminate H]. cbn [bind] in H.
  exists ths.
  assert (rows p = [] \/ rows p <> []) as [RE|RE] by (destruct (rows p); [left; reflexivity|right; discriminate]).
  - rewrite RE in H. cbn [bind] in H. destruct ths as [|th ths]; [|discriminate H]. cbn in H. injection H as <-. exists []. split; [reflexivity|]. split; [reflexivity|]. constructor.
  - rewrite (match_nonempty _ _ _ RE) in H. destruct (mapM _ (rows p)) as [values|] eqn:EV; [|discriminate H]. cbn [bind] in H.
    destruct (mapM _ ths) as [rs|] eqn:ER; [|discriminate H]. cbn [bind] in H. destruct (mapM _ (combine ths (map Ok rs))) as [blocks|] eqn:EB; [|discriminate H].
    cbn [bind] in H. injection H as <-. exists blocks. split; [reflexivity|]. split; [reflexivity|].
    apply mapM_iff in ER, EB. clear ET. revert blocks EB. induction ER as [|th r ths rs Hr ER IH]; intros blocks EB.
    + inversion EB. constructor.
    + cbn [map combine] in EB. inversion EB as [|x b l m Hb EB']; subst. constructor; [|apply IH; exact EB'].
      cbn [fst snd bind] in Hb. destruct (result_cases p values th r EV Hr) as [V|(a & b' & c & d & T & G & V & L & U & PV)].
      * rewrite V in Hb. discriminate Hb.
      * split; [|exact PV]. exists a, b', c, d. split; [exact T|]. split; [exact G|].
        pose proof (step_some p th r a b' c d V L U) as X. assert (Ok b = Ok (block p a b' c d th)) as Y by (rewrite <- Hb; exact X). injection Y as ->. reflexivity.
Qed.
End Curve.

Lemma base_flag add : base_rate_flag add = 0%Z.
Proof.
  unfold base_rate_flag. set (x := match add with Some z => z | None => 0%Z end). destruct (x =? 0)%Z eqn:E; [|reflexivity]. apply Z.eqb_eq in E. rewrite E. reflexivity.
Qed.
Lemma eclv_inv np columns data series step add boot out : CountTable columns data -> data <> [] -> 0 < step ->
  aggregate_eclv np "ctc" columns data series step add boot = Ok out ->
  exists steps blocks, Ratios step steps /\ out = concat (concat blocks) /\
    Forall2 (fun p curves => exists ths, eclv_thresholds columns (crows columns data series p) = Ok ths /\ Forall2 (good columns data series steps boot p) ths curves)
      (combinations (map snd series)) blocks.
Proof.
  intros CT N P H. unfold aggregate_eclv in H. destruct (arange_ok step P) as [steps ES]. rewrite ES in H. cbn [bind] in H. apply arange_ratios in ES; [|exact P].
  change (line_type_columns "ctc") with (Ok ctc_names) in H. cbn [bind] in H. rewrite (match_nonempty _ _ _ N) in H. rewrite base_flag in H. rewrite combinations_product.
  destruct (mapM _ (product (map snd series))) as [bs|] eqn:E; [|discriminate H]. cbn [bind] in H. injection H as <-. apply mapM_iff in E. exists steps.
  enough (exists blocks, concat bs = concat (concat blocks) /\ Forall2 (fun p curves => exists ths, eclv_thresholds columns (crows columns data series p) = Ok ths /\ Forall2 (good columns data series steps boot p) ths curves)
      (product (map snd series)) blocks) as (blocks & X & Y) by (exists blocks; auto).
  induction E as [|p b ps bs Hb E IH]; [exists []; split; [reflexivity|constructor]|]. destruct IH as (blocks & X & Y).
  destruct (one_inv np columns data series step steps boot CT P ES p b Hb) as (ths & curves & -> & ET & G). exists (curves :: blocks). split; [cbn [concat]; rewrite concat_app, X; reflexivity|].
  constructor; [|exact Y]. exists ths. auto.
Qed.


Lemma total_exists rows columns n : In n columns -> exists o, ColumnTotal rows columns n o.
Proof.
  intro M. destruct (in_index _ _ M) as [i Ei]. apply index_of_ColumnAt in Ei.
  exists (match present_at i rows with [] => None | l => Some (qsum l) end). split; [contradiction|]. intros j Cj. rewrite (columnat_fun _ _ _ _ Cj Ei).
  destruct (present_at i rows) as [|x l]; split; intro H; try contradiction; try reflexivity; try discriminate H. eexists. split; reflexivity.
Qed.
Lemma totals_exist columns data rows : CountTable columns data -> exists a b c d, Totals columns rows a b c d.
Proof.
  intros (_ & _ & H). destruct (total_exists rows columns "fy_oy") as [a A]; [apply H; cbn; tauto|]. destruct (total_exists rows columns "fy_on") as [b B]; [apply H; cbn; tauto|].
  destruct (total_exists rows columns "fn_oy") as [c C]; [apply H; cbn; tauto|]. destruct (total_exists rows columns "fn_on") as [d D]; [apply H; cbn; tauto|].
  exists a, b, c, d. do 4 (constructor; [assumption|]). constructor.
Qed.
Lemma totals_fun columns rows a b c d a' b' c' d' : Totals columns rows a b c d -> Totals columns rows a' b' c' d' -> oeq a a' /\ oeq b b' /\ oeq c c' /\ oeq d d'.
Proof.
  intros T T'. inversion T as [|? ? ? ? U1 T1]; subst. inversion T1 as [|? ? ? ? U2 T2]; subst. inversion T2 as [|? ? ? ? U3 T3]; subst. inversion T3 as [|? ? ? ? U4 T4]; subst.
  inversion T' as [|? ? ? ? V1 S1]; subst. inversion S1 as [|? ? ? ? V2 S2]; subst. inversion S2 as [|? ? ? ? V3 S3]; subst. inversion S3 as [|? ? ? ? V4 S4]; subst.
  repeat split; eapply ColumnTotal_fun; eassumption.
Qed.
Lemma both_fun columns rows a b c d a' b' c' d' : Totals columns rows a b c d -> Totals columns rows a' b' c' d' -> Both a b c d -> Both a' b' c' d'.
Proof.
  intros T T' (a1 & b1 & c1 & d1 & (-> & -> & -> & ->) & B1 & B2). destruct (totals_fun _ _ _ _ _ _ _ _ _ _ T T') as (U1 & U2 & U3 & U4).
  destruct a' as [a'|]; [|destruct U1]. destruct b' as [b'|]; [|destruct U2]. destruct c' as [c'|]; [|destruct U3]. destruct d' as [d'|]; [|destruct U4].
  cbn in U1, U2, U3, U4. exists a', b', c', d'. split; [auto|]. rewrite <- U1, <- U2, <- U3, <- U4. auto.
Qed.
Lemma thresholds_some columns rows l l' : Thresholds columns rows l -> Thresholds columns rows l' -> l <> [] -> l' <> [].
Proof.
  intros (A & B) (A' & B') N. destruct (in_dec string_dec "thresh_i" columns) as [M|M].
  - destruct l as [|t l]; [contradiction|]. destruct (proj1 (proj2 (B M) t)) as (r & q & X); [exists t; split; [left; reflexivity|reflexivity]|].
    destruct (proj2 (proj2 (B' M) t)) as (x & Hx & _); [exists r, q; exact X|]. intros ->. destruct Hx.
  - rewrite (A' M). discriminate.
Qed.
Lemma selection_incl {A} (P : A -> Prop) l m : Selection P l m -> incl m l.
Proof. induction 1 as [|x l m Hx S IH|x l m Hx S IH]; intros y Hy; [destruct Hy|destruct Hy as [<-|Hy]; [left; reflexivity|right; apply IH, Hy]|right; apply IH, Hy]. Qed.

Section Single.
Variables (np : bool) (columns : list string) (data : tdata) (series : list (string * list string)) (step : Q) (steps : list Q).
Hypothesis HT : CountTable columns data.
Hypothesis HS : 0 < step.
Hypothesis HR : Ratios step steps.
Hypothesis HC : exists n, In n (map fst series) /\ In n columns.
Hypothesis HN : forall r c, In r data -> CellOf columns r "thresh_i" c -> exists q, c = CNum q.
Let rows p := crows columns data series p.
Let one p := eclv_one np "ctc" columns data series steps 0 ctc_names None p.
Lemma one_value p : Combination series p -> exists ths, eclv_thresholds columns (rows p) = Ok ths /\
  (((exists out, one p = Ok out) /\ (ths = [] \/ exists a b c d, Totals columns (rows p) a b c d /\ Both a b c d)) \/
   (one p = Err TypeError /\ ths <> [] /\ forall a b c d, Totals columns (rows p) a b c d -> ~ Both a b c d)).
Proof.
  intro C. pose proof (rows_incl columns data series p) as I. destruct (thresholds_ok columns (rows p)) as [ths ET].
  { intros r Hr. apply HT, I, Hr. } { intros r c Hr. apply HN, I, Hr. }
  exists ths. split; [exact ET|]. unfold one, eclv_one. 
  destruct (curve_data columns data series p) as (pd & Epd & Erows); [apply HT|apply curve_filters; assumption|]. rewrite Epd. cbn [bind]. rewrite Erows. fold (rows p). rewrite ET. cbn [bind].
  assert (rows p = [] \/ rows p <> []) as [RE|RE] by (destruct (rows p); [left; reflexivity|right; discriminate]).
  - rewrite RE. cbn [bind]. destruct ths as [|th ths]; [left; split; [eexists; reflexivity|left; reflexivity]|].
    right. split; [reflexivity|]. split; [discriminate|]. intros a b c d T (a1 & b1 & c1 & d1 & (-> & _) & _). inversion T as [|? ? ? ? U1 T1]; subst.
    destruct U1 as (_ & U). assert (In "fy_oy" columns) as M by (apply HT; cbn; tauto). destruct (in_index _ _ M) as [i Ei]. apply index_of_ColumnAt in Ei. destruct (U i Ei) as (X & _). discriminate (X eq_refl).
  - rewrite (match_nonempty _ _ _ RE). destruct (project_ok columns data (rows p) HT I) as [values EV]. rewrite EV. cbn [bind].
    assert ((exists a b c d, Totals columns (rows p) a b c d /\ Both a b c d /\ forall th, exists r, EclvDriveModel.eclv_result np "ctc" steps 0 ctc_names None values th = Ok r /\
       eclv_value r = curve (Some (EclvProofs.eclv_result (match a with Some q => q | None => 0 end) (match b with Some q => q | None => 0 end) (match c with Some q => q | None => 0 end) (match d with Some q => q | None => 0 end) steps false)) /\
       eclv_lower r = None /\ eclv_upper r = None) \/
      ((forall a b c d, Totals columns (rows p) a b c d -> ~ Both a b c d) /\ forall th, EclvDriveModel.eclv_result np "ctc" steps 0 ctc_names None values th = Ok (EclvResults None None None))) as [G|[NB G]].
    { destruct (curve_calc columns data (rows p) values np 0 steps step HT I HS HR EV) as [(a & b & c & d & T & G & X)|(X & NB)].
      - left. exists (Some a), (Some b), (Some c), (Some d). split; [exact T|]. split; [exists a, b, c, d; split; [auto|]; destruct G as (_ & _ & _ & _ & G); exact G|]. intro th.
        assert (calculate_eclv values ctc_names np (Some th) "ctc" steps 0 = calculate_eclv values ctc_names np (Some 0) "ctc" steps 0) as Y by reflexivity.
        unfold EclvDriveModel.eclv_result. rewrite Y, X. cbn [bind]. eexists. split; [reflexivity|]. cbn [eclv_value eclv_lower eclv_upper]. auto.
      - right. split; [exact NB|]. intro th.
        assert (calculate_eclv values ctc_names np (Some th) "ctc" steps 0 = calculate_eclv values ctc_names np (Some 0) "ctc" steps 0) as Y by reflexivity.
        unfold EclvDriveModel.eclv_result. rewrite Y, X. reflexivity. }
    + left. destruct G as (a & b & c & d & T & B & G). split; [|right; exists a, b, c, d; auto].
      destruct (mapM_total (EclvDriveModel.eclv_result np "ctc" steps 0 ctc_names None values) ths) as [rs ER]; [intros th _; destruct (G th) as (r & Er & _); exists r; exact Er|].
      rewrite ER. cbn [bind]. match goal with |- exists out, bind (mapM ?f _) _ = _ => set (F := f) end.
      destruct (mapM_total F (combine ths (map Ok rs))) as [bs EB]; [|rewrite EB; eexists; reflexivity].
      intros [th rr] Hr. apply mapM_iff in ER. clear - ER Hr G HR. induction ER as [|t r ths rs Et ER IH]; [destruct Hr|]. cbn [map combine In] in Hr. destruct Hr as [Hr|Hr]; [|apply IH, Hr].
      injection Hr as <- <-. destruct (G t) as (r' & Er & V & L & U). rewrite Et in Er. injection Er as <-. eexists. unfold F. cbn [fst snd bind].
      apply (step_some columns data series step steps HR p t r _ _ _ _ V); auto.
    + rewrite (mapM_map _ (fun _ => EclvResults None None None)) by (intros th _; apply G). cbn [bind]. destruct ths as [|th ths]; [left; split; [eexists; reflexivity|left; reflexivity]|].
      right. split; [reflexivity|]. split; [discriminate|exact NB].
Qed.
End Single.
Lemma mapM_kind {A B} (f : A -> res B) l : (forall x, In x l -> (exists y, f x = Ok y) \/ f x = Err TypeError) ->
  ((exists y, mapM f l = Ok y) /\ forall x, In x l -> exists y, f x = Ok y) \/ (mapM f l = Err TypeError /\ exists x, In x l /\ f x = Err TypeError).
Proof.
  induction l as [|x l IH]; intro H; [left; split; [eexists; reflexivity|intros ? []]|]. cbn [mapM].
  destruct (H x (or_introl eq_refl)) as [[y E]|E]; rewrite E; cbn [bind].
  - destruct IH as [[[ys Ey] IH]|[Ey (z & Hz & Ez)]]; [intros; apply H; right; assumption| |]; rewrite Ey; cbn [bind].
    + left. split; [eexists; reflexivity|]. intros z [<-|Hz]; [exists y; exact E|apply IH, Hz].
    + right. split; [reflexivity|]. exists z. split; [right; exact Hz|exact Ez].
  - right. split; [reflexivity|]. exists x. split; [left; reflexivity|exact E].
Qed.

(** The statements of PropertiesEclvDrive.v. *)
Lemma C61_rows_proof : forall np_float columns data series step add boot out,
  CountTable columns data -> data <> [] -> 0 < step ->
  aggregate_eclv np_float "ctc" columns data series step add boot = Ok out ->
  exists blocks, out = concat (concat blocks) /\
    Forall2 (fun p curves => exists rows thresholds,
        Selection (OfCurve columns series p) data rows /\ Thresholds columns rows thresholds /\
        Forall2 (CurveRows columns series step p rows) thresholds curves)
      (combinations (map snd series)) blocks.
Proof.
  intros np columns data series step add boot out CT N P H. destruct (eclv_inv _ _ _ _ _ _ _ _ CT N P H) as (steps & blocks & R & E & F). exists blocks. split; [exact E|].
  rewrite combinations_product in *.
  assert (Forall (Combination series) (product (map snd series))) as A by apply combos_in. clear E H. induction F as [|p curves ps blocks (ths & ET & G) F IH]; [constructor|].
  inversion A as [|? ? Cp A']; subst. constructor; [|apply IH; exact A']. exists (crows columns data series p), ths. split; [apply crows_selection; [apply CT|exact Cp]|]. split; [apply thresholds_sound; exact ET|].
  clear - G CT P R. induction G as [|th o ths curves ((a & b & c & d & T & G4 & ->) & _) G IH]; constructor; [|exact IH]. apply block_rows; assumption.
Qed.

Lemma C61_rows_case_proof :
  CountTable eclv_columns eclv_data /\
  exists out, aggregate_eclv false "ctc" eclv_columns eclv_data [("model", ["A"; "B"])] (1 # 4) None None = Ok out /\
    map (fun o => (eclv_point o, Qred (x_pnt_i o), option_map Qred (y_pnt_i o), eclv_nstats o)) out =
    map (fun x => ([("model", fst (fst (fst x)))], snd (fst (fst x)), Some (snd (fst x)), snd x))
      [(("A", 1 # 4), 7 # 11, 2%nat); (("A", 1 # 2), 1 # 2, 2%nat); (("A", 3 # 4), 0, 2%nat);
       (("B", 1 # 4), 1 # 4, 2%nat); (("B", 1 # 2), -(1 # 4), 2%nat); (("B", 3 # 4), -(7 # 4), 2%nat)].
Proof.
  split.
  - split; [intros r Hr; repeat (destruct Hr as [<-|Hr]; [reflexivity|]); destruct Hr|]. split; [cbn; tauto|].
    intros n Hn. split; [repeat (destruct Hn as [<-|Hn]; [cbn; tauto|]); destruct Hn|]. intros r c Hr C.
    apply get_sound in C. right.
    cbn in Hn, Hr; decompose [or False] Hn; decompose [or False] Hr; subst; try contradiction; vm_compute in C; injection C as <-; eexists; (split; [reflexivity|discriminate]).
  - eexists. split; vm_compute; reflexivity.
Qed.

Lemma C61_base_rate_refuted_proof : forall np_float line_type columns data series step add boot,
  aggregate_eclv np_float line_type columns data series step add boot = aggregate_eclv np_float line_type columns data series step None boot.
Proof.
  intros. unfold aggregate_eclv. rewrite !base_flag. reflexivity.
Qed.

Lemma C61_defined_proof : forall np_float columns data series step add,
  CountTable columns data -> data <> [] -> 0 < step -> (exists n, In n (map fst series) /\ In n columns) ->
  (forall r c, In r data -> CellOf columns r "thresh_i" c -> exists q, c = CNum q) ->
  exists result, aggregate_eclv np_float "ctc" columns data series step add None = result /\
  (result = Err TypeError \/ exists out, result = Ok out) /\
  ((exists out, result = Ok out) <->
   forall p rows thresholds th a b c d, Combination series p -> Selection (OfCurve columns series p) data rows ->
     Thresholds columns rows thresholds -> In th thresholds -> Totals columns rows a b c d -> Both a b c d).
Proof.
  intros np columns data series step add CT N P HC HN.
  unfold aggregate_eclv. destruct (arange_ok step P) as [steps ES]. rewrite ES. cbn [bind]. apply arange_ratios in ES; [|exact P].
  change (line_type_columns "ctc") with (Ok ctc_names). cbn [bind]. rewrite (match_nonempty _ _ _ N), base_flag.
  pose proof (fun p C => one_value np columns data series step steps CT P ES HC HN p C) as V.
  set (one := eclv_one np "ctc" columns data series steps 0 ctc_names None) in *.
  destruct (mapM_kind one (product (map snd series))) as [[[bs Eb] A]|[Eb (p & Hp & Ep)]].

  - intros p Hp. destruct (V p) as (ths & _ & [(O & _)|(O & _)]); [apply product_combination; exact Hp|left; exact O|right; exact O].
  - rewrite Eb. cbn [bind]. eexists. split; [reflexivity|]. split; [right; eexists; reflexivity|]. split; [|intros _; eexists; reflexivity]. intros _ p rws l th a b c d C S T Hth TT.
    rewrite (selection_unique _ _ _ _ _ S (crows_selection columns data series p (proj1 CT) C) (fun _ _ => iff_refl _)) in *.
    destruct (V p C) as (ths & ET & [(_ & [->|(a' & b' & c' & d' & T' & B')])|(E & _)]).
    + exfalso. apply thresholds_sound in ET. refine (thresholds_some _ _ _ _ T ET _ eq_refl). intros ->. destruct Hth.
    + eapply both_fun; eassumption.
    + destruct (A p) as [y Ey]; [apply product_combination; exact C|]. congruence.
  - rewrite Eb. cbn [bind]. eexists. split; [reflexivity|]. split; [left; reflexivity|]. split; [intros [out X]; discriminate X|]. intro H. exfalso.
    apply product_combination in Hp. destruct (V p Hp) as (ths & ET & [([out O] & _)|(_ & NE & NB)]); [congruence|].
    destruct ths as [|th ths]; [contradiction|]. destruct (totals_exist columns data (crows columns data series p) CT) as (a & b & c & d & T). apply (NB a b c d T).
    apply (H p (crows columns data series p) (th :: ths) th a b c d Hp); [apply crows_selection; [apply CT|exact Hp]|apply thresholds_sound, ET|left; reflexivity|exact T].
Qed.

Lemma C61_empty_curve_refuted_proof : forall np_float columns data series step add p,
  CountTable columns data -> data <> [] -> 0 < step -> (exists n, In n (map fst series) /\ In n columns) -> ~ In "thresh_i" columns ->
  Combination series p -> Selection (OfCurve columns series p) data [] ->
  aggregate_eclv np_float "ctc" columns data series step add None = Err TypeError.
Proof.
  intros np columns data series step add p CT N P HC NT C S.
  assert (forall r c, In r data -> CellOf columns r "thresh_i" c -> exists q, c = CNum q) as HN.
  { intros r c _ (i & (Hi & _) & _). exfalso. apply NT. eapply nth_error_In. exact Hi. }
  destruct (C61_defined_proof np columns data series step add CT N P HC HN) as (result & E & [->|[out ->]] & D); [exact E|]. exfalso.
  destruct (totals_exist columns data [] CT) as (a & b & c & d & T).
  destruct (proj1 D (ex_intro _ out eq_refl) p [] [0] 0 a b c d C S) as (a1 & b1 & c1 & d1 & (-> & _) & _); [split; [reflexivity|contradiction]|left; reflexivity|exact T|].
  inversion T as [|? ? ? ? U1 T1]; subst. destruct U1 as (_ & U). assert (In "fy_oy" columns) as M by (apply CT; cbn; tauto).
  destruct (in_index _ _ M) as [i Ei]. apply index_of_ColumnAt in Ei. destruct (U i Ei) as (X & _). discriminate (X eq_refl).
Qed.

Lemma C61_empty_curve_case_proof :
  Combination [("model", ["A"; "C"])] ["C"] /\ Selection (OfCurve eclv_columns [("model", ["A"; "C"])] ["C"]) eclv_data [] /\
  aggregate_eclv false "ctc" eclv_columns eclv_data [("model", ["A"; "C"])] (1 # 4) None None = Err TypeError.
Proof.
  split; [constructor; [cbn; tauto|constructor]|]. split; [|vm_compute; reflexivity].
  assert (Rectangular eclv_data eclv_columns) as R by (intros r Hr; repeat (destruct Hr as [<-|Hr]; [reflexivity|]); destruct Hr).
  exact (crows_selection eclv_columns eclv_data [("model", ["A"; "C"])] ["C"] R ltac:(constructor; [cbn; tauto|constructor])).
Qed.

Lemma group_cell : forall columns series p v n c r, Has ":" v ->
  OfCurve columns series p r -> In (n, v) (combine (map fst series) p) -> CellOf columns r n c -> c = CStr v.
Proof.
  intros columns series p v n c r HV O I C. unfold OfCurve in O. induction O as [|nv w series p H O IH]; [destruct I|]. cbn [map combine In] in I. destruct I as [[= E <-]|I]; [|apply IH, I].
  subst n. destruct (H c C) as [(z & q & W & _)|[(q & q' & D & _)|(_ & _ & E)]]; [| |exact E]; exfalso.
  - destruct (whole_char _ _ W _ HV) as [X|[X|[X|X]]]; try discriminate X. cbn in X. decompose [or] X; try discriminate; contradiction.
  - destruct (decimal_char _ _ D _ HV) as [X|[X|[X|X]]]; try discriminate X. cbn in X. decompose [or] X; try discriminate; contradiction.
Qed.

Lemma C61_groups_refuted_proof : forall np_float columns data series step add p n v,
  CountTable columns data -> data <> [] -> 0 < step -> In n columns -> ~ In "thresh_i" columns ->
  Combination series p -> In (n, v) (combine (map fst series) p) -> Has ":" v ->
  (forall r, In r data -> ~ CellOf columns r n (CStr v)) ->
  aggregate_eclv np_float "ctc" columns data series step add None = Err TypeError.
Proof.
  intros np columns data series step add p n v CT N P IC NT C I HV NC.
  apply (C61_empty_curve_refuted_proof np columns data series step add p CT N P); [exists n; split; [exact (in_combine_l _ _ _ _ I)|exact IC]|exact NT|exact C|].
  assert (K : forall r, In r data -> ~ OfCurve columns series p r).
  { intros r Ir O. destruct (in_index _ _ IC) as [i Ei]. apply index_of_ColumnAt in Ei. destruct CT as (Rec & _).
    destruct (nth_error r i) as [c|] eqn:E.
    - assert (CellOf columns r n c) as X by (exists i; split; assumption). pose proof (group_cell columns series p v n c r HV O I X) as ->. exact (NC r Ir X).
    - apply nth_error_None in E. rewrite (Rec r Ir) in E. destruct Ei as (Hi & _). assert (nth_error columns i <> None) as Y by congruence. apply nth_error_Some in Y. lia. }
  clear - K. induction data as [|r data IH]; [constructor|]. apply sel_drop; [apply K; left; reflexivity|]. apply IH. intros r' Ir. apply K. right. exact Ir.
Qed.

Lemma C61_groups_case_proof :
  (forall r, In r eclv_data -> ~ CellOf eclv_columns r "model" (CStr "A:B")) /\ In "model" eclv_columns /\ ~ In "thresh_i" eclv_columns /\
  aggregate_eclv false "ctc" eclv_columns eclv_data [("model", ["A:B"])] (1 # 4) None None = Err TypeError.
Proof.
  split; [|split; [|split]].
  - intros r I (i & _ & E). apply nth_error_In in E. cbn in I. decompose [or] I; try contradiction; subst r; cbn in E; decompose [or] E; try discriminate; contradiction.
  - cbn. tauto.
  - cbn. intro I. decompose [or] I; try discriminate; contradiction.
  - vm_compute. reflexivity.
Qed.

Lemma C61_probabilities_refuted_proof : forall columns data series step add boot p rest rows,
  Rectangular data columns -> 0 < step -> (forall n, In n ["thresh_i"; "oy_i"; "on_i"] -> In n columns) ->
  (exists n, In n (map fst series) /\ In n columns) ->
  (forall r c, In r data -> CellOf columns r "thresh_i" c -> exists q, c = CNum q) ->
  combinations (map snd series) = p :: rest -> Selection (OfCurve columns series p) data rows -> rows <> [] ->
  aggregate_eclv false "pct" columns data series step add boot = Err AttributeError.
Proof.
  intros columns data series step add boot p rest rws R P HM HC HN EP S NE.
  assert (Combination series p) as C. { apply product_combination. rewrite <- combinations_product, EP. left. reflexivity. }
  rewrite (selection_unique _ _ _ _ _ S (crows_selection columns data series p R C) (fun _ _ => iff_refl _)) in NE. pose proof (rows_incl columns data series p) as I.
  unfold aggregate_eclv. destruct (arange_ok step P) as [steps ES]. rewrite ES. cbn [bind]. change (line_type_columns "pct") with (Ok ["thresh_i"; "oy_i"; "on_i"]). cbn [bind].
  assert (data <> []) as N by (intros ->; apply NE; reflexivity). rewrite (match_nonempty _ _ _ N), base_flag. rewrite <- combinations_product, EP. cbn [mapM].
  assert (eclv_one false "pct" columns data series steps 0 ["thresh_i"; "oy_i"; "on_i"] boot p = Err AttributeError) as ->; [|reflexivity].
  unfold eclv_one. destruct (curve_data columns data series p) as (pd & Epd & Erows); [exact R|apply curve_filters; assumption|]. rewrite Epd. cbn [bind]. rewrite Erows.
  destruct (thresholds_ok columns (crows columns data series p)) as [ths ET]. { intros r Hr. apply R, I, Hr. } { intros r c Hr. apply HN, I, Hr. }
  rewrite ET. cbn [bind]. rewrite (match_nonempty _ _ _ NE).
  destruct (mapM_total (fun r => mapM (get columns r) ["thresh_i"; "oy_i"; "on_i"]) (crows columns data series p)) as [values EV].
  { intros r Hr. apply mapM_total. intros n Hn. destruct (cell_there columns n r (R r (I r Hr)) (HM n Hn)) as [c Hc]. exists c. apply get_sound. exact Hc. }
  rewrite EV. cbn [bind].
  assert (ths <> []) as NT.
  { apply thresholds_sound in ET. destruct ET as (_ & ET). destruct (ET (HM _ (or_introl eq_refl))) as (_ & E). destruct (crows columns data series p) as [|r rs] eqn:RE; [contradiction|].
    assert (In r data) as Hr by (apply I; left; reflexivity). destruct (cell_there columns "thresh_i" r (R r Hr) (HM _ (or_introl eq_refl))) as [c Hc]. destruct (HN r c Hr Hc) as [q ->].
    destruct (proj2 (E q)) as (x & Hx & _); [exists r, q; split; [left; reflexivity|]; split; [exact Hc|reflexivity]|]. intros ->. destruct Hx. }
  destruct ths as [|th ths]; [contradiction|]. cbn [mapM]. unfold EclvDriveModel.eclv_result at 1. rewrite eclv_pct_raises. reflexivity.
Qed.

Lemma C61_probabilities_case_proof :
  aggregate_eclv false "pct" ["model"; "thresh_i"; "oy_i"; "on_i"] [[CStr "A"; CNum (1 # 2); CNum 3; CNum 4]] [("model", ["A"])] (1 # 4) None None
  = Err AttributeError.
Proof.
  vm_compute. reflexivity.
Qed.

Lemma C61_limits_refuted_proof : forall np_float columns data series step add boot out,
  CountTable columns data -> data <> [] -> 0 < step ->
  aggregate_eclv np_float "ctc" columns data series step add boot = Ok out ->
  Forall (fun o => stat_btcl o = None /\ stat_btcu o = None) out /\
  (forall samples, boot = Some (samples, Pivotal) -> out = []).
Proof.
  intros np columns data series step add boot out CT N P H. destruct (eclv_inv _ _ _ _ _ _ _ _ CT N P H) as (steps & blocks & R & -> & F). split.
  - apply Forall_concat, Forall_concat. clear H. induction F as [|p curves ps blocks (ths & _ & G) F IH]; [constructor|]. constructor; [|exact IH].
    clear - G. induction G as [|th o ths curves ((a & b & c & d & _ & _ & ->) & _) G IH]; [constructor|]. constructor; [|exact IH]. apply Forall_forall. intros o Ho. apply in_map_iff in Ho. destruct Ho as (xy & <- & _). auto.
  - intros samples E. clear H. induction F as [|p curves ps blocks (ths & _ & G) F IH]; [reflexivity|]. cbn [concat]. rewrite concat_app, IH, app_nil_r.
    clear - G E. induction G as [|th o ths curves ((a & b & c & d & _ & _ & ->) & X) G IH]; [reflexivity|]. cbn [concat]. rewrite IH, app_nil_r. unfold block. rewrite (X samples E). reflexivity.
Qed.

Lemma C61_limits_case_proof :
  exists out, aggregate_eclv false "ctc" eclv_columns eclv_data [("model", ["A"; "B"])] (1 # 4) None
                (Some (fun d => [d; rev d; tl d; d], Perc)) = Ok out /\ length out = 6%nat.
Proof.
  eexists. split; vm_compute; reflexivity.
Qed.

Lemma C61_exceptions_proof :
  (forall np columns data series step add boot lt, ~ step == 0 -> lt <> "ctc" -> lt <> "pct" ->
     aggregate_eclv np lt columns data series step add boot = Err KeyError) /\
  (forall np columns data series step add boot lt, step == 0 ->
     aggregate_eclv np lt columns data series step add boot = Err ZeroDivisionError) /\
  (forall np columns data series step add boot lt, ~ step == 0 -> In lt ["ctc"; "pct"] -> data <> [] ->
     combinations (map snd series) <> [] -> (forall n, In n (map fst series) -> ~ In n columns) ->
     aggregate_eclv np lt columns data series step add boot = Err KeyError) /\
  (forall np columns series step add boot lt, ~ step == 0 -> In lt ["ctc"; "pct"] ->
     aggregate_eclv np lt columns [] series step add boot = Ok []).
Proof.
  assert (forall step, ~ step == 0 -> exists l, arange step = Ok l) as A.
  { intros step NZ. unfold arange. destruct (Qeq_bool step 0) eqn:E; [apply Qeq_bool_iff in E; contradiction|]. eexists. reflexivity. }
  assert (forall lt, In lt ["ctc"; "pct"] -> exists l, line_type_columns lt = Ok l) as B.
  { intros lt [<-|[<-|[]]]; eexists; reflexivity. }
  split; [|split; [|split]]; intros np columns.
  - intros data series step add boot lt NZ N1 N2. unfold aggregate_eclv. destruct (A step NZ) as [l ->]. cbn [bind]. unfold line_type_columns.
    apply String.eqb_neq in N1, N2. rewrite N1, N2. reflexivity.
  - intros data series step add boot lt Z. unfold aggregate_eclv, arange. apply Qeq_bool_iff in Z. rewrite Z. reflexivity.
  - intros data series step add boot lt NZ L N NC NM. unfold aggregate_eclv. destruct (A step NZ) as [l ->]. cbn [bind]. destruct (B lt L) as [ns ->]. cbn [bind]. rewrite (match_nonempty _ _ _ N).
    rewrite combinations_product in NC. destruct (product (map snd series)) as [|p ps] eqn:EP; [contradiction|]. cbn [mapM].
    assert (Combination series p) as C by (apply product_combination; rewrite EP; left; reflexivity).
    unfold eclv_one at 1. destruct (eclv_filters columns (map fst series) p) as [|f fs] eqn:EF; [reflexivity|]. exfalso.
    destruct (proj1 (curve_filters columns series p C)) as (n & Hn & M); [rewrite EF; discriminate|]. exact (NM n Hn M).
  - intros series step add boot lt NZ L. unfold aggregate_eclv. destruct (A step NZ) as [l ->]. cbn [bind]. destruct (B lt L) as [ns ->]. reflexivity.
Qed.

