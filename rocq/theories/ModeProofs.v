From Verif Require Import PyBase ColumnModel BaseSpec BaseProofs FilterProofs CtcProofs EventProofs ModeModel ModeSpec.
Open Scope string_scope.

(** One condition on the flags of an object. *)
Definition flag_ok (o : object) (kv : string * fvalue) : bool :=
  match kv with
  | (k, FInt z) =>
      let b := if String.eqb k "fcst_flag" then forecast o
               else if String.eqb k "simple_flag" then simple o else matched o in
      Z.eqb (if b then 1 else 0) z
  | _ => false
  end.
Definition flags_ok (conds : list (string * fvalue)) (o : object) : bool := forallb (flag_ok o) conds.

Definition flag_key (k : string) : Prop := k = "fcst_flag" \/ k = "simple_flag" \/ k = "matched_flag".
Definition flag_conds (conds : list (string * fvalue)) : Prop :=
  Forall (fun kv => flag_key (fst kv) /\ exists z, snd kv = FInt z) conds.

Lemma flag_bool columns name r b i z : FlagCell columns name r b -> index_of name columns = Some i ->
  row_matches i (FInt z) r = Z.eqb (if b then 1 else 0) z.
Proof.
  intros (j & p & Hj & Hp & Hq) Hi. apply index_of_ColumnAt in Hj. rewrite Hi in Hj. injection Hj as <-.
  unfold row_matches. rewrite Hp. simpl.
  rewrite (trunc_int p (if b then 1 else 0)); [reflexivity|]. rewrite Hq. destruct b; reflexivity.
Qed.

Definition DescribesFlags (columns : list string) (r : list cell) (o : object) : Prop :=
  FlagCell columns "fcst_flag" r (forecast o) /\ FlagCell columns "simple_flag" r (simple o) /\
  FlagCell columns "matched_flag" r (matched o).

Lemma flag_cell_index columns name r b : FlagCell columns name r b -> exists i, index_of name columns = Some i.
Proof. intros (i & p & Hi & _). exists i. now apply index_of_ColumnAt. Qed.

Lemma conds_flags columns r o conds : DescribesFlags columns r o -> flag_conds conds ->
  conds_bool columns conds r = flags_ok conds o.
Proof.
  intros (F & S & M) H. induction H as [|[k v] rest (K & z & V) _ IH]; [reflexivity|].
  simpl in K, V. subst v. unfold flags_ok in *. cbn [conds_bool forallb flag_ok]. rewrite IH.
  destruct K as [->|[->| ->]]; cbn [String.eqb Ascii.eqb Bool.eqb].
  - destruct (flag_cell_index _ _ _ _ F) as (i & Ei). rewrite Ei. now rewrite (flag_bool _ _ _ _ _ z F Ei).
  - destruct (flag_cell_index _ _ _ _ S) as (i & Ei). rewrite Ei. now rewrite (flag_bool _ _ _ _ _ z S Ei).
  - destruct (flag_cell_index _ _ _ _ M) as (i & Ei). rewrite Ei. now rewrite (flag_bool _ _ _ _ _ z M Ei).
Qed.

Lemma filter_forall2 {A B} (R : A -> B -> Prop) (p : A -> bool) (q : B -> bool) l l' :
  Forall2 R l l' -> (forall a b, In a l -> In b l' -> R a b -> p a = q b) -> Forall2 R (filter p l) (filter q l').
Proof.
  intro H. induction H as [|a b l l' HR _ IH]; intro E; simpl; [constructor|].
  rewrite (E a b) by (simpl; auto).
  assert (Forall2 R (filter p l) (filter q l')) by (apply IH; intros; apply E; simpl; auto).
  destruct (q b); [constructor|]; assumption.
Qed.

Lemma forall2_inl {A B} (R : A -> B -> Prop) l l' a : Forall2 R l l' -> In a l -> exists b, In b l' /\ R a b.
Proof.
  intro H. induction H as [|x y l l' HR _ IH]; intros []; [subst; exists y; simpl; auto|].
  destruct IH as (b & Hb & Hr); [assumption|]. exists b. simpl; auto.
Qed.

Lemma f2_impl {A B} (R R' : A -> B -> Prop) l l' : (forall a b, R a b -> R' a b) -> Forall2 R l l' -> Forall2 R' l l'.
Proof. intros H F. induction F; constructor; auto. Qed.

Lemma flag_table_typed data columns objs conds : FlagTable data columns objs -> flag_conds conds ->
  ConditionsTyped data columns conds /\ (forall k v, In (k, v) conds -> In k columns).
Proof.
  intros (HR & I1 & I2 & I3 & HF) HC. unfold flag_conds in HC. rewrite Forall_forall in HC. split.
  - intros k z Hk i r Hi Hr. destruct (HC _ Hk) as (K & _). simpl in K.
    destruct (forall2_inl _ _ _ _ HF Hr) as (o & _ & F & S & M).
    assert (X : exists b, FlagCell columns k r b) by (destruct K as [->|[->| ->]]; eauto).
    destruct X as (b & j & p & Hj & Hp & Hq).
    assert (i = j).
    { apply index_of_ColumnAt in Hi, Hj. rewrite Hi in Hj. now injection Hj. }
    subst j. exists p, (if b then 1 else 0)%Z. split; [exact Hp|]. rewrite Hq. destruct b; reflexivity.
  - intros k v Hk. destruct (HC _ Hk) as (K & _). simpl in K. destruct K as [->|[->| ->]]; assumption.
Qed.

Lemma flag_filter data columns objs conds : FlagTable data columns objs -> flag_conds conds ->
  column_data_by_name_value data columns conds = Ok (FRows (filter (conds_bool columns conds) data)) /\
  Forall2 (DescribesFlags columns) (filter (conds_bool columns conds) data) (filter (flags_ok conds) objs).
Proof.
  intros HT HC. destruct (flag_table_typed _ _ _ _ HT HC) as (T & I).
  split.
  - unfold column_data_by_name_value. rewrite filter_loop_spec; [reflexivity|apply HT|assumption|assumption].
  - destruct HT as (_ & _ & _ & _ & HF). apply filter_forall2; [exact HF|].
    intros r o _ _ D. now apply conds_flags.
Qed.

Lemma count_value data columns objs conds name : FlagTable data columns objs -> flag_conds conds ->
  (forall o, flags_ok conds o = in_class name o) ->
  nrow_any (FRows data) (NpArray columns) conds = Ok (number name objs).
Proof.
  intros HT HC HE. destruct (flag_filter _ _ _ _ HT HC) as (E & F).
  unfold nrow_any, filter_any. rewrite E. cbn [bind]. apply forall2_len in F.
  unfold number. do 4 f_equal. rewrite F. f_equal. now apply filter_ext.
Qed.

(** Published ratios. *)
Lemma pub_ratio a b : exists r, catch std_exns (pyround (Ok a [/] Ok b)) None = Ok r /\ Published (oratio a b) r.
Proof.
  destruct a as [x|], b as [y|]; cbn; try (exists None; now split).
  destruct (Qeq_bool y 0) eqn:E; cbn.
  - exists None. split; [reflexivity|]. apply Qeq_bool_iff in E. destruct (Qeq_dec y 0); [exact I|contradiction].
  - eexists; split; [reflexivity|]. destruct (Qeq_dec y 0) as [K|K].
    + apply Qeq_bool_iff in K. congruence.
    + apply rhu_nearest.
Qed.
Lemma pub_npratio a b : exists r, catch std_exns (pyround (Ok a [//] Ok b)) None = Ok r /\ Published (oratio a b) r.
Proof.
  destruct a as [x|], b as [y|]; cbn; try (exists None; now split).
  destruct (Qeq_bool y 0) eqn:E; cbn.
  - exists None. split; [reflexivity|]. apply Qeq_bool_iff in E. destruct (Qeq_dec y 0); [exact I|contradiction].
  - eexists; split; [reflexivity|]. destruct (Qeq_dec y 0) as [K|K].
    + apply Qeq_bool_iff in K. congruence.
    + apply rhu_nearest.
Qed.
Lemma pub_one a : exists r, catch std_exns (pyround (Ok a)) None = Ok r /\ Published a r.
Proof.
  destruct a as [x|]; cbn; [|exists None; now split].
  eexists; split; [reflexivity|]. apply rhu_nearest.
Qed.

Ltac flagc := repeat (constructor; [split; [unfold flag_key; simpl; tauto|eexists; reflexivity]|]); constructor.
Ltac cls := let o := fresh in intro o; destruct o as [[|] [|] [|] ? ?]; reflexivity.

Section Count.
Variables (data : list (list cell)) (columns : list string) (objs : list object).
Hypothesis HT : FlagTable data columns objs.

Lemma ratio_value c1 c2 n1 n2 : flag_conds c1 -> flag_conds c2 ->
  (forall o, flags_ok c1 o = in_class n1 o) -> (forall o, flags_ok c2 o = in_class n2 o) ->
  exists r, catch std_exns
      (nominator <- nrow_any (FRows data) (NpArray columns) c1 ;;
       denominator <- nrow_any (FRows data) (NpArray columns) c2 ;;
       pyround (Ok nominator [/] Ok denominator)) None = Ok r /\
    Published (oratio (number n1 objs) (number n2 objs)) r.
Proof.
  intros F1 F2 E1 E2. rewrite (count_value _ _ _ _ _ HT F1 E1), (count_value _ _ _ _ _ HT F2 E2).
  cbn [bind]. apply pub_ratio.
Qed.
End Count.

Ltac solve_ratio HT :=
  match goal with |- exists r, ?s _ _ = Ok r /\ _ => unfold s end;
  eapply (ratio_value _ _ _ HT); [flagc|flagc|cls|cls].

(* ---------- areas ---------- *)
Lemma published_compat a b r : oeq a b -> Published a r -> Published b r.
Proof.
  destruct a, b, r; simpl; try tauto. intros E. now apply nearest_compat.
Qed.
Lemma oeq_refl a : oeq a a. Proof. destruct a; simpl; [reflexivity|exact I]. Qed.
Lemma oratio_compat a a' b b' : oeq a a' -> oeq b b' -> oeq (oratio a b) (oratio a' b').
Proof.
  destruct a as [x|], a' as [x'|], b as [y|], b' as [y'|]; simpl; try tauto. intros E F.
  destruct (Qeq_dec y 0) as [K|K], (Qeq_dec y' 0) as [L|L]; simpl; try tauto.
  - rewrite F in K. contradiction.
  - rewrite F in K. contradiction.
  - now rewrite E, F.
Qed.
Lemma oadd_compat a a' b b' : oeq a a' -> oeq b b' -> oeq (oadd a b) (oadd a' b').
Proof. destruct a, a', b, b'; simpl; try tauto. intros E F. now rewrite E, F. Qed.
Lemma omul_compat a a' b b' : oeq a a' -> oeq b b' -> oeq (omul a b) (omul a' b').
Proof. destruct a, a', b, b'; simpl; try tauto. intros E F. now rewrite E, F. Qed.

Definition DescribesArea (columns : list string) (r : list cell) (o : object) : Prop :=
  exists i, ColumnAt columns "area" i /\
    nth_error r i = Some (match area o with Some a => CNum a | None => CMiss end).

Lemma areas_present columns data objs i : Forall2 (DescribesArea columns) data objs ->
  ColumnAt columns "area" i -> present_at i data = areas objs.
Proof.
  intros H Hi. induction H as [|r o data objs (j & Hj & E) _ IH]; [reflexivity|]. simpl.
  assert (i = j) by (apply index_of_ColumnAt in Hi, Hj; rewrite Hi in Hj; now injection Hj). subst j.
  rewrite E. destruct (area o); now rewrite IH.
Qed.

Definition area_sum (objs : list object) : option Q :=
  match areas objs with [] => None | l => Some (qsum l) end.

Lemma area_column_sum columns data objs : Rectangular data columns -> In "area" columns ->
  Forall2 (DescribesArea columns) data objs ->
  exists s, sum_column_data_by_name data columns "area" true = Ok s /\ oeq s (area_sum objs).
Proof.
  intros HR HI HF.
  assert (HN : NumericColumn data columns "area").
  { intros i r s Hi Hr. destruct (forall2_inl _ _ _ _ HF Hr) as (o & _ & j & Hj & E).
    assert (i = j) by (apply index_of_ColumnAt in Hi, Hj; rewrite Hi in Hj; now injection Hj). subst j.
    rewrite E. destruct (area o); discriminate. }
  destruct (sum_column_is_total data columns "area" HR HN) as (s & E & _ & T). exists s. split; [exact E|].
  destruct (index_of "area" columns) as [i|] eqn:Ei.
  2:{ apply index_of_None in Ei. contradiction. }
  apply index_of_ColumnAt in Ei. destruct (T i Ei) as (T0 & T1).
  rewrite (areas_present _ _ _ _ HF Ei) in T0, T1. unfold area_sum.
  destruct (areas objs) as [|a l].
  - rewrite (T0 eq_refl). exact I.
  - destruct T1 as (q & -> & Q1); [discriminate|]. exact Q1.
Qed.

Section Area.
Variables (data : list (list cell)) (columns : list string) (objs : list object).
Hypothesis HT : FlagTable data columns objs.
Hypothesis HA : AreaTable data columns objs.

Lemma area_value conds name : flag_conds conds -> (forall o, flags_ok conds o = in_class name o) ->
  exists d s, filter_any true (FRows data) (NpArray columns) conds = Ok d /\
    sum_any d (NpArray columns) "area" = Ok s /\ oeq s (total_area name objs).
Proof.
  intros HC HE. destruct (flag_filter _ _ _ _ HT HC) as (E & _).
  destruct HA as (HI & HF). destruct HT as (HR & _ & _ & _ & HD).
  set (data' := filter (conds_bool columns conds) data) in *.
  assert (R' : Rectangular data' columns) by (intros r Hr; apply filter_In in Hr; apply HR; tauto).
  assert (F' : Forall2 (DescribesArea columns) data' (filter (in_class name) objs)).
  { assert (Forall2 (fun r o => DescribesArea columns r o /\ DescribesFlags columns r o) data objs) as B.
    { clear -HD HF. revert HF. induction HD as [|r o d l D _ IH]; intro HF; [constructor|].
      inversion HF; subst. constructor; [split; assumption|]. now apply IH. }
    assert (Forall2 (fun r o => DescribesArea columns r o /\ DescribesFlags columns r o) data' (filter (in_class name) objs)) as B'.
    { apply filter_forall2; [exact B|]. intros r o _ _ (_ & D). rewrite <- HE. now apply conds_flags. }
    eapply f2_impl; [|exact B']. intros a b (X & _). exact X. }
  destruct (area_column_sum _ _ _ R' HI F') as (s & S1 & S2).
  exists (FRows data'), s. split; [exact E|]. split; [exact S1|exact S2].
Qed.

Lemma area_all : exists s, sum_any (FRows data) (NpArray columns) "area" = Ok s /\ oeq s (total_area "aaa" objs).
Proof.
  destruct HA as (HI & HF). destruct HT as (HR & _).
  destruct (area_column_sum _ _ _ HR HI HF) as (s & S1 & S2). exists s. split; [exact S1|].
  unfold total_area. replace (filter (in_class "aaa") objs) with objs; [exact S2|].
  clear. induction objs as [|o l IH]; [reflexivity|]. simpl. now rewrite <- IH.
Qed.

Lemma area_ratio_value c1 c2 n1 n2 : flag_conds c1 -> flag_conds c2 ->
  (forall o, flags_ok c1 o = in_class n1 o) -> (forall o, flags_ok c2 o = in_class n2 o) ->
  exists r, catch std_exns
      (nominator_data <- filter_any true (FRows data) (NpArray columns) c1 ;;
       denominator_data <- filter_any true (FRows data) (NpArray columns) c2 ;;
       nominator <- sum_any nominator_data (NpArray columns) "area" ;;
       denominator <- sum_any denominator_data (NpArray columns) "area" ;;
       pyround (Ok nominator [//] Ok denominator)) None = Ok r /\
    Published (oratio (total_area n1 objs) (total_area n2 objs)) r.
Proof.
  intros F1 F2 E1 E2.
  destruct (area_value c1 n1 F1 E1) as (d1 & s1 & -> & A1 & O1).
  destruct (area_value c2 n2 F2 E2) as (d2 & s2 & -> & A2 & O2).
  cbn [bind]. rewrite A1, A2. cbn [bind]. destruct (pub_npratio s1 s2) as (r & E & P).
  exists r. split; [exact E|]. eapply published_compat; [|exact P]. now apply oratio_compat.
Qed.

Lemma area_ratio_all c1 n1 : flag_conds c1 -> (forall o, flags_ok c1 o = in_class n1 o) ->
  exists r, catch std_exns
      (nominator_data <- filter_any true (FRows data) (NpArray columns) c1 ;;
       nominator <- sum_any nominator_data (NpArray columns) "area" ;;
       denominator <- sum_any (FRows data) (NpArray columns) "area" ;;
       pyround (Ok nominator [//] Ok denominator)) None = Ok r /\
    Published (oratio (total_area n1 objs) (total_area "aaa" objs)) r.
Proof.
  intros F1 E1.
  destruct (area_value c1 n1 F1 E1) as (d1 & s1 & -> & A1 & O1).
  destruct area_all as (s2 & A2 & O2).
  cbn [bind]. rewrite A1, A2. cbn [bind]. destruct (pub_npratio s1 s2) as (r & E & P).
  exists r. split; [exact E|]. eapply published_compat; [|exact P]. now apply oratio_compat.
Qed.

Lemma area_two c1 c2 c3 n1 n2 n3 : flag_conds c1 -> flag_conds c2 -> flag_conds c3 ->
  (forall o, flags_ok c1 o = in_class n1 o) -> (forall o, flags_ok c2 o = in_class n2 o) ->
  (forall o, flags_ok c3 o = in_class n3 o) ->
  exists r, catch std_exns
      (nominator_data <- filter_any true (FRows data) (NpArray columns) c1 ;;
       nominator <- sum_any nominator_data (NpArray columns) "area" ;;
       denominator_1_data <- filter_any true (FRows data) (NpArray columns) c2 ;;
       denominator_1 <- sum_any denominator_1_data (NpArray columns) "area" ;;
       denominator_2_data <- filter_any true (FRows data) (NpArray columns) c3 ;;
       denominator_2 <- sum_any denominator_2_data (NpArray columns) "area" ;;
       pyround (Ok nominator [//] (Ok denominator_1 [+] (pylit 2 [*] Ok denominator_2)))) None = Ok r /\
    Published (oratio (total_area n1 objs) (oadd (total_area n2 objs) (omul (Some 2) (total_area n3 objs)))) r.
Proof.
  intros F1 F2 F3 E1 E2 E3.
  destruct (area_value c1 n1 F1 E1) as (d1 & s1 & -> & A1 & O1).
  destruct (area_value c2 n2 F2 E2) as (d2 & s2 & -> & A2 & O2).
  destruct (area_value c3 n3 F3 E3) as (d3 & s3 & -> & A3 & O3).
  cbn [bind]. rewrite A1. cbn [bind]. rewrite A2. cbn [bind]. rewrite A3. cbn [bind].
  destruct s3 as [z|].
  2:{ exists None. split; [destruct s1, s2; reflexivity|].
      destruct (total_area n3 objs); [destruct O3|]. destruct (total_area n1 objs), (total_area n2 objs); exact I. }
  destruct s2 as [y|].
  2:{ exists None. split; [destruct s1; reflexivity|].
      destruct (total_area n2 objs); [destruct O2|]. destruct (total_area n1 objs); exact I. }
  destruct (pub_npratio s1 (Some (y + 2 * z))) as (r & E & P).
  exists r. split; [exact E|]. eapply published_compat; [|exact P]. apply oratio_compat; [exact O1|].
  apply (oadd_compat (Some y) _ (Some (2 * z))); [exact O2|].
  apply (omul_compat (Some 2) _ (Some z)); [apply oeq_refl|exact O3].
Qed.

Lemma area_half c1 n1 : flag_conds c1 -> (forall o, flags_ok c1 o = in_class n1 o) ->
  exists r, catch std_exns
      (nominator_data <- filter_any true (FRows data) (NpArray columns) c1 ;;
       nominator <- sum_any nominator_data (NpArray columns) "area" ;;
       pyround (Ok nominator [//] pylit 2)) None = Ok r /\
    Published (oratio (total_area n1 objs) (Some 2)) r.
Proof.
  intros F1 E1. destruct (area_value c1 n1 F1 E1) as (d1 & s1 & -> & A1 & O1). cbn [bind]. rewrite A1. cbn [bind].
  destruct (pub_npratio s1 (Some 2)) as (r & E & P).
  exists r. split; [exact E|]. eapply published_compat; [|exact P]. apply oratio_compat; [exact O1|apply oeq_refl].
Qed.
Lemma area_one c1 n1 : flag_conds c1 -> (forall o, flags_ok c1 o = in_class n1 o) ->
  exists r, catch std_exns
      (nominator_data <- filter_any true (FRows data) (NpArray columns) c1 ;;
       nominator <- sum_any nominator_data (NpArray columns) "area" ;;
       pyround (Ok nominator)) None = Ok r /\
    Published (total_area n1 objs) r.
Proof.
  intros F1 E1. destruct (area_value c1 n1 F1 E1) as (d1 & s1 & -> & A1 & O1). cbn [bind]. rewrite A1. cbn [bind].
  destruct (pub_one s1) as (r & E & P).
  exists r. split; [exact E|]. eapply published_compat; [|exact P]. exact O1.
Qed.
End Area.

Ltac solve_area HT HA :=
  match goal with |- exists r, ?s _ _ = Ok r /\ _ => unfold s end;
  first [ eapply (area_ratio_value _ _ _ HT HA); [flagc|flagc|cls|cls]
        | eapply (area_ratio_all _ _ _ HT HA); [flagc|cls]
        | eapply (area_two _ _ _ HT HA); [flagc|flagc|flagc|cls|cls|cls]
        | eapply (area_half _ _ _ HT HA); [flagc|cls]
        | eapply (area_one _ _ _ HT HA); [flagc|cls] ].
