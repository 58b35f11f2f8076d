(** Proofs about scorecards. *)
From Coq Require Import Ascii Permutation Sorted Qabs Reals Qreals.
From Verif Require Import PyBase ColumnModel BaseSpec BaseProofs EventModel EventSpec EventProofs UtilModel UtilSpec UtilProofs.
From Verif Require Import RocProofs EqzProofs BootModel RealBase ScoreModel DriveModel DriveSpec DriveProofs CurveProofs CardModel CardSpec.
From Verif Require RocModel SumModel AggModel SeriesModel ScoreProofs AggSpec SeriesSpec SeriesProofs.
From Coq Require Import List Lia.
Open Scope string_scope.

(* ---------- fields and plain points ---------- *)
Lemma card_fields_value rq fields : CardFields rq fields -> card_fields_values rq = fields.
Proof.
  intros (ND & [(I & ->)|(I & ->)]); unfold card_fields_values.
  - destruct (indy_vals rq) as [|v vs] eqn:E; [contradiction|]. rewrite map_app in ND. cbn [map fst] in ND.
    rewrite (dict_set_new "stat_name").
    + rewrite dict_set_new; [rewrite <- app_assoc; reflexivity|]. rewrite map_app. cbn [map fst].
      change ["stat_name"; indy_var rq] with (["stat_name"] ++ [indy_var rq])%list in ND. rewrite app_assoc in ND. apply NoDup_remove_2 in ND. rewrite app_nil_r in ND. exact ND.
    + intro H. apply NoDup_remove_2 in ND. apply ND. apply in_or_app. left. exact H.
  - rewrite I. rewrite map_app in ND. cbn [map fst] in ND. apply dict_set_new. intro H. apply NoDup_remove_2 in ND. rewrite app_nil_r in ND. contradiction.
Qed.
Lemma drive_fields_of rq fields : CardFields rq fields -> exists df, Fields rq df /\ forall nv, In nv df <-> In nv fields.
Proof.
  intros (ND & [(I & ->)|(I & ->)]).
  - exists (series_val rq ++ [(indy_var rq, indy_vals rq); ("stat_name", list_stat rq)])%list. split.
    + split; [|left; auto]. eapply Permutation_NoDup; [|exact ND]. apply Permutation_map, Permutation_app_head. apply perm_swap.
    + intro nv. rewrite !in_app_iff. cbn [In]. tauto.
  - exists (series_val rq ++ [("stat_name", list_stat rq)])%list. split; [split; [exact ND|right; auto]|reflexivity].
Qed.
Lemma plain_same rq fields df : (forall nv, In nv df <-> In nv fields) -> Plain rq fields -> Plain rq df.
Proof.
  intros E (A & B & D). split; [|split]; [|exact B|].
  - intros n vals v H J. apply (A n vals v); [apply E; exact H|exact J].
  - intros vals v H J. apply (D vals v); [apply E; exact H|exact J].
Qed.

Lemma find_pair_first {A} perm1 perm2 (r : A) x : forall dist d1 d2, find_pair dist perm1 perm2 d1 d2 = (Some r, x) ->
  d1 = Some r \/ exists k, In (k, r) dist /\ forallb (fun c => mem c perm1) k = true.
Proof.
  induction dist as [|[k y] dist IH]; intros d1 d2 H; cbn [find_pair] in H; [injection H as -> _; left; reflexivity|].
  destruct (forallb (fun c => mem c perm1) k) eqn:M; destruct (forallb (fun c => mem c perm2) k), d1 as [z1|], d2 as [z2|];
    try (inversion H; subst; solve [left; reflexivity | right; exists k; split; [left; reflexivity|exact M]]);
    apply IH in H; (destruct H as [H|(k' & I & M')]; [|right; exists k'; split; [right; exact I|exact M']]); auto;
    injection H as ->; right; exists k; (split; [left; reflexivity|exact M]).
Qed.
Lemma find_pair_second {A} perm1 perm2 (r : A) x : forall dist d1 d2, find_pair dist perm1 perm2 d1 d2 = (x, Some r) ->
  d2 = Some r \/ exists k, In (k, r) dist /\ forallb (fun c => mem c perm2) k = true.
Proof.
  induction dist as [|[k y] dist IH]; intros d1 d2 H; cbn [find_pair] in H; [injection H as _ ->; left; reflexivity|].
  destruct (forallb (fun c => mem c perm1) k); destruct (forallb (fun c => mem c perm2) k) eqn:M, d1 as [z1|], d2 as [z2|];
    try (inversion H; subst; solve [left; reflexivity | right; exists k; split; [left; reflexivity|exact M]]);
    apply IH in H; (destruct H as [H|(k' & I & M')]; [|right; exists k'; split; [right; exact I|exact M']]); auto;
    injection H as ->; right; exists k; (split; [left; reflexivity|exact M]).
Qed.
Section Points.
Variables (cdf : Z -> R -> R) (emc : bool) (ndays : Z) (columns : list string) (data : tdata) (rq : request) (fields : list (string * list string)).
Hypothesis HR : Rectangular data columns.
Hypothesis HF : CardFields rq fields.
Hypothesis HP : Plain rq fields.
Definition crows (p : list string) : tdata := filter (ftests columns (map fst fields) p []) data.
Lemma crows_selection p : Combination fields p -> Selection (OfPoint columns fields [] p) data (crows p).
Proof.
  intro C. apply EventProofs.selection_filter. intros r Hr. apply ftests_iff; [apply HR; exact Hr|].
  destruct HP as (M & _). clear - C M. induction C as [|[n vals] v fields p H C IH]; constructor.
  - apply (M n vals v); [left; reflexivity|exact H].
  - apply IH. intros n' vals' v' I J. apply (M n' vals' v'); [right; exact I|exact J].
Qed.
Lemma card_point_inv p rows : card_point columns data rq p = Ok rows -> rows = crows p.
Proof.
  unfold card_point. destruct (forallb _ _); [|discriminate]. cbn [bind]. rewrite (card_fields_value _ _ HF).
  destruct (point_filters columns (map fst fields) p []) as [|f fs] eqn:E.
  - cbn [point_data bind]. discriminate.
  - rewrite <- E. rewrite point_data_value; [|exact HR|rewrite E; discriminate]. cbn [bind]. intros [= <-]. apply map_snd_filter.
Qed.
Lemma card_not_derived p : Combination fields p -> is_derived_point (Some p) = false.
Proof.
  intro C. apply Bool.not_true_is_false. intro H. apply derived_point_iff in H. destruct H as (c & Hc & D).
  destruct HP as (M & _). revert Hc. clear - C M D. induction C as [|[n vals] v fields p H C IH]; intros []; subst.
  - destruct (M n vals c (or_introl eq_refl) H) as (_ & X). contradiction.
  - apply IH; [|assumption]. intros n' vals' v' I J. apply (M n' vals' v'); [right; exact I|exact J].
Qed.
Lemma loop_points known rest : forall points dist output, Forall (fun p => Combination fields p) points ->
  card_loop cdf emc ndays columns data rq known (points ++ rest) dist = Ok output ->
  card_loop cdf emc ndays columns data rq known rest (fold_left (fun d pr => dist_set (fst pr) (snd pr) d) (combine points (map crows points)) dist) = Ok output.
Proof.
  induction points as [|p points IH]; intros dist output F H; [exact H|]. inversion F as [|? ? C F']; subst.
  cbn [app card_loop] in H. rewrite (card_not_derived p C) in H.
  destruct (card_point columns data rq p) as [rows|] eqn:E; [|discriminate H]. cbn [bind] in H. apply card_point_inv in E. subst rows. cbn [map combine fold_left fst snd].
  apply IH; assumption.
Qed.
Lemma loop_curves known : forall dps dist output, Forall (fun dp => is_derived_point (Some dp) = true) dps ->
  card_loop cdf emc ndays columns data rq known dps dist = Ok output ->
  exists outs, output = concat outs /\ Forall2 (fun dp o => exists r, card_derived cdf emc ndays columns rq known dp dist = Ok r /\ o = match r with Some x => [x] | None => [] end) dps outs.
Proof.
  induction dps as [|dp dps IH]; intros dist output F H; cbn [card_loop] in H.
  - injection H as <-. exists []. split; [reflexivity|constructor].
  - inversion F as [|? ? D F']; subst. rewrite D in H. destruct (card_derived cdf emc ndays columns rq known dp dist) as [r|] eqn:E; [|discriminate H]. cbn [bind] in H.
    destruct (card_loop cdf emc ndays columns data rq known dps dist) as [out|] eqn:L; [|discriminate H]. cbn [bind] in H.
    destruct (IH _ _ F' L) as (outs & -> & G). exists (match r with Some x => [x] | None => [] end :: outs). split.
    + destruct r; injection H as <-; reflexivity.
    + constructor; [exists r; auto|exact G].
Qed.
Lemma card_rows_intro (Claim : string -> list string -> string -> tdata -> tdata -> list card_row -> Prop) output :
  DerivedRequest rq -> calculate_scorecard cdf emc ndays columns data rq = Ok output ->
  (forall op w1 w2 name rows1 rows2 r, In op operations -> incl rows1 data -> incl rows2 data -> card_pair cdf emc ndays columns rq (DerivedComponent w1 w2 op) name rows1 rows2 = Ok r ->
     Claim op w1 name rows1 rows2 (match r with Some x => [x] | None => [] end)) ->
  CardRows columns data rq fields Claim output.
Proof.
  intros (ND & HD & HU) H HC. unfold calculate_scorecard in H. destruct data as [|r0 data0] eqn:Ed; [discriminate H|]. rewrite <- Ed in *. clear Ed.
  destruct (drive_fields_of _ _ HF) as (df & HF' & SF). pose proof (plain_same _ _ _ SF HP) as HP'.
  assert (exists xs, Forall2 (fun d x => derived_points_of (series_val rq) (indy_var rq) (indy_vals rq) d = Ok x /\
     exists op w1 w2 name var lists, DerivedSeries rq d op w1 w2 name var /\ DerivedFields rq w1 w2 name var lists /\ x = (name, DerivedComponent w1 w2 op, product lists)) (derived_series rq) xs) as (xs & FX).
  { clear - HD HF'. induction (derived_series rq) as [|d ds IH]; [exists []; constructor|].
    destruct IH as (xs & F); [intros d' I; apply HD; right; exact I|].
    destruct (HD d (or_introl eq_refl)) as (op & w1 & w2 & name & var & DS). destruct (derived_points_value _ _ _ _ _ _ _ _ HF' DS) as (lists & DF & E).
    exists ((name, DerivedComponent w1 w2 op, product lists) :: xs). constructor; [|exact F]. split; [exact E|]. exists op, w1, w2, name, var, lists. auto. }
  assert (get_derived_points (series_val rq) (indy_var rq) (indy_vals rq) (derived_series rq) [] = Ok (fold_left remember xs [], concat (map snd xs))) as G.
  { apply get_derived_value. clear - FX. induction FX as [|d x l m [E _] F IH]; constructor; assumption. }
  rewrite (card_fields_value _ _ HF) in H.
  assert ((match derived_series rq with [] => Ok ([], []) | ds => get_derived_points (series_val rq) (indy_var rq) (indy_vals rq) ds [] end)
    = get_derived_points (series_val rq) (indy_var rq) (indy_vals rq) (derived_series rq) []) as MN by (destruct (derived_series rq); [contradiction|reflexivity]).
  rewrite MN in H. rewrite G in H. cbn [bind fst snd] in H. apply loop_points in H; [|apply combos_in].
  set (pts := product (map snd fields)) in *.
  assert (Forall (fun dp => is_derived_point (Some dp) = true) (concat (map snd xs))) as Der.
  { apply Forall_forall. intros dp Hdp. apply in_concat in Hdp. destruct Hdp as (l & Hl & Hdp). apply in_map_iff in Hl. destruct Hl as (x & <- & Hx).
    destruct (DriveProofs.forall2_in_r _ _ _ _ FX Hx) as (d & Hd & _ & op & w1 & w2 & name & var & lists & DS & DF & ->). cbn [snd] in Hdp.
    destruct (derived_fields_name _ _ _ _ _ _ _ _ _ _ HF' HP' DS DF Hdp) as (I & _). apply derived_point_iff. exists name. split; [exact I|].
    destruct DS as (a & b & _ & Hop & _ & _ & CN & _). eapply curve_name_derived; eassumption. }
  apply loop_curves in H; [|exact Der]. destruct H as (outs & -> & FO).
  set (dist := fold_left (fun d pr => dist_set (fst pr) (snd pr) d) (combine pts (map crows pts)) []) in *.
  assert (forall k x, In (k, x) dist <-> In k pts /\ x = crows k) as HDist.
  { intros k x. unfold dist. rewrite (dist_entries (fun p => Ok (crows p))).
    - cbn [In]. split; [intros [[]|(A & [= <-])]; auto|intros (A & ->); auto].
    - clear. induction pts; constructor; auto.
    - intros ? ? []. }
  assert (forall y x, In x xs -> In y xs -> fst (fst y) = fst (fst x) -> snd (fst y) = snd (fst x)) as U.
  { intros y x Hx Hy E. destruct (DriveProofs.forall2_in_r _ _ _ _ FX Hx) as (d & Hd & E1 & op & w1 & w2 & name & var & lists & DS & DF & ->).
    destruct (DriveProofs.forall2_in_r _ _ _ _ FX Hy) as (d' & Hd' & E2 & op' & w1' & w2' & name' & var' & lists' & DS' & DF' & ->). cbn [fst snd] in *. subst name'.
    rewrite (HU d d' _ _ _ _ _ _ _ _ _ Hd Hd' DS DS') in E1. rewrite E1 in E2. injection E2 as -> -> -> _. reflexivity. }
  set (known := fold_left remember xs []) in *.
  assert (forall sub seg, incl sub xs -> Forall2 (fun dp o => exists r, card_derived cdf emc ndays columns rq known dp dist = Ok r /\ o = match r with Some x => [x] | None => [] end) (concat (map snd sub)) seg ->
    forall ds, Forall2 (fun d x => derived_points_of (series_val rq) (indy_var rq) (indy_vals rq) d = Ok x /\
     exists op w1 w2 name var lists, DerivedSeries rq d op w1 w2 name var /\ DerivedFields rq w1 w2 name var lists /\ x = (name, DerivedComponent w1 w2 op, product lists)) ds sub ->
    exists blocks, seg = concat blocks /\ Forall2 (fun d outs => exists op w1 w2 name var lists,
      DerivedSeries rq d op w1 w2 name var /\ DerivedFields rq w1 w2 name var lists /\
      Forall2 (fun dp o => (length o <= 1)%nat /\
            (forall w, w = w1 \/ w = w2 -> exists p, Combination fields p /\ Forall (Named [] w dp) p) /\
            forall p1 p2 rows1 rows2, OnlyPoint fields (Named [] w1 dp) p1 -> OnlyPoint fields (Named [] w2 dp) p2 ->
              Selection (OfPoint columns fields [] p1) data rows1 -> Selection (OfPoint columns fields [] p2) data rows2 ->
              Claim op w1 name rows1 rows2 o)
          (combinations lists) outs) ds blocks) as K.
  { intros sub seg I F ds FD. revert seg I F. induction FD as [|d x ds sub (_ & op & w1 & w2 & name & var & lists & DS & DF & Ex) FD IH]; intros seg I F.
    - cbn in F. inversion F; subst. exists []. split; [reflexivity|constructor].
    - cbn [map concat] in F. apply Forall2_app_inv_l in F. destruct F as (s1 & s2 & F1 & F2 & ->).
      destruct (IH s2 (fun y Hy => I y (or_intror Hy)) F2) as (blocks & -> & FB). exists (s1 :: blocks). split; [reflexivity|]. constructor; [|exact FB].
      exists op, w1, w2, name, var, lists. split; [exact DS|]. split; [exact DF|]. rewrite combinations_product.
      assert (UtilModel.lookup name known = Ok (DerivedComponent w1 w2 op)) as LK.
      { assert (In x xs) as Hx by (apply I; left; reflexivity). pose proof (lookup_remember xs [] x (or_introl Hx) (fun y Hy => U y x Hx Hy)) as L. rewrite Ex in L. exact L. }
      rewrite Ex in F1. cbn [snd] in F1.
      assert (forall dp, In dp (product lists) -> derived_name dp = name) as NM.
      { intros dp Hdp. destruct (derived_fields_name _ _ _ _ _ _ _ _ _ _ HF' HP' DS DF Hdp) as (In1 & U1 & _). apply derived_name_value; [exact In1| |exact U1].
        destruct DS as (a & b & _ & Hop & _ & _ & CN & _). eapply curve_name_derived; eassumption. }
      assert (In op operations) as HOp by (destruct DS as (a & b & _ & Hop & _); exact Hop).
      clear - F1 NM LK HDist HC HOp HR HP. revert NM. induction F1 as [|dp o dps outs (r & E & ->) F1 IH]; intro NM; constructor.
      + split; [destruct r; cbn; lia|]. split.
        { unfold card_derived in E. rewrite (NM dp (or_introl eq_refl)), LK in E. cbn [bind first_component second_component] in E.
          destruct (find_pair dist _ _ None None) as [[r1|] [r2|]] eqn:FP; try discriminate E. intros w [->| ->].
          - apply find_pair_first in FP. destruct FP as [FP|(k & Hk & M)]; [discriminate FP|]. apply HDist in Hk. exists k. split; [apply product_combination; apply Hk|apply all_named in M; [exact M|constructor]].
          - apply find_pair_second in FP. destruct FP as [FP|(k & Hk & M)]; [discriminate FP|]. apply HDist in Hk. exists k. split; [apply product_combination; apply Hk|apply all_named in M; [exact M|constructor]]. }
        intros p1 p2 rows1 rows2 O1 O2 S1 S2.
        assert (rows1 = crows p1) as -> by (eapply selection_unique; [exact S1|apply crows_selection; apply O1|reflexivity]).
        assert (rows2 = crows p2) as -> by (eapply selection_unique; [exact S2|apply crows_selection; apply O2|reflexivity]).
        unfold card_derived in E. rewrite (NM dp (or_introl eq_refl)), LK in E. cbn [bind first_component second_component] in E.
        assert (forall p, In p pts <-> Combination fields p) as PC by (intro p; apply product_combination).
        assert (forall p, In p pts -> incl (crows p) data) as IC by (intros p _ y Hy; apply filter_In in Hy; apply Hy).
        assert (forall w p, OnlyPoint fields (Named [] w dp) p -> (forall k x, In (k, x) dist -> forallb (fun c => mem c (permuted [] w dp)) k = true -> x = crows p) /\
          exists k, In (k, crows p) dist /\ forallb (fun c => mem c (permuted [] w dp)) k = true) as OP.
        { intros w p (C & FN & UN). split.
          - intros k x Hk Fk. apply HDist in Hk. destruct Hk as (Hk & ->). apply all_named in Fk; [|constructor]. rewrite (UN k); [reflexivity|apply PC; exact Hk|exact Fk].
          - exists p. split; [apply HDist; split; [apply PC; exact C|reflexivity]|]. apply all_named; [constructor|exact FN]. }
        destruct (OP w1 p1 O1) as (A1 & B1). destruct (OP w2 p2 O2) as (A2 & B2).
        rewrite (find_pair_value _ _ (crows p1) (crows p2)) in E; [|exact A1|exact A2|left; auto|left; auto|left; reflexivity].
        apply (HC op w1 w2 name); [exact HOp|apply IC; apply PC; apply O1|apply IC; apply PC; apply O2|exact E].
      + apply IH. intros dp' Hdp. apply NM. right. exact Hdp. }
  destruct (K xs outs (incl_refl _) FO _ FX) as (blocks & -> & FB). exists blocks. split; [reflexivity|exact FB].
Qed.
End Points.

(* ---------- one pair of series ---------- *)
Lemma values_of_cells columns rows cells vals : mapM (fun r => get columns r "stat_value") rows = Ok cells -> numbers cells = Ok vals -> ValuesOf columns rows vals.
Proof.
  intros M N. apply mapM_iff in M. unfold numbers in N. apply mapM_iff in N. cbv beta in M, N. revert vals N.
  induction M as [|r c rows cells E M IH]; intros vals N; inversion N as [|? v ? vs E2 N']; subst; constructor; [|apply IH; exact N'].
  apply get_sound in E. destruct c; try discriminate E2; injection E2 as <-.
  all: first [left; eexists; split; [reflexivity|exact E] | right; split; [reflexivity|exact E]].
Qed.
Lemma mean_value l m : SeriesModel.st_mean l = Ok m -> m == mean l.
Proof.
  destruct l as [|x t]; [discriminate|]. intros [= <-]. unfold mean, AggSpec.mean_of. rewrite SeriesProofs.pysum_total. reflexivity.
Qed.
Lemma some_missing v : all_present v = None -> In None v.
Proof.
  intro E. destruct (in_dec (fun a b : option Q => ltac:(decide equality; decide equality; [apply Pos.eq_dec|apply Z.eq_dec])) None v) as [H|H]; [exact H|].
  destruct (all_present_some v H) as (r & ->). rewrite all_present_map in E. discriminate E.
Qed.
Lemma card_stat_sound cdf emc ndays stats op v1 v2 o : In op operations -> card_stat cdf emc ndays stats op v1 v2 = Ok o -> CardValue cdf emc ndays stats op v1 v2 o.
Proof.
  intros HO H. unfold card_stat in H. destruct (String.eqb_spec op "DIFF_SIG") as [->|N1].
  { destruct stats as [|stat rest]; [discriminate H|]. destruct emc.
    - destruct (calculate_diff_sig_emc ndays stat v1 v2) as [[q|]|] eqn:E; [| |discriminate H]; injection H as <-.
      + eapply card_emc; eauto.
      + eapply card_emc_none; eauto.
    - destruct (all_present v1) as [a|] eqn:E1; [|discriminate H]. destruct (all_present v2) as [b|] eqn:E2; [|discriminate H].
      apply all_present_iff in E1, E2. subst. eapply card_ncar; eauto. }
  destruct (String.eqb_spec op "DIFF") as [->|N2].
  { destruct (Nat.eqb_spec (length v1) (length v2)) as [L|L]; [|discriminate H].
    destruct (all_present v1) as [a|] eqn:E1; [destruct (all_present v2) as [b|] eqn:E2|].
    - apply all_present_iff in E1, E2. subst. rewrite !map_length in L.
      destruct (SeriesModel.st_mean (zip_with Qminus a b)) as [m|] eqn:E; [|discriminate H]. injection H as <-.
      apply card_difference; [reflexivity|exact L|]. apply mean_value in E. rewrite ScoreProofs.zip_minus in E. exact E.
    - injection H as <-. apply card_difference_missing; [reflexivity|exact L|right; apply some_missing; exact E2].
    - injection H as <-. apply card_difference_missing; [reflexivity|exact L|left; apply some_missing; exact E1]. }
  destruct (String.eqb_spec op "SINGLE") as [->|N3].
  { destruct (all_present v1) as [a|] eqn:E1.
    - apply all_present_iff in E1. subst. destruct (SeriesModel.st_mean a) as [m|] eqn:E; [|discriminate H]. injection H as <-. apply card_single; [reflexivity|apply mean_value; exact E].
    - injection H as <-. apply card_single_missing; [reflexivity|apply some_missing; exact E1]. }
  injection H as <-. apply card_other. cbn [operations In] in *. intuition congruence.
Qed.
Lemma cell_of_pair columns (r : row) n c : NoDup columns -> In (n, c) (combine columns r) -> CellOf columns r n c.
Proof.
  intros ND H. apply In_nth_error in H. destruct H as (i & H).
  assert (nth_error columns i = Some n /\ nth_error r i = Some c) as (A & B).
  { clear ND. revert r i H. induction columns as [|x columns IH]; intros [|y r] [|i] H; try discriminate H; cbn in *; [injection H as <- <-; auto|auto]. }
  exists i. split; [|exact B]. split; [exact A|]. intros j L E.
  assert (j = i) by (eapply NoDup_nth_error; [exact ND|apply nth_error_Some; rewrite E; discriminate|congruence]). lia.
Qed.
Lemma lookup_entry {A} k (l : list (string * A)) v : UtilModel.lookup k l = Ok v -> In (k, v) l.
Proof.
  induction l as [|[k' v'] l IH]; intro H; [discriminate H|]. cbn in H. destruct (String.eqb_spec k' k) as [->|N]; [injection H as ->; left; reflexivity|right; auto].
Qed.
Lemma find_last_lead words leads :
  match find (fun l => mem l words) (rev leads) with
  | Some l => exists before after, leads = (before ++ l :: after)%list /\ In l words /\ Forall (fun k => ~ In k words) after
  | None => Forall (fun k => ~ In k words) leads
  end.
Proof.
  induction leads as [|x leads IH] using rev_ind; [constructor|]. rewrite rev_app_distr. cbn [rev app find].
  destruct (mem x words) eqn:E.
  - apply mem_iff in E. exists leads, []. repeat split; auto.
  - assert (~ In x words) as N by (intro I; apply mem_iff in I; congruence).
    destruct (find _ (rev leads)) as [l|].
    + destruct IH as (b & a & -> & I & F). exists b, (a ++ [x])%list. split; [rewrite <- app_assoc; reflexivity|]. split; [exact I|]. apply Forall_app. split; [exact F|constructor; auto].
    + apply Forall_app. split; [exact IH|constructor; auto].
Qed.
Lemma combine_fst {A B} (l : list A) (m : list B) : length l = length m -> map fst (combine l m) = l.
Proof. revert m. induction l as [|x l IH]; intros [|y m] H; try discriminate H; [reflexivity|]. cbn. rewrite IH; [reflexivity|]. cbn in H. lia. Qed.
Lemma card_out_sound columns series words name (first : row) score o : NoDup columns -> length first = length columns ->
  card_out columns series words name first score = Ok o -> CardRow columns series words name first score o.
Proof.
  intros ND L H. unfold card_out in H. destruct (UtilModel.lookup "fcst_lead" series) as [leads|] eqn:E; [|discriminate H]. cbn [bind] in H.
  apply lookup_entry in E. pose proof (find_last_lead words leads) as FL. set (lead := find _ (rev leads)) in *. 
  set (kept := filter _ (combine columns first)) in H. set (set_ := fun nc : string * cell => _) in H. injection H as <-.
  assert (forall nc, fst (set_ nc) = fst nc) as F1 by (intro nc; unfold set_; repeat destruct (String.eqb _ _); reflexivity).
  assert (map fst kept = filter (fun n => negb (mem n COLUMNS_TO_REMOVE)) columns) as MK.
  { rewrite <- (combine_fst columns first) at 1 by congruence. unfold kept. clear. induction (combine columns first) as [|x l IH]; [reflexivity|].
    cbn [filter map]. destruct (negb (mem (fst x) COLUMNS_TO_REMOVE)); cbn [map]; rewrite IH; reflexivity. }
  split.
  - exists (filter (fun n => negb (mem n COLUMNS_TO_REMOVE)) columns). split.
    + apply EventProofs.selection_filter. intros x _. rewrite negb_true_iff. change removed with COLUMNS_TO_REMOVE. split.
      * intros H I. apply mem_iff in I. congruence.
      * intro H. destruct (mem x COLUMNS_TO_REMOVE) eqn:X; [apply mem_iff in X; contradiction|reflexivity].
    + assert (map fst (map set_ kept) = map fst kept) as MM by (rewrite map_map; apply map_ext; exact F1).
      destruct (mem "model" columns) eqn:M.
      * left. split; [apply mem_iff; exact M|]. rewrite app_nil_r, MM. exact MK.
      * right. split; [intro I; apply mem_iff in I; congruence|]. rewrite map_app, MM, MK. reflexivity.
  - intros n x I. apply in_app_or in I. destruct I as [I|I].
    + apply in_map_iff in I. destruct I as ([n' c] & Es & I). apply filter_In in I. destruct I as (I & _).
      pose proof (cell_of_pair _ _ _ _ ND I) as C. assert (n' = n) by (pose proof (F1 (n', c)) as X; rewrite Es in X; symmetry; exact X). subst n'.
      unfold set_ in Es. cbn [fst snd] in Es.
      destruct (String.eqb_spec n "model") as [->|N1]; [injection Es as <-; repeat split; try discriminate; intro X; exfalso; apply X; cbn; auto|].
      destruct (String.eqb_spec n "stat_value") as [->|N2]; [injection Es as <-; repeat split; try discriminate; intro X; exfalso; apply X; cbn; auto|].
      destruct (String.eqb_spec n "fcst_lead") as [->|N3].
      * injection Es as <-. split; [discriminate|]. split; [discriminate|]. split; [|intro X; exfalso; apply X; cbn; auto].
        intros _. exists leads. split; [exact E|]. unfold LeadOf. destruct lead as [l|].
        -- destruct FL as (b & a & -> & J & F). left. exists b, l, a. auto.
        -- right. split; [exact FL|]. exists c. auto.
      * injection Es as <-. split; [contradiction|]. split; [contradiction|]. split; [contradiction|]. intros _. exists c. auto.
    + destruct (mem "model" columns); [destruct I|]. destruct I as [[= <- <-]|[]]. repeat split; try discriminate. intro X; exfalso; apply X; cbn; auto.
Qed.
Lemma card_pair_sound cdf emc ndays columns data rq w1 w2 op name rows1 rows2 r :
  Rectangular data columns -> NoDup columns -> In op operations -> incl rows1 data ->
  card_pair cdf emc ndays columns rq (DerivedComponent w1 w2 op) name rows1 rows2 = Ok r ->
  (rows1 = [] \/ rows2 = [] -> r = None) /\
  (rows1 <> [] -> rows2 <> [] -> exists first rest sorted1 sorted2 v1 v2 score row,
     rows1 = first :: rest /\ (op <> "SINGLE" -> validate columns rows1 1 = Ok tt) /\ InOrder columns rows1 sorted1 /\ InOrder columns rows2 sorted2 /\
     ValuesOf columns sorted1 v1 /\ ValuesOf columns sorted2 v2 /\
     CardValue cdf emc ndays (list_stat rq) op v1 v2 score /\
     r = Some row /\ CardRow columns (series_val rq) w1 name first score row).
Proof.
  intros HR ND HO I H. unfold card_pair in H. destruct rows1 as [|first rest].
  { injection H as <-. split; [auto|contradiction]. }
  destruct rows2 as [|r2 rest2]; [injection H as <-; split; [auto|contradiction]|]. split; [intros [X|X]; discriminate X|]. intros _ _.
  cbn [derived_operation first_component] in H.
  set (A := first :: rest) in *. set (B := r2 :: rest2) in *.
  assert (op <> "SINGLE" -> validate columns A 1 = Ok tt) as V.
  { intro N. destruct (String.eqb_spec op "SINGLE"); [contradiction|]. destruct (validate columns A 1) as [[]|]; [reflexivity|discriminate H]. }
  destruct (if String.eqb op "SINGLE" then Ok tt else validate columns A 1); [|discriminate H]. cbn [bind] in H.
  destruct (sort_data columns A) as [s1|] eqn:S1; [|discriminate H]. cbn [bind] in H.
  destruct (sort_data columns B) as [s2|] eqn:S2; [|discriminate H]. cbn [bind] in H.
  destruct (mapM (fun r => get columns r "stat_value") s1) as [c1|] eqn:M1; [|discriminate H]. cbn [bind] in H.
  destruct (mapM (fun r => get columns r "stat_value") s2) as [c2|] eqn:M2; [|discriminate H]. cbn [bind] in H.
  destruct (numbers c1) as [v1|] eqn:N1; [|discriminate H]. cbn [bind] in H.
  destruct (numbers c2) as [v2|] eqn:N2; [|discriminate H]. cbn [bind] in H.
  destruct (card_stat cdf emc ndays (list_stat rq) op v1 v2) as [score|] eqn:CS; [|discriminate H]. cbn [bind] in H.
  destruct (card_out columns (series_val rq) w1 name first score) as [o|] eqn:CO; [|discriminate H]. injection H as <-.
  exists first, rest, s1, s2, v1, v2, score, o. split; [reflexivity|]. split; [exact V|].
  destruct (sort_data_inv _ _ _ S1) as (K1 & O1 & ->). destruct (sort_data_inv _ _ _ S2) as (K2 & O2 & ->).
  split; [apply sort_in_order; assumption|]. split; [apply sort_in_order; assumption|].
  split; [eapply values_of_cells; eassumption|]. split; [eapply values_of_cells; eassumption|].
  split; [apply card_stat_sound; assumption|]. split; [reflexivity|]. apply card_out_sound; [exact ND| |exact CO]. apply HR, I. left. reflexivity.
Qed.
Lemma card_row_score columns series words name first score o : In "stat_value" columns -> CardRow columns series words name first score o -> In ("stat_value", Score score) o.
Proof.
  intros I ((kept & S & K) & V). assert (In "stat_value" kept) as Ik.
  { clear - I S. induction S as [|x l m P S IH|x l m P S IH]; [destruct I| |].
    - destruct I as [->|I]; [left; reflexivity|right; auto].
    - destruct I as [->|I]; [exfalso; apply P; cbn; intuition discriminate|auto]. }
  assert (In "stat_value" (map fst o)) as M by (destruct K as [(_ & ->)|(_ & ->)]; [exact Ik|apply in_or_app; left; exact Ik]).
  apply in_map_iff in M. destruct M as ([n x] & E & M). cbn in E. subst n. destruct (V _ _ M) as (_ & A & _). rewrite (A eq_refl) in M. exact M.
Qed.
Lemma value_column columns r v : ValueOf columns r v -> In "stat_value" columns.
Proof.
  assert (forall c, CellOf columns r "stat_value" c -> In "stat_value" columns) as K by (intros c (i & (A & _) & _); eapply nth_error_In; exact A).
  intros [(q & _ & H)|(_ & H)]; eapply K; exact H.
Qed.
Lemma loop_some cdf emc ndays columns data rq known : forall points dist output,
  card_loop cdf emc ndays columns data rq known points dist = Ok output -> output <> [] ->
  exists comp name d1 d2 r, card_pair cdf emc ndays columns rq comp name d1 d2 = Ok (Some r).
Proof.
  induction points as [|p points IH]; intros dist output H N; cbn [card_loop] in H; [injection H as <-; contradiction|].
  destruct (is_derived_point (Some p)).
  - destruct (card_derived cdf emc ndays columns rq known p dist) as [[r|]|] eqn:E; [| |discriminate H]; cbn [bind] in H.
    + unfold card_derived in E. destruct (UtilModel.lookup _ known) as [comp|]; [|discriminate E]. cbn [bind] in E.
      destruct (find_pair _ _ _ _ _) as [[d1|] [d2|]]; try discriminate E. exists comp, (derived_name p), d1, d2, r. exact E.
    + destruct (card_loop cdf emc ndays columns data rq known points dist) as [out|] eqn:L; [|discriminate H]. injection H as <-. eapply IH; eassumption.
  - destruct (card_point columns data rq p) as [rows|]; [|discriminate H]. cbn [bind] in H. eapply IH; eassumption.
Qed.
Lemma get_column columns r n c : get columns r n = Ok c -> In n columns.
Proof. unfold get. destruct (index_of n columns) as [i|] eqn:E; [|discriminate]. intros _. eapply index_in. exact E. Qed.
Lemma pair_columns cdf emc ndays columns rq comp name d1 d2 r : card_pair cdf emc ndays columns rq comp name d1 d2 = Ok (Some r) ->
  In "fcst_lead" (map fst (series_val rq)) /\ In "fcst_lead" columns /\ In "stat_value" columns.
Proof.
  intro H. unfold card_pair in H. destruct d1 as [|first rest]; [discriminate H|]. destruct d2 as [|first2 rest2]; [discriminate H|].
  destruct (if String.eqb _ "SINGLE" then Ok tt else _); [|discriminate H]. cbn [bind] in H.
  destruct (sort_data columns (first :: rest)) as [s1|] eqn:S1; [|discriminate H]. cbn [bind] in H.
  destruct (sort_data columns (first2 :: rest2)) as [s2|] eqn:S2; [|discriminate H]. cbn [bind] in H.
  destruct (mapM (fun r => get columns r "stat_value") s1) as [c1|] eqn:M1; [|discriminate H]. cbn [bind] in H.
  destruct (mapM (fun r => get columns r "stat_value") s2) as [c2|] eqn:M2; [|discriminate H]. cbn [bind] in H.
  destruct (numbers c1); [|discriminate H]. cbn [bind] in H. destruct (numbers c2); [|discriminate H]. cbn [bind] in H.
  destruct (card_stat _ _ _ _ _ _ _); [|discriminate H]. cbn [bind] in H. destruct (card_out _ _ _ _ _ _) as [o'|] eqn:CO; [|discriminate H].
  split; [|split].
  - unfold card_out in CO. destruct (UtilModel.lookup "fcst_lead" (series_val rq)) as [leads|] eqn:E; [|discriminate CO]. apply lookup_entry in E. apply (in_map fst) in E. exact E.
  - destruct (sort_data_inv _ _ _ S1) as (K & _ & _). destruct (K first (or_introl eq_refl)) as (k & SK).
    unfold sort_data in S1. cbn [mapM] in S1. unfold sort_fields in S1. cbn [app mapM] in S1. destruct (get columns first (time_column columns)); [|discriminate S1]. cbn [bind] in S1.
    destruct (get columns first "fcst_lead") eqn:G; [|discriminate S1]. eapply get_column. exact G.
  - destruct (sort_data_inv _ _ _ S1) as (_ & _ & E). assert (s1 <> []) as N.
    { intro X. assert (Permutation (first :: rest) s1) as P by (rewrite E; apply sort_perm). rewrite X in P. apply Permutation_sym, Permutation_nil in P. discriminate P. }
    destruct s1 as [|x s1]; [contradiction|]. cbn [mapM] in M1. destruct (get columns x "stat_value") eqn:G; [|discriminate M1]. eapply get_column. exact G.
Qed.
Lemma values_of_length columns rows v : ValuesOf columns rows v -> length rows = length v.
Proof. apply forall2_len. Qed.
Lemma two_derived rq d e : derived_series rq = [d; e] -> (exists op w1 w2 name var, DerivedSeries rq d op w1 w2 name var) -> (exists op w1 w2 name var, DerivedSeries rq e op w1 w2 name var) ->
  (forall op w1 w2 op' w1' w2' name var var', DerivedSeries rq d op w1 w2 name var -> DerivedSeries rq e op' w1' w2' name var' -> d = e) -> DerivedRequest rq.
Proof.
  intros E H H' U. unfold DerivedRequest. rewrite E. split; [discriminate|]. split.
  - intros d' [<-|[<-|[]]]; assumption.
  - intros d1 d2 op w1 w2 op' w1' w2' name var var' [<-|[<-|[]]] [<-|[<-|[]]] A B; try reflexivity.
    + eapply U; eassumption.
    + symmetry. eapply U; eassumption.
Qed.

Lemma combine_snd {A B} (l : list A) (m : list B) : length l = length m -> map snd (combine l m) = m.
Proof. revert m. induction l as [|x l IH]; intros [|y m] H; try discriminate H; [reflexivity|]. cbn. rewrite IH; [reflexivity|]. cbn in H. lia. Qed.
Lemma present_values columns rows v : ValuesOf columns rows v -> (forall x, In x rows -> ~ CellOf columns x "stat_value" CMiss) ->
  exists a, v = map Some a /\ Forall2 (fun x q => CellOf columns x "stat_value" (CNum q)) rows a.
Proof.
  induction 1 as [|x v rows vs H F IH]; intro M; [exists []; split; [reflexivity|constructor]|].
  destruct IH as (a & -> & G); [intros y Hy; apply M; right; exact Hy|].
  destruct H as [(q & -> & C)|(-> & C)]; [|destruct (M x (or_introl eq_refl) C)]. exists (q :: a). split; [reflexivity|constructor; assumption].
Qed.
Lemma map_some_inj (a b : list Q) : map Some a = map Some b -> a = b.
Proof. revert b. induction a as [|x a IH]; intros [|y b] H; try discriminate H; [reflexivity|]. cbn in H. injection H as -> H. rewrite (IH b H). reflexivity. Qed.
Lemma not_missing (a : list Q) : ~ In None (map Some a).
Proof. induction a as [|x a IH]; intro H; [destruct H|]. destruct H as [H|H]; [discriminate H|auto]. Qed.
Lemma difference_score cdf emc ndays stats a b o : CardValue cdf emc ndays stats "DIFF" (map Some a) (map Some b) o ->
  exists m, o = OutNum (Q2R m) /\ m == mean (map (fun p => fst p - snd p) (combine a b)).
Proof.
  intro H. inversion H as [a' b' m _ L E E1 E2 E3|? ? _ _ [M|M]|a' v2 m X|? ? X|? ? ? ? ? X|? ? ? ? X|? ? ? ? ? X|? ? X]; subst; try discriminate X.
  - apply map_some_inj in E1, E2. subst. exists m. auto.
  - destruct (not_missing _ M).
  - destruct (not_missing _ M).
  - exfalso. cbn in X. intuition discriminate.
Qed.
Lemma pair_20_1 : calculate_diff_sig_emc 2 "MAE" (map Some [20; 20]) (map Some [1; 3]) = Ok (Some 1) /\ calculate_diff_sig_emc 2 "RMSE" (map Some [20; 20]) (map Some [1; 3]) = Ok (Some (-1)).
Proof.
  split; (rewrite (ScoreProofs.pair_value _ _ _ _ _ 1); [vm_compute; reflexivity|discriminate|vm_compute; reflexivity]).
Qed.

(** The statements of PropertiesCard.v. *)
Lemma C62_rows_proof : forall cdf emc ndays columns data rq fields output,
  Rectangular data columns -> NoDup columns -> CardFields rq fields -> Plain rq fields -> DerivedRequest rq ->
  calculate_scorecard cdf emc ndays columns data rq = Ok output ->
  CardRows columns data rq fields (fun op w1 name rows1 rows2 o =>
    (rows1 = [] \/ rows2 = [] -> o = []) /\
    (rows1 <> [] -> rows2 <> [] -> exists first rest sorted1 sorted2 v1 v2 score row,
       rows1 = first :: rest /\ InOrder columns rows1 sorted1 /\ InOrder columns rows2 sorted2 /\
       ValuesOf columns sorted1 v1 /\ ValuesOf columns sorted2 v2 /\
       CardValue cdf emc ndays (list_stat rq) op v1 v2 score /\
       o = [row] /\ CardRow columns (series_val rq) w1 name first score row)) output.
Proof.
  intros cdf emc ndays columns data rq fields output HR ND HF HP HD H. eapply card_rows_intro; try eassumption.
  intros op w1 w2 name rows1 rows2 r HO I1 I2 E. destruct (card_pair_sound _ _ _ _ _ _ _ _ _ _ _ _ _ HR ND HO I1 E) as (A & B). split.
  - intro X. rewrite (A X). reflexivity.
  - intros N1 N2. destruct (B N1 N2) as (first & rest & s1 & s2 & v1 & v2 & score & row & E1 & _ & O1 & O2 & V1 & V2 & CV & -> & CR).
    exists first, rest, s1, s2, v1, v2, score, row. repeat (split; [assumption|]). split; [reflexivity|exact CR].
Qed.

Lemma C62_rows_case_proof :
  Rectangular card_data card_columns /\ NoDup card_columns /\ CardFields card_request card_fields /\ Plain card_request card_fields /\
  DerivedRequest card_request /\
  (let dp := ["DIFF(A 12 RMSE-B 12 RMSE)"; "12"; "RMSE"] in
   OnlyPoint card_fields (Named [] ["A"; "12"; "RMSE"] dp) ["A"; "12"; "RMSE"] /\
   OnlyPoint card_fields (Named [] ["B"; "12"; "RMSE"] dp) ["B"; "12"; "RMSE"]) /\
  exists m, m == 5 # 2 /\
    forall cdf emc ndays, calculate_scorecard cdf emc ndays card_columns card_data card_request =
      Ok [[("model", Given "DIFF(A 12 RMSE-B 12 RMSE)"); ("fcst_lead", Given "12"); ("stat_name", Kept (CStr "RMSE"));
           ("vx_mask", Kept (CStr "NHX")); ("stat_value", Score (OutNum (Q2R m)))]].
Proof.
  split; [intros r Hr; simpl in Hr; repeat (destruct Hr as [<-|Hr]; [reflexivity|]); destruct Hr|]. split; [apply nodup_text_iff; vm_compute; reflexivity|].
  split; [split; [apply nodup_text_iff; vm_compute; reflexivity|right; split; reflexivity]|]. split; [apply plain_check; vm_compute; reflexivity|].
  split; [eapply two_derived; [reflexivity| | |]|].
  { exists "DIFF", ["A"; "12"; "RMSE"], ["B"; "12"; "RMSE"], "DIFF(A 12 RMSE-B 12 RMSE)", "model"; exists "A 12 RMSE", "B 12 RMSE"; split; [reflexivity|]; split; [simpl; tauto|]; split; [split; [discriminate|]; split; [reflexivity|]; repeat constructor; unfold Has; cbn; intuition discriminate|]; split; [split; [discriminate|]; split; [reflexivity|]; repeat constructor; unfold Has; cbn; intuition discriminate|]; split; [exists "-"; split; [simpl; tauto|reflexivity]|]; split; [|apply Forall_forall; intros w Hw D;
    assert (is_derived_point (Some [w]) = true) as X by (apply derived_point_iff; exists w; split; [left; reflexivity|exact D]);
    simpl in Hw; repeat (destruct Hw as [<-|Hw]; [discriminate X|]); destruct Hw]; exists "A", "B", [], ["A"; "B"], [("fcst_lead", ["12"; "24"])]; split; [exists [], ["12"; "RMSE"], ["12"; "RMSE"]; split; [split; reflexivity|discriminate]|]; split; [reflexivity|]; split; [constructor|left; simpl; tauto]. }
  { exists "DIFF", ["A"; "24"; "RMSE"], ["B"; "24"; "RMSE"], "DIFF(A 24 RMSE-B 24 RMSE)", "model"; exists "A 24 RMSE", "B 24 RMSE"; split; [reflexivity|]; split; [simpl; tauto|]; split; [split; [discriminate|]; split; [reflexivity|]; repeat constructor; unfold Has; cbn; intuition discriminate|]; split; [split; [discriminate|]; split; [reflexivity|]; repeat constructor; unfold Has; cbn; intuition discriminate|]; split; [exists "-"; split; [simpl; tauto|reflexivity]|]; split; [|apply Forall_forall; intros w Hw D;
    assert (is_derived_point (Some [w]) = true) as X by (apply derived_point_iff; exists w; split; [left; reflexivity|exact D]);
    simpl in Hw; repeat (destruct Hw as [<-|Hw]; [discriminate X|]); destruct Hw]; exists "A", "B", [], ["A"; "B"], [("fcst_lead", ["12"; "24"])]; split; [exists [], ["24"; "RMSE"], ["24"; "RMSE"]; split; [split; reflexivity|discriminate]|]; split; [reflexivity|]; split; [constructor|left; simpl; tauto]. }
  { intros op w1 w2 op' w1' w2' name var var' (a & b & E & _ & _ & _ & (sg & I & ->) & _) (a' & b' & E' & _ & _ & _ & (sg' & I' & X) & _).
    injection E as <- <- <-. injection E' as <- <- <-. simpl in I, I'. repeat (destruct I as [I|I]; [try discriminate I|]); try (destruct I; fail). injection I as <-.
    repeat (destruct I' as [I'|I']; [try discriminate I'|]); try (destruct I'; fail). injection I' as <-. discriminate X. }
  split; [split; (apply only_point; [constructor|vm_compute; reflexivity])|].
  eexists. split; [|intros cdf emc ndays; cbv -[Q2R]; reflexivity]. reflexivity.
Qed.

Lemma C62_checked_proof : forall cdf emc ndays columns data rq fields output,
  Rectangular data columns -> NoDup columns -> CardFields rq fields -> Plain rq fields -> DerivedRequest rq ->
  calculate_scorecard cdf emc ndays columns data rq = Ok output ->
  CardRows columns data rq fields (fun op w1 name rows1 rows2 o => op <> "SINGLE" -> o <> [] -> DistinctCases columns rows1) output.
Proof.
  intros cdf emc ndays columns data rq fields output HR ND HF HP HD H. eapply card_rows_intro; try eassumption.
  intros op w1 w2 name rows1 rows2 r HO I1 I2 E NS NR. destruct (card_pair_sound _ _ _ _ _ _ _ _ _ _ _ _ _ HR ND HO I1 E) as (A & B).
  assert (rows1 <> []) as N1 by (intro X; rewrite (A (or_introl X)) in NR; contradiction). assert (rows2 <> []) as N2 by (intro X; rewrite (A (or_intror X)) in NR; contradiction).
  destruct (B N1 N2) as (first & rest & s1 & s2 & v1 & v2 & score & row & E1 & V & _). apply (validate_distinct _ _ _ (V NS) N1). reflexivity.
Qed.

Lemma C62_difference_proof : forall cdf emc ndays columns data rq fields output,
  Rectangular data columns -> NoDup columns -> CardFields rq fields -> Plain rq fields -> DerivedRequest rq ->
  calculate_scorecard cdf emc ndays columns data rq = Ok output ->
  CardRows columns data rq fields (fun op w1 name rows1 rows2 o => op = "DIFF" -> rows1 <> [] -> rows2 <> [] ->
    DistinctCases columns rows2 -> SameCases columns rows1 rows2 ->
    (forall r, In r (rows1 ++ rows2)%list -> ~ CellOf columns r "stat_value" CMiss) ->
    exists pairs diffs m row, Permutation (map fst pairs) rows1 /\ Permutation (map snd pairs) rows2 /\
      Forall2 (fun p d => SameCase columns (fst p) (snd p) /\
                 exists x y, CellOf columns (fst p) "stat_value" (CNum x) /\ CellOf columns (snd p) "stat_value" (CNum y) /\ d = x - y)
        pairs diffs /\
      m == mean diffs /\ o = [row] /\ In ("stat_value", Score (OutNum (Q2R m))) row) output.
Proof.
  intros cdf emc ndays columns data rq fields output HR ND HF HP HD H. eapply card_rows_intro; try eassumption.
  intros op w1 w2 name rows1 rows2 r HO I1 I2 E -> N1 N2 D2 SC NM. destruct (card_pair_sound _ _ _ _ _ _ _ _ _ _ _ _ _ HR ND HO I1 E) as (_ & B).
  destruct (B N1 N2) as (first & rest & s1 & s2 & v1 & v2 & score & row & E1 & V & (P1 & _ & O1 & _) & (P2 & _ & O2 & _) & V1 & V2 & CV & -> & CR).
  assert (DistinctCases columns rows1) as D1 by (apply (validate_distinct _ _ _ (V ltac:(discriminate)) N1); reflexivity).
  assert (Forall2 (SameCase columns) s1 s2) as F.
  { apply pairs_sorted; [exact O1|exact O2|eapply distinct_perm; eassumption|eapply distinct_perm; eassumption|eapply same_cases_perm; eassumption]. }
  assert (length s1 = length s2) as L by (eapply forall2_len; exact F).
  assert (forall x, In x s1 -> ~ CellOf columns x "stat_value" CMiss) as M1 by (intros x Hx; apply NM; apply in_or_app; left; eapply Permutation_in; [apply Permutation_sym; exact P1|exact Hx]).
  assert (forall x, In x s2 -> ~ CellOf columns x "stat_value" CMiss) as M2 by (intros x Hx; apply NM; apply in_or_app; right; eapply Permutation_in; [apply Permutation_sym; exact P2|exact Hx]).
  destruct (present_values _ _ _ V1 M1) as (a & -> & F1). destruct (present_values _ _ _ V2 M2) as (b & -> & F2).
  assert (exists m, score = OutNum (Q2R m) /\ m == mean (map (fun p => fst p - snd p) (combine a b))) as (m & -> & Em) by (eapply difference_score; exact CV).
  exists (combine s1 s2), (map (fun p => fst p - snd p) (combine a b)), m, row.
  split; [rewrite combine_fst by exact L; apply Permutation_sym; exact P1|]. split; [rewrite combine_snd by exact L; apply Permutation_sym; exact P2|].
  split; [|split; [exact Em|split; [reflexivity|]]].
  - clear - F F1 F2. revert a b F1 F2. induction F as [|x y s1 s2 S F IH]; intros a b F1 F2; inversion F1 as [|? p ? a' C1 F1']; subst; inversion F2 as [|? q ? b' C2 F2']; subst; cbn [combine map]; constructor.
    + cbn [fst snd]. split; [exact S|]. exists p, q. auto.
    + apply IH; assumption.
  - eapply card_row_score; [|exact CR]. destruct s1 as [|x s1]; [apply Permutation_sym, Permutation_nil in P1; contradiction|]. inversion V1; subst. eapply value_column. eassumption.
Qed.

Lemma C62_cases_refuted_proof :
  exists o, forall cdf emc ndays,
  let run t1 t2 := calculate_scorecard cdf emc ndays card_columns
    [card_line "A" 12 "d1" 3; card_line "A" 12 "d2" 5; card_line "B" 12 t1 1; card_line "B" 12 t2 2] card_request in
  run "d1" "d2" = Ok [o] /\ run "d7" "d8" = Ok [o] /\ run "d2" "d2" = Ok [o].
Proof.
  eexists. intros cdf emc ndays run. unfold run. split; [|split]; cbv -[Q2R]; reflexivity.
Qed.

Lemma C62_statistics_refuted_proof :
  exists v1 v2, calculate_diff_sig_emc 2 "MAE" v1 v2 = Ok (Some 1) /\
    (let run stats cdf := calculate_scorecard cdf true 2 card_columns
       (map (fun tx => [CStr "A"; CNum 12; CStr (fst tx); CStr "MAE"; CStr "NHX"; match snd tx with Some x => CNum x | None => CMiss end]) (combine ["d1"; "d2"] v1) ++
        map (fun tx => [CStr "B"; CNum 12; CStr (fst tx); CStr "MAE"; CStr "NHX"; match snd tx with Some x => CNum x | None => CMiss end]) (combine ["d1"; "d2"] v2))%list
       (Request [("model", ["A"; "B"]); ("fcst_lead", ["12"])] "" [] stats [["A 12 MAE"; "B 12 MAE"; "DIFF_SIG"]] []) in
     let row x := [("model", Given "DIFF_SIG(A 12 MAE-B 12 MAE)"); ("fcst_lead", Given "12"); ("stat_name", Kept (CStr "MAE"));
                   ("vx_mask", Kept (CStr "NHX")); ("stat_value", Score (OutNum (Q2R x)))] in
     forall cdf, run ["MAE"] cdf = Ok [row 1] /\ run ["RMSE"; "MAE"] cdf = Ok [row (-1)]).
Proof.
  exists (map Some [20; 20]), (map Some [1; 3]). destruct (pair_20_1) as (M & S). split; [exact M|]. intros run row cdf. unfold run, row. clear run row.
  split; cbv -[calculate_diff_sig_emc Q2R]; [change (Some 20) with (Some (20 # 1)) in M|].
  - change (calculate_diff_sig_emc 2 "MAE" [Some 20; Some 20] [Some 1; Some 3] = Ok (Some 1)) in M. rewrite M. reflexivity.
  - change (calculate_diff_sig_emc 2 "RMSE" [Some 20; Some 20] [Some 1; Some 3] = Ok (Some (-1))) in S. rewrite S. reflexivity.
Qed.

Lemma C62_exceptions_proof : forall cdf emc ndays columns data rq fields,
  calculate_scorecard cdf emc ndays columns [] rq = Err ValueError /\
  (Rectangular data columns -> NoDup columns -> CardFields rq fields -> Plain rq fields -> DerivedRequest rq ->
   forall output, calculate_scorecard cdf emc ndays columns data rq = Ok output ->
     (output <> [] -> In "fcst_lead" (map fst (series_val rq)) /\ In "fcst_lead" columns /\ In "stat_value" columns) /\
     CardRows columns data rq fields (fun op w1 name rows1 rows2 o => op = "DIFF" -> o <> [] -> length rows1 = length rows2) output).
Proof.
  intros cdf emc ndays columns data rq fields. split; [reflexivity|]. intros HR ND HF HP HD output H. split.
  - intro N. unfold calculate_scorecard in H. destruct data; [discriminate H|]. match type of H with bind ?x _ = _ => destruct x as [dp|]; [|discriminate H] end. cbn [bind] in H.
    destruct (loop_some _ _ _ _ _ _ _ _ _ _ H N) as (comp & name & d1 & d2 & x & E). eapply pair_columns. exact E.
  - eapply card_rows_intro; try eassumption. intros op w1 w2 name rows1 rows2 r HO I1 I2 E -> NR.
    destruct (card_pair_sound _ _ _ _ _ _ _ _ _ _ _ _ _ HR ND HO I1 E) as (A & B).
    assert (rows1 <> []) as N1 by (intro X; rewrite (A (or_introl X)) in NR; contradiction). assert (rows2 <> []) as N2 by (intro X; rewrite (A (or_intror X)) in NR; contradiction).
    destruct (B N1 N2) as (first & rest & s1 & s2 & v1 & v2 & score & row & E1 & V & (P1 & _) & (P2 & _) & V1 & V2 & CV & _).
    rewrite (Permutation_length P1), (Permutation_length P2), (values_of_length _ _ _ V1), (values_of_length _ _ _ V2).
    inversion CV; subst; try discriminate; rewrite ?map_length; auto. exfalso. cbn in *. intuition discriminate.
Qed.

Lemma C62_exceptions_case_proof :
  (forall cdf emc ndays, calculate_scorecard cdf emc ndays card_columns (card_line "B" 24 "d1" 1 :: card_line "B" 24 "d2" 4 :: card_data) card_request = Err TypeError) /\
  (forall cdf emc ndays, calculate_scorecard cdf emc ndays card_columns (card_line "A" 12 "d1" 1 :: card_data) card_request = Err NameError).
Proof.
  split; intros cdf emc ndays; vm_compute; reflexivity.
Qed.

Lemma C62_plain_proof : forall cdf emc ndays columns data rq fields output,
  CardFields rq fields -> Plain rq fields -> derived_series rq = [] ->
  calculate_scorecard cdf emc ndays columns data rq = Ok output -> output = [].
Proof.
  intros cdf emc ndays columns data rq fields output HF HP HD H. unfold calculate_scorecard in H. destruct data as [|r0 data0] eqn:Ed; [discriminate H|]. rewrite <- Ed in *.
  rewrite HD in H. cbn [bind fst snd] in H. rewrite app_nil_r, (card_fields_value _ _ HF) in H.
  assert (Forall (fun p => Combination fields p) (product (map snd fields))) as F by apply combos_in. clear HD Ed. revert H F. generalize (@nil (list string * tdata)).
  generalize (product (map snd fields)). intros points. induction points as [|p points IH]; intros dist H F; cbn [card_loop] in H; [injection H as <-; reflexivity|].
  inversion F as [|? ? C F']; subst. rewrite (card_not_derived rq fields HP p C) in H. destruct (card_point columns data rq p); [|discriminate H]. cbn [bind] in H. eapply IH; eassumption.
Qed.

