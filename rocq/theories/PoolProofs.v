(** Proofs about aggregated statistics by name. *)
From Coq Require Import Reals Qreals Qabs Qminmax Permutation.
From Verif Require Import PyBase ColumnModel BaseSpec BaseProofs RealBase RealSpec.
From Verif Require Import CtcModel CtcSpec CtcProofs CtcProofs2 LogModel LogSpec LogProofs Sl1l2Model Sl1l2Spec Sl1l2Proofs Sl1l2Proofs2 AggModel AggSpec EnsModel EnsSpec EnsProofs AnomModel WindModel.
From Verif Require MctsModel.
From Verif Require Import EventSpec EventProofs BootModel DriveModel DriveSpec DriveProofs CurveProofs PairModel PoolModel PoolSpec.
From Coq Require Import List.
Open Scope string_scope.
Open Scope Q_scope.

(** ** No KeyError inside a statistic *)
Definition NK {A : Type} (r : res A) : Prop := r <> Err KeyError.
Lemma nk_ok : forall {A} (a : A), NK (Ok a).
Proof. intros; discriminate. Qed.
Lemma nk_err : forall {A} (e : exn), e <> KeyError -> NK (@Err A e).
Proof. intros A e H X. injection X. exact H. Qed.
Lemma nk_bind : forall {A B} (m : res A) (f : A -> res B), NK m -> (forall x, NK (f x)) -> NK (bind m f).
Proof. intros A B [a|e] f H K; cbn; auto. apply nk_err. intros ->. apply H. reflexivity. Qed.
Lemma nk_catch : forall {A} l (m : res A) d, NK m -> NK (catch l m d).
Proof. intros A l [a|e] d H; cbn; auto. destruct (existsb _ _); auto. apply nk_ok. Qed.
Lemma nk_mapM : forall {A B} (f : A -> res B) l, (forall x, NK (f x)) -> NK (mapM f l).
Proof. intros A B f l H; induction l; cbn; [apply nk_ok|]. apply nk_bind; auto. intros. apply nk_bind; auto. intros; apply nk_ok. Qed.
Lemma nk_map_res : forall {A B} (f : A -> res B) l, (forall x, In x l -> NK (f x)) -> NK (map_res f l).
Proof.
  intros A B f l; induction l; intros H; cbn; [apply nk_ok|]. apply nk_bind; [apply H; left; reflexivity|].
  intros. apply nk_bind; [apply IHl; intros; apply H; right; assumption|]. intros; apply nk_ok.
Qed.

Ltac nk1 :=
  first
  [ apply nk_ok
  | apply nk_err; discriminate
  | assumption
  | apply nk_catch
  | apply nk_mapM; intros
  | apply nk_bind; [ | intros ]
  | match goal with
    | |- NK (match ?x with _ => _ end) => destruct x
    | |- NK (let x := _ in _) => cbv zeta
    | |- NK ((fun _ => _) _) => cbv beta
    | |- NK ?t => let h := (match t with ?f _ _ _ _ _ _ => f | ?f _ _ _ _ _ => f | ?f _ _ _ _ => f | ?f _ _ _ => f | ?f _ _ => f | ?f _ => f | ?f => f end) in
                  unfold h
    end ].
Lemma nk_sum : forall d c n b, NK (sum_column_data_by_name d c n b).
Proof. intros. repeat nk1. Qed.
Lemma nk_raw : forall l, NK (raw_sum_cells l).
Proof. induction l as [|[] t IH]; cbn [raw_sum_cells]; [apply nk_ok| | |]; try (apply nk_err; discriminate). unfold pybin. repeat nk1. Qed.
Lemma nk_sum_counts : forall d c ks r, NK (MctsModel.sum_counts d c ks r).
Proof. intros d c ks. induction ks; intros r; cbn [MctsModel.sum_counts]; [apply nk_ok|]. apply nk_bind; [apply nk_sum|]. intros. apply nk_bind; [repeat nk1|]. intros. apply IHks. Qed.
Lemma nk_fill : forall c r ks t, NK (MctsModel.fill_table c r ks t).
Proof.
  intros c r ks. induction ks; intros t; cbn [MctsModel.fill_table]; [apply nk_ok|].
  repeat (apply nk_bind; [repeat nk1|intros]). apply IHks.
Qed.
Lemma nk_sum_cells : forall l, NK (MctsModel.sum_cells l).
Proof. induction l as [|[] t IH]; cbn [MctsModel.sum_cells]; [apply nk_ok| | |]; try (apply nk_err; discriminate). repeat nk1. Qed.
Ltac nk := repeat first [ apply nk_sum | apply nk_raw | apply nk_sum_counts | apply nk_fill | apply nk_sum_cells | nk1 ].

Lemma nk_functions : forall lw name f, assoc name (functions lw) = Some f -> forall d c a, NK (f d c a).
Proof.
  intros lw name f H. assert (K : In f (map snd (functions lw))).
  { revert H. generalize (functions lw). intros l; induction l as [|[k g] t IH]; cbn; [discriminate|].
    destruct (String.eqb k name); [intros E; injection E as ->; left; reflexivity|right; auto]. }
  clear H. revert f K. rewrite <- Forall_forall. unfold functions. cbn [map snd].
  repeat (apply Forall_cons; [intros d c a; unfold two|]); try apply Forall_nil; nk.
Qed.

(** ** The calls of the driver *)
Section Engine.
Variables (lw : R -> R) (gen : Type) (randint : gen -> nat -> nat * gen) (seed_gen : Z -> gen) (state : string -> tdata -> gen).
Variables (alpha : Q) (iters threads cpus : Z) (seeds : list Z) (method : ci_method) (cbb : bool) (line_type : string) (columns : list string)
  (equivalence : list Q -> list Q -> res unit).
Notation E := (agg_engine lw gen randint seed_gen state alpha iters threads cpus seeds method cbb line_type columns equivalence).
Notation calc_values := (calc_values lw line_type columns).
Notation calc_stats := (calc_stats lw line_type columns).

Lemma nk_percentile : forall l q, NK (percentile l q).
Proof. intros. unfold percentile. destruct (negb _); [apply nk_err; discriminate|]. cbv zeta. destruct (nth_error _ _); [destruct (nth_error _ _)|]; try apply nk_ok; apply nk_err; discriminate. Qed.
Lemma nk_interval : forall d v a m, NK (get_confidence_interval_and_value d v a m).
Proof.
  intros d [v|] a m; [|apply nk_ok]. assert (K : forall l q, NK (percentile_any l q)).
  { intros. unfold percentile_any. repeat (match goal with |- NK (if ?x then _ else _) => destruct x end; [apply nk_err; discriminate|]). apply nk_percentile. }
  destruct m; cbn [get_confidence_interval_and_value]; try apply nk_ok.
  - apply nk_bind; [apply K|intros; apply nk_bind; [apply K|intros; apply nk_ok]].
  - destruct (all_the_same d); [apply nk_ok|]. cbv zeta. apply nk_bind; [apply nk_percentile|intros; apply nk_bind; [apply nk_percentile|intros; apply nk_ok]].
Qed.
Lemma nk_sim : forall {A} (values : list A) (f : array A -> res (list pyval)) n b bl, (forall s, NK (f s)) ->
  forall rngs g acc, NK (sim_loop gen randint A pyval values f g n b bl rngs acc).
Proof.
  intros A values f n b bl H rngs. induction rngs as [|x t IH]; intros g acc; cbn [sim_loop]; [apply nk_ok|]. cbv zeta.
  apply nk_bind.
  - unfold generate_distributions_cbb. destruct (_ <? 0)%Z; [apply nk_err; discriminate|]. destruct (draw_matrix _ _ _ _ _) as [ids g'].
    apply nk_bind.
    + destruct (_ <? _)%Z; [|apply nk_ok]. apply nk_map_res. intros l _. destruct l; cbn; [apply nk_err; discriminate|apply nk_ok].
    + intros ids'. apply nk_bind; [|intros; apply nk_ok]. apply nk_map_res. intros l _. unfold take. apply nk_map_res. intros i _.
      destruct (nth_error _ _); [apply nk_ok|apply nk_err; discriminate].
  - intros [sims g']. apply nk_bind; [apply H|]. intros; apply IH.
Qed.
Lemma nk_bootstrap_sim : forall {A} (values : list A) (f : array A -> res (list pyval)) g n b bl, (forall s, NK (f s)) ->
  NK (bootstrap_sim_cbb gen randint A pyval values f g n b bl).
Proof.
  intros. unfold bootstrap_sim_cbb. apply nk_bind; [|intros; apply nk_sim; assumption].
  unfold py_range. destruct (_ =? _)%Z; [apply nk_err; discriminate|apply nk_ok].
Qed.
Lemma nk_bootstrapped : forall {A} (values : list A) (f : array A -> res (list pyval)) g m bl, (forall s, NK (f s)) ->
  NK (bootstrap_and_value gen randint seed_gen values f alpha g iters threads cpus seeds m bl).
Proof.
  intros A values f g m bl H. unfold bootstrap_and_value. apply nk_bind; [apply H|]. intros s. apply nk_bind; [destruct s; [apply nk_err; discriminate|apply nk_ok]|].
  intros v. destruct (_ =? _)%Z; [apply nk_err; discriminate|]. apply nk_bind.
  - unfold bootstrap_distribution_cbb. cbv zeta. destruct (_ <=? 1)%Z; [apply nk_bind; [apply nk_bootstrap_sim; exact H|intros; apply nk_ok]|].
    apply nk_bind; [apply nk_map_res; intros; apply nk_bootstrap_sim; exact H|intros; apply nk_ok].
  - intros d. apply nk_bind; [apply nk_interval|intros; apply nk_ok].
Qed.
Lemma nk_calc_stats : forall st f names, assoc st (functions lw) = Some f -> prepared_columns line_type st columns = Ok names ->
  forall s, NK (calc_stats st s).
Proof.
  intros st f names F N. assert (K : forall rows, NK (calc_values true st rows)).
  { intros rows. unfold PoolModel.calc_values, function_named. rewrite F, N. cbn [bind]. eapply nk_functions, F. }
  intros [rows|l]; unfold PoolModel.calc_stats.
  - apply nk_bind; [apply K|intros; apply nk_ok].
  - unfold function_named. rewrite F. cbn [bind]. apply nk_map_res. intros; apply K.
Qed.

Lemma boot_value : forall d v a m r, get_confidence_interval_and_value d v a m = Ok r -> m <> OtherMethod -> value r = v.
Proof.
  intros d v a m r H M. destruct v as [v|]; [|injection H as <-; reflexivity].
  destruct m; cbn [get_confidence_interval_and_value] in H; [| |contradiction].
  - destruct (percentile_any _ _); [cbn [bind] in H|discriminate]. destruct (percentile_any _ _); [cbn [bind] in H|discriminate].
    injection H as <-. destruct (Qlt_bool _ _); reflexivity.
  - destruct (all_the_same d); [injection H as <-; reflexivity|]. cbv zeta in H.
    destruct (percentile _ _); [cbn [bind] in H|discriminate]. destruct (percentile _ _); [cbn [bind] in H|discriminate]. injection H as <-. destruct (Qlt_bool _ _); reflexivity.
Qed.

Lemma pool_result : forall single rows r st f names,
  ResultOf E single columns st rows r -> rows <> [] -> (single = true \/ method <> OtherMethod) ->
  assoc st (functions lw) = Some f -> prepared_columns line_type st columns = Ok names ->
  exists sorted t, InOrder columns rows sorted /\ prepared line_type st sorted columns = Ok t /\ f (fst t) names true = Ok (value r).
Proof.
  intros single rows r st f names H NE M F N.
  assert (CV : forall d, calc_values true st d = f d names true).
  { intros d. unfold PoolModel.calc_values, function_named. rewrite F, N. reflexivity. }
  inversion H as [|rows' sorted pr v _ S O P V|rows' sorted pr r' _ S O P V|rows' sorted pr _ S O P V]; subst; [contradiction| | |];
    cbn [prep agg_engine] in P; destruct (prepared line_type st sorted columns) as [t|] eqn:T; try discriminate; cbn [bind] in P; injection P as <-;
    exists sorted, t; (split; [exact O|split; [exact T|]]).
  - cbn [calc agg_engine] in V. rewrite CV in V. exact V.
  - cbn [boot agg_engine] in V. unfold bootstrapped in V. cbv zeta in V.
    destruct (bootstrap_and_value _ _ _ _ _ _ _ _ _ _ _ _ _) as [x|] eqn:B; [cbn [bind] in V|discriminate]. injection V as <-.
    unfold bootstrap_and_value in B. unfold PoolModel.calc_stats at 1 in B. rewrite CV in B.
    destruct (f (fst t) names true) as [v|] eqn:FV; [cbn [bind] in B|discriminate].
    destruct (_ =? _)%Z; [discriminate|]. destruct (bootstrap_distribution_cbb _ _ _ _ _ _ _ _ _ _ _ _ _ _) as [dist|]; [cbn [bind] in B|discriminate].
    destruct (get_confidence_interval_and_value _ _ _ _) as [r|] eqn:G; [cbn [bind] in B|discriminate]. injection B as <-. cbn [fst].
    apply boot_value in G; [congruence|]. destruct M as [M|M]; [discriminate|exact M].
  - exfalso. cbn [boot agg_engine] in V. unfold bootstrapped in V. cbv zeta in V. revert V. apply nk_bind; [|intros; apply nk_ok].
    apply nk_bootstrapped. eapply nk_calc_stats; eassumption.
Qed.
End Engine.

(** ** From the rows of the driver to what is known about them *)
Lemma selection_map : forall {A B} (f : A -> B) P l out, Selection P (map f l) out ->
  exists out', Selection (fun x => P (f x)) l out' /\ out = map f out'.
Proof.
  intros A B f P l. induction l as [|x t IH]; intros out H; cbn in H.
  - inversion H; subst. exists []. split; [constructor|reflexivity].
  - inversion H as [|a b c HP HS|a b c HP HS]; subst; destruct (IH _ HS) as [o [S ->]].
    + exists (x :: o). split; [constructor; assumption|reflexivity].
    + exists o. split; [apply sel_drop; assumption|reflexivity].
Qed.
Lemma output_row : forall {A} e single columns (items : list (A * list cell)) rq fields (Result : string -> list (A * list cell) -> results -> Prop) p o,
  RowOfPoint e single columns (map snd items) rq fields p o ->
  (forall st chosen r, incl chosen items -> chosen <> [] -> ResultOf e single columns st (map snd chosen) r -> Result st chosen r) ->
  OutputRow columns items rq fields Result p o.
Proof.
  intros A e single columns items rq fields Result p o (H1 & H2 & before & stat & st & rows & HP & HL & HS & HN & HR) K.
  split; [exact H1|]. split; [exact H2|]. destruct (selection_map _ _ _ _ HS) as [chosen [S ->]].
  exists before, stat, st, chosen. split; [exact HP|]. split; [exact HL|]. split; [exact S|]. split; [rewrite HN; apply map_length|].
  destruct chosen as [|x t].
  - left. split; [reflexivity|]. cbn [map] in HR. inversion HR; subst; try congruence; contradiction.
  - right. split; [discriminate|]. apply K; [|discriminate|exact HR]. intros y Y. apply (selection_in _ _ _ y S) in Y. apply Y.
Qed.
Lemma forall2_imp : forall {A B} (P Q : A -> B -> Prop) l l', (forall x y, P x y -> Q x y) -> Forall2 P l l' -> Forall2 Q l l'.
Proof. intros A B P Q l l' H F. induction F; constructor; auto. Qed.

(** ** Order of the rows *)
Lemma total_perm : forall {A} (g : A -> Q) l l', Permutation l l' -> total_of g l == total_of g l'.
Proof. intros. apply qsum_perm, Permutation_map. assumption. Qed.
Lemma count_perm : forall {A} (l l' : list A), Permutation l l' -> count l = count l'.
Proof. intros. unfold count. rewrite (Permutation_length H). reflexivity. Qed.
Lemma mean_perm : forall {A} (g : A -> Q) l l', Permutation l l' -> mean_of g l == mean_of g l'.
Proof. intros. unfold mean_of. rewrite (total_perm g l l' H), (count_perm l l' H). reflexivity. Qed.
Lemma total_ext : forall {A} (g h : A -> Q) l, (forall x, g x == h x) -> total_of g l == total_of h l.
Proof. intros A g h l H. unfold total_of. induction l; cbn; [reflexivity|]. rewrite H, IHl. reflexivity. Qed.
Lemma codev_perm : forall {A} (g h : A -> Q) l l', Permutation l l' -> codev g h l == codev g h l'.
Proof.
  intros A g h l l' H. unfold codev. rewrite (total_perm _ l l' H). apply total_ext. intros x. rewrite (mean_perm g l l' H), (mean_perm h l l' H). reflexivity.
Qed.
Lemma stdev_perm : forall {A} (g : A -> Q) l l', Permutation l l' -> sample_stdev g l = sample_stdev g l'.
Proof.
  intros A g l l' H. unfold sample_stdev. rewrite (count_perm l l' H). destruct (Qlt_le_dec _ _); [|reflexivity].
  do 2 f_equal. apply Qeq_eqR. rewrite (codev_perm g g l l' H). reflexivity.
Qed.
Lemma pearson_perm : forall {A} (g h : A -> Q) l l', Permutation l l' -> pearson g h l = pearson g h l'.
Proof.
  intros A g h l l' H. unfold pearson.
  assert (E : codev g g l * codev h h l == codev g g l' * codev h h l') by (rewrite (codev_perm g g l l' H), (codev_perm h h l l' H); reflexivity).
  rewrite (Qeq_eqR _ _ E), (Qeq_eqR _ _ (codev_perm g h l l' H)).
  destruct (Qeq_dec (codev g g l * _) 0) as [a|a], (Qeq_dec (codev g g l' * _) 0) as [b|b]; try reflexivity; rewrite E in a; contradiction.
Qed.
Lemma published_some : forall x y r, x == y -> Published (Some x) r -> Published (Some y) r.
Proof. intros x y [r|] H; cbn; [apply nearest_compat, H|auto]. Qed.
Lemma measures_perm : forall st (M : list Sl1l2Spec.pair -> option Q -> Prop) l l' r, In (st, M) pair_measures -> Permutation l l' -> M l r -> M l' r.
Proof.
  intros st M l l' r H P. assert (mn : forall g, mean_of g l == mean_of g l') by (intros; apply mean_perm, P).
  revert M H. assert (K : Forall (fun x : string * (list Sl1l2Spec.pair -> option Q -> Prop) => snd x l r -> snd x l' r) pair_measures).
  2:{ intros M H. exact (proj1 (Forall_forall _ _) K _ H). }
  unfold pair_measures. repeat apply Forall_cons; try apply Forall_nil; cbn [snd].
  - apply published_some, mn.
  - apply published_some, mn.
  - apply published_some, mn.
  - apply published_some, mn.
  - apply published_some, mn.
  - apply published_some, mn.
  - unfold MbiasOf. apply published_proper; [|reflexivity]. symmetry. apply oratio_proper; cbn; apply mn.
  - apply published_some, mn.
  - intros [m [N Q]]. exists m. split; [apply (nearest_compat 7 _ _ _ (mn _)), N|exact Q].
  - apply published_some, mn.
  - intros [m [N Q]]. exists m. split; [apply (nearest_compat 7 _ _ _ (mn _)), N|exact Q].
  - unfold FstdevOf. rewrite (stdev_perm _ l l' P). auto.
  - unfold OstdevOf. rewrite (stdev_perm _ l l' P). auto.
  - unfold CorrOf. rewrite (pearson_perm _ _ l l' P). auto.
  - intros (m & e & N1 & N2 & Q). exists m, e. split; [apply (nearest_compat 7 _ _ _ (mn _)), N1|]. split; [apply (nearest_compat 7 _ _ _ (mn _)), N2|exact Q].
  - intros (b & (m & e & N1 & N2 & Q) & A & B). exists b. split; [|split; assumption].
    exists m, e. split; [apply (nearest_compat 7 _ _ _ (mn _)), N1|]. split; [apply (nearest_compat 7 _ _ _ (mn _)), N2|exact Q].
  - intros (m & s & N1 & N2 & Q). exists m, s. split; [apply (nearest_compat 7 _ _ _ (mn _)), N1|]. split; [|exact Q].
    unfold OstdevOf in *. rewrite <- (stdev_perm _ l l' P). exact N2.
Qed.

Lemma gradients_perm : forall st (m : list (Q * Q) -> option Q) l l', In (st, m) gradient_measures -> Permutation l l' -> oeq (m l) (m l').
Proof.
  intros st m l l' H P. assert (mn : forall g : Q * Q -> Q, mean_of g l == mean_of g l') by (intros; apply mean_perm, P).
  revert m H. assert (K : Forall (fun x : string * (list (Q * Q) -> option Q) => oeq (snd x l) (snd x l')) gradient_measures).
  2:{ intros m H. exact (proj1 (Forall_forall _ _) K _ H). }
  unfold gradient_measures. cbv zeta. repeat apply Forall_cons; try apply Forall_nil; cbn [snd];
    first [cbn; apply mn | apply oratio_proper; cbn [oeq]; rewrite ?(mn _); reflexivity].
Qed.
Lemma sum_present_perm : forall l l', Permutation l l' -> oeq (sum_present l) (sum_present l').
Proof.
  intros l l' H. induction H as [|x l l' H IH|x y l|l l1 l2 H1 IH1 H2 IH2].
  - exact I.
  - destruct x as [x|]; cbn [sum_present]; [|exact IH]. destruct (sum_present l), (sum_present l'); cbn in *; try contradiction; [rewrite IH; reflexivity|reflexivity].
  - destruct x as [x|], y as [y|]; cbn [sum_present]; destruct (sum_present l); cbn; try reflexivity; ring.
  - eapply oeq_trans; eassumption.
Qed.
Lemma by_total_perm : forall g es es', Permutation es es' -> oeq (by_total g es) (by_total g es').
Proof. intros. unfold by_total, weighted_mean, weighted_sum. apply oratio_proper; apply sum_present_perm, Permutation_map; assumption. Qed.
Lemma root_oeq : forall a b r, oeq a b -> RootPublished a r -> RootPublished b r.
Proof.
  intros [a|] [b|] r H; cbn in H; try contradiction; [|auto]. intros (m & N & X). exists m. split; [apply (nearest_compat 7 _ _ _ H), N|exact X].
Qed.
Lemma concat_fst_perm : forall {A B} (l l' : list (list A * B)), Permutation l l' -> Permutation (concat (map fst l)) (concat (map fst l')).
Proof.
  intros A B l l' H. induction H; cbn; [constructor|apply Permutation_app_head; assumption| |eapply Permutation_trans; eassumption].
  rewrite !app_assoc. apply Permutation_app_tail, Permutation_app_comm.
Qed.
Lemma selection_perm : forall {A} (P : A -> Prop) l l', Permutation l l' -> forall o, Selection P l o -> exists o', Selection P l' o' /\ Permutation o o'.
Proof.
  intros A P l l' H. induction H as [|x l l' H IH|x y l|l l1 l2 H1 IH1 H2 IH2]; intros o S.
  - exists o. split; [exact S|apply Permutation_refl].
  - inversion S as [|a b c HP HS|a b c HP HS]; subst; destruct (IH _ HS) as [o' [S' E]].
    + exists (x :: o'). split; [constructor; assumption|constructor; exact E].
    + exists o'. split; [apply sel_drop; assumption|exact E].
  - inversion S as [|a b c HP HS|a b c HP HS]; subst; inversion HS as [|a' b' c' HP' HS'|a' b' c' HP' HS']; subst.
    + exists (x :: y :: c'). split; [repeat constructor; assumption|constructor].
    + exists (y :: c). split; [apply sel_drop; [assumption|]; constructor; assumption|apply Permutation_refl].
    + exists (x :: c'). split; [constructor; [assumption|]; apply sel_drop; assumption|apply Permutation_refl].
    + exists o. split; [repeat (apply sel_drop; [assumption|]); assumption|apply Permutation_refl].
  - destruct (IH1 _ S) as [o1 [S1 E1]]. destruct (IH2 _ S1) as [o2 [S2 E2]]. exists o2. split; [exact S2|eapply Permutation_trans; eassumption].
Qed.

(** ** Preparations *)
Lemma prepared_same : forall lt st rows columns, In lt ["sl1l2"; "sal1l2"; "grad"; "vl1l2"; "val1l2"; "vcnt"] ->
  prepared lt st rows columns = (d <- prepare st rows columns ;; Ok (d, columns)).
Proof. intros lt st rows columns H. unfold prepared. rewrite (proj2 (mem_iff _ _) H). reflexivity. Qed.
Lemma scale_nil : forall cols columns rows d, scale_columns rows columns cols = Ok d -> scale_columns ([] : tdata) columns cols = Ok [].
Proof.
  intros cols columns. induction cols as [|c t IH]; intros rows d H; [reflexivity|]. cbn [scale_columns] in *. unfold scale_column, scale_column_by in *.
  destruct (index_of c columns); [destruct (index_of "total" columns)|]; try discriminate. cbn [mapM bind].
  destruct (mapM _ rows) as [d'|]; [cbn [bind] in H|discriminate]. eapply IH; exact H.
Qed.
Lemma columns_same : forall lt st rows columns t, In lt ["sl1l2"; "sal1l2"; "grad"; "vl1l2"; "val1l2"; "vcnt"] ->
  prepared lt st rows columns = Ok t -> prepared_columns lt st columns = Ok columns /\ prepare st rows columns = Ok (fst t) /\ snd t = columns.
Proof.
  intros lt st rows columns t H P. unfold prepared_columns.
  assert (EventModel.mem lt ["ctc"; "cts"; "mctc"] = false) as ->.
  { apply mem_false. intros X. simpl in H, X. intuition (subst; discriminate). }
  rewrite prepared_same in * by exact H. unfold prepare in *. destruct (assoc st STATISTIC_TO_FIELDS) as [cols|].
  - destruct (scale_columns rows columns cols) as [d|] eqn:D; [|discriminate]. cbn [bind] in P. injection P as <-.
    rewrite (scale_nil _ _ _ _ D). cbn. auto.
  - cbn [bind] in *. injection P as <-. auto.
Qed.
Lemma prepared_table : forall lt st rows columns t, In lt ["ctc"; "cts"; "mctc"; "nbr_ctc"] -> prepared lt st rows columns = Ok t ->
  t = (rows, columns) /\ prepared_columns lt st columns = Ok columns.
Proof.
  intros lt st rows columns t H P. assert (K : check_ec rows columns = Ok (fst t) -> fst t = rows).
  { unfold check_ec. destruct (index_of _ _); [|congruence]. destruct (column_at _ _) as [cs|]; [cbn [bind]|discriminate]. destruct cs; [discriminate|].
    destruct (forallb _ _); congruence. }
  unfold prepared_columns. simpl in H. destruct H as [<-|[<-|[<-|[<-|[]]]]]; cbn in P |- *; try (injection P as <-; auto; fail);
    (destruct (check_ec rows columns) as [d|] eqn:D; [cbn [bind] in P|discriminate]; injection P as <-; cbn [fst] in K; rewrite K by reflexivity; auto).
Qed.
Lemma assign_nil : forall d columns n a b c f t, assign3 (d, columns) n a b c f = Ok t -> assign3 ([], columns) n a b c f = Ok ([], snd t).
Proof.
  intros d columns n a b c f t. unfold assign3. destruct (EnsModel.col_index columns a); [|discriminate]. destruct (EnsModel.col_index columns b); [|discriminate].
  destruct (EnsModel.col_index columns c); [|discriminate]. cbn [bind]. destruct (index_of n columns); cbn [mapM bind];
    (destruct (mapM _ d); [|discriminate]); cbn [bind]; intros H; injection H as <-; reflexivity.
Qed.
Lemma ecnt_nil : forall cols d columns t, ecnt_scale cols (d, columns) = Ok t -> ecnt_scale cols ([], columns) = Ok ([], snd t).
Proof.
  induction cols as [|c cols IH]; intros d columns t H; cbn [ecnt_scale] in *; [injection H as <-; reflexivity|]. cbv zeta in *.
  match type of H with bind ?x _ = _ => destruct x as [[d1 c1]|] eqn:A; [|discriminate] end.
  rewrite (assign_nil _ _ _ _ _ _ _ _ A). cbn [bind snd] in *. eapply IH, H.
Qed.
Lemma columns_ecnt : forall st rows columns t, prepared "ecnt" st rows columns = Ok t -> prepared_columns "ecnt" st columns = Ok (snd t) /\ prepare_ecnt st (rows, columns) = Ok t.
Proof.
  intros st rows columns t P. cbn in P. split; [|exact P]. unfold prepared_columns. cbn [EventModel.mem existsb String.eqb]. cbn.
  unfold prepare_ecnt in *.
  repeat (match type of P with bind ?x _ = _ => let H := fresh "A" in destruct x as [[? ?]|] eqn:H; [|discriminate]; rewrite (assign_nil _ _ _ _ _ _ _ _ H); cbn [bind snd] in *; clear H end).
  destruct (assoc st STATISTIC_TO_FIELDS); [|injection P as <-; reflexivity]. rewrite (ecnt_nil _ _ _ _ P). reflexivity.
Qed.

(** ** The statistics by name *)
Definition pair_triples : list (string * statistic_function * (list Sl1l2Spec.pair -> option Q -> Prop)) :=
  [("fbar", calculate_fbar, FbarOf); ("obar", calculate_obar, ObarOf); ("fobar", calculate_fobar, FobarOf);
   ("ffbar", calculate_ffbar, FfbarOf); ("oobar", calculate_oobar, OobarOf); ("mae", calculate_mae, MaeOf);
   ("mbias", calculate_mbias, MbiasOf); ("me", calculate_me, MeOf); ("me2", calculate_me2, Me2Of);
   ("mse", calculate_mse, MseOf); ("rmse", calculate_rmse, RmseOf); ("fstdev", calculate_fstdev, FstdevOf);
   ("ostdev", calculate_ostdev, OstdevOf); ("pr_corr", calculate_pr_corr, CorrOf);
   ("bcmse", calculate_bcmse, BcmseOf); ("bcrmse", calculate_bcrmse, BcrmseOf); ("msess", calculate_msess, MsessOf)].
Lemma pair_named : forall lw st M, In (st, M) pair_measures -> exists f, In (st, f, M) pair_triples /\ assoc st (functions lw) = Some f.
Proof.
  intros lw st M H. change pair_measures with (map (fun x => (fst (fst x), snd x)) pair_triples) in H. apply in_map_iff in H.
  destruct H as [[[st' f] M'] [E H]]. cbn [fst snd] in E. injection E as -> ->. exists f. split; [exact H|].
  assert (K : Forall (fun x : string * statistic_function * (list Sl1l2Spec.pair -> option Q -> Prop) => assoc (fst (fst x)) (functions lw) = Some (snd (fst x))) pair_triples)
    by (repeat constructor). exact (proj1 (Forall_forall _ _) K _ H).
Qed.
Definition gradient_functions : list statistic_function :=
  [calculate_fgbar; calculate_ogbar; calculate_mgbar; calculate_egbar; calculate_s1; calculate_s1_og; calculate_fgog_ratio].
Lemma gradient_named : forall lw st m, In (st, m) gradient_measures -> exists f, assoc st (functions lw) = Some f /\
  forall groups data columns, Summaries grad_fields columns groups data -> exists r, aggregated st f data columns = Ok r /\ Published (m (concat groups)) r.
Proof.
  intros lw st m H.
  assert (K : Forall2 (fun (x : string * (list (Q * Q) -> option Q)) f => assoc (fst x) (functions lw) = Some f /\
    forall groups data columns, Summaries grad_fields columns groups data -> exists r, aggregated (fst x) f data columns = Ok r /\ Published (snd x (concat groups)) r)
    gradient_measures gradient_functions).
  { unfold gradient_measures, gradient_functions. cbv zeta.
    repeat (apply Forall2_cons; [split; [reflexivity|]; intros groups data columns S; pose proof (C40_pooling_proof groups data columns S) as P; cbv zeta in P;
      rewrite Forall_forall in P; cbn [fst snd]; match goal with |- exists r, aggregated ?n ?f _ _ = _ /\ Published ?v r => apply (P (n, f, v)); simpl; tauto end|]).
    apply Forall2_nil. }
  revert K H. generalize gradient_functions as fs. generalize gradient_measures as l. intros l fs K. induction K as [|x f l fs X K IH]; [intros []|].
  intros [->|H]; [exists f; exact X|auto].
Qed.
Definition ensemble_functions : list statistic_function :=
  [calculate_ecnt_crps; calculate_ecnt_crpscl; calculate_ecnt_crps_emp; calculate_ecnt_crps_emp_fair; calculate_ecnt_spread_md; calculate_ecnt_crpscl_emp;
   calculate_ecnt_ign; calculate_ecnt_me; calculate_ecnt_mae; calculate_ecnt_mae_oerr; calculate_ecnt_me_oerr].
Definition root_functions : list statistic_function :=
  [calculate_ecnt_rmse; calculate_ecnt_spread; calculate_ecnt_rmse_oerr; calculate_ecnt_spread_oerr].
Lemma ensemble_named : forall lw st col, In (st, col) ensemble_means -> exists f, assoc st (functions lw) = Some f /\
  forall es data columns, Table ecnt_fields columns es data -> exists r, aggregated_ecnt st f data columns = Ok r /\ Published (by_total (field col) es) r.
Proof.
  intros lw st col H.
  assert (K : Forall2 (fun (x : string * string) f => assoc (fst x) (functions lw) = Some f /\
    forall es data columns, Table ecnt_fields columns es data -> exists r, aggregated_ecnt (fst x) f data columns = Ok r /\ Published (by_total (field (snd x)) es) r)
    ensemble_means ensemble_functions).
  { unfold ensemble_means, ensemble_functions.
    repeat (apply Forall2_cons; [split; [reflexivity|]; intros es data columns S; pose proof (C36_weighted_means_proof es data columns S) as P;
      rewrite Forall_forall in P; cbn [fst snd]; match goal with |- exists r, aggregated_ecnt ?n ?f _ _ = _ /\ Published (by_total (field ?c) _) r => apply (P (n, f, c)); simpl; tauto end|]).
    apply Forall2_nil. }
  revert K H. generalize ensemble_functions as fs. generalize ensemble_means as l. intros l fs K. induction K as [|x f l fs X K IH]; [intros []|].
  intros [->|H]; [exists f; exact X|auto].
Qed.
Lemma root_named : forall lw st col, In (st, col) ensemble_roots -> exists f, assoc st (functions lw) = Some f /\
  forall es data columns, Table ecnt_fields columns es data -> exists r, aggregated_ecnt st f data columns = Ok r /\ RootPublished (by_total (square_of col) es) r.
Proof.
  intros lw st col H.
  assert (K : Forall2 (fun (x : string * string) f => assoc (fst x) (functions lw) = Some f /\
    forall es data columns, Table ecnt_fields columns es data -> exists r, aggregated_ecnt (fst x) f data columns = Ok r /\ RootPublished (by_total (square_of (snd x)) es) r)
    ensemble_roots root_functions).
  { unfold ensemble_roots, root_functions.
    repeat (apply Forall2_cons; [split; [reflexivity|]; intros es data columns S; pose proof (C36_roots_proof es data columns S) as P;
      rewrite Forall_forall in P; cbn [fst snd]; match goal with |- exists r, aggregated_ecnt ?n ?f _ _ = _ /\ RootPublished (by_total (square_of ?c) _) r => apply (P (n, f, c)); simpl; tauto end|]).
    apply Forall2_nil. }
  revert K H. generalize root_functions as fs. generalize ensemble_roots as l. intros l fs K. induction K as [|x f l fs X K IH]; [intros []|].
  intros [->|H]; [exists f; exact X|auto].
Qed.
Lemma table_named : forall lw st tb, In (st, tb) table_scores -> exists f, assoc st (functions lw) = Some (two f) /\
  forall data columns h fa m c t, CtcTotals data columns h fa m c t -> exists r, f data columns = Ok r /\ Published (tb h fa m c t) r.
Proof.
  intros lw st tb H.
  assert (K : Forall2 (fun (x : string * (option Q -> option Q -> option Q -> option Q -> option Q -> option Q)) f => assoc (fst x) (functions lw) = Some (two f) /\
    forall data columns h fa m c t, CtcTotals data columns h fa m c t -> exists r, f data columns = Ok r /\ Published (snd x h fa m c t) r) table_scores
    [calculate_acc; calculate_fbias; calculate_fmean; calculate_pody; calculate_pofd; calculate_podn; calculate_far; calculate_csi; calculate_gss; calculate_hss; calculate_orss;
     calculate_acc; calculate_fbias; calculate_fmean; calculate_pody; calculate_pofd; calculate_podn; calculate_far; calculate_csi; calculate_gss; calculate_hss]).
  { unfold table_scores.
    repeat (apply Forall2_cons; [split; [reflexivity|]; intros data columns h fa m c t S; pose proof (ctc_textbook _ _ _ _ _ _ _ S) as P;
      rewrite Forall_forall in P; cbn [fst snd]; match goal with |- exists r, ?f _ _ = _ /\ Published (?v _ _ _ _ _) r => apply (P (f, v)); simpl; tauto end|]).
    apply Forall2_nil. }
  revert K H. generalize table_scores as l. intros l K. induction K as [|x f l fs X K IH]; [intros []|].
  intros [->|H]; [exists f; exact X|auto].
Qed.
Lemma order_named : forall lw st, In st order_free -> exists f, assoc st (functions lw) = Some (two f) /\
  forall data data' columns h fa m c t, CtcTotals data columns h fa m c t -> Permutation data data' -> f data columns = f data' columns.
Proof.
  intros lw st H.
  assert (K : Forall2 (fun (x : string) f => assoc x (functions lw) = Some (two f) /\
    forall data data' columns h fa m c t, CtcTotals data columns h fa m c t -> Permutation data data' -> f data columns = f data' columns) order_free
    [calculate_acc; calculate_fbias; calculate_fmean; calculate_pody; calculate_pofd; calculate_podn; calculate_far; calculate_csi; calculate_gss; calculate_hk; calculate_hss; calculate_odds; calculate_orss;
     calculate_acc; calculate_fbias; calculate_fmean; calculate_pody; calculate_pofd; calculate_podn; calculate_far; calculate_csi; calculate_gss; calculate_hk; calculate_hss; calculate_odds]).
  { unfold order_free.
    repeat (apply Forall2_cons; [split; [reflexivity|]; intros data data' columns h fa m c t S Y; pose proof (ctc_row_order _ _ _ _ _ _ _ _ S Y) as P;
      rewrite Forall_forall in P; match goal with |- ?f _ _ = _ => apply (P f); simpl; tauto end|]).
    apply Forall2_nil. }
  revert K H. generalize order_free as l. intros l K. induction K as [|x f l fs X K IH]; [intros []|].
  intros [->|H]; [exists f; exact X|auto].
Qed.
Lemma names_known : forall lw st f, assoc st (functions lw) = Some f -> In st statistic_names.
Proof.
  intros lw st f H. assert (K : In st (map fst (functions lw))).
  { revert H. generalize (functions lw). intros l; induction l as [|[k g] t IH]; cbn; [discriminate|].
    destruct (String.eqb_spec k st) as [X|X]; [intros _; left; exact X|right; auto]. }
  clear H. apply mem_iff. revert st K. rewrite <- Forall_forall. unfold functions. cbn [map fst]. repeat (apply Forall_cons; [reflexivity|]). apply Forall_nil.
Qed.
Lemma not_followed_known : forall st, In st not_followed -> In st statistic_names.
Proof. intros st K. apply mem_iff. revert st K. rewrite <- Forall_forall. unfold not_followed. repeat (apply Forall_cons; [reflexivity|]). apply Forall_nil. Qed.
Lemma table_chosen : forall {A} lw gen randint seed_gen state alpha iters threads cpus seeds method cbb lt columns equivalence single
    (items : list (A * list cell)) rq1 rq2 fields out (Result : string -> list (A * list cell) -> results -> Prop),
  let e := agg_engine lw gen randint seed_gen state alpha iters threads cpus seeds method cbb lt columns equivalence in
  Rectangular (map snd items) columns -> items <> [] ->
  series_val rq2 = [] -> Fields rq1 fields -> Plain rq1 fields -> derived_series rq1 = [] ->
  calculate_stats e single lt columns (map snd items) rq1 rq2 = Ok out ->
  (forall st chosen r, incl chosen items -> chosen <> [] -> ResultOf e single columns st (map snd chosen) r -> Result st chosen r) ->
  Forall2 (OutputRow columns items rq1 fields Result) (combinations (map snd fields)) out.
Proof.
  intros A lw gen randint seed_gen state alpha iters threads cpus seeds method cbb lt columns equivalence single items rq1 rq2 fields out Result e HR NE S F P D H K.
  assert (NE' : map snd items <> []) by (destruct items; [contradiction|discriminate]).
  pose proof (C60_one_axis_proof _ _ _ _ _ _ _ _ _ HR NE' S F P D H) as R.
  eapply forall2_imp; [|exact R]. intros p o Q. eapply output_row; [exact Q|exact K].
Qed.
Lemma plain_snd : forall data, map snd (plain_items data) = data.
Proof. intros. unfold plain_items. rewrite map_map. apply map_id. Qed.
Lemma plain_nil : forall data, data <> [] -> plain_items data <> [].
Proof. intros [|]; [contradiction|discriminate]. Qed.
Lemma map_nonempty : forall {A B} (f : A -> B) l, l <> [] -> map f l <> [].
Proof. intros A B f [|]; [contradiction|discriminate]. Qed.
Lemma forall2_split : forall {A B C} (P : A -> B -> Prop) (Q : A -> C -> Prop) (T : B -> C -> Prop) l l1 l2,
  Forall2 P l l1 -> Forall2 Q l l2 -> (forall x y z, In x l -> P x y -> Q x z -> T y z) -> Forall2 T l1 l2.
Proof.
  intros A B C P Q T l l1 l2 H. revert l2. induction H; intros l2 H2 K; inversion H2; subst; constructor.
  - eapply K; [left; reflexivity|eassumption|eassumption].
  - apply IHForall2; [assumption|]. intros; eapply K; [right|..]; eassumption.
Qed.
Lemma forall2_eq : forall {A} (l l' : list A), Forall2 eq l l' -> l = l'.
Proof. intros A l l' H; induction H; congruence. Qed.
Lemma var_same : forall rq (a b : option string), (fcst_vars rq = [] /\ a = None \/ exists v rest, fcst_vars rq = v :: rest /\ a = Some v) ->
  (fcst_vars rq = [] /\ b = None \/ exists v rest, fcst_vars rq = v :: rest /\ b = Some v) -> a = b.
Proof. intros rq a b [[X ->]|(v & rest & X & ->)] [[Y ->]|(w & rest' & Y & ->)]; congruence. Qed.
Lemma stat_listed : forall rq fields before stat, Fields rq fields -> In (before ++ [stat])%list (combinations (map snd fields)) -> In stat (list_stat rq).
Proof.
  intros rq fields before stat [_ F] H. rewrite combinations_product in H. apply product_combination in H.
  assert (K : exists pre, fields = (pre ++ [("stat_name", list_stat rq)])%list).
  { destruct F as [[_ ->]|[_ ->]]; [exists (series_val rq ++ [(indy_var rq, indy_vals rq)])%list; rewrite <- app_assoc; reflexivity|eexists; reflexivity]. }
  destruct K as [pre ->]. apply Forall2_app_inv_l in H. destruct H as (a & b & _ & Hb & E). inversion Hb as [|x y ? ? X Y]; subst. inversion Y; subst.
  apply app_inj_tail in E. destruct E as [_ ->]. exact X.
Qed.

(** ** Counts, rates and logarithms *)
Definition Tabled (f : tdata -> list string -> res pyval) (M : Q -> Q -> Q -> Q -> Q -> option Q -> Prop) : Prop :=
  forall data columns h fa m c t r, CtcTotals data columns (Some h) (Some fa) (Some m) (Some c) (Some t) -> Genuine h fa m c t ->
    f data columns = Ok r -> M h fa m c t r.
Lemma tabled_counts : Forall (fun '(f, M) => Tabled f M)
  [(calculate_ctc_total, fun h fa m c t r => Published (Some t) r); (calculate_cts_total, fun h fa m c t r => Published (Some t) r);
   (calculate_ctc_fy_oy, fun h fa m c t r => Published (Some h) r); (calculate_ctc_fy_on, fun h fa m c t r => Published (Some fa) r);
   (calculate_ctc_fn_oy, fun h fa m c t r => Published (Some m) r); (calculate_ctc_fn_on, fun h fa m c t r => Published (Some c) r);
   (calculate_ctc_oy, fun h fa m c t r => Published (Some (h + m)) r); (calculate_ctc_on, fun h fa m c t r => Published (Some (fa + c)) r);
   (calculate_ctc_fy, fun h fa m c t r => Published (Some (fa + h)) r); (calculate_ctc_fn, fun h fa m c t r => Published (Some (c + m)) r)].
Proof.
  assert (K : forall f name i, In (f, name) [ (calculate_ctc_total, "total"); (calculate_cts_total, "total");
      (calculate_ctc_fn_on, "fn_on"); (calculate_ctc_fn_oy, "fn_oy"); (calculate_ctc_fy_on, "fy_on"); (calculate_ctc_fy_oy, "fy_oy") ] ->
    In name ["fy_oy"; "fy_on"; "fn_oy"; "fn_on"; "total"] ->
    (forall data columns h fa m c t, CtcTotals data columns (Some h) (Some fa) (Some m) (Some c) (Some t) -> ColumnTotal data columns name (Some (i h fa m c t))) ->
    Tabled f (fun h fa m c t r => Published (Some (i h fa m c t)) r)).
  { intros f name i I N T data columns h fa m c t r CT _ E. pose proof (ctc_totals_raise data columns (CtcSpec.ct_rect _ _ _ _ _ _ _ CT)) as P. rewrite Forall_forall in P.
    destruct (P _ I (CtcSpec.ct_num _ _ _ _ _ _ _ CT _ N)) as [_ P']. destruct (P' _ (T _ _ _ _ _ _ _ CT)) as (r' & E' & X). rewrite E in E'. injection E' as ->. exact X. }
  assert (K2 : forall f a b i j, In (f, a, b) [ (calculate_ctc_oy, "fy_oy", "fn_oy"); (calculate_ctc_on, "fy_on", "fn_on");
      (calculate_ctc_fy, "fy_on", "fy_oy"); (calculate_ctc_fn, "fn_on", "fn_oy") ] ->
    In a ["fy_oy"; "fy_on"; "fn_oy"; "fn_on"; "total"] -> In b ["fy_oy"; "fy_on"; "fn_oy"; "fn_on"; "total"] ->
    (forall data columns h fa m c t, CtcTotals data columns (Some h) (Some fa) (Some m) (Some c) (Some t) ->
       ColumnTotal data columns a (Some (i h fa m c t)) /\ ColumnTotal data columns b (Some (j h fa m c t))) ->
    Tabled f (fun h fa m c t r => Published (Some (i h fa m c t + j h fa m c t)) r)).
  { intros f a b i j I N1 N2 T data columns h fa m c t r CT _ E. pose proof (ctc_marginals_raise data columns (CtcSpec.ct_rect _ _ _ _ _ _ _ CT)) as P. rewrite Forall_forall in P.
    destruct (P _ I (CtcSpec.ct_num _ _ _ _ _ _ _ CT _ N1) (CtcSpec.ct_num _ _ _ _ _ _ _ CT _ N2)) as [_ P']. destruct (T _ _ _ _ _ _ _ CT) as [T1 T2].
    destruct (P' _ _ T1 T2) as (r' & E' & X). rewrite E in E'. injection E' as ->. exact X. }
  repeat apply Forall_cons; try apply Forall_nil.
  - apply (K _ "total" (fun h fa m c t => t)); [simpl; tauto|simpl; tauto|intros ? ? ? ? ? ? ? []; assumption].
  - apply (K _ "total" (fun h fa m c t => t)); [simpl; tauto|simpl; tauto|intros ? ? ? ? ? ? ? []; assumption].
  - apply (K _ "fy_oy" (fun h fa m c t => h)); [simpl; tauto|simpl; tauto|intros ? ? ? ? ? ? ? []; assumption].
  - apply (K _ "fy_on" (fun h fa m c t => fa)); [simpl; tauto|simpl; tauto|intros ? ? ? ? ? ? ? []; assumption].
  - apply (K _ "fn_oy" (fun h fa m c t => m)); [simpl; tauto|simpl; tauto|intros ? ? ? ? ? ? ? []; assumption].
  - apply (K _ "fn_on" (fun h fa m c t => c)); [simpl; tauto|simpl; tauto|intros ? ? ? ? ? ? ? []; assumption].
  - apply (K2 _ "fy_oy" "fn_oy" (fun h fa m c t => h) (fun h fa m c t => m)); [simpl; tauto|simpl; tauto|simpl; tauto|intros ? ? ? ? ? ? ? []; split; assumption].
  - apply (K2 _ "fy_on" "fn_on" (fun h fa m c t => fa) (fun h fa m c t => c)); [simpl; tauto|simpl; tauto|simpl; tauto|intros ? ? ? ? ? ? ? []; split; assumption].
  - apply (K2 _ "fy_on" "fy_oy" (fun h fa m c t => fa) (fun h fa m c t => h)); [simpl; tauto|simpl; tauto|simpl; tauto|intros ? ? ? ? ? ? ? []; split; assumption].
  - apply (K2 _ "fn_on" "fn_oy" (fun h fa m c t => c) (fun h fa m c t => m)); [simpl; tauto|simpl; tauto|simpl; tauto|intros ? ? ? ? ? ? ? []; split; assumption].
Qed.
Lemma two_rates data columns h fa m c t : CtcTotals data columns (Some h) (Some fa) (Some m) (Some c) (Some t) ->
  exists p f, calculate_pody data columns = Ok p /\ calculate_pofd data columns = Ok f /\
    Published (oratio (Some h) (Some (h + m))) p /\ Published (oratio (Some fa) (Some (fa + c))) f.
Proof.
  intro CT. pose proof (ctc_textbook _ _ _ _ _ _ _ CT) as P. rewrite Forall_forall in P.
  destruct (P (calculate_pody, tb_pody)) as (p & E1 & P1); [simpl; tauto|]. destruct (P (calculate_pofd, tb_pofd)) as (f & E2 & P2); [simpl; tauto|].
  exists p, f. auto.
Qed.
Lemma tabled_hk : Tabled calculate_hk (fun h fa m c t r => RateDifference h fa m c r).
Proof.
  intros data columns h fa m c t r CT _ E. destruct (two_rates _ _ _ _ _ _ _ CT) as (p & f & E1 & E2 & P1 & P2). exists p, f. split; [exact P1|]. split; [exact P2|].
  rewrite (hk_value _ _ _ _ E1 E2) in E. injection E as <-. destruct p, f; cbn [osub Published]; try reflexivity. apply rhu_nearest.
Qed.
Lemma tabled_odds : Tabled calculate_odds (fun h fa m c t r => RateOdds h fa m c r).
Proof.
  intros data columns h fa m c t r CT _ E. destruct (two_rates _ _ _ _ _ _ _ CT) as (p & f & E1 & E2 & P1 & P2). exists p, f. split; [exact P1|]. split; [exact P2|].
  unfold calculate_odds in E. rewrite E1, E2 in E. cbn [bind] in E. destruct p as [p|], f as [f|]; cbn -[round_half_up std_exns] in E |- *; try (injection E as <-; exact I).
  destruct (Qeq_bool (f * (1 - p)) 0) eqn:Z; cbn -[round_half_up] in E; injection E as <-; destruct (Qeq_dec (f * (1 - p)) 0) as [Y|Y]; [exact I| | |apply rhu_nearest];
    [apply Qeq_bool_iff in Z; contradiction|apply Qeq_bool_neq in Z; contradiction].
Qed.

Lemma measure_named lw : LambertW lw -> forall st M, In (st, M) table_measures -> exists f, assoc st (functions lw) = Some (two f) /\ Tabled f M.
Proof.
  intros LW st M H.
  assert (K : Forall2 (fun (x : string * (Q -> Q -> Q -> Q -> Q -> option Q -> Prop)) f => assoc (fst x) (functions lw) = Some (two f) /\ Tabled f (snd x)) table_measures
    [calculate_ctc_total; calculate_cts_total; calculate_ctc_total; calculate_ctc_fy_oy; calculate_ctc_fy_on; calculate_ctc_fn_oy; calculate_ctc_fn_on;
     calculate_ctc_oy; calculate_ctc_on; calculate_ctc_fy; calculate_ctc_fn; calculate_hk; calculate_hk; calculate_odds; calculate_odds; calculate_odds1;
     calculate_lodds; calculate_sedi; calculate_edi; calculate_seds; calculate_eds; fun d c => calculate_bagss d c lw]).
  { pose proof tabled_counts as P. rewrite Forall_forall in P.
    unfold table_measures. do 11 (apply Forall2_cons; [split; [reflexivity|];
      match goal with |- Tabled ?f ?v => apply (P (f, v)); simpl; tauto end|]).
    do 2 (apply Forall2_cons; [split; [reflexivity|exact tabled_hk]|]). do 2 (apply Forall2_cons; [split; [reflexivity|exact tabled_odds]|]).
    apply Forall2_cons; [split; [reflexivity|]|].
    { intros data columns h fa m c t [r|] CT G E; [right|left; reflexivity]. apply odds1_odds in E. exact (tabled_odds _ _ _ _ _ _ _ _ CT G E). }
    apply Forall2_cons; [split; [reflexivity|]|].
    { intros data columns h fa m c t r CT G E. destruct (C47_log_odds_proof _ _ _ _ _ _ _ CT) as (r' & E' & X). rewrite E in E'. injection E' as <-. exact X. }
    apply Forall2_cons; [split; [reflexivity|]|].
    { intros data columns h fa m c t r CT G E PS H0 N. destruct (C47_extremal_proof _ _ _ _ _ _ _ _ CT G PS N) as ((r' & E' & X) & _). rewrite E in E'. injection E' as <-. exact X. }
    apply Forall2_cons; [split; [reflexivity|]|].
    { intros data columns h fa m c t r CT G E PS H0 N. destruct (C47_extremal_proof _ _ _ _ _ _ _ _ CT G PS N) as (_ & (r' & E' & X)). rewrite E in E'. injection E' as <-. exact X. }
    apply Forall2_cons; [split; [reflexivity|]|].
    { intros data columns h fa m c t r CT G E. destruct (C47_dependency_proof _ _ _ _ _ _ _ CT G) as ((r' & E' & X) & _). rewrite E in E'. injection E' as <-. exact X. }
    apply Forall2_cons; [split; [reflexivity|]|].
    { intros data columns h fa m c t r CT G E. destruct (C47_dependency_proof _ _ _ _ _ _ _ CT G) as (_ & (r' & E' & X)). rewrite E in E'. injection E' as <-. exact X. }
    apply Forall2_cons; [split; [reflexivity|]|apply Forall2_nil].
    intros data columns h fa m c t r CT G E PH PM PF. destruct (C48_adjusted_proof _ _ _ _ _ _ _ _ LW CT G PH PM PF) as (misses & v & A & _ & E' & N & _).
    exists misses, v. split; [exact A|]. rewrite E in E'. injection E' as ->. split; [reflexivity|exact N]. }
  revert K H. generalize table_measures as l. intros l K. induction K as [|x f l fs X K IH]; [intros []|].
  intros [->|H]; [exists f; exact X|auto].
Qed.
Lemma numbers_perm data data' columns name vs : Permutation data data' -> AllNumbers data columns name vs -> exists vs', AllNumbers data' columns name vs' /\ Permutation vs vs'.
Proof.
  intros P (i & CA & E). assert (K : exists vs', map (fun r => nth_error r i) data' = map (fun q => Some (CNum q)) vs' /\ Permutation vs vs').
  { clear CA. revert vs E. induction P as [|x l l' P IH|x y l|l1 l2 l3 P1 IH1 P2 IH2]; intros vs E.
    - exists vs. split; [exact E|reflexivity].
    - destruct vs as [|v vs]; [discriminate|]. injection E as E1 E2. destruct (IH _ E2) as (vs' & E' & P'). exists (v :: vs'). cbn. rewrite E1, E'. split; [reflexivity|constructor; exact P'].
    - destruct vs as [|v [|u vs]]; try discriminate. injection E as E1 E2 E3. exists (u :: v :: vs). cbn. rewrite E1, E2, E3. split; [reflexivity|constructor].
    - destruct (IH1 _ E) as (a & E1 & Q1). destruct (IH2 _ E1) as (b & E2 & Q2). exists b. split; [exact E2|etransitivity; eassumption]. }
  destruct K as (vs' & E' & P'). exists vs'. split; [exists i; auto|exact P'].
Qed.

(** The statements of PropertiesPool.v. *)
Lemma C116_pairs_proof : forall lambertw gen randint seed_gen state alpha iterations threads cpus seeds method cbb equivalence
    single columns items rq1 rq2 fields out,
  let e := agg_engine lambertw gen randint seed_gen state alpha iterations threads cpus seeds method cbb "sl1l2" columns equivalence in
  items <> [] -> (forall b r, In (b, r) items -> SummaryRow sl1l2_fields columns b r) ->
  series_val rq2 = [] -> Fields rq1 fields -> Plain rq1 fields -> derived_series rq1 = [] ->
  (single = true \/ method <> OtherMethod) ->
  calculate_stats e single "sl1l2" columns (map snd items) rq1 rq2 = Ok out ->
  Forall2 (OutputRow columns items rq1 fields (fun st chosen r =>
      forall Measure, In (st, Measure) pair_measures -> Measure (concat (map fst chosen)) (value r)))
    (combinations (map snd fields)) out.
Proof.
  intros lw gen randint seed_gen state alpha iters threads cpus seeds method cbb equivalence single columns items rq1 rq2 fields out e NE HS S F P D M H.
  assert (HR : Rectangular (map snd items) columns).
  { intros r Hr. apply in_map_iff in Hr. destruct Hr as [[b r'] [<- Hr]]. apply (HS _ _ Hr). }
  eapply table_chosen; [exact HR|exact NE|exact S|exact F|exact P|exact D|exact H|]. clear H HR.
  intros st chosen r I NC R.  intros Measure HM. destruct (pair_named lw _ _ HM) as (f & HT & HF).
  assert (exists sorted d, InOrder columns (map snd chosen) sorted /\ prepare st sorted columns = Ok d /\ f d columns true = Ok (value r)) as (sorted & d & O & PD & V).
  { destruct (prepared_columns "sl1l2" st columns) as [names|] eqn:NM.
    - destruct (pool_result _ _ _ _ _ _ _ _ _ _ _ _ _ _ _ _ _ _ _ _ _ R (map_nonempty _ _ NC) M HF NM) as (sorted & t & O & T & V).
      destruct (columns_same "sl1l2" st sorted columns t (or_introl eq_refl) T) as (X & Y & Z). rewrite X in NM. injection NM as <-.
      exists sorted, (fst t). auto.
    - exfalso. assert (exists sorted t, prepared "sl1l2" st sorted columns = Ok t) as (sorted & t & T).
      { inversion R as [E|? sorted prd ? _ _ _ PP _|? sorted prd ? _ _ _ PP _|? sorted prd _ _ _ PP _]; subst; [destruct chosen; [contradiction|discriminate]| | |];
          exists sorted; unfold e in PP; cbn [prep agg_engine] in PP; destruct (prepared _ _ _ _) as [t|]; try discriminate; exists t; reflexivity. }
      destruct (columns_same "sl1l2" st sorted columns t (or_introl eq_refl) T) as (X & _). congruence. }
  destruct O as [PM _]. apply Permutation_sym, Permutation_map_inv in PM. destruct PM as (ch & -> & PM).
  apply (measures_perm st Measure (concat (map fst ch)) _ _ HM); [apply concat_fst_perm, Permutation_sym, PM|].
  assert (SM : Summaries sl1l2_fields columns (map fst ch) (map snd ch)).
  { split; [apply map_nonempty; intros ->; apply Permutation_sym, Permutation_nil in PM; contradiction|].
    assert (I' : forall b x, In (b, x) ch -> SummaryRow sl1l2_fields columns b x).
    { intros b x Hx. apply HS, I. apply (Permutation_in _ (Permutation_sym PM)), Hx. }
    clear - I'. induction ch as [|[b x] t IH]; cbn [map fst snd]; constructor; [apply I'; left; reflexivity|apply IH; intros; apply I'; right; assumption]. }
  pose proof (sl1l2_pooling _ _ _ SM) as PL. rewrite Forall_forall in PL. destruct (PL _ HT) as (r' & AG & MV).
  unfold aggregated in AG. rewrite PD in AG. cbn [bind] in AG. rewrite V in AG. injection AG as ->. exact MV.
Qed.

Lemma C116_succeeds_proof : forall lambertw gen randint seed_gen state alpha iterations threads cpus seeds method cbb equivalence
    columns items rq1 rq2 fields,
  let e := agg_engine lambertw gen randint seed_gen state alpha iterations threads cpus seeds method cbb "sl1l2" columns equivalence in
  items <> [] -> (forall b r, In (b, r) items -> SummaryRow sl1l2_fields columns b r) ->
  series_val rq2 = [] -> Fields rq1 fields -> Plain rq1 fields -> derived_series rq1 = [] ->
  (forall n, In n (map fst (series_val rq1)) -> In n columns) ->
  ((exists n, In n (map fst fields) /\ In n columns) \/ (fcst_vars rq1 <> [] /\ In "fcst_var" columns)) ->
  (forall fs n, SortFields columns fs -> In n fs -> In n columns /\ OneKind columns (map snd items) n) ->
  (forall stat st, In stat (list_stat rq1) -> InSmallLetters stat st -> In st (map fst pair_measures)) ->
  exists out, calculate_stats e true "sl1l2" columns (map snd items) rq1 rq2 = Ok out.
Proof.
  intros lw gen randint seed_gen state alpha iters threads cpus seeds method cbb equivalence columns items rq1 rq2 fields e NE HS S F P D SC AC SK SN.
  assert (HR : Rectangular (map snd items) columns).
  { intros r Hr. apply in_map_iff in Hr. destruct Hr as [[b r'] [<- Hr]]. apply (HS _ _ Hr). }
  unfold calculate_stats. rewrite S. cbv zeta.
  match goal with |- context [proceed_with_axis ?a ?b ?c ?g ?d ?x ?y ?z ?w] => destruct (C55_total_proof a b c g d x y fields z w HR F P D SC AC) as (st' & out & E) end.
  - intros fs n SF I. apply (SK fs n SF I).
  - intros before stat st rows CB SL SEL. destruct (selection_map _ _ _ _ SEL) as (chosen & SEL' & ->).
    destruct chosen as [|x0 chosen0] eqn:EC; [exists NoResult; constructor|]. rewrite <- EC in *. assert (NC : chosen <> []) by (rewrite EC; discriminate). clear EC.
    assert (I : incl chosen items) by (intros y Y; apply (selection_in _ _ _ y SEL') in Y; apply Y).
    assert (HK : forall r, In r (map snd chosen) -> has_key columns r).
    { intros r Hr. apply in_map_iff in Hr. destruct Hr as [y [<- Y]]. assert (L : List.length (snd y) = List.length columns) by (apply HR; apply in_map, I, Y).
      assert (G : forall n, In n (sort_fields columns) -> In n columns) by (intros n Hn; apply (SK (sort_fields columns) n); [apply sort_fields_iff; reflexivity|exact Hn]).
      assert (exists k, CellsOf columns (sort_fields columns) (snd y) k) as [k E].
      { clear - G L. revert G. generalize (sort_fields columns) as fs. induction fs as [|n fs IH]; intros G; [exists []; constructor|].
        destruct IH as [k K]; [intros m Hm; apply G; right; exact Hm|].
        destruct (index_of n columns) as [i|] eqn:X; [|apply index_of_None in X; exfalso; apply X, G; left; reflexivity].
        pose proof (index_of_lt _ _ _ X) as LT. apply index_of_ColumnAt in X. destruct (nth_error (snd y) i) as [c|] eqn:C; [exists (c :: k); constructor; [exists i; auto|exact K]|].
        exfalso. apply nth_error_None in C. lia. }
      exists k, (sort_fields columns). split; [apply sort_fields_iff; reflexivity|exact E]. }
    assert (O : InOrder columns (map snd chosen) (RocModel.sort_by (row_le columns) (map snd chosen))).
    { apply sort_in_order; [exact HK|]. apply kinds_ok; [exact HK|]. intros fs n SF Hn. destruct (SK fs n SF Hn) as [_ [A|A]]; [left|right]; intros r c Hr; apply A;
        apply in_map_iff in Hr; destruct Hr as [y [<- Y]]; apply in_map, I, Y. }
    set (sorted := RocModel.sort_by (row_le columns) (map snd chosen)) in *. clearbody sorted.
    assert (HM : exists M, In (st, M) pair_measures).
    { assert (ST : In stat (list_stat rq1)) by (apply (stat_listed rq1 fields before stat F); rewrite combinations_product; apply product_combination; exact CB).
      specialize (SN stat st ST SL). apply in_map_iff in SN. destruct SN as [[st0 M] [<- X]]. exists M. exact X. }
    destruct HM as [M HM]. destruct (pair_named lw _ _ HM) as (f & HT & HF).
    destruct O as [PM OR]. pose proof PM as PM0. apply Permutation_sym, Permutation_map_inv in PM. destruct PM as (ch & -> & PM).
    assert (SM : Summaries sl1l2_fields columns (map fst ch) (map snd ch)).
    { split; [apply map_nonempty; intros ->; apply Permutation_sym, Permutation_nil in PM; contradiction|].
      assert (I' : forall b x, In (b, x) ch -> SummaryRow sl1l2_fields columns b x).
      { intros b x Hx. apply HS, I. apply (Permutation_in _ (Permutation_sym PM)), Hx. }
      clear - I'. induction ch as [|[b x] t IH]; cbn [map fst snd]; constructor; [apply I'; left; reflexivity|apply IH; intros; apply I'; right; assumption]. }
    pose proof (sl1l2_pooling _ _ _ SM) as PL. rewrite Forall_forall in PL. destruct (PL _ HT) as (r' & AG & _).
    unfold aggregated in AG. destruct (prepare st (map snd ch) columns) as [d|] eqn:PD; [|discriminate]. cbn [bind] in AG.
    assert (T : prepared "sl1l2" st (map snd ch) columns = Ok (d, columns)).
    { rewrite prepared_same by (left; reflexivity). rewrite PD. reflexivity. }
    exists (Results None r' None). apply (result_single _ _ _ _ _ (map snd ch) d).
    + apply map_nonempty, NC.
    + reflexivity.
    + split; [exact PM0|exact OR].
    + unfold e. cbn [prep agg_engine]. rewrite T. reflexivity.
    + unfold e. cbn [calc agg_engine]. unfold calc_values, function_named. rewrite HF. destruct (columns_same "sl1l2" st _ columns _ (or_introl eq_refl) T) as (X & _).
      rewrite X. cbn [bind]. exact AG.
  - rewrite E. cbn [bind]. exists out. reflexivity.
Qed.

Lemma C116_gradients_proof : forall lambertw gen randint seed_gen state alpha iterations threads cpus seeds method cbb equivalence
    single columns items rq1 rq2 fields out,
  let e := agg_engine lambertw gen randint seed_gen state alpha iterations threads cpus seeds method cbb "grad" columns equivalence in
  items <> [] -> (forall b r, In (b, r) items -> SummaryRow grad_fields columns b r) ->
  series_val rq2 = [] -> Fields rq1 fields -> Plain rq1 fields -> derived_series rq1 = [] ->
  (single = true \/ method <> OtherMethod) ->
  calculate_stats e single "grad" columns (map snd items) rq1 rq2 = Ok out ->
  Forall2 (OutputRow columns items rq1 fields (fun st chosen r =>
      forall measure, In (st, measure) gradient_measures -> Published (measure (concat (map fst chosen))) (value r)))
    (combinations (map snd fields)) out.
Proof.
  intros lw gen randint seed_gen state alpha iters threads cpus seeds method cbb equivalence single columns items rq1 rq2 fields out e NE HS S F P D M H.
  assert (HR : Rectangular (map snd items) columns).
  { intros r Hr. apply in_map_iff in Hr. destruct Hr as [[b r'] [<- Hr]]. apply (HS _ _ Hr). }
  eapply table_chosen; [exact HR|exact NE|exact S|exact F|exact P|exact D|exact H|]. clear H HR.
  intros st chosen r I NC R.  intros measure HM. destruct (gradient_named lw _ _ HM) as (f & HF & PL).
  assert (exists sorted d, InOrder columns (map snd chosen) sorted /\ prepare st sorted columns = Ok d /\ f d columns true = Ok (value r)) as (sorted & d & O & PD & V).
  { assert (LT : In "grad" ["sl1l2"; "sal1l2"; "grad"; "vl1l2"; "val1l2"; "vcnt"]) by (simpl; tauto). destruct (prepared_columns "grad" st columns) as [names|] eqn:NM.
    - destruct (pool_result _ _ _ _ _ _ _ _ _ _ _ _ _ _ _ _ _ _ _ _ _ R (map_nonempty _ _ NC) M HF NM) as (sorted & t & O & T & V).
      destruct (columns_same "grad" st sorted columns t LT T) as (X & Y & Z). rewrite X in NM. injection NM as <-.
      exists sorted, (fst t). auto.
    - exfalso. assert (exists sorted t, prepared "grad" st sorted columns = Ok t) as (sorted & t & T).
      { inversion R as [E|? sorted prd ? _ _ _ PP _|? sorted prd ? _ _ _ PP _|? sorted prd _ _ _ PP _]; subst; [destruct chosen; [contradiction|discriminate]| | |];
          exists sorted; unfold e in PP; cbn [prep agg_engine] in PP; destruct (prepared _ _ _ _) as [t|]; try discriminate; exists t; reflexivity. }
      destruct (columns_same "grad" st sorted columns t LT T) as (X & _). congruence. }
  destruct O as [PM _]. apply Permutation_sym, Permutation_map_inv in PM. destruct PM as (ch & -> & PM).
  assert (SM : Summaries grad_fields columns (map fst ch) (map snd ch)).
  { split; [apply map_nonempty; intros ->; apply Permutation_sym, Permutation_nil in PM; contradiction|].
    assert (I' : forall b x, In (b, x) ch -> SummaryRow grad_fields columns b x).
    { intros b x Hx. apply HS, I. apply (Permutation_in _ (Permutation_sym PM)), Hx. }
    clear - I'. induction ch as [|[b x] t IH]; cbn [map fst snd]; constructor; [apply I'; left; reflexivity|apply IH; intros; apply I'; right; assumption]. }
  destruct (PL _ _ _ SM) as (r' & AG & MV).
  unfold aggregated in AG. rewrite PD in AG. cbn [bind] in AG. rewrite V in AG. injection AG as ->.
  refine (proj1 (published_proper _ _ (gradients_perm st measure _ _ HM _) _ _ eq_refl) MV). apply concat_fst_perm, Permutation_sym, PM.
Qed.

Lemma C116_ensembles_proof : forall lambertw gen randint seed_gen state alpha iterations threads cpus seeds method cbb equivalence
    single columns items rq1 rq2 fields out,
  let e := agg_engine lambertw gen randint seed_gen state alpha iterations threads cpus seeds method cbb "ecnt" columns equivalence in
  items <> [] -> (forall b r, In (b, r) items -> Shows ecnt_fields columns b r) ->
  series_val rq2 = [] -> Fields rq1 fields -> Plain rq1 fields -> derived_series rq1 = [] ->
  (single = true \/ method <> OtherMethod) ->
  calculate_stats e single "ecnt" columns (map snd items) rq1 rq2 = Ok out ->
  Forall2 (OutputRow columns items rq1 fields (fun st chosen r =>
      (forall column, In (st, column) ensemble_means -> Published (by_total (field column) (map fst chosen)) (value r)) /\
      (forall column, In (st, column) ensemble_roots -> RootPublished (by_total (square_of column) (map fst chosen)) (value r))))
    (combinations (map snd fields)) out.
Proof.
  intros lw gen randint seed_gen state alpha iters threads cpus seeds method cbb equivalence single columns items rq1 rq2 fields out e NE HS S F P D M H.
  assert (HR : Rectangular (map snd items) columns).
  { intros r Hr. apply in_map_iff in Hr. destruct Hr as [[b r'] [<- Hr]]. apply (HS _ _ Hr). }
  eapply table_chosen; [exact HR|exact NE|exact S|exact F|exact P|exact D|exact H|]. clear H HR.
  intros st chosen r I NC R.  
  assert (G : forall f, assoc st (functions lw) = Some f -> exists ch, Permutation chosen ch /\ aggregated_ecnt st f (map snd ch) columns = Ok (value r)).
  { intros f HF. assert (exists sorted t, prepared "ecnt" st sorted columns = Ok t) as (sorted0 & t0 & T0).
    { inversion R as [E|? sorted prd ? _ _ _ PP _|? sorted prd ? _ _ _ PP _|? sorted prd _ _ _ PP _]; subst; [destruct chosen; [contradiction|discriminate]| | |];
        exists sorted; unfold e in PP; cbn [prep agg_engine] in PP; destruct (prepared _ _ _ _) as [t|]; try discriminate; exists t; reflexivity. }
    destruct (columns_ecnt _ _ _ _ T0) as [NM _].
    destruct (pool_result _ _ _ _ _ _ _ _ _ _ _ _ _ _ _ _ _ _ _ _ _ R (map_nonempty _ _ NC) M HF NM) as (sorted & t & O & T & V).
    destruct (columns_ecnt _ _ _ _ T) as [NM' PE]. rewrite NM in NM'. injection NM' as NM'.
    destruct O as [PM _]. apply Permutation_sym, Permutation_map_inv in PM. destruct PM as (ch & -> & PM). exists ch. split; [exact PM|].
    unfold aggregated_ecnt. rewrite PE. cbn [bind]. rewrite <- NM'. exact V. }
  assert (TB : forall ch, Permutation chosen ch -> Table ecnt_fields columns (map fst ch) (map snd ch)).
  { intros ch PM. split; [apply map_nonempty; intros ->; apply Permutation_sym, Permutation_nil in PM; contradiction|].
    assert (I' : forall b x, In (b, x) ch -> Shows ecnt_fields columns b x).
    { intros b x Hx. apply HS, I. apply (Permutation_in _ (Permutation_sym PM)), Hx. }
    clear - I'. induction ch as [|[b x] t IH]; cbn [map fst snd]; constructor; [apply I'; left; reflexivity|apply IH; intros; apply I'; right; assumption]. }
  split; intros column HC.
  - destruct (ensemble_named lw _ _ HC) as (f & HF & PL). destruct (G f HF) as (ch & PM & AG). destruct (PL _ _ _ (TB ch PM)) as (r' & AG' & MV).
    rewrite AG in AG'. injection AG' as <-. refine (proj1 (published_proper _ _ (by_total_perm _ _ _ _) _ _ eq_refl) MV). apply Permutation_map, Permutation_sym, PM.
  - destruct (root_named lw _ _ HC) as (f & HF & PL). destruct (G f HF) as (ch & PM & AG). destruct (PL _ _ _ (TB ch PM)) as (r' & AG' & MV).
    rewrite AG in AG'. injection AG' as <-. refine (root_oeq _ _ _ (by_total_perm _ _ _ _) MV). apply Permutation_map, Permutation_sym, PM.
Qed.

Lemma C116_line_type_refuted_proof :
  forall lambertw gen randint seed_gen state alpha iterations threads cpus seeds method cbb equivalence, exists out,
    calculate_stats (agg_engine lambertw gen randint seed_gen state alpha iterations threads cpus seeds method cbb "None" pool_columns equivalence)
      true "None" pool_columns (map snd pool_items) (pool_request ["FBAR"]) no_request = Ok out /\
    map (fun o => value (stat_of o)) out = [Some 2.2500000; Some 0.7500000].
Proof.
  intros. eexists. split; [vm_compute; reflexivity|vm_compute; reflexivity].
Qed.

Lemma C116_pairs_case_proof :
  (forall b r, In (b, r) pool_items -> SummaryRow sl1l2_fields pool_columns b r) /\
  Fields (pool_request ["FBAR"; "ME"]) (pool_fields ["FBAR"; "ME"]) /\ Plain (pool_request ["FBAR"; "ME"]) (pool_fields ["FBAR"; "ME"]) /\
  forall lambertw gen randint seed_gen state alpha iterations threads cpus seeds method cbb equivalence, exists out,
    calculate_stats (agg_engine lambertw gen randint seed_gen state alpha iterations threads cpus seeds method cbb "sl1l2" pool_columns equivalence)
      true "sl1l2" pool_columns (map snd pool_items) (pool_request ["FBAR"; "ME"]) no_request = Ok out /\
    map (fun o => (nstats o, value (stat_of o))) out =
      [(2%nat, Some 3.2500000); (2%nat, Some 0.0000000); (1%nat, Some 1.5000000); (1%nat, Some 0.5000000)].
Proof.
  split; [|split; [|split]].
  - intros b r Hr. simpl in Hr. repeat (destruct Hr as [[= <- <-]|Hr]; [split; [reflexivity|discriminate| |]|]); try destruct Hr;
      try (exists 3%nat; eexists; split; [split; [reflexivity|intros j Hj; do 3 (destruct j as [|j]; [discriminate|]); lia]|split; [reflexivity|vm_compute; reflexivity]]);
      intros name g Hn; simpl in Hn;
      (destruct Hn as [[= <- <-]|Hn]; [exists 4%nat; eexists; split; [split; [reflexivity|intros j Hj; do 4 (destruct j as [|j]; [discriminate|]); lia]|split; [reflexivity|vm_compute; reflexivity]]|]);
      (destruct Hn as [[= <- <-]|Hn]; [exists 5%nat; eexists; split; [split; [reflexivity|intros j Hj; do 5 (destruct j as [|j]; [discriminate|]); lia]|split; [reflexivity|vm_compute; reflexivity]]|]);
      (destruct Hn as [[= <- <-]|Hn]; [exists 6%nat; eexists; split; [split; [reflexivity|intros j Hj; do 6 (destruct j as [|j]; [discriminate|]); lia]|split; [reflexivity|vm_compute; reflexivity]]|]);
      (destruct Hn as [[= <- <-]|Hn]; [exists 7%nat; eexists; split; [split; [reflexivity|intros j Hj; do 7 (destruct j as [|j]; [discriminate|]); lia]|split; [reflexivity|vm_compute; reflexivity]]|]);
      (destruct Hn as [[= <- <-]|Hn]; [exists 8%nat; eexists; split; [split; [reflexivity|intros j Hj; do 8 (destruct j as [|j]; [discriminate|]); lia]|split; [reflexivity|vm_compute; reflexivity]]|]);
      (destruct Hn as [[= <- <-]|Hn]; [exists 9%nat; eexists; split; [split; [reflexivity|intros j Hj; do 9 (destruct j as [|j]; [discriminate|]); lia]|split; [reflexivity|vm_compute; reflexivity]]|]);
      destruct Hn.
  - split; [repeat constructor; simpl; intuition discriminate|]; left; split; [discriminate|reflexivity].
  - apply plain_check. vm_compute. reflexivity.
  - intros. eexists. split; [vm_compute; reflexivity|vm_compute; reflexivity].
Qed.

Lemma C116_succeeds_case_proof :
  (forall fs n, SortFields pool_columns fs -> In n fs -> In n pool_columns /\ OneKind pool_columns (map snd pool_items) n) /\
  forall stat st, In stat ["FBAR"; "ME"] -> InSmallLetters stat st -> In st (map fst pair_measures).
Proof.
  split.
  - intros fs n F I. apply sort_fields_iff in F. subst fs. vm_compute in I. repeat (destruct I as [<-|I]; [split; [simpl; tauto|apply kind_check; vm_compute; reflexivity]|]). destruct I.
  - intros stat st H L. apply small_fun in L. subst st. simpl in H. repeat (destruct H as [<-|H]; [vm_compute; tauto|]). destruct H.
Qed.

Lemma C117_tables_proof : forall lambertw gen randint seed_gen state alpha iterations threads cpus seeds method cbb equivalence
    single line_type columns data rq1 rq2 fields out,
  let e := agg_engine lambertw gen randint seed_gen state alpha iterations threads cpus seeds method cbb line_type columns equivalence in
  In line_type ["ctc"; "cts"; "nbr_ctc"] -> Rectangular data columns -> data <> [] ->
  series_val rq2 = [] -> Fields rq1 fields -> Plain rq1 fields -> derived_series rq1 = [] ->
  (single = true \/ method <> OtherMethod) ->
  calculate_stats e single line_type columns data rq1 rq2 = Ok out ->
  Forall2 (OutputRow columns (plain_items data) rq1 fields (fun st chosen r =>
      forall textbook h fa m c t, In (st, textbook) table_scores -> CtcTotals (map snd chosen) columns h fa m c t ->
        Published (textbook h fa m c t) (value r)))
    (combinations (map snd fields)) out.
Proof.
  intros lw gen randint seed_gen state alpha iters threads cpus seeds method cbb equivalence single lt columns data rq1 rq2 fields out e LT HR NE S F P D M H.
  rewrite <- (plain_snd data) in H, HR. eapply table_chosen; [exact HR|apply plain_nil, NE|exact S|exact F|exact P|exact D|exact H|]. clear H HR.
  intros st chosen r _ NC R tb h fa m c t HT CT. destruct (table_named lw _ _ HT) as (f & HF & TV).
  assert (LT' : In lt ["ctc"; "cts"; "mctc"; "nbr_ctc"]) by (simpl in LT |- *; tauto).
  assert (NM : prepared_columns lt st columns = Ok columns).
  { simpl in LT. destruct LT as [<-|[<-|[<-|[]]]]; reflexivity. }
  destruct (pool_result _ _ _ _ _ _ _ _ _ _ _ _ _ _ _ _ _ _ _ _ _ R (map_nonempty _ _ NC) M HF NM) as (sorted & x & O & T & V).
  destruct (prepared_table _ _ _ _ _ LT' T) as [-> _]. cbn [fst] in V. unfold two in V.
  destruct (TV _ _ _ _ _ _ _ (CtcTotals_perm _ _ _ _ _ _ _ _ (proj1 O) CT)) as (r' & V' & PB). rewrite V in V'. injection V' as <-. exact PB.
Qed.

Lemma C117_tables_case_proof :
  let data := [table_row "d2" "A" 0.5 10 2 3 85; table_row "d1" "A" 0.5 5 0 1 4; table_row "d1" "B" 0.25 1 1 1 1] in
  CtcTotals (firstn 2 data) table_columns (Some 15) (Some 2) (Some 4) (Some 89) (Some 110) /\
  forall lambertw gen randint seed_gen state alpha iterations threads cpus seeds method cbb equivalence, exists out,
    calculate_stats (agg_engine lambertw gen randint seed_gen state alpha iterations threads cpus seeds method cbb "ctc" table_columns equivalence)
      true "ctc" table_columns data (pool_request ["PODY"]) no_request = Ok out /\
    map (fun o => (nstats o, value (stat_of o))) out = [(2%nat, Some 0.7894737); (1%nat, Some 0.5000000)].
Proof.
  intros data. split; [|intros; eexists; split; [vm_compute; reflexivity|vm_compute; reflexivity]].
  assert (CA : forall n i, index_of n table_columns = Some i -> forall j, ColumnAt table_columns n j -> j = i).
  { intros n i H j J. apply index_of_ColumnAt in J. congruence. }
  assert (TT : forall n i q, index_of n table_columns = Some i -> present_at i (firstn 2 data) <> [] -> q == qsum (present_at i (firstn 2 data)) -> ColumnTotal (firstn 2 data) table_columns n (Some q)).
  { intros n i q H NE Q. split; [intros X; apply index_of_None in X; congruence|]. intros j J. rewrite (CA _ _ H _ J). split; [contradiction|]. intros _. exists q. split; [reflexivity|exact Q]. }
  split.
  - intros r Hr. unfold data in Hr; simpl in Hr. repeat (destruct Hr as [<-|Hr]; [reflexivity|]). destruct Hr.
  - intros n Hn i r s J Hr X. simpl in Hn. repeat (destruct Hn as [<-|Hn]; [pose proof (proj2 (index_of_ColumnAt _ _ _) J) as IX; vm_compute in IX; injection IX as <-; unfold data in Hr; simpl in Hr; repeat (destruct Hr as [<-|Hr]; [discriminate|]); destruct Hr|]). destruct Hn.
  - eapply TT; [reflexivity|unfold data; discriminate|vm_compute; reflexivity].
  - eapply TT; [reflexivity|unfold data; discriminate|vm_compute; reflexivity].
  - eapply TT; [reflexivity|unfold data; discriminate|vm_compute; reflexivity].
  - eapply TT; [reflexivity|unfold data; discriminate|vm_compute; reflexivity].
  - eapply TT; [reflexivity|unfold data; discriminate|vm_compute; reflexivity].
Qed.

Lemma C117_expected_proof : forall lambertw gen randint seed_gen state alpha iterations threads cpus seeds method cbb equivalence
    single line_type columns data rq1 rq2 fields out,
  let e := agg_engine lambertw gen randint seed_gen state alpha iterations threads cpus seeds method cbb line_type columns equivalence in
  In line_type ["ctc"; "cts"; "mctc"] -> Rectangular data columns -> data <> [] ->
  series_val rq2 = [] -> Fields rq1 fields -> Plain rq1 fields -> derived_series rq1 = [] ->
  calculate_stats e single line_type columns data rq1 rq2 = Ok out ->
  Forall2 (OutputRow columns (plain_items data) rq1 fields (fun st chosen r =>
      forall r1 r2 c1 c2, In r1 (map snd chosen) -> In r2 (map snd chosen) ->
        CellOf columns r1 "ec_value" c1 -> CellOf columns r2 "ec_value" c2 -> c1 <> CMiss /\ CellSame c1 c2))
    (combinations (map snd fields)) out.
Proof.
  intros lw gen randint seed_gen state alpha iters threads cpus seeds method cbb equivalence single lt columns data rq1 rq2 fields out e LT HR NE S F P D H.
  rewrite <- (plain_snd data) in H, HR. eapply table_chosen; [exact HR|apply plain_nil, NE|exact S|exact F|exact P|exact D|exact H|]. clear H.
  intros st chosen r IC NC R.
  assert (exists sorted t, InOrder columns (map snd chosen) sorted /\ prepared lt st sorted columns = Ok t) as (sorted & t & O & T).
  { inversion R as [E|? sorted prd ? _ _ O PP _|? sorted prd ? _ _ O PP _|? sorted prd _ _ O PP _]; subst; [destruct chosen; [contradiction|discriminate]| | |];
      exists sorted; unfold e in PP; cbn [prep agg_engine] in PP; destruct (prepared _ _ _ _) as [t|]; try discriminate; exists t; auto. }
  intros r1 r2 c1 c2 I1 I2 (i & J1 & X1) (i' & J2 & X2).
  pose proof (proj2 (index_of_ColumnAt _ _ _) J1) as IX. pose proof (proj2 (index_of_ColumnAt _ _ _) J2) as IX'. rewrite IX in IX'. injection IX' as <-.
  assert (CE : exists d, check_ec sorted columns = Ok d).
  { simpl in LT. destruct LT as [<-|[<-|[<-|[]]]]; cbn in T; destruct (check_ec sorted columns) as [d|]; try discriminate; exists d; reflexivity. }
  destruct CE as [d CE]. unfold check_ec in CE. rewrite IX in CE. destruct (column_at sorted i) as [cells|] eqn:CL; [cbn [bind] in CE|discriminate].
  destruct cells as [|first rest]; [discriminate|]. destruct (forallb (same_cell first) (first :: rest)) eqn:FA; [|discriminate]. rewrite forallb_forall in FA.
  assert (IN : forall x c, In x (map snd chosen) -> nth_error x i = Some c -> In c (first :: rest)).
  { intros x c Hx Hc. apply (Permutation_in _ (proj1 O)) in Hx. unfold column_at in CL. revert CL Hx. generalize (first :: rest) as l. clear - Hc.
    induction sorted as [|y t IH]; intros l CL Hx; [destruct Hx|]. cbn [mapM] in CL. unfold cell_at at 1 in CL. destruct (nth_error y i) as [cy|] eqn:Y; [cbn [bind] in CL|discriminate].
    destruct (mapM (cell_at i) t) as [l'|] eqn:ML; [cbn [bind] in CL|discriminate]. injection CL as <-. destruct Hx as [->|Hx]; [left; congruence|right; apply (IH l'); auto]. }
  pose proof (FA _ (IN _ _ I1 X1)) as S1. pose proof (FA _ (IN _ _ I2 X2)) as S2.
  destruct first as [p| |s]; cbn [same_cell] in S1, S2; [|discriminate|]; destruct c1 as [q1| |s1], c2 as [q2| |s2]; try discriminate.
  - split; [discriminate|]. constructor. apply Qeq_bool_iff in S1, S2. rewrite <- S1, <- S2. reflexivity.
  - split; [discriminate|]. apply String.eqb_eq in S1, S2. subst. constructor.
Qed.

Lemma C117_expected_refuted_proof :
  forall lambertw gen randint seed_gen state alpha iterations threads cpus seeds method cbb equivalence single,
    calculate_stats (agg_engine lambertw gen randint seed_gen state alpha iterations threads cpus seeds method cbb "ctc" table_columns equivalence)
      single "ctc" table_columns [table_row "d1" "A" 0.5 10 2 3 85; table_row "d2" "A" 0.25 5 0 1 4] (pool_request ["PODY"]) no_request = Err ValueError.
Proof.
  intros. destruct single; vm_compute; reflexivity.
Qed.

Lemma C118_known_proof : forall lambertw gen randint seed_gen state alpha iterations threads cpus seeds method cbb equivalence
    line_type columns data rq1 rq2 fields out,
  let e := agg_engine lambertw gen randint seed_gen state alpha iterations threads cpus seeds method cbb line_type columns equivalence in
  Rectangular data columns -> data <> [] ->
  series_val rq2 = [] -> Fields rq1 fields -> Plain rq1 fields -> derived_series rq1 = [] ->
  calculate_stats e true line_type columns data rq1 rq2 = Ok out ->
  Forall2 (OutputRow columns (plain_items data) rq1 fields (fun st chosen r => In st statistic_names))
    (combinations (map snd fields)) out.
Proof.
  intros lw gen randint seed_gen state alpha iters threads cpus seeds method cbb equivalence lt columns data rq1 rq2 fields out e HR NE S F P D H.
  rewrite <- (plain_snd data) in H, HR. eapply table_chosen; [exact HR|apply plain_nil, NE|exact S|exact F|exact P|exact D|exact H|]. clear H.
  intros st chosen r _ NC R. inversion R as [E|? sorted pr v _ _ O PP V|? ? ? ? _ X|? ? ? _ X]; subst; try discriminate; [destruct chosen; [contradiction|discriminate]|].
  unfold e in V. cbn [calc agg_engine] in V. unfold calc_values, function_named in V. destruct (assoc st (functions lw)) as [f|] eqn:HF; [eapply names_known; exact HF|].
  destruct (EventModel.mem st not_followed); discriminate.
Qed.

Lemma C118_known_case_proof :
  forall lambertw gen randint seed_gen state alpha iterations threads cpus seeds method cbb equivalence,
    calculate_stats (agg_engine lambertw gen randint seed_gen state alpha iterations threads cpus seeds method cbb "sl1l2" pool_columns equivalence)
      true "sl1l2" pool_columns (map snd pool_items) (pool_request ["FBAR"; "BIAS"]) no_request = Err KeyError.
Proof.
  intros. vm_compute. reflexivity.
Qed.

Lemma C118_unknown_refuted_proof : forall lambertw gen randint seed_gen state alpha iterations threads cpus seeds method cbb equivalence
    line_type columns data rq1 rq2 fields out,
  let e := agg_engine lambertw gen randint seed_gen state alpha iterations threads cpus seeds method cbb line_type columns equivalence in
  Rectangular data columns -> data <> [] ->
  series_val rq2 = [] -> Fields rq1 fields -> Plain rq1 fields -> derived_series rq1 = [] ->
  calculate_stats e false line_type columns data rq1 rq2 = Ok out ->
  Forall2 (OutputRow columns (plain_items data) rq1 fields (fun st chosen r => ~ In st statistic_names -> r = NoResult))
    (combinations (map snd fields)) out.
Proof.
  intros lw gen randint seed_gen state alpha iters threads cpus seeds method cbb equivalence lt columns data rq1 rq2 fields out e HR NE S F P D H.
  rewrite <- (plain_snd data) in H, HR. eapply table_chosen; [exact HR|apply plain_nil, NE|exact S|exact F|exact P|exact D|exact H|]. clear H.
  intros st chosen r _ NC R U. inversion R as [E|? ? ? ? _ X|? sorted pr r' _ _ O PP V|? ? ? _ _ O PP V]; subst; try discriminate; [destruct chosen; [contradiction|discriminate]| |reflexivity].
  exfalso. unfold e in V. cbn [boot agg_engine] in V. unfold bootstrapped, bootstrap_and_value, calc_stats at 1, calc_values, function_named in V.
  destruct (assoc st (functions lw)) as [f|] eqn:HF; [apply U; eapply names_known; exact HF|].
  destruct (EventModel.mem st not_followed); discriminate.
Qed.

Lemma C118_unknown_case_proof :
  forall lambertw gen randint seed_gen state alpha iterations threads cpus seeds method cbb equivalence, exists out,
    calculate_stats (agg_engine lambertw gen randint seed_gen state alpha iterations threads cpus seeds method cbb "sl1l2" pool_columns equivalence)
      false "sl1l2" pool_columns (map snd pool_items) (pool_request ["BIAS"]) no_request = Ok out /\
    map (fun o => (nstats o, stat_of o)) out = [(2%nat, NoResult); (1%nat, NoResult)].
Proof.
  intros. eexists. split; [vm_compute; reflexivity|vm_compute; reflexivity].
Qed.

Lemma C118_limits_proof : forall lambertw gen randint seed_gen state alpha iterations threads cpus seeds method cbb equivalence
    gen' randint' seed_gen' state' alpha' iterations' threads' cpus' seeds' method' cbb' equivalence'
    line_type columns data rq1 rq2 fields out out',
  let e := agg_engine lambertw gen randint seed_gen state alpha iterations threads cpus seeds method cbb line_type columns equivalence in
  let e' := agg_engine lambertw gen' randint' seed_gen' state' alpha' iterations' threads' cpus' seeds' method' cbb' line_type columns equivalence' in
  Rectangular data columns -> data <> [] -> method' <> OtherMethod ->
  series_val rq2 = [] -> Fields rq1 fields -> Plain rq1 fields -> derived_series rq1 = [] ->
  calculate_stats e true line_type columns data rq1 rq2 = Ok out ->
  calculate_stats e' false line_type columns data rq1 rq2 = Ok out' ->
  Forall2 (fun o o' => point_of o = point_of o' /\ fcst_var_of o = fcst_var_of o' /\ nstats o = nstats o' /\ value (stat_of o) = value (stat_of o'))
    out out'.
Proof.
  intros lw gen randint seed_gen state alpha iters threads cpus seeds method cbb equivalence gen' randint' seed_gen' state' alpha' iters' threads' cpus' seeds' method' cbb' equivalence'
    lt columns data rq1 rq2 fields out out' e e' HR NE M S F P D H H'.
  pose proof (C60_one_axis_proof _ _ _ _ _ _ _ _ _ HR NE S F P D H) as R. pose proof (C60_one_axis_proof _ _ _ _ _ _ _ _ _ HR NE S F P D H') as R'.
  eapply forall2_split; [exact R|exact R'|]. intros p o o' _ (A1 & A2 & b & stat & st & rows & A3 & A4 & A5 & A6 & A7) (B1 & B2 & b' & stat' & st' & rows' & B3 & B4 & B5 & B6 & B7).
  assert (rows' = rows) as -> by (apply (selection_unique _ _ _ _ _ B5 A5); intros; reflexivity).
  assert (stat' = stat) as -> by (rewrite A3 in B3; apply app_inj_tail in B3; symmetry; apply B3).
  apply small_fun in A4, B4. subst st' st.
  split; [congruence|]. split; [eapply var_same; eassumption|]. split; [congruence|].
  inversion A7 as [E E2|? sorted pr v NR _ O PP V E E2|? ? ? ? _ X|? ? ? _ X]; try discriminate.
  - subst rows. inversion B7 as [G|? ? ? ? X|? ? ? ? X|? ? ? X]; try contradiction; reflexivity.
  - cbn [value]. unfold e in V, PP. cbn [calc prep agg_engine] in V, PP. unfold calc_values, function_named in V.
    destruct (assoc (lower stat) (functions lw)) as [f|] eqn:HF; [|destruct (EventModel.mem (lower stat) not_followed); discriminate]. cbn [bind] in V.
    destruct (prepared_columns lt (lower stat) columns) as [names|] eqn:NM; [cbn [bind] in V|discriminate].
    destruct (pool_result _ _ _ _ _ _ _ _ _ _ _ _ _ _ _ _ _ _ _ _ _ B7 NR (or_intror M) HF NM) as (sorted' & t & O' & T & V').
    assert (sorted' = sorted) as -> by (eapply in_order_unique; eassumption). rewrite T in PP. cbn [bind] in PP. injection PP as <-. rewrite V in V'. injection V' as ->. reflexivity.
Qed.

Lemma C118_limits_case_proof : forall lambertw equivalence, exists out,
  calculate_stats (agg_engine lambertw unit (fun g n => ((n - 1)%nat, g)) (fun _ => tt) (fun _ _ => tt) 0.05 2 1 4 [] Perc false "sl1l2" pool_columns equivalence)
    false "sl1l2" pool_columns (map snd pool_items) (pool_request ["FBAR"]) no_request = Ok out /\
  map (fun o => value (stat_of o)) out = [Some 3.2500000; Some 1.5000000].
Proof.
  intros. eexists. split; [vm_compute; reflexivity|vm_compute; reflexivity].
Qed.

Lemma C118_method_refuted_proof : forall lambertw gen randint seed_gen state alpha iterations threads cpus seeds cbb equivalence
    line_type columns data rq1 rq2 fields out,
  let e := agg_engine lambertw gen randint seed_gen state alpha iterations threads cpus seeds OtherMethod cbb line_type columns equivalence in
  Rectangular data columns -> data <> [] ->
  series_val rq2 = [] -> Fields rq1 fields -> Plain rq1 fields -> derived_series rq1 = [] ->
  calculate_stats e false line_type columns data rq1 rq2 = Ok out ->
  Forall (fun o => stat_of o = NoResult) out.
Proof.
  intros lw gen randint seed_gen state alpha iters threads cpus seeds cbb equivalence lt columns data rq1 rq2 fields out e HR NE S F P D H.
  pose proof (C60_one_axis_proof _ _ _ _ _ _ _ _ _ HR NE S F P D H) as R. clear H. induction R as [|p o l l' X R IH]; constructor; [|exact IH].
  destruct X as (A1 & A2 & b & stat & st & rows & A3 & A4 & A5 & A6 & A7). inversion A7 as [E E2|? ? ? ? _ X|? sorted pr r _ _ O PP V|? ? ? _ _ O PP V]; try discriminate; try reflexivity.
  unfold e in V. cbn [boot agg_engine] in V. unfold bootstrapped, bootstrap_and_value in V. cbv zeta in V.
  destruct (calc_stats _ _ _ _ _) as [s|]; [cbn [bind] in V|discriminate]. destruct s as [|x s]; [discriminate|]. cbn [bind] in V.
  destruct (_ =? _)%Z; [discriminate|]. destruct (bootstrap_distribution_cbb _ _ _ _ _ _ _ _ _ _ _ _ _ _) as [dist|]; [cbn [bind] in V|discriminate].
  destruct x as [x|]; cbn in V; injection V as <-; reflexivity.
Qed.

Lemma C118_method_case_proof : forall lambertw equivalence, exists out,
  calculate_stats (agg_engine lambertw unit (fun g n => ((n - 1)%nat, g)) (fun _ => tt) (fun _ _ => tt) 0.05 2 1 4 [] OtherMethod false "sl1l2" pool_columns equivalence)
    false "sl1l2" pool_columns (map snd pool_items) (pool_request ["FBAR"]) no_request = Ok out /\
  map (fun o => (nstats o, stat_of o)) out = [(2%nat, NoResult); (1%nat, NoResult)].
Proof.
  intros. eexists. split; [vm_compute; reflexivity|vm_compute; reflexivity].
Qed.

Lemma C119_order_proof : forall lambertw gen randint seed_gen state alpha iterations threads cpus seeds method cbb equivalence
    line_type columns data data' rq1 rq2 fields out out',
  let e := agg_engine lambertw gen randint seed_gen state alpha iterations threads cpus seeds method cbb line_type columns equivalence in
  In line_type ["ctc"; "cts"; "nbr_ctc"] -> Rectangular data columns -> data <> [] -> Permutation data data' ->
  (forall name, In name ["fy_oy"; "fy_on"; "fn_oy"; "fn_on"; "total"] -> In name columns /\ NumericColumn data columns name) ->
  series_val rq2 = [] -> Fields rq1 fields -> Plain rq1 fields -> derived_series rq1 = [] ->
  (forall stat st, In stat (list_stat rq1) -> InSmallLetters stat st -> In st order_free) ->
  calculate_stats e true line_type columns data rq1 rq2 = Ok out ->
  calculate_stats e true line_type columns data' rq1 rq2 = Ok out' ->
  out = out'.
Proof.
  intros lw gen randint seed_gen state alpha iters threads cpus seeds method cbb equivalence lt columns data data' rq1 rq2 fields out out' e LT HR NE PM NC S F P D SN H H'.
  assert (NE' : data' <> []) by (intros ->; apply Permutation_sym, Permutation_nil in PM; contradiction).
  assert (HR' : Rectangular data' columns) by (intros r Hr; apply HR, (Permutation_in _ (Permutation_sym PM)), Hr).
  pose proof (C60_one_axis_proof _ _ _ _ _ _ _ _ _ HR NE S F P D H) as R. pose proof (C60_one_axis_proof _ _ _ _ _ _ _ _ _ HR' NE' S F P D H') as R'.
  apply forall2_eq. eapply forall2_split; [exact R|exact R'|]. clear R R' H H'.
  intros p o o' Hp (A1 & A2 & b & stat & st & rows & A3 & A4 & A5 & A6 & A7) (B1 & B2 & b' & stat' & st' & rows' & B3 & B4 & B5 & B6 & B7).
  assert (stat' = stat) as -> by (rewrite A3 in B3; apply app_inj_tail in B3; symmetry; apply B3).
  assert (ST : In st order_free) by (apply (SN stat st); [|exact A4]; apply (stat_listed rq1 fields b stat F); rewrite <- A3; exact Hp).
  apply small_fun in A4, B4. subst st'. rewrite <- A4 in *.
  destruct (selection_perm _ _ _ PM _ A5) as (rows0 & S0 & PR).
  assert (rows0 = rows') as -> by (apply (selection_unique _ _ _ _ _ S0 B5); intros; reflexivity).
  assert (VS : stat_of o = stat_of o').
  { destruct rows as [|r0 rows0].
    - apply Permutation_nil in PR. subst rows'. inversion A7 as [E E2|? ? ? ? X|? ? ? ? X|? ? ? X]; try contradiction. inversion B7 as [G G2|? ? ? ? X|? ? ? ? X|? ? ? X]; try contradiction. congruence.
    - assert (NR : r0 :: rows0 <> []) by discriminate. assert (NR' : rows' <> []) by (intros ->; apply Permutation_sym, Permutation_nil in PR; discriminate).
      destruct (order_named lw _ ST) as (f & HF & TV).
      assert (LT' : In lt ["ctc"; "cts"; "mctc"; "nbr_ctc"]) by (simpl in LT |- *; tauto).
      assert (NM : prepared_columns lt st columns = Ok columns) by (simpl in LT; destruct LT as [<-|[<-|[<-|[]]]]; reflexivity).
      destruct (pool_result _ _ _ _ _ _ _ _ _ _ _ _ _ _ _ _ _ _ _ _ _ A7 NR (or_introl eq_refl) HF NM) as (so & x & O & T & V).
      destruct (pool_result _ _ _ _ _ _ _ _ _ _ _ _ _ _ _ _ _ _ _ _ _ B7 NR' (or_introl eq_refl) HF NM) as (so' & x' & O' & T' & V').
      destruct (prepared_table _ _ _ _ _ LT' T) as [-> _]. destruct (prepared_table _ _ _ _ _ LT' T') as [-> _]. cbn [fst] in V, V'. unfold two in V, V'.
      assert (IS : incl so data).
      { intros r Hr. apply (Permutation_in _ (Permutation_sym (proj1 O))) in Hr. apply (selection_in _ _ _ r A5) in Hr. apply Hr. }
      assert (RS : Rectangular so columns) by (intros r Hr; apply HR, IS, Hr).
      assert (CN : forall name, In name ["fy_oy"; "fy_on"; "fn_oy"; "fn_on"; "total"] -> NumericColumn so columns name).
      { intros name Hn i r s J Hr. apply (proj2 (NC name Hn) i r s J), IS, Hr. }
      assert (CT : forall name, In name ["fy_oy"; "fy_on"; "fn_oy"; "fn_on"; "total"] -> exists t, ColumnTotal so columns name t).
      { intros name Hn. destruct (sum_column_is_total so columns name RS (CN name Hn)) as (t & _ & X). exists t. exact X. }
      destruct (CT "fy_oy") as [h HH]; [simpl; tauto|]. destruct (CT "fy_on") as [fa HFA]; [simpl; tauto|]. destruct (CT "fn_oy") as [m HM]; [simpl; tauto|].
      destruct (CT "fn_on") as [c HC]; [simpl; tauto|]. destruct (CT "total") as [t HT]; [simpl; tauto|].
      assert (PS : Permutation so so').
      { eapply Permutation_trans; [apply Permutation_sym, (proj1 O)|]. eapply Permutation_trans; [exact PR|apply (proj1 O')]. }
      rewrite (TV so so' columns h fa m c t) in V; [|split; assumption|exact PS]. rewrite V in V'. injection V' as V'.
      assert (SV : forall rws r, ResultOf e true columns st rws r -> rws <> [] -> r = Results None (value r) None).
      { intros rws r Q N. destruct Q; [contradiction|reflexivity|discriminate|discriminate]. }
      rewrite (SV _ _ A7 NR), (SV _ _ B7 NR'). rewrite V'. reflexivity. }
  destruct o as [po vo so no], o' as [po' vo' so' no']. cbn [point_of fcst_var_of stat_of nstats] in *.
  assert (vo = vo') as <- by (eapply var_same; eassumption). subst. f_equal. apply (Permutation_length PR).
Qed.

Lemma C119_order_case_proof :
  (forall stat st, In stat ["PODY"; "CSI"] -> InSmallLetters stat st -> In st order_free) /\
  forall lambertw gen randint seed_gen state alpha iterations threads cpus seeds method cbb equivalence, exists out,
  let run data := calculate_stats (agg_engine lambertw gen randint seed_gen state alpha iterations threads cpus seeds method cbb "ctc" table_columns equivalence)
      true "ctc" table_columns data (pool_request ["PODY"; "CSI"]) no_request in
  run [table_row "d2" "A" 0.5 10 2 3 85; table_row "d1" "A" 0.5 5 0 1 4] = Ok out /\
  run [table_row "d1" "A" 0.5 5 0 1 4; table_row "d2" "A" 0.5 10 2 3 85] = Ok out /\
  map (fun o => value (stat_of o)) out = [Some 0.7894737; Some 0.7142857; None; None].
Proof.
  split.
  - intros stat st H L. apply small_fun in L. subst st. simpl in H. repeat (destruct H as [<-|H]; [vm_compute; tauto|]). destruct H.
  - intros. eexists. split; [vm_compute; reflexivity|]. split; vm_compute; reflexivity.
Qed.

Lemma C116_gradients_case_proof :
  (forall b r, In (b, r) gradient_items -> SummaryRow grad_fields gradient_columns b r) /\
  forall lambertw gen randint seed_gen state alpha iterations threads cpus seeds method cbb equivalence, exists out,
    calculate_stats (agg_engine lambertw gen randint seed_gen state alpha iterations threads cpus seeds method cbb "grad" gradient_columns equivalence)
      true "grad" gradient_columns (map snd gradient_items) (pool_request ["FGBAR"]) no_request = Ok out /\
    map (fun o => (nstats o, value (stat_of o))) out = [(2%nat, Some 2.0000000); (0%nat, None)].
Proof.
  split; [|intros; eexists; split; [vm_compute; reflexivity|vm_compute; reflexivity]].
  intros b r Hr. simpl in Hr. repeat (destruct Hr as [[= <- <-]|Hr]; [split; [reflexivity|discriminate| |]|]); try destruct Hr;
    try (exists 3%nat; eexists; split; [split; [reflexivity|intros j Hj; do 3 (destruct j as [|j]; [discriminate|]); lia]|split; [reflexivity|vm_compute; reflexivity]]);
    intros name g Hn; simpl in Hn;
    (destruct Hn as [[= <- <-]|Hn]; [exists 4%nat; eexists; split; [split; [reflexivity|intros j Hj; do 4 (destruct j as [|j]; [discriminate|]); lia]|split; [reflexivity|vm_compute; reflexivity]]|]);
    (destruct Hn as [[= <- <-]|Hn]; [exists 5%nat; eexists; split; [split; [reflexivity|intros j Hj; do 5 (destruct j as [|j]; [discriminate|]); lia]|split; [reflexivity|vm_compute; reflexivity]]|]);
    (destruct Hn as [[= <- <-]|Hn]; [exists 6%nat; eexists; split; [split; [reflexivity|intros j Hj; do 6 (destruct j as [|j]; [discriminate|]); lia]|split; [reflexivity|vm_compute; reflexivity]]|]);
    (destruct Hn as [[= <- <-]|Hn]; [exists 7%nat; eexists; split; [split; [reflexivity|intros j Hj; do 7 (destruct j as [|j]; [discriminate|]); lia]|split; [reflexivity|vm_compute; reflexivity]]|]);
    destruct Hn.
Qed.

Lemma C116_ensembles_case_proof :
  (forall b r, In (b, r) ensemble_items -> Shows ecnt_fields ensemble_columns b r) /\
  forall lambertw gen randint seed_gen state alpha iterations threads cpus seeds method cbb equivalence, exists out,
    calculate_stats (agg_engine lambertw gen randint seed_gen state alpha iterations threads cpus seeds method cbb "ecnt" ensemble_columns equivalence)
      true "ecnt" ensemble_columns (map snd ensemble_items) (pool_request ["ECNT_CRPS"]) no_request = Ok out /\
    map (fun o => (nstats o, value (stat_of o))) out = [(2%nat, Some 4.2500000); (0%nat, None)].
Proof.
  split; [|intros; eexists; split; [vm_compute; reflexivity|vm_compute; reflexivity]].
  intros b r Hr. unfold ensemble_items in Hr. destruct Hr as [E|[E|[]]]; injection E as <- <-; (split; [reflexivity|]); intros name I; simpl in I;
    repeat (destruct I as [<-|I]; [eexists; split; [apply index_of_ColumnAt; reflexivity|reflexivity]|]); destruct I.
Qed.

Lemma C117_measures_proof : forall lambertw gen randint seed_gen state alpha iterations threads cpus seeds method cbb equivalence
    single line_type columns data rq1 rq2 fields out,
  let e := agg_engine lambertw gen randint seed_gen state alpha iterations threads cpus seeds method cbb line_type columns equivalence in
  LambertW lambertw ->
  In line_type ["ctc"; "cts"; "nbr_ctc"] -> Rectangular data columns -> data <> [] ->
  series_val rq2 = [] -> Fields rq1 fields -> Plain rq1 fields -> derived_series rq1 = [] ->
  (single = true \/ method <> OtherMethod) ->
  calculate_stats e single line_type columns data rq1 rq2 = Ok out ->
  Forall2 (OutputRow columns (plain_items data) rq1 fields (fun st chosen r =>
      forall Measure h fa m c t, In (st, Measure) table_measures ->
        CtcTotals (map snd chosen) columns (Some h) (Some fa) (Some m) (Some c) (Some t) -> Genuine h fa m c t ->
        Measure h fa m c t (value r)))
    (combinations (map snd fields)) out.
Proof.
  intros lw gen randint seed_gen state alpha iters threads cpus seeds method cbb equivalence single lt columns data rq1 rq2 fields out e LW LT HR NE S F P D M H.
  rewrite <- (plain_snd data) in H, HR. eapply table_chosen; [exact HR|apply plain_nil, NE|exact S|exact F|exact P|exact D|exact H|]. clear H HR.
  intros st chosen r _ NC R Me h fa m c t HT CT G. destruct (measure_named lw LW _ _ HT) as (f & HF & TV).
  assert (LT' : In lt ["ctc"; "cts"; "mctc"; "nbr_ctc"]) by (simpl in LT |- *; tauto).
  assert (NM : prepared_columns lt st columns = Ok columns).
  { simpl in LT. destruct LT as [<-|[<-|[<-|[]]]]; reflexivity. }
  destruct (pool_result _ _ _ _ _ _ _ _ _ _ _ _ _ _ _ _ _ _ _ _ _ R (map_nonempty _ _ NC) M HF NM) as (sorted & x & O & T & V).
  destruct (prepared_table _ _ _ _ _ LT' T) as [-> _]. cbn [fst] in V. unfold two in V.
  exact (TV _ _ _ _ _ _ _ _ (CtcTotals_perm _ _ _ _ _ _ _ _ (proj1 O) CT) G V).
Qed.

Lemma C117_measures_case_proof :
  let data := [table_row "d2" "A" 0.5 10 2 3 85; table_row "d1" "A" 0.5 5 0 1 4; table_row "d1" "B" 0.25 1 1 1 1] in
  (exists W, LambertW W) /\ Genuine 15 2 4 89 110 /\
  forall lambertw gen randint seed_gen state alpha iterations threads cpus seeds method cbb equivalence, exists out,
    calculate_stats (agg_engine lambertw gen randint seed_gen state alpha iterations threads cpus seeds method cbb "ctc" table_columns equivalence)
      true "ctc" table_columns data (pool_request ["CTC_FN_OY"; "HK"; "ODDS"]) no_request = Ok out /\
    map (fun o => value (stat_of o)) out =
      [Some 4.0000000; Some 0.7674957; Some 166.8751865; Some 1.0000000; Some 0.0000000; Some 1.0000000].
Proof.
  intros data. split; [apply C48_case_proof|]. split; [split; vm_compute; try discriminate; reflexivity|]. intros; eexists; split; [vm_compute; reflexivity|vm_compute; reflexivity].
Qed.

Lemma C117_base_rate_proof : forall lambertw gen randint seed_gen state alpha iterations threads cpus seeds method cbb equivalence
    single line_type columns data rq1 rq2 fields out,
  let e := agg_engine lambertw gen randint seed_gen state alpha iterations threads cpus seeds method cbb line_type columns equivalence in
  In line_type ["ctc"; "cts"; "nbr_ctc"] -> Rectangular data columns -> data <> [] ->
  series_val rq2 = [] -> Fields rq1 fields -> Plain rq1 fields -> derived_series rq1 = [] ->
  (single = true \/ method <> OtherMethod) ->
  calculate_stats e single line_type columns data rq1 rq2 = Ok out ->
  Forall2 (OutputRow columns (plain_items data) rq1 fields (fun st chosen r =>
      forall hs ms ts, In st ["baser"; "nbr_baser"] ->
        AllNumbers (map snd chosen) columns "fy_oy" hs -> AllNumbers (map snd chosen) columns "fn_oy" ms ->
        AllNumbers (map snd chosen) columns "total" ts ->
        Published (oratio (Some (qsum hs + qsum ms)) (Some (qsum ts))) (value r)))
    (combinations (map snd fields)) out.
Proof.
  intros lw gen randint seed_gen state alpha iters threads cpus seeds method cbb equivalence single lt columns data rq1 rq2 fields out e LT HR NE S F P D M H.
  rewrite <- (plain_snd data) in H, HR. eapply table_chosen; [exact HR|apply plain_nil, NE|exact S|exact F|exact P|exact D|exact H|]. clear H HR.
  intros st chosen r _ NC R hs ms ts HT A1 A2 A3.
  assert (HF : assoc st (functions lw) = Some (two calculate_baser)) by (destruct HT as [<-|[<-|[]]]; reflexivity).
  assert (LT' : In lt ["ctc"; "cts"; "mctc"; "nbr_ctc"]) by (simpl in LT |- *; tauto).
  assert (NM : prepared_columns lt st columns = Ok columns).
  { simpl in LT. destruct LT as [<-|[<-|[<-|[]]]]; reflexivity. }
  destruct (pool_result _ _ _ _ _ _ _ _ _ _ _ _ _ _ _ _ _ _ _ _ _ R (map_nonempty _ _ NC) M HF NM) as (sorted & x & O & T & V).
  destruct (prepared_table _ _ _ _ _ LT' T) as [-> _]. cbn [fst] in V. unfold two in V.
  destruct (numbers_perm _ _ _ _ _ (proj1 O) A1) as (hs' & B1 & P1). destruct (numbers_perm _ _ _ _ _ (proj1 O) A2) as (ms' & B2 & P2).
  destruct (numbers_perm _ _ _ _ _ (proj1 O) A3) as (ts' & B3 & P3). destruct (baser_value _ _ _ _ _ B1 B2 B3) as (r' & E & PB). rewrite V in E. injection E as <-.
  assert (K : oeq (oratio (Some (qsum hs + qsum ms)) (Some (qsum ts))) (oratio (Some (qsum hs' + qsum ms')) (Some (qsum ts')))).
  { apply oratio_proper; cbn [oeq]; [rewrite (qsum_perm _ _ P1), (qsum_perm _ _ P2)|rewrite (qsum_perm _ _ P3)]; reflexivity. }
  rewrite K. exact PB.
Qed.

Lemma C117_base_rate_case_proof :
  let data := [table_row "d2" "A" 0.5 10 2 3 85; table_row "d1" "A" 0.5 5 0 1 4; table_row "d1" "B" 0.25 1 1 1 1] in
  AllNumbers (firstn 2 data) table_columns "fy_oy" [10; 5] /\ AllNumbers (firstn 2 data) table_columns "fn_oy" [3; 1] /\
  AllNumbers (firstn 2 data) table_columns "total" [100; 10] /\
  forall lambertw gen randint seed_gen state alpha iterations threads cpus seeds method cbb equivalence, exists out,
    calculate_stats (agg_engine lambertw gen randint seed_gen state alpha iterations threads cpus seeds method cbb "ctc" table_columns equivalence)
      true "ctc" table_columns data (pool_request ["BASER"]) no_request = Ok out /\
    map (fun o => value (stat_of o)) out = [Some 0.1727273; Some 0.5000000].
Proof.
  intros data. do 3 (split; [eexists; split; [apply index_of_ColumnAt; reflexivity|reflexivity]|]). intros; eexists; split; [vm_compute; reflexivity|vm_compute; reflexivity].
Qed.

Lemma C118_unnoticed_refuted_proof : exists line_type columns data rq1 rq2 stat st,
  In stat (list_stat rq1) /\ InSmallLetters stat st /\ ~ In st statistic_names /\
  forall lambertw gen randint seed_gen state alpha iterations threads cpus seeds method cbb equivalence,
  let e := agg_engine lambertw gen randint seed_gen state alpha iterations threads cpus seeds method cbb line_type columns equivalence in
  calculate_stats e true line_type columns data rq1 rq2 = Err KeyError /\
  exists out, calculate_stats e false line_type columns data rq1 rq2 = Ok out /\
    map (fun o => (nstats o, stat_of o)) out = [(2%nat, NoResult); (1%nat, NoResult)].
Proof.
  exists "sl1l2", pool_columns, (map snd pool_items), (pool_request ["BIAS"]), no_request, "BIAS", "bias". split; [left; reflexivity|]. split; [apply small_lower|]. split.
  - intro H. simpl in H. repeat (destruct H as [H|H]; [discriminate|]). destruct H.
  - intros lw gen randint seed_gen state alpha iters threads cpus seeds method cbb equivalence e. unfold e. clear e. split; [vm_compute; reflexivity|exact (C118_unknown_case_proof _ _ _ _ _ _ _ _ _ _ _ _ _)].
Qed.

