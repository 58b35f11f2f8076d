From Verif Require Import PyBase ColumnModel BaseSpec BaseProofs AggModel AggSpec AggProofs MomentProofs
  RealBase RealSpec RealProofs Sl1l2Model Sl1l2Spec Sl1l2Proofs CtcProofs.
From Coq Require Import Reals Qreals Qabs Lra.
Open Scope string_scope.
Open Scope Q_scope.

Definition subsetb (a b : list string) : bool := forallb (fun x => existsb (String.eqb x) b) a.
Lemma subsetb_ok a b : subsetb a b = true -> forall c, In c a -> In c b.
Proof.
  unfold subsetb. rewrite forallb_forall. intros H c Hc. specialize (H c Hc).
  apply existsb_exists in H. destruct H as (x & Hx & E). apply String.eqb_eq in E. congruence.
Qed.

Lemma agg_intro {A} (fields : list (string * (A -> Q))) (P : list A -> pyval -> Prop)
  statistic cols stat data columns groups :
  assoc statistic STATISTIC_TO_FIELDS = Some cols ->
  nodupb (line_columns fields) = true -> nodupb cols = true -> subsetb cols (map fst fields) = true ->
  Summaries fields columns groups data ->
  (forall d n, Mom d columns true (concat groups)
       (filter (fun nf => existsb (String.eqb (fst nf)) cols) fields) n ->
     exists r, stat d columns true = Ok r /\ P (concat groups) r) ->
  exists r, aggregated statistic stat data columns = Ok r /\ P (concat groups) r.
Proof.
  intros E N1 N2 S HS K. unfold aggregated, prepare. rewrite E.
  destruct (mom_agg fields columns groups data cols (nodupb_ok _ N1) (subsetb_ok _ _ S) (nodupb_ok _ N2) HS)
    as (d & n & Ed & HM).
  rewrite Ed. cbn [bind]. apply (K d n HM).
Qed.

Ltac inl := simpl; tauto.
Ltac agg HS K := cbv beta iota; eapply (agg_intro sl1l2_fields);
  [reflexivity|reflexivity|reflexivity|reflexivity|exact HS|];
  let d := fresh "d" in let n := fresh "n" in let HM := fresh "HM" in intros d n HM; K HM.

Lemma some_published (f : res pyval) x : (exists m, f = Ok (Some m) /\ Nearest 7 x m) ->
  exists r, f = Ok r /\ Published (Some x) r.
Proof. intros (m & E & N). exists (Some m). split; assumption. Qed.

Lemma bcmse_packaged data columns agg l names n : Mom data columns agg l names n ->
  In ("fbar", fc) names -> In ("obar", ob) names ->
  In ("ffbar", fun p => fc p * fc p) names -> In ("oobar", fun p => ob p * ob p) names ->
  In ("fobar", fun p => fc p * ob p) names ->
  exists r, calculate_bcmse data columns agg = Ok r /\ BcmseOf l r.
Proof.
  intros HM H1 H2 H3 H4 H5. destruct (bcmse_value _ _ _ _ _ _ HM H1 H2 H3 H4 H5) as (r & E & m & e & A & B & C).
  exists (Some r). split; [exact E|]. exists m, e. auto.
Qed.
Lemma bcrmse_packaged data columns agg l names n : Mom data columns agg l names n ->
  In ("fbar", fc) names -> In ("obar", ob) names ->
  In ("ffbar", fun p => fc p * fc p) names -> In ("oobar", fun p => ob p * ob p) names ->
  In ("fobar", fun p => fc p * ob p) names ->
  exists r, calculate_bcrmse data columns agg = Ok r /\ BcrmseOf l r.
Proof.
  intros HM H1 H2 H3 H4 H5.
  destruct (bcrmse_value _ _ _ _ _ _ HM H1 H2 H3 H4 H5) as (r & E & m & e & b & A & B & C & D & F).
  exists r. split; [exact E|]. exists b. split; [exists m, e; auto|]. auto.
Qed.

Definition sl1l2_table : list (string * (tdata -> list string -> bool -> res pyval) * (list pair -> option Q -> Prop)) :=
  [("fbar", calculate_fbar, FbarOf); ("obar", calculate_obar, ObarOf); ("fobar", calculate_fobar, FobarOf);
   ("ffbar", calculate_ffbar, FfbarOf); ("oobar", calculate_oobar, OobarOf); ("mae", calculate_mae, MaeOf);
   ("mbias", calculate_mbias, MbiasOf); ("me", calculate_me, MeOf); ("me2", calculate_me2, Me2Of);
   ("mse", calculate_mse, MseOf); ("rmse", calculate_rmse, RmseOf); ("fstdev", calculate_fstdev, FstdevOf);
   ("ostdev", calculate_ostdev, OstdevOf); ("pr_corr", calculate_pr_corr, CorrOf);
   ("bcmse", calculate_bcmse, BcmseOf); ("bcrmse", calculate_bcrmse, BcrmseOf); ("msess", calculate_msess, MsessOf)].

Lemma sl1l2_pooling groups data columns : Summaries sl1l2_fields columns groups data ->
  Forall (fun '(name, stat, Measure) =>
      exists r, aggregated name stat data columns = Ok r /\ Measure (concat groups) r) sl1l2_table.
Proof.
  intro HS. unfold sl1l2_table. repeat apply Forall_cons; try apply Forall_nil.
  - agg HS ltac:(fun HM => apply (mean_stat_value _ _ _ _ _ _ HM "fbar" fc); inl).
  - agg HS ltac:(fun HM => apply (mean_stat_value _ _ _ _ _ _ HM "obar" ob); inl).
  - agg HS ltac:(fun HM => apply (mean_stat_value _ _ _ _ _ _ HM "fobar" (fun p => fc p * ob p)); inl).
  - agg HS ltac:(fun HM => apply (mean_stat_value _ _ _ _ _ _ HM "ffbar" (fun p => fc p * fc p)); inl).
  - agg HS ltac:(fun HM => apply (mean_stat_value _ _ _ _ _ _ HM "oobar" (fun p => ob p * ob p)); inl).
  - agg HS ltac:(fun HM => apply (mean_stat_value _ _ _ _ _ _ HM "mae" (fun p => Qabs (fc p - ob p))); inl).
  - agg HS ltac:(fun HM => apply (mbias_value _ _ _ _ _ _ HM); inl).
  - agg HS ltac:(fun HM => apply some_published; apply (me_value _ _ _ _ _ _ HM); inl).
  - agg HS ltac:(fun HM => apply (me2_value _ _ _ _ _ _ HM); inl).
  - agg HS ltac:(fun HM => apply some_published; apply (mse_value _ _ _ _ _ _ HM); inl).
  - agg HS ltac:(fun HM => destruct (rmse_value _ _ _ _ _ _ HM) as (r & E & R & _); try inl; exists (Some r); split; assumption).
  - agg HS ltac:(fun HM => apply (stdev_stat_value _ _ _ _ _ _ HM); inl).
  - agg HS ltac:(fun HM => apply (stdev_stat_value _ _ _ _ _ _ HM); inl).
  - agg HS ltac:(fun HM => apply (pr_corr_value _ _ _ _ _ _ HM); inl).
  - agg HS ltac:(fun HM => apply (bcmse_packaged _ _ _ _ _ _ HM); inl).
  - agg HS ltac:(fun HM => apply (bcrmse_packaged _ _ _ _ _ _ HM); inl).
  - agg HS ltac:(fun HM => apply (msess_value _ _ _ _ _ _ HM); inl).
Qed.

Lemma sl1l2_row b r columns : SummaryRow sl1l2_fields columns b r ->
  Forall (fun '(name, stat, Measure) =>
      exists v, stat [r] columns false = Ok v /\ Measure b v)
    (("fe", calculate_fe, FeOf) :: sl1l2_table).
Proof.
  intro HS. destruct (mom_row _ _ _ _ HS) as (n & HM).
  unfold sl1l2_table. repeat apply Forall_cons; try apply Forall_nil.
  - apply (fe_value _ _ _ _ _ _ HM); inl.
  - apply (mean_stat_value _ _ _ _ _ _ HM "fbar" fc); inl.
  - apply (mean_stat_value _ _ _ _ _ _ HM "obar" ob); inl.
  - apply (mean_stat_value _ _ _ _ _ _ HM "fobar" (fun p => fc p * ob p)); inl.
  - apply (mean_stat_value _ _ _ _ _ _ HM "ffbar" (fun p => fc p * fc p)); inl.
  - apply (mean_stat_value _ _ _ _ _ _ HM "oobar" (fun p => ob p * ob p)); inl.
  - apply (mean_stat_value _ _ _ _ _ _ HM "mae" (fun p => Qabs (fc p - ob p))); inl.
  - apply (mbias_value _ _ _ _ _ _ HM); inl.
  - apply some_published; apply (me_value _ _ _ _ _ _ HM); inl.
  - apply (me2_value _ _ _ _ _ _ HM); inl.
  - apply some_published; apply (mse_value _ _ _ _ _ _ HM); inl.
  - destruct (rmse_value _ _ _ _ _ _ HM) as (x & E & R & _); try inl; exists (Some x); split; assumption.
  - apply (stdev_stat_value _ _ _ _ _ _ HM); inl.
  - apply (stdev_stat_value _ _ _ _ _ _ HM); inl.
  - apply (pr_corr_value _ _ _ _ _ _ HM); inl.
  - apply (bcmse_packaged _ _ _ _ _ _ HM); inl.
  - apply (bcrmse_packaged _ _ _ _ _ _ HM); inl.
  - apply (msess_value _ _ _ _ _ _ HM); inl.
Qed.

Lemma si_pooling groups data columns : Summaries sl1l2_fields columns groups data ->
  exists m o, RmseOf (concat groups) (Some m) /\ ObarOf (concat groups) (Some o) /\
    (o == 0 -> aggregated "si" calculate_si data columns = Err ZeroDivisionError) /\
    (~ o == 0 -> exists r, aggregated "si" calculate_si data columns = Ok (Some r) /\ Nearest 7 (m / o) r).
Proof.
  intro HS. unfold aggregated, prepare.
  destruct (mom_agg sl1l2_fields columns groups data ["ffbar"; "oobar"; "fobar"; "obar"]
    ltac:(apply nodupb_ok; reflexivity) ltac:(apply subsetb_ok; reflexivity) ltac:(apply nodupb_ok; reflexivity) HS) as (d & n & Ed & HM).
  change (assoc "si" STATISTIC_TO_FIELDS) with (Some ["ffbar"; "oobar"; "fobar"; "obar"]). cbv iota. rewrite Ed. cbn [bind].
  apply (si_value _ _ _ _ _ _ HM); inl.
Qed.

(** Genuine data: variances, correlation. *)
Lemma sq_zero x : x * x == 0 -> x == 0.
Proof. intro H. apply Qmult_integral in H. tauto. Qed.

Lemma total_sq_zero {A} (g : A -> Q) l : total_of (fun x => g x * g x) l == 0 -> forall x, In x l -> g x == 0.
Proof.
  intros Z x Hx. apply sq_zero.
  assert (S : forall l', 0 <= total_of (fun x => g x * g x) l') by (intro; apply total_nonneg; intros; apply Qsq_nonneg).
  induction l as [|y t IH]; [contradiction|].
  unfold total_of in Z, S. simpl in Z. pose proof (S t) as St. pose proof (Qsq_nonneg (g y)).
  destruct Hx as [->|Hx]; [qlra|]. apply IH; [unfold total_of; qlra|exact Hx].
Qed.

Lemma mean_const {A} (g : A -> Q) l c : l <> [] -> (forall x, In x l -> g x == c) -> mean_of g l == c.
Proof.
  intros Hl H. unfold mean_of. rewrite (total_ext g (fun _ => c) l H), total_const.
  pose proof (count_pos l Hl). field. qlra.
Qed.

Lemma codev_zero_iff {A} (g : A -> Q) l : codev g g l == 0 <-> Constant g l.
Proof.
  split.
  - intros Z x y Hx Hy. pose proof (total_sq_zero (fun p => g p - mean_of g l) l Z) as K.
    pose proof (K x Hx). pose proof (K y Hy). cbv beta in *. qlra.
  - intro C. unfold codev. destruct l as [|x t]; [reflexivity|].
    assert (M : mean_of g (x :: t) == g x).
    { apply mean_const; [discriminate|]. intros y Hy. apply C; [exact Hy|left; reflexivity]. }
    rewrite (total_ext _ (fun _ => 0)); [rewrite total_const; ring|].
    intros y Hy. rewrite M, (C y x Hy (or_introl eq_refl)). ring.
Qed.

Lemma nearestR_unique x s w : NearestR 7 x s -> NearestR 7 x w -> s == w.
Proof.
  intros (M & U & L) (M2 & U2 & L2). destruct M as [k Hk], M2 as [j Hj].
  set (T := inject_Z (10 ^ Z.of_nat 7)) in *.
  assert (PT : 0 < T) by (unfold T; apply pow10_pos).
  assert (D1 : (Q2R s < Q2R w + Q2R (half_unit 7) + Q2R (half_unit 7))%R) by lra.
  assert (D2 : (Q2R w < Q2R s + Q2R (half_unit 7) + Q2R (half_unit 7))%R) by lra.
  rewrite <- !Q2R_plus in D1, D2. apply Q2R_lt in D1. apply Q2R_lt in D2.
  pose proof (half_unit_scaled 7) as HS. fold T in HS.
  assert (F1 : s * T < w * T + 1) by (apply (Qmult_lt_r _ _ T PT) in D1; qlra).
  assert (F2 : w * T < s * T + 1) by (apply (Qmult_lt_r _ _ T PT) in D2; qlra).
  rewrite Hk, Hj in F1, F2.
  change 1 with (inject_Z 1) in F1, F2. rewrite <- inject_Z_plus in F1, F2. rewrite <- Zlt_Qlt in F1, F2.
  assert (k = j) by lia. subst j.
  apply (Qmult_inj_r _ _ T); [intro K; qlra|]. rewrite Hk, Hj. reflexivity.
Qed.

Lemma publishedR_range lo hi x r : MultipleOf 7 lo -> MultipleOf 7 hi -> (Q2R lo <= x <= Q2R hi)%R ->
  NearestR 7 x r -> lo <= r <= hi.
Proof.
  intros Hl Hh AB N. rewrite (nearestR_unique _ _ _ N (rhuR_nearest x 7)). apply rhuR_interval; assumption.
Qed.

Lemma row_agg (name : string) stat (Measure : list pair -> option Q -> Prop) groups data columns :
  In (name, stat, Measure) sl1l2_table -> Summaries sl1l2_fields columns groups data ->
  exists r, aggregated name stat data columns = Ok r /\ Measure (concat groups) r.
Proof.
  intros Hin HS. pose proof (sl1l2_pooling groups data columns HS) as F.
  rewrite Forall_forall in F. apply (F _ Hin).
Qed.

Lemma concat_ne {A} fields columns groups (data : tdata) :
  @Summaries A fields columns groups data -> concat groups <> [].
Proof.
  intros HS K. pose proof (Summaries_count _ _ _ _ HS) as P. rewrite K in P. exact (Qlt_irrefl 0 P).
Qed.

Lemma genuine_mse groups data columns : Summaries sl1l2_fields columns groups data ->
  (exists r, aggregated "mse" calculate_mse data columns = Ok (Some r) /\ 0 <= r) /\
  (exists r, aggregated "rmse" calculate_rmse data columns = Ok (Some r) /\ 0 <= r) /\
  (exists r, aggregated "mae" calculate_mae data columns = Ok (Some r) /\ 0 <= r).
Proof.
  intro HS. pose proof (concat_ne _ _ _ _ HS) as Hne.
  assert (NN : 0 <= mean_sq_error (concat groups)) by (apply mean_nonneg; [exact Hne|]; intros; apply Qsq_nonneg).
  assert (I1 : In ("mse", calculate_mse, MseOf) sl1l2_table) by (unfold sl1l2_table; simpl; tauto).
  assert (I2 : In ("rmse", calculate_rmse, RmseOf) sl1l2_table) by (unfold sl1l2_table; simpl; tauto).
  assert (I3 : In ("mae", calculate_mae, MaeOf) sl1l2_table) by (unfold sl1l2_table; simpl; tauto).
  destruct (row_agg _ _ _ _ _ _ I1 HS) as ([r1|] & E1 & M1); [|contradiction M1].
  destruct (row_agg _ _ _ _ _ _ I2 HS) as ([r2|] & E2 & (m & Nm & M2)); [|contradiction M2].
  destruct (row_agg _ _ _ _ _ _ I3 HS) as ([r3|] & E3 & M3); [|contradiction M3].
  split; [|split].
  - exists r1. split; [exact E1|]. apply (nearest_nonneg _ _ NN M1).
  - exists r2. split; [exact E2|].
    apply (nearestR_unique _ _ _ (rhuR_nearest (sqrt (Q2R m)) 7)) in M2. rewrite <- M2.
    rewrite <- (rhu_fix 0 7 (multiple_0 7)), <- rhuR_Q. apply rhuR_mono. rewrite Q2R_0. apply sqrt_pos.
  - exists r3. split; [exact E3|]. refine (nearest_nonneg _ _ _ M3). apply mean_nonneg; [exact Hne|].
    intros. apply Qabs_nonneg.
Qed.

Lemma stdev_defined {A} (g : A -> Q) l r : PublishedR (sample_stdev g l) r ->
  (1 < count l -> exists s, r = Some s /\ 0 <= s) /\ (count l <= 1 -> r = None).
Proof.
  unfold sample_stdev. destruct (Qlt_le_dec 1 (count l)) as [H|H]; destruct r as [s|]; simpl; intro P; try contradiction.
  - split; [|intro; exfalso; qlra]. intros _. exists s. split; [reflexivity|].
    apply (nearestR_unique _ _ _ (rhuR_nearest _ 7)) in P. rewrite <- P.
    rewrite <- (rhu_fix 0 7 (multiple_0 7)), <- rhuR_Q. apply rhuR_mono. rewrite Q2R_0. apply sqrt_pos.
  - split; [intro; exfalso; qlra|reflexivity].
Qed.

Lemma genuine_stdev groups data columns : Summaries sl1l2_fields columns groups data ->
  exists rf ro, aggregated "fstdev" calculate_fstdev data columns = Ok rf /\
    aggregated "ostdev" calculate_ostdev data columns = Ok ro /\
    (1 < count (concat groups) -> exists f o, rf = Some f /\ ro = Some o /\ 0 <= f /\ 0 <= o) /\
    (count (concat groups) <= 1 -> rf = None /\ ro = None).
Proof.
  intro HS.
  assert (I1 : In ("fstdev", calculate_fstdev, FstdevOf) sl1l2_table) by (unfold sl1l2_table; simpl; tauto).
  assert (I2 : In ("ostdev", calculate_ostdev, OstdevOf) sl1l2_table) by (unfold sl1l2_table; simpl; tauto).
  destruct (row_agg _ _ _ _ _ _ I1 HS) as (rf & E1 & M1).
  destruct (row_agg _ _ _ _ _ _ I2 HS) as (ro & E2 & M2).
  exists rf, ro. split; [exact E1|]. split; [exact E2|].
  destruct (stdev_defined _ _ _ M1) as [A1 B1]. destruct (stdev_defined _ _ _ M2) as [A2 B2].
  split; intro H.
  - destruct (A1 H) as (f & -> & Pf). destruct (A2 H) as (o & -> & Po). exists f, o. auto.
  - split; auto.
Qed.

Lemma Q2R_int z : Q2R (inject_Z z) = IZR z. Proof. apply Q2R_inject. Qed.

Lemma corr_facts l r : PublishedR (pearson fc ob l) r ->
  (forall c, r = Some c -> -1 <= c <= 1) /\ (r = None <-> Constant fc l \/ Constant ob l).
Proof.
  intro P. destruct (pearson fc ob l) as [x|] eqn:E; destruct r as [c|]; simpl in P; try contradiction.
  - split.
    + intros c' K. injection K as <-. pose proof (pearson_bound _ _ _ _ E) as B.
      apply (publishedR_range (-1) 1 x); [apply multiple_m1|apply multiple_1| |exact P].
      rewrite Q2R_m1, Q2R_1. exact B.
    + split; [discriminate|]. intro C. exfalso. unfold pearson in E.
      destruct (Qeq_dec (codev fc fc l * codev ob ob l) 0) as [Z|NZ]; [discriminate|].
      apply NZ. destruct C as [C|C]; apply codev_zero_iff in C; rewrite C; ring.
  - split; [discriminate|]. split; [|reflexivity]. intros _. unfold pearson in E.
    destruct (Qeq_dec (codev fc fc l * codev ob ob l) 0) as [Z|NZ]; [|discriminate].
    apply Qmult_integral in Z. destruct Z as [Z|Z]; apply codev_zero_iff in Z; auto.
Qed.

Lemma corr_in : In ("pr_corr", calculate_pr_corr, CorrOf) sl1l2_table.
Proof. unfold sl1l2_table; simpl; tauto. Qed.

Lemma genuine_corr groups data columns : Summaries sl1l2_fields columns groups data ->
  exists r, aggregated "pr_corr" calculate_pr_corr data columns = Ok r /\
    (forall c, r = Some c -> -1 <= c <= 1) /\
    (r = None <-> Constant fc (concat groups) \/ Constant ob (concat groups)).
Proof.
  intro HS. destruct (row_agg _ _ _ _ _ _ corr_in HS) as (r & E & M).
  exists r. split; [exact E|]. apply corr_facts. exact M.
Qed.

Lemma mean_affine {A} (g h : A -> Q) a b l : l <> [] -> (forall x, In x l -> h x == a * g x + b) ->
  mean_of h l == a * mean_of g l + b.
Proof.
  intros Hl H. unfold mean_of. rewrite (total_ext h (fun x => a * g x + b) l H).
  rewrite total_plus, total_scale, total_const. pose proof (count_pos l Hl). field. qlra.
Qed.

Lemma pearson_linear l a b : l <> [] -> (forall p, In p l -> ob p == a * fc p + b) -> ~ a == 0 ->
  ~ Constant fc l -> pearson fc ob l = Some (if Qlt_le_dec 0 a then 1%R else (-1)%R).
Proof.
  intros Hl H Ha Hc.
  pose proof (mean_affine fc ob a b l Hl H) as M.
  assert (E1 : codev fc ob l == a * codev fc fc l).
  { unfold codev. rewrite <- total_scale. apply total_ext. intros x Hx. rewrite M, (H x Hx). ring. }
  assert (E2 : codev ob ob l == a * a * codev fc fc l).
  { unfold codev. rewrite <- total_scale. apply total_ext. intros x Hx. rewrite M, (H x Hx). ring. }
  assert (P : 0 < codev fc fc l).
  { pose proof (codev_self_nonneg fc l). destruct (Qeq_dec (codev fc fc l) 0) as [Z|]; [|qlra].
    exfalso. apply Hc. apply codev_zero_iff. exact Z. }
  unfold pearson. destruct (Qeq_dec (codev fc fc l * codev ob ob l) 0) as [Z|NZ].
  - exfalso. rewrite E2 in Z. apply Qmult_integral in Z. destruct Z as [Z|Z]; [qlra|].
    apply Qmult_integral in Z. destruct Z as [Z|Z]; [|qlra]. apply Qmult_integral in Z. tauto.
  - f_equal. set (S := codev fc fc l) in *.
    assert (EV : S * codev ob ob l == (a * S) * (a * S)) by (rewrite E2; ring).
    rewrite (Q2R_eq _ _ EV), (Q2R_eq _ _ E1), (Q2R_mult (a * S) (a * S)).
    change (Q2R (a * S) * Q2R (a * S))%R with (Rsqr (Q2R (a * S))). rewrite sqrt_Rsqr_abs.
    assert (NZa : Q2R (a * S) <> 0%R).
    { rewrite <- Q2R_0. intro K. apply eqR_Qeq in K. apply Qmult_integral in K. destruct K; [tauto|qlra]. }
    destruct (Qlt_le_dec 0 a) as [Pa|Na].
    + rewrite Rabs_right; [field; exact NZa|]. left. rewrite <- Q2R_0. apply Qlt_Rlt. apply Qmult_lt_0_compat; assumption.
    + assert (a < 0) by qlra.
      rewrite Rabs_left; [field; exact NZa|]. rewrite <- Q2R_0. apply Qlt_Rlt.
      assert (0 < (- a) * S) by (apply Qmult_lt_0_compat; qlra). qlra.
Qed.

Lemma genuine_corr_linear groups data columns a b : Summaries sl1l2_fields columns groups data ->
  (forall p, In p (concat groups) -> ob p == a * fc p + b) -> ~ a == 0 -> ~ Constant fc (concat groups) ->
  exists c, aggregated "pr_corr" calculate_pr_corr data columns = Ok (Some c) /\
    (0 < a -> c == 1) /\ (a < 0 -> c == -1).
Proof.
  intros HS H Ha Hc. destruct (row_agg _ _ _ _ _ _ corr_in HS) as (r & E & M).
  unfold CorrOf in M. rewrite (pearson_linear _ a b (concat_ne _ _ _ _ HS) H Ha Hc) in M.
  destruct r as [c|]; [|contradiction]. exists c. split; [exact E|]. simpl in M.
  destruct (Qlt_le_dec 0 a).
  - split; [|intro; exfalso; qlra]. intros _. rewrite <- Q2R_1 in M. apply nearestR_Q in M.
    apply (published_exact 1 c (multiple_1 7) M).
  - split; [intro; exfalso; qlra|]. intros _. rewrite <- Q2R_m1 in M. apply nearestR_Q in M.
    apply (published_exact (-1) c (multiple_m1 7) M).
Qed.

(** Findings. *)
Lemma group_ok {A} (gs : list (list A)) : forallb (fun b => match b with [] => false | _ => true end) gs = true ->
  forall b, In b gs -> b <> [].
Proof. rewrite forallb_forall. intros H b Hb K. specialize (H b Hb). rewrite K in H. discriminate. Qed.

Lemma lines_ok (groups : list (list pair)) : groups <> [] ->
  forallb (fun b => match b with [] => false | _ => true end) groups = true ->
  Summaries sl1l2_fields (line_columns sl1l2_fields) groups (map (line_of sl1l2_fields) groups).
Proof. intros H1 H2. apply lines_summaries; [apply nodupb_ok; reflexivity|exact H1|apply group_ok; exact H2]. Qed.

Lemma fe_refuted : exists groups data columns r,
  Summaries sl1l2_fields columns groups data /\
  aggregated "fe" calculate_fe data columns = Ok r /\ ~ FeOf (concat groups) r.
Proof.
  exists [[(2, 1)]; [(1, 1); (1, 1); (1, 1)]], (map (line_of sl1l2_fields) [[(2, 1)]; [(1, 1); (1, 1); (1, 1)]]),
    (line_columns sl1l2_fields), (Some (3333333 # 10000000)).
  split; [apply lines_ok; [discriminate|reflexivity]|]. split; [vm_compute; reflexivity|].
  unfold FeOf, Published, Nearest. vm_compute oratio. intros (_ & U & _).
  revert U. vm_compute. intro K; apply K; reflexivity.
Qed.

Definition est_pairs : list pair := [(3 # 2, 0); (- 1 # 2, 0); (- 1 # 2, 0); (- 1 # 2, 0)].
Lemma sqrt4 : sqrt (Q2R 4) = 2%R.
Proof. replace (Q2R 4) with (2 * 2)%R by (unfold Q2R; simpl; field). apply sqrt_square. lra. Qed.

Lemma estdev_refuted : exists groups data columns r,
  Summaries sl1l2_fields columns groups data /\
  aggregated "estdev" calculate_estdev data columns = Ok r /\ ~ EstdevOf (concat groups) r.
Proof.
  exists [est_pairs], [line_of sl1l2_fields est_pairs], (line_columns sl1l2_fields), (Some (20000000 # 10000000)).
  split; [apply (lines_ok [est_pairs]); [discriminate|reflexivity]|]. split.
  - unfold aggregated, prepare. change (assoc "estdev" STATISTIC_TO_FIELDS) with (Some ["ffbar"; "oobar"; "fobar"; "fbar"; "obar"]).
    cbv iota.
    set (d := scale_columns _ _ _). vm_compute in d.
    unfold d. cbn [bind]. clear d. unfold calculate_estdev.
    set (c1 := colsum _ _ "total"). vm_compute in c1. unfold c1. clear c1. cbn [bind].
    set (c1 := calculate_me _ _ _). vm_compute in c1. unfold c1. clear c1. cbn [bind].
    set (c1 := calculate_mse _ _ _). vm_compute in c1. unfold c1. clear c1. cbn [bind pybin].
    unfold calculate_stddev, pylit, npdiv. cbn [bind].
    match goal with |- context [Qlt_bool ?a 1] => replace (Qlt_bool a 1) with false by (vm_compute; reflexivity) end.
    match goal with |- context [Qeq_bool ?a 0] => replace (Qeq_bool a 0) with false by (vm_compute; reflexivity) end.
    cbn [bind]. unfold np_sqrt. cbn [bind].
    repeat match goal with |- context [Qlt_bool ?a 0] => replace (Qlt_bool a 0) with false by (vm_compute; reflexivity) end.
    match goal with |- context [Q2R ?a] => rewrite (Q2R_eq a 4) by (vm_compute; reflexivity) end.
    rewrite sqrt4. simpl. f_equal. f_equal.
    replace 2%R with (Q2R 2) by (unfold Q2R; simpl; field). rewrite rhuR_Q. vm_compute. reflexivity.
  - unfold EstdevOf, sample_stdev. destruct (Qlt_le_dec 1 (count (concat [est_pairs]))) as [_|K]; [|vm_compute in K; exfalso; apply K; reflexivity].
    simpl concat. simpl PublishedR.
    match goal with |- context [Q2R (?a / ?b)] => rewrite (Q2R_eq (a / b) 1) by (vm_compute; reflexivity) end.
    rewrite Q2R_1, sqrt_1, <- Q2R_1. rewrite nearestR_Q. intros (_ & U & _).
    vm_compute in U. apply U. reflexivity.
Qed.

Lemma si_refuted : exists groups data columns,
  Summaries sl1l2_fields columns groups data /\
  aggregated "si" calculate_si data columns = Err ZeroDivisionError.
Proof.
  set (gs := [[(1, 1); (1, -1)]] : list (list pair)).
  exists gs, (map (line_of sl1l2_fields) gs), (line_columns sl1l2_fields).
  assert (HS : Summaries sl1l2_fields (line_columns sl1l2_fields) gs (map (line_of sl1l2_fields) gs))
    by (apply lines_ok; [discriminate|reflexivity]).
  split; [exact HS|].
  destruct (si_pooling _ _ _ HS) as (m & o & _ & Ho & K & _). apply K.
  apply (published_exact 0 o (multiple_0 7)). apply (nearest_compat 7 (mean_of ob (concat gs))); [|exact Ho].
  vm_compute. reflexivity.
Qed.

Lemma bcmse_in : In ("bcmse", calculate_bcmse, BcmseOf) sl1l2_table.
Proof. unfold sl1l2_table; simpl; tauto. Qed.
Lemma mae_in : In ("mae", calculate_mae, MaeOf) sl1l2_table.
Proof. unfold sl1l2_table; simpl; tauto. Qed.
Lemma rmse_in : In ("rmse", calculate_rmse, RmseOf) sl1l2_table.
Proof. unfold sl1l2_table; simpl; tauto. Qed.

Lemma bcmse_refuted : exists groups data columns r,
  Summaries sl1l2_fields columns groups data /\
  aggregated "bcmse" calculate_bcmse data columns = Ok (Some r) /\ r < 0 /\
  aggregated "bcrmse" calculate_bcrmse data columns = Ok None.
Proof.
  set (gs := [[(1000000005 # 100000000, 0)]] : list (list pair)).
  exists gs, (map (line_of sl1l2_fields) gs), (line_columns sl1l2_fields).
  eexists. split; [apply lines_ok; [discriminate|reflexivity]|].
  split; [vm_compute; reflexivity|]. split; [vm_compute; reflexivity|].
  unfold aggregated, prepare. change (assoc "bcrmse" STATISTIC_TO_FIELDS) with (Some ["ffbar"; "oobar"; "fobar"; "fbar"; "obar"]).
  cbv iota. set (d := scale_columns _ _ _). vm_compute in d. unfold d. cbn [bind]. clear d.
  unfold calculate_bcrmse. set (c1 := calculate_bcmse _ _ _). vm_compute in c1. unfold c1. clear c1.
  reflexivity.
Qed.

Lemma rmse_mae_refuted : exists groups data columns r a,
  Summaries sl1l2_fields columns groups data /\
  aggregated "rmse" calculate_rmse data columns = Ok (Some r) /\
  aggregated "mae" calculate_mae data columns = Ok (Some a) /\ r == 0 /\ a == 1 # 10000.
Proof.
  set (gs := [[(1 # 10000, 0)]] : list (list pair)).
  assert (HS : Summaries sl1l2_fields (line_columns sl1l2_fields) gs (map (line_of sl1l2_fields) gs))
    by (apply lines_ok; [discriminate|reflexivity]).
  destruct (row_agg _ _ _ _ _ _ rmse_in HS) as ([r|] & E1 & (m & Nm & M1)); [|contradiction M1].
  exists gs, (map (line_of sl1l2_fields) gs), (line_columns sl1l2_fields), r.
  eexists. split; [exact HS|]. split; [exact E1|]. split; [vm_compute; reflexivity|].
  split; [|vm_compute; reflexivity].
  pose proof (nearest_unique _ _ _ _ Nm (rhu_nearest _ 7)) as Em.
  assert (Z : m == 0) by (rewrite Em; vm_compute; reflexivity).
  simpl in M1. rewrite (Q2R_eq _ _ Z), Q2R_0, sqrt_0, <- Q2R_0 in M1. apply nearestR_Q in M1.
  apply (published_exact 0 r (multiple_0 7) M1).
Qed.

(** The published mean absolute error and root mean square error do satisfy the
    inequality before rounding. *)
Lemma mae_le_rmse l : l <> [] -> mean_abs_error l * mean_abs_error l <= mean_sq_error l.
Proof.
  intro Hl. unfold mean_abs_error, mean_sq_error.
  eapply Qle_trans; [apply mean_sq; exact Hl|].
  apply Qle_lteq. right. apply mean_ext. intro x.
  apply (Qabs_case (fc x - ob x)); intros; ring.
Qed.

Lemma me_sq_le_mse l : l <> [] -> mean_error l * mean_error l <= mean_sq_error l.
Proof. intro Hl. apply (mean_sq (fun p => fc p - ob p) l Hl). Qed.
