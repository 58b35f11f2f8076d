(** Proofs about the programs from file to file. *)
From Coq Require Import Reals Qreals Qabs Qminmax Permutation.
From Verif Require Import PyBase ColumnModel BaseSpec BaseProofs RealBase RealSpec RealProofs MomentProofs.
From Verif Require Import CtcModel CtcSpec CtcProofs CtcProofs2 LogModel Sl1l2Model Sl1l2Spec Sl1l2Proofs Sl1l2Proofs2 AggModel AggSpec AggProofs EnsModel EnsSpec EnsProofs.
From Verif Require Import AnomModel AnomSpec AnomProofs WindModel WindSpec WindProofs.
From Verif Require Import EventSpec EventProofs UtilSpec BootModel DriveModel DriveSpec DriveProofs CurveProofs PairModel PoolSpec PoolProofs.
From Verif Require Import SumDriveSpec SumDriveProofs BlockProofs CardModel FileModel FileSpec FileProofs.
From Verif Require SumDriveModel PoolModel.
From Verif Require Import WholeModel WholeSpec.
From Coq Require Import List.
Open Scope string_scope.
Open Scope Q_scope.
Import PoolModel.

(** ** Measures do not depend on the order of the cases *)
Lemma vlength_same u v u' v' : u == u' -> v == v' -> vlength u v = vlength u' v'.
Proof. intros A B. unfold vlength. f_equal. apply Qeq_eqR. rewrite A, B. reflexivity. Qed.
Lemma direction_same u v u' v' r : u == u' -> v == v' -> DirectionOf u v r -> DirectionOf u' v' r.
Proof.
  intros A B [D1 D2]. assert (CC : Calm u v <-> Calm u' v') by (unfold Calm; rewrite A, B; reflexivity).
  split; [intro K; apply D1, CC, K|]. intro K. destruct D2 as (a & (R1 & R2 & R3) & P); [intro X; apply K, CC, X|].
  exists a. split; [|exact P]. assert (X : - u == - u') by (rewrite A; reflexivity). assert (Y : - v == - v') by (rewrite B; reflexivity).
  split; [exact R1|]. rewrite <- (vlength_same _ _ _ _ X Y). rewrite <- (Qeq_eqR _ _ X), <- (Qeq_eqR _ _ Y). auto.
Qed.
Lemma winds_perm : forall st (M : list vpair -> option Q -> Prop) l l' r, In (st, M) wind_measures -> Permutation l l' -> M l r -> M l' r.
Proof.
  intros st M l l' r H P. assert (mn : forall g : vpair -> Q, mean_of g l == mean_of g l') by (intros; apply mean_perm, P).
  assert (mr : forall g : vpair -> Q, Q2R (mean_of g l) = Q2R (mean_of g l')) by (intros; apply Qeq_eqR, mn).
  assert (fs : forall x, FspeedOf l x -> FspeedOf l' x) by (intro x; unfold FspeedOf; rewrite (vlength_same _ _ _ _ (mn uf) (mn vf)); auto).
  assert (os : forall x, OspeedOf l x -> OspeedOf l' x) by (intro x; unfold OspeedOf; rewrite (vlength_same _ _ _ _ (mn uo) (mn vo)); auto).
  assert (fv : forall x, FvarOf l x -> FvarOf l' x) by (intro x; apply published_some; rewrite (mn dot_ff), (mn f_speed); reflexivity).
  assert (ov : forall x, OvarOf l x -> OvarOf l' x) by (intro x; apply published_some; rewrite (mn dot_oo), (mn o_speed); reflexivity).
  revert M H. assert (K : Forall (fun x : string * (list vpair -> option Q -> Prop) => snd x l r -> snd x l' r) wind_measures).
  2:{ intros M H. exact (proj1 (Forall_forall _ _) K _ H). }
  unfold wind_measures. repeat apply Forall_cons; try apply Forall_nil; cbn [snd]; auto.
  - unfold BiasOf. rewrite !mr. auto.
  - apply published_some, mn.
  - intros [m [N Z]]. exists m. split; [apply (nearest_compat 7 _ _ _ (mn _)), N|exact Z].
  - intros (f & o & F & O & R). exists f, o. auto.
  - apply published_some, mn.
  - apply published_some, mn.
  - unfold FsRmsOf. rewrite mr. auto.
  - unfold OsRmsOf. rewrite mr. auto.
  - apply published_some, mn.
  - intros [m [N Z]]. exists m. split; [apply (nearest_compat 7 _ _ _ (mn _)), N|exact Z].
  - intros (z & F & R). exists z. auto.
  - intros (z & F & R). exists z. auto.
  - unfold VdiffSpeedOf. rewrite (vlength_same (mean_uf l - mean_uo l) (mean_vf l - mean_vo l) (mean_uf l' - mean_uo l') (mean_vf l' - mean_vo l')); [auto| |]; rewrite !mn; reflexivity.
  - intros (f & o & F & O & R). exists f, o. auto.
  - intros (f & o & F & O & R). exists f, o. auto.
  - apply direction_same; apply mn.
  - apply direction_same; apply mn.
  - apply direction_same; rewrite !mn; reflexivity.
Qed.
Lemma vcodev_perm l l' : Permutation l l' -> vcodev_fo l == vcodev_fo l' /\ vcodev_ff l == vcodev_ff l' /\ vcodev_oo l == vcodev_oo l'.
Proof. intro P. unfold vcodev_fo, vcodev_ff, vcodev_oo. split; [|split]; rewrite !(codev_perm _ _ _ _ P); reflexivity. Qed.
Lemma vectors_perm : forall st (M : list vpair -> option Q -> Prop) l l' r, In (st, M) vector_measures -> Permutation l l' -> M l r -> M l' r.
Proof.
  intros st M l l' r [H|[]] P. injection H as <- <-. destruct (vcodev_perm _ _ P) as (A & B & C). enough (E : vector_corr l = vector_corr l') by (rewrite E; auto).
  unfold vector_corr. assert (Z : vcodev_ff l * vcodev_oo l == vcodev_ff l' * vcodev_oo l') by (rewrite B, C; reflexivity).
  destruct (Qeq_dec _ 0) as [X|X], (Qeq_dec (vcodev_ff l' * vcodev_oo l') 0) as [Y|Y]; [reflexivity|rewrite Z in X; contradiction|rewrite <- Z in Y; contradiction|].
  rewrite (Qeq_eqR _ _ A), (Qeq_eqR _ _ Z). reflexivity.
Qed.
Lemma anomalies_perm : forall st (M : list Sl1l2Spec.pair -> option Q -> Prop) l l' r, In (st, M) anomaly_measures -> Permutation l l' -> M l r -> M l' r.
Proof.
  intros st M l l' r H P. assert (mr : forall g : Sl1l2Spec.pair -> Q, Q2R (mean_of g l) = Q2R (mean_of g l')) by (intros; apply Qeq_eqR, mean_perm, P).
  revert M H. assert (K : Forall (fun x : string * (list Sl1l2Spec.pair -> option Q -> Prop) => snd x l r -> snd x l' r) anomaly_measures).
  2:{ intros M H. exact (proj1 (Forall_forall _ _) K _ H). }
  unfold anomaly_measures. repeat apply Forall_cons; try apply Forall_nil; cbn [snd].
  - unfold AnomCorrOf. rewrite (pearson_perm _ _ l l' P). auto.
  - unfold AnomCorrRawOf. enough (E : uncentred fc ob l = uncentred fc ob l') by (rewrite E; auto). unfold uncentred. cbv zeta.
    pose proof (fun g : Sl1l2Spec.pair -> Q => total_perm g l l' P) as tp.
    assert (Z : total_of (fun p => fc p * fc p) l * total_of (fun p => ob p * ob p) l == total_of (fun p => fc p * fc p) l' * total_of (fun p => ob p * ob p) l').
    { rewrite (tp (fun p => fc p * fc p)), (tp (fun p => ob p * ob p)). reflexivity. }
    destruct (Qeq_dec _ 0) as [X|X], (Qeq_dec (total_of (fun p => fc p * fc p) l' * total_of (fun p => ob p * ob p) l') 0) as [Y|Y];
      [reflexivity|rewrite Z in X; contradiction|rewrite <- Z in Y; contradiction|].
    rewrite (Qeq_eqR _ _ (tp (fun p => fc p * ob p))), (Qeq_eqR _ _ Z). reflexivity.
  - unfold RmsfaOf. rewrite mr. auto.
  - unfold RmsoaOf. rewrite mr. auto.
Qed.

(** ** Functions by name *)
Definition Pools {A} lw (fs : list (string * (A -> Q))) (x : string * (list A -> option Q -> Prop)) (f : statistic_function) : Prop :=
  assoc (fst x) (functions lw) = Some f /\
  forall groups data columns, Summaries fs columns groups data -> exists r, aggregated (fst x) f data columns = Ok r /\ snd x (concat groups) r.
Lemma named_in {A} (R : A -> statistic_function -> Prop) l fs x : Forall2 R l fs -> In x l -> exists f, R x f.
Proof. intro K. induction K as [|y f l fs X K IH]; [intros []|]. intros [->|H]; [exists f; exact X|auto]. Qed.
Definition wind_functions : list statistic_function :=
  [calculate_vl1l2_bias; calculate_vl1l2_fvar; calculate_vl1l2_ovar; calculate_vl1l2_msve; calculate_vl1l2_rmsve; calculate_vl1l2_speed_err;
   calculate_vcnt_fbar; calculate_vcnt_obar; calculate_vcnt_fs_rms; calculate_vcnt_os_rms; calculate_vcnt_msve; calculate_vcnt_rmsve;
   calculate_vcnt_fstdev; calculate_vcnt_ostdev; calculate_vcnt_fbar_speed; calculate_vcnt_obar_speed; calculate_vcnt_vdiff_speed;
   calculate_vcnt_speed_err; calculate_vcnt_speed_abserr; calculate_vcnt_fdir; calculate_vcnt_odir; calculate_vcnt_vdiff_dir].
Lemma wind_named lw x : In x wind_measures -> exists f, Pools lw wind_fields x f.
Proof.
  apply (named_in _ _ wind_functions). unfold wind_measures, wind_functions.
  repeat (apply Forall2_cons; [split; [reflexivity|]; intros groups data columns HS; pose proof (C42_pooling_proof groups data columns HS) as P;
    rewrite Forall_forall in P; cbn [fst snd]; match goal with |- exists r, aggregated ?n ?f _ _ = _ /\ ?M _ r => apply (P (n, f, M)); simpl; tauto end|]).
  apply Forall2_nil.
Qed.
Lemma anomaly_named lw x : In x anomaly_measures -> exists f, Pools lw sal1l2_fields x f.
Proof.
  apply (named_in _ _ [calculate_anom_corr; calculate_anom_corr_raw; calculate_rmsfa; calculate_rmsoa]). unfold anomaly_measures.
  repeat (apply Forall2_cons; [split; [reflexivity|]; intros groups data columns HS; pose proof (C35_pooling_proof groups data columns HS) as P;
    rewrite Forall_forall in P; cbn [fst snd]; match goal with |- exists r, aggregated ?n ?f _ _ = _ /\ ?M _ r => apply (P (n, f, M)); simpl; tauto end|]).
  apply Forall2_nil.
Qed.
Lemma vector_named lw x : In x vector_measures -> exists f, Pools lw val1l2_fields x f.
Proof.
  apply (named_in _ _ [calculate_val1l2_anom_corr]). apply Forall2_cons; [|apply Forall2_nil]. split; [reflexivity|]. intros groups data columns HS.
  destruct (C35_vector_pooling_proof _ _ _ HS) as (r & E & P & _). exists r. auto.
Qed.
Definition same_types : list string := ["sl1l2"; "sal1l2"; "grad"; "vl1l2"; "val1l2"; "vcnt"].
Lemma measured_fact lw A lt fs Ms : Measured A lt fs Ms -> In lt same_types /\
  forall st M, In (st, M) Ms -> exists f, Pools lw fs (st, M) f /\ forall l l' r, Permutation l l' -> M l r -> M l' r.
Proof.
  intros [| | | | |]; (split; [simpl; tauto|]); intros st M H.
  - destruct (pair_named lw _ _ H) as (f & T & F). exists f. split; [|intros l l' r P; exact (measures_perm st M l l' r H P)].
    split; [exact F|]. intros groups data columns HS. pose proof (sl1l2_pooling _ _ _ HS) as PL. rewrite Forall_forall in PL. exact (PL _ T).
  - destruct (anomaly_named lw _ H) as (f & F). exists f. split; [exact F|intros l l' r P; exact (anomalies_perm st M l l' r H P)].
  - destruct (vector_named lw _ H) as (f & F). exists f. split; [exact F|intros l l' r P; exact (vectors_perm st M l l' r H P)].
  - destruct (wind_named lw _ H) as (f & F). exists f. split; [exact F|intros l l' r P; exact (winds_perm st M l l' r H P)].
  - destruct (wind_named lw _ H) as (f & F). exists f. split; [exact F|intros l l' r P; exact (winds_perm st M l l' r H P)].
  - unfold gradient_scores in H. apply in_map_iff in H. destruct H as [[st' m] [E H]]. cbn [fst snd] in E. injection E as -> <-.
    destruct (gradient_named lw _ _ H) as (f & F & G). exists f. split; [split; [exact F|exact G]|].
    intros l l' r P. apply published_proper; [symmetry; exact (gradients_perm st m l l' H P)|reflexivity].
Qed.

(** ** Single lines by name *)
Lemma statistic_known lw st f : assoc st (functions lw) = Some f -> EventModel.mem st not_imported = false ->
  calculate_statistic lw st = Some (fun columns rows => f rows columns false).
Proof. intros F N. unfold calculate_statistic. rewrite N, F. reflexivity. Qed.
Definition Alone {A} lw (P : list string -> list A -> row -> Prop) (x : string * (list A -> option Q -> Prop)) (f : statistic_function) : Prop :=
  (assoc (fst x) (functions lw) = Some f /\ EventModel.mem (fst x) not_imported = false) /\
  forall b r columns, P columns b r -> exists v, f [r] columns false = Ok v /\ snd x b v.
Definition pair_functions : list statistic_function := map (fun x => snd (fst x)) (("fe", calculate_fe, FeOf) :: pair_triples).
Lemma pair_alone lw x : In x (("fe", FeOf) :: pair_measures) -> exists f, Alone lw (SummaryRow sl1l2_fields) x f.
Proof.
  apply (named_in _ _ pair_functions). unfold pair_functions, pair_triples, pair_measures. cbn [map fst snd].
  repeat (apply Forall2_cons; [split; [split; reflexivity|]; intros b r columns HS; pose proof (sl1l2_row b r columns HS) as P;
    rewrite Forall_forall in P; cbn [fst snd]; match goal with |- exists v, ?f _ _ _ = _ /\ ?M _ v => match goal with |- _ => idtac end end|]).
  all: try apply Forall2_nil.
  all: match goal with |- exists v, ?f _ _ _ = _ /\ ?M _ v =>
    let rec go l := match l with cons (?n, f, M) _ => apply (P (n, f, M)); unfold sl1l2_table; simpl; tauto | cons _ ?t => go t end in
    let l := eval unfold sl1l2_table in (("fe", calculate_fe, FeOf) :: sl1l2_table) in go l end.
Qed.
Lemma anomaly_alone lw x : In x (filter (fun x => negb (String.eqb (fst x) "mae")) (("fe", FeOf) :: pair_measures)) ->
  exists f, Alone lw (SummaryRow ssvar_fields) x f.
Proof.
  apply (named_in _ _ (filter (fun _ => true) [calculate_fe; calculate_fbar; calculate_obar; calculate_fobar; calculate_ffbar; calculate_oobar;
    calculate_mbias; calculate_me; calculate_me2; calculate_mse; calculate_rmse; calculate_fstdev; calculate_ostdev; calculate_pr_corr;
    calculate_bcmse; calculate_bcrmse; calculate_msess])).
  unfold pair_measures. cbn [filter fst String.eqb Ascii.eqb Bool.eqb negb].
  repeat (apply Forall2_cons; [split; [split; reflexivity|]; intros b r columns HS; destruct (mom_row _ _ _ _ HS) as (n & HM); cbn [fst snd]|]).
  all: try apply Forall2_nil.
  - apply (fe_value _ _ _ _ _ _ HM); inl.
  - apply (mean_stat_value _ _ _ _ _ _ HM "fbar" fc); inl.
  - apply (mean_stat_value _ _ _ _ _ _ HM "obar" ob); inl.
  - apply (mean_stat_value _ _ _ _ _ _ HM "fobar" (fun p => fc p * ob p)); inl.
  - apply (mean_stat_value _ _ _ _ _ _ HM "ffbar" (fun p => fc p * fc p)); inl.
  - apply (mean_stat_value _ _ _ _ _ _ HM "oobar" (fun p => ob p * ob p)); inl.
  - apply (mbias_value _ _ _ _ _ _ HM); inl.
  - apply some_published; apply (me_value _ _ _ _ _ _ HM); inl.
  - apply (me2_value _ _ _ _ _ _ HM); inl.
  - apply some_published; apply (mse_value _ _ _ _ _ _ HM); inl.
  - destruct (rmse_value _ _ _ _ _ _ HM) as (y & E & Z & _); try inl; exists (Some y); split; assumption.
  - apply (stdev_stat_value _ _ _ _ _ _ HM); inl.
  - apply (stdev_stat_value _ _ _ _ _ _ HM); inl.
  - apply (pr_corr_value _ _ _ _ _ _ HM); inl.
  - apply (bcmse_packaged _ _ _ _ _ _ HM); inl.
  - apply (bcrmse_packaged _ _ _ _ _ _ HM); inl.
  - apply (msess_value _ _ _ _ _ _ HM); inl.
Qed.
Lemma wind_alone lw x : In x (speed_measures ++ wind_measures) -> exists f, Alone lw (SummaryRow wind_fields) x f.
Proof.
  apply (named_in _ _ (calculate_vl1l2_fspd :: calculate_vl1l2_ospd :: wind_functions)). unfold speed_measures, wind_measures, wind_functions. cbn [app].
  repeat (apply Forall2_cons; [split; [split; reflexivity|]; intros b r columns HS; pose proof (C42_single_line_proof b r columns HS) as P;
    rewrite Forall_forall in P; cbn [fst snd]; match goal with |- exists v, ?f _ _ _ = _ /\ ?M _ v => apply (P (f, M)); simpl; tauto end|]).
  apply Forall2_nil.
Qed.
Lemma vector_alone lw x : In x vector_measures -> exists f, Alone lw (SummaryRow val1l2_fields) x f.
Proof.
  apply (named_in _ _ [calculate_val1l2_anom_corr]). apply Forall2_cons; [|apply Forall2_nil]. split; [split; reflexivity|]. intros b r columns HS.
  destruct (mom_row _ _ _ _ HS) as (n & HM). apply (val_corr_value _ _ _ _ _ _ HM); inl.
Qed.
Lemma percent_row {A} data columns agg (l : list A) names n num den g h :
  Mom data columns agg l names n -> In (num, g) names -> In (den, h) names ->
  exists r, percent_ratio data columns agg num den = Ok r /\
    Published (oratio (Some (100 * mean_of g l)) (Some (mean_of h l))) r.
Proof.
  intros HM H1 H2. unfold percent_ratio, with_total, column_mean.
  rewrite (mom_get_total _ _ _ _ _ _ HM). cbn [bind].
  destruct (mom_mean _ _ _ _ _ _ HM _ _ H1) as (a & Ea & Ha). destruct (mom_mean _ _ _ _ _ _ HM _ _ H2) as (b & Eb & Hb).
  rewrite Ea. cbn [bind]. rewrite Eb. cbn [bind]. apply val_publish. apply val_npdiv.
  - apply (val_mult _ _ (Some 100) (Some (mean_of g l))); [apply val_lit|apply val_ok; exact Ha].
  - apply val_ok. exact Hb.
Qed.
Lemma gradient_alone lw x : In x gradient_scores -> exists f, Alone lw (SummaryRow grad_fields) x f.
Proof.
  apply (named_in _ _ gradient_functions). unfold gradient_scores, gradient_measures, gradient_functions. cbv zeta. cbn [map fst snd].
  repeat (apply Forall2_cons; [split; [split; reflexivity|]; intros b r columns HS; destruct (mom_row _ _ _ _ HS) as (n & HM); cbn [fst snd]|]).
  all: try apply Forall2_nil.
  - exact (mean_stat_value _ _ _ _ _ _ HM "fgbar" (fun p : Q * Q => Qabs (fst p)) ltac:(simpl; tauto)).
  - exact (mean_stat_value _ _ _ _ _ _ HM "ogbar" (fun p : Q * Q => Qabs (snd p)) ltac:(simpl; tauto)).
  - exact (mean_stat_value _ _ _ _ _ _ HM "mgbar" (fun p : Q * Q => Qmax (Qabs (fst p)) (Qabs (snd p))) ltac:(simpl; tauto)).
  - exact (mean_stat_value _ _ _ _ _ _ HM "egbar" (fun p : Q * Q => Qabs (fst p - snd p)) ltac:(simpl; tauto)).
  - exact (percent_row _ _ _ _ _ _ "egbar" "mgbar" (fun p : Q * Q => Qabs (fst p - snd p)) (fun p : Q * Q => Qmax (Qabs (fst p)) (Qabs (snd p))) HM ltac:(simpl; tauto) ltac:(simpl; tauto)).
  - exact (percent_row _ _ _ _ _ _ "egbar" "ogbar" (fun p : Q * Q => Qabs (fst p - snd p)) (fun p : Q * Q => Qabs (snd p)) HM ltac:(simpl; tauto) ltac:(simpl; tauto)).
  - exact (percent_row _ _ _ _ _ _ "fgbar" "ogbar" (fun p : Q * Q => Qabs (fst p)) (fun p : Q * Q => Qabs (snd p)) HM ltac:(simpl; tauto) ltac:(simpl; tauto)).
Qed.
Lemma column_unique names n i : NoDup names -> nth_error names i = Some n -> ColumnAt names n i.
Proof.
  intros ND E. split; [exact E|]. intros j J E'. assert (j = i); [|lia].
  apply (proj1 (NoDup_nth_error names) ND); [apply nth_error_Some; congruence|congruence].
Qed.
Lemma renamed_at columns names c i : NamesFor "sal1l2" columns names -> nth_error columns i = Some c -> nth_error names i = Some (SumDriveModel.rename_anomaly c).
Proof.
  intros [[N _]|[_ F]] E; [congruence|]. revert i E. induction F as [|x n l l' K F IH]; intros [|i] E; try discriminate; cbn in *; [|apply IH, E]. injection E as ->. f_equal. apply rename_value, K.
Qed.
Lemma anomaly_summary columns names b r : NamesFor "sal1l2" columns names -> NoDup names -> SummaryRow sal1l2_fields columns b r -> SummaryRow ssvar_fields names b r.
Proof.
  intros N ND [L NE T F]. assert (K : forall c v, CellHolds columns r c v -> CellHolds names r (SumDriveModel.rename_anomaly c) v).
  { intros c v (i & x & [E _] & C & V). exists i, x. split; [apply column_unique; [exact ND|apply (renamed_at columns); assumption]|auto]. }
  split; [rewrite (names_length _ _ _ N); exact L|exact NE|exact (K _ _ T)|]. intros name g H. simpl in H.
  assert (X : forall c, In (c, g) sal1l2_fields -> SumDriveModel.rename_anomaly c = name -> CellHolds names r name (mean_of g b)).
  { intros c I <-. apply K, F, I. }
  destruct H as [[= <- <-]|H]; [apply (X "fabar"); [simpl; tauto|reflexivity]|].
  destruct H as [[= <- <-]|H]; [apply (X "oabar"); [simpl; tauto|reflexivity]|].
  destruct H as [[= <- <-]|H]; [apply (X "foabar"); [simpl; tauto|reflexivity]|].
  destruct H as [[= <- <-]|H]; [apply (X "ffabar"); [simpl; tauto|reflexivity]|].
  destruct H as [[= <- <-]|[]]; apply (X "ooabar"); [simpl; tauto|reflexivity].
Qed.
Lemma alone_fact lw A lt fs Ms st M : MeasuredAlone A lt fs Ms -> In (st, M) Ms ->
  exists f, calculate_statistic lw st = Some (fun columns rows => f rows columns false) /\
  forall b r columns names, SummaryRow fs columns b r -> NamesFor lt columns names -> NoDup names -> exists v, f [r] names false = Ok v /\ M b v.
Proof.
  intros H. assert (Z : lt <> "sal1l2" -> forall f, Alone lw (SummaryRow fs) (st, M) f -> calculate_statistic lw st = Some (fun columns rows => f rows columns false) /\
    forall b r columns names, SummaryRow fs columns b r -> NamesFor lt columns names -> NoDup names -> exists v, f [r] names false = Ok v /\ M b v).
  { intros N f [[F I] K]. split; [apply statistic_known; assumption|]. intros b r columns names HS [[_ ->]|[E _]] _; [exact (K _ _ _ HS)|contradiction]. }
  destruct H; intro H.
  - destruct (pair_alone lw _ H) as (f & F). exists f. apply Z; [discriminate|exact F].
  - destruct (anomaly_alone lw _ H) as (f & [[F I] K]). exists f. split; [apply statistic_known; assumption|].
    intros b r columns names HS N ND. apply K. exact (anomaly_summary _ _ _ _ N ND HS).
  - destruct (vector_alone lw _ H) as (f & F). exists f. apply Z; [discriminate|exact F].
  - destruct (wind_alone lw _ H) as (f & F). exists f. apply Z; [discriminate|exact F].
  - destruct (gradient_alone lw _ H) as (f & F). exists f. apply Z; [discriminate|exact F].
Qed.

(** ** Runs of the summary program *)
Lemma row_values_ok statistic names : forall rows, (forall r, In r rows -> exists v, StatisticOf statistic names r v) ->
  exists vs, SumDriveModel.row_values statistic names names rows = Ok vs.
Proof.
  induction rows as [|r rows IH]; intro H; [exists []; reflexivity|]. destruct (H r (or_introl eq_refl)) as [v V]. apply row_value_ok in V.
  destruct IH as [vs E]; [intros x X; apply H; right; exact X|]. exists (Some v :: vs). cbn [SumDriveModel.row_values]. rewrite V, E. reflexivity.
Qed.
Lemma finish_ok names fields rows vs : (forall r, In r rows -> length r = length names) -> length vs = length rows -> NoDup fields -> ~ In "stat_value" fields ->
  exists t, SumDriveModel.finish names fields (SumDriveModel.write_values (names, SumDriveModel.relabel rows) vs) = Ok t.
Proof.
  intros L LV ND NS. eexists. apply finish_value; [| | |exact ND].
  - unfold SumDriveModel.write_values. cbn [fst snd]. destruct (index_of "stat_value" names) as [i|] eqn:E.
    + intros x X. cbn [fst snd] in *. apply in_map_iff in X. destruct X as [[y v] [<- X]]. apply in_combine_l in X. apply row_in_relabel in X. cbn [fst snd].
      destruct v; [rewrite set_nth_length|]; apply L, X.
    + destruct (existsb _ vs).
      * intros x X. cbn [fst snd] in *. apply in_map_iff in X. destruct X as [[y v] [<- X]]. apply in_combine_l in X. apply row_in_relabel in X. cbn [fst snd].
        rewrite !app_length, (L _ X). reflexivity.
      * apply relabel_wide. exact L.
  - intros n N. unfold SumDriveModel.write_values. cbn [fst snd]. destruct (index_of "stat_value" names); [exact N|]. destruct (existsb _ vs); [apply in_or_app; left|]; exact N.
  - intros n N F. unfold SumDriveModel.write_values in N. cbn [fst snd] in N. destruct (index_of "stat_value" names); [exact N|]. destruct (existsb _ vs); [|exact N].
    apply in_app_or in N. destruct N as [N|[<-|[]]]; [exact N|contradiction].
Qed.
Lemma sum_run show order p w columns data t : HoldsTable w (sum_input p) columns data -> data <> [] -> Off (sum_event_equal p) ->
  SumDriveModel.calculate_stats (sum_statistic p) columns data (sum_line_type p) (sum_indy p) (sum_indy_vals p) (Some (sum_series1 p)) (sum_series2 p) = Ok t ->
  exists w', sum_stat show order p w = (w', inl tt) /\ w' (sum_output p) = Some (TableLines (fst t) (snd t)) /\ Others (sum_output p) w w'.
Proof.
  intros H NE O CS. unfold sum_stat, andthen. rewrite read_csv_eq, (read_holds show _ _ _ _ H). cbn [fst snd]. destruct data as [|r d]; [contradiction|].
  rewrite lift_eq. unfold sum_table. rewrite (off_truthy _ O). cbn [fst snd]. rewrite CS. cbn [of_res]. eexists. split; [apply run_ok; reflexivity|].
  split; [rewrite to_csv_at; reflexivity|apply to_csv_others].
Qed.
Lemma named_cell columns names lt r c n : NamesFor lt columns names -> ~ In n (map fst anomalies) -> NoDup names -> CellOf columns r n c -> CellOf names r n c.
Proof.
  intros [[_ ->]|[E F]] NA ND C; [exact C|]. subst lt. destruct C as (i & [A _] & B). exists i. split; [|exact B].
  apply column_unique; [exact ND|]. rewrite (renamed_at columns names n i); [|right; auto|exact A]. f_equal. symmetry. apply rename_value. right. auto.
Qed.
Lemma cell_same columns r n c c' : CellOf columns r n c -> CellOf columns r n c' -> c = c'.
Proof. intros A B. apply get_sound in A, B. congruence. Qed.
Lemma summary_rows lw show order p w columns names (items : list row) fields series2 (P : row -> pyval -> Prop) :
  HoldsTable w (sum_input p) columns items -> items <> [] -> sum_statistic p = calculate_statistic lw ->
  In (sum_line_type p, fields) line_fields -> NamesFor (sum_line_type p) columns names -> NoDup names ->
  Off (sum_event_equal p) -> sum_series2 p = Some series2 ->
  NoGroups (sum_indy_vals p) (sum_series1 p) -> NoGroups (sum_indy_vals p) series2 ->
  (forall r, In r items -> exists v, StatisticOf (calculate_statistic lw) names r v /\ P r v) ->
  exists w' out output values, sum_stat show order p w = (w', inl tt) /\
    w' (sum_output p) = Some (TableLines out output) /\ Others (sum_output p) w w' /\
    SumTable names fields (combine items (map Some values)) out output /\ Forall2 P items values.
Proof.
  intros H NE SF F N ND O S2 G1 G2 K. pose proof H as (_ & _ & RC & _).
  assert (L : forall r, In r items -> length r = length names) by (intros r I; rewrite (names_length _ _ _ N); apply RC; exact I).
  destruct (row_values_ok (calculate_statistic lw) names items) as [vs E]; [intros r I; destruct (K r I) as (v & V & _); exists v; exact V|].
  pose proof (row_values_length _ _ _ _ _ E) as LV. destruct (line_known _ _ F) as (_ & NDF & NV & _).
  destruct (finish_ok names fields items vs L LV NDF NV) as [[out output] FT].
  assert (CS : SumDriveModel.calculate_stats (sum_statistic p) columns items (sum_line_type p) (sum_indy p) (sum_indy_vals p) (Some (sum_series1 p)) (sum_series2 p) = Ok (out, output)).
  { rewrite SF, S2, (plain_run (calculate_statistic lw) columns names items _ fields _ _ _ _ F N G1 G2 NE), E. exact FT. }
  destruct (sum_run show order p w columns items _ H NE O CS) as (w' & RUN & OUT & OT). cbn [fst snd] in OUT.
  destruct (row_values_all (calculate_statistic lw) names items vs L) as (values & -> & FV); [|exact E|].
  { intros r I X. destruct (K r I) as (v & V & _). apply row_value_ok in V. apply row_value_key in X; [congruence|apply L; exact I]. }
  exists w', out, output, values. split; [exact RUN|]. split; [exact OUT|]. split; [exact OT|]. split; [exact (SumDriveProofs.sum_table names fields items _ L LV NDF NV out output FT)|].
  clear - FV K. induction FV as [|r v l vs V F IH]; constructor; [|apply IH; intros x X; apply K; right; exact X].
  destruct (K r (or_introl eq_refl)) as (v' & V' & Z). apply row_value_ok in V, V'. congruence.
Qed.
Lemma forall2_snd {A B C} (P : A * B -> C -> Prop) (Q : B -> C -> Prop) l l' : (forall x c, In x l -> Q (snd x) c -> P x c) ->
  Forall2 Q (map snd l) l' -> Forall2 P l l'.
Proof.
  revert l'. induction l as [|x l IH]; intros l' H F; inversion F; subst; constructor; [apply H; [left; reflexivity|assumption]|].
  apply IH; [intros z c0 Z; apply H; right; exact Z|assumption].
Qed.

(** ** The lines of the examples *)
Lemma field_row {A} (F : list (string * (A -> Q))) pre r0 b : nodupb (pre ++ line_columns F)%list = true -> b <> [] -> length r0 = length pre ->
  SummaryRow F (pre ++ line_columns F)%list b (r0 ++ line_of F b)%list.
Proof.
  intros ND NE L. apply nodupb_ok in ND. assert (ND' : NoDup (line_columns F)).
  { clear - ND. induction pre as [|x pre IH]; [exact ND|]. inversion ND; subst. apply IH. assumption. }
  destruct (line_of_summary F b ND' NE) as [LL NB T V].
  assert (X : forall n i c, ColumnAt (line_columns F) n i -> nth_error (line_of F b) i = Some c ->
    ColumnAt (pre ++ line_columns F)%list n (length pre + i) /\ nth_error (r0 ++ line_of F b)%list (length pre + i) = Some c).
  { intros n i c [E _] N. split.
    - apply column_unique; [exact ND|]. rewrite nth_error_app2 by lia. replace (length pre + i - length pre)%nat with i by lia. exact E.
    - rewrite nth_error_app2 by lia. replace (length pre + i - length r0)%nat with i by lia. exact N. }
  split; [rewrite !app_length; lia|exact NB| |].
  - destruct T as (i & c & E & N & H). destruct (X _ _ _ E N) as [E' N']. exists (length pre + i)%nat, c. auto.
  - intros name g I. destruct (V name g I) as (i & c & E & N & H). destruct (X _ _ _ E N) as [E' N']. exists (length pre + i)%nat, c. auto.
Qed.

Lemma calm_run lambertw gen randint seed_gen state alpha iterations threads cpus seeds method cbb equivalence :
  let e := PoolModel.agg_engine lambertw gen randint seed_gen state alpha iterations threads cpus seeds method cbb "vl1l2" wind_columns equivalence in
  forall f o, calc e "vl1l2_fspd" (map snd calm_items) = Ok f -> calc e "vl1l2_ospd" (map snd calm_items) = Ok o ->
  exists out, DriveModel.calculate_stats e true "vl1l2" wind_columns (map snd calm_items) (pool_request ["VL1L2_FSPD"; "VL1L2_OSPD"]) no_request = Ok out /\
    map (fun x => value (stat_of x)) (firstn 2 out) = [f; o].
Proof.
  intros e f o.
  assert (P : forall st, In st ["vl1l2_fspd"; "vl1l2_ospd"] -> prep e st (map snd calm_items) = Ok (map snd calm_items)).
  { intros st [<-|[<-|[]]]; reflexivity. }
  clearbody e. intros F O. pose proof (P _ (or_introl eq_refl)) as P1. pose proof (P _ (or_intror (or_introl eq_refl))) as P2. clear P. destruct e as [prep0 calc0 ? ? ? ?].
  cbn [prep calc] in *. 
  eexists. split. unfold calculate_stats. lazy. lazy in P1, P2, F, O. rewrite P1, F, P2, O. reflexivity. reflexivity.

Qed.

(** The statements of PropertiesWhole.v. *)
Lemma C120_lines_proof : forall lambertw gen randint seed_gen state alpha iterations threads cpus seeds method cbb equivalence
    A line_type summaries measures single columns items rq1 rq2 fields out,
  let e := PoolModel.agg_engine lambertw gen randint seed_gen state alpha iterations threads cpus seeds method cbb line_type columns equivalence in
  Measured A line_type summaries measures ->
  items <> [] -> (forall b r, In (b, r) items -> SummaryRow summaries columns b r) ->
  series_val rq2 = [] -> Fields rq1 fields -> Plain rq1 fields -> derived_series rq1 = [] ->
  (single = true \/ method <> OtherMethod) ->
  DriveModel.calculate_stats e single line_type columns (map snd items) rq1 rq2 = Ok out ->
  Forall2 (OutputRow columns items rq1 fields (fun st chosen r =>
      forall Measure, In (st, Measure) measures -> Measure (concat (map fst chosen)) (value r)))
    (combinations (map snd fields)) out.
Proof.
  intros lw gen randint seed_gen state alpha iters threads cpus seeds method cbb equivalence A lt fs Ms single columns items rq1 rq2 fields out e MS NE HS S F P D M H.
  destruct (measured_fact lw A lt fs Ms MS) as [LT FACT].
  assert (HR : Rectangular (map snd items) columns).
  { intros r Hr. apply in_map_iff in Hr. destruct Hr as [[b r'] [<- Hr]]. apply (HS _ _ Hr). }
  eapply table_chosen; [exact HR|exact NE|exact S|exact F|exact P|exact D|exact H|]. clear H HR.
  intros st chosen r I NC R. intros Measure HM. destruct (FACT _ _ HM) as (f & [HF HP] & PERM). cbn [fst snd] in HF, HP.
  assert (exists sorted d, InOrder columns (map snd chosen) sorted /\ prepare st sorted columns = Ok d /\ f d columns true = Ok (value r)) as (sorted & d & O & PD & V).
  { destruct (prepared_columns lt st columns) as [names|] eqn:NM.
    - destruct (pool_result _ _ _ _ _ _ _ _ _ _ _ _ _ _ _ _ _ _ _ _ _ R (map_nonempty _ _ NC) M HF NM) as (sorted & t & O & T & V).
      destruct (columns_same lt st sorted columns t LT T) as (X & Y & Z). rewrite X in NM. injection NM as <-.
      exists sorted, (fst t). auto.
    - exfalso. assert (exists sorted t, prepared lt st sorted columns = Ok t) as (sorted & t & T).
      { inversion R as [E|? sorted prd ? _ _ _ PP _|? sorted prd ? _ _ _ PP _|? sorted prd _ _ _ PP _]; subst; [destruct chosen; [contradiction|discriminate]| | |];
          exists sorted; unfold e in PP; cbn [prep PoolModel.agg_engine] in PP; destruct (prepared _ _ _ _) as [t|]; try discriminate; exists t; reflexivity. }
      destruct (columns_same lt st sorted columns t LT T) as (X & _). congruence. }
  destruct O as [PM _]. apply Permutation_sym, Permutation_map_inv in PM. destruct PM as (ch & -> & PM).
  apply (PERM (concat (map fst ch))); [apply concat_fst_perm, Permutation_sym, PM|].
  assert (SM : Summaries fs columns (map fst ch) (map snd ch)).
  { split; [apply map_nonempty; intros ->; apply Permutation_sym, Permutation_nil in PM; contradiction|].
    assert (I' : forall b x, In (b, x) ch -> SummaryRow fs columns b x).
    { intros b x Hx. apply HS, I. apply (Permutation_in _ (Permutation_sym PM)), Hx. }
    clear - I'. induction ch as [|[b x] t IH]; cbn [map fst snd]; constructor; [apply I'; left; reflexivity|apply IH; intros; apply I'; right; assumption]. }
  destruct (HP _ _ _ SM) as (r' & AG & MV).
  unfold aggregated in AG. rewrite PD in AG. cbn [bind] in AG. rewrite V in AG. injection AG as ->. exact MV.
Qed.

Lemma C120_succeeds_proof : forall lambertw gen randint seed_gen state alpha iterations threads cpus seeds method cbb equivalence
    A line_type summaries measures columns items rq1 rq2 fields,
  let e := PoolModel.agg_engine lambertw gen randint seed_gen state alpha iterations threads cpus seeds method cbb line_type columns equivalence in
  Measured A line_type summaries measures ->
  items <> [] -> (forall b r, In (b, r) items -> SummaryRow summaries columns b r) ->
  series_val rq2 = [] -> Fields rq1 fields -> Plain rq1 fields -> derived_series rq1 = [] ->
  (forall n, In n (map fst (series_val rq1)) -> In n columns) ->
  ((exists n, In n (map fst fields) /\ In n columns) \/ (fcst_vars rq1 <> [] /\ In "fcst_var" columns)) ->
  (forall fs n, SortFields columns fs -> In n fs -> In n columns /\ OneKind columns (map snd items) n) ->
  (forall stat st, In stat (list_stat rq1) -> InSmallLetters stat st -> In st (map fst measures)) ->
  exists out, DriveModel.calculate_stats e true line_type columns (map snd items) rq1 rq2 = Ok out.
Proof.
  intros lw gen randint seed_gen state alpha iters threads cpus seeds method cbb equivalence A lt fs Ms columns items rq1 rq2 fields e MS NE HS S F P D SC AC SK SN.
  destruct (measured_fact lw A lt fs Ms MS) as [LT FACT].
  assert (HR : Rectangular (map snd items) columns).
  { intros r Hr. apply in_map_iff in Hr. destruct Hr as [[b r'] [<- Hr]]. apply (HS _ _ Hr). }
  unfold DriveModel.calculate_stats. rewrite S. cbv zeta.
  match goal with |- context [proceed_with_axis ?a ?b ?c ?g ?d ?x ?y ?z ?w] => destruct (C55_total_proof a b c g d x y fields z w HR F P D SC AC) as (st' & out & E) end.
  - intros fs0 n SF I. apply (SK fs0 n SF I).
  - intros before stat st rows CB SL SEL. destruct (selection_map _ _ _ _ SEL) as (chosen & SEL' & ->).
    destruct chosen as [|x0 chosen0] eqn:EC; [exists NoResult; constructor|]. rewrite <- EC in *. assert (NC : chosen <> []) by (rewrite EC; discriminate). clear EC.
    assert (I : incl chosen items) by (intros y Y; apply (selection_in _ _ _ y SEL') in Y; apply Y).
    assert (HK : forall r, In r (map snd chosen) -> has_key columns r).
    { intros r Hr. apply in_map_iff in Hr. destruct Hr as [y [<- Y]]. assert (L : List.length (snd y) = List.length columns) by (apply HR; apply in_map, I, Y).
      assert (G : forall n, In n (sort_fields columns) -> In n columns) by (intros n Hn; apply (SK (sort_fields columns) n); [apply sort_fields_iff; reflexivity|exact Hn]).
      assert (exists k, CellsOf columns (sort_fields columns) (snd y) k) as [k E].
      { clear - G L. revert G. generalize (sort_fields columns) as fs0. induction fs0 as [|n fs0 IH]; intros G; [exists []; constructor|].
        destruct IH as [k K]; [intros m Hm; apply G; right; exact Hm|].
        destruct (index_of n columns) as [i|] eqn:X; [|apply index_of_None in X; exfalso; apply X, G; left; reflexivity].
        pose proof (index_of_lt _ _ _ X) as LTX. apply index_of_ColumnAt in X. destruct (nth_error (snd y) i) as [c|] eqn:C; [exists (c :: k); constructor; [exists i; auto|exact K]|].
        exfalso. apply nth_error_None in C. lia. }
      exists k, (sort_fields columns). split; [apply sort_fields_iff; reflexivity|exact E]. }
    assert (O : InOrder columns (map snd chosen) (RocModel.sort_by (row_le columns) (map snd chosen))).
    { apply sort_in_order; [exact HK|]. apply kinds_ok; [exact HK|]. intros fs0 n SF Hn. destruct (SK fs0 n SF Hn) as [_ [AA|AA]]; [left|right]; intros r c Hr; apply AA;
        apply in_map_iff in Hr; destruct Hr as [y [<- Y]]; apply in_map, I, Y. }
    set (sorted := RocModel.sort_by (row_le columns) (map snd chosen)) in *. clearbody sorted.
    assert (HM : exists M, In (st, M) Ms).
    { assert (ST : In stat (list_stat rq1)) by (apply (stat_listed rq1 fields before stat F); rewrite combinations_product; apply product_combination; exact CB).
      specialize (SN stat st ST SL). apply in_map_iff in SN. destruct SN as [[st0 M] [<- X]]. exists M. exact X. }
    destruct HM as [M HM]. destruct (FACT _ _ HM) as (f & [HF HP] & _). cbn [fst snd] in HF, HP.
    destruct O as [PM OR]. pose proof PM as PM0. apply Permutation_sym, Permutation_map_inv in PM. destruct PM as (ch & -> & PM).
    assert (SM : Summaries fs columns (map fst ch) (map snd ch)).
    { split; [apply map_nonempty; intros ->; apply Permutation_sym, Permutation_nil in PM; contradiction|].
      assert (I' : forall b x, In (b, x) ch -> SummaryRow fs columns b x).
      { intros b x Hx. apply HS, I. apply (Permutation_in _ (Permutation_sym PM)), Hx. }
      clear - I'. induction ch as [|[b x] t IH]; cbn [map fst snd]; constructor; [apply I'; left; reflexivity|apply IH; intros; apply I'; right; assumption]. }
    destruct (HP _ _ _ SM) as (r' & AG & _).
    unfold aggregated in AG. destruct (prepare st (map snd ch) columns) as [d|] eqn:PD; [|discriminate]. cbn [bind] in AG.
    assert (T : prepared lt st (map snd ch) columns = Ok (d, columns)).
    { rewrite prepared_same by exact LT. rewrite PD. reflexivity. }
    exists (Results None r' None). apply (result_single _ _ _ _ _ (map snd ch) d).
    + apply map_nonempty, NC.
    + reflexivity.
    + split; [exact PM0|exact OR].
    + unfold e. cbn [prep PoolModel.agg_engine]. rewrite T. reflexivity.
    + unfold e. cbn [calc PoolModel.agg_engine]. unfold calc_values, function_named. rewrite HF. destruct (columns_same lt st _ columns _ LT T) as (X & _).
      rewrite X. cbn [bind]. exact AG.
  - rewrite E. cbn [bind]. exists out. reflexivity.
Qed.

Lemma C121_lines_proof : forall lambertw gen randint seed_gen state alpha iterations threads cpus seeds method cbb equivalence
    show order p0 w w' A summaries measures columns items fields fields2,
  let p := with_functions lambertw gen randint seed_gen state alpha iterations threads cpus seeds method cbb equivalence p0 in
  HoldsTable w (agg_input p) columns (map snd items) -> items <> [] ->
  Measured A (agg_line_type p) summaries measures -> (forall b r, In (b, r) items -> SummaryRow summaries columns b r) ->
  Off (agg_event_equal p) -> agg_append p = None -> series_val (agg_rq2 p) = [] -> Fields (agg_rq2 p) fields2 ->
  Fields (agg_rq1 p) fields -> Plain (agg_rq1 p) fields -> derived_series (agg_rq1 p) = [] ->
  (forall n, In n (map fst (fields ++ fields2)) -> ~ In n result_columns) ->
  (agg_single p = true \/ method <> OtherMethod) ->
  agg_stat show order p w = (w', inl tt) ->
  exists lines, let names := (map fst fields ++ result_columns)%list in
    w' (agg_output p) = Some (map Given names :: lines) /\ Others (agg_output p) w w' /\
    Forall2 (OutputLine columns items (agg_rq1 p) fields (fun st chosen r =>
        forall Measure, In (st, Measure) measures -> Measure (concat (map fst chosen)) (value r)) names)
      (combinations (map snd fields)) lines.
Proof.
  intros lw gen randint seed_gen state alpha iters threads cpus seeds method cbb equivalence show order p0 w w' A fs Ms columns items fields fields2 p
    H NE MS HS OF AP S2 F2 F P D NR M RUN.
  assert (HO : Others (agg_output p) w w').
  { change (agg_stat show order p) with (run_job show order (Statistics p)) in RUN. destruct (done_table _ _ _ _ _ RUN) as (t & _ & ->). apply to_csv_others. }
  destruct (C115_statistics_proof show order p w w' columns (map snd items) fields fields2 H (map_nonempty _ _ NE) OF AP F F2 NR RUN)
    as (out & names & lines & CS & OUT & _ & (more & EN & M1 & _) & LN).
  rewrite (M1 S2), app_nil_r in EN. subst names. exists lines. cbv zeta. split; [exact OUT|]. split; [exact HO|].
  pose proof (C120_lines_proof lw gen randint seed_gen state alpha iters threads cpus seeds method cbb equivalence A _ fs Ms (agg_single p) columns items (agg_rq1 p) (agg_rq2 p) fields out
    MS NE HS S2 F P D M CS) as R.
  clear - R LN. revert lines LN. induction R as [|pt o l l' X R IH]; intros lines LN; inversion LN; subst; constructor; [exists o; split; assumption|apply IH; assumption].
Qed.

Lemma C121_tables_proof : forall lambertw gen randint seed_gen state alpha iterations threads cpus seeds method cbb equivalence
    show order p0 w w' columns data fields fields2,
  let p := with_functions lambertw gen randint seed_gen state alpha iterations threads cpus seeds method cbb equivalence p0 in
  HoldsTable w (agg_input p) columns data -> data <> [] -> In (agg_line_type p) ["ctc"; "cts"; "nbr_ctc"] ->
  Off (agg_event_equal p) -> agg_append p = None -> series_val (agg_rq2 p) = [] -> Fields (agg_rq2 p) fields2 ->
  Fields (agg_rq1 p) fields -> Plain (agg_rq1 p) fields -> derived_series (agg_rq1 p) = [] ->
  (forall n, In n (map fst (fields ++ fields2)) -> ~ In n result_columns) ->
  (agg_single p = true \/ method <> OtherMethod) ->
  agg_stat show order p w = (w', inl tt) ->
  exists lines, let names := (map fst fields ++ result_columns)%list in
    w' (agg_output p) = Some (map Given names :: lines) /\ Others (agg_output p) w w' /\
    Forall2 (OutputLine columns (plain_items data) (agg_rq1 p) fields (fun st chosen r =>
        forall textbook h fa m c t, In (st, textbook) table_scores -> CtcTotals (map snd chosen) columns h fa m c t ->
          Published (textbook h fa m c t) (value r)) names)
      (combinations (map snd fields)) lines.
Proof.
  intros lw gen randint seed_gen state alpha iters threads cpus seeds method cbb equivalence show order p0 w w' columns data fields fields2 p
    H NE LT OF AP S2 F2 F P D NR M RUN.
  assert (HO : Others (agg_output p) w w').
  { change (agg_stat show order p) with (run_job show order (Statistics p)) in RUN. destruct (done_table _ _ _ _ _ RUN) as (t & _ & ->). apply to_csv_others. }
  destruct (C115_statistics_proof show order p w w' columns data fields fields2 H NE OF AP F F2 NR RUN)
    as (out & names & lines & CS & OUT & _ & (more & EN & M1 & _) & LN).
  rewrite (M1 S2), app_nil_r in EN. subst names. exists lines. cbv zeta. split; [exact OUT|]. split; [exact HO|]. destruct H as (_ & _ & RC & _).
  pose proof (C117_tables_proof lw gen randint seed_gen state alpha iters threads cpus seeds method cbb equivalence (agg_single p) (agg_line_type p) columns data (agg_rq1 p) (agg_rq2 p) fields out
    LT RC NE S2 F P D M CS) as R.
  clear - R LN. revert lines LN. induction R as [|pt o l l' X R IH]; intros lines LN; inversion LN; subst; constructor; [exists o; split; assumption|apply IH; assumption].
Qed.

Lemma C121_succeeds_proof : forall lambertw gen randint seed_gen state alpha iterations threads cpus seeds method cbb equivalence
    show order p0 w A summaries measures columns items fields,
  let p := with_functions lambertw gen randint seed_gen state alpha iterations threads cpus seeds method cbb equivalence p0 in
  HoldsTable w (agg_input p) columns (map snd items) -> items <> [] ->
  Measured A (agg_line_type p) summaries measures -> (forall b r, In (b, r) items -> SummaryRow summaries columns b r) ->
  Off (agg_event_equal p) -> agg_single p = true -> series_val (agg_rq2 p) = [] ->
  Fields (agg_rq1 p) fields -> Plain (agg_rq1 p) fields -> derived_series (agg_rq1 p) = [] ->
  (forall n, In n (map fst (series_val (agg_rq1 p))) -> In n columns) ->
  ((exists n, In n (map fst fields) /\ In n columns) \/ (fcst_vars (agg_rq1 p) <> [] /\ In "fcst_var" columns)) ->
  (forall fs n, SortFields columns fs -> In n fs -> In n columns /\ OneKind columns (map snd items) n) ->
  (forall stat st, In stat (list_stat (agg_rq1 p)) -> InSmallLetters stat st -> In st (map fst measures)) ->
  exists w', agg_stat show order p w = (w', inl tt).
Proof.
  intros lw gen randint seed_gen state alpha iters threads cpus seeds method cbb equivalence show order p0 w A fs Ms columns items fields p
    H NE MS HS OF SG S2 F P D SC AC SK SN.
  destruct (C120_succeeds_proof lw gen randint seed_gen state alpha iters threads cpus seeds method cbb equivalence A _ fs Ms columns items (agg_rq1 p) (agg_rq2 p) fields
    MS NE HS S2 F P D SC AC SK SN) as (out & CS).
  unfold agg_stat, andthen. rewrite read_csv_eq, (read_holds show _ _ _ _ H). rewrite lift_eq. unfold agg_table. rewrite (off_truthy _ OF). cbn [bind fst snd]. rewrite SG.
  change (FileModel.agg_engine p columns) with (PoolModel.agg_engine lw gen randint seed_gen state alpha iters threads cpus seeds method cbb (agg_line_type p) columns equivalence).
  rewrite CS. cbn [bind]. destruct (map snd items); cbn [of_res]; eexists; apply run_ok; reflexivity.
Qed.

Lemma C122_lines_proof : forall lambertw show order p0 w A summaries measures columns names items fields series2,
  let p := with_statistics lambertw p0 in
  HoldsTable w (sum_input p) columns (map snd items) -> items <> [] ->
  MeasuredAlone A (sum_line_type p) summaries measures -> (forall b r, In (b, r) items -> SummaryRow summaries columns b r) ->
  (forall b r, In (b, r) items -> exists st, Asks columns r st /\ In st (map fst measures)) ->
  In (sum_line_type p, fields) line_fields -> NamesFor (sum_line_type p) columns names -> NoDup names ->
  Off (sum_event_equal p) -> sum_series2 p = Some series2 ->
  NoGroups (sum_indy_vals p) (sum_series1 p) -> NoGroups (sum_indy_vals p) series2 ->
  exists w' out output values, sum_stat show order p w = (w', inl tt) /\
    w' (sum_output p) = Some (TableLines out output) /\ Others (sum_output p) w w' /\
    SumTable names fields (combine (map snd items) (map Some values)) out output /\
    Forall2 (fun x v => forall st Measure, Asks columns (snd x) st -> In (st, Measure) measures -> Measure (fst x) v) items values.
Proof.
  intros lw show order p0 w A fs Ms columns names items fields series2 p H NE MS HS AS F N ND OF S2 G1 G2.
  destruct (summary_rows lw show order p w columns names (map snd items) fields series2
    (fun r v => forall b, SummaryRow fs columns b r -> forall st M, Asks columns r st -> In (st, M) Ms -> M b v) H (map_nonempty _ _ NE) eq_refl F N ND OF S2 G1 G2)
    as (w' & out & output & values & RUN & OUT & OT & TB & FV).
  - intros r Hr. apply in_map_iff in Hr. destruct Hr as [[b r'] [E Hr]]. cbn [snd] in E. subst r'. destruct (AS b r Hr) as (st & (s & C & L) & I).
    apply in_map_iff in I. destruct I as [[st' M] [E I]]. cbn [fst] in E. subst st'. destruct (alone_fact lw A _ fs Ms st M MS I) as (f & CF & VAL).
    destruct (VAL b r columns names (HS b r Hr) N ND) as (v & V & _). exists v. split.
    + exists s, st. eexists. split; [apply (named_cell columns names (sum_line_type p)); [exact N| |exact ND|exact C]|]; [simpl; intuition discriminate|]. split; [exact L|]. split; [exact CF|exact V].
    + intros b' SB st' M' (s' & C' & L') I'. pose proof (cell_same _ _ _ _ _ C C') as E. injection E as <-. apply small_fun in L, L'. subst st st'.
      destruct (alone_fact lw A _ fs Ms (DriveModel.lower s) M' MS I') as (f' & CF' & VAL'). rewrite CF in CF'.
      destruct (VAL' b' r columns names SB N ND) as (v' & V' & Z). assert (f [r] names false = f' [r] names false) as EF by (injection CF' as CF'; exact (f_equal (fun g => g names [r]) CF')).
      rewrite V, V' in EF. injection EF as ->. exact Z.
  - exists w', out, output, values. split; [exact RUN|]. split; [exact OUT|]. split; [exact OT|]. split; [exact TB|]. eapply forall2_snd; [|exact FV].
    intros [b r] v I K st M. cbn [fst snd] in *. apply K. apply HS, I.
Qed.

Lemma C122_tables_proof : forall lambertw show order p0 w columns data fields series2,
  let p := with_statistics lambertw p0 in
  HoldsTable w (sum_input p) columns data -> data <> [] -> In (sum_line_type p) ["ctc"; "nbrctc"] ->
  (forall r, In r data -> exists st, Asks columns r st /\ In st (map fst table_scores)) ->
  (forall r, In r data -> exists h fa m c t, CtcTotals [r] columns h fa m c t) ->
  In (sum_line_type p, fields) line_fields -> Off (sum_event_equal p) -> sum_series2 p = Some series2 ->
  NoGroups (sum_indy_vals p) (sum_series1 p) -> NoGroups (sum_indy_vals p) series2 ->
  exists w' out output values, sum_stat show order p w = (w', inl tt) /\
    w' (sum_output p) = Some (TableLines out output) /\ Others (sum_output p) w w' /\
    SumTable columns fields (combine data (map Some values)) out output /\
    Forall2 (fun r v => forall st textbook h fa m c t, Asks columns r st -> In (st, textbook) table_scores ->
        CtcTotals [r] columns h fa m c t -> Published (textbook h fa m c t) v) data values.
Proof.
  intros lw show order p0 w columns data fields series2 p H NE LT AS TT F OF S2 G1 G2.
  assert (N : NamesFor (sum_line_type p) columns columns).
  { left. split; [|reflexivity]. destruct LT as [<-|[<-|[]]]; discriminate. }
  pose proof H as (_ & ND & _).
  destruct (summary_rows lw show order p w columns columns data fields series2
    (fun r v => forall st textbook h fa m c t, Asks columns r st -> In (st, textbook) table_scores -> CtcTotals [r] columns h fa m c t -> Published (textbook h fa m c t) v)
    H NE eq_refl F N ND OF S2 G1 G2) as (w' & out & output & values & RUN & OUT & OT & TB & FV).
  - intros r Hr. destruct (AS r Hr) as (st & (s & C & L) & I). apply in_map_iff in I. destruct I as [[st' tb] [E I]]. cbn [fst] in E. subst st'.
    assert (KN : forall st tb, In (st, tb) table_scores -> exists f, calculate_statistic lw st = Some (fun cs rows => f rows cs) /\
      forall data columns h fa m c t, CtcTotals data columns h fa m c t -> exists r, f data columns = Ok r /\ Published (tb h fa m c t) r).
    { intros st1 tb1 I1. destruct (table_named lw _ _ I1) as (f & HF & X). exists f. split; [|exact X]. rewrite (statistic_known lw st1 _ HF); [reflexivity|].
      clear - I1. simpl in I1. repeat (destruct I1 as [[= <- _]|I1]; [reflexivity|]). destruct I1. }
    destruct (KN _ _ I) as (f & CF & VAL). destruct (TT r Hr) as (h & fa & m & c & t & T). destruct (VAL _ _ _ _ _ _ _ T) as (v & V & _). exists v. split.
    + exists s, st. eexists. split; [exact C|]. split; [exact L|]. split; [exact CF|exact V].
    + intros st' tb' h' fa' m' c' t' (s' & C' & L') I' T'. pose proof (cell_same _ _ _ _ _ C C') as E. injection E as <-. apply small_fun in L, L'. subst st st'.
      destruct (KN _ _ I') as (f' & CF' & VAL'). rewrite CF in CF'. destruct (VAL' _ _ _ _ _ _ _ T') as (v' & V' & Z).
      assert (f [r] columns = f' [r] columns) as EF by (injection CF' as CF'; exact (f_equal (fun g => g columns [r]) CF')). rewrite V, V' in EF. injection EF as ->. exact Z.
  - exists w', out, output, values. auto.
Qed.

Lemma C122_anomalies_refuted_proof : forall lambertw show order p0 w columns names r data fields series2 st,
  let p := with_statistics lambertw p0 in
  HoldsTable w (sum_input p) columns (r :: data) -> Asks columns r st -> In st (map fst anomaly_measures) ->
  In (sum_line_type p, fields) line_fields -> NamesFor (sum_line_type p) columns names -> NoDup names ->
  Off (sum_event_equal p) -> sum_series2 p = Some series2 ->
  NoGroups (sum_indy_vals p) (sum_series1 p) -> NoGroups (sum_indy_vals p) series2 ->
  exists w' out output, sum_stat show order p w = (w', inl tt) /\ w' (sum_output p) = Some (TableLines out output) /\
    SumTable names fields (map (fun x => (x, None)) (r :: data)) out output.
Proof.
  intros lw show order p0 w columns names r data fields series2 st p H (s & C & L) I F N ND OF S2 G1 G2. pose proof H as (_ & _ & RC & _).
  assert (LN : forall x, In x (r :: data) -> length x = length names) by (intros x X; rewrite (names_length _ _ _ N); apply RC; exact X).
  assert (RV : SumDriveModel.row_values (calculate_statistic lw) names names (r :: data) = Ok (map (fun _ => None) (r :: data))).
  { cbn [SumDriveModel.row_values]. assert (E : SumDriveModel.row_value (calculate_statistic lw) names names r = Err KeyError); [|rewrite E; reflexivity].
    apply row_value_key; [apply LN; left; reflexivity|]. right. exists s, st. split; [apply (named_cell columns names (sum_line_type p)); [exact N|simpl; intuition discriminate|exact ND|exact C]|].
    split; [exact L|]. left. simpl in I. repeat (destruct I as [<-|I]; [reflexivity|]). destruct I. }
  pose proof (row_values_length _ _ _ _ _ RV) as LV. destruct (line_known _ _ F) as (_ & NDF & NV & _).
  destruct (finish_ok names fields (r :: data) _ LN LV NDF NV) as [[out output] FT].
  assert (CS : SumDriveModel.calculate_stats (sum_statistic p) columns (r :: data) (sum_line_type p) (sum_indy p) (sum_indy_vals p) (Some (sum_series1 p)) (sum_series2 p) = Ok (out, output)).
  { rewrite S2, (plain_run (sum_statistic p) columns names (r :: data) _ fields _ _ _ _ F N G1 G2) by discriminate. change (sum_statistic p) with (calculate_statistic lw). rewrite RV. exact FT. }
  destruct (sum_run show order p w columns (r :: data) _ H ltac:(discriminate) OF CS) as (w' & RUN & OUT & OT). exists w', out, output. split; [exact RUN|]. split; [exact OUT|].
  pose proof (SumDriveProofs.sum_table names fields (r :: data) _ LN LV NDF NV out output FT) as TB.
  assert (E : combine (r :: data) (map (fun _ => None) (r :: data)) = map (fun x : row => (x, @None (option Q))) (r :: data)); [|rewrite E in TB; exact TB].
  clear. induction (r :: data) as [|x l IH]; [reflexivity|]. cbn. f_equal. exact IH.
Qed.

Lemma C120_lines_case_proof :
  (forall b r, In (b, r) wind_items -> SummaryRow wind_fields wind_columns b r) /\
  Fields (pool_request ["VL1L2_MSVE"]) (pool_fields ["VL1L2_MSVE"]) /\ Plain (pool_request ["VL1L2_MSVE"]) (pool_fields ["VL1L2_MSVE"]) /\
  (forall fs n, SortFields wind_columns fs -> In n fs -> In n wind_columns /\ OneKind wind_columns (map snd wind_items) n) /\
  forall lambertw gen randint seed_gen state alpha iterations threads cpus seeds method cbb equivalence, exists out,
    DriveModel.calculate_stats (PoolModel.agg_engine lambertw gen randint seed_gen state alpha iterations threads cpus seeds method cbb "vl1l2" wind_columns equivalence)
      true "vl1l2" wind_columns (map snd wind_items) (pool_request ["VL1L2_MSVE"]) no_request = Ok out /\
    map (fun o => (nstats o, value (stat_of o))) out = [(2%nat, Some 3.6666667); (0%nat, None)].
Proof.
  split; [|split; [|split; [|split]]].
  - intros b r Hr. simpl in Hr. repeat (destruct Hr as [[= <- <-]|Hr]; [apply (field_row wind_fields ["fcst_valid_beg"; "fcst_lead"; "model"] [_; _; _]); [reflexivity|discriminate|reflexivity]|]). destruct Hr.
  - split; [repeat constructor; simpl; intuition discriminate|]; left; split; [discriminate|reflexivity].
  - apply plain_check. vm_compute. reflexivity.
  - intros fs n F I. apply sort_fields_iff in F. subst fs. vm_compute in I. repeat (destruct I as [<-|I]; [split; [simpl; tauto|apply kind_check; vm_compute; reflexivity]|]). destruct I.
  - intros. eexists. split; [vm_compute; reflexivity|vm_compute; reflexivity].
Qed.

Lemma C121_lines_case_proof :
  HoldsTable whole_files (agg_input whole_job) pool_columns (map snd pool_items) /\
  (forall n, In n (map fst (pool_fields ["FBAR"; "ME"] ++ [("stat_name", [])])) -> ~ In n result_columns) /\
  Fields no_request [("stat_name", [])] /\
  forall lambertw gen randint seed_gen state alpha iterations threads cpus seeds method cbb equivalence, exists w',
    agg_stat show_case order_case
      (with_functions lambertw gen randint seed_gen state alpha iterations threads cpus seeds method cbb equivalence whole_job) whole_files = (w', inl tt) /\
    w' "out" = Some
      [map Given ["model"; "fcst_lead"; "stat_name"; "fcst_var"; "stat_value"; "stat_btcl"; "stat_btcu"; "nstats"];
       [Given "A"; Given "12"; Given "FBAR"; Kept CMiss; Kept (CNum 3.2500000); Kept CMiss; Kept CMiss; Kept (CNum 2)];
       [Given "A"; Given "12"; Given "ME"; Kept CMiss; Kept (CNum 0.0000000); Kept CMiss; Kept CMiss; Kept (CNum 2)];
       [Given "B"; Given "12"; Given "FBAR"; Kept CMiss; Kept (CNum 1.5000000); Kept CMiss; Kept CMiss; Kept (CNum 1)];
       [Given "B"; Given "12"; Given "ME"; Kept CMiss; Kept (CNum 0.5000000); Kept CMiss; Kept CMiss; Kept (CNum 1)]].
Proof.
  split; [|split; [|split]].
  - split; [discriminate|]. split; [apply nodupb_ok; reflexivity|]. split; [|reflexivity]. intros r Hr. simpl in Hr. repeat (destruct Hr as [<-|Hr]; [reflexivity|]). destruct Hr.
  - intros n Hn. simpl in Hn. repeat (destruct Hn as [<-|Hn]; [simpl; intuition discriminate|]). destruct Hn.
  - split; [repeat constructor; simpl; intuition discriminate|]. right. split; reflexivity.
  - intros. eexists. split; [apply run_ok; vm_compute; reflexivity|vm_compute; reflexivity].
Qed.

Lemma C122_lines_case_proof :
  HoldsTable summary_files "lines.data" summary_columns (map snd summary_items) /\
  (forall b r, In (b, r) summary_items -> SummaryRow sl1l2_fields summary_columns b r) /\
  (forall b r, In (b, r) summary_items -> exists st, Asks summary_columns r st /\ In st (map fst pair_measures)) /\
  forall lambertw, exists w', sum_stat show_case order_case (with_statistics lambertw (summary_job "lines.data" "sl1l2")) summary_files = (w', inl tt) /\
    w' "out" = Some (TableLines ["model"; "stat_name"; "mae"; "stat_value"]
      [[CStr "A"; CStr "FBAR"; CNum (mean_of (fun p => Qabs.Qabs (fc p - ob p)) [(1, 2); (3, 5); (2, 2)]); CNum 2.0000000];
       [CStr "A"; CStr "ME"; CNum (mean_of (fun p => Qabs.Qabs (fc p - ob p)) [(7, 4)]); CNum 3.0000000]]).
Proof.
  split; [|split; [|split]].
  - split; [discriminate|]. split; [apply nodupb_ok; reflexivity|]. split; [|reflexivity]. intros r Hr. simpl in Hr. repeat (destruct Hr as [<-|Hr]; [reflexivity|]). destruct Hr.
  - intros b r Hr. simpl in Hr. repeat (destruct Hr as [[= <- <-]|Hr]; [apply (field_row sl1l2_fields ["model"; "stat_name"] [_; _]); [reflexivity|discriminate|reflexivity]|]). destruct Hr.
  - intros b r Hr. simpl in Hr. destruct Hr as [[= <- <-]|[[= <- <-]|[]]]; [exists "fbar"|exists "me"]; (split; [eexists; split; [exists 1%nat; split; [apply column_unique; [apply nodupb_ok; reflexivity|reflexivity]|reflexivity]|apply small_lower]|simpl; tauto]).
  - intros. eexists. split; [apply run_ok; vm_compute; reflexivity|vm_compute; reflexivity].
Qed.

Lemma C122_anomalies_case_proof :
  HoldsTable summary_files "anomalies.data" anomaly_columns anomaly_rows /\ Asks anomaly_columns (nth 0 anomaly_rows []) "anom_corr" /\
  NamesFor "sal1l2" anomaly_columns ["model"; "stat_name"; "total"; "fbar"; "obar"; "fobar"; "ffbar"; "oobar"] /\
  forall lambertw, exists w', sum_stat show_case order_case (with_statistics lambertw (summary_job "anomalies.data" "sal1l2")) summary_files = (w', inl tt) /\
    w' "out" = Some (TableLines ["model"; "stat_name"] [[CStr "A"; CStr "ANOM_CORR"]; [CStr "A"; CStr "FBAR"]]).
Proof.
  split; [|split; [|split]].
  - split; [discriminate|]. split; [apply nodupb_ok; reflexivity|]. split; [|reflexivity]. intros r Hr. simpl in Hr. repeat (destruct Hr as [<-|Hr]; [reflexivity|]). destruct Hr.
  - eexists. split; [exists 1%nat; split; [apply column_unique; [apply nodupb_ok; reflexivity|reflexivity]|reflexivity]|apply small_lower].
  - right. split; [reflexivity|]. repeat (apply Forall2_cons; [first [left; simpl; tauto|right; split; [simpl; intuition discriminate|reflexivity]]|]). apply Forall2_nil.
  - intros. eexists. split; [apply run_ok; vm_compute; reflexivity|vm_compute; reflexivity].
Qed.

Lemma C120_speeds_refuted_proof : exists columns items,
  (forall b r, In (b, r) items -> SummaryRow wind_fields columns b r) /\
  forall lambertw gen randint seed_gen state alpha iterations threads cpus seeds method cbb equivalence,
  let e := PoolModel.agg_engine lambertw gen randint seed_gen state alpha iterations threads cpus seeds method cbb "vl1l2" columns equivalence in
  exists out f o, DriveModel.calculate_stats e true "vl1l2" columns (map snd items) (pool_request ["VL1L2_FSPD"; "VL1L2_OSPD"]) no_request = Ok out /\
    map (fun x => value (stat_of x)) (firstn 2 out) = [f; o] /\
    ~ FspeedOf (concat (map fst items)) f /\ ~ OspeedOf (concat (map fst items)) o.
Proof.
  exists wind_columns, calm_items. split.
  { intros b r Hr. simpl in Hr. repeat (destruct Hr as [[= <- <-]|Hr]; [apply (field_row wind_fields ["fcst_valid_beg"; "fcst_lead"; "model"] [_; _; _]); [reflexivity|discriminate|reflexivity]|]). destruct Hr. }
  intros lw gen randint seed_gen state alpha iters threads cpus seeds method cbb equivalence e.
  destruct (calm_run lw gen randint seed_gen state alpha iters threads cpus seeds method cbb equivalence (Some (round_half_up_R (vlength (12 # 16) (16 # 16)) 7)) (Some (round_half_up_R (vlength (12 # 16) (16 # 16)) 7))) as (out & E & M).
  - cbn [calc PoolModel.agg_engine]. unfold calc_values, function_named. lazy -[sqrt Q2R round_half_up_R]. reflexivity.
  - cbn [calc PoolModel.agg_engine]. unfold calc_values, function_named. lazy -[sqrt Q2R round_half_up_R]. reflexivity.
  - exists out. do 2 eexists. split; [exact E|]. split; [exact M|]. split; apply (speeds_off _ _ (5 # 4) _ _ (5 # 2)); try discriminate; try reflexivity; vm_compute; reflexivity.
Qed.

