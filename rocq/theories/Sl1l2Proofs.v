From Verif Require Import PyBase ColumnModel BaseSpec BaseProofs AggModel AggSpec AggProofs MomentProofs
  RealBase RealSpec RealProofs Sl1l2Model Sl1l2Spec CtcProofs.
From Coq Require Import Reals Qreals Qabs Lra.
Open Scope string_scope.
Open Scope Q_scope.
Ltac Qbool := repeat match goal with
  | H : Qeq_bool _ _ = true |- _ => apply Qeq_bool_iff in H
  | H : Qeq_bool _ _ = false |- _ => apply Qeq_bool_neq in H
  | H : Qle_bool _ _ = true |- _ => apply Qle_bool_iff in H
  | H : Qlt_bool _ _ = true |- _ => apply Qlt_bool_iff in H
  | H : Qlt_bool _ _ = false |- _ => apply Qlt_bool_false in H
  end.

Lemma Qeq_bool_false a b : ~ a == b -> Qeq_bool a b = false.
Proof.
  intro H. destruct (Qeq_bool a b) eqn:E; [|reflexivity]. exfalso. apply H. apply Qeq_bool_iff. exact E.
Qed.
Lemma npdiv_ok p q : ~ q == 0 -> npdiv (Ok (Some p)) (Ok (Some q)) = Ok (Some (p / q)).
Proof. intro H. unfold npdiv. simpl. rewrite Qeq_bool_false by exact H. reflexivity. Qed.
Lemma npdiv_0 p q : q == 0 -> npdiv (Ok (Some p)) (Ok (Some q)) = Err PyWarning.
Proof. intro H. unfold npdiv. simpl. rewrite (proj2 (Qeq_bool_iff q 0) H). reflexivity. Qed.

(** Means recovered from sums. *)
Definition Mom {A} (data : tdata) (columns : list string) (agg : bool) (l : list A)
  (names : list (string * (A -> Q))) (n : Q) : Prop :=
  colsum data columns "total" = Ok (Some n) /\ n == count l /\ l <> [] /\
  forall name g, In (name, g) names ->
    exists s, colsum data columns name = Ok (Some s) /\ s / (if agg then n else 1) == mean_of g l.

Lemma NoDup_count_fields {A} (fields : list (string * (A -> Q))) :
  NoDup (line_columns fields) -> NoDup (map fst fields) /\ ~ In "total" (map fst fields).
Proof. intro N. inversion N; subst. split; assumption. Qed.

Lemma mom_agg {A} (fields : list (string * (A -> Q))) columns groups data cols :
  NoDup (line_columns fields) ->
  (forall c, In c cols -> In c (map fst fields)) -> NoDup cols ->
  Summaries fields columns groups data ->
  exists d n, scale_columns data columns cols = Ok d /\
    Mom d columns true (concat groups) (filter (fun nf => existsb (String.eqb (fst nf)) cols) fields) n.
Proof.
  intros N Hc Hn HS. destruct (NoDup_count_fields _ N) as [N1 N2].
  destruct (prepared fields columns groups data cols N1 N2 Hc Hn HS) as (d & E & (n & En & Hcount) & HF & _).
  exists d, n. split; [exact E|]. split; [exact En|]. split; [exact Hcount|].
  pose proof (Summaries_count _ _ _ _ HS) as P.
  split. { intro K. rewrite K in P. exact (Qlt_irrefl 0 P). }
  intros name g Hin. apply filter_In in Hin. destruct Hin as [Hin Hb].
  apply existsb_exists in Hb. destruct Hb as (c & Hc' & Heq). apply String.eqb_eq in Heq. simpl in Heq. subst c.
  destruct (HF name g Hin Hc') as (s & Es & Eq). exists s. split; [exact Es|].
  unfold mean_of. rewrite Eq, Hcount. reflexivity.
Qed.

Lemma single_sum columns r name v : CellHolds columns r name v ->
  exists s, colsum [r] columns name = Ok (Some s) /\ s == v.
Proof.
  intros (i & q & Hi & Hq & Eq). apply index_of_ColumnAt in Hi.
  unfold colsum, sum_column_data_by_name, column_data_by_name. rewrite Hi.
  unfold column_at. simpl. unfold cell_at. rewrite Hq. simpl. exists (q + 0). split; [reflexivity|]. qlra.
Qed.

Lemma mom_row {A} (fields : list (string * (A -> Q))) columns b r :
  SummaryRow fields columns b r -> exists n, Mom [r] columns false b fields n.
Proof.
  intros [L Nb T F]. destruct (single_sum _ _ _ _ T) as (n & En & Eq). exists n.
  split; [exact En|]. split; [exact Eq|]. split; [exact Nb|].
  intros name g Hin. destruct (single_sum _ _ _ _ (F name g Hin)) as (s & Es & Eqs).
  exists s. split; [exact Es|]. rewrite Eqs. field.
Qed.

Definition used_total (agg : bool) (n : Q) : Q := if agg then n else 1.

Section Values.
Context {A : Type} (data : tdata) (columns : list string) (agg : bool) (l : list A)
  (names : list (string * (A -> Q))) (n : Q).
Hypothesis HM : Mom data columns agg l names n.

Notation t := (used_total agg n).

Lemma mom_n : 0 < n.
Proof. destruct HM as (_ & E & Hl & _). pose proof (count_pos l Hl). qlra. Qed.
Lemma mom_t : ~ t == 0.
Proof. unfold used_total. pose proof mom_n. destruct agg; qlra. Qed.
Lemma mom_get_total : get_total data columns agg = Ok (Some t).
Proof.
  unfold get_total, get_total_values, used_total. destruct agg; [|reflexivity]. destruct HM as (E & _). exact E.
Qed.
Lemma mom_total : colsum data columns "total" = Ok (Some n).
Proof. destruct HM as (E & _). exact E. Qed.
Lemma mom_total1 : total1 agg (Some n) = Some t.
Proof. unfold total1, used_total. destruct agg; reflexivity. Qed.
Lemma mom_mean name g : In (name, g) names ->
  exists q, colsum data columns name [//] Ok (Some t) = Ok (Some q) /\ q == mean_of g l.
Proof.
  intro Hin. destruct HM as (_ & _ & _ & F). destruct (F name g Hin) as (s & Es & Eq).
  exists (s / t). rewrite Es, npdiv_ok by apply mom_t. split; [reflexivity|exact Eq].
Qed.

Lemma mean_stat_value name g : In (name, g) names ->
  exists r, mean_stat data columns agg name = Ok r /\ Published (Some (mean_of g l)) r.
Proof.
  intro Hin. destruct (mom_mean name g Hin) as (q & E & Eq).
  unfold mean_stat. rewrite mom_get_total. cbn [bind]. rewrite E.
  eexists. split; [reflexivity|]. simpl. apply (nearest_compat 7 q); [exact Eq|]. apply rhu_nearest.
Qed.

(** The variance computed from the sums. *)
Lemma stddev_value g s q : l <> [] ->
  s == total_of g l -> q == total_of (fun x => g x * g x) l ->
  exists r, catch tw_exns (rround (calculate_stddev s q n)) None = Ok r /\ PublishedR (sample_stdev g l) r.
Proof.
  intros Hl Es Eq. destruct HM as (_ & En & _ & _). pose proof (count_pos l Hl) as P.
  assert (G : 1 <= count l).
  { unfold count in *. destruct l as [|x t']; [congruence|]. simpl length.
    rewrite Nat2Z.inj_succ. unfold Qle, inject_Z. simpl. lia. }
  unfold calculate_stddev. destruct (Qlt_bool n 1) eqn:B1; [Qbool; exfalso; qlra|].
  unfold sample_stdev. destruct (Qlt_le_dec 1 (count l)) as [H1|H1].
  - unfold pylit. rewrite npdiv_ok by (intro K; qlra). cbn [bind].
    assert (V : (q - s * s / n) / (n - 1) == codev g g l / (count l - 1)).
    { rewrite codev_alg by exact Hl. rewrite Es, Eq, En. reflexivity. }
    assert (NN : 0 <= codev g g l / (count l - 1)).
    { apply Qle_shift_div_l; [qlra|]. rewrite Qmult_0_l. apply codev_self_nonneg. }
    destruct (Qlt_bool ((q - s * s / n) / (n - 1)) 0) eqn:B2; [Qbool; exfalso; rewrite V in B2; qlra|].
    unfold np_sqrt. cbn [bind]. rewrite B2. cbn [rround bind catch].
    eexists. split; [reflexivity|]. unfold PublishedR. rewrite (Q2R_eq _ _ V). apply rhuR_nearest.
  - unfold pylit. rewrite npdiv_0 by qlra. simpl. eexists. split; [reflexivity|exact I].
Qed.

Lemma stdev_stat_value name sqname g : In (name, g) names -> In (sqname, fun x => g x * g x) names ->
  exists r, stdev_stat data columns agg name sqname = Ok r /\ PublishedR (sample_stdev g l) r.
Proof.
  intros H1 H2. destruct (mom_mean _ _ H1) as (a & Ea & Ha). destruct (mom_mean _ _ H2) as (b & Eb & Hb).
  pose proof HM as (_ & En & Hl & _).
  unfold stdev_stat. rewrite mom_total. cbn [bind]. rewrite mom_total1, Ea. cbn [bind]. rewrite Eb.
  cbn [bind pybin].
  apply stddev_value; [exact Hl| |].
  - rewrite Ha, En. apply mean_times_count. exact Hl.
  - rewrite Hb, En. apply mean_times_count. exact Hl.
Qed.
End Values.

Lemma mean_minus {A} (g h : A -> Q) l : mean_of (fun x => g x - h x) l == mean_of g l - mean_of h l.
Proof. unfold mean_of. rewrite total_minus. unfold Qdiv. ring. Qed.
Lemma mean_ext {A} (g h : A -> Q) l : (forall x, g x == h x) -> mean_of g l == mean_of h l.
Proof. intro H. unfold mean_of. rewrite (total_ext g h) by auto. reflexivity. Qed.
Lemma mean_plus {A} (g h : A -> Q) l : mean_of (fun x => g x + h x) l == mean_of g l + mean_of h l.
Proof. unfold mean_of. rewrite total_plus. unfold Qdiv. ring. Qed.
Lemma mean_scale {A} c (g : A -> Q) l : mean_of (fun x => c * g x) l == c * mean_of g l.
Proof. unfold mean_of. rewrite total_scale. unfold Qdiv. ring. Qed.

Lemma mse_alg l : mean_sq_error l ==
  mean_of (fun p => fc p * fc p) l + mean_of (fun p => ob p * ob p) l - 2 * mean_of (fun p => fc p * ob p) l.
Proof.
  unfold mean_sq_error. rewrite <- mean_scale, <- mean_plus, <- mean_minus. apply mean_ext. intros; ring.
Qed.

Section Pairs.
Variables (data : tdata) (columns : list string) (agg : bool) (l : list pair)
  (names : list (string * (pair -> Q))) (n : Q).
Hypothesis HM : Mom data columns agg l names n.
Notation ffld := (fun p : pair => fc p * fc p).
Notation ofld := (fun p : pair => ob p * ob p).
Notation fofld := (fun p : pair => fc p * ob p).

Ltac mm H q E Eq := destruct (mom_mean _ _ _ _ _ _ HM _ _ H) as (q & E & Eq).
Ltac gt := rewrite (mom_get_total _ _ _ _ _ _ HM); cbn [bind].

Lemma mbias_value : In ("fbar", fc) names -> In ("obar", ob) names ->
  exists r, calculate_mbias data columns agg = Ok r /\
    Published (oratio (Some (mean_of fc l)) (Some (mean_of ob l))) r.
Proof.
  intros H1 H2. mm H1 a Ea Ha. mm H2 b Eb Hb. unfold calculate_mbias. gt. rewrite Eb. cbn [bind py_eq0].
  unfold oratio. destruct (Qeq_bool b 0) eqn:B; Qbool.
  - destruct (Qeq_dec (mean_of ob l) 0); [|exfalso; qlra]. eexists. split; [reflexivity|exact I].
  - destruct (Qeq_dec (mean_of ob l) 0); [exfalso; qlra|]. rewrite Ea. cbn [bind].
    rewrite npdiv_ok by exact B. eexists. split; [reflexivity|]. simpl.
    apply (nearest_compat 7 (a / b)); [rewrite Ha, Hb; reflexivity|apply rhu_nearest].
Qed.

Lemma fe_value : In ("fbar", fc) names -> In ("obar", ob) names ->
  exists r, calculate_fe data columns agg = Ok r /\
    Published (oratio (Some (mean_error l)) (Some (mean_of fc l))) r.
Proof.
  intros H1 H2. mm H1 a Ea Ha. mm H2 b Eb Hb. unfold calculate_fe. gt. rewrite Ea. cbn [bind]. rewrite Eb.
  cbn [bind pybin]. unfold oratio.
  destruct (Qeq_dec (mean_of fc l) 0).
  - rewrite npdiv_0 by qlra. eexists. split; [reflexivity|exact I].
  - rewrite npdiv_ok by (intro; qlra). eexists. split; [reflexivity|]. simpl.
    apply (nearest_compat 7 ((a - b) / a)); [|apply rhu_nearest].
    rewrite Ha, Hb. unfold mean_error. rewrite mean_minus. reflexivity.
Qed.

Lemma me_value : In ("fbar", fc) names -> In ("obar", ob) names ->
  exists m, calculate_me data columns agg = Ok (Some m) /\ Nearest 7 (mean_error l) m.
Proof.
  intros H1 H2. mm H1 a Ea Ha. mm H2 b Eb Hb. unfold calculate_me. gt. rewrite Ea. cbn [bind]. rewrite Eb.
  eexists. split; [reflexivity|].
  apply (nearest_compat 7 (a - b)); [|apply rhu_nearest]. rewrite Ha, Hb. unfold mean_error.
  rewrite mean_minus. reflexivity.
Qed.

Lemma me2_value : In ("fbar", fc) names -> In ("obar", ob) names ->
  exists r, calculate_me2 data columns agg = Ok r /\ Rounded2 (mean_error l) (fun m => m * m) r.
Proof.
  intros H1 H2. destruct (me_value H1 H2) as (m & E & N). unfold calculate_me2. rewrite E.
  eexists. split; [reflexivity|]. exists m. split; [exact N|]. apply rhu_nearest.
Qed.

Lemma mse_value : In ("ffbar", ffld) names -> In ("oobar", ofld) names -> In ("fobar", fofld) names ->
  exists m, calculate_mse data columns agg = Ok (Some m) /\ Nearest 7 (mean_sq_error l) m.
Proof.
  intros H1 H2 H3. mm H1 a Ea Ha. mm H2 b Eb Hb. mm H3 c Ec Hc.
  unfold calculate_mse. gt. rewrite Ea. cbn [bind]. rewrite Eb. cbn [bind]. rewrite Ec.
  eexists. split; [reflexivity|].
  apply (nearest_compat 7 (a + b - 2 * c)); [|apply rhu_nearest]. rewrite mse_alg, Ha, Hb, Hc. reflexivity.
Qed.

Lemma mom_ne : l <> [].
Proof. destruct HM as (_ & _ & H & _). exact H. Qed.

Lemma mse_nonneg : 0 <= mean_sq_error l.
Proof. apply mean_nonneg; [exact mom_ne|]. intros. apply Qsq_nonneg. Qed.

Lemma nearest_nonneg x m : 0 <= x -> Nearest 7 x m -> 0 <= m.
Proof.
  intros Hx N. pose proof (rhu_nearest x 7) as N'. rewrite (nearest_unique _ _ _ _ N N').
  rewrite <- (rhu_fix 0 7 (multiple_0 7)). apply rhu_mono. exact Hx.
Qed.

Lemma sqrt_round_value m : 0 <= m ->
  exists r, catch tw_exns (rround (np_sqrt (Ok (Some m)))) None = Ok (Some r) /\
    NearestR 7 (sqrt (Q2R m)) r /\ 0 <= r.
Proof.
  intro H. unfold np_sqrt. cbn [bind]. rewrite (proj2 (Qlt_bool_false m 0) H). simpl.
  eexists. split; [reflexivity|]. split; [apply rhuR_nearest|].
  rewrite <- (rhu_fix 0 7 (multiple_0 7)), <- rhuR_Q. apply rhuR_mono. rewrite Q2R_0. apply sqrt_pos.
Qed.

Lemma rmse_value : In ("ffbar", ffld) names -> In ("oobar", ofld) names -> In ("fobar", fofld) names ->
  exists r, calculate_rmse data columns agg = Ok (Some r) /\ RootOfRounded (mean_sq_error l) (Some r) /\ 0 <= r.
Proof.
  intros H1 H2 H3. destruct (mse_value H1 H2 H3) as (m & E & N). unfold calculate_rmse. rewrite E.
  destruct (sqrt_round_value m) as (r & Er & Nr & Pr).
  { apply (nearest_nonneg _ _ mse_nonneg N). }
  exists r. split; [exact Er|]. split; [|exact Pr]. exists m. split; assumption.
Qed.

Lemma bcmse_value :
  In ("fbar", fc) names -> In ("obar", ob) names ->
  In ("ffbar", ffld) names -> In ("oobar", ofld) names -> In ("fobar", fofld) names ->
  exists r, calculate_bcmse data columns agg = Ok (Some r) /\
    exists m e, Nearest 7 (mean_sq_error l) m /\ Nearest 7 (mean_error l) e /\ Nearest 7 (m - e * e) r.
Proof.
  intros H4 H5 H1 H2 H3. destruct (mse_value H1 H2 H3) as (m & E & N). destruct (me_value H4 H5) as (e & E' & N').
  unfold calculate_bcmse. rewrite E, E'. simpl. eexists. split; [reflexivity|].
  exists m, e. split; [exact N|]. split; [exact N'|]. apply rhu_nearest.
Qed.

Lemma bcrmse_value :
  In ("fbar", fc) names -> In ("obar", ob) names ->
  In ("ffbar", ffld) names -> In ("oobar", ofld) names -> In ("fobar", fofld) names ->
  exists r, calculate_bcrmse data columns agg = Ok r /\
    exists m e b, Nearest 7 (mean_sq_error l) m /\ Nearest 7 (mean_error l) e /\ Nearest 7 (m - e * e) b /\
      (b < 0 -> r = None) /\ (0 <= b -> PublishedR (Some (sqrt (Q2R b))) r).
Proof.
  intros H4 H5 H1 H2 H3. destruct (bcmse_value H4 H5 H1 H2 H3) as (b & E & m & e & N & N' & Nb).
  unfold calculate_bcrmse. rewrite E. destruct (Qlt_le_dec b 0) as [K|K].
  - unfold np_sqrt. cbn [bind]. rewrite (proj2 (Qlt_bool_iff b 0) K). simpl. exists None. split; [reflexivity|].
    exists m, e, b. repeat split; try apply N; try apply N'; try apply Nb. intro; exfalso; qlra.
  - destruct (sqrt_round_value b K) as (r & Er & Nr & Pr). exists (Some r). split; [exact Er|].
    exists m, e, b. split; [exact N|]. split; [exact N'|]. split; [exact Nb|]. split; [intro; exfalso; qlra|].
    intros _. exact Nr.
Qed.

Lemma msess_value :
  In ("obar", ob) names ->
  In ("ffbar", ffld) names -> In ("oobar", ofld) names -> In ("fobar", fofld) names ->
  exists r, calculate_msess data columns agg = Ok r /\
    exists m s, Nearest 7 (mean_sq_error l) m /\ PublishedR (sample_stdev ob l) s /\
      Published (osub (Some 1) (oratio (Some m) (omul s s))) r.
Proof.
  intros H5 H1 H2 H3. destruct (mse_value H1 H2 H3) as (m & E & N).
  destruct (stdev_stat_value _ _ _ _ _ _ HM "obar" "oobar" ob H5 H2) as (s & Es & Ns).
  unfold calculate_msess, calculate_ostdev. rewrite Es. cbn [bind]. rewrite E. cbn [bind].
  destruct s as [s|]; cbn [pysq bind omul].
  - unfold pydiv. cbn [bind]. unfold oratio. destruct (Qeq_bool (s * s) 0) eqn:B; Qbool.
    + eexists. split; [reflexivity|]. exists m, (Some s). split; [exact N|]. split; [exact Ns|].
      simpl. destruct (Qeq_dec (s * s) 0); [exact I|contradiction].
    + eexists. split; [reflexivity|]. exists m, (Some s). split; [exact N|]. split; [exact Ns|].
      simpl. destruct (Qeq_dec (s * s) 0); [contradiction|]. apply rhu_nearest.
  - eexists. split; [reflexivity|]. exists m, None. split; [exact N|]. split; [exact Ns|]. exact I.
Qed.

Lemma si_value :
  In ("obar", ob) names ->
  In ("ffbar", ffld) names -> In ("oobar", ofld) names -> In ("fobar", fofld) names ->
  exists m o, RootOfRounded (mean_sq_error l) (Some m) /\ Nearest 7 (mean_of ob l) o /\
    (o == 0 -> calculate_si data columns agg = Err ZeroDivisionError) /\
    (~ o == 0 -> exists r, calculate_si data columns agg = Ok (Some r) /\ Nearest 7 (m / o) r).
Proof.
  intros H5 H1 H2 H3. destruct (rmse_value H1 H2 H3) as (m & E & N & _).
  destruct (mean_stat_value _ _ _ _ _ _ HM "obar" ob H5) as (o & Eo & No).
  destruct o as [o|]; [|contradiction No].
  exists m, o. split; [exact N|]. split; [exact No|].
  unfold calculate_si, calculate_obar. rewrite E, Eo. cbn [bind]. unfold pydiv. cbn [bind].
  split; intro K.
  - rewrite (proj2 (Qeq_bool_iff o 0) K). reflexivity.
  - rewrite Qeq_bool_false by exact K. eexists. split; [reflexivity|]. apply rhu_nearest.
Qed.

(** Pearson correlation. *)
Lemma pearson_bound {B} (g h : B -> Q) (k : list B) c : pearson g h k = Some c -> (-1 <= c <= 1)%R.
Proof.
  unfold pearson. destruct (Qeq_dec (codev g g k * codev h h k) 0) as [|Hne]; [discriminate|].
  intro E. injection E as <-.
  pose proof (codev_cs g h k) as CS.
  pose proof (Qmult_le_0_compat _ _ (codev_self_nonneg g k) (codev_self_nonneg h k)) as NN.
  set (V := codev g g k * codev h h k) in *. set (c := codev g h k) in *.
  assert (PV : 0 < V) by qlra.
  assert (PR : (0 < Q2R V)%R) by (rewrite <- Q2R_0; apply Q2R_lt; exact PV).
  pose proof (sqrt_lt_R0 _ PR) as PS.
  assert (CSR : (Q2R c * Q2R c <= Q2R V)%R) by (rewrite <- Q2R_mult; apply Q2R_le; exact CS).
  assert (SS : (sqrt (Q2R V) * sqrt (Q2R V) = Q2R V)%R) by (apply sqrt_sqrt; lra).
  assert (AB : (- sqrt (Q2R V) <= Q2R c <= sqrt (Q2R V))%R).
  { split; apply Rnot_lt_le; intro K; nra. }
  split; apply (Rmult_le_reg_r (sqrt (Q2R V))); try exact PS; unfold Rdiv; rewrite Rmult_assoc, Rinv_l; lra.
Qed.

Lemma pr_corr_value :
  In ("fbar", fc) names -> In ("obar", ob) names ->
  In ("ffbar", ffld) names -> In ("oobar", ofld) names -> In ("fobar", fofld) names ->
  exists r, calculate_pr_corr data columns agg = Ok r /\ PublishedR (pearson fc ob l) r.
Proof.
  intros H4 H5 H1 H2 H3. mm H4 x Ef Hf. mm H5 y Eo Ho. mm H1 ff Eff Hff. mm H2 oo Eoo Hoo. mm H3 fo Efo Hfo.
  pose proof (mom_n _ _ _ _ _ _ HM) as Pn. pose proof HM as (_ & En & Hl & _).
  unfold calculate_pr_corr. rewrite (mom_total _ _ _ _ _ _ HM). cbn [bind].
  rewrite (mom_total1 _ _ _ _ _ _ HM). rewrite Eff. cbn [bind]. rewrite Ef. cbn [bind]. rewrite Eoo. cbn [bind].
  rewrite Eo. cbn [bind]. rewrite Efo. cbn [bind pybin pysq].
  set (v := (n * n * ff - n * n * (x * x)) * (n * n * oo - n * n * (y * y))).
  set (c := n * n * fo - n * n * x * y).
  assert (CF : n * n * ff - n * n * (x * x) == n * codev fc fc l).
  { rewrite codev_alg by exact Hl. rewrite Hff, Hf. unfold mean_of. rewrite <- En. field. qlra. }
  assert (CO : n * n * oo - n * n * (y * y) == n * codev ob ob l).
  { rewrite codev_alg by exact Hl. rewrite Hoo, Ho. unfold mean_of. rewrite <- En. field. qlra. }
  assert (CC : c == n * codev fc ob l).
  { unfold c. rewrite codev_alg by exact Hl. rewrite Hfo, Hf, Ho. unfold mean_of. rewrite <- En. field. qlra. }
  assert (CV : v == n * n * (codev fc fc l * codev ob ob l)) by (unfold v; rewrite CF, CO; ring).
  pose proof (Qmult_le_0_compat _ _ (codev_self_nonneg fc l) (codev_self_nonneg ob l)) as NN.
  assert (Pnn : 0 < n * n) by (apply Qmult_lt_0_compat; exact Pn).
  assert (Vn : 0 <= v) by (rewrite CV; apply Qmult_le_0_compat; qlra).
  unfold np_sqrt. cbn [bind]. rewrite (proj2 (Qlt_bool_false v 0) Vn).
  pose proof (pearson_bound fc ob l) as PB. unfold pearson in *.
  set (W := codev fc fc l * codev ob ob l) in *.
  unfold rdiv, toR. cbn [bind].
  destruct (Qeq_dec W 0) as [Z|NZ].
  - assert (v == 0) by (rewrite CV, Z; ring). rewrite (Q2R_eq v 0 H), Q2R_0, sqrt_0.
    destruct (Req_EM_T 0 0); [|congruence]. simpl. eexists. split; [reflexivity|exact I].
  - specialize (PB _ eq_refl).
    assert (PW : 0 < W) by qlra.
    assert (Pv : 0 < v) by (rewrite CV; apply Qmult_lt_0_compat; assumption).
    assert (PR : (0 < Q2R v)%R) by (rewrite <- Q2R_0; apply Q2R_lt; exact Pv).
    pose proof (sqrt_lt_R0 _ PR) as PS.
    destruct (Req_EM_T (sqrt (Q2R v)) 0) as [K|_]; [lra|]. cbn [bind].
    destruct (Qle_bool v 0) eqn:B; [Qbool; exfalso; qlra|].
    assert (EQ : (Q2R c / sqrt (Q2R v) = Q2R (codev fc ob l) / sqrt (Q2R W))%R).
    { rewrite (Q2R_eq _ _ CC), (Q2R_eq _ _ CV), !Q2R_mult.
      assert (PnR : (0 < Q2R n)%R) by (rewrite <- Q2R_0; apply Q2R_lt; exact Pn).
      assert (PWR : (0 < Q2R W)%R) by (rewrite <- Q2R_0; apply Q2R_lt; exact PW).
      pose proof (sqrt_lt_R0 _ PWR).
      rewrite sqrt_mult; [|apply Rmult_le_pos; lra|lra]. rewrite sqrt_square by lra.
      field. split; lra. }
    rewrite EQ. destruct (Rlt_dec 1 (Q2R (codev fc ob l) / sqrt (Q2R W))) as [K|_]; [exfalso; lra|].
    simpl. eexists. split; [reflexivity|]. apply rhuR_nearest.
Qed.

Lemma estdev_value_row :
  agg = false ->
  In ("fbar", fc) names -> In ("obar", ob) names ->
  In ("ffbar", ffld) names -> In ("oobar", ofld) names -> In ("fobar", fofld) names ->
  exists e m r, Nearest 7 (mean_error l) e /\ Nearest 7 (mean_sq_error l) m /\
    calculate_estdev data columns agg = Ok r /\
    (n <= 1 -> r = None) /\
    (1 < n -> (m - e * e < 0 -> r = None) /\
       (0 <= m - e * e -> PublishedR (Some (sqrt (Q2R (n * (m - e * e) / (n - 1))))) r)).
Proof.
  intros Ha H4 H5 H1 H2 H3. destruct (mse_value H1 H2 H3) as (m & E & N). destruct (me_value H4 H5) as (e & E' & N').
  rewrite Ha in *. exists e, m.
  pose proof (mom_n _ _ _ _ _ _ HM) as Pn.
  unfold calculate_estdev. rewrite (mom_total _ _ _ _ _ _ HM). cbn [bind]. rewrite E'. cbn [bind]. rewrite E.
  cbn [bind pybin]. unfold calculate_stddev.
  pose proof HM as (_ & En & Hl & _).
  assert (G : 1 <= count l).
  { unfold count. destruct l as [|x t']; [congruence|]. simpl length.
    rewrite Nat2Z.inj_succ. unfold Qle, inject_Z. simpl. lia. }
  destruct (Qlt_bool n 1) eqn:B1; [Qbool; exfalso; qlra|].
  destruct (Qlt_le_dec 1 n) as [G1|G1].
  - unfold pylit. rewrite npdiv_ok by (intro; qlra). cbn [bind].
    assert (V : (m * n - e * n * (e * n) / n) / (n - 1) == n * (m - e * e) / (n - 1)) by (field; split; qlra).
    assert (S1 : m - e * e < 0 -> n * (m - e * e) / (n - 1) < 0).
    { intro K. apply Qlt_shift_div_r; [qlra|]. rewrite Qmult_0_l.
      assert (0 < n * (- (m - e * e))) by (apply Qmult_lt_0_compat; qlra). qlra. }
    assert (S2 : 0 <= m - e * e -> 0 <= n * (m - e * e) / (n - 1)).
    { intro K. apply Qle_shift_div_l; [qlra|]. rewrite Qmult_0_l. apply Qmult_le_0_compat; qlra. }
    destruct (Qlt_bool ((m * n - e * n * (e * n) / n) / (n - 1)) 0) eqn:B2; Qbool; rewrite V in B2.
    + exists None. split; [exact N'|]. split; [exact N|]. split; [reflexivity|]. split; [auto|].
      intros _. split; [auto|]. intro K. specialize (S2 K). exfalso. qlra.
    + unfold np_sqrt. cbn [bind]. rewrite (proj2 (Qlt_bool_false _ 0)) by (rewrite V; exact B2).
      simpl. eexists. split; [exact N'|]. split; [exact N|]. split; [reflexivity|]. split; [intro; exfalso; qlra|].
      intros _. split; [intro K; specialize (S1 K); exfalso; qlra|]. intros _. unfold PublishedR.
      rewrite (Q2R_eq _ _ V). apply rhuR_nearest.
  - unfold pylit. rewrite npdiv_0 by qlra. simpl. exists None.
    split; [exact N'|]. split; [exact N|]. split; [reflexivity|]. split; [auto|]. intro; exfalso; qlra.
Qed.
End Pairs.
