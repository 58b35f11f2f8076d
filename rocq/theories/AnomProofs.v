From Verif Require Import PyBase ColumnModel BaseSpec BaseProofs AggModel AggSpec AggProofs MomentProofs
  RealBase RealSpec RealProofs Sl1l2Model Sl1l2Spec Sl1l2Proofs CtcProofs Sl1l2Proofs2 SafeProofs Sl1l2Safe
  AnomModel AnomSpec.
From Coq Require Import Reals Qreals Qabs Lra.
Open Scope string_scope.
Open Scope Q_scope.

(** Quotients bounded by Cauchy-Schwarz. *)
Lemma sq_le_abs (x y : Q) : 0 <= y -> x * x <= y * y -> x <= y.
Proof.
  intros Hy H. destruct (Qlt_le_dec y x) as [K|K]; [|exact K]. exfalso.
  assert (0 < (x - y) * (x + y)) by (apply Qmult_lt_0_compat; qlra). qlra.
Qed.

Lemma cs_add c1 a1 b1 c2 a2 b2 : 0 <= a1 -> 0 <= b1 -> 0 <= a2 -> 0 <= b2 ->
  c1 * c1 <= a1 * b1 -> c2 * c2 <= a2 * b2 -> (c1 + c2) * (c1 + c2) <= (a1 + a2) * (b1 + b2).
Proof.
  intros A1 B1 A2 B2 H1 H2.
  assert (K : 2 * (c1 * c2) <= a1 * b2 + a2 * b1).
  { pose proof (Qmult_le_0_compat _ _ A1 B2) as X. pose proof (Qmult_le_0_compat _ _ A2 B1) as Y.
    set (x := a1 * b2) in *. set (y := a2 * b1) in *.
    apply sq_le_abs; [qlra|].
    assert (P : (c1 * c1) * (c2 * c2) <= x * y).
    { assert (Qle ((c1 * c1) * (c2 * c2)) ((a1 * b1) * (c2 * c2))).
      { apply Qmult_le_compat_r; [exact H1|apply Qsq_nonneg]. }
      assert (Qle ((c2 * c2) * (a1 * b1)) ((a2 * b2) * (a1 * b1))).
      { apply Qmult_le_compat_r; [exact H2|apply Qmult_le_0_compat; assumption]. }
      unfold x, y. qlra. }
    pose proof (Qsq_nonneg (x - y)). qlra. }
  qlra.
Qed.

Lemma ratio_bound c V : c * c <= V -> ~ V == 0 -> (-1 <= Q2R c / sqrt (Q2R V) <= 1)%R.
Proof.
  intros CS Hne. pose proof (Qsq_nonneg c) as NN.
  assert (PV : 0 < V) by qlra.
  assert (PR : (0 < Q2R V)%R) by (rewrite <- Q2R_0; apply Q2R_lt; exact PV).
  pose proof (sqrt_lt_R0 _ PR) as PS.
  assert (CSR : (Q2R c * Q2R c <= Q2R V)%R) by (rewrite <- Q2R_mult; apply Q2R_le; exact CS).
  assert (SS : (sqrt (Q2R V) * sqrt (Q2R V) = Q2R V)%R) by (apply sqrt_sqrt; lra).
  assert (AB : (- sqrt (Q2R V) <= Q2R c <= sqrt (Q2R V))%R).
  { split; apply Rnot_lt_le; intro K; nra. }
  split; apply (Rmult_le_reg_r (sqrt (Q2R V))); try exact PS; unfold Rdiv; rewrite Rmult_assoc, Rinv_l; lra.
Qed.

(** [c/t over root of v/t^2] is [c over root of v]. *)
Lemma ratio_scale t c v c' v' : 0 < t -> 0 < v' -> c == t * c' -> v == t * t * v' ->
  (0 < sqrt (Q2R v))%R /\ (Q2R c / sqrt (Q2R v) = Q2R c' / sqrt (Q2R v'))%R.
Proof.
  intros Pt Pv Ec Ev.
  assert (Pv1 : 0 < v) by (rewrite Ev; apply Qmult_lt_0_compat; [apply Qmult_lt_0_compat|]; assumption).
  assert (PR : (0 < Q2R v)%R) by (rewrite <- Q2R_0; apply Q2R_lt; exact Pv1).
  split; [apply sqrt_lt_R0; exact PR|].
  rewrite (Q2R_eq _ _ Ec), (Q2R_eq _ _ Ev), !Q2R_mult.
  assert (PnR : (0 < Q2R t)%R) by (rewrite <- Q2R_0; apply Q2R_lt; exact Pt).
  assert (PWR : (0 < Q2R v')%R) by (rewrite <- Q2R_0; apply Q2R_lt; exact Pv).
  pose proof (sqrt_lt_R0 _ PWR).
  rewrite sqrt_mult; [|apply Rmult_le_pos; lra|lra]. rewrite sqrt_square by lra.
  field. split; lra.
Qed.

Lemma uncentred_bound {B} (g h : B -> Q) k c : uncentred g h k = Some c -> (-1 <= c <= 1)%R.
Proof.
  unfold uncentred. cbv zeta. destruct (Qeq_dec _ 0) as [|N]; [discriminate|]. intro E. injection E as <-.
  apply ratio_bound; [apply cauchy_schwarz|exact N].
Qed.
Lemma vector_cs l : vcodev_fo l * vcodev_fo l <= vcodev_ff l * vcodev_oo l.
Proof. apply cs_add; try apply codev_self_nonneg; apply codev_cs. Qed.
Lemma vector_corr_bound l c : vector_corr l = Some c -> (-1 <= c <= 1)%R.
Proof.
  unfold vector_corr. destruct (Qeq_dec _ 0) as [|N]; [discriminate|]. intro E. injection E as <-.
  apply ratio_bound; [apply vector_cs|exact N].
Qed.
Lemma total_sq_nonneg {B} (g : B -> Q) l : 0 <= total_of (fun p => g p * g p) l.
Proof. apply total_nonneg. intros. apply Qsq_nonneg. Qed.
Lemma dot_cs l : total_of dot_fo l * total_of dot_fo l <= total_of dot_ff l * total_of dot_oo l.
Proof.
  unfold dot_fo, dot_ff, dot_oo. rewrite !total_plus.
  apply cs_add; try apply total_sq_nonneg; apply cauchy_schwarz.
Qed.
Lemma vector_uncentred_bound l c : vector_uncentred l = Some c -> (-1 <= c <= 1)%R.
Proof.
  unfold vector_uncentred. cbv zeta. destruct (Qeq_dec _ 0) as [|N]; [discriminate|]. intro E. injection E as <-.
  apply ratio_bound; [apply dot_cs|exact N].
Qed.
Lemma dot_nonneg l : 0 <= total_of dot_ff l /\ 0 <= total_of dot_oo l.
Proof.
  split; apply total_nonneg; intros x _; unfold dot_ff, dot_oo.
  - pose proof (Qsq_nonneg (uf x)). pose proof (Qsq_nonneg (vf x)). qlra.
  - pose proof (Qsq_nonneg (uo x)). pose proof (Qsq_nonneg (vo x)). qlra.
Qed.

Lemma published_unit x r : (forall c, x = Some c -> (-1 <= c <= 1)%R) -> PublishedR x r ->
  forall w, r = Some w -> -1 <= w <= 1.
Proof.
  intros B P w ->. destruct x as [c|]; [|contradiction P].
  specialize (B c eq_refl).
  apply (publishedR_range (-1) 1 c w); [apply multiple_m1|apply multiple_1| |exact P].
  rewrite Q2R_m1, Q2R_1. exact B.
Qed.

(** Values on a table with known means. *)
Section Scalar.
Variables (data : tdata) (columns : list string) (agg : bool) (l : list pair)
  (names : list (string * (pair -> Q))) (n : Q).
Hypothesis HM : Mom data columns agg l names n.
Notation ffld := (fun p : pair => fc p * fc p).
Notation ofld := (fun p : pair => ob p * ob p).
Notation fofld := (fun p : pair => fc p * ob p).

Ltac mm H q E Eq := destruct (mom_mean _ _ _ _ _ _ HM _ _ H) as (q & E & Eq).
Ltac gt := rewrite (mom_get_total _ _ _ _ _ _ HM); cbn [bind].

Lemma codev_mean {A} (g h : A -> Q) k : k <> [] ->
  codev g h k == count k * (mean_of (fun p => g p * h p) k - mean_of g k * mean_of h k).
Proof.
  intro Hl. rewrite codev_alg by exact Hl. unfold mean_of. pose proof (count_pos k Hl). field. qlra.
Qed.

Lemma used_pos : 0 < used_total agg n.
Proof. unfold used_total. pose proof (mom_n _ _ _ _ _ _ HM). destruct agg; qlra. Qed.

Lemma anom_corr_value :
  In ("fabar", fc) names -> In ("oabar", ob) names ->
  In ("ffabar", ffld) names -> In ("ooabar", ofld) names -> In ("foabar", fofld) names ->
  exists r, calculate_anom_corr data columns agg = Ok r /\ PublishedR (pearson fc ob l) r.
Proof.
  intros H4 H5 H1 H2 H3. mm H4 x Ef Hf. mm H5 y Eo Ho. mm H1 ff Eff Hff. mm H2 oo Eoo Hoo. mm H3 fo Efo Hfo.
  pose proof used_pos as Pt. pose proof HM as (_ & _ & Hl & _). pose proof (count_pos l Hl) as Pn.
  unfold calculate_anom_corr. gt. rewrite Eff. cbn [bind]. rewrite Ef. cbn [bind]. rewrite Eoo. cbn [bind].
  rewrite Eo. cbn [bind]. rewrite Efo. cbn [bind pybin pysq].
  set (t := used_total agg n) in *.
  set (v := (t * t * ff - t * t * (x * x)) * (t * t * oo - t * t * (y * y))).
  set (c := t * t * fo - t * t * x * y).
  set (m := count l) in *. set (W := codev fc fc l * codev ob ob l).
  assert (CV : v == (t * t / m) * (t * t / m) * W).
  { unfold v, W. rewrite !codev_mean by exact Hl. fold m. rewrite Hff, Hf, Hoo, Ho. field. qlra. }
  assert (CC : c == (t * t / m) * codev fc ob l).
  { unfold c. rewrite codev_mean by exact Hl. fold m. rewrite Hfo, Hf, Ho. field. qlra. }
  assert (Ps : 0 < t * t / m).
  { apply Qlt_shift_div_l; [exact Pn|]. rewrite Qmult_0_l. apply Qmult_lt_0_compat; exact Pt. }
  pose proof (Qmult_le_0_compat _ _ (codev_self_nonneg fc l) (codev_self_nonneg ob l)) as NN. fold W in NN.
  pose proof (pearson_bound fc ob l) as PB. unfold pearson in *. fold W in PB |- *.
  destruct (Qeq_dec W 0) as [Z|NZ].
  - assert (Z' : v == 0) by (rewrite CV, Z; ring).
    destruct (Qle_bool v 0) eqn:B.
    + eexists. split; [reflexivity|exact I].
    + exfalso. rewrite <- not_true_iff_false in B. apply B. apply Qle_bool_iff. qlra.
  - specialize (PB _ eq_refl). assert (PW : 0 < W) by qlra.
    assert (Pv : 0 < v).
    { rewrite CV. apply Qmult_lt_0_compat; [apply Qmult_lt_0_compat|]; assumption. }
    destruct (Qle_bool v 0) eqn:B; [Qbool; exfalso; qlra|].
    destruct (ratio_scale _ c v _ W Ps PW CC CV) as [PS EQ].
    unfold np_sqrt, toR, rdiv. cbn [bind]. rewrite (proj2 (Qlt_bool_false v 0)) by qlra. cbn [bind].
    destruct (Req_EM_T (sqrt (Q2R v)) 0) as [K|_]; [lra|]. cbn [bind]. rewrite EQ.
    destruct (Rlt_dec 1 (Q2R (codev fc ob l) / sqrt (Q2R W))) as [K|_]; [exfalso; lra|].
    simpl. eexists. split; [reflexivity|]. apply rhuR_nearest.
Qed.

Lemma clamp_inside x : (-1 <= x <= 1)%R -> clamp_unit (Ok (Some x)) = Ok (Some x).
Proof.
  intros [A B]. unfold clamp_unit. cbn [bind]. destruct (Rlt_dec 1 x); [lra|]. destruct (Rlt_dec x (-1)); [lra|reflexivity].
Qed.

Lemma anom_corr_raw_value :
  In ("ffabar", ffld) names -> In ("ooabar", ofld) names -> In ("foabar", fofld) names ->
  exists r, calculate_anom_corr_raw data columns agg = Ok r /\ PublishedR (uncentred fc ob l) r.
Proof.
  intros H1 H2 H3. mm H1 ff Eff Hff. mm H2 oo Eoo Hoo. mm H3 fo Efo Hfo.
  pose proof HM as (_ & _ & Hl & _). pose proof (count_pos l Hl) as Pn.
  unfold calculate_anom_corr_raw. gt. rewrite Eff. cbn [bind]. rewrite Eoo. cbn [bind]. rewrite Efo. cbn [bind pybin].
  set (v := ff * oo). set (m := count l) in *.
  pose proof (uncentred_bound fc ob l) as PB. unfold uncentred in *. cbv zeta in *.
  set (W := total_of ffld l * total_of ofld l) in *.
  assert (CV : v == / m * / m * W).
  { unfold v, W. rewrite Hff, Hoo. unfold mean_of. fold m. field. qlra. }
  assert (CC : fo == / m * total_of fofld l) by (rewrite Hfo; unfold mean_of; fold m; field; qlra).
  assert (Ps : 0 < / m) by (apply Qinv_lt_0_compat; exact Pn).
  pose proof (Qmult_le_0_compat _ _ (total_sq_nonneg fc l) (total_sq_nonneg ob l)) as NN. fold W in NN.
  assert (Vn : 0 <= v).
  { rewrite CV. apply Qmult_le_0_compat; [apply Qmult_le_0_compat|]; qlra. }
  rewrite (proj2 (Qlt_bool_false v 0) Vn). unfold np_sqrt, toR, rdiv. cbn [bind].
  rewrite (proj2 (Qlt_bool_false v 0) Vn). cbn [bind].
  destruct (Qeq_dec W 0) as [Z|NZ].
  - assert (Z' : v == 0) by (rewrite CV, Z; ring). rewrite (Q2R_eq v 0 Z'), Q2R_0, sqrt_0.
    destruct (Req_EM_T 0 0); [|congruence]. simpl. eexists. split; [reflexivity|exact I].
  - specialize (PB _ eq_refl). assert (PW : 0 < W) by qlra.
    destruct (ratio_scale _ fo v _ W Ps PW CC CV) as [PS EQ].
    destruct (Req_EM_T (sqrt (Q2R v)) 0) as [K|_]; [lra|]. rewrite EQ, clamp_inside by exact PB.
    simpl. eexists. split; [reflexivity|]. apply rhuR_nearest.
Qed.

Lemma anomaly_rms_value caught name g : In (name, g) names -> 0 <= mean_of g l ->
  exists r, anomaly_rms data columns agg caught name = Ok r /\ PublishedR (Some (sqrt (Q2R (mean_of g l)))) r.
Proof.
  intros H P. mm H q E Hq. unfold anomaly_rms. gt. rewrite E. cbn [bind].
  assert (B : Qlt_bool q 0 = false) by (apply Qlt_bool_false; qlra). rewrite B.
  unfold np_sqrt. cbn [bind]. rewrite B. simpl. eexists. split; [reflexivity|].
  rewrite <- (Q2R_eq _ _ Hq). apply rhuR_nearest.
Qed.
Lemma sq_mean_nonneg {A} (g : A -> Q) k : k <> [] -> 0 <= mean_of (fun p => g p * g p) k.
Proof. intro H. apply mean_nonneg; [exact H|]. intros. apply Qsq_nonneg. Qed.
End Scalar.

Section Vector.
Variables (data : tdata) (columns : list string) (agg : bool) (l : list vpair)
  (names : list (string * (vpair -> Q))) (n : Q).
Hypothesis HM : Mom data columns agg l names n.
Ltac mm H q E Eq := destruct (mom_mean _ _ _ _ _ _ HM _ _ H) as (q & E & Eq).
Ltac gt := rewrite (mom_get_total _ _ _ _ _ _ HM); cbn [bind].

Lemma val_corr_value :
  In ("ufabar", uf) names -> In ("vfabar", vf) names -> In ("uoabar", uo) names -> In ("voabar", vo) names ->
  In ("uvfoabar", dot_fo) names -> In ("uvffabar", dot_ff) names -> In ("uvooabar", dot_oo) names ->
  exists r, calculate_val1l2_anom_corr data columns agg = Ok r /\ PublishedR (vector_corr l) r.
Proof.
  intros H1 H2 H3 H4 H5 H6 H7.
  mm H1 a Ea Ha. mm H2 b Eb Hb. mm H3 c Ec Hc. mm H4 d Ed Hd. mm H5 fo Efo Hfo. mm H6 ff Eff Hff. mm H7 oo Eoo Hoo.
  pose proof HM as (_ & _ & Hl & _). pose proof (count_pos l Hl) as Pn.
  unfold calculate_val1l2_anom_corr. gt. rewrite Ea. cbn [bind]. rewrite Eb. cbn [bind]. rewrite Ec. cbn [bind].
  rewrite Ed. cbn [bind]. rewrite Efo. cbn [bind]. rewrite Eff. cbn [bind]. rewrite Eoo. cbn [bind].
  set (m := count l) in *.
  assert (A1 : ff - a * a - b * b == / m * vcodev_ff l).
  { unfold vcodev_ff. rewrite !codev_mean by exact Hl. fold m. rewrite Hff, Ha, Hb. unfold dot_ff. rewrite mean_plus.
    field. qlra. }
  assert (A2 : oo - c * c - d * d == / m * vcodev_oo l).
  { unfold vcodev_oo. rewrite !codev_mean by exact Hl. fold m. rewrite Hoo, Hc, Hd. unfold dot_oo. rewrite mean_plus.
    field. qlra. }
  assert (A3 : fo - a * c - b * d == / m * vcodev_fo l).
  { unfold vcodev_fo. rewrite !codev_mean by exact Hl. fold m. rewrite Hfo, Ha, Hb, Hc, Hd. unfold dot_fo. rewrite mean_plus.
    field. qlra. }
  set (P := ff - a * a - b * b) in *. set (PR := oo - c * c - d * d) in *. set (PC := fo - a * c - b * d) in *.
  assert (Ps : 0 < / m) by (apply Qinv_lt_0_compat; exact Pn).
  assert (Nf : 0 <= vcodev_ff l).
  { unfold vcodev_ff. pose proof (codev_self_nonneg uf l). pose proof (codev_self_nonneg vf l). qlra. }
  assert (No : 0 <= vcodev_oo l).
  { unfold vcodev_oo. pose proof (codev_self_nonneg uo l). pose proof (codev_self_nonneg vo l). qlra. }
  assert (PP : 0 <= P) by (rewrite A1; apply Qmult_le_0_compat; qlra).
  assert (PO : 0 <= PR) by (rewrite A2; apply Qmult_le_0_compat; qlra).
  pose proof (Qmult_le_0_compat _ _ Nf No) as NN.
  unfold calc_wind_corr, np_sqrt, pylit, rdiv, rbin. cbn [bind]. fold P PR PC.
  rewrite (proj2 (Qlt_bool_false P 0) PP), (proj2 (Qlt_bool_false PR 0) PO). cbn [bind].
  rewrite <- sqrt_mult, <- Q2R_mult by (rewrite <- Q2R_0; apply Q2R_le; assumption).
  assert (CV : P * PR == / m * / m * (vcodev_ff l * vcodev_oo l)) by (rewrite A1, A2; ring).
  unfold vector_corr. set (W := vcodev_ff l * vcodev_oo l) in *.
  destruct (Qeq_dec W 0) as [Z|NZ].
  - assert (Z' : P * PR == 0) by (rewrite CV, Z; ring). rewrite (Q2R_eq _ 0 Z'), Q2R_0, sqrt_0.
    destruct (Req_EM_T 0 0); [|congruence]. simpl. eexists. split; [reflexivity|exact I].
  - assert (PW : 0 < W) by qlra.
    destruct (ratio_scale _ PC (P * PR) _ W Ps PW A3 CV) as [PS EQ].
    destruct (Req_EM_T (sqrt (Q2R (P * PR))) 0) as [K|_]; [lra|]. rewrite EQ.
    simpl. eexists. split; [reflexivity|]. apply rhuR_nearest.
Qed.
End Vector.

Ltac aggf F HS K := cbv beta iota; eapply (agg_intro F);
  [reflexivity|reflexivity|reflexivity|reflexivity|exact HS|];
  let d := fresh "d" in let n := fresh "n" in let HM := fresh "HM" in intros d n HM; K HM.

Lemma lines_of {A} (F : list (string * (A -> Q))) (groups : list (list A)) :
  nodupb (line_columns F) = true -> groups <> [] ->
  forallb (fun b => match b with [] => false | _ => true end) groups = true ->
  Summaries F (line_columns F) groups (map (line_of F) groups).
Proof. intros H0 H1 H2. apply lines_summaries; [apply nodupb_ok; exact H0|exact H1|apply group_ok; exact H2]. Qed.

(** Clamping. *)
Lemma clamp_range v x : clamp_unit v = Ok (Some x) -> (-1 <= x <= 1)%R.
Proof.
  unfold clamp_unit. destruct v as [[c|]|e]; cbn [bind]; try discriminate.
  destruct (Rlt_dec 1 c); [intro E; injection E as <-; lra|].
  destruct (Rlt_dec c (-1)); intro E; injection E as <-; lra.
Qed.
Lemma catch_some {A} l (b : res (option A)) x : catch l b None = Ok (Some x) -> b = Ok (Some x).
Proof. unfold catch. destruct b; [congruence|]. destruct (existsb _ l); congruence. Qed.
Ltac sleaf := match goal with
  | |- Safe ?l (colsum _ _ _) => apply (safe_sub [ValueError]); [reflexivity|apply colsum_any]
  | |- Safe ?l (get_total _ _ _) => apply (safe_sub [ValueError]); [reflexivity|apply total_any] end.
Ltac sgo := unfold pyround, pysq, pylit, npdiv, pydiv, pybin, rround, rdiv, rbin, toR, np_sqrt, clamp_unit;
  repeat first [sleaf | assumption | safe1 | progress cbv beta].
Ltac never := apply (safe_catch' WV); [unfold WV; sgo|reflexivity].
Lemma anom_corr_ok data columns agg : Safe [] (calculate_anom_corr data columns agg).
Proof. never. Qed.
Lemma anom_corr_raw_ok data columns agg : Safe [] (calculate_anom_corr_raw data columns agg).
Proof. never. Qed.
Lemma vcnt_anom_corr_ok data columns agg : Safe [] (calculate_vcnt_anom_corr data columns agg).
Proof. never. Qed.
Lemma vcnt_anom_corr_uncntr_ok data columns agg : Safe [] (calculate_vcnt_anom_corr_uncntr data columns agg).
Proof. never. Qed.
Ltac unbind E := match type of E with
  | bind ?a _ = Ok _ => let v := fresh "v" in let Ev := fresh "Ev" in
      destruct a as [v|] eqn:Ev; cbn [bind] in E; [|discriminate E] end.

(** Sums of the scaled columns. *)
Lemma mom_sum {A} data columns (l : list A) names n name g : Mom data columns true l names n -> In (name, g) names ->
  exists s, colsum data columns name = Ok (Some s) /\ s == total_of g l.
Proof.
  intros (_ & En & Hl & F) H. destruct (F name g H) as (s & Es & Hs). exists s. split; [exact Es|].
  pose proof (count_pos l Hl) as Pn. unfold mean_of in Hs. rewrite En in Hs.
  assert (K : s / count l * count l == total_of g l / count l * count l) by (rewrite Hs; reflexivity).
  rewrite !Qmult_div_r in K || idtac.
  assert (K1 : s / count l * count l == s) by (field; qlra).
  assert (K2 : total_of g l / count l * count l == total_of g l) by (field; qlra).
  rewrite <- K1, <- K2. rewrite Hs. reflexivity.
Qed.

Lemma ssvar_intro {A} (fields : list (string * (A -> Q))) (P : list A -> pyval -> Prop)
  statistic cols stat data columns groups :
  assoc statistic STATISTIC_TO_FIELDS = Some cols ->
  nodupb (line_columns fields) = true -> nodupb cols = true -> subsetb cols (map fst fields) = true ->
  Summaries fields (counted_by_bin_n columns) groups data ->
  (forall d n, Mom d (counted_by_bin_n columns) true (concat groups)
       (filter (fun nf => existsb (String.eqb (fst nf)) cols) fields) n ->
     exists r, stat d (counted_by_bin_n columns) true = Ok r /\ P (concat groups) r) ->
  exists r, aggregated_ssvar statistic stat data columns = Ok r /\ P (concat groups) r.
Proof.
  intros E N1 N2 S HS K. unfold aggregated_ssvar, prepare_ssvar. rewrite E.
  destruct (mom_agg fields (counted_by_bin_n columns) groups data cols (nodupb_ok _ N1) (subsetb_ok _ _ S) (nodupb_ok _ N2) HS)
    as (d & n & Ed & HM).
  change (map ssvar_rename columns) with (counted_by_bin_n columns).
  rewrite Ed. cbn [bind fst snd]. apply (K d n HM).
Qed.
Ltac ssv HS K := cbv beta iota; eapply (ssvar_intro ssvar_fields);
  [reflexivity|reflexivity|reflexivity|reflexivity|exact HS|];
  let d := fresh "d" in let n := fresh "n" in let HM := fresh "HM" in intros d n HM; K HM.

(** Columns read under the anomaly names. *)
Lemma anomaly_index columns name :
  In (name, anomaly_name name) [("fbar", "fabar"); ("obar", "oabar"); ("fobar", "foabar"); ("ffbar", "ffabar"); ("oobar", "ooabar")] ->
  ~ In (anomaly_name name) columns ->
  index_of (anomaly_name name) (map anomaly_name columns) = index_of name columns.
Proof.
  intros H. assert (HH : name = "fbar" \/ name = "obar" \/ name = "fobar" \/ name = "ffbar" \/ name = "oobar").
  { simpl in H. destruct H as [H|[H|[H|[H|[H|[]]]]]]; injection H as H _; subst; tauto. }
  clear H. induction columns as [|c t IH]; [reflexivity|]. intro N.
  assert (Nt : ~ In (anomaly_name name) t) by (intro K; apply N; right; exact K).
  assert (Nc : c <> anomaly_name name) by (intro K; apply N; left; exact K).
  cbn [map index_of]. rewrite (IH Nt).
  assert (E : String.eqb (anomaly_name c) (anomaly_name name) = String.eqb c name).
  { unfold anomaly_name in Nc |- * at 1.
    destruct (String.eqb_spec c "ffbar") as [->|?]; [destruct HH as [->|[->|[->|[->| ->]]]]; reflexivity|].
    destruct (String.eqb_spec c "fbar") as [->|?]; [destruct HH as [->|[->|[->|[->| ->]]]]; reflexivity|].
    destruct (String.eqb_spec c "oobar") as [->|?]; [destruct HH as [->|[->|[->|[->| ->]]]]; reflexivity|].
    destruct (String.eqb_spec c "obar") as [->|?]; [destruct HH as [->|[->|[->|[->| ->]]]]; reflexivity|].
    destruct (String.eqb_spec c "fobar") as [->|?]; [destruct HH as [->|[->|[->|[->| ->]]]]; reflexivity|].
    transitivity false.
    - apply String.eqb_neq. exact Nc.
    - symmetry. apply String.eqb_neq. intro K. subst c. destruct HH as [->|[->|[->|[->| ->]]]]; congruence. }
  rewrite E. reflexivity.
Qed.
Lemma anomaly_total columns : index_of "total" (map anomaly_name columns) = index_of "total" columns.
Proof.
  induction columns as [|c t IH]; [reflexivity|]. cbn [map index_of]. rewrite IH.
  assert (E : String.eqb (anomaly_name c) "total" = String.eqb c "total").
  { unfold anomaly_name.
    destruct (String.eqb_spec c "ffbar") as [->|?]; [reflexivity|].
    destruct (String.eqb_spec c "fbar") as [->|?]; [reflexivity|].
    destruct (String.eqb_spec c "oobar") as [->|?]; [reflexivity|].
    destruct (String.eqb_spec c "obar") as [->|?]; [reflexivity|].
    destruct (String.eqb_spec c "fobar") as [->|?]; reflexivity. }
  rewrite E. reflexivity.
Qed.
Lemma colsum_index data c1 c2 n1 n2 : index_of n1 c1 = index_of n2 c2 -> colsum data c1 n1 = colsum data c2 n2.
Proof. intro E. unfold colsum, sum_column_data_by_name, column_data_by_name. rewrite E. reflexivity. Qed.

Lemma mom_anomaly data columns (l : list pair) n :
  (forall c, In c ["fabar"; "oabar"; "foabar"; "ffabar"; "ooabar"] -> ~ In c columns) ->
  Mom data columns true l ssvar_fields n -> Mom data (map anomaly_name columns) true l sal1l2_fields n.
Proof.
  intros N (E & En & Hl & F). split.
  { rewrite (colsum_index data _ columns "total" "total"); [exact E|apply anomaly_total]. }
  split; [exact En|]. split; [exact Hl|]. intros name g H.
  assert (K : exists name', anomaly_name name' = name /\ In (name', g) ssvar_fields /\ ~ In name columns /\
     In (name', anomaly_name name') [("fbar", "fabar"); ("obar", "oabar"); ("fobar", "foabar"); ("ffbar", "ffabar"); ("oobar", "ooabar")]).
  { simpl in H. destruct H as [H|[H|[H|[H|[H|[]]]]]]; injection H as <- <-;
      [exists "fbar"|exists "obar"|exists "fobar"|exists "ffbar"|exists "oobar"];
      (split; [reflexivity|]); (split; [simpl; tauto|]); (split; [apply N; simpl; tauto|simpl; tauto]). }
  destruct K as (name' & <- & Hin & Nin & Hp). destruct (F name' g Hin) as (s & Es & Hs). exists s. split; [|exact Hs].
  rewrite (colsum_index data _ columns (anomaly_name name') name'); [exact Es|apply anomaly_index; assumption].
Qed.

Lemma sq_all_zero {A} (g : A -> Q) l : total_of (fun x => g x * g x) l == 0 <-> forall x, In x l -> g x == 0.
Proof.
  split; [apply total_sq_zero|]. intro H.
  rewrite (total_ext _ (fun _ => 0) l); [rewrite total_const; ring|]. intros x Hx. rewrite (H x Hx). ring.
Qed.
Lemma published_none x r : PublishedR x r -> (r = None <-> x = None).
Proof. unfold PublishedR. destruct x, r; intro; split; intros; try congruence; contradiction. Qed.
Lemma mul_zero_iff a b : a * b == 0 <-> a == 0 \/ b == 0.
Proof. split; [apply Qmult_integral|]. intros [E|E]; rewrite E; ring. Qed.
Lemma Ok_some_inj {A} (a b : A) : Ok (Some a) = Ok (Some b) -> a = b.
Proof. congruence. Qed.

(** The statements of PropertiesAnom.v. *)
Lemma C35_pooling_proof : forall groups data columns,
  Summaries sal1l2_fields columns groups data ->
  Forall (fun '(name, stat, Measure) =>
      exists r, aggregated name stat data columns = Ok r /\ Measure (concat groups) r)
  [("anom_corr", calculate_anom_corr, AnomCorrOf); ("anom_corr_raw", calculate_anom_corr_raw, AnomCorrRawOf);
   ("rmsfa", calculate_rmsfa, RmsfaOf); ("rmsoa", calculate_rmsoa, RmsoaOf)].
Proof.
  intros groups data columns HS. repeat apply Forall_cons; try apply Forall_nil.
  - aggf sal1l2_fields HS ltac:(fun HM => apply (anom_corr_value _ _ _ _ _ _ HM); inl).
  - aggf sal1l2_fields HS ltac:(fun HM => apply (anom_corr_raw_value _ _ _ _ _ _ HM); inl).
  - aggf sal1l2_fields HS ltac:(fun HM => apply (anomaly_rms_value _ _ _ _ _ _ HM tw_exns "ffabar" (fun p => fc p * fc p));
      [inl|apply sq_mean_nonneg; destruct HM as (_ & _ & Hl & _); exact Hl]).
  - aggf sal1l2_fields HS ltac:(fun HM => apply (anomaly_rms_value _ _ _ _ _ _ HM std_exns "ooabar" (fun p => ob p * ob p));
      [inl|apply sq_mean_nonneg; destruct HM as (_ & _ & Hl & _); exact Hl]).
Qed.

Lemma C35_single_line_proof : forall b r columns,
  SummaryRow sal1l2_fields columns b r ->
  Forall (fun '(name, stat, Measure) => exists v, stat [r] columns false = Ok v /\ Measure b v)
  [("anom_corr", calculate_anom_corr, AnomCorrOf); ("anom_corr_raw", calculate_anom_corr_raw, AnomCorrRawOf);
   ("rmsfa", calculate_rmsfa, RmsfaOf); ("rmsoa", calculate_rmsoa, RmsoaOf)].
Proof.
  intros b r columns HS. destruct (mom_row _ _ _ _ HS) as (n & HM). pose proof HM as (_ & _ & Hl & _).
  repeat apply Forall_cons; try apply Forall_nil.
  - apply (anom_corr_value _ _ _ _ _ _ HM); inl.
  - apply (anom_corr_raw_value _ _ _ _ _ _ HM); inl.
  - apply (anomaly_rms_value _ _ _ _ _ _ HM tw_exns "ffabar" (fun p => fc p * fc p)); [inl|apply sq_mean_nonneg; exact Hl].
  - apply (anomaly_rms_value _ _ _ _ _ _ HM std_exns "ooabar" (fun p => ob p * ob p)); [inl|apply sq_mean_nonneg; exact Hl].
Qed.

Lemma C35_scalar_range_proof : forall groups data columns,
  Summaries sal1l2_fields columns groups data ->
  exists c w, aggregated "anom_corr" calculate_anom_corr data columns = Ok c /\
    aggregated "anom_corr_raw" calculate_anom_corr_raw data columns = Ok w /\
    (forall x, c = Some x \/ w = Some x -> -1 <= x <= 1) /\
    (c = None <-> Constant fc (concat groups) \/ Constant ob (concat groups)) /\
    (w = None <-> (forall p, In p (concat groups) -> fc p == 0) \/ (forall p, In p (concat groups) -> ob p == 0)).
Proof.
  intros groups data columns HS. pose proof (C35_pooling_proof groups data columns HS) as F.
  rewrite !Forall_cons_iff in F. destruct F as ((c & Ec & Pc) & (w & Ew & Pw) & _).
  exists c, w. split; [exact Ec|]. split; [exact Ew|]. split; [|split].
  - intros x [-> | ->].
    + apply (published_unit _ _ (pearson_bound fc ob (concat groups)) Pc x eq_refl).
    + apply (published_unit _ _ (uncentred_bound fc ob (concat groups)) Pw x eq_refl).
  - rewrite (published_none _ _ Pc). unfold pearson. rewrite <- !codev_zero_iff, <- mul_zero_iff.
    destruct (Qeq_dec (codev fc fc (concat groups) * codev ob ob (concat groups)) 0); split; intro; try congruence; assumption.
  - rewrite (published_none _ _ Pw). unfold uncentred. cbv zeta. rewrite <- !sq_all_zero, <- mul_zero_iff.
    match goal with |- context [Qeq_dec ?a ?b] => destruct (Qeq_dec a b) end; split; intro; try congruence; assumption.
Qed.

Lemma C35_vector_pooling_proof : forall groups data columns,
  Summaries val1l2_fields columns groups data ->
  exists r, aggregated "val1l2_anom_corr" calculate_val1l2_anom_corr data columns = Ok r /\
    PublishedR (vector_corr (concat groups)) r /\ (forall x, r = Some x -> -1 <= x <= 1).
Proof.
  intros groups data columns HS.
  assert (K : exists r, aggregated "val1l2_anom_corr" calculate_val1l2_anom_corr data columns = Ok r /\
    PublishedR (vector_corr (concat groups)) r).
  { eapply (agg_intro val1l2_fields (fun l r => PublishedR (vector_corr l) r)); [reflexivity|reflexivity|reflexivity|reflexivity|exact HS|].
    intros d n HM. apply (val_corr_value _ _ _ _ _ _ HM); inl. }
  destruct K as (r & E & P). exists r. split; [exact E|]. split; [exact P|].
  apply (published_unit _ _ (vector_corr_bound (concat groups)) P).
Qed.

Lemma C35_vector_uncentred_proof : forall groups data columns,
  Summaries vcnt_anom_fields columns groups data ->
  aggregated_R "vcnt_anom_corr_uncntr" calculate_vcnt_anom_corr_uncntr data columns
    = Ok (vector_uncentred (concat groups)) /\
  (forall x, vector_uncentred (concat groups) = Some x -> (-1 <= x <= 1)%R).
Proof.
  intros groups data columns HS. split; [|apply vector_uncentred_bound].
  unfold aggregated_R, prepare.
  change (assoc "vcnt_anom_corr_uncntr" STATISTIC_TO_FIELDS) with (Some ["uvffabar"; "uvfoabar"; "uvooabar"]). cbv iota.
  destruct (mom_agg vcnt_anom_fields columns groups data ["uvffabar"; "uvfoabar"; "uvooabar"]) as (d & n & Ed & HM);
    [apply nodupb_ok; reflexivity|apply subsetb_ok; reflexivity|apply nodupb_ok; reflexivity|exact HS|].
  rewrite Ed. cbn [bind].
  destruct (mom_sum _ _ _ _ _ "uvffabar" dot_ff HM) as (ff & Eff & Hff); [inl|].
  destruct (mom_sum _ _ _ _ _ "uvooabar" dot_oo HM) as (oo & Eoo & Hoo); [inl|].
  destruct (mom_sum _ _ _ _ _ "uvfoabar" dot_fo HM) as (fo & Efo & Hfo); [inl|].
  unfold calculate_vcnt_anom_corr_uncntr. rewrite Eff. cbn [bind]. rewrite Eoo. cbn [bind]. rewrite Efo. cbn [bind pybin].
  set (l := concat groups) in *. destruct (dot_nonneg l) as [N1 N2]. pose proof (Qmult_le_0_compat _ _ N1 N2) as NN.
  pose proof (vector_uncentred_bound l) as VB. unfold vector_uncentred in *. cbv zeta in *.
  assert (CV : ff * oo == total_of dot_ff l * total_of dot_oo l) by (rewrite Hff, Hoo; reflexivity).
  set (W := total_of dot_ff l * total_of dot_oo l) in *. set (v := ff * oo) in *.
  unfold np_sqrt, toR, rdiv. cbn [bind]. rewrite (proj2 (Qlt_bool_false v 0)) by qlra. cbn [bind].
  rewrite (Q2R_eq _ _ CV), (Q2R_eq _ _ Hfo). destruct (Qeq_dec W 0) as [Z|NZ].
  - rewrite (Q2R_eq _ _ Z), Q2R_0, sqrt_0. destruct (Req_EM_T 0 0); [reflexivity|congruence].
  - specialize (VB _ eq_refl). assert (PW : 0 < W) by qlra.
    assert (PR : (0 < Q2R W)%R) by (rewrite <- Q2R_0; apply Q2R_lt; exact PW).
    pose proof (sqrt_lt_R0 _ PR). destruct (Req_EM_T (sqrt (Q2R W)) 0) as [K|_]; [lra|].
    rewrite clamp_inside by exact VB. reflexivity.
Qed.

Lemma C35_clamped_proof : forall data columns agg,
  (exists r, calculate_anom_corr_raw data columns agg = Ok r /\ forall x, r = Some x -> -1 <= x <= 1) /\
  (exists r, calculate_vcnt_anom_corr data columns agg = Ok r /\ forall x, r = Some x -> (-1 <= x <= 1)%R) /\
  (exists r, calculate_vcnt_anom_corr_uncntr data columns agg = Ok r /\
     forall x, r = Some x -> (-1 <= x <= 1)%R).
Proof.
  intros data columns agg. split; [|split].
  - destruct (safe_nil_ok _ (anom_corr_raw_ok data columns agg)) as (r & E). exists r. split; [exact E|].
    intros x ->. unfold calculate_anom_corr_raw in E. apply catch_some in E. repeat unbind E.
    match type of E with match ?v with Some _ => _ | None => _ end = _ => destruct v as [q|]; [|discriminate E] end.
    destruct (Qlt_bool q 0); [discriminate E|]. unfold rround in E. unbind E.
    match type of E with match ?v with Some _ => _ | None => _ end = _ => destruct v as [c|]; [|discriminate E] end.
    match goal with H : clamp_unit _ = Ok (Some c) |- _ => apply clamp_range in H; rename H into B end.
    apply Ok_some_inj in E. subst x.
    apply rhuR_interval; [apply multiple_m1|apply multiple_1|rewrite Q2R_m1, Q2R_1; exact B].
  - destruct (safe_nil_ok _ (vcnt_anom_corr_ok data columns agg)) as (r & E). exists r. split; [exact E|].
    intros x ->. unfold calculate_vcnt_anom_corr in E. apply catch_some in E. repeat unbind E. apply clamp_range in E. exact E.
  - destruct (safe_nil_ok _ (vcnt_anom_corr_uncntr_ok data columns agg)) as (r & E). exists r. split; [exact E|].
    intros x ->. unfold calculate_vcnt_anom_corr_uncntr in E. apply catch_some in E. repeat unbind E. apply clamp_range in E. exact E.
Qed.

Lemma C35_upper_only_proof : forall data columns agg,
  exists r, calculate_anom_corr data columns agg = Ok r /\ forall x, r = Some x -> x <= 1.
Proof.
  intros data columns agg.
  destruct (safe_nil_ok _ (anom_corr_ok data columns agg)) as (r & E). exists r. split; [exact E|].
  intros x ->. unfold calculate_anom_corr in E. apply catch_some in E. repeat unbind E.
  match type of E with match ?v with Some _ => _ | None => _ end = _ => destruct v as [q|]; [|discriminate E] end.
  destruct (Qle_bool q 0); [discriminate E|]. unbind E.
  match type of E with match ?v with Some _ => _ | None => _ end = _ => destruct v as [c|]; [|discriminate E] end.
  destruct (Rlt_dec 1 c) as [K|K]; [discriminate E|]. apply Ok_some_inj in E. subst x.
  apply Rnot_lt_le in K. rewrite <- (rhu_fix 1 7 (multiple_1 7)), <- rhuR_Q. apply rhuR_mono. rewrite Q2R_1. exact K.
Qed.

Lemma C35_not_clamped_refuted_proof :
  (exists data columns x, calculate_anom_corr data columns false = Ok (Some x) /\ x < -1) /\
  (exists data columns x, calculate_val1l2_anom_corr data columns false = Ok (Some x) /\ 1 < x).
Proof.
  split.
  - exists [[CNum 1; CNum 1; CNum 0; CNum 1; CNum 0; CNum (-2)]], ["total"; "ffabar"; "fabar"; "ooabar"; "oabar"; "foabar"],
      (-20000000 # 10000000). split; [|reflexivity].
    unfold calculate_anom_corr.
    set (c1 := get_total _ _ _). vm_compute in c1. unfold c1. clear c1. cbn [bind].
    repeat (set (c1 := _ [//] _); vm_compute in c1; unfold c1; clear c1; cbn [bind]).
    cbn [bind pybin pysq]. unfold np_sqrt, toR, rdiv. cbn [bind].
    match goal with |- context [Qle_bool ?a 0] => replace (Qle_bool a 0) with false by (vm_compute; reflexivity) end.
    match goal with |- context [Qlt_bool ?a 0] => replace (Qlt_bool a 0) with false by (vm_compute; reflexivity) end.
    cbn [bind].
    match goal with |- context [sqrt (Q2R ?a)] => rewrite (Q2R_eq a 1) by (vm_compute; reflexivity) end.
    rewrite Q2R_1, sqrt_1. destruct (Req_EM_T 1 0) as [K|_]; [lra|]. cbn [bind].
    match goal with |- context [Q2R ?a] => rewrite (Q2R_eq a (-2)) by (vm_compute; reflexivity) end.
    replace (Q2R (-2) / 1)%R with (Q2R (-2)) by field.
    destruct (Rlt_dec 1 (Q2R (-2))) as [K|_]; [exfalso; revert K; unfold Q2R; simpl; lra|].
    simpl. rewrite rhuR_Q. vm_compute. reflexivity.
  - exists [[CNum 1; CNum 0; CNum 0; CNum 0; CNum 0; CNum 2; CNum 1; CNum 1]],
      ["total"; "ufabar"; "vfabar"; "uoabar"; "voabar"; "uvfoabar"; "uvffabar"; "uvooabar"],
      (20000000 # 10000000). split; [|reflexivity].
    unfold calculate_val1l2_anom_corr.
    set (c1 := get_total _ _ _). vm_compute in c1. unfold c1. clear c1. cbn [bind].
    repeat (set (c1 := _ [//] _); vm_compute in c1; unfold c1; clear c1; cbn [bind]).
    unfold calc_wind_corr, np_sqrt, pylit, rdiv, rbin. cbn [bind].
    repeat match goal with |- context [Qlt_bool ?a 0] => replace (Qlt_bool a 0) with false by (vm_compute; reflexivity) end.
    cbn [bind].
    repeat match goal with |- context [sqrt (Q2R ?a)] => rewrite (Q2R_eq a 1) by (vm_compute; reflexivity); rewrite Q2R_1, sqrt_1 end.
    destruct (Req_EM_T (1 * 1) 0) as [K|_]; [lra|].
    match goal with |- context [Q2R ?a] => rewrite (Q2R_eq a 2) by (vm_compute; reflexivity) end.
    replace (Q2R 2 / (1 * 1))%R with (Q2R 2) by field.
    simpl. rewrite rhuR_Q. vm_compute. reflexivity.
Qed.

Lemma C35_vcnt_centred_refuted_proof :
  vector_corr turned_cases = Some 0%R /\
  (forall p, In p turned_cases -> f_speed p * f_speed p == dot_ff p /\ o_speed p * o_speed p == dot_oo p) /\
  aggregated_R "vcnt_anom_corr" calculate_vcnt_anom_corr
    [line_of vcnt_anom_fields turned_cases] (line_columns vcnt_anom_fields) = Ok (Some (-1)%R).
Proof.
  split; [|split].
  - unfold vector_corr. destruct (Qeq_dec _ 0) as [K|K]; [exfalso; vm_compute in K; discriminate K|].
    f_equal. rewrite (Q2R_eq (vcodev_fo turned_cases) 0) by (vm_compute; reflexivity). rewrite Q2R_0. unfold Rdiv. apply Rmult_0_l.
  - intros p [<-|[<-|[]]]; split; reflexivity.
  - unfold aggregated_R. set (d := prepare _ _ _). vm_compute in d. unfold d. clear d. cbn [bind].
    unfold calculate_vcnt_anom_corr.
    set (c1 := get_total _ _ _). vm_compute in c1. unfold c1. clear c1. cbn [bind].
    repeat (set (c1 := colsum _ _ _); vm_compute in c1; unfold c1; clear c1; cbn [bind]).
    cbn [bind pybin]. unfold np_sqrt, toR, rdiv. cbn [bind].
    match goal with |- context [Qlt_bool ?a 0] => replace (Qlt_bool a 0) with false by (vm_compute; reflexivity) end.
    cbn [bind].
    match goal with |- context [sqrt (Q2R ?a)] => rewrite (Q2R_eq a (25 * 25)) by (vm_compute; reflexivity) end.
    rewrite Q2R_mult, sqrt_square by (unfold Q2R; simpl; lra).
    destruct (Req_EM_T (Q2R 25) 0) as [K|_]; [exfalso; revert K; unfold Q2R; simpl; lra|].
    match goal with |- context [(Q2R ?a / _)%R] => rewrite (Q2R_eq a (-225)) by (vm_compute; reflexivity) end.
    replace (Q2R (-225) / Q2R 25)%R with (-9)%R by (unfold Q2R; simpl; field).
    unfold clamp_unit. cbn [bind]. destruct (Rlt_dec 1 (-9)); [lra|]. destruct (Rlt_dec (-9) (-1)); [reflexivity|lra].
Qed.

Lemma C35_case_proof :
  Summaries sal1l2_fields (line_columns sal1l2_fields) anom_groups (map (line_of sal1l2_fields) anom_groups) /\
  Summaries val1l2_fields (line_columns val1l2_fields) wind_groups (map (line_of val1l2_fields) wind_groups) /\
  Summaries vcnt_anom_fields (line_columns vcnt_anom_fields) wind_groups
    (map (line_of vcnt_anom_fields) wind_groups) /\
  SummaryRow sal1l2_fields (line_columns sal1l2_fields) [(1, 2); (3, 5)] (line_of sal1l2_fields [(1, 2); (3, 5)]).
Proof.
  split; [|split; [|split]]; try (apply lines_of; [reflexivity|discriminate|reflexivity]).
  destruct (lines_of sal1l2_fields [[(1, 2); (3, 5)]]) as [_ F]; [reflexivity|discriminate|reflexivity|].
  inversion F; subst. assumption.
Qed.

Lemma C43_pooling_proof : forall groups data columns,
  Summaries ssvar_fields (counted_by_bin_n columns) groups data ->
  Forall (fun '(name, stat, Measure) =>
      exists r, aggregated_ssvar name stat data columns = Ok r /\ Measure (concat groups) r)
  [("ssvar_fbar", calculate_ssvar_fbar, FbarOf); ("ssvar_obar", calculate_ssvar_obar, ObarOf);
   ("ssvar_fstdev", calculate_ssvar_fstdev, FstdevOf); ("ssvar_ostdev", calculate_ssvar_ostdev, OstdevOf);
   ("ssvar_pr_corr", calculate_ssvar_pr_corr, CorrOf); ("ssvar_me", calculate_ssvar_me, MeOf);
   ("ssvar_me2", calculate_ssvar_me2, Me2Of); ("ssvar_mse", calculate_ssvar_mse, MseOf);
   ("ssvar_rmse", calculate_ssvar_rmse, RmseOf); ("ssvar_bcmse", calculate_ssvar_bcmse, BcmseOf);
   ("ssvar_bcrmse", calculate_ssvar_bcrmse, BcrmseOf); ("ssvar_msess", calculate_ssvar_msess, MsessOf)].
Proof.
  intros groups data columns HS. repeat apply Forall_cons; try apply Forall_nil.
  - ssv HS ltac:(fun HM => apply (mean_stat_value _ _ _ _ _ _ HM "fbar" fc); inl).
  - ssv HS ltac:(fun HM => apply (mean_stat_value _ _ _ _ _ _ HM "obar" ob); inl).
  - ssv HS ltac:(fun HM => apply (stdev_stat_value _ _ _ _ _ _ HM "fbar" "ffbar" fc); inl).
  - ssv HS ltac:(fun HM => apply (stdev_stat_value _ _ _ _ _ _ HM "obar" "oobar" ob); inl).
  - ssv HS ltac:(fun HM => apply (pr_corr_value _ _ _ _ _ _ HM); inl).
  - ssv HS ltac:(fun HM => apply some_published; apply (me_value _ _ _ _ _ _ HM); inl).
  - ssv HS ltac:(fun HM => apply (me2_value _ _ _ _ _ _ HM); inl).
  - ssv HS ltac:(fun HM => apply some_published; apply (mse_value _ _ _ _ _ _ HM); inl).
  - ssv HS ltac:(fun HM => let r := fresh in destruct (rmse_value _ _ _ _ _ _ HM) as (r & ? & ? & _); [inl|inl|inl|]; exists (Some r); split; assumption).
  - ssv HS ltac:(fun HM => apply (bcmse_packaged _ _ _ _ _ _ HM); inl).
  - ssv HS ltac:(fun HM => apply (bcrmse_packaged _ _ _ _ _ _ HM); inl).
  - ssv HS ltac:(fun HM => apply (msess_value _ _ _ _ _ _ HM); inl).
Qed.

Lemma C43_anomaly_correlation_proof : forall groups data columns,
  Summaries ssvar_fields (counted_by_bin_n columns) groups data ->
  (forall c, In c ["fabar"; "oabar"; "foabar"; "ffabar"; "ooabar"] -> ~ In c columns) ->
  exists r, aggregated_ssvar "ssvar_anom_corr" calculate_ssvar_anom_corr data columns = Ok r /\
    CorrOf (concat groups) r.
Proof.
  intros groups data columns HS N.
  ssv HS ltac:(fun HM => idtac).
  assert (N' : forall c, In c ["fabar"; "oabar"; "foabar"; "ffabar"; "ooabar"] -> ~ In c (counted_by_bin_n columns)).
  { intros c Hc K. unfold counted_by_bin_n in K. apply in_map_iff in K. destruct K as (x & E & Hx).
    destruct (String.eqb_spec x "total"); [subst; simpl in Hc; destruct Hc as [K|[K|[K|[K|[K|[]]]]]]; discriminate K|].
    destruct (String.eqb_spec x "bin_n"); [subst; simpl in Hc; destruct Hc as [K|[K|[K|[K|[K|[]]]]]]; discriminate K|].
    subst x. exact (N c Hc Hx). }
  pose proof (mom_anomaly _ _ _ _ N' HM) as HM'.
  unfold calculate_ssvar_anom_corr. apply (anom_corr_value _ _ _ _ _ _ HM'); inl.
Qed.

Lemma C43_spread_proof : forall groups data columns,
  Summaries spread_fields (counted_by_bin_n columns) groups data ->
  (forall v, In v (concat groups) -> 0 <= v) ->
  exists r, aggregated_ssvar "ssvar_spread" calculate_ssvar_spread data columns = Ok (Some r) /\
    SpreadOf (concat groups) (Some r) /\ 0 <= r.
Proof.
  intros groups data columns HS Nn.
  assert (Hl : concat groups <> []) by (eapply concat_ne; exact HS).
  assert (K : exists r, aggregated_ssvar "ssvar_spread" calculate_ssvar_spread data columns = Ok r /\
     (exists w, r = Some w /\ 0 <= w) /\ SpreadOf (concat groups) r).
  { eapply (ssvar_intro spread_fields (fun l r => (exists w, r = Some w /\ 0 <= w) /\ SpreadOf l r));
      [reflexivity|reflexivity|reflexivity|reflexivity|exact HS|]. intros d n HM.
    destruct (mom_mean _ _ _ _ _ _ HM "var_mean" (fun v => v)) as (q & E & Hq); [inl|].
    assert (P : 0 <= q) by (rewrite Hq; apply mean_nonneg; assumption).
    unfold calculate_ssvar_spread. rewrite (mom_get_total _ _ _ _ _ _ HM). cbn [bind]. rewrite E.
    unfold np_sqrt. cbn [bind]. rewrite (proj2 (Qlt_bool_false q 0) P). simpl. eexists. split; [reflexivity|]. split.
    - eexists. split; [reflexivity|]. rewrite <- (rhu_fix 0 7 (multiple_0 7)), <- rhuR_Q. apply rhuR_mono. rewrite Q2R_0. apply sqrt_pos.
    - unfold SpreadOf. rewrite <- (Q2R_eq _ _ Hq). apply rhuR_nearest. }
  destruct K as (r & E & (w & -> & Hw) & S). exists w. auto.
Qed.

Lemma C43_estdev_refuted_proof : exists groups data columns r,
  Summaries ssvar_fields (counted_by_bin_n columns) groups data /\
  aggregated_ssvar "ssvar_estdev" calculate_ssvar_estdev data columns = Ok r /\ ~ EstdevOf (concat groups) r.
Proof.
  exists [est_pairs], [line_of ssvar_fields est_pairs], ["bin_n"; "fbar"; "obar"; "fobar"; "ffbar"; "oobar"], (Some (20000000 # 10000000)).
  split; [apply (lines_of ssvar_fields [est_pairs]); [reflexivity|discriminate|reflexivity]|]. split.
  - unfold aggregated_ssvar. set (d := prepare_ssvar _ _ _). vm_compute in d.
    unfold d. cbn [bind fst snd]. clear d. unfold calculate_ssvar_estdev, calculate_estdev.
    set (c1 := colsum _ _ "total"). vm_compute in c1. unfold c1. clear c1. cbn [bind].
    set (c1 := calculate_me _ _ _). vm_compute in c1. unfold c1. clear c1. cbn [bind].
    set (c1 := calculate_mse _ _ _). vm_compute in c1. unfold c1. clear c1. cbn [bind pybin].
    unfold calculate_stddev, pylit, npdiv. cbn [bind].
    match goal with |- context [Qlt_bool ?a 1] => replace (Qlt_bool a 1) with false by (vm_compute; reflexivity) end.
    match goal with |- context [Qeq_bool ?a 0] => replace (Qeq_bool a 0) with false by (vm_compute; reflexivity) end.
    cbn [bind]. unfold np_sqrt. cbn [bind].
    repeat match goal with |- context [Qlt_bool ?a 0] => replace (Qlt_bool a 0) with false by (vm_compute; reflexivity) end.
    match goal with |- context [Q2R ?a] => rewrite (Q2R_eq a 4) by (vm_compute; reflexivity) end.
    rewrite sqrt4. simpl. f_equal. f_equal.
    replace 2%R with (Q2R 2) by (unfold Q2R; simpl; field). rewrite rhuR_Q. vm_compute. reflexivity.
  - unfold EstdevOf, sample_stdev. destruct (Qlt_le_dec 1 (count (concat [est_pairs]))) as [_|K]; [|vm_compute in K; exfalso; apply K; reflexivity].
    simpl concat. simpl PublishedR.
    match goal with |- context [Q2R (?a / ?b)] => rewrite (Q2R_eq (a / b) 1) by (vm_compute; reflexivity) end.
    rewrite Q2R_1, sqrt_1, <- Q2R_1. rewrite nearestR_Q. intros (_ & U & _).
    vm_compute in U. apply U. reflexivity.
Qed.

Lemma C43_no_bin_count_proof : forall name stat data columns,
  ~ In "bin_n" columns -> In name ["ssvar_fbar"; "ssvar_rmse"; "ssvar_spread"] ->
  aggregated_ssvar name stat data columns = Err KeyError.
Proof.
  intros name stat data columns N H.
  assert (T : index_of "total" (map ssvar_rename columns) = None).
  { apply index_of_None. intro K. apply in_map_iff in K. destruct K as (x & E & Hx). unfold ssvar_rename in E.
    destruct (String.eqb_spec x "total"); [discriminate E|]. destruct (String.eqb_spec x "bin_n"); [subst; exact (N Hx)|congruence]. }
  unfold aggregated_ssvar, prepare_ssvar.
  assert (K : exists c rest, assoc name STATISTIC_TO_FIELDS = Some (c :: rest)).
  { simpl in H. destruct H as [<-|[<-|[<-|[]]]]; eexists; eexists; reflexivity. }
  destruct K as (c & rest & ->). cbn [scale_columns]. unfold scale_column, scale_column_by. rewrite T.
  destruct (index_of c (map ssvar_rename columns)); reflexivity.
Qed.

Lemma C43_case_proof : let columns := ["bin_n"; "fbar"; "obar"; "fobar"; "ffbar"; "oobar"] in
  Summaries ssvar_fields (counted_by_bin_n columns) anom_groups (map (line_of ssvar_fields) anom_groups) /\
  (forall c, In c ["fabar"; "oabar"; "foabar"; "ffabar"; "ooabar"] -> ~ In c columns) /\
  Summaries spread_fields (counted_by_bin_n ["bin_n"; "var_mean"]) [[1; 4]; [2]]
    (map (line_of spread_fields) [[1; 4]; [2]]).
Proof.
  cbv zeta. split; [|split].
  - apply (lines_of ssvar_fields anom_groups); [reflexivity|discriminate|reflexivity].
  - intros c H K. simpl in H, K. repeat (destruct H as [<-|H]; [repeat (destruct K as [K|K]; [discriminate K|]); exact K|]). exact H.
  - apply (lines_of spread_fields [[1; 4]; [2]]); [reflexivity|discriminate|reflexivity].
Qed.

