From Verif Require Import PyBase ColumnModel BaseSpec BaseProofs AggModel AggSpec AggProofs MomentProofs
  RealBase RealSpec RealProofs Sl1l2Model Sl1l2Spec Sl1l2Proofs CtcProofs Sl1l2Proofs2 SafeProofs Sl1l2Safe
  EnsModel AnomModel AnomSpec AnomProofs WindModel WindSpec.
From Coq Require Import Reals Qreals Qabs Lra.
Open Scope string_scope.
Open Scope Q_scope.

(** Angles. *)
Section Angles.
Open Scope R_scope.
Lemma root_ratio y x : 0 < x -> sqrt (1 + (y / x)²) = sqrt (y * y + x * x) / x.
Proof.
  intro P. replace (1 + (y / x)²) with ((y * y + x * x) / (x * x)) by (unfold Rsqr; field; lra).
  rewrite sqrt_div_alt by nra. rewrite sqrt_square by lra. reflexivity.
Qed.
Lemma length_pos y x : y <> 0 \/ x <> 0 -> 0 < sqrt (y * y + x * x).
Proof.
  intro H. apply sqrt_lt_R0. pose proof (Rle_0_sqr y). pose proof (Rle_0_sqr x). unfold Rsqr in *.
  destruct H as [H|H].
  - assert (0 < y * y) by (destruct (Rtotal_order y 0) as [K|[K|K]]; [|contradiction|]; nra). lra.
  - assert (0 < x * x) by (destruct (Rtotal_order x 0) as [K|[K|K]]; [|contradiction|]; nra). lra.
Qed.
Lemma atan_right y x : 0 < x ->
  sqrt (y * y + x * x) * sin (atan (y / x)) = y /\ sqrt (y * y + x * x) * cos (atan (y / x)) = x.
Proof.
  intro P. rewrite sin_atan, cos_atan, root_ratio by exact P.
  assert (L : 0 < sqrt (y * y + x * x)) by (apply length_pos; right; lra).
  split; field; lra.
Qed.
Lemma atan_left y x : x < 0 ->
  sqrt (y * y + x * x) * sin (atan (y / x)) = - y /\ sqrt (y * y + x * x) * cos (atan (y / x)) = - x.
Proof.
  intro P. replace (y / x) with ((- y) / (- x)) by (field; lra).
  replace (y * y + x * x) with ((- y) * (- y) + (- x) * (- x)) by ring.
  apply atan_right. lra.
Qed.
Lemma atan_sign_neg z : z < 0 -> atan z < 0.
Proof. intro H. rewrite <- atan_0. apply atan_increasing. exact H. Qed.
Lemma atan_sign_pos z : 0 < z -> 0 < atan z.
Proof. intro H. rewrite <- atan_0. apply atan_increasing. exact H. Qed.
Lemma atan_small z : 0 < z -> 0 < atan z < z.
Proof.
  intro P. destruct (MVT_cor2 atan (fun x => / (1 + x ^ 2)) 0 z P) as (c & E & Hc).
  { intros c _. apply derivable_pt_lim_atan. }
  rewrite atan_0 in E. split; [apply atan_sign_pos; exact P|].
  assert (0 < c ^ 2) by (simpl; nra).
  assert (/ (1 + c ^ 2) < 1). { rewrite <- Rinv_1. apply Rinv_lt_contravar; lra. }
  nra.
Qed.
End Angles.

Lemma Q2R_sq2 y x : Q2R (y * y + x * x) = (Q2R y * Q2R y + Q2R x * Q2R x)%R.
Proof. rewrite Q2R_plus, !Q2R_mult. reflexivity. Qed.
Lemma Q2R_pos x : 0 < x <-> (0 < Q2R x)%R.
Proof. rewrite <- Q2R_0. symmetry. apply Q2R_lt. Qed.
Lemma Q2R_neg x : x < 0 <-> (Q2R x < 0)%R.
Proof. rewrite <- Q2R_0. symmetry. apply Q2R_lt. Qed.

Lemma div_neg y x : (0 < y)%R -> (x < 0)%R -> (y / x < 0)%R.
Proof. intros. unfold Rdiv. pose proof (Rinv_lt_0_compat x H0). nra. Qed.
Lemma div_pos y x : (y < 0)%R -> (x < 0)%R -> (0 < y / x)%R.
Proof. intros. unfold Rdiv. pose proof (Rinv_lt_0_compat x H0). nra. Qed.

Lemma arctan2_bearing nz y x : ~ (y == 0 /\ x == 0) -> BearingOf y x (np_arctan2 nz y x).
Proof.
  intro N. unfold BearingOf, vlength, np_arctan2. rewrite Q2R_sq2.
  pose proof PI_RGT_0 as PP.
  destruct (Qlt_bool 0 x) eqn:B1; Qbool.
  - apply Q2R_pos in B1. pose proof (atan_bound (Q2R y / Q2R x)) as AB.
    destruct (atan_right (Q2R y) (Q2R x) B1) as [E1 E2]. split; [lra|]. split; [exact (eq_sym E1)|exact (eq_sym E2)].
  - destruct (Qlt_bool x 0) eqn:B2; Qbool.
    + apply Q2R_neg in B2. pose proof (atan_bound (Q2R y / Q2R x)) as AB.
      destruct (atan_left (Q2R y) (Q2R x) B2) as [E1 E2].
      destruct (Qlt_bool 0 y) eqn:B3; Qbool.
      * apply Q2R_pos in B3. pose proof (atan_sign_neg _ (div_neg _ _ B3 B2)).
        rewrite neg_sin, neg_cos. split; [lra|]. split; lra.
      * destruct (Qlt_bool y 0) eqn:B4; Qbool.
        -- apply Q2R_neg in B4. pose proof (atan_sign_pos _ (div_pos _ _ B4 B2)).
           replace (atan (Q2R y / Q2R x) - PI)%R with (- (PI - atan (Q2R y / Q2R x)))%R by ring.
           rewrite sin_neg, cos_neg, sin_PI_x.
           replace (PI - atan (Q2R y / Q2R x))%R with (- atan (Q2R y / Q2R x) + PI)%R by ring.
           rewrite neg_cos, cos_neg. split; [lra|]. split; lra.
        -- assert (Y : y == 0) by qlra. rewrite (Q2R_eq _ _ Y), Q2R_0.
           replace (0 * 0 + Q2R x * Q2R x)%R with ((- Q2R x) * (- Q2R x))%R by ring. rewrite sqrt_square by lra.
           destruct nz.
           ++ rewrite sin_neg, cos_neg, sin_PI, cos_PI. split; [lra|]. split; lra.
           ++ rewrite sin_PI, cos_PI. split; [lra|]. split; lra.
    + assert (X : x == 0) by qlra. rewrite (Q2R_eq _ _ X), Q2R_0.
      replace (Q2R y * Q2R y + 0 * 0)%R with (Q2R y * Q2R y)%R by ring.
      destruct (Qlt_bool 0 y) eqn:B3; Qbool.
      * apply Q2R_pos in B3. rewrite sqrt_square by lra. rewrite sin_PI2, cos_PI2. split; [lra|]. split; lra.
      * destruct (Qlt_bool y 0) eqn:B4; Qbool.
        -- apply Q2R_neg in B4. replace (Q2R y * Q2R y)%R with ((- Q2R y) * (- Q2R y))%R by ring. rewrite sqrt_square by lra.
           replace (- PI / 2)%R with (- (PI / 2))%R by field.
           rewrite sin_neg, cos_neg, sin_PI2, cos_PI2. split; [lra|]. split; lra.
        -- exfalso. apply N. split; qlra.
Qed.

Lemma wrap_reported a : (- PI <= a <= PI)%R -> (a - 360 * IZR (Int_part (a / 360)))%R = reported a.
Proof.
  intro H. pose proof PI_4. unfold reported. destruct (Rlt_dec a 0) as [K|K].
  - rewrite (Int_part_unique (a / 360) (-1)); lra.
  - rewrite (Int_part_unique (a / 360) 0); lra.
Qed.
Lemma reported_range a : (- PI <= a <= PI)%R -> (0 <= reported a <= 4 \/ 356 <= reported a < 360)%R.
Proof. intro H. pose proof PI_4. unfold reported. destruct (Rlt_dec a 0); lra. Qed.

Lemma calm_dec u v : {Calm u v} + {~ Calm u v}.
Proof.
  unfold Calm. destruct (Qlt_le_dec (- (1 # 100000)) u); [|right; intros [[? ?] ?]; qlra].
  destruct (Qlt_le_dec u (1 # 100000)); [|right; intros [[? ?] ?]; qlra].
  destruct (Qlt_le_dec (- (1 # 100000)) v); [|right; intros [? [? ?]]; qlra].
  destruct (Qlt_le_dec v (1 # 100000)); [|right; intros [? [? ?]]; qlra].
  left; repeat split; assumption.
Qed.
Lemma small_iff u : Qlt_bool (Qabs u) tolerance = true <-> - (1 # 100000) < u < 1 # 100000.
Proof.
  rewrite Qlt_bool_iff. unfold tolerance. rewrite Qabs_Qlt_condition. reflexivity.
Qed.
Lemma direction_value nz u v :
  (Calm u v -> calc_direction nz u v = None) /\
  (~ Calm u v -> exists a, BearingOf u v a /\ calc_direction nz u v = Some (reported a)).
Proof.
  unfold calc_direction.
  destruct (Qlt_bool (Qabs u) tolerance && Qlt_bool (Qabs v) tolerance) eqn:B.
  - apply andb_true_iff in B. destruct B as [B1 B2]. apply small_iff in B1. apply small_iff in B2.
    split; [reflexivity|]. intro N. exfalso. apply N. split; assumption.
  - split.
    + intros [C1 C2]. apply small_iff in C1. apply small_iff in C2. rewrite C1, C2 in B. discriminate B.
    + intro N. exists (np_arctan2 nz u v).
      assert (BR : BearingOf u v (np_arctan2 nz u v)).
      { apply arctan2_bearing. intros [E1 E2]. apply N. unfold Calm. rewrite E1, E2. repeat split; reflexivity. }
      split; [exact BR|]. f_equal. apply wrap_reported. apply BR.
Qed.

(** Rounded directions. *)
Lemma direction_published nz u v x : rround (Ok (calc_direction nz u v)) = Ok (Some x) ->
  0 <= x <= 360 /\ (x <= 4 \/ 356 <= x).
Proof.
  intro E. destruct (direction_value nz u v) as [C1 C2]. destruct (calm_dec u v) as [C|C].
  - rewrite (C1 C) in E. discriminate E.
  - destruct (C2 C) as (a & BR & Ed). rewrite Ed in E. cbn in E. apply Ok_some_inj in E. subst x.
    destruct BR as (R & _). pose proof (reported_range a R) as RR.
    assert (M : forall z, MultipleOf 7 (inject_Z z)) by (intro z; apply multiple_int).
    assert (I : forall z, Q2R (inject_Z z) = IZR z) by apply Q2R_inject.
    assert (K1 : inject_Z 0 <= round_half_up_R (reported a) 7 <= inject_Z 360).
    { apply rhuR_interval; try apply M. rewrite !I. lra. }
    split; [exact K1|]. destruct RR as [RR|RR]; [left|right].
    + apply (rhuR_interval (inject_Z 0) (inject_Z 4)); try apply M. rewrite !I. lra.
    + apply (rhuR_interval (inject_Z 356) (inject_Z 360)); try apply M. rewrite !I. lra.
Qed.

(** Values on a table with known means. *)
Lemma nearest_le_root (x : R) w : NearestR 7 x w -> (0 <= x)%R -> 0 <= w.
Proof.
  intros N H. rewrite (nearestR_unique _ _ _ N (rhuR_nearest x 7)).
  rewrite <- (rhu_fix 0 7 (multiple_0 7)), <- rhuR_Q. apply rhuR_mono. rewrite Q2R_0. exact H.
Qed.
Lemma sum_sq_nonneg u v : 0 <= u * u + v * v.
Proof. pose proof (Qsq_nonneg u). pose proof (Qsq_nonneg v). qlra. Qed.
Lemma calc_speed_value u v : calc_speed u v = Ok (Some (vlength u v)).
Proof.
  unfold calc_speed, np_sqrt, pylit, vlength. cbn [bind].
  rewrite (proj2 (Qlt_bool_false _ 0) (sum_sq_nonneg u v)). reflexivity.
Qed.
Lemma vlength_compat u v u' v' : u == u' -> v == v' -> vlength u v = vlength u' v'.
Proof. intros E1 E2. unfold vlength. f_equal. apply Q2R_eq. rewrite E1, E2. reflexivity. Qed.
Lemma bearing_compat u v u' v' a : u == u' -> v == v' -> BearingOf u v a -> BearingOf u' v' a.
Proof.
  intros E1 E2 (R & A & B). unfold BearingOf. rewrite <- (vlength_compat u v u' v' E1 E2), <- (Q2R_eq _ _ E1), <- (Q2R_eq _ _ E2).
  split; [exact R|]. split; assumption.
Qed.
Lemma calm_opp u v : Calm (- u) (- v) -> Calm u v.
Proof. unfold Calm. intros [[? ?] [? ?]]; split; split; qlra. Qed.
Lemma opp_calm u v : Calm u v -> Calm (- u) (- v).
Proof. unfold Calm. intros [[? ?] [? ?]]; split; split; qlra. Qed.
Lemma calm_compat u v u' v' : u == u' -> v == v' -> (Calm u v <-> Calm u' v').
Proof. intros E1 E2. unfold Calm. rewrite E1, E2. reflexivity. Qed.
Lemma direction_rounded nz u v u' v' : u == u' -> v == v' ->
  exists r, catch std_exns (rround (Ok (calc_direction nz (- u) (- v)))) None = Ok r /\ DirectionOf u' v' r.
Proof.
  intros E1 E2. destruct (direction_value nz (- u) (- v)) as [C1 C2]. destruct (calm_dec (- u) (- v)) as [C|C].
  - rewrite (C1 C). exists None. split; [reflexivity|].
    apply calm_opp in C. apply (calm_compat _ _ _ _ E1 E2) in C. split; [reflexivity|]. intro N. contradiction.
  - destruct (C2 C) as (a & BR & Ed). rewrite Ed. cbn. eexists. split; [reflexivity|].
    split.
    + intro K. exfalso. apply C. apply opp_calm. apply (calm_compat _ _ _ _ E1 E2). exact K.
    + intros _. exists a. split; [|apply rhuR_nearest].
      apply (bearing_compat (- u) (- v)); [rewrite E1; reflexivity|rewrite E2; reflexivity|exact BR].
Qed.

Lemma multiple_minus d f o : MultipleOf d f -> MultipleOf d o -> MultipleOf d (f - o).
Proof.
  intros [a Ha] [b Hb]. exists (a - b)%Z. unfold Zminus. rewrite inject_Z_plus, inject_Z_opp, <- Ha, <- Hb. ring.
Qed.

Section Values.
Variables (data : tdata) (columns : list string) (agg : bool) (l : list vpair)
  (names : list (string * (vpair -> Q))) (n : Q).
Hypothesis HM : Mom data columns agg l names n.
Ltac mm H q E Eq := destruct (mom_mean _ _ _ _ _ _ HM _ _ H) as (q & E & Eq).
Ltac gt := rewrite (mom_get_total _ _ _ _ _ _ HM); cbn [bind].

Lemma l_ne : l <> [].
Proof. destruct HM as (_ & _ & H & _). exact H. Qed.
Lemma ff_nonneg : 0 <= mean_of dot_ff l.
Proof. apply mean_nonneg; [apply l_ne|]. intros. apply sum_sq_nonneg. Qed.
Lemma oo_nonneg : 0 <= mean_of dot_oo l.
Proof. apply mean_nonneg; [apply l_ne|]. intros. apply sum_sq_nonneg. Qed.

Lemma bias_value : In ("uvffbar", dot_ff) names -> In ("uvoobar", dot_oo) names ->
  exists r, calculate_vl1l2_bias data columns agg = Ok r /\ BiasOf l r.
Proof.
  intros H1 H2. mm H1 a Ea Ha. mm H2 b Eb Hb. unfold calculate_vl1l2_bias. gt. rewrite Ea. cbn [bind]. rewrite Eb. cbn [bind].
  pose proof ff_nonneg. pose proof oo_nonneg.
  unfold np_sqrt, rbin. cbn [bind]. rewrite (proj2 (Qlt_bool_false a 0)) by qlra. rewrite (proj2 (Qlt_bool_false b 0)) by qlra.
  cbn [bind]. cbn. eexists. split; [reflexivity|]. unfold BiasOf. rewrite <- (Q2R_eq _ _ Ha), <- (Q2R_eq _ _ Hb). apply rhuR_nearest.
Qed.
Lemma var_value sq nm g h : In (sq, g) names -> In (nm, h) names ->
  exists r, speed_var data columns agg sq nm = Ok r /\ Published (Some (mean_of g l - mean_of h l * mean_of h l)) r.
Proof.
  intros H1 H2. mm H1 a Ea Ha. mm H2 b Eb Hb. unfold speed_var. gt. rewrite Ea. cbn [bind]. rewrite Eb.
  eexists. split; [reflexivity|]. simpl. apply (nearest_compat 7 (a - b * b)); [rewrite Ha, Hb; reflexivity|apply rhu_nearest].
Qed.
Lemma root_of_value f q : f = Ok (Some q) ->
  exists r, root_of f = Ok r /\ (q < 0 -> r = None) /\ (0 <= q -> PublishedR (Some (sqrt (Q2R q))) r).
Proof.
  intros ->. unfold root_of, np_sqrt. cbn [bind]. destruct (Qlt_bool q 0) eqn:B; Qbool.
  - exists None. split; [reflexivity|]. split; [reflexivity|]. intro; exfalso; qlra.
  - cbn. eexists. split; [reflexivity|]. split; [intro; exfalso; qlra|]. intros _. apply rhuR_nearest.
Qed.
Lemma stdev_value sq nm g h : In (sq, g) names -> In (nm, h) names ->
  exists r, root_of (speed_var data columns agg sq nm) = Ok r /\
    exists q, Published (Some (mean_of g l - mean_of h l * mean_of h l)) (Some q) /\
      (q < 0 -> r = None) /\ (0 <= q -> PublishedR (Some (sqrt (Q2R q))) r).
Proof.
  intros H1 H2. destruct (var_value sq nm g h H1 H2) as (v & E & P). destruct v as [q|]; [|contradiction P].
  destruct (root_of_value _ q E) as (r & Er & A & B). exists r. split; [exact Er|]. exists q. auto.
Qed.
Lemma msve_value : In ("uvffbar", dot_ff) names -> In ("uvoobar", dot_oo) names -> In ("uvfobar", dot_fo) names ->
  exists q, calculate_msve data columns agg = Ok (Some q) /\ Nearest 7 (mean_sq_verror l) q /\ 0 <= q.
Proof.
  intros H1 H2 H3. mm H1 a Ea Ha. mm H2 b Eb Hb. mm H3 c Ec Hc. unfold calculate_msve. gt. rewrite Ea. cbn [bind]. rewrite Ec. cbn [bind].
  rewrite Eb. cbn [bind pybin pylit].
  assert (V : a - 2 * c + b == mean_sq_verror l).
  { rewrite Ha, Hb, Hc. unfold mean_sq_verror. rewrite <- mean_scale, <- mean_minus, <- mean_plus.
    apply mean_ext. intro x. unfold dot_ff, dot_fo, dot_oo. ring. }
  assert (P : 0 <= mean_sq_verror l) by (apply mean_nonneg; [apply l_ne|intros; apply sum_sq_nonneg]).
  rewrite (proj2 (Qlt_bool_false _ 0)) by (rewrite V; exact P).
  eexists. split; [reflexivity|].
  assert (N : Nearest 7 (mean_sq_verror l) (round_half_up (a - 2 * c + b) 7)) by (apply (nearest_compat 7 _ _ _ V); apply rhu_nearest).
  split; [exact N|]. apply (nearest_nonneg _ _ P N).
Qed.
Lemma msve_pub : In ("uvffbar", dot_ff) names -> In ("uvoobar", dot_oo) names -> In ("uvfobar", dot_fo) names ->
  exists r, calculate_msve data columns agg = Ok r /\ MsveOf l r.
Proof. intros H1 H2 H3. destruct (msve_value H1 H2 H3) as (q & E & N & _). exists (Some q). split; assumption. Qed.
Lemma rmsve_pub : In ("uvffbar", dot_ff) names -> In ("uvoobar", dot_oo) names -> In ("uvfobar", dot_fo) names ->
  exists r, root_of (calculate_msve data columns agg) = Ok r /\ RmsveOf l r.
Proof.
  intros H1 H2 H3. destruct (msve_value H1 H2 H3) as (q & E & N & P).
  destruct (root_of_value _ q E) as (r & Er & _ & B). exists r. split; [exact Er|]. exists q. split; [exact N|apply B; exact P].
Qed.
Lemma speed_value un vn gu gv : In (un, gu) names -> In (vn, gv) names ->
  exists s, vector_speed data columns agg un vn = Ok (Some s) /\ PublishedR (Some (vlength (mean_of gu l) (mean_of gv l))) (Some s).
Proof.
  intros H1 H2. mm H1 a Ea Ha. mm H2 b Eb Hb. unfold vector_speed. gt. rewrite Ea. cbn [bind]. rewrite Eb. cbn [bind num2].
  rewrite calc_speed_value. cbn. eexists. split; [reflexivity|]. rewrite <- (vlength_compat a b _ _ Ha Hb). apply rhuR_nearest.
Qed.
Lemma speed_pub un vn gu gv : In (un, gu) names -> In (vn, gv) names ->
  exists r, vector_speed data columns agg un vn = Ok r /\ PublishedR (Some (vlength (mean_of gu l) (mean_of gv l))) r.
Proof. intros H1 H2. destruct (speed_value un vn gu gv H1 H2) as (s & E & P). exists (Some s). split; assumption. Qed.
Lemma speed_err_value : In ("ufbar", uf) names -> In ("vfbar", vf) names -> In ("uobar", uo) names -> In ("vobar", vo) names ->
  exists f o x, FspeedOf l (Some f) /\ OspeedOf l (Some o) /\ Nearest 7 (f - o) x /\
    speed_error (vector_speed data columns agg "ufbar" "vfbar") (vector_speed data columns agg "uobar" "vobar") = Ok (Some x).
Proof.
  intros H1 H2 H3 H4. destruct (speed_value _ _ _ _ H1 H2) as (f & Ef & Pf). destruct (speed_value _ _ _ _ H3 H4) as (o & Eo & Po).
  exists f, o. eexists. split; [exact Pf|]. split; [exact Po|].
  unfold speed_error. rewrite Ef, Eo. split; [|reflexivity]. apply rhu_nearest.
Qed.
Lemma speed_err_pub : In ("ufbar", uf) names -> In ("vfbar", vf) names -> In ("uobar", uo) names -> In ("vobar", vo) names ->
  exists r, speed_error (vector_speed data columns agg "ufbar" "vfbar") (vector_speed data columns agg "uobar" "vobar") = Ok r /\ SpeedErrOf l r.
Proof.
  intros H1 H2 H3 H4. destruct (speed_err_value H1 H2 H3 H4) as (f & o & x & A & B & C & E). exists (Some x). split; [exact E|].
  exists f, o. auto.
Qed.
Lemma speed_abserr_pub : In ("ufbar", uf) names -> In ("vfbar", vf) names -> In ("uobar", uo) names -> In ("vobar", vo) names ->
  exists r, calculate_vcnt_speed_abserr data columns agg = Ok r /\ SpeedAbsErrOf l r.
Proof.
  intros H1 H2 H3 H4. destruct (speed_err_value H1 H2 H3 H4) as (f & o & x & A & B & C & E).
  unfold calculate_vcnt_speed_abserr, calculate_vcnt_speed_err, calculate_vcnt_fbar_speed, calculate_vcnt_obar_speed. rewrite E.
  eexists. split; [reflexivity|]. exists f, o. split; [exact A|]. split; [exact B|]. simpl.
  (* f and o are multiples of the unit, so the difference is exact *)
  assert (Mf : MultipleOf 7 f) by apply A. assert (Mo : MultipleOf 7 o) by apply B.
  assert (Md : MultipleOf 7 (f - o)) by (apply multiple_minus; assumption).
  assert (Ex : x == f - o) by (apply (published_exact _ _ Md); exact C).
  apply (nearest_compat 7 (Qabs x)); [rewrite Ex; reflexivity|apply rhu_nearest].
Qed.
Lemma mean_pub nm g : In (nm, g) names -> exists r, mean_stat data columns agg nm = Ok r /\ Published (Some (mean_of g l)) r.
Proof. eapply mean_stat_value. exact HM. Qed.
Lemma rms_pub nm g : In (nm, g) names -> 0 <= mean_of g l ->
  exists r, speed_rms data columns agg nm = Ok r /\ PublishedR (Some (sqrt (Q2R (mean_of g l)))) r.
Proof.
  intros H P. mm H q E Hq. unfold speed_rms. gt. rewrite E. unfold np_sqrt. cbn [bind]. rewrite (proj2 (Qlt_bool_false q 0)) by qlra.
  cbn. eexists. split; [reflexivity|]. rewrite <- (Q2R_eq _ _ Hq). apply rhuR_nearest.
Qed.
Lemma dir_pub un vn gu gv : In (un, gu) names -> In (vn, gv) names ->
  exists r, vector_dir data columns agg un vn = Ok r /\ DirectionOf (mean_of gu l) (mean_of gv l) r.
Proof.
  intros H1 H2. mm H1 a Ea Ha. mm H2 b Eb Hb. unfold vector_dir. gt. rewrite Ea. cbn [bind]. rewrite Eb. cbn [bind num2].
  apply direction_rounded; assumption.
Qed.
Lemma vdiff_speed_pub : In ("ufbar", uf) names -> In ("vfbar", vf) names -> In ("uobar", uo) names -> In ("vobar", vo) names ->
  exists r, calculate_vcnt_vdiff_speed data columns agg = Ok r /\ VdiffSpeedOf l r.
Proof.
  intros H1 H2 H3 H4. mm H1 a Ea Ha. mm H2 b Eb Hb. mm H3 c Ec Hc. mm H4 d Ed Hd.
  unfold calculate_vcnt_vdiff_speed. gt. rewrite Ea. cbn [bind]. rewrite Ec. cbn [bind]. rewrite Eb. cbn [bind]. rewrite Ed.
  cbn [bind pybin num2]. rewrite calc_speed_value. cbn. eexists. split; [reflexivity|]. unfold VdiffSpeedOf.
  rewrite <- (vlength_compat (a - c) (b - d)); [apply rhuR_nearest|rewrite Ha, Hc; reflexivity|rewrite Hb, Hd; reflexivity].
Qed.
Lemma vdiff_dir_pub : In ("ufbar", uf) names -> In ("vfbar", vf) names -> In ("uobar", uo) names -> In ("vobar", vo) names ->
  exists r, calculate_vcnt_vdiff_dir data columns agg = Ok r /\ VdiffDirOf l r.
Proof.
  intros H1 H2 H3 H4. mm H1 a Ea Ha. mm H2 b Eb Hb. mm H3 c Ec Hc. mm H4 d Ed Hd.
  unfold calculate_vcnt_vdiff_dir. gt. rewrite Ea. cbn [bind]. rewrite Ec. cbn [bind]. rewrite Eb. cbn [bind]. rewrite Ed.
  cbn [bind pybin num2]. apply direction_rounded; [rewrite Ha, Hc; reflexivity|rewrite Hb, Hd; reflexivity].
Qed.
End Values.

(** Direction errors. *)
Lemma multiple_large w : MultipleOf 7 w -> 0 <= w -> ~ w == 0 -> half_unit 7 <= w / 2.
Proof.
  intros [k Hk] P N. change (inject_Z (10 ^ Z.of_nat 7)) with (10000000 # 1) in Hk.
  assert (K : (1 <= k)%Z).
  { assert (0 < w) by qlra. assert (0 < inject_Z k) by (rewrite <- Hk; qlra). change 0 with (inject_Z 0) in H0. rewrite <- Zlt_Qlt in H0. lia. }
  rewrite Zle_Qle in K. change (inject_Z 1) with 1 in K. change (half_unit 7) with ((1 # 2) / (10000000 # 1)). 
  change ((1 # 2) / (10000000 # 1)) with (1 # 20000000). unfold Qdiv. change (/ 2) with (1 # 2). qlra.
Qed.
Lemma sq_between (f p h : R) : (0 <= f)%R -> (0 <= p)%R -> (p <= f + h)%R -> (f - h < p)%R -> (h <= p / 2)%R ->
  (p * p / 4 <= f * f <= 9 / 4 * (p * p))%R.
Proof.
  intros F P U L H. assert (A : (p / 2 <= f)%R) by rlra. assert (B : (f <= 3 / 2 * p)%R) by rlra. split; nra.
Qed.
Lemma length_published u v p : NearestR 7 (vlength u v) p -> 0 <= p -> ~ p == 0 ->
  p * p / 4 <= u * u + v * v <= (9 # 4) * (p * p).
Proof.
  intros (M & U & L) P N. pose proof (multiple_large p M P N) as H. apply Q2R_le in H.
  rewrite Q2R_div in H by discriminate. assert (T : Q2R 2 = 2%R) by (unfold Q2R; simpl; lra). rewrite T in H.
  unfold vlength in *. pose proof (sqrt_pos (Q2R (u * u + v * v))) as SP.
  assert (PR : (0 <= Q2R p)%R) by (rewrite <- Q2R_0; apply Q2R_le; exact P).
  destruct (sq_between _ _ _ SP PR U L H) as [A B].
  rewrite sqrt_sqrt in A, B by (rewrite <- Q2R_0; apply Q2R_le, sum_sq_nonneg).
  split; apply Q2R_le.
  - rewrite Q2R_div, Q2R_mult by discriminate. replace (Q2R 4) with 4%R by (unfold Q2R; simpl; lra). exact A.
  - rewrite !Q2R_mult. replace (Q2R (9 # 4)) with (9 / 4)%R by (unfold Q2R; simpl; lra). exact B.
Qed.
Lemma vlength_scale k u v : 0 <= k -> vlength (k * u) (k * v) = (Q2R k * vlength u v)%R.
Proof.
  intro P. unfold vlength. rewrite (Q2R_eq (k * u * (k * u) + k * v * (k * v)) (k * k * (u * u + v * v))) by ring.
  assert (PR : (0 <= Q2R k)%R) by (rewrite <- Q2R_0; apply Q2R_le; exact P).
  rewrite Q2R_mult, sqrt_mult_alt by (rewrite Q2R_mult; nra). rewrite Q2R_mult, sqrt_square by exact PR. reflexivity.
Qed.
Lemma bearing_scale k u v a : 0 < k -> BearingOf (k * u) (k * v) a -> BearingOf u v a.
Proof.
  intros P (R & A & B). split; [exact R|]. assert (0 <= k) by qlra. rewrite vlength_scale in A, B by assumption.
  rewrite Q2R_mult in A, B. assert (PR : (0 < Q2R k)%R) by (apply Q2R_pos; exact P).
  split; apply (Rmult_eq_reg_l (Q2R k)); rlra.
Qed.

Definition cross (a b c d : Q) : Q := b * c - a * d.
Definition dot (a b c d : Q) : Q := a * c + b * d.
Lemma lagrange a b c d : cross a b c d * cross a b c d + dot a b c d * dot a b c d == (a * a + b * b) * (c * c + d * d).
Proof. unfold cross, dot. ring. Qed.

Section DirErr.
Variables (data : tdata) (columns : list string) (l : list vpair)
  (names : list (string * (vpair -> Q))) (n : Q).
Hypothesis HM : Mom data columns true l names n.
Hypotheses (H1 : In ("ufbar", uf) names) (H2 : In ("vfbar", vf) names)
  (H3 : In ("uobar", uo) names) (H4 : In ("vobar", vo) names).

Lemma sum_speed : exists w, vector_speed data columns false "uobar" "vobar" = Ok (Some w) /\
  NearestR 7 (vlength (count l * mean_of uo l) (count l * mean_of vo l)) w.
Proof.
  destruct (mom_sum _ _ _ _ _ _ _ HM H3) as (s & Es & Hs). destruct (mom_sum _ _ _ _ _ _ _ HM H4) as (t & Et & Ht).
  assert (Pn : 0 < count l) by (apply count_pos; destruct HM as (_ & _ & Hl & _); exact Hl).
  unfold vector_speed, get_total, get_total_values. cbn [bind]. rewrite Es, Et.
  rewrite (npdiv_ok s 1) by discriminate. rewrite (npdiv_ok t 1) by discriminate. cbn [bind num2]. rewrite calc_speed_value. cbn.
  eexists. split; [reflexivity|].
  rewrite <- (vlength_compat (s / 1) (t / 1)); [apply rhuR_nearest| |].
  - rewrite Hs. unfold mean_of. field. qlra.
  - rewrite Ht. unfold mean_of. field. qlra.
Qed.

Notation a := (mean_of uf l). Notation b := (mean_of vf l). Notation c := (mean_of uo l). Notation d := (mean_of vo l).
Lemma dir_err_value : exists r p w, calculate_vcnt_dir_err data columns true = Ok r /\
  NearestR 7 (vlength a b) p /\ NearestR 7 (vlength (count l * c) (count l * d)) w /\
  (p == 0 \/ w == 0 -> r = None) /\
  (~ p == 0 -> ~ w == 0 -> exists X Y, X == cross a b c d / (p * w) /\ Y == dot a b c d / (p * w) /\
     (Calm X Y -> r = None) /\
     (~ Calm X Y -> exists t, BearingOf (cross a b c d) (dot a b c d) t /\ PublishedR (Some (reported t)) r)).
Proof.
  destruct (speed_value _ _ _ _ _ _ HM _ _ _ _ H1 H2) as (p & Ep & Pp). destruct sum_speed as (w & Ew & Pw). simpl in Pp.
  destruct (mom_mean _ _ _ _ _ _ HM _ _ H1) as (a' & Ea & Ha). destruct (mom_mean _ _ _ _ _ _ HM _ _ H2) as (b' & Eb & Hb).
  destruct (mom_mean _ _ _ _ _ _ HM _ _ H3) as (c' & Ec & Hc). destruct (mom_mean _ _ _ _ _ _ HM _ _ H4) as (d' & Ed & Hd).
  assert (P0 : 0 <= p) by (apply (nearest_le_root _ _ Pp), sqrt_pos). assert (W0 : 0 <= w) by (apply (nearest_le_root _ _ Pw), sqrt_pos).
  unfold calculate_vcnt_dir_err, calculate_vcnt_fbar_speed, calculate_vcnt_obar_speed. rewrite Ep. cbn [bind].
  rewrite (mom_get_total _ _ _ _ _ _ HM). cbn [bind]. rewrite Ea. cbn [bind]. rewrite Eb. cbn [bind].
  destruct (Qeq_dec p 0) as [Zp|Np].
  { rewrite npdiv_0 by exact Zp. exists None, p, w. split; [reflexivity|]. split; [exact Pp|]. split; [exact Pw|].
    split; [reflexivity|]. intro; contradiction. }
  rewrite !(npdiv_ok _ p) by exact Np. cbn [bind]. rewrite Ew. cbn [bind]. rewrite Ec. cbn [bind]. rewrite Ed. cbn [bind].
  destruct (Qeq_dec w 0) as [Zw|Nw].
  { rewrite npdiv_0 by exact Zw. exists None, p, w. split; [reflexivity|]. split; [exact Pp|]. split; [exact Pw|].
    split; [reflexivity|]. intros; contradiction. }
  rewrite !(npdiv_ok _ w) by exact Nw. cbn [bind num2]. unfold angle_between.
  set (nz := prod_negzero _ _ && _ && _). clearbody nz.
  set (X := b' / p * (c' / w) - a' / p * (d' / w)). set (Y := a' / p * (c' / w) + b' / p * (d' / w)).
  assert (HX : X == cross a b c d / (p * w)) by (unfold X, cross; rewrite Ha, Hb, Hc, Hd; field; auto).
  assert (HY : Y == dot a b c d / (p * w)) by (unfold Y, dot; rewrite Ha, Hb, Hc, Hd; field; auto).
  destruct (direction_value nz X Y) as [C1 C2].
  assert (PW : 0 < p * w) by (apply Qmult_lt_0_compat; qlra).
  destruct (calm_dec X Y) as [C|C].
  - rewrite (C1 C). exists None, p, w. split; [reflexivity|]. split; [exact Pp|]. split; [exact Pw|]. split; [reflexivity|].
    intros _ _. exists X, Y. split; [exact HX|]. split; [exact HY|]. split; [reflexivity|]. intro; contradiction.
  - destruct (C2 C) as (t & BR & Et). rewrite Et. cbn. eexists. exists p, w. split; [reflexivity|]. split; [exact Pp|]. split; [exact Pw|].
    split; [intros [K|K]; contradiction|]. intros _ _. exists X, Y. split; [exact HX|]. split; [exact HY|].
    split; [intro; contradiction|]. intros _. exists t. split; [|apply rhuR_nearest].
    apply (bearing_scale (/ (p * w))); [apply Qinv_lt_0_compat; exact PW|].
    apply (bearing_compat X Y); [rewrite HX; unfold Qdiv; ring|rewrite HY; unfold Qdiv; ring|exact BR].
Qed.

Lemma scaled_size p w X Y : NearestR 7 (vlength a b) p -> NearestR 7 (vlength (count l * c) (count l * d)) w -> ~ p == 0 -> ~ w == 0 ->
  X == cross a b c d / (p * w) -> Y == dot a b c d / (p * w) ->
  (1 # 16) <= (X * X + Y * Y) * (count l * count l) <= 81 # 16.
Proof.
  intros Pp Pw Np Nw HX HY.
  assert (P0 : 0 <= p) by (apply (nearest_le_root _ _ Pp), sqrt_pos). assert (W0 : 0 <= w) by (apply (nearest_le_root _ _ Pw), sqrt_pos).
  destruct (length_published _ _ _ Pp P0 Np) as [A1 A2]. destruct (length_published _ _ _ Pw W0 Nw) as [B1 B2].
  set (m := count l) in *. set (F := a * a + b * b) in *. set (O := m * c * (m * c) + m * d * (m * d)) in *.
  assert (E : (X * X + Y * Y) * (m * m) == F * O / (p * p * (w * w))).
  { rewrite HX, HY. transitivity ((cross a b c d * cross a b c d + dot a b c d * dot a b c d) * (m * m) / (p * p * (w * w))).
    - field. split; assumption.
    - rewrite lagrange. unfold F, O. field. split; assumption. }
  rewrite E. assert (PP : 0 < p * p) by (apply Qmult_lt_0_compat; qlra). assert (WW : 0 < w * w) by (apply Qmult_lt_0_compat; qlra).
  assert (PW : 0 < p * p * (w * w)) by (apply Qmult_lt_0_compat; assumption).
  assert (A1' : (1 # 4) * (p * p) <= F) by (revert A1; unfold Qdiv; change (/ 4) with (1 # 4); intro; qlra).
  assert (B1' : (1 # 4) * (w * w) <= O) by (revert B1; unfold Qdiv; change (/ 4) with (1 # 4); intro; qlra).
  assert (F0 : 0 <= F) by qlra. assert (O0 : 0 <= O) by qlra.
  split.
  - apply Qle_shift_div_l; [exact PW|].
    apply Qle_trans with ((1 # 4) * (p * p) * O).
    + setoid_replace ((1 # 16) * (p * p * (w * w))) with ((1 # 4) * (p * p) * ((1 # 4) * (w * w))) by ring.
      apply Qmult_le_l; [qlra|exact B1'].
    + apply Qmult_le_compat_r; assumption.
  - apply Qle_shift_div_r; [exact PW|].
    apply Qle_trans with ((9 # 4) * (p * p) * O).
    + apply Qmult_le_compat_r; assumption.
    + setoid_replace ((81 # 16) * (p * p * (w * w))) with ((9 # 4) * (p * p) * ((9 # 4) * (w * w))) by ring.
      apply Qmult_le_l; [qlra|exact B2].
Qed.
End DirErr.

Lemma sq_small e x : 0 < e -> x * x < e * e -> - e < x < e.
Proof.
  intros P H. split.
  - destruct (Qlt_le_dec (- e) x); [assumption|exfalso].
    assert (e * e <= (- x) * (- x)) by (apply Qmult_le_compat_nonneg; split; qlra). qlra.
  - destruct (Qlt_le_dec x e); [assumption|exfalso].
    assert (e * e <= x * x) by (apply Qmult_le_compat_nonneg; split; qlra). qlra.
Qed.
Lemma small_sq e x : 0 < e -> - e < x < e -> x * x < e * e.
Proof.
  intros P [H H']. assert (0 < (e - x) * (e + x)) by (apply Qmult_lt_0_compat; qlra). qlra.
Qed.
Lemma many_calm X Y m : 225000 < m -> (X * X + Y * Y) * (m * m) <= 81 # 16 -> Calm X Y.
Proof.
  intros Hm H. pose proof (sum_sq_nonneg X Y) as NN.
  assert (K : X * X + Y * Y < (1 # 100000) * (1 # 100000)).
  { destruct (Qlt_le_dec (X * X + Y * Y) ((1 # 100000) * (1 # 100000))) as [L|L]; [exact L|exfalso].
    assert (M2 : 225000 * 225000 < m * m).
    { assert (0 < (m - 225000) * (m + 225000)) by (apply Qmult_lt_0_compat; qlra). qlra. }
    assert ((1 # 100000) * (1 # 100000) * (225000 * 225000) < (X * X + Y * Y) * (m * m)).
    { apply Qlt_le_trans with ((1 # 100000) * (1 # 100000) * (m * m)).
      - apply Qmult_lt_l; [reflexivity|exact M2].
      - apply Qmult_le_compat_r; [exact L|qlra]. }
    assert ((1 # 100000) * (1 # 100000) * (225000 * 225000) == 81 # 16) by reflexivity. qlra. }
  pose proof (Qsq_nonneg X). pose proof (Qsq_nonneg Y).
  split; apply sq_small; try reflexivity; qlra.
Qed.
Lemma few_not_calm X Y m : 0 < m -> m <= 17000 -> (1 # 16) <= (X * X + Y * Y) * (m * m) -> ~ Calm X Y.
Proof.
  intros P Hm H [CX CY]. apply small_sq in CX; [|reflexivity]. apply small_sq in CY; [|reflexivity].
  pose proof (sum_sq_nonneg X Y) as NN.
  assert (M2 : m * m <= 17000 * 17000) by (apply Qmult_le_compat_nonneg; split; qlra).
  assert ((X * X + Y * Y) * (m * m) <= (X * X + Y * Y) * (17000 * 17000)).
  { rewrite !(Qmult_comm (X * X + Y * Y)). apply Qmult_le_compat_r; assumption. }
  assert (17000 * 17000 == 289000000) by reflexivity. qlra.
Qed.

(** Every table. *)
Ltac wsafe := unfold num2, calc_speed, pyabs; rewrite ?calc_speed_value; sgo.
Lemma vector_speed_ok data columns agg u v : Safe [] (vector_speed data columns agg u v).
Proof. apply (safe_catch' WV); [|reflexivity]. unfold WV, num2, rround. repeat first [sleaf|safe1|rewrite calc_speed_value|progress unfold npdiv]. Qed.
Lemma vdiff_speed_ok data columns agg : Safe [] (calculate_vcnt_vdiff_speed data columns agg).
Proof. apply (safe_catch' WV); [|reflexivity]. unfold WV, num2, rround, pybin. repeat first [sleaf|safe1|rewrite calc_speed_value|progress unfold npdiv]. Qed.
Lemma speed_error_ok f o : Safe [] f -> Safe [] o -> Safe [] (speed_error f o).
Proof.
  intros F O. apply (safe_catch' WV); [|reflexivity]. unfold WV, pyround, pybin.
  repeat first [apply (safe_sub []); [reflexivity|assumption]|safe1].
Qed.
Lemma vector_dir_ok data columns agg u v : Safe [] (vector_dir data columns agg u v).
Proof. apply (safe_catch' WV); [|reflexivity]. unfold WV, num2, rround. repeat first [sleaf|safe1|progress unfold npdiv]. Qed.
Lemma vdiff_dir_ok data columns agg : Safe [] (calculate_vcnt_vdiff_dir data columns agg).
Proof. apply (safe_catch' WV); [|reflexivity]. unfold WV, num2, rround, pybin. repeat first [sleaf|safe1|progress unfold npdiv]. Qed.
Lemma dir_err_ok data columns agg : Safe [] (calculate_vcnt_dir_err data columns agg).
Proof.
  apply (safe_catch' WV); [|reflexivity]. unfold WV, num2, rround, pybin.
  repeat first [sleaf|apply (safe_sub []); [reflexivity|apply vector_speed_ok]|safe1|progress unfold npdiv].
Qed.

Lemma speed_root u v x : rround (calc_speed u v) = Ok (Some x) -> 0 <= x.
Proof. rewrite calc_speed_value. cbn. intro E. apply Ok_some_inj in E. subst x. apply (nearest_le_root _ _ (rhuR_nearest _ 7)), sqrt_pos. Qed.
Lemma num2_speed u v x : rround (num2 u v calc_speed) = Ok (Some x) -> 0 <= x.
Proof. destruct u as [u|], v as [v|]; try discriminate. apply speed_root. Qed.
Lemma speed_nonneg data columns agg u v :
  exists r, vector_speed data columns agg u v = Ok r /\ forall x, r = Some x -> 0 <= x.
Proof.
  destruct (safe_nil_ok _ (vector_speed_ok data columns agg u v)) as (r & E). exists r. split; [exact E|].
  intros x ->. unfold vector_speed in E. apply catch_some in E. unbind E. unbind E. unbind E. exact (num2_speed _ _ _ E).
Qed.
Lemma vdiff_speed_nonneg data columns agg :
  exists r, calculate_vcnt_vdiff_speed data columns agg = Ok r /\ forall x, r = Some x -> 0 <= x.
Proof.
  destruct (safe_nil_ok _ (vdiff_speed_ok data columns agg)) as (r & E). exists r. split; [exact E|].
  intros x ->. unfold calculate_vcnt_vdiff_speed in E. apply catch_some in E. do 7 unbind E. exact (num2_speed _ _ _ E).
Qed.
Lemma abs_round_ok f : Safe [] f -> Safe [] (catch std_exns (pyround (pyabs f)) None).
Proof.
  intro F. apply (safe_catch' WV); [|reflexivity]. unfold WV, pyround, pyabs. repeat first [apply (safe_sub []); [reflexivity|assumption]|safe1].
Qed.
Lemma abserr_nonneg data columns agg :
  exists r, calculate_vcnt_speed_abserr data columns agg = Ok r /\ forall x, r = Some x -> 0 <= x.
Proof.
  assert (S0 : Safe [] (calculate_vcnt_speed_err data columns agg)) by (apply speed_error_ok; apply vector_speed_ok).
  destruct (safe_nil_ok _ (abs_round_ok _ S0)) as (r & E). exists r. split; [exact E|].
  intros x ->. apply catch_some in E. unfold pyround, pyabs in E. unbind E. unbind Ev.
  destruct v0 as [q|]; [|discriminate Ev]. apply Ok_some_inj in Ev || (injection Ev as <-). subst. cbn in E. apply Ok_some_inj in E. subst x.
  eapply nearest_nonneg; [|apply rhu_nearest]. apply Qabs_nonneg.
Qed.
Lemma vector_dir_range data columns agg u v :
  exists r, vector_dir data columns agg u v = Ok r /\ forall x, r = Some x -> 0 <= x <= 360 /\ (x <= 4 \/ 356 <= x).
Proof.
  destruct (safe_nil_ok _ (vector_dir_ok data columns agg u v)) as (r & E). exists r. split; [exact E|].
  intros x ->. unfold vector_dir in E. apply catch_some in E. unbind E. unbind E. unbind E.
  destruct v1 as [q|], v2 as [q'|]; try discriminate E. exact (direction_published _ _ _ _ E).
Qed.
Lemma vdiff_dir_range data columns agg :
  exists r, calculate_vcnt_vdiff_dir data columns agg = Ok r /\ forall x, r = Some x -> 0 <= x <= 360 /\ (x <= 4 \/ 356 <= x).
Proof.
  destruct (safe_nil_ok _ (vdiff_dir_ok data columns agg)) as (r & E). exists r. split; [exact E|].
  intros x ->. unfold calculate_vcnt_vdiff_dir in E. apply catch_some in E. do 7 unbind E.
  unfold num2 in E. match type of E with match ?a with Some _ => match ?b with Some _ => _ | None => _ end | None => _ end = _ =>
    destruct a, b; try discriminate E end. exact (direction_published _ _ _ _ E).
Qed.
Lemma dir_err_range data columns agg :
  exists r, calculate_vcnt_dir_err data columns agg = Ok r /\ forall x, r = Some x -> 0 <= x <= 360 /\ (x <= 4 \/ 356 <= x).
Proof.
  destruct (safe_nil_ok _ (dir_err_ok data columns agg)) as (r & E). exists r. split; [exact E|].
  intros x ->. unfold calculate_vcnt_dir_err in E. apply catch_some in E. do 11 unbind E.
  unfold num2 in E. repeat match type of E with match ?a with Some _ => _ | None => _ end = _ => destruct a; try discriminate E end.
  exact (direction_published _ _ _ _ E).
Qed.
Lemma dir_abserr_range data columns agg :
  exists r, calculate_vcnt_dir_abser data columns agg = Ok r /\ forall x, r = Some x -> 0 <= x <= 360 /\ (x <= 4 \/ 356 <= x).
Proof.
  destruct (dir_err_range data columns agg) as (d & Ed & Hd).
  destruct (safe_nil_ok _ (abs_round_ok _ (dir_err_ok data columns agg))) as (r & E). exists r. split; [exact E|].
  intros x ->. apply catch_some in E. rewrite Ed in E. destruct d as [q|]; [|discriminate E]. cbn [pyround pyabs bind] in E.
  apply Ok_some_inj in E. subst x. destruct (Hd q eq_refl) as [[A B] C].
  assert (EA : Qabs q == q) by (apply Qabs_pos; exact A).
  assert (N : Nearest 7 q (round_half_up (Qabs q) 7)) by (apply (nearest_compat 7 _ _ _ EA); apply rhu_nearest).
  split.
  - split; [exact (nearest_nonneg _ _ A N)|].
    apply (published_mono q 360 _ 360 B N). exact (published_self 360 (multiple_int 360 7)).
  - destruct C as [C|C]; [left|right].
    + apply (published_mono q 4 _ 4 C N). exact (published_self 4 (multiple_int 4 7)).
    + apply (published_mono 356 q 356 _ C); [exact (published_self 356 (multiple_int 356 7))|exact N].
Qed.

(** Witnesses. *)
Lemma var_nonneg {A} (g h : A -> Q) l : l <> [] -> (forall p, In p l -> g p * g p <= h p) ->
  0 <= mean_of h l - mean_of g l * mean_of g l.
Proof.
  intros Hl H. pose proof (mean_sq g l Hl) as K. pose proof (count_pos l Hl) as P.
  assert (mean_of (fun x => g x * g x) l <= mean_of h l).
  { unfold mean_of, Qdiv. apply Qmult_le_compat_r; [apply total_le; exact H|]. apply Qlt_le_weak, Qinv_lt_0_compat. exact P. }
  qlra.
Qed.
Lemma vlength_exact u v k : 0 <= k -> u * u + v * v == k * k -> vlength u v = Q2R k.
Proof.
  intros P E. unfold vlength. rewrite (Q2R_eq _ _ E), Q2R_mult. apply sqrt_square. rewrite <- Q2R_0. apply Q2R_le. exact P.
Qed.
Lemma speeds_off u v k m n j : 0 <= k -> 0 <= j -> u * u + v * v == k * k -> m * m + n * n == j * j ->
  Qeq_bool (round_half_up k 7) (round_half_up j 7) = false ->
  ~ PublishedR (Some (vlength m n)) (Some (round_half_up_R (vlength u v) 7)).
Proof.
  intros K J E1 E2 N P. simpl in P. rewrite (vlength_exact u v k K E1), (vlength_exact m n j J E2) in P. rewrite rhuR_Q in P.
  apply nearestR_Q in P. pose proof (nearest_unique 7 _ _ _ P (rhu_nearest j 7)) as Z.
  apply Qeq_bool_iff in Z. rewrite Z in N. discriminate N.
Qed.
Lemma count_ge1 {A} (l : list A) : l <> [] -> 1 <= count l.
Proof.
  intro H. destruct l; [congruence|]. unfold count. change 1 with (inject_Z 1). rewrite <- Zle_Qle. simpl length. lia.
Qed.
Lemma row_of {A} (F : list (string * (A -> Q))) (b : list A) :
  nodupb (line_columns F) = true -> b <> [] -> SummaryRow F (line_columns F) b (line_of F b).
Proof. intros H N. apply line_of_summary; [apply nodupb_ok; exact H|exact N]. Qed.

(** The statements of PropertiesWind.v. *)
Lemma C42_pooling_proof : forall groups data columns,
  Summaries wind_fields columns groups data ->
  Forall (fun '(name, stat, Measure) =>
      exists r, aggregated name stat data columns = Ok r /\ Measure (concat groups) r)
  [("vl1l2_bias", calculate_vl1l2_bias, BiasOf);
   ("vl1l2_fvar", calculate_vl1l2_fvar, FvarOf); ("vl1l2_ovar", calculate_vl1l2_ovar, OvarOf);
   ("vl1l2_msve", calculate_vl1l2_msve, MsveOf); ("vl1l2_rmsve", calculate_vl1l2_rmsve, RmsveOf);
   ("vl1l2_speed_err", calculate_vl1l2_speed_err, SpeedErrOf);
   ("vcnt_fbar", calculate_vcnt_fbar, FsmeanOf); ("vcnt_obar", calculate_vcnt_obar, OsmeanOf);
   ("vcnt_fs_rms", calculate_vcnt_fs_rms, FsRmsOf); ("vcnt_os_rms", calculate_vcnt_os_rms, OsRmsOf);
   ("vcnt_msve", calculate_vcnt_msve, MsveOf); ("vcnt_rmsve", calculate_vcnt_rmsve, RmsveOf);
   ("vcnt_fstdev", calculate_vcnt_fstdev, FsStdevOf); ("vcnt_ostdev", calculate_vcnt_ostdev, OsStdevOf);
   ("vcnt_fbar_speed", calculate_vcnt_fbar_speed, FspeedOf);
   ("vcnt_obar_speed", calculate_vcnt_obar_speed, OspeedOf);
   ("vcnt_vdiff_speed", calculate_vcnt_vdiff_speed, VdiffSpeedOf);
   ("vcnt_speed_err", calculate_vcnt_speed_err, SpeedErrOf);
   ("vcnt_speed_abserr", calculate_vcnt_speed_abserr, SpeedAbsErrOf);
   ("vcnt_fdir", calculate_vcnt_fdir, FdirOf); ("vcnt_odir", calculate_vcnt_odir, OdirOf);
   ("vcnt_vdiff_dir", calculate_vcnt_vdiff_dir, VdiffDirOf)].
Proof.
  intros groups data columns HS. repeat apply Forall_cons; try apply Forall_nil.
  - aggf wind_fields HS ltac:(fun HM => eapply (bias_value _ _ _ _ _ _ HM); inl).
  - aggf wind_fields HS ltac:(fun HM => eapply (var_value _ _ _ _ _ _ HM); inl).
  - aggf wind_fields HS ltac:(fun HM => eapply (var_value _ _ _ _ _ _ HM); inl).
  - aggf wind_fields HS ltac:(fun HM => eapply (msve_pub _ _ _ _ _ _ HM); inl).
  - aggf wind_fields HS ltac:(fun HM => eapply (rmsve_pub _ _ _ _ _ _ HM); inl).
  - aggf wind_fields HS ltac:(fun HM => eapply (speed_err_pub _ _ _ _ _ _ HM); inl).
  - aggf wind_fields HS ltac:(fun HM => eapply (mean_pub _ _ _ _ _ _ HM); inl).
  - aggf wind_fields HS ltac:(fun HM => eapply (mean_pub _ _ _ _ _ _ HM); inl).
  - aggf wind_fields HS ltac:(fun HM => eapply (rms_pub _ _ _ _ _ _ HM); [inl|apply (ff_nonneg _ _ _ _ _ _ HM)]).
  - aggf wind_fields HS ltac:(fun HM => eapply (rms_pub _ _ _ _ _ _ HM); [inl|apply (oo_nonneg _ _ _ _ _ _ HM)]).
  - aggf wind_fields HS ltac:(fun HM => eapply (msve_pub _ _ _ _ _ _ HM); inl).
  - aggf wind_fields HS ltac:(fun HM => eapply (rmsve_pub _ _ _ _ _ _ HM); inl).
  - aggf wind_fields HS ltac:(fun HM => eapply (stdev_value _ _ _ _ _ _ HM); inl).
  - aggf wind_fields HS ltac:(fun HM => eapply (stdev_value _ _ _ _ _ _ HM); inl).
  - aggf wind_fields HS ltac:(fun HM => eapply (speed_pub _ _ _ _ _ _ HM); inl).
  - aggf wind_fields HS ltac:(fun HM => eapply (speed_pub _ _ _ _ _ _ HM); inl).
  - aggf wind_fields HS ltac:(fun HM => eapply (vdiff_speed_pub _ _ _ _ _ _ HM); inl).
  - aggf wind_fields HS ltac:(fun HM => eapply (speed_err_pub _ _ _ _ _ _ HM); inl).
  - aggf wind_fields HS ltac:(fun HM => eapply (speed_abserr_pub _ _ _ _ _ _ HM); inl).
  - aggf wind_fields HS ltac:(fun HM => eapply (dir_pub _ _ _ _ _ _ HM); inl).
  - aggf wind_fields HS ltac:(fun HM => eapply (dir_pub _ _ _ _ _ _ HM); inl).
  - aggf wind_fields HS ltac:(fun HM => eapply (vdiff_dir_pub _ _ _ _ _ _ HM); inl).
Qed.

Lemma C42_single_line_proof : forall b r columns,
  SummaryRow wind_fields columns b r ->
  Forall (fun '(stat, Measure) => exists v, stat [r] columns false = Ok v /\ Measure b v)
  [(calculate_vl1l2_fspd, FspeedOf); (calculate_vl1l2_ospd, OspeedOf);
   (calculate_vl1l2_bias, BiasOf); (calculate_vl1l2_fvar, FvarOf); (calculate_vl1l2_ovar, OvarOf);
   (calculate_vl1l2_msve, MsveOf); (calculate_vl1l2_rmsve, RmsveOf); (calculate_vl1l2_speed_err, SpeedErrOf);
   (calculate_vcnt_fbar, FsmeanOf); (calculate_vcnt_obar, OsmeanOf);
   (calculate_vcnt_fs_rms, FsRmsOf); (calculate_vcnt_os_rms, OsRmsOf);
   (calculate_vcnt_msve, MsveOf); (calculate_vcnt_rmsve, RmsveOf);
   (calculate_vcnt_fstdev, FsStdevOf); (calculate_vcnt_ostdev, OsStdevOf);
   (calculate_vcnt_fbar_speed, FspeedOf); (calculate_vcnt_obar_speed, OspeedOf);
   (calculate_vcnt_vdiff_speed, VdiffSpeedOf);
   (calculate_vcnt_speed_err, SpeedErrOf); (calculate_vcnt_speed_abserr, SpeedAbsErrOf);
   (calculate_vcnt_fdir, FdirOf); (calculate_vcnt_odir, OdirOf); (calculate_vcnt_vdiff_dir, VdiffDirOf)].
Proof.
  intros b r columns HS. destruct (mom_row _ _ _ _ HS) as (n & HM).
  repeat apply Forall_cons; try apply Forall_nil; cbv beta iota.
  - eapply (speed_pub _ _ _ _ _ _ HM); inl.
  - eapply (speed_pub _ _ _ _ _ _ HM); inl.
  - eapply (bias_value _ _ _ _ _ _ HM); inl.
  - eapply (var_value _ _ _ _ _ _ HM); inl.
  - eapply (var_value _ _ _ _ _ _ HM); inl.
  - eapply (msve_pub _ _ _ _ _ _ HM); inl.
  - eapply (rmsve_pub _ _ _ _ _ _ HM); inl.
  - eapply (speed_err_pub _ _ _ _ _ _ HM); inl.
  - eapply (mean_pub _ _ _ _ _ _ HM); inl.
  - eapply (mean_pub _ _ _ _ _ _ HM); inl.
  - eapply (rms_pub _ _ _ _ _ _ HM); [inl|apply (ff_nonneg _ _ _ _ _ _ HM)].
  - eapply (rms_pub _ _ _ _ _ _ HM); [inl|apply (oo_nonneg _ _ _ _ _ _ HM)].
  - eapply (msve_pub _ _ _ _ _ _ HM); inl.
  - eapply (rmsve_pub _ _ _ _ _ _ HM); inl.
  - eapply (stdev_value _ _ _ _ _ _ HM); inl.
  - eapply (stdev_value _ _ _ _ _ _ HM); inl.
  - eapply (speed_pub _ _ _ _ _ _ HM); inl.
  - eapply (speed_pub _ _ _ _ _ _ HM); inl.
  - eapply (vdiff_speed_pub _ _ _ _ _ _ HM); inl.
  - eapply (speed_err_pub _ _ _ _ _ _ HM); inl.
  - eapply (speed_abserr_pub _ _ _ _ _ _ HM); inl.
  - eapply (dir_pub _ _ _ _ _ _ HM); inl.
  - eapply (dir_pub _ _ _ _ _ _ HM); inl.
  - eapply (vdiff_dir_pub _ _ _ _ _ _ HM); inl.
Qed.

Lemma C42_variance_proof : forall groups data columns,
  Summaries wind_fields columns groups data -> SpeedsBelow (concat groups) ->
  Forall (fun '(name, stat) => exists r, aggregated name stat data columns = Ok (Some r) /\ 0 <= r)
  [("vl1l2_fvar", calculate_vl1l2_fvar); ("vl1l2_ovar", calculate_vl1l2_ovar);
   ("vcnt_fstdev", calculate_vcnt_fstdev); ("vcnt_ostdev", calculate_vcnt_ostdev)].
Proof.
  intros groups data columns HS B. pose proof (C42_pooling_proof groups data columns HS) as F.
  rewrite !Forall_cons_iff in F.
  destruct F as (_ & (f & Ef & Pf) & (o & Eo & Po) & _ & _ & _ & _ & _ & _ & _ & _ & _ & (sf & Esf & Psf) & (so & Eso & Pso) & _).
  assert (Hl : concat groups <> []).
  { pose proof (Summaries_count _ _ _ _ HS) as P. intro K. rewrite K in P. exact (Qlt_irrefl 0 P). }
  assert (N1 : 0 <= mean_of dot_ff (concat groups) - mean_of f_speed (concat groups) * mean_of f_speed (concat groups)).
  { apply var_nonneg; [exact Hl|]. intros p Hp. apply (B p Hp). }
  assert (N2 : 0 <= mean_of dot_oo (concat groups) - mean_of o_speed (concat groups) * mean_of o_speed (concat groups)).
  { apply var_nonneg; [exact Hl|]. intros p Hp. apply (B p Hp). }
  repeat apply Forall_cons; try apply Forall_nil.
  - destruct f as [f|]; [|contradiction Pf]. exists f. split; [exact Ef|]. exact (nearest_nonneg _ _ N1 Pf).
  - destruct o as [o|]; [|contradiction Po]. exists o. split; [exact Eo|]. exact (nearest_nonneg _ _ N2 Po).
  - destruct Psf as (q & Pq & _ & R). specialize (R (nearest_nonneg _ _ N1 Pq)). destruct sf as [sf|]; [|contradiction R].
    exists sf. split; [exact Esf|]. apply (nearest_le_root _ _ R), sqrt_pos.
  - destruct Pso as (q & Pq & _ & R). specialize (R (nearest_nonneg _ _ N2 Pq)). destruct so as [so|]; [|contradiction R].
    exists so. split; [exact Eso|]. apply (nearest_le_root _ _ R), sqrt_pos.
Qed.

Lemma C42_speeds_refuted_proof : exists groups data columns f o,
  Summaries wind_fields columns groups data /\
  aggregated "vl1l2_fspd" calculate_vl1l2_fspd data columns = Ok f /\ ~ FspeedOf (concat groups) f /\
  aggregated "vl1l2_ospd" calculate_vl1l2_ospd data columns = Ok o /\ ~ OspeedOf (concat groups) o.
Proof.
  exists [[VPair 3 4 3 4 5 5; VPair 3 4 3 4 5 5]; [VPair 0 0 0 0 0 0; VPair 0 0 0 0 0 0]].
  eexists. exists (line_columns wind_fields). do 2 eexists. split; [apply (lines_of wind_fields); [reflexivity|discriminate|reflexivity]|].
  split; [|split; [|split]].
  - unfold aggregated. set (d := prepare _ _ _). vm_compute in d. unfold d. clear d. cbn [bind].
    unfold calculate_vl1l2_fspd, vector_speed.
    set (c1 := get_total _ _ _). vm_compute in c1. unfold c1. clear c1. cbn [bind].
    repeat (set (c1 := _ [//] _); vm_compute in c1; unfold c1; clear c1; cbn [bind]).
    cbn [num2]. rewrite calc_speed_value. cbn. reflexivity.
  - apply (speeds_off _ _ (5 # 4) _ _ (5 # 2)); [discriminate|discriminate|reflexivity|vm_compute; reflexivity|vm_compute; reflexivity].
  - unfold aggregated. set (d := prepare _ _ _). vm_compute in d. unfold d. clear d. cbn [bind].
    unfold calculate_vl1l2_ospd, vector_speed.
    set (c1 := get_total _ _ _). vm_compute in c1. unfold c1. clear c1. cbn [bind].
    repeat (set (c1 := _ [//] _); vm_compute in c1; unfold c1; clear c1; cbn [bind]).
    cbn [num2]. rewrite calc_speed_value. cbn. reflexivity.
  - apply (speeds_off _ _ (5 # 4) _ _ (5 # 2)); [discriminate|discriminate|reflexivity|vm_compute; reflexivity|vm_compute; reflexivity].
Qed.

Lemma C42_case_proof :
  Summaries wind_fields (line_columns wind_fields) wind_groups (map (line_of wind_fields) wind_groups) /\
  SpeedsBelow (concat wind_groups).
Proof.
  split; [apply lines_of; [reflexivity|discriminate|reflexivity]|].
  intros p Hp. simpl in Hp. repeat (destruct Hp as [<-|Hp]; [vm_compute; repeat split; discriminate|]). contradiction.
Qed.

Lemma C37_speeds_nonneg_proof : forall data columns agg,
  Forall (fun stat => exists r, stat data columns agg = Ok r /\ forall x, r = Some x -> 0 <= x)
  [calculate_vl1l2_fspd; calculate_vl1l2_ospd; calculate_vcnt_fbar_speed; calculate_vcnt_obar_speed;
   calculate_vcnt_vdiff_speed; calculate_vcnt_speed_abserr].
Proof.
  intros data columns agg. repeat apply Forall_cons; try apply Forall_nil.
  - apply speed_nonneg. - apply speed_nonneg. - apply speed_nonneg. - apply speed_nonneg.
  - apply vdiff_speed_nonneg.
  - apply abserr_nonneg.
Qed.

Lemma C37_directions_proof : forall data columns agg,
  Forall (fun stat => exists r, stat data columns agg = Ok r /\
      forall x, r = Some x -> 0 <= x <= 360 /\ (x <= 4 \/ 356 <= x))
  [calculate_vcnt_fdir; calculate_vcnt_odir; calculate_vcnt_vdiff_dir; calculate_vcnt_dir_err;
   calculate_vcnt_dir_abser].
Proof.
  intros data columns agg. repeat apply Forall_cons; try apply Forall_nil.
  - apply vector_dir_range. - apply vector_dir_range. - apply vdiff_dir_range. - apply dir_err_range. - apply dir_abserr_range.
Qed.

Lemma C37_degrees_refuted_proof : exists south north columns ds dn,
  SummaryRow wind_fields columns [VPair 0 1 0 1 1 1] south /\ BlowsFrom 0 1 180 /\
  calculate_vcnt_fdir [south] columns false = Ok (Some ds) /\ 356 <= ds /\
  SummaryRow wind_fields columns [VPair 0 (-1) 0 (-1) 1 1] north /\ BlowsFrom 0 (-1) 0 /\
  calculate_vcnt_fdir [north] columns false = Ok (Some dn) /\ dn == 0.
Proof.
  pose proof PI_RGT_0 as PP. pose proof PI_4 as P4.
  exists (line_of wind_fields [VPair 0 1 0 1 1 1]), (line_of wind_fields [VPair 0 (-1) 0 (-1) 1 1]), (line_columns wind_fields),
    (round_half_up_R (reported (- PI)) 7), (round_half_up_R (reported 0) 7).
  split; [apply row_of; [reflexivity|discriminate]|]. split; [|split; [|split; [|split; [|split; [|split]]]]].
  - split; [lra|]. rewrite (vlength_exact 0 1 1) by (reflexivity || discriminate). rewrite Q2R_0, Q2R_1.
    replace (180 * PI / 180)%R with PI by field. rewrite sin_PI, cos_PI. split; ring.
  - unfold calculate_vcnt_fdir, vector_dir.
    set (c1 := get_total _ _ _). vm_compute in c1. unfold c1. clear c1. cbn [bind].
    repeat (set (c1 := _ [//] _); vm_compute in c1; unfold c1; clear c1; cbn [bind]).
    cbn [num2]. unfold calc_direction.
    match goal with |- context [if ?a && ?b then _ else _] => replace (a && b) with false by (vm_compute; reflexivity) end.
    unfold np_arctan2.
    match goal with |- context [if Qlt_bool 0 ?a then _ else _] => replace (Qlt_bool 0 a) with false by (vm_compute; reflexivity) end.
    match goal with |- context [if Qlt_bool ?a 0 then _ else _] => replace (Qlt_bool a 0) with true by (vm_compute; reflexivity) end.
    repeat match goal with |- context [if Qlt_bool ?a ?b then _ else _] => replace (Qlt_bool a b) with false by (vm_compute; reflexivity) end.
    rewrite wrap_reported by lra. reflexivity.
  - replace (reported (- PI)) with (360 - PI)%R by (unfold reported; destruct (Rlt_dec (- PI) 0); lra).
    apply Qle_trans with (round_half_up 356 7); [rewrite (rhu_fix 356 7 (multiple_int 356 7)); qlra|].
    rewrite <- rhuR_Q. apply rhuR_mono. unfold Q2R. simpl. lra.
  - apply row_of; [reflexivity|discriminate].
  - split; [lra|]. rewrite (vlength_exact 0 (-1) 1) by (reflexivity || discriminate). rewrite Q2R_0, Q2R_m1, Q2R_1.
    replace (0 * PI / 180)%R with 0%R by field. rewrite sin_0, cos_0. split; ring.
  - unfold calculate_vcnt_fdir, vector_dir.
    set (c1 := get_total _ _ _). vm_compute in c1. unfold c1. clear c1. cbn [bind].
    repeat (set (c1 := _ [//] _); vm_compute in c1; unfold c1; clear c1; cbn [bind]).
    cbn [num2]. unfold calc_direction.
    match goal with |- context [if ?a && ?b then _ else _] => replace (a && b) with false by (vm_compute; reflexivity) end.
    unfold np_arctan2.
    match goal with |- context [if Qlt_bool 0 ?a then _ else _] => replace (Qlt_bool 0 a) with true by (vm_compute; reflexivity) end.
    match goal with |- context [(Q2R ?a / Q2R ?b)%R] => rewrite (Q2R_eq a 0) by (vm_compute; reflexivity); rewrite (Q2R_eq b 1) by (vm_compute; reflexivity) end.
    rewrite Q2R_0, Q2R_1. replace (0 / 1)%R with 0%R by field. rewrite atan_0. rewrite wrap_reported by lra. reflexivity.
  - replace (reported 0) with (Q2R 0) by (unfold reported; rewrite Q2R_0; destruct (Rlt_dec 0 0); lra).
    rewrite rhuR_Q. apply rhu_fix, multiple_0.
Qed.

Lemma C37_below_360_refuted_proof : exists row columns d,
  SummaryRow wind_fields columns [VPair (1 # 1000000000) (-1) 0 0 1 0] row /\
  calculate_vcnt_fdir [row] columns false = Ok (Some d) /\ d == 360.
Proof.
  pose proof PI_RGT_0 as PP. pose proof PI2_1 as P4.
  pose proof (atan_small (1 / 1000000000)%R ltac:(lra)) as AS.
  exists (line_of wind_fields [VPair (1 # 1000000000) (-1) 0 0 1 0]), (line_columns wind_fields),
    (round_half_up_R (reported (- atan (1 / 1000000000))) 7).
  split; [apply row_of; [reflexivity|discriminate]|]. split.
  - unfold calculate_vcnt_fdir, vector_dir.
    set (c1 := get_total _ _ _). vm_compute in c1. unfold c1. clear c1. cbn [bind].
    repeat (set (c1 := _ [//] _); vm_compute in c1; unfold c1; clear c1; cbn [bind]).
    cbn [num2]. unfold calc_direction.
    match goal with |- context [if ?a && ?b then _ else _] => replace (a && b) with false by (vm_compute; reflexivity) end.
    unfold np_arctan2.
    match goal with |- context [if Qlt_bool 0 ?a then _ else _] => replace (Qlt_bool 0 a) with true by (vm_compute; reflexivity) end.
    match goal with |- context [(Q2R ?a / Q2R ?b)%R] => replace (Q2R a / Q2R b)%R with (- (1 / 1000000000))%R by (unfold Q2R; simpl; lra) end.
    rewrite atan_opp. rewrite wrap_reported by (pose proof (atan_bound (1 / 1000000000)); lra). reflexivity.
  - replace (reported (- atan (1 / 1000000000))) with (360 - atan (1 / 1000000000))%R
      by (unfold reported; destruct (Rlt_dec (- atan (1 / 1000000000)) 0); lra).
    apply (nearestR_unique _ _ _ (rhuR_nearest _ 7)).
    assert (HU : Q2R (half_unit 7) = (1 / 20000000)%R) by (unfold half_unit, Q2R; simpl; lra).
    split; [exact (multiple_int 360 7)|]. rewrite HU. replace (Q2R 360) with 360%R by (unfold Q2R; simpl; lra). split; lra.
Qed.

Lemma C37_direction_error_proof : forall groups data columns,
  Summaries wind_fields columns groups data ->
  let l := concat groups in
  exists r, aggregated "vcnt_dir_err" calculate_vcnt_dir_err data columns = Ok r /\
    forall x, r = Some x -> exists a,
      BearingOf (mean_vf l * mean_uo l - mean_uf l * mean_vo l) (mean_uf l * mean_uo l + mean_vf l * mean_vo l) a /\
      PublishedR (Some (reported a)) (Some x).
Proof.
  intros groups data columns HS. cbv zeta.
  eapply (agg_intro wind_fields (fun l r => forall x, r = Some x -> exists a,
      BearingOf (mean_of vf l * mean_of uo l - mean_of uf l * mean_of vo l) (mean_of uf l * mean_of uo l + mean_of vf l * mean_of vo l) a /\
      PublishedR (Some (reported a)) (Some x))); [reflexivity|reflexivity|reflexivity|reflexivity|exact HS|].
  intros d n HM. destruct (dir_err_value _ _ _ _ _ HM) as (r & p & w & E & Pp & Pw & Z & N); [inl|inl|inl|inl|].
  exists r. split; [exact E|]. intros x ->.
  destruct (Qeq_dec p 0) as [K|Np]; [discriminate (Z (or_introl K))|].
  destruct (Qeq_dec w 0) as [K|Nw]; [discriminate (Z (or_intror K))|].
  destruct (N Np Nw) as (X & Y & _ & _ & C1 & C2). destruct (calm_dec X Y) as [C|C]; [discriminate (C1 C)|exact (C2 C)].
Qed.

Lemma C37_direction_error_defined_proof : forall groups data columns f o,
  Summaries wind_fields columns groups data -> count (concat groups) <= 17000 ->
  aggregated "vcnt_fbar_speed" calculate_vcnt_fbar_speed data columns = Ok (Some f) -> ~ f == 0 ->
  aggregated "vcnt_obar_speed" calculate_vcnt_obar_speed data columns = Ok (Some o) -> ~ o == 0 ->
  exists x, aggregated "vcnt_dir_err" calculate_vcnt_dir_err data columns = Ok (Some x).
Proof.
  intros groups data columns f o HS Hc Ef Nf Eo No.
  pose proof (C42_pooling_proof groups data columns HS) as F. rewrite !Forall_cons_iff in F.
  destruct F as (_ & _ & _ & _ & _ & _ & _ & _ & _ & _ & _ & _ & _ & _ & (f' & Ef' & Pf) & (o' & Eo' & Po) & _).
  rewrite Ef in Ef'. injection Ef' as <-. rewrite Eo in Eo'. injection Eo' as <-.
  assert (K : exists r, aggregated "vcnt_dir_err" calculate_vcnt_dir_err data columns = Ok r /\ r <> None).
  { eapply (agg_intro wind_fields (fun l r => r <> None)); [reflexivity|reflexivity|reflexivity|reflexivity|exact HS|].
    intros d n HM. destruct (dir_err_value _ _ _ _ _ HM) as (r & p & w & E & Pp & Pw & Z & N); [inl|inl|inl|inl|].
    exists r. split; [exact E|]. set (l := concat groups) in *. unfold FspeedOf, OspeedOf, PublishedR in Pf, Po.
    assert (Hl : l <> []) by (destruct HM as (_ & _ & Hl & _); exact Hl). pose proof (count_pos l Hl) as Pc.
    assert (C1' : 1 <= count l) by (apply count_ge1; exact Hl).
    assert (Np : ~ p == 0) by (rewrite (nearestR_unique _ _ _ Pp Pf); exact Nf).
    assert (O0 : 0 <= o) by (apply (nearest_le_root _ _ Po), sqrt_pos).
    assert (OW : o <= w).
    { rewrite (nearestR_unique _ _ _ Po (rhuR_nearest _ 7)), (nearestR_unique _ _ _ Pw (rhuR_nearest _ 7)).
      apply rhuR_mono. rewrite vlength_scale by qlra.
      assert (1 <= Q2R (count l))%R by (rewrite <- Q2R_1; apply Q2R_le; exact C1').
      pose proof (sqrt_pos (Q2R (mean_of uo l * mean_of uo l + mean_of vo l * mean_of vo l))) as SP. unfold vlength. nra. }
    assert (Nw : ~ w == 0) by (intro; apply No; qlra).
    destruct (N Np Nw) as (X & Y & HX & HY & _ & C2).
    assert (C : ~ Calm X Y).
    { apply (few_not_calm X Y (count l) Pc Hc). apply (scaled_size l p w X Y Pp Pw Np Nw HX HY). }
    destruct (C2 C) as (t & _ & P). destruct r; [discriminate|contradiction P]. }
  destruct K as ([x|] & E & NN); [exists x; exact E|congruence].
Qed.

Lemma C37_direction_error_lost_refuted_proof : forall groups data columns,
  Summaries wind_fields columns groups data -> 225000 < count (concat groups) ->
  aggregated "vcnt_dir_err" calculate_vcnt_dir_err data columns = Ok None.
Proof.
  intros groups data columns HS Hc.
  assert (K : exists r, aggregated "vcnt_dir_err" calculate_vcnt_dir_err data columns = Ok r /\ r = None).
  { eapply (agg_intro wind_fields (fun l r => r = None)); [reflexivity|reflexivity|reflexivity|reflexivity|exact HS|].
    intros d n HM. destruct (dir_err_value _ _ _ _ _ HM) as (r & p & w & E & Pp & Pw & Z & N); [inl|inl|inl|inl|].
    exists r. split; [exact E|].
    destruct (Qeq_dec p 0) as [K|Np]; [apply Z; left; exact K|].
    destruct (Qeq_dec w 0) as [K|Nw]; [apply Z; right; exact K|].
    destruct (N Np Nw) as (X & Y & HX & HY & C1 & _). apply C1.
    apply (many_calm X Y (count (concat groups)) Hc).
    apply (scaled_size (concat groups) p w X Y Pp Pw Np Nw HX HY). }
  destruct K as (r & E & ->). exact E.
Qed.

Lemma C37_case_proof : forall n, (0 < n)%nat ->
  Summaries wind_fields (line_columns wind_fields) [many_cases n] [line_of wind_fields (many_cases n)] /\
  count (concat [many_cases n]) == inject_Z (Z.of_nat n) /\
  mean_uf (many_cases n) == 3 /\ mean_vf (many_cases n) == 4.
Proof.
  intros n Hn. destruct n as [|n]; [lia|].
  assert (Hl : many_cases (S n) <> []) by discriminate.
  pose proof (count_pos _ Hl) as P.
  assert (M : forall (g : vpair -> Q) c, g (VPair 3 4 4 3 5 5) = c -> mean_of g (many_cases (S n)) == c).
  { intros g c E. unfold mean_of. rewrite (total_ext g (fun _ => c)).
    - rewrite total_const. field. qlra.
    - intros x Hx. apply repeat_spec in Hx. subst x. rewrite E. reflexivity. }
  split; [|split; [|split]].
  - apply (lines_summaries wind_fields [many_cases (S n)]); [apply nodupb_ok; reflexivity|discriminate|].
    intros b [<-|[]]. exact Hl.
  - unfold count. rewrite concat_cons, app_nil_r. unfold many_cases. rewrite repeat_length. reflexivity.
  - apply M. reflexivity.
  - apply M. reflexivity.
Qed.

