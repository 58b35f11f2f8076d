(** Proofs about equatorial waves. *)
From Coq Require Import Reals.
From Verif Require Import PyBase MatsunoModel MatsunoSpec.
From Coq Require Import List Lia Lra.
Import ListNotations.
Open Scope R_scope.

Lemma g_is : g = gravity. Proof. unfold g, gravity. lra. Qed.
Lemma omega_is : omega = rotation. Proof. unfold omega, rotation. lra. Qed.
Lemma cos_is latitude : cos (Rabs latitude * deg2rad) = cosine latitude.
Proof.
  unfold cosine, deg2rad. replace (Rabs latitude * (PI / 180)) with (Rabs latitude * PI / 180) by field. unfold Rabs. destruct (Rcase_abs latitude); [|reflexivity].
  replace (- latitude * PI / 180) with (- (latitude * PI / 180)) by field. apply cos_neg.
Qed.
Lemma beta_is latitude : beta_of latitude = Beta latitude.
Proof. unfold beta_of, Beta. rewrite cos_is, omega_is. reflexivity. Qed.
Lemma re_pos : 0 < earth_radius. Proof. unfold earth_radius. lra. Qed.
Lemma beta_pos latitude : 0 < cosine latitude -> 0 < Beta latitude.
Proof. intros H. unfold Beta. apply Rdiv_lt_0_compat; [|exact re_pos]. apply Rmult_lt_0_compat; [unfold rotation; lra|exact H]. Qed.
Lemma speed_is he : sqrt (g * he) = Speed he. Proof. unfold Speed. rewrite g_is. reflexivity. Qed.
Lemma speed_pos he : 0 < he -> 0 < Speed he.
Proof. intros H. apply sqrt_lt_R0. apply Rmult_lt_0_compat; [unfold gravity; lra|exact H]. Qed.
Lemma speed_square he : 0 < he -> Speed he ^ 2 = g * he.
Proof. intros H. unfold Speed. rewrite g_is. replace (sqrt (gravity * he) ^ 2) with (sqrt (gravity * he) * sqrt (gravity * he)) by ring. apply sqrt_sqrt. apply Rmult_le_pos; [unfold gravity|]; lra. Qed.
Lemma k_is latitude wn : 0 < cosine latitude -> wn2k wn (perimeter_of latitude) = Wavenumber latitude wn.
Proof.
  intros H. unfold wn2k, Wavenumber, perimeter_of. rewrite cos_is. change re with earth_radius. pose proof re_pos. destruct (Req_EM_T wn 0) as [->|N]; [field; split; lra|]. field. pose proof PI_RGT_0. repeat split; lra.
Qed.
Lemma cycles_is w : afreq2freq w = Cycles w.
Proof. unfold afreq2freq, Cycles, sec2day. pose proof PI_RGT_0. destruct (Req_EM_T w 0) as [->|N]; field; repeat split; lra. Qed.
Lemma cycles_lt a b : Cycles a < Cycles b <-> a < b.
Proof.
  unfold Cycles. pose proof PI_RGT_0 as P. assert (K : 0 < 86400 / (2 * PI)) by (apply Rdiv_lt_0_compat; lra). replace (a * 86400 / (2 * PI)) with (a * (86400 / (2 * PI))) by (field; lra). replace (b * 86400 / (2 * PI)) with (b * (86400 / (2 * PI))) by (field; lra).
  split; intros H; [apply Rmult_lt_reg_r in H; assumption|apply Rmult_lt_compat_r; assumption].
Qed.
Lemma k_pos latitude wn : 0 < cosine latitude -> (0 < Wavenumber latitude wn <-> 0 < wn).
Proof.
  intros H. unfold Wavenumber. pose proof re_pos. assert (K : 0 < earth_radius * cosine latitude) by (apply Rmult_lt_0_compat; assumption). split; intros P.
  - replace wn with (wn / (earth_radius * cosine latitude) * (earth_radius * cosine latitude)) by (field; split; lra). apply Rmult_lt_0_compat; assumption.
  - apply Rdiv_lt_0_compat; assumption.
Qed.
Lemma k_opp latitude wn : Wavenumber latitude (- wn) = - Wavenumber latitude wn.
Proof. unfold Wavenumber, Rdiv. ring. Qed.
Lemma k_neg latitude wn : 0 < cosine latitude -> (Wavenumber latitude wn < 0 <-> wn < 0).
Proof. intros H. pose proof (k_pos latitude (- wn) H) as K. rewrite k_opp in K. split; intros P; [assert (0 < - wn) by (apply K; lra); lra|assert (0 < - Wavenumber latitude wn) by (apply K; lra); lra]. Qed.
Lemma k_lt latitude a b : 0 < cosine latitude -> a < b -> Wavenumber latitude a < Wavenumber latitude b.
Proof.
  intros H L. pose proof (k_pos latitude (b - a) H) as K. assert (X : 0 < Wavenumber latitude (b - a)) by (apply K; lra). replace (Wavenumber latitude (b - a)) with (Wavenumber latitude b - Wavenumber latitude a) in X; [lra|]. unfold Wavenumber, Rdiv. ring.
Qed.
Lemma curve_run he latitude m N at_k t : 0 < cosine latitude -> curve he latitude m N at_k = Ok t ->
  0 < he /\ t = map (fun wn => (wn, option_map Cycles (at_k (Wavenumber latitude wn)))) (wn_array m N).
Proof.
  intros H. unfold curve. destruct (Rlt_dec 0 he) as [P|]; [|discriminate]. rewrite cos_is. destruct (Req_EM_T (cosine latitude) 0); [discriminate|]. intros [= <-]. split; [exact P|].
  apply map_ext. intros wn. rewrite k_is by exact H. f_equal. destruct (at_k _); [|reflexivity]. cbn. f_equal. apply cycles_is.
Qed.
Lemma curve_ok he latitude m N at_k : 0 < he -> 0 < cosine latitude ->
  curve he latitude m N at_k = Ok (map (fun wn => (wn, option_map Cycles (at_k (Wavenumber latitude wn)))) (wn_array m N)).
Proof.
  intros P H. destruct (curve he latitude m N at_k) as [t|e] eqn:E; [f_equal; exact (proj2 (curve_run _ _ _ _ _ _ H E))|]. exfalso. unfold curve in E. destruct (Rlt_dec 0 he); [|contradiction]. rewrite cos_is in E. destruct (Req_EM_T (cosine latitude) 0); [lra|discriminate].
Qed.
Lemma curve_in he latitude m N at_k t wn f : 0 < cosine latitude -> curve he latitude m N at_k = Ok t -> In (wn, f) t ->
  0 < he /\ f = option_map Cycles (at_k (Wavenumber latitude wn)).
Proof. intros H E I. destruct (curve_run _ _ _ _ _ _ H E) as [P ->]. split; [exact P|]. apply in_map_iff in I. destruct I as (x & X & _). injection X as <- <-. reflexivity. Qed.

(** ** The mixed relation *)
Definition mixed (p q : R) : R := (p + sqrt (p * p + 4 * q)) / 2.
Lemma mixed_root p q : 0 < q -> 0 < mixed p q /\ mixed p q ^ 2 - p * mixed p q - q = 0.
Proof.
  intros Q. unfold mixed. assert (NN : 0 <= p * p + 4 * q) by nra. pose proof (sqrt_sqrt _ NN) as S1. pose proof (sqrt_pos (p * p + 4 * q)) as S2. set (s := sqrt (p * p + 4 * q)) in *. split.
  - assert (- p < s) by nra. lra.
  - replace (((p + s) / 2) ^ 2 - p * ((p + s) / 2) - q) with ((s * s - (p * p + 4 * q)) / 4) by field. rewrite S1. field.
Qed.
Lemma mixed_unique p q w w' : 0 < q -> 0 < w -> 0 < w' -> w ^ 2 - p * w - q = 0 -> w' ^ 2 - p * w' - q = 0 -> w' = w.
Proof.
  intros Q W W' E E'. assert (X : (w' - w) * (w' + w - p) = 0) by (ring_simplify; lra). apply Rmult_integral in X. destruct X as [X|X]; [lra|]. exfalso. assert (Y : p = w' + w) by lra. subst p. nra.
Qed.
Lemma mixed_up p p' q w w' : 0 < q -> 0 < w -> 0 < w' -> w ^ 2 - p * w - q = 0 -> w' ^ 2 - p' * w' - q = 0 -> p < p' -> w < w'.
Proof.
  intros Q W W' E E' L. assert (X : (p' - p) * (w * w') = (w' - w) * (w * w' + q)) by nra. assert (Y : 0 < w * w') by (apply Rmult_lt_0_compat; assumption). assert (Z : 0 < (p' - p) * (w * w')) by (apply Rmult_lt_0_compat; lra). nra.
Qed.
Lemma mixed_deeper c c' k b w w' : 0 < b -> 0 < c < c' -> 0 < w -> 0 < w' -> w ^ 2 - c * k * w - b * c = 0 -> w' ^ 2 - c' * k * w' - b * c' = 0 -> w < w'.
Proof.
  intros B C W W' E E'. assert (P : 0 < k * w + b) by (assert (w ^ 2 = c * (k * w + b)) by (ring_simplify; lra); assert (0 < w ^ 2) by nra; nra).
  assert (P' : 0 < k * w' + b) by (assert (w' ^ 2 = c' * (k * w' + b)) by (ring_simplify; lra); assert (0 < w' ^ 2) by nra; nra).
  assert (X : (c' - c) * ((k * w + b) * (k * w' + b)) = (w' - w) * (w' * (k * w + b) + b * w)).
  { replace ((c' - c) * ((k * w + b) * (k * w' + b))) with (c' * (k * w' + b) * (k * w + b) - c * (k * w + b) * (k * w' + b)) by ring.
    replace (c' * (k * w' + b)) with (w' ^ 2) by (ring_simplify; lra). replace (c * (k * w + b)) with (w ^ 2) by (ring_simplify; lra). ring. }
  assert (Y : 0 < (c' - c) * ((k * w + b) * (k * w' + b))) by (apply Rmult_lt_0_compat; [lra|apply Rmult_lt_0_compat; assumption]).
  assert (Z : 0 < w' * (k * w + b) + b * w) by (apply Rplus_lt_0_compat; apply Rmult_lt_0_compat; assumption). nra.
Qed.
Lemma root_scaled c b k : 0 < c -> 0 < b -> k <> 0 -> c * Rabs k * sqrt (1 + 4 * b / (k * k * c)) = sqrt (c * k * (c * k) + 4 * (b * c)).
Proof.
  intros C B K. assert (KK : 0 < k * k) by nra. assert (A : c * Rabs k = sqrt (c * k * (c * k))).
  { replace (c * k * (c * k)) with (Rsqr (c * k)) by reflexivity. rewrite sqrt_Rsqr_abs, Rabs_mult. rewrite (Rabs_pos_eq c) by lra. reflexivity. }
  rewrite A, <- sqrt_mult.
  - f_equal. field. lra.
  - apply Rle_0_sqr.
  - assert (0 < 4 * b / (k * k * c)) by (apply Rdiv_lt_0_compat; [lra|apply Rmult_lt_0_compat; assumption]). lra.
Qed.
Lemma mrg_formula c b k : 0 < c -> 0 < b -> k < 0 -> c * k * (1 / 2 - 1 / 2 * sqrt (1 + 4 * b / (k * k * c))) = mixed (c * k) (b * c).
Proof.
  intros C B K. pose proof (root_scaled c b k C B) as X. rewrite Rabs_left in X by exact K. specialize (X ltac:(lra)). unfold mixed. rewrite <- X. field.
Qed.
Lemma eig_formula c b k : 0 < c -> 0 < b -> 0 < k -> c * k * (1 / 2 + 1 / 2 * sqrt (1 + 4 * b / (k * k * c))) = mixed (c * k) (b * c).
Proof.
  intros C B K. pose proof (root_scaled c b k C B) as X. rewrite Rabs_pos_eq in X by lra. specialize (X ltac:(lra)). unfold mixed. rewrite <- X. field.
Qed.
Lemma kelvin_in he latitude m N t wn f : 0 < cosine latitude -> kelvin_mode he latitude m N = Ok t -> In (wn, f) t ->
  0 < he /\ f = if Rlt_dec 0 wn then Some (Cycles (Speed he * Wavenumber latitude wn)) else None.
Proof.
  intros H E I. destruct (curve_in _ _ _ _ _ _ _ _ H E I) as [P ->]. split; [exact P|]. rewrite speed_is. pose proof (k_pos latitude wn H) as K. destruct (Rle_dec _ 0), (Rlt_dec 0 wn); try reflexivity; exfalso; [apply K in r0; lra|apply n0; apply K; lra].
Qed.
Lemma mrg_in he latitude m N t wn f : 0 < cosine latitude -> mrg_mode he latitude m N = Ok t -> In (wn, f) t ->
  0 < he /\ f = if Rlt_dec wn 0 then Some (Cycles (mixed (Speed he * Wavenumber latitude wn) (Beta latitude * Speed he))) else None.
Proof.
  intros H E I. destruct (curve_in _ _ _ _ _ _ _ _ H E I) as [P ->]. split; [exact P|]. rewrite speed_is, beta_is. pose proof (k_neg latitude wn H) as K. destruct (Rge_dec _ 0), (Rlt_dec wn 0); try reflexivity; try (exfalso; apply K in r0; lra).
  - cbn. do 2 f_equal. apply mrg_formula; [apply speed_pos; exact P|apply beta_pos; exact H|apply K; assumption].
  - exfalso. apply n0. apply K. lra.
Qed.
Lemma eig0_in he latitude m N t wn f : 0 < cosine latitude -> eig_n_0 he latitude m N = Ok t -> In (wn, f) t ->
  0 < he /\ f = if Rlt_dec 0 wn then Some (Cycles (mixed (Speed he * Wavenumber latitude wn) (Beta latitude * Speed he))) else None.
Proof.
  intros H E I. destruct (curve_in _ _ _ _ _ _ _ _ H E I) as [P ->]. split; [exact P|]. rewrite speed_is, beta_is. pose proof (k_pos latitude wn H) as K. destruct (Rle_dec _ 0), (Rlt_dec 0 wn); try reflexivity; try (exfalso; apply K in r0; lra).
  - cbn. do 2 f_equal. apply eig_formula; [apply speed_pos; exact P|apply beta_pos; exact H|apply K; assumption].
  - exfalso. apply n0. apply K. lra.
Qed.
Lemma mixed_facts he latitude k : 0 < he -> 0 < cosine latitude -> let w := mixed (Speed he * k) (Beta latitude * Speed he) in
  0 < w /\ Mixed he latitude k w /\ (forall w', 0 < w' -> Mixed he latitude k w' -> w' = w) /\ Matsuno he latitude 0 k w.
Proof.
  intros P H w. pose proof (speed_pos he P) as C. pose proof (beta_pos latitude H) as B. assert (Q : 0 < Beta latitude * Speed he) by (apply Rmult_lt_0_compat; assumption). destruct (mixed_root (Speed he * k) _ Q) as [W E]. fold w in W, E.
  split; [exact W|]. split; [exact E|]. split; [intros w' W' E'; exact (mixed_unique _ _ w w' Q W W' E E')|].
  unfold Matsuno. cbv zeta. replace (_ - _ - _ - _) with ((w + Speed he * k) * (w ^ 2 - Speed he * k * w - Beta latitude * Speed he)) by ring. rewrite E. ring.
Qed.

(** ** The cubic relation *)
Definition cubic (A B w : R) : R := w ^ 3 - A * w + B.
Lemma cubic_diff A B x y : cubic A B y - cubic A B x = (y - x) * (y * y + y * x + x * x - A).
Proof. unfold cubic. ring. Qed.
Lemma cubic_low A B L w w' : 0 < L -> cubic A B L < 0 -> 0 < w < L -> 0 < w' < L -> cubic A B w = 0 -> cubic A B w' = 0 -> w = w'.
Proof.
  intros P N W W' E E'. pose proof (cubic_diff A B w w') as D. rewrite E, E' in D. assert (X : (w' - w) * (w' * w' + w' * w + w * w - A) = 0) by lra. apply Rmult_integral in X. destruct X as [X|X]; [lra|]. exfalso.
  pose proof (cubic_diff A B w L) as D2. rewrite E in D2. assert (L * L + L * w + w * w < A) by nra. nra.
Qed.
Lemma cubic_high A B L w w' : 0 < L -> cubic A B L < 0 -> L < w -> L < w' -> cubic A B w = 0 -> cubic A B w' = 0 -> w = w'.
Proof.
  intros P N W W' E E'. pose proof (cubic_diff A B w w') as D. rewrite E, E' in D. assert (X : (w' - w) * (w' * w' + w' * w + w * w - A) = 0) by lra. apply Rmult_integral in X. destruct X as [X|X]; [lra|]. exfalso.
  pose proof (cubic_diff A B L w) as D2. rewrite E in D2. assert (A < w * w + w * L + L * L) by nra. nra.
Qed.
Lemma cubic_below A B L m w : 0 < L -> 0 < m -> cubic A B L < 0 -> cubic A B m < 0 -> 0 < w < L -> cubic A B w = 0 -> w < m.
Proof.
  intros P M NL NM W E. destruct (Rlt_le_dec w m) as [|K]; [assumption|]. exfalso. assert (w <> m) by (intros ->; lra).
  pose proof (cubic_diff A B m w) as D. pose proof (cubic_diff A B w L) as D2. rewrite E in D, D2. assert (A < w * w + w * m + m * m) by nra. assert (L * L + L * w + w * w < A) by nra. nra.
Qed.
Lemma cubic_above A B L m w : 0 < L -> 0 < m -> cubic A B L < 0 -> cubic A B m < 0 -> L < w -> cubic A B w = 0 -> m < w.
Proof.
  intros P M NL NM W E. destruct (Rlt_le_dec m w) as [|K]; [assumption|]. exfalso. assert (w <> m) by (intros ->; lra).
  pose proof (cubic_diff A B L w) as D. pose proof (cubic_diff A B w m) as D2. rewrite E in D, D2. assert (A < w * w + w * L + L * L) by nra. assert (m * m + m * w + w * w < A) by nra. nra.
Qed.
(** The only positive root for [B < 0]. *)
Lemma cubic_one A B w w' : 0 < A -> B < 0 -> 0 < w -> 0 < w' -> cubic A B w = 0 -> cubic A B w' = 0 -> w = w'.
Proof.
  intros P N W W' E E'. pose proof (cubic_diff A B w w') as D. rewrite E, E' in D. assert (X : (w' - w) * (w' * w' + w' * w + w * w - A) = 0) by lra. apply Rmult_integral in X. destruct X as [X|X]; [lra|]. exfalso.
  unfold cubic in E. assert (w * (w * w - A) = - B) by (ring_simplify; ring_simplify in E; lra). assert (A < w * w) by nra. nra.
Qed.
Lemma cubic_one_above A B m w : 0 < A -> B < 0 -> 0 < m -> cubic A B m < 0 -> 0 < w -> cubic A B w = 0 -> m < w.
Proof.
  intros P N M NM W E. destruct (Rlt_le_dec m w) as [|K]; [assumption|]. exfalso. assert (w <> m) by (intros ->; lra).
  pose proof (cubic_diff A B w m) as D2. rewrite E in D2. unfold cubic in E. assert (w * (w * w - A) = - B) by (ring_simplify; ring_simplify in E; lra). assert (A < w * w) by nra. assert (m * m + m * w + w * w < A) by nra. nra.
Qed.
Lemma cubic_continuous A B : continuity (cubic A B).
Proof. unfold cubic. reg. Qed.
Lemma cubic_between A B x y : x < y -> cubic A B x * cubic A B y < 0 -> exists w, x < w < y /\ cubic A B w = 0.
Proof.
  intros L N. destruct (IVT_cor (cubic A B) x y (cubic_continuous A B)) as (w & W & E); [lra|lra|]. exists w. split; [|exact E].
  assert (w <> x) by (intros ->; rewrite E in N; lra). assert (w <> y) by (intros ->; rewrite E in N; lra). lra.
Qed.
Definition coefA (he latitude : R) (n : Z) (k : R) : R := Speed he ^ 2 * k ^ 2 + (2 * IZR n + 1) * Beta latitude * Speed he.
Definition coefB (he latitude k : R) : R := - k * Beta latitude * Speed he ^ 2.
Lemma matsuno_cubic he latitude n k w : Matsuno he latitude n k w <-> cubic (coefA he latitude n k) (coefB he latitude k) w = 0.
Proof. unfold Matsuno, cubic, coefA, coefB. cbv zeta. split; intros H; rewrite <- H; ring. Qed.
Lemma disp_cubic he latitude n k w : 0 < he -> dispersion w k n he (beta_of latitude) = cubic (coefA he latitude n k) (coefB he latitude k) w.
Proof.
  intros P. unfold dispersion, cubic, coefA, coefB. rewrite beta_is, speed_is. rewrite <- (speed_square he P). pose proof (speed_pos he P). replace (k * Beta latitude * g * he) with (k * Beta latitude * (g * he)) by ring. rewrite <- (speed_square he P). field. lra.
Qed.
Section Modes.
  Variables (he latitude : R) (n : Z) (k : R).
  Hypotheses (P : 0 < he) (H : 0 < cosine latitude) (N : (1 <= n)%Z).
  Let c := Speed he.
  Let b := Beta latitude.
  Lemma c_pos : 0 < c. Proof. apply speed_pos. exact P. Qed.
  Lemma b_pos : 0 < b. Proof. apply beta_pos. exact H. Qed.
  Lemma n_pos : 1 <= IZR n. Proof. apply IZR_le. exact N. Qed.
  Lemma bc_pos : 0 < b * c. Proof. apply Rmult_lt_0_compat; [exact b_pos|exact c_pos]. Qed.
  Lemma A_big : c ^ 2 * k ^ 2 + 3 * (b * c) <= coefA he latitude n k.
  Proof. unfold coefA. fold b c. pose proof bc_pos. pose proof n_pos. nra. Qed.
  Lemma A_pos : 0 < coefA he latitude n k.
  Proof. pose proof A_big. pose proof bc_pos. assert (0 <= (c * k) ^ 2) by apply pow2_ge_0. replace ((c * k) ^ 2) with (c ^ 2 * k ^ 2) in * by ring. lra. Qed.
  (** The cubic is negative at the frequency of a gravity wave, of a mixed wave and of the mode before. *)
  Lemma at_gravity : k < 0 -> cubic (coefA he latitude n k) (coefB he latitude k) (c * - k) < 0.
  Proof.
    intros K. unfold cubic, coefA, coefB. fold b c. replace (_ - _ + _) with (- (2 * IZR n) * (b * c) * (c * - k)) by ring. pose proof n_pos. pose proof bc_pos. pose proof c_pos. assert (0 < c * - k) by (apply Rmult_lt_0_compat; lra).
    assert (0 < 2 * IZR n * (b * c) * (c * - k)) by (apply Rmult_lt_0_compat; [apply Rmult_lt_0_compat; lra|assumption]). lra.
  Qed.
  Lemma at_mixed w : 0 < w -> Mixed he latitude k w -> cubic (coefA he latitude n k) (coefB he latitude k) w < 0.
  Proof.
    intros W M. unfold Mixed in M. fold b c in M. unfold cubic, coefA, coefB. fold b c. replace (_ - _ + _) with ((w + c * k) * (w ^ 2 - c * k * w - b * c) - 2 * IZR n * (b * c) * w) by ring. rewrite M. pose proof n_pos. pose proof bc_pos.
    assert (0 < 2 * IZR n * (b * c) * w) by (apply Rmult_lt_0_compat; [apply Rmult_lt_0_compat; lra|assumption]). lra.
  Qed.
  Lemma at_before w : 0 < w -> Matsuno he latitude n k w -> cubic (coefA he latitude (n + 1) k) (coefB he latitude k) w < 0.
  Proof.
    intros W M. apply matsuno_cubic in M. replace (cubic (coefA he latitude (n + 1) k) (coefB he latitude k) w) with (cubic (coefA he latitude n k) (coefB he latitude k) w - 2 * (b * c) * w).
    - rewrite M. pose proof bc_pos. assert (0 < 2 * (b * c) * w) by (apply Rmult_lt_0_compat; lra). lra.
    - unfold cubic, coefA. rewrite plus_IZR. fold b c. ring.
  Qed.
  Lemma B_pos : k < 0 -> 0 < coefB he latitude k.
  Proof. intros K. unfold coefB. fold b c. pose proof b_pos. pose proof c_pos. apply Rmult_lt_0_compat; [apply Rmult_lt_0_compat; lra|apply pow_lt; assumption]. Qed.
  Lemma B_neg : 0 < k -> coefB he latitude k < 0.
  Proof. intros K. unfold coefB. fold b c. pose proof b_pos. pose proof c_pos. assert (0 < k * b * c ^ 2) by (apply Rmult_lt_0_compat; [apply Rmult_lt_0_compat; lra|apply pow_lt; assumption]). lra. Qed.
  Lemma gravity_below : c * Rabs k < sqrt (coefA he latitude n k).
  Proof.
    replace (c * Rabs k) with (sqrt ((c * k) * (c * k))).
    - apply sqrt_lt_1; [apply Rle_0_sqr|left; exact A_pos|]. pose proof A_big. pose proof bc_pos. replace (c * k * (c * k)) with (c ^ 2 * k ^ 2) by ring. lra.
    - replace (c * k * (c * k)) with (Rsqr (c * k)) by reflexivity. rewrite sqrt_Rsqr_abs, Rabs_mult, (Rabs_pos_eq c); [reflexivity|]. pose proof c_pos. lra.
  Qed.
  Lemma at_seed : cubic (coefA he latitude n k) (coefB he latitude k) (sqrt (coefA he latitude n k)) = coefB he latitude k.
  Proof. unfold cubic. pose proof (sqrt_sqrt (coefA he latitude n k) (Rlt_le _ _ A_pos)) as S1. set (s := sqrt _) in *. replace (s ^ 3) with (s * s * s) by ring. rewrite S1. ring. Qed.
End Modes.
Lemma linspace m N : map fst (map (fun wn : R => (wn, tt)) (wn_array m N)) = wn_array m N.
Proof. rewrite map_map. cbn. apply map_id. Qed.
Lemma axis_of he latitude m N at_k : 0 < he -> 0 < cosine latitude -> exists t, curve he latitude m N at_k = Ok t /\ List.length t = N /\
      (forall i, (i < N)%nat -> (2 <= N)%nat -> nth_error (map fst t) i = Some (- m + 2 * m * INR i / INR (N - 1))) /\
      (N = 1%nat -> map fst t = [- m]) /\ ((2 <= N)%nat -> nth_error (map fst t) (N - 1) = Some m).
Proof.
  intros P H. eexists. split; [exact (curve_ok _ _ _ _ _ P H)|]. rewrite map_map. cbn [fst]. rewrite map_id. split; [rewrite map_length; unfold wn_array; rewrite map_length, seq_length; reflexivity|].
  assert (G : forall i, (i < N)%nat -> (2 <= N)%nat -> nth_error (wn_array m N) i = Some (- m + 2 * m * INR i / INR (N - 1))).
  { intros i I L. unfold wn_array. rewrite nth_error_map. assert (X : nth_error (seq 0 N) i = Some i). { rewrite (nth_error_nth' (seq 0 N) 0%nat) by (rewrite seq_length; exact I). rewrite seq_nth by exact I. reflexivity. } rewrite X. cbn [option_map]. f_equal. unfold Rdiv. ring. }
  split; [exact G|]. split.
  - intros ->. unfold wn_array. cbn [seq map]. f_equal. cbn [INR Nat.sub]. ring.
  - intros L. rewrite G by lia. f_equal. field. apply not_0_INR. lia.
Qed.

(** The statements of PropertiesMatsuno.v. *)
Lemma C94_axis_proof : forall fsolve he n latitude m N, 0 < he -> 0 < cosine latitude ->
  Forall (fun mode => exists t, mode = Ok t /\ List.length t = N /\
      (forall i, (i < N)%nat -> (2 <= N)%nat -> nth_error (map fst t) i = Some (- m + 2 * m * INR i / INR (N - 1))) /\
      (N = 1%nat -> map fst t = [- m]) /\ ((2 <= N)%nat -> nth_error (map fst t) (N - 1) = Some m))
    [kelvin_mode he latitude m N; mrg_mode he latitude m N; eig_n_0 he latitude m N;
     er_n fsolve he n latitude m N; eig_n fsolve he n latitude m N; wig_n fsolve he n latitude m N].
Proof.
  intros fsolve he n latitude m N P H. repeat (apply Forall_cons; [apply axis_of; assumption|]). apply Forall_nil.
Qed.

Lemma C94_axis_case_proof : 0 < 25 /\ 0 < cosine 10.
Proof.
  split; [lra|]. unfold cosine. apply cos_gt_0; pose proof PI_RGT_0; lra.
Qed.

Lemma C94_kelvin_proof : forall he latitude m N t wn f, 0 < cosine latitude -> kelvin_mode he latitude m N = Ok t -> In (wn, f) t ->
  (wn <= 0 -> f = None) /\
  (0 < wn -> exists w, f = Some (Cycles w) /\ w = Speed he * Wavenumber latitude wn /\ 0 < w /\ Matsuno he latitude (-1) (Wavenumber latitude wn) w).
Proof.
  intros he latitude m N t wn f H E I. destruct (kelvin_in _ _ _ _ _ _ _ H E I) as [P ->]. split.
  - intros L. destruct (Rlt_dec 0 wn); [lra|reflexivity].
  - intros L. destruct (Rlt_dec 0 wn); [|lra]. eexists. split; [reflexivity|]. split; [reflexivity|]. split; [apply Rmult_lt_0_compat; [apply speed_pos; exact P|apply k_pos; assumption]|].
    unfold Matsuno. cbv zeta. ring.
Qed.

Lemma C94_mrg_proof : forall he latitude m N t wn f, 0 < cosine latitude -> mrg_mode he latitude m N = Ok t -> In (wn, f) t ->
  (0 <= wn -> f = None) /\
  (wn < 0 -> exists w, f = Some (Cycles w) /\ 0 < w /\ Mixed he latitude (Wavenumber latitude wn) w /\
      (forall w', 0 < w' -> Mixed he latitude (Wavenumber latitude wn) w' -> w' = w) /\ Matsuno he latitude 0 (Wavenumber latitude wn) w).
Proof.
  intros he latitude m N t wn f H E I. destruct (mrg_in _ _ _ _ _ _ _ H E I) as [P ->]. split.
  - intros L. destruct (Rlt_dec wn 0); [lra|reflexivity].
  - intros L. destruct (Rlt_dec wn 0); [|lra]. eexists. split; [reflexivity|]. exact (mixed_facts he latitude _ P H).
Qed.

Lemma C94_eig0_proof : forall he latitude m N t wn f, 0 < cosine latitude -> eig_n_0 he latitude m N = Ok t -> In (wn, f) t ->
  (wn <= 0 -> f = None) /\
  (0 < wn -> exists w, f = Some (Cycles w) /\ 0 < w /\ Mixed he latitude (Wavenumber latitude wn) w /\
      (forall w', 0 < w' -> Mixed he latitude (Wavenumber latitude wn) w' -> w' = w) /\ Matsuno he latitude 0 (Wavenumber latitude wn) w).
Proof.
  intros he latitude m N t wn f H E I. destruct (eig0_in _ _ _ _ _ _ _ H E I) as [P ->]. split.
  - intros L. destruct (Rlt_dec 0 wn); [lra|reflexivity].
  - intros L. destruct (Rlt_dec 0 wn); [|lra]. eexists. split; [reflexivity|]. exact (mixed_facts he latitude _ P H).
Qed.

Lemma C94_increasing_proof : forall he latitude m N, 0 < cosine latitude ->
  Forall (fun mode => forall t wn f wn' f', mode = Ok t -> In (wn, Some f) t -> In (wn', Some f') t -> wn < wn' -> f < f')
    [kelvin_mode he latitude m N; mrg_mode he latitude m N; eig_n_0 he latitude m N].
Proof.
  intros he latitude m N H. apply Forall_cons; [|apply Forall_cons; [|apply Forall_cons; [|apply Forall_nil]]]; intros t wn f wn' f' E I I' L.
  - destruct (kelvin_in _ _ _ _ _ _ _ H E I) as [P F]. destruct (kelvin_in _ _ _ _ _ _ _ H E I') as [_ F']. pose proof (k_lt latitude wn wn' H L) as K. pose proof (speed_pos he P) as C. assert (CK : Speed he * Wavenumber latitude wn < Speed he * Wavenumber latitude wn') by (apply Rmult_lt_compat_l; assumption).
    destruct (Rlt_dec _ _); [|discriminate]. destruct (Rlt_dec _ _); [|discriminate]. injection F as ->. injection F' as ->. apply cycles_lt. exact CK.
  - destruct (mrg_in _ _ _ _ _ _ _ H E I) as [P F]. destruct (mrg_in _ _ _ _ _ _ _ H E I') as [_ F']. pose proof (k_lt latitude wn wn' H L) as K. pose proof (speed_pos he P) as C. assert (CK : Speed he * Wavenumber latitude wn < Speed he * Wavenumber latitude wn') by (apply Rmult_lt_compat_l; assumption).
    destruct (Rlt_dec _ _); [|discriminate]. destruct (Rlt_dec _ _); [|discriminate]. injection F as ->. injection F' as ->. apply cycles_lt. pose proof (mixed_facts he latitude (Wavenumber latitude wn) P H) as (A1 & B1 & _). pose proof (mixed_facts he latitude (Wavenumber latitude wn') P H) as (A2 & B2 & _).
    refine (mixed_up _ _ _ _ _ _ A1 A2 B1 B2 CK). apply bc_pos; assumption.
  - destruct (eig0_in _ _ _ _ _ _ _ H E I) as [P F]. destruct (eig0_in _ _ _ _ _ _ _ H E I') as [_ F']. pose proof (k_lt latitude wn wn' H L) as K. pose proof (speed_pos he P) as C. assert (CK : Speed he * Wavenumber latitude wn < Speed he * Wavenumber latitude wn') by (apply Rmult_lt_compat_l; assumption).
    destruct (Rlt_dec _ _); [|discriminate]. destruct (Rlt_dec _ _); [|discriminate]. injection F as ->. injection F' as ->. apply cycles_lt. pose proof (mixed_facts he latitude (Wavenumber latitude wn) P H) as (A1 & B1 & _). pose proof (mixed_facts he latitude (Wavenumber latitude wn') P H) as (A2 & B2 & _).
    refine (mixed_up _ _ _ _ _ _ A1 A2 B1 B2 CK). apply bc_pos; assumption.
Qed.

Lemma C94_order_proof : forall he latitude m N tk tm te wn fk fm fe, 0 < cosine latitude ->
  kelvin_mode he latitude m N = Ok tk -> mrg_mode he latitude m N = Ok tm -> eig_n_0 he latitude m N = Ok te ->
  In (wn, Some fk) tk -> In (- wn, Some fm) tm -> In (wn, Some fe) te -> fe = fk + fm /\ 0 < fk < fe.
Proof.
  intros he latitude m N tk tm te wn fk fm fe H EK EM EE IK IM IE. destruct (kelvin_in _ _ _ _ _ _ _ H EK IK) as [P FK]. destruct (mrg_in _ _ _ _ _ _ _ H EM IM) as [_ FM]. destruct (eig0_in _ _ _ _ _ _ _ H EE IE) as [_ FE].
  destruct (Rlt_dec 0 wn) as [L|]; [|discriminate]. destruct (Rlt_dec (- wn) 0); [|discriminate]. injection FK as ->. injection FM as ->. injection FE as ->. rewrite k_opp.
  pose proof (mixed_facts he latitude (Wavenumber latitude wn) P H) as (A1 & B1 & _). pose proof (mixed_facts he latitude (- Wavenumber latitude wn) P H) as (A2 & B2 & _).
  assert (X : mixed (Speed he * Wavenumber latitude wn) (Beta latitude * Speed he) = Speed he * Wavenumber latitude wn + mixed (Speed he * - Wavenumber latitude wn) (Beta latitude * Speed he)).
  { unfold mixed. replace (Speed he * - Wavenumber latitude wn * (Speed he * - Wavenumber latitude wn)) with (Speed he * Wavenumber latitude wn * (Speed he * Wavenumber latitude wn)) by ring. field. }
  split; [rewrite X; unfold Cycles, Rdiv; ring|]. split.
  - replace 0 with (Cycles 0) by (unfold Cycles, Rdiv; ring). apply cycles_lt. apply Rmult_lt_0_compat; [apply speed_pos; exact P|apply k_pos; assumption].
  - apply cycles_lt. lra.
Qed.

Lemma C94_deeper_proof : forall he he' latitude m N, 0 < cosine latitude -> 0 < he < he' ->
  Forall (fun mode => forall t t' wn f f', mode he latitude m N = Ok t -> mode he' latitude m N = Ok t' -> In (wn, Some f) t -> In (wn, Some f') t' -> f < f')
    [kelvin_mode; mrg_mode; eig_n_0].
Proof.
  intros he he' latitude m N H [P L]. assert (P' : 0 < he') by lra. assert (CC : Speed he < Speed he') by (unfold Speed; apply sqrt_lt_1; unfold gravity; lra). pose proof (speed_pos he P) as C.
  apply Forall_cons; [|apply Forall_cons; [|apply Forall_cons; [|apply Forall_nil]]]; intros t t' wn f f' E E' I I'.
  - destruct (kelvin_in _ _ _ _ _ _ _ H E I) as [_ F]. destruct (kelvin_in _ _ _ _ _ _ _ H E' I') as [_ F']. destruct (Rlt_dec _ _); [|discriminate]. injection F as ->. injection F' as ->. apply cycles_lt. apply Rmult_lt_compat_r; [apply k_pos; assumption|exact CC].
  - destruct (mrg_in _ _ _ _ _ _ _ H E I) as [_ F]. destruct (mrg_in _ _ _ _ _ _ _ H E' I') as [_ F']. destruct (Rlt_dec _ _); [|discriminate]. injection F as ->. injection F' as ->. apply cycles_lt. pose proof (mixed_facts he latitude (Wavenumber latitude wn) P H) as (A1 & B1 & _). pose proof (mixed_facts he' latitude (Wavenumber latitude wn) P' H) as (A2 & B2 & _).
    exact (mixed_deeper _ _ _ _ _ _ (beta_pos latitude H) (conj C CC) A1 A2 B1 B2).
  - destruct (eig0_in _ _ _ _ _ _ _ H E I) as [_ F]. destruct (eig0_in _ _ _ _ _ _ _ H E' I') as [_ F']. destruct (Rlt_dec _ _); [|discriminate]. injection F as ->. injection F' as ->. apply cycles_lt. pose proof (mixed_facts he latitude (Wavenumber latitude wn) P H) as (A1 & B1 & _). pose proof (mixed_facts he' latitude (Wavenumber latitude wn) P' H) as (A2 & B2 & _).
    exact (mixed_deeper _ _ _ _ _ _ (beta_pos latitude H) (conj C CC) A1 A2 B1 B2).
Qed.

Lemma C95_roots_proof : forall he latitude n k, 0 < he -> 0 < cosine latitude -> (1 <= n)%Z ->
  (k < 0 -> (exists! w, 0 < w < Speed he * - k /\ Matsuno he latitude n k w) /\
            (exists! w, Speed he * - k < w /\ Matsuno he latitude n k w) /\ ~ Matsuno he latitude n k (Speed he * - k)) /\
  (0 < k -> exists! w, 0 < w /\ Matsuno he latitude n k w).
Proof.
  intros he latitude n k P H N. split.
  - intros K. pose proof (at_gravity he latitude n k P H N K) as G. pose proof (B_pos he latitude k P H K) as BP. pose proof (speed_pos he P) as C. set (L := Speed he * - k) in *. assert (LP : 0 < L) by (apply Rmult_lt_0_compat; lra).
    pose proof (gravity_below he latitude n k P H N) as GB. rewrite Rabs_left in GB by exact K. fold L in GB. pose proof (at_seed he latitude n k P H N) as AS. split; [|split].
    + assert (Z : cubic (coefA he latitude n k) (coefB he latitude k) 0 = coefB he latitude k) by (unfold cubic; ring).
      destruct (cubic_between (coefA he latitude n k) (coefB he latitude k) 0 L LP) as (w & W & E); [rewrite Z; nra|]. exists w. split; [split; [exact W|apply matsuno_cubic; exact E]|].
      intros w' (W' & E'). apply matsuno_cubic in E'. exact (cubic_low _ _ L w w' LP G W W' E E').
    + destruct (cubic_between (coefA he latitude n k) (coefB he latitude k) L _ GB) as (w & W & E); [rewrite AS; nra|]. exists w. split; [split; [apply W|apply matsuno_cubic; exact E]|].
      intros w' (W' & E'). apply matsuno_cubic in E'. exact (cubic_high _ _ L w w' LP G (proj1 W) W' E E').
    + intros E. apply matsuno_cubic in E. lra.
  - intros K. pose proof (A_pos he latitude n k P H N) as A0. pose proof (B_neg he latitude k P H K) as BN. set (A := coefA he latitude n k) in *. set (B := coefB he latitude k) in *.
    assert (Z : cubic A B 0 = B) by (unfold cubic; ring). assert (X : 0 < cubic A B (A - B + 1)).
    { unfold cubic. set (x := A - B + 1). assert (x1 : 1 <= x) by (unfold x; lra). assert (x ^ 3 >= x * x) by nra. unfold x in *. nra. }
    destruct (cubic_between A B 0 (A - B + 1)) as (w & W & E); [lra|rewrite Z; nra|]. exists w. split; [split; [apply W|apply matsuno_cubic; exact E]|].
    intros w' (W' & E'). apply matsuno_cubic in E'. exact (cubic_one _ _ w w' A0 BN (proj1 W) W' E E').
Qed.

Lemma C95_curves_proof : forall fsolve he latitude n m N, 0 < he -> 0 < cosine latitude -> (1 <= n)%Z ->
  let k wn := Wavenumber latitude wn in
  (exists t, er_n fsolve he n latitude m N = Ok t /\ forall wn f, In (wn, f) t ->
     (0 <= wn -> f = None) /\
     (wn < 0 -> exists F seed, f = Some (Cycles (fsolve F seed)) /\ (forall w, F w = 0 <-> Matsuno he latitude n (k wn) w) /\
        (forall w, 0 < w < Speed he * - k wn -> F w = 0 -> 0 < seed < w))) /\
  (exists t, wig_n fsolve he n latitude m N = Ok t /\ forall wn f, In (wn, f) t ->
     (0 <= wn -> f = None) /\
     (wn < 0 -> exists F seed, f = Some (Cycles (fsolve F seed)) /\ (forall w, F w = 0 <-> Matsuno he latitude n (k wn) w) /\
        (forall w, Speed he * - k wn < w -> F w = 0 -> w < seed))) /\
  (exists t, eig_n fsolve he n latitude m N = Ok t /\ forall wn f, In (wn, f) t ->
     (wn <= 0 -> f = None) /\
     (0 < wn -> exists F seed, f = Some (Cycles (fsolve F seed)) /\ (forall w, F w = 0 <-> Matsuno he latitude n (k wn) w) /\
        (forall w, 0 < w -> F w = 0 -> Speed he * k wn < seed < w))).
Proof.
  intros fsolve he latitude n m N P H NP kk. split; [|split].
  - eexists. split; [exact (curve_ok _ _ _ _ _ P H)|]. intros wn f I. apply in_map_iff in I. destruct I as (x & X & _). injection X as <- <-. fold (kk x). pose proof (k_neg latitude x H) as KN. fold (kk x) in KN. destruct (Rge_dec (kk x) 0) as [G|G].
    + split; [reflexivity|]. intros L. apply KN in L. lra.
    + split; [intros L; exfalso; assert (kk x < 0) by lra; apply KN in H0; lra|]. intros _. assert (K : kk x < 0) by lra. eexists. eexists. split; [reflexivity|]. split; [intros w; cbv beta; rewrite disp_cubic by exact P; symmetry; apply matsuno_cubic|].
      intros w W E. cbv beta in E. rewrite disp_cubic in E by exact P. pose proof (A_pos he latitude n (kk x) P H NP) as A0. pose proof (B_pos he latitude (kk x) P H K) as B0.
      assert (S0 : - beta_of latitude * kk x / (kk x * kk x + (2 * IZR n + 1) * (beta_of latitude / sqrt (g * he))) = coefB he latitude (kk x) / coefA he latitude n (kk x)).
      { rewrite speed_is, beta_is. pose proof (speed_pos he P) as C. pose proof (beta_pos latitude H) as B. pose proof (n_pos n NP) as N1. unfold coefB, coefA in *. assert (0 < kk x * kk x) by nra. assert (0 < (2 * IZR n + 1) * (Beta latitude / Speed he)) by (apply Rmult_lt_0_compat; [lra|apply Rdiv_lt_0_compat; assumption]).
        assert (Q : Speed he ^ 2 * kk x ^ 2 + (2 * IZR n + 1) * Beta latitude * Speed he = Speed he ^ 2 * (kk x * kk x + (2 * IZR n + 1) * (Beta latitude / Speed he))) by (field; lra). rewrite Q.
        set (D := kk x * kk x + _) in *. assert (0 < D) by (unfold D; lra). clearbody D. field. split; lra. }
      rewrite S0. split; [apply Rdiv_lt_0_compat; assumption|]. apply (Rmult_lt_reg_r _ _ _ A0). replace (coefB he latitude (kk x) / coefA he latitude n (kk x) * coefA he latitude n (kk x)) with (coefB he latitude (kk x)) by (field; lra).
      unfold cubic in E. assert (0 < w ^ 3) by (apply pow_lt; lra). lra.
  - eexists. split; [exact (curve_ok _ _ _ _ _ P H)|]. intros wn f I. apply in_map_iff in I. destruct I as (x & X & _). injection X as <- <-. fold (kk x). pose proof (k_neg latitude x H) as KN. fold (kk x) in KN. destruct (Rge_dec (kk x) 0) as [G|G].
    + split; [reflexivity|]. intros L. apply KN in L. lra.
    + split; [intros L; exfalso; assert (kk x < 0) by lra; apply KN in H0; lra|]. intros _. assert (K : kk x < 0) by lra. eexists. eexists. split; [reflexivity|]. split; [intros w; cbv beta; rewrite disp_cubic by exact P; symmetry; apply matsuno_cubic|].
      intros w W E. cbv beta in E. rewrite disp_cubic in E by exact P. pose proof (A_pos he latitude n (kk x) P H NP) as A0. pose proof (B_pos he latitude (kk x) P H K) as B0. pose proof (speed_pos he P) as C.
      assert (S0 : (2 * IZR n + 1) * beta_of latitude * sqrt (g * he) + kk x ^ 2 * g * he = coefA he latitude n (kk x)).
      { rewrite speed_is, beta_is. unfold coefA. rewrite (speed_square he P). ring. }
      match goal with |- _ < sqrt ?s => replace s with (coefA he latitude n (kk x)) by (rewrite <- S0; reflexivity) end. assert (W0 : 0 < w) by (assert (0 < Speed he * - kk x) by (apply Rmult_lt_0_compat; lra); lra). rewrite <- (sqrt_square w) by lra. apply sqrt_lt_1; [nra|lra|]. unfold cubic in E. nra.
  - eexists. split; [exact (curve_ok _ _ _ _ _ P H)|]. intros wn f I. apply in_map_iff in I. destruct I as (x & X & _). injection X as <- <-. fold (kk x). pose proof (k_pos latitude x H) as KN. fold (kk x) in KN. destruct (Rle_dec (kk x) 0) as [G|G].
    + split; [reflexivity|]. intros L. apply KN in L. lra.
    + split; [intros L; exfalso; assert (0 < kk x) by lra; apply KN in H0; lra|]. intros _. assert (K : 0 < kk x) by lra. eexists. eexists. split; [reflexivity|]. split; [intros w; cbv beta; rewrite disp_cubic by exact P; symmetry; apply matsuno_cubic|].
      intros w W E. cbv beta in E. rewrite disp_cubic in E by exact P. pose proof (A_pos he latitude n (kk x) P H NP) as A0. pose proof (B_neg he latitude (kk x) P H K) as B0. pose proof (speed_pos he P) as C.
      assert (S0 : (2 * IZR n + 1) * beta_of latitude * sqrt (g * he) + kk x ^ 2 * g * he = coefA he latitude n (kk x)).
      { rewrite speed_is, beta_is. unfold coefA. rewrite (speed_square he P). ring. }
      match goal with |- _ < sqrt ?s < _ => replace s with (coefA he latitude n (kk x)) by (rewrite <- S0; reflexivity) end. pose proof (gravity_below he latitude n (kk x) P H NP) as GB. rewrite Rabs_pos_eq in GB by lra. split; [exact GB|]. rewrite <- (sqrt_square w) by lra. apply sqrt_lt_1; [lra|nra|]. unfold cubic in E. nra.
Qed.

Lemma C95_order_proof : forall he latitude n k, 0 < he -> 0 < cosine latitude -> (1 <= n)%Z ->
  (forall er er' mrg wig wig', k < 0 ->
     0 < er < Speed he * - k -> Matsuno he latitude n k er -> 0 < er' < Speed he * - k -> Matsuno he latitude (n + 1) k er' ->
     0 < mrg -> Mixed he latitude k mrg ->
     Speed he * - k < wig -> Matsuno he latitude n k wig -> Speed he * - k < wig' -> Matsuno he latitude (n + 1) k wig' ->
     er' < er < mrg /\ mrg < wig < wig') /\
  (forall eig0 eig eig', 0 < k -> 0 < eig0 -> Mixed he latitude k eig0 -> 0 < eig -> Matsuno he latitude n k eig ->
     0 < eig' -> Matsuno he latitude (n + 1) k eig' -> eig0 < eig < eig').
Proof.
  intros he latitude n k P H N. assert (N' : (1 <= n + 1)%Z) by lia. split.
  - intros er er' mrg wig wig' K ER E1 ER' E2 M0 M WG E3 WG' E4. pose proof (at_gravity he latitude n k P H N K) as G. pose proof (at_gravity he latitude (n + 1) k P H N' K) as G'. pose proof (speed_pos he P) as C.
    pose proof (at_mixed he latitude n k P H N mrg M0 M) as GM. assert (L0 : 0 < Speed he * - k) by (apply Rmult_lt_0_compat; lra). assert (W0 : 0 < wig) by lra.
    pose proof (at_before he latitude n k P H er (proj1 ER) E1) as B1. pose proof (at_before he latitude n k P H wig W0 E3) as B3. apply matsuno_cubic in E1, E2, E3, E4. split; split.
    + exact (cubic_below _ _ _ _ _ L0 (proj1 ER) G' B1 ER' E2).
    + exact (cubic_below _ _ _ _ _ L0 M0 G GM ER E1).
    + exact (cubic_above _ _ _ _ _ L0 M0 G GM WG E3).
    + exact (cubic_above _ _ _ _ _ L0 W0 G' B3 WG' E4).
  - intros e0 e e' K P0 M PE E PE' E'. pose proof (at_mixed he latitude n k P H N e0 P0 M) as GM. pose proof (at_before he latitude n k P H e PE E) as B1. pose proof (A_pos he latitude n k P H N) as A0. pose proof (A_pos he latitude (n + 1) k P H N') as A1. pose proof (B_neg he latitude k P H K) as BN. apply matsuno_cubic in E, E'. split.
    + exact (cubic_one_above _ _ _ _ A0 BN P0 GM PE E).
    + exact (cubic_one_above _ _ _ _ A1 BN PE B1 PE' E').
Qed.

Lemma C95_case_proof : let k := Wavenumber 10 (-3) in 0 < 25 /\ 0 < cosine 10 /\ (1 <= 1)%Z /\ k < 0 /\
  exists er mrg wig, 0 < er < Speed 25 * - k /\ Matsuno 25 10 1 k er /\ 0 < mrg /\ Mixed 25 10 k mrg /\
    Speed 25 * - k < wig /\ Matsuno 25 10 1 k wig.
Proof.
  destruct C94_axis_case_proof as [A B]. intros k.
  assert (K : k < 0).
  { unfold k, Wavenumber, earth_radius. replace (-3 / (6371008 * cosine 10)) with (- (3 / (6371008 * cosine 10))) by (field; lra).
    apply Ropp_lt_gt_0_contravar. apply Rdiv_lt_0_compat; [lra|]. apply Rmult_lt_0_compat; [lra|exact B]. }
  split; [exact A|]. split; [exact B|]. split; [lia|]. split; [exact K|].
  destruct (C95_roots_proof 25 10 1 k A B ltac:(lia)) as [W _]. destruct (W K) as ((er & (E1 & E2) & _) & (wig & (G1 & G2) & _) & _).
  assert (S : 0 < Speed 25). { unfold Speed, gravity. apply sqrt_lt_R0. lra. }
  assert (T : 0 < Beta 10). { unfold Beta, rotation, earth_radius. apply Rdiv_lt_0_compat; [|lra]. apply Rmult_lt_0_compat; [lra|exact B]. }
  set (c := Speed 25) in *. set (b := Beta 10) in *.
  assert (D : 0 < (c * k) ^ 2 + 4 * (b * c)). { pose proof (pow2_ge_0 (c * k)). pose proof (Rmult_lt_0_compat b c T S). lra. }
  exists er, ((c * k + sqrt ((c * k) ^ 2 + 4 * (b * c))) / 2), wig.
  split; [exact E1|]. split; [exact E2|]. split.
  - apply Rdiv_lt_0_compat; [|lra]. assert (Q : - (c * k) < sqrt ((c * k) ^ 2 + 4 * (b * c))); [|lra].
    assert (N : 0 <= - (c * k)). { pose proof (Rmult_lt_0_compat c (- k) S ltac:(lra)). lra. }
    rewrite <- (sqrt_square (- (c * k)) N). apply sqrt_lt_1; [nra|lra|]. pose proof (Rmult_lt_0_compat b c T S). nra.
  - split; [|split; [exact G1|exact G2]]. unfold Mixed. fold c b.
    pose proof (sqrt_sqrt ((c * k) ^ 2 + 4 * (b * c)) (Rlt_le _ _ D)) as Q.
    set (s := sqrt ((c * k) ^ 2 + 4 * (b * c))) in *. clearbody s. nra.
Qed.
