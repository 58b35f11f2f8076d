From Verif Require Import PyBase BaseSpec RealBase RealSpec RealProofs TostModel TostSpec.
From Coq Require Import Reals Lra.
Open Scope R_scope.
Open Scope string_scope.

Lemma Rltb_iff x y : Rltb x y = true <-> x < y.
Proof. unfold Rltb. destruct (Rlt_dec x y); split; intro; auto; discriminate. Qed.
Lemma Rleb_iff x y : Rleb x y = true <-> x <= y.
Proof. unfold Rleb. destruct (Rle_dec x y); split; intro; auto; try discriminate; contradiction. Qed.
Lemma Reqb_iff x y : Reqb x y = true <-> x = y.
Proof. unfold Reqb. destruct (Req_EM_T x y); split; intro; auto; try discriminate; contradiction. Qed.
Lemma Rltb_no x y : y <= x -> Rltb x y = false.
Proof. intro. unfold Rltb. destruct (Rlt_dec x y); auto; lra. Qed.
Lemma Rleb_no x y : y < x -> Rleb x y = false.
Proof. intro. unfold Rleb. destruct (Rle_dec x y); auto; lra. Qed.
Lemma Reqb_no x y : x <> y -> Reqb x y = false.
Proof. intro. unfold Reqb. destruct (Req_EM_T x y); auto; lra. Qed.
Lemma Rltb_yes x y : x < y -> Rltb x y = true. Proof. apply Rltb_iff. Qed.
Lemma Rleb_yes x y : x <= y -> Rleb x y = true. Proof. apply Rleb_iff. Qed.

Lemma diff_var_nonneg a b r : 0 < a -> 0 < b -> -1 <= r <= 1 ->
  0 <= a * a + b * b - 2 * r * a * b.
Proof.
  intros Ha Hb Hr. assert (0 <= a * b) by (apply Rmult_le_pos; lra).
  assert (A : 0 <= (1 - r) * (a * b)) by (apply Rmult_le_pos; lra).
  pose proof (Rle_0_sqr (a - b)) as B. unfold Rsqr in B.
  replace (a * a + b * b - 2 * r * a * b) with ((a - b) * (a - b) + 2 * ((1 - r) * (a * b))) by ring.
  lra.
Qed.

Lemma math_sqrt_ok x : 0 <= x -> math_sqrt x = Ok (sqrt x).
Proof. intro H. unfold math_sqrt. now rewrite Rltb_no. Qed.

Section T.
Variables cdf ppf : Z -> R -> R.
Variables (n : Z) (m1 m2 sd1 sd2 r12 low high alpha : R) (alpha0 : option R).

Notation tost := (tost_paired cdf ppf n m1 m2 sd1 sd2 r12 low high alpha0).
Definition alpha_of (a : option R) : R :=
  match a with Some a => if Reqb a 0 then 5 / 100 else a | None => 5 / 100 end.

Notation F := (cdf (n - 1)%Z).
Notation Qn := (ppf (n - 1)%Z).
Notation d := (m1 - m2).
Notation s := (sd_diff sd1 sd2 r12).
Notation se := (std_error n sd1 sd2 r12).
Notation Pd := (p_difference F d se).
Notation Pa := (p_above F d (low * s) se).
Notation Pb := (p_below F d (high * s) se).

Hypothesis HA : alpha_of alpha0 = alpha.
Hypothesis HV : ValidTost n sd1 sd2 r12 alpha.

Definition rest_of co te to tt pp : tost_result :=
  let L := low * s in let H := high * s in
  let ll90 := d - Qn (1 - alpha) * se in let ul90 := d + Qn (1 - alpha) * se in
  let ll95 := d - Qn (1 - alpha / 2) * se in let ul95 := d + Qn (1 - alpha / 2) * se in
  {| dif := rnd d; t := tt; p := pp; degrees_of_freedom := rnd (IZR (n - 1));
     ci_tost := (rnd ll90, rnd ul90); ci_ttest := (rnd ll95, rnd ul95);
     eqbound := (rnd L, rnd H);
     xlim := (rnd (Rmin ll90 L - Rmax (ul90 - ll90) (H - L) / 10),
              rnd (Rmax ul90 H + Rmax (ul90 - ll90) (H - L) / 10));
     combined_outcome := co; test_outcome := te; tost_outcome := to |}.

Lemma tost_shape :
  tost = if Reqb se 0 then Ok (rest_of "none" "none" "none" (None, None) (None, None))
         else if negb (Reqb Pd 0) && negb (Reqb (Rmax Pa Pb) 0) then
           match combined alpha Pd (Rmax Pa Pb) with
           | None => Err UnboundLocalError
           | Some co => Ok (rest_of co (outcome alpha Pd) (outcome alpha (Rmax Pa Pb))
                              (Some (rnd ((d - low * s) / se)), Some (rnd ((d - high * s) / se)))
                              (Some (rnd Pa), Some (rnd Pb)))
           end
         else Ok (rest_of "none" "none" "none" (None, None) (None, None)).
Proof.
  destruct HV as (Hn & H1 & H2 & Hr & Ha).
  unfold tost_paired. fold (alpha_of alpha0). rewrite HA. cbv zeta.
  replace (n <? 2)%Z with false by (symmetry; apply Z.ltb_ge; lia).
  rewrite (Rleb_no 1 alpha), (Rleb_no alpha 0), (Rleb_no sd1 0), (Rleb_no sd2 0),
    (Rltb_no 1 r12), (Rltb_no r12 (-1)) by lra.
  cbn [orb]. rewrite math_sqrt_ok by (apply diff_var_nonneg; assumption).
  rewrite math_sqrt_ok by (apply IZR_le; lia). cbn [bind].
  replace (sqrt (sd1 * sd1 + sd2 * sd2 - 2 * r12 * sd1 * sd2)) with s
    by (unfold sd_diff; f_equal; ring).
  change (s / sqrt (IZR n)) with se.
  destruct (Reqb se 0); cbn [negb truthy]; [reflexivity|].
  unfold pt, qt. fold Pd. fold Pa. fold Pb.
  change (2 * (1 - F (Rabs (d / se)))) with Pd.
  change (1 - F ((d - low * s) / se)) with Pa.
  change (F ((d - high * s) / se)) with Pb.
  reflexivity.
Qed.

Lemma sd_nonneg : 0 <= s.
Proof. unfold sd_diff. apply sqrt_pos. Qed.
Lemma se_nonneg : 0 <= se.
Proof.
  unfold std_error. destruct HV as (Hn & _). apply Rmult_le_pos; [apply sd_nonneg|].
  left. apply Rinv_0_lt_compat. apply sqrt_lt_R0. apply IZR_lt. lia.
Qed.
End T.

Lemma combined_cases alpha a b :
  combined alpha a b =
    if Rlt_dec alpha a then (if Rlt_dec alpha b then Some "no_diff_no_eqv" else Some "no_diff_eqv")
    else if Rlt_dec alpha b then (if Rlt_dec a alpha then Some "diff_no_eqv" else None)
    else Some "diff_eqv".
Proof.
  unfold combined, Rltb, Rleb.
  destruct (Rlt_dec alpha a), (Rlt_dec alpha b), (Rlt_dec a alpha), (Rle_dec a alpha), (Rle_dec b alpha);
    cbn [andb]; try reflexivity; lra.
Qed.

Section T2.
Variables cdf ppf : Z -> R -> R.
Variables (n : Z) (m1 m2 sd1 sd2 r12 low high alpha : R) (alpha0 : option R).
Notation tost := (tost_paired cdf ppf n m1 m2 sd1 sd2 r12 low high alpha0).
Notation F := (cdf (n - 1)%Z).
Notation Qn := (ppf (n - 1)%Z).
Notation d := (m1 - m2).
Notation s := (sd_diff sd1 sd2 r12).
Notation se := (std_error n sd1 sd2 r12).
Notation Pd := (p_difference F d se).
Notation Pe := (Rmax (p_above F d (low * s) se) (p_below F d (high * s) se)).

Hypothesis HA : alpha_of alpha0 = alpha.
Hypothesis HV : ValidTost n sd1 sd2 r12 alpha.

Lemma tost_verdict : 0 < se -> Pd <> 0 -> Pe <> 0 -> Pd <> alpha -> Pe <> alpha ->
  exists r, tost = Ok r /\ TostVerdict alpha Pd Pe (combined_outcome r) (test_outcome r) (tost_outcome r).
Proof.
  intros S D E DA EA. rewrite (tost_shape cdf ppf n m1 m2 sd1 sd2 r12 low high alpha alpha0 HA HV).
  rewrite !Reqb_no by lra. cbn [negb andb]. rewrite combined_cases.
  unfold outcome, Rltb.
  destruct (Rlt_dec alpha Pd); destruct (Rlt_dec alpha Pe); destruct (Rlt_dec Pd alpha); destruct (Rlt_dec Pe alpha);
    try (exfalso; lra); eexists; (split; [reflexivity|]); cbn; constructor; lra.
Qed.

Lemma tost_undecided : se = 0 \/ Pd = 0 \/ Pe = 0 ->
  exists r, tost = Ok r /\ combined_outcome r = "none" /\ test_outcome r = "none" /\ tost_outcome r = "none"
    /\ t r = (None, None) /\ p r = (None, None).
Proof.
  intro H. rewrite (tost_shape cdf ppf n m1 m2 sd1 sd2 r12 low high alpha alpha0 HA HV).
  destruct (Reqb se 0) eqn:K; [eexists; split; [reflexivity|now cbn]|].
  destruct H as [H|[H|H]].
  - apply Reqb_iff in H. congruence.
  - apply Reqb_iff in H. rewrite H. cbn [negb andb]. eexists; split; [reflexivity|now cbn].
  - apply Reqb_iff in H. rewrite H. rewrite andb_false_r. eexists; split; [reflexivity|now cbn].
Qed.

Lemma tost_unbound : 0 < se -> Pd = alpha -> alpha < Pe -> tost = Err UnboundLocalError.
Proof.
  intros S D E. rewrite (tost_shape cdf ppf n m1 m2 sd1 sd2 r12 low high alpha alpha0 HA HV).
  destruct HV as (_ & _ & _ & _ & A). rewrite !Reqb_no by lra. cbn [negb andb]. rewrite combined_cases.
  destruct (Rlt_dec alpha Pd); destruct (Rlt_dec alpha Pe); destruct (Rlt_dec Pd alpha); try (exfalso; lra); reflexivity.
Qed.

Lemma tost_boundary : 0 < se -> Pe <> 0 -> Pd = alpha -> Pe <= alpha ->
  exists r, tost = Ok r /\ combined_outcome r = "diff_eqv" /\ test_outcome r = "non-significant".
Proof.
  intros S N D E. rewrite (tost_shape cdf ppf n m1 m2 sd1 sd2 r12 low high alpha alpha0 HA HV).
  destruct HV as (_ & _ & _ & _ & A). rewrite !Reqb_no by lra. cbn [negb andb]. rewrite combined_cases.
  destruct (Rlt_dec alpha Pd); destruct (Rlt_dec alpha Pe); try (exfalso; lra).
  eexists; split; [reflexivity|]. cbn. split; [reflexivity|]. unfold outcome. now rewrite Rltb_no by lra.
Qed.

Lemma tost_only_error e : tost = Err e -> e = UnboundLocalError /\ 0 < se /\ Pd = alpha /\ alpha < Pe.
Proof.
  rewrite (tost_shape cdf ppf n m1 m2 sd1 sd2 r12 low high alpha alpha0 HA HV).
  pose proof (se_nonneg n sd1 sd2 r12 alpha HV) as S.
  destruct (Reqb se 0) eqn:K; [discriminate|].
  assert (se <> 0) by (intro H; apply Reqb_iff in H; congruence).
  destruct (negb (Reqb Pd 0) && negb (Reqb Pe 0))%bool; [|discriminate].
  rewrite combined_cases.
  destruct (Rlt_dec alpha Pd); destruct (Rlt_dec alpha Pe); destruct (Rlt_dec Pd alpha);
    intro H1; try discriminate H1; injection H1 as <-; repeat split; lra.
Qed.

Lemma outcome_sig a q : outcome a q = "significant" <-> q < a.
Proof. unfold outcome, Rltb. destruct (Rlt_dec q a); split; intro H; auto; [discriminate H|contradiction]. Qed.

Lemma sym_half (G Q : R -> R) : SymmetricDistribution G Q -> G 0 = / 2.
Proof. intros [_ S _ _]. specialize (S 0). rewrite Ropp_0 in S. lra. Qed.

Lemma sym_lt (G Q : R -> R) x y : SymmetricDistribution G Q -> G x < G y <-> x < y.
Proof.
  intros [I _ _ _]. split; intro H; [|now apply I].
  destruct (Rtotal_order x y) as [K|[K|K]]; [exact K|subst; lra|]. apply I in K. lra.
Qed.

Lemma sym_lt_q (G Q : R -> R) x a : SymmetricDistribution G Q -> 0 < a < 1 -> (1 - a < G x <-> Q (1 - a) < x).
Proof.
  intros S A. rewrite <- (sym_lt G Q (Q (1 - a)) x S). destruct S as [I _ _ H]. rewrite H by lra. reflexivity.
Qed.

Lemma sym_q_lt (G Q : R -> R) x a : SymmetricDistribution G Q -> 0 < a < 1 -> (G x < a <-> x < - Q (1 - a)).
Proof.
  intros S A. pose proof (sym_lt_q G Q (- x) a S A) as H.
  destruct S as [_ Y _ _]. rewrite Y in H. split; intro K.
  - assert (Q (1 - a) < - x) by (apply H; lra). lra.
  - assert (1 - a < 1 - G x) by (apply H; lra). lra.
Qed.

Lemma div_lt_iff x y z : 0 < z -> (x / z < y <-> x < y * z).
Proof.
  intro H. split; intro K.
  - apply (Rmult_lt_compat_r z) in K; [|exact H]. unfold Rdiv in K.
    rewrite Rmult_assoc, Rinv_l, Rmult_1_r in K by lra. exact K.
  - apply (Rmult_lt_reg_r z); [exact H|]. unfold Rdiv. rewrite Rmult_assoc, Rinv_l, Rmult_1_r by lra. exact K.
Qed.
Lemma lt_div_iff x y z : 0 < z -> (y < x / z <-> y * z < x).
Proof.
  intro H. split; intro K.
  - apply (Rmult_lt_compat_r z) in K; [|exact H]. unfold Rdiv in K.
    rewrite Rmult_assoc, Rinv_l, Rmult_1_r in K by lra. exact K.
  - apply (Rmult_lt_reg_r z); [exact H|]. unfold Rdiv. rewrite Rmult_assoc, Rinv_l, Rmult_1_r by lra. exact K.
Qed.

Lemma abs_div_lt x q z : 0 < z -> 0 < q -> (q < Rabs (x / z) <-> 0 < x - q * z \/ x + q * z < 0).
Proof.
  intros Z H. unfold Rdiv. rewrite Rabs_mult, (Rabs_pos_eq (/ z)) by (left; now apply Rinv_0_lt_compat).
  change (Rabs x * / z) with (Rabs x / z). rewrite lt_div_iff by exact Z.
  unfold Rabs. assert (0 < q * z) by (apply Rmult_lt_0_compat; lra).
  destruct (Rcase_abs x); split; intro K; try destruct K; lra.
Qed.

Lemma Rmax_lt_iff x y z : Rmax x y < z <-> x < z /\ y < z.
Proof. unfold Rmax. destruct (Rle_dec x y); split; intros; try split; try destruct H; lra. Qed.

Lemma tost_intervals r : SymmetricDistribution F Qn -> 0 < se -> tost = Ok r ->
  let t_lo := interval_low d (Qn (1 - alpha / 2)) se in
  let t_hi := interval_high d (Qn (1 - alpha / 2)) se in
  let e_lo := interval_low d (Qn (1 - alpha)) se in
  let e_hi := interval_high d (Qn (1 - alpha)) se in
  (test_outcome r = "significant" <-> 0 < t_lo \/ t_hi < 0) /\
  (tost_outcome r = "significant" <-> low * s < e_lo /\ e_hi < high * s) /\
  NearestR 7 t_lo (fst (ci_ttest r)) /\ NearestR 7 t_hi (snd (ci_ttest r)) /\
  NearestR 7 e_lo (fst (ci_tost r)) /\ NearestR 7 e_hi (snd (ci_tost r)) /\
  NearestR 7 (low * s) (fst (eqbound r)) /\ NearestR 7 (high * s) (snd (eqbound r)) /\
  NearestR 7 d (dif r).
Proof.
  intros SY S. rewrite (tost_shape cdf ppf n m1 m2 sd1 sd2 r12 low high alpha alpha0 HA HV).
  destruct HV as (_ & _ & _ & _ & A).
  assert (PD : 0 < Pd) by (unfold p_difference; pose proof (sd_below_one _ _ SY (Rabs (d / se))); lra).
  assert (PE : 0 < Pe).
  { eapply Rlt_le_trans; [|apply Rmax_l]. unfold p_above.
    pose proof (sd_below_one _ _ SY ((d - low * s) / se)); lra. }
  rewrite !Reqb_no by lra. cbn [negb andb].
  destruct (combined alpha Pd Pe) as [co|]; [|discriminate]. intro K. injection K as <-. cbv zeta. cbn.
  split; [|split].
  - rewrite outcome_sig. unfold p_difference, interval_low, interval_high.
    assert (QP : 0 < Qn (1 - alpha / 2)).
    { apply (sym_lt F Qn _ _ SY). rewrite (sym_half F Qn SY), (sd_quantile _ _ SY) by lra. lra. }
    rewrite <- abs_div_lt by assumption. rewrite <- (sym_lt_q F Qn) by (try assumption; lra).
    split; lra.
  - rewrite outcome_sig. unfold interval_low, interval_high.
    rewrite Rmax_lt_iff. unfold p_above, p_below.
    pose proof (sym_lt_q F Qn ((d - low * s) / se) alpha SY A) as H1.
    pose proof (sym_q_lt F Qn ((d - high * s) / se) alpha SY A) as H2.
    rewrite lt_div_iff in H1 by exact S. rewrite div_lt_iff in H2 by exact S.
    split; intros [K1 K2]; split.
    + assert (Qn (1 - alpha) * se < d - low * s) by (apply H1; lra). lra.
    + assert (d - high * s < - Qn (1 - alpha) * se) by (apply H2; lra). lra.
    + assert (1 - alpha < F ((d - low * s) / se)) by (apply H1; lra). lra.
    + apply H2. lra.
  - repeat split; apply rhuR_nearest.
Qed.
End T2.

Lemma tost_exit cdf ppf n m1 m2 sd1 sd2 r low high alpha0 :
  ~ ValidTost n sd1 sd2 r (alpha_of alpha0) ->
  tost_paired cdf ppf n m1 m2 sd1 sd2 r low high alpha0 = Err SystemExit.
Proof.
  intro H. unfold tost_paired. fold (alpha_of alpha0).
  destruct (n <? 2)%Z eqn:N; [reflexivity|]. apply Z.ltb_ge in N.
  destruct (Rleb 1 (alpha_of alpha0) || Rleb (alpha_of alpha0) 0)%bool eqn:A; [reflexivity|].
  destruct (Rleb sd1 0 || Rleb sd2 0)%bool eqn:B; [reflexivity|].
  destruct (Rltb 1 r || Rltb r (-1))%bool eqn:C; [reflexivity|].
  exfalso. apply H. apply orb_false_iff in A, B, C.
  unfold Rleb, Rltb in *.
  destruct (Rle_dec 1 (alpha_of alpha0)), (Rle_dec (alpha_of alpha0) 0), (Rle_dec sd1 0), (Rle_dec sd2 0),
    (Rlt_dec 1 r), (Rlt_dec r (-1)); destruct A, B, C; try discriminate.
  unfold ValidTost. repeat split; try lra; lia.
Qed.

(** Student's t distribution with one degree of freedom. *)
Definition cauchy (x : R) : R := / 2 + atan x / PI.
Definition cauchy_q (p : R) : R := tan (PI * (p - / 2)).

Lemma cauchy_sym : SymmetricDistribution cauchy cauchy_q.
Proof.
  pose proof PI_RGT_0 as P. constructor; unfold cauchy, cauchy_q.
  - intros x y H. apply atan_increasing in H. apply Rplus_lt_compat_l.
    apply Rmult_lt_compat_r; [now apply Rinv_0_lt_compat|exact H].
  - intro x. rewrite atan_opp. field. lra.
  - intro x. destruct (atan_bound x) as [_ B].
    assert (atan x / PI < / 2).
    { apply div_lt_iff; lra. } lra.
  - intros q H. rewrite atan_tan; [field; lra|].
    split; nra.
Qed.

(** Concrete case: two pairs, means 1 and 0, unit deviations, no correlation. *)
Lemma case_sd : sd_diff 1 1 0 = sqrt 2.
Proof. unfold sd_diff. f_equal. ring. Qed.
Lemma case_se : std_error 2 1 1 0 = 1.
Proof.
  unfold std_error. rewrite case_sd. field. apply Rgt_not_eq. apply sqrt_lt_R0. lra.
Qed.
Lemma case_valid a : 0 < a < 1 -> ValidTost 2 1 1 0 a.
Proof. unfold ValidTost. intro. repeat split; try lra; lia. Qed.
Lemma case_pd : p_difference cauchy (1 - 0) (std_error 2 1 1 0) = / 2.
Proof.
  unfold p_difference. rewrite case_se. replace ((1 - 0) / 1) with 1 by field.
  rewrite Rabs_R1. unfold cauchy. rewrite atan_1. field. apply PI_neq0.
Qed.
Lemma cauchy_half x : 0 < x -> / 2 < cauchy x.
Proof.
  intro H. replace (/ 2) with (cauchy 0); [now apply (sd_increasing _ _ cauchy_sym)|].
  apply (sym_half _ _ cauchy_sym).
Qed.
Lemma sqrt2_bounds : 1 < sqrt 2 < 2.
Proof.
  split.
  - rewrite <- sqrt_1 at 1. apply sqrt_lt_1; lra.
  - replace 2 with (sqrt (2 * 2)) at 2 by (apply sqrt_square; lra). apply sqrt_lt_1; lra.
Qed.
Lemma case_pe : / 2 < Rmax (p_above cauchy (1 - 0) (- (1 / 1000) * sd_diff 1 1 0) (std_error 2 1 1 0))
                         (p_below cauchy (1 - 0) (1 / 1000 * sd_diff 1 1 0) (std_error 2 1 1 0)).
Proof.
  eapply Rlt_le_trans; [|apply Rmax_r]. unfold p_below. rewrite case_se, case_sd.
  apply cauchy_half. pose proof sqrt2_bounds. lra.
Qed.

Lemma case_se_pos : 0 < std_error 2 1 1 0.
Proof. rewrite case_se. lra. Qed.

Lemma alpha_of_pos a : a <> 0 -> alpha_of (Some a) = a.
Proof. intro H. unfold alpha_of. now rewrite Reqb_no. Qed.

Lemma tost_witness_unbound :
  tost_paired (fun _ => cauchy) (fun _ => cauchy_q) 2 1 0 1 1 0 (- (1 / 1000)) (1 / 1000) (Some (/ 2))
  = Err UnboundLocalError.
Proof.
  apply (tost_unbound (fun _ => cauchy) (fun _ => cauchy_q) 2 1 0 1 1 0 (- (1 / 1000)) (1 / 1000) (/ 2) (Some (/ 2))).
  - apply alpha_of_pos. lra.
  - apply case_valid. lra.
  - apply case_se_pos.
  - apply case_pd.
  - apply case_pe.
Qed.

(** With wide bounds the same difference is declared equivalent. *)
Lemma case_pe_wide : 0 < Rmax (p_above cauchy (1 - 0) (- 10 * sd_diff 1 1 0) (std_error 2 1 1 0))
                         (p_below cauchy (1 - 0) (10 * sd_diff 1 1 0) (std_error 2 1 1 0)) < / 2.
Proof.
  pose proof sqrt2_bounds as B. split.
  - eapply Rlt_le_trans; [|apply Rmax_l]. unfold p_above.
    match goal with |- _ < 1 - cauchy ?x => pose proof (sd_below_one _ _ cauchy_sym x) end. lra.
  - apply Rmax_lt_iff. unfold p_above, p_below. rewrite case_se, case_sd. split.
    + match goal with |- 1 - cauchy ?x < _ => assert (H : / 2 < cauchy x) by (apply cauchy_half; lra) end. lra.
    + match goal with |- cauchy ?x < _ =>
        rewrite <- (sym_half _ _ cauchy_sym); apply (sd_increasing _ _ cauchy_sym); lra end.
Qed.

Lemma tost_witness_disagree : exists r,
  tost_paired (fun _ => cauchy) (fun _ => cauchy_q) 2 1 0 1 1 0 (- 10) 10 (Some (/ 2)) = Ok r /\
  combined_outcome r = "diff_eqv" /\ test_outcome r = "non-significant".
Proof.
  apply (tost_boundary (fun _ => cauchy) (fun _ => cauchy_q) 2 1 0 1 1 0 (- 10) 10 (/ 2) (Some (/ 2))).
  - apply alpha_of_pos. lra.
  - apply case_valid. lra.
  - apply case_se_pos.
  - apply Rgt_not_eq. apply case_pe_wide.
  - apply case_pd.
  - left. apply case_pe_wide.
Qed.

(** The statements of PropertiesTost.v. *)
Lemma C19_classification_proof :
  forall (cdf ppf : Z -> R -> R) n m1 m2 sd1 sd2 r12 low high alpha,
    ValidTost n sd1 sd2 r12 alpha ->
    let d := m1 - m2 in
    let s := sd_diff sd1 sd2 r12 in
    let se := std_error n sd1 sd2 r12 in
    let p_diff := p_difference (cdf (n - 1)%Z) d se in
    let p_eqv := Rmax (p_above (cdf (n - 1)%Z) d (low * s) se) (p_below (cdf (n - 1)%Z) d (high * s) se) in
    0 < se -> p_diff <> 0 -> p_eqv <> 0 -> p_diff <> alpha -> p_eqv <> alpha ->
    exists r,
      tost_paired cdf ppf n m1 m2 sd1 sd2 r12 low high (Some alpha) = Ok r /\
      TostVerdict alpha p_diff p_eqv (combined_outcome r) (test_outcome r) (tost_outcome r).
Proof. intros. apply tost_verdict; try assumption. apply alpha_of_pos. destruct H as (_&_&_&_&A). lra. Qed.

Lemma C19_classification_case_proof :
  ValidTost 2 1 1 0 (1 / 4) /\ 0 < std_error 2 1 1 0 /\
  p_difference cauchy (1 - 0) (std_error 2 1 1 0) = / 2.
Proof. split; [apply case_valid; lra|]. split; [apply case_se_pos|apply case_pd]. Qed.

Lemma C19_significance_is_interval_proof :
  forall (cdf ppf : Z -> R -> R) n m1 m2 sd1 sd2 r12 low high alpha r,
    ValidTost n sd1 sd2 r12 alpha ->
    SymmetricDistribution (cdf (n - 1)%Z) (ppf (n - 1)%Z) ->
    let d := m1 - m2 in
    let s := sd_diff sd1 sd2 r12 in
    let se := std_error n sd1 sd2 r12 in
    0 < se ->
    tost_paired cdf ppf n m1 m2 sd1 sd2 r12 low high (Some alpha) = Ok r ->
    let t_lo := interval_low d (ppf (n - 1)%Z (1 - alpha / 2)) se in
    let t_hi := interval_high d (ppf (n - 1)%Z (1 - alpha / 2)) se in
    let e_lo := interval_low d (ppf (n - 1)%Z (1 - alpha)) se in
    let e_hi := interval_high d (ppf (n - 1)%Z (1 - alpha)) se in
    (test_outcome r = "significant" <-> 0 < t_lo \/ t_hi < 0) /\
    (tost_outcome r = "significant" <-> low * s < e_lo /\ e_hi < high * s) /\
    NearestR 7 t_lo (fst (ci_ttest r)) /\ NearestR 7 t_hi (snd (ci_ttest r)) /\
    NearestR 7 e_lo (fst (ci_tost r)) /\ NearestR 7 e_hi (snd (ci_tost r)) /\
    NearestR 7 (low * s) (fst (eqbound r)) /\ NearestR 7 (high * s) (snd (eqbound r)) /\
    NearestR 7 d (dif r).
Proof. intros cdf ppf n m1 m2 sd1 sd2 r12 low high alpha r V S d s se P K. apply (tost_intervals cdf ppf n m1 m2 sd1 sd2 r12 low high alpha (Some alpha)); try assumption. apply alpha_of_pos. destruct V as (_&_&_&_&A). lra. Qed.

Lemma C19_interval_case_proof :
  SymmetricDistribution cauchy cauchy_q /\ ValidTost 2 1 1 0 (1 / 2) /\ 0 < std_error 2 1 1 0 /\
  exists r, tost_paired (fun _ => cauchy) (fun _ => cauchy_q) 2 1 0 1 1 0 (- 10) 10 (Some (/ 2)) = Ok r.
Proof. split; [apply cauchy_sym|]. split; [apply case_valid; lra|]. split; [apply case_se_pos|]. destruct tost_witness_disagree as (r & E & _). now exists r. Qed.

Lemma C19_undecided_proof :
  forall (cdf ppf : Z -> R -> R) n m1 m2 sd1 sd2 r12 low high alpha,
    ValidTost n sd1 sd2 r12 alpha ->
    let d := m1 - m2 in
    let s := sd_diff sd1 sd2 r12 in
    let se := std_error n sd1 sd2 r12 in
    (se = 0 \/ p_difference (cdf (n - 1)%Z) d se = 0 \/
     Rmax (p_above (cdf (n - 1)%Z) d (low * s) se) (p_below (cdf (n - 1)%Z) d (high * s) se) = 0) ->
    exists r,
      tost_paired cdf ppf n m1 m2 sd1 sd2 r12 low high (Some alpha) = Ok r /\
      combined_outcome r = "none" /\ test_outcome r = "none" /\ tost_outcome r = "none" /\
      t r = (None, None) /\ p r = (None, None).
Proof. intros. apply (tost_undecided cdf ppf n m1 m2 sd1 sd2 r12 low high alpha); try assumption. apply alpha_of_pos. destruct H as (_&_&_&_&A). lra. Qed.

Lemma C19_undecided_case_proof : ValidTost 5 1 1 1 (1 / 20) /\ std_error 5 1 1 1 = 0.
Proof. split; [unfold ValidTost; repeat split; try lra; lia|]. unfold std_error, sd_diff. replace (1 ^ 2 + 1 ^ 2 - 2 * 1 * 1 * 1) with 0 by ring. rewrite sqrt_0. unfold Rdiv. ring. Qed.

Lemma C19_only_failure_proof :
  forall (cdf ppf : Z -> R -> R) n m1 m2 sd1 sd2 r12 low high alpha e,
    ValidTost n sd1 sd2 r12 alpha ->
    tost_paired cdf ppf n m1 m2 sd1 sd2 r12 low high (Some alpha) = Err e ->
    let d := m1 - m2 in
    let s := sd_diff sd1 sd2 r12 in
    let se := std_error n sd1 sd2 r12 in
    e = UnboundLocalError /\ 0 < se /\ p_difference (cdf (n - 1)%Z) d se = alpha /\
    alpha < Rmax (p_above (cdf (n - 1)%Z) d (low * s) se) (p_below (cdf (n - 1)%Z) d (high * s) se).
Proof. intros cdf ppf n m1 m2 sd1 sd2 r12 low high alpha e V K. apply (tost_only_error cdf ppf n m1 m2 sd1 sd2 r12 low high alpha (Some alpha)); try assumption. apply alpha_of_pos. destruct V as (_&_&_&_&A). lra. Qed.

Lemma C19_invalid_exits_proof :
  forall (cdf ppf : Z -> R -> R) n m1 m2 sd1 sd2 r12 low high alpha,
    alpha <> 0 -> ~ ValidTost n sd1 sd2 r12 alpha ->
    tost_paired cdf ppf n m1 m2 sd1 sd2 r12 low high (Some alpha) = Err SystemExit.
Proof. intros cdf ppf n m1 m2 sd1 sd2 r12 low high alpha Z V. apply tost_exit. now rewrite alpha_of_pos. Qed.

Lemma C19_invalid_case_proof : ~ ValidTost 1 1 1 0 (1 / 20).
Proof. intros (H & _). lia. Qed.

Lemma C19_default_alpha_proof :
  forall (cdf ppf : Z -> R -> R) n m1 m2 sd1 sd2 r12 low high,
    tost_paired cdf ppf n m1 m2 sd1 sd2 r12 low high None
      = tost_paired cdf ppf n m1 m2 sd1 sd2 r12 low high (Some (5 / 100)) /\
    tost_paired cdf ppf n m1 m2 sd1 sd2 r12 low high (Some 0)
      = tost_paired cdf ppf n m1 m2 sd1 sd2 r12 low high (Some (5 / 100)).
Proof. intros. unfold tost_paired. rewrite (Reqb_no (5 / 100) 0) by lra. replace (Reqb 0 0) with true by (symmetry; now apply Reqb_iff). split; reflexivity. Qed.

Lemma C19_always_returns_refuted_proof :
  ~ (forall (cdf ppf : Z -> R -> R) n m1 m2 sd1 sd2 r12 low high alpha,
       ValidTost n sd1 sd2 r12 alpha -> SymmetricDistribution (cdf (n - 1)%Z) (ppf (n - 1)%Z) ->
       exists r, tost_paired cdf ppf n m1 m2 sd1 sd2 r12 low high (Some alpha) = Ok r).
Proof. intro H. destruct (H (fun _ => cauchy) (fun _ => cauchy_q) 2%Z 1 0 1 1 0 (- (1 / 1000)) (1 / 1000) (/ 2)) as (r & E); [apply case_valid; lra|apply cauchy_sym|]. rewrite tost_witness_unbound in E. discriminate E. Qed.

Lemma C19_outcomes_agree_refuted_proof :
  ~ (forall (cdf ppf : Z -> R -> R) n m1 m2 sd1 sd2 r12 low high alpha r,
       ValidTost n sd1 sd2 r12 alpha -> SymmetricDistribution (cdf (n - 1)%Z) (ppf (n - 1)%Z) ->
       tost_paired cdf ppf n m1 m2 sd1 sd2 r12 low high (Some alpha) = Ok r ->
       combined_outcome r = "diff_eqv" -> test_outcome r = "significant").
Proof. intro H. destruct tost_witness_disagree as (r & E & C & T). specialize (H (fun _ => cauchy) (fun _ => cauchy_q) 2%Z 1 0 1 1 0 (- 10) 10 (/ 2) r). rewrite T in H. cut ("non-significant" = "significant"); [discriminate|]. apply H; [apply case_valid; lra|apply cauchy_sym|exact E|exact C]. Qed.

Lemma C19_values_proof :
  forall (cdf ppf : Z -> R -> R) n m1 m2 sd1 sd2 r12 low high alpha r,
    ValidTost n sd1 sd2 r12 alpha ->
    tost_paired cdf ppf n m1 m2 sd1 sd2 r12 low high (Some alpha) = Ok r ->
    let F := cdf (n - 1)%Z in
    let d := m1 - m2 in
    let s := sd_diff sd1 sd2 r12 in
    let se := std_error n sd1 sd2 r12 in
    let e_lo := interval_low d (ppf (n - 1)%Z (1 - alpha)) se in
    let e_hi := interval_high d (ppf (n - 1)%Z (1 - alpha)) se in
    let margin := Rmax (e_hi - e_lo) (high * s - low * s) / 10 in
    NearestR 7 (IZR n - 1) (degrees_of_freedom r) /\
    NearestR 7 (Rmin e_lo (low * s) - margin) (fst (xlim r)) /\
    NearestR 7 (Rmax e_hi (high * s) + margin) (snd (xlim r)) /\
    (combined_outcome r <> "none" ->
     exists t1 t2 p1 p2, t r = (Some t1, Some t2) /\ p r = (Some p1, Some p2) /\
       NearestR 7 ((d - low * s) / se) t1 /\ NearestR 7 ((d - high * s) / se) t2 /\
       NearestR 7 (p_above F d (low * s) se) p1 /\ NearestR 7 (p_below F d (high * s) se) p2).
Proof.
  intros cdf ppf n m1 m2 sd1 sd2 r12 low high alpha r V K F d s se e_lo e_hi margin.
  rewrite (tost_shape cdf ppf n m1 m2 sd1 sd2 r12 low high alpha (Some alpha)) in K; [|apply alpha_of_pos; destruct V as (_&_&_&_&A); lra|exact V].
  assert (N : forall x, NearestR 7 x (rnd x)) by (intro x; exact (rhuR_nearest x 7)).
  replace (IZR n - 1) with (IZR (n - 1)) by (rewrite minus_IZR; reflexivity).
  destruct (Reqb _ 0); [injection K as <-; cbn; repeat (split; [apply N|]); congruence|].
  destruct (negb _ && negb _); [|injection K as <-; cbn; repeat (split; [apply N|]); congruence].
  destruct (combined _ _ _); [|discriminate K]. injection K as <-. cbn. repeat (split; [apply N|]). intros _.
  do 4 eexists. repeat (split; [reflexivity || apply N|]). apply N.
Qed.

Lemma C19_values_case_proof :
  exists r, tost_paired (fun _ => cauchy) (fun _ => cauchy_q) 2 1 0 1 1 0 (- 10) 10 (Some (/ 2)) = Ok r /\ combined_outcome r <> "none".
Proof. destruct tost_witness_disagree as (r & E & C & _). exists r. split; [exact E|]. rewrite C. discriminate. Qed.
