(** Proofs about the two equivalence tests. *)
From Verif Require Import PyBase BaseSpec RealBase RealSpec RealProofs TostModel TostSpec TostProofs TostTwoModel.
From Coq Require Import Reals Lra.
Open Scope R_scope.
Open Scope string_scope.

Section T.
Variables cdf ppf : Z -> R -> R.
Variables (n : Z) (m1 m2 sd1 sd2 r12 low high alpha : R).
Notation two := (tost_paired_two cdf ppf n m1 m2 sd1 sd2 r12 low high (Some alpha)).
Notation F := (cdf (n - 1)%Z).
Notation d := (m1 - m2).
Notation s := (sd_diff sd1 sd2 r12).
Notation se := (std_error n sd1 sd2 r12).
Notation Pd := (p_difference F d se).
Notation Pa := (p_above F d (low * s) se).
Notation Pb := (p_below F d (high * s) se).
Hypothesis HV : ValidTost n sd1 sd2 r12 alpha.

Lemma two_shape :
  two = if Reqb se 0 then Err ZeroDivisionError
        else match combined alpha Pd (Rmax Pa Pb) with
             | None => Err UnboundLocalError
             | Some co => Ok (rest_of ppf n m1 m2 sd1 sd2 r12 low high alpha co (outcome alpha Pd) (outcome alpha (Rmax Pa Pb))
                              (Some (rnd ((d - low * s) / se)), Some (rnd ((d - high * s) / se)))
                              (Some (rnd Pa), Some (rnd Pb)))
             end.
Proof.
  destruct HV as (Hn & H1 & H2 & Hr & Ha).
  unfold tost_paired_two. fold (alpha_of (Some alpha)). rewrite alpha_of_pos by lra. cbv zeta.
  replace (n <? 2)%Z with false by (symmetry; apply Z.ltb_ge; lia).
  rewrite (Rleb_no 1 alpha), (Rleb_no alpha 0), (Rleb_no sd1 0), (Rleb_no sd2 0),
    (Rltb_no 1 r12), (Rltb_no r12 (-1)) by lra.
  cbn [orb]. rewrite math_sqrt_ok by (apply diff_var_nonneg; assumption).
  rewrite math_sqrt_ok by (apply IZR_le; lia). cbn [bind].
  replace (sqrt (sd1 * sd1 + sd2 * sd2 - 2 * r12 * sd1 * sd2)) with s by (unfold sd_diff; f_equal; ring).
  assert (N : sqrt (IZR n) <> 0) by (apply Rgt_not_eq; apply sqrt_lt_R0; apply IZR_lt; lia).
  unfold over. rewrite (Reqb_no (sqrt (IZR n)) 0 N). cbn [bind].
  change (s / sqrt (IZR n)) with se. destruct (Reqb se 0); cbn [bind]; [reflexivity|].
  unfold pt_two, qt_two. change combined_two with combined. change outcome_two with outcome.
  change (2 * (1 - F (Rabs (d / se)))) with Pd.
  change (1 - F ((d - low * s) / se)) with Pa.
  change (F ((d - high * s) / se)) with Pb.
  reflexivity.
Qed.
End T.

(** A distribution whose tails are zero. *)
Definition step (x : R) : R := if Rlt_dec x 0 then 0 else if Rlt_dec 0 x then 1 else / 2.
Lemma step_pos x : 0 < x -> step x = 1.
Proof. intro H. unfold step. destruct (Rlt_dec x 0); [lra|]. destruct (Rlt_dec 0 x); [reflexivity|lra]. Qed.
Lemma step_neg x : x < 0 -> step x = 0.
Proof. intro H. unfold step. destruct (Rlt_dec x 0); [reflexivity|lra]. Qed.
Lemma step_sym x : step (- x) = 1 - step x.
Proof. unfold step. destruct (Rlt_dec (- x) 0), (Rlt_dec 0 (- x)), (Rlt_dec x 0), (Rlt_dec 0 x); lra. Qed.
Lemma step_mono x y : x <= y -> step x <= step y.
Proof. intro H. unfold step. destruct (Rlt_dec x 0), (Rlt_dec 0 x), (Rlt_dec y 0), (Rlt_dec 0 y); lra. Qed.
Lemma step_pd : p_difference step (1 - 0) (std_error 2 1 1 0) = 0.
Proof. unfold p_difference. rewrite case_se. rewrite step_pos; [lra|]. replace ((1 - 0) / 1) with 1 by field. rewrite Rabs_R1. lra. Qed.
Lemma step_pe : Rmax (p_above step (1 - 0) (- 10 * sd_diff 1 1 0) (std_error 2 1 1 0)) (p_below step (1 - 0) (10 * sd_diff 1 1 0) (std_error 2 1 1 0)) = 0.
Proof.
  unfold p_above, p_below. rewrite case_se, case_sd. pose proof sqrt2_bounds. rewrite step_pos, step_neg; [|lra|lra]. replace (1 - 1) with 0 by lra. apply Rmax_left. lra.
Qed.

(** The statements of PropertiesTostTwo.v. *)
Lemma C134_agree_proof : forall (cdf ppf : Z -> R -> R) n m1 m2 sd1 sd2 r12 low high alpha,
  ValidTost n sd1 sd2 r12 alpha ->
  let d := m1 - m2 in
  let s := sd_diff sd1 sd2 r12 in
  let se := std_error n sd1 sd2 r12 in
  0 < se -> p_difference (cdf (n - 1)%Z) d se <> 0 ->
  Rmax (p_above (cdf (n - 1)%Z) d (low * s) se) (p_below (cdf (n - 1)%Z) d (high * s) se) <> 0 ->
  tost_paired_two cdf ppf n m1 m2 sd1 sd2 r12 low high (Some alpha) = tost_paired cdf ppf n m1 m2 sd1 sd2 r12 low high (Some alpha).
Proof.
  intros cdf ppf n m1 m2 sd1 sd2 r12 low high alpha V d s se S D E. rewrite two_shape by exact V. rewrite (tost_shape cdf ppf n m1 m2 sd1 sd2 r12 low high alpha (Some alpha)); [|apply alpha_of_pos; destruct V as (_&_&_&_&A); lra|exact V].
  fold d s se. rewrite !Reqb_no by lra. reflexivity.
Qed.

Lemma C134_agree_case_proof : ValidTost 2 1 1 0 (1 / 4) /\ 0 < std_error 2 1 1 0 /\ p_difference cauchy (1 - 0) (std_error 2 1 1 0) <> 0 /\
  Rmax (p_above cauchy (1 - 0) (- 10 * sd_diff 1 1 0) (std_error 2 1 1 0)) (p_below cauchy (1 - 0) (10 * sd_diff 1 1 0) (std_error 2 1 1 0)) <> 0.
Proof.
  split; [apply case_valid; lra|]. split; [apply case_se_pos|]. split; [rewrite case_pd; lra|]. apply Rgt_not_eq. apply case_pe_wide.
Qed.

Lemma C134_invalid_proof : forall (cdf ppf : Z -> R -> R) n m1 m2 sd1 sd2 r12 low high alpha, alpha <> 0 -> ~ ValidTost n sd1 sd2 r12 alpha ->
  tost_paired_two cdf ppf n m1 m2 sd1 sd2 r12 low high (Some alpha) = Err SystemExit /\
  tost_paired cdf ppf n m1 m2 sd1 sd2 r12 low high (Some alpha) = Err SystemExit.
Proof.
  intros cdf ppf n m1 m2 sd1 sd2 r12 low high alpha A V. split; [|exact (C19_invalid_exits_proof cdf ppf n m1 m2 sd1 sd2 r12 low high alpha A V)].
  unfold tost_paired_two. fold (alpha_of (Some alpha)). rewrite alpha_of_pos by exact A. cbv zeta.
  destruct (Z.ltb_spec n 2); [reflexivity|]. destruct (Rleb 1 alpha) eqn:E1; [reflexivity|]. destruct (Rleb alpha 0) eqn:E2; [reflexivity|]. cbn [orb].
  destruct (Rleb sd1 0) eqn:E3; [reflexivity|]. destruct (Rleb sd2 0) eqn:E4; [reflexivity|]. cbn [orb]. destruct (Rltb 1 r12) eqn:E5; [reflexivity|]. destruct (Rltb r12 (-1)) eqn:E6; [reflexivity|].
  destruct V. unfold Rleb, Rltb in *.
  destruct (Rle_dec 1 alpha); [discriminate|]. destruct (Rle_dec alpha 0); [discriminate|]. destruct (Rle_dec sd1 0); [discriminate|]. destruct (Rle_dec sd2 0); [discriminate|].
  destruct (Rlt_dec 1 r12); [discriminate|]. destruct (Rlt_dec r12 (-1)); [discriminate|]. repeat split; lia || lra.
Qed.

Lemma C134_invalid_case_proof : ~ ValidTost 1 1 1 0 (1 / 20).
Proof.
  exact C19_invalid_case_proof.
Qed.

Lemma C134_verdict_proof : forall (cdf ppf : Z -> R -> R) n m1 m2 sd1 sd2 r12 low high alpha,
  ValidTost n sd1 sd2 r12 alpha ->
  let d := m1 - m2 in
  let s := sd_diff sd1 sd2 r12 in
  let se := std_error n sd1 sd2 r12 in
  let p_diff := p_difference (cdf (n - 1)%Z) d se in
  let p_eqv := Rmax (p_above (cdf (n - 1)%Z) d (low * s) se) (p_below (cdf (n - 1)%Z) d (high * s) se) in
  0 < se -> p_diff <> alpha -> p_eqv <> alpha ->
  exists r, tost_paired_two cdf ppf n m1 m2 sd1 sd2 r12 low high (Some alpha) = Ok r /\
    TostVerdict alpha p_diff p_eqv (combined_outcome r) (test_outcome r) (tost_outcome r).
Proof.
  intros cdf ppf n m1 m2 sd1 sd2 r12 low high alpha V d s se Pd Pe S DA EA. rewrite two_shape by exact V. fold d s se. rewrite Reqb_no by lra. fold Pd Pe. rewrite combined_cases. unfold outcome, Rltb.
  destruct (Rlt_dec alpha Pd); destruct (Rlt_dec alpha Pe); destruct (Rlt_dec Pd alpha); destruct (Rlt_dec Pe alpha);
    try (exfalso; lra); eexists; (split; [reflexivity|]); cbn; constructor; lra.
Qed.

Lemma C134_verdict_case_proof : ValidTost 2 1 1 0 (1 / 4) /\ 0 < std_error 2 1 1 0 /\ p_difference step (1 - 0) (std_error 2 1 1 0) = 0.
Proof.
  split; [apply case_valid; lra|]. split; [apply case_se_pos|]. apply step_pd.
Qed.

Lemma C134_no_spread_proof : forall (cdf ppf : Z -> R -> R) n m1 m2 sd1 sd2 r12 low high alpha,
  ValidTost n sd1 sd2 r12 alpha -> std_error n sd1 sd2 r12 = 0 ->
  tost_paired_two cdf ppf n m1 m2 sd1 sd2 r12 low high (Some alpha) = Err ZeroDivisionError /\
  exists r, tost_paired cdf ppf n m1 m2 sd1 sd2 r12 low high (Some alpha) = Ok r /\ combined_outcome r = "none".
Proof.
  intros cdf ppf n m1 m2 sd1 sd2 r12 low high alpha V S. split.
  - rewrite two_shape by exact V. apply Reqb_iff in S. rewrite S. reflexivity.
  - destruct (C19_undecided_proof cdf ppf n m1 m2 sd1 sd2 r12 low high alpha V (or_introl S)) as (r & E & O & _). exists r. auto.
Qed.

Lemma C134_no_spread_case_proof : ValidTost 5 1 1 1 (1 / 20) /\ std_error 5 1 1 1 = 0.
Proof.
  exact C19_undecided_case_proof.
Qed.

Lemma C134_same_refuted_proof :
  ~ (forall (cdf ppf : Z -> R -> R) n m1 m2 sd1 sd2 r12 low high alpha r r',
       ValidTost n sd1 sd2 r12 alpha -> (forall x, cdf (n - 1)%Z (- x) = 1 - cdf (n - 1)%Z x) -> (forall x y, x <= y -> cdf (n - 1)%Z x <= cdf (n - 1)%Z y) ->
       tost_paired_two cdf ppf n m1 m2 sd1 sd2 r12 low high (Some alpha) = Ok r ->
       tost_paired cdf ppf n m1 m2 sd1 sd2 r12 low high (Some alpha) = Ok r' -> combined_outcome r = combined_outcome r').
Proof.
  intro P. assert (V : ValidTost 2 1 1 0 (1 / 4)) by (apply case_valid; lra).
  destruct (C134_verdict_proof (fun _ => step) (fun _ _ => 0) 2 1 0 1 1 0 (- 10) 10 (1 / 4) V) as (r & E & T); [apply case_se_pos|rewrite step_pd; lra|rewrite step_pe; lra|].
  destruct (C19_undecided_proof (fun _ => step) (fun _ _ => 0) 2 1 0 1 1 0 (- 10) 10 (1 / 4) V (or_intror (or_introl step_pd))) as (r' & E' & O & _).
  specialize (P _ _ _ _ _ _ _ _ _ _ _ r r' V step_sym step_mono E E'). rewrite O in P. rewrite P in T. inversion T.
Qed.

Lemma C134_values_proof : forall (cdf ppf : Z -> R -> R) n m1 m2 sd1 sd2 r12 low high alpha r,
  ValidTost n sd1 sd2 r12 alpha ->
  let F := cdf (n - 1)%Z in
  let d := m1 - m2 in
  let s := sd_diff sd1 sd2 r12 in
  let se := std_error n sd1 sd2 r12 in
  let e_lo := interval_low d (ppf (n - 1)%Z (1 - alpha)) se in
  let e_hi := interval_high d (ppf (n - 1)%Z (1 - alpha)) se in
  let margin := Rmax (e_hi - e_lo) (high * s - low * s) / 10 in
  tost_paired_two cdf ppf n m1 m2 sd1 sd2 r12 low high (Some alpha) = Ok r ->
  (exists t1 t2, t r = (Some t1, Some t2) /\ NearestR 7 ((d - low * s) / se) t1 /\ NearestR 7 ((d - high * s) / se) t2) /\
  (exists p1 p2, p r = (Some p1, Some p2) /\ NearestR 7 (p_above F d (low * s) se) p1 /\ NearestR 7 (p_below F d (high * s) se) p2) /\
  NearestR 7 d (dif r) /\ NearestR 7 (IZR n - 1) (degrees_of_freedom r) /\
  NearestR 7 e_lo (fst (ci_tost r)) /\ NearestR 7 e_hi (snd (ci_tost r)) /\
  NearestR 7 (interval_low d (ppf (n - 1)%Z (1 - alpha / 2)) se) (fst (ci_ttest r)) /\
  NearestR 7 (interval_high d (ppf (n - 1)%Z (1 - alpha / 2)) se) (snd (ci_ttest r)) /\
  NearestR 7 (low * s) (fst (eqbound r)) /\ NearestR 7 (high * s) (snd (eqbound r)) /\
  NearestR 7 (Rmin e_lo (low * s) - margin) (fst (xlim r)) /\ NearestR 7 (Rmax e_hi (high * s) + margin) (snd (xlim r)).
Proof.
  intros cdf ppf n m1 m2 sd1 sd2 r12 low high alpha r V F d s se e_lo e_hi margin K. rewrite two_shape in K by exact V.
  destruct (Reqb _ 0); [discriminate K|]. destruct (combined _ _ _); [|discriminate K]. injection K as <-.
  assert (N : forall x, NearestR 7 x (rnd x)) by (intro x; exact (rhuR_nearest x 7)). cbn.
  split; [do 2 eexists; split; [reflexivity|]; split; apply N|]. split; [do 2 eexists; split; [reflexivity|]; split; apply N|].
  replace (IZR n - 1) with (IZR (n - 1)) by (rewrite minus_IZR; reflexivity). repeat (split; [apply N|]). apply N.
Qed.

Lemma C134_default_alpha_proof : forall (cdf ppf : Z -> R -> R) n m1 m2 sd1 sd2 r12 low high,
  tost_paired_two cdf ppf n m1 m2 sd1 sd2 r12 low high None = tost_paired_two cdf ppf n m1 m2 sd1 sd2 r12 low high (Some (5 / 100)) /\
  tost_paired_two cdf ppf n m1 m2 sd1 sd2 r12 low high (Some 0) = tost_paired_two cdf ppf n m1 m2 sd1 sd2 r12 low high (Some (5 / 100)).
Proof.
  intros. unfold tost_paired_two. rewrite (Reqb_no (5 / 100) 0) by lra. replace (Reqb 0 0) with true by (symmetry; now apply Reqb_iff). split; reflexivity.
Qed.

Lemma C134_unbound_proof : forall (cdf ppf : Z -> R -> R) n m1 m2 sd1 sd2 r12 low high alpha,
  ValidTost n sd1 sd2 r12 alpha ->
  let d := m1 - m2 in
  let s := sd_diff sd1 sd2 r12 in
  let se := std_error n sd1 sd2 r12 in
  0 < se ->
  forall e, tost_paired_two cdf ppf n m1 m2 sd1 sd2 r12 low high (Some alpha) = Err e <->
    e = UnboundLocalError /\ p_difference (cdf (n - 1)%Z) d se = alpha /\
    alpha < Rmax (p_above (cdf (n - 1)%Z) d (low * s) se) (p_below (cdf (n - 1)%Z) d (high * s) se).
Proof.
  intros cdf ppf n m1 m2 sd1 sd2 r12 low high alpha V d s se S e. rewrite two_shape by exact V. fold d s se. rewrite Reqb_no by lra. rewrite combined_cases.
  set (Pd := p_difference _ _ _). set (Pe := Rmax _ _). split.
  - destruct (Rlt_dec alpha Pd), (Rlt_dec alpha Pe), (Rlt_dec Pd alpha); intro K; try discriminate K. injection K as <-. repeat split; lra.
  - intros (-> & A & B). destruct (Rlt_dec alpha Pd); [lra|]. destruct (Rlt_dec alpha Pe); [|lra]. destruct (Rlt_dec Pd alpha); [lra|reflexivity].
Qed.

Lemma C134_values_case_proof : exists r, tost_paired_two (fun _ => step) (fun _ _ => 0) 2 1 0 1 1 0 (- 10) 10 (Some (1 / 4)) = Ok r.
Proof.
  assert (V : ValidTost 2 1 1 0 (1 / 4)) by (apply case_valid; lra).
  destruct (C134_verdict_proof (fun _ => step) (fun _ _ => 0) 2 1 0 1 1 0 (- 10) 10 (1 / 4) V) as (r & E & _); [apply case_se_pos|rewrite step_pd; lra|rewrite step_pe; lra|].
  now exists r.
Qed.

Lemma C134_unbound_case_proof : ValidTost 2 1 1 0 (/ 2) /\ 0 < std_error 2 1 1 0 /\
  tost_paired_two (fun _ => cauchy) (fun _ => cauchy_q) 2 1 0 1 1 0 (- (1 / 1000)) (1 / 1000) (Some (/ 2)) = Err UnboundLocalError.
Proof.
  assert (V : ValidTost 2 1 1 0 (/ 2)) by (apply case_valid; lra). split; [exact V|]. split; [apply case_se_pos|].
  apply (C134_unbound_proof (fun _ => cauchy) (fun _ => cauchy_q) 2 1 0 1 1 0 (- (1 / 1000)) (1 / 1000) (/ 2) V case_se_pos).
  split; [reflexivity|]. split; [apply case_pd|apply case_pe].
Qed.
