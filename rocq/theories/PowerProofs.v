(** Proofs about PowerModel.v. *)
From Coq Require Import Reals String List Lia.
From Verif Require Import PyBase ActivityModel CorrModel CorrProofs.
From Verif Require Import PowerModel PowerSpec.
From Coq Require Import Lra.
Import ListNotations.
Open Scope R_scope.

Lemma rleb_iff a b : rleb a b = true <-> a <= b.
Proof. unfold rleb. destruct (Rle_dec a b); split; intro; try assumption; try discriminate; [reflexivity|contradiction]. Qed.
Lemma rltb_iff a b : real_ltb a b = true <-> a < b.
Proof. unfold real_ltb. destruct (Rlt_dec a b); split; intro; try assumption; try discriminate; [reflexivity|contradiction]. Qed.
Lemma reqb_iff a b : real_eqb a b = true <-> a = b.
Proof. unfold real_eqb. destruct (Req_EM_T a b); split; intro; try assumption; try discriminate; [reflexivity|contradiction]. Qed.
Lemma reqb_false a b : a <> b -> real_eqb a b = false.
Proof. intro H. destruct (real_eqb a b) eqn:E; [apply reqb_iff in E; contradiction|reflexivity]. Qed.
Lemma rltb_false a b : b <= a -> real_ltb a b = false.
Proof. intro H. destruct (real_ltb a b) eqn:E; [apply rltb_iff in E; lra|reflexivity]. Qed.

(* ---------- Fisher's z ---------- *)
Lemma arctanh_le a b : 0 <= a -> a <= b -> b < 1 -> arctanh a <= arctanh b.
Proof.
  intros A B D. unfold arctanh. apply Rmult_le_compat_r; [lra|]. destruct (Req_dec a b) as [->|N]; [lra|]. left. apply ln_increasing.
  - apply Rdiv_lt_0_compat; lra.
  - apply (Rmult_lt_reg_r ((1 - a) * (1 - b))); [apply Rmult_lt_0_compat; lra|]. field_simplify; [|lra|lra]. lra.
Qed.
Lemma arctanh_0 : arctanh 0 = 0.
Proof. unfold arctanh. replace ((1 + 0) / (1 - 0)) with 1 by field. rewrite ln_1. lra. Qed.
Lemma arctanh_nonneg a : 0 <= a < 1 -> 0 <= arctanh a.
Proof. intro H. rewrite <- arctanh_0. apply arctanh_le; lra. Qed.
Definition crit (t dof : R) : R := sqrt (t * t / (t * t + dof)).
Lemma crit_bounds t dof : 0 < dof -> 0 <= crit t dof < 1.
Proof.
  intro H. unfold crit. split; [apply sqrt_pos|]. rewrite <- sqrt_1 at 1. apply sqrt_lt_1.
  - apply Rmult_le_pos; [apply Rle_0_sqr|]. left. apply Rinv_0_lt_compat. pose proof (Rle_0_sqr t). unfold Rsqr in *. lra.
  - lra.
  - pose proof (Rle_0_sqr t) as Q. unfold Rsqr in Q. apply (Rmult_lt_reg_r (t * t + dof)); [lra|]. unfold Rdiv. rewrite Rmult_assoc, Rinv_l by lra. lra.
Qed.
Lemma crit_le t u dof : 0 < dof -> Rabs t <= Rabs u -> crit t dof <= crit u dof.
Proof.
  intros H L. unfold crit. pose proof (Rle_0_sqr t) as Q. pose proof (Rle_0_sqr u) as Q'. unfold Rsqr in *.
  assert (t * t <= u * u) as S by (apply Rsqr_le_abs_1 in L; exact L).
  apply sqrt_le_1.
  - apply Rmult_le_pos; [lra|]. left. apply Rinv_0_lt_compat. lra.
  - apply Rmult_le_pos; [lra|]. left. apply Rinv_0_lt_compat. lra.
  - apply (Rmult_le_reg_r ((t * t + dof) * (u * u + dof))); [apply Rmult_lt_0_compat; lra|]. field_simplify; [|lra|lra].
    assert (dof * (t * t) <= dof * (u * u)) as K by (apply Rmult_le_compat_l; lra). nra.
Qed.
Lemma crit_abs t dof : 0 < dof -> crit t dof = Rabs t / sqrt (t * t + dof).
Proof.
  intro H. unfold crit. pose proof (Rle_0_sqr t) as Q. unfold Rsqr in Q. rewrite sqrt_div; [|lra|lra]. f_equal.
  change (t * t) with (Rsqr t). apply sqrt_Rsqr_abs.
Qed.
Definition z_of (r n : R) : R := arctanh r + r / (2 * (n - 1)).
Lemma z_le a b n : 0 <= a -> a <= b -> b < 1 -> 1 < n -> z_of a n <= z_of b n.
Proof.
  intros A B D N. unfold z_of. pose proof (arctanh_le a b A B D). apply Rplus_le_compat; [assumption|]. apply Rmult_le_compat_r; [left; apply Rinv_0_lt_compat; lra|exact B].
Qed.
Lemma z_nonneg a n : 0 <= a < 1 -> 1 < n -> 0 <= z_of a n.
Proof.
  intros A N. unfold z_of. pose proof (arctanh_nonneg a A). assert (0 <= a / (2 * (n - 1))) by (apply Rmult_le_pos; [lra|left; apply Rinv_0_lt_compat; lra]). lra.
Qed.
Lemma power_of_eq ppf F two r n alpha : r < 1 -> 0 < alpha < 1 ->
  power_of ppf F two r n alpha = let c := arctanh (crit (ppf (if two then 1 - alpha / 2 else 1 - alpha) (n - 2)) (n - 2)) in
    Some (if two then F ((z_of r n - c) * sqrt (n - 3)) + F ((- z_of r n - c) * sqrt (n - 3)) else F ((z_of r n - c) * sqrt (n - 3))).
Proof.
  intros HR HA. unfold power_of. cbv zeta. rewrite (reqb_false _ 0) by (destruct two; lra). rewrite (reqb_false r 1) by lra. reflexivity.
Qed.
Lemma power_of_eq2 ppf F r n alpha : r < 1 -> 0 < alpha <= 1 ->
  power_of ppf F true r n alpha = let c := arctanh (crit (ppf (1 - alpha / 2) (n - 2)) (n - 2)) in
    Some (F ((z_of r n - c) * sqrt (n - 3)) + F ((- z_of r n - c) * sqrt (n - 3))).
Proof. intros HR HA. unfold power_of. cbv zeta. rewrite (reqb_false _ 0) by lra. rewrite (reqb_false r 1) by lra. reflexivity. Qed.
Lemma power_of_one ppf F two n alpha : 0 < alpha -> (two = true -> alpha <= 1) -> power_of ppf F two 1 n alpha = None \/ power_of ppf F two 1 n alpha = Some 1.
Proof. intros HA H1. unfold power_of. cbv zeta. destruct (real_eqb _ 0); [left; reflexivity|]. rewrite (proj2 (reqb_iff 1 1) eq_refl). right. reflexivity. Qed.

(* ---------- two-sided power ---------- *)
Section Normal.
Variable F : R -> R.
Hypothesis HN : NormalLike F.
Lemma two_bounds z c k : 0 <= c -> 0 <= k -> 0 <= F ((z - c) * k) + F ((- z - c) * k) <= 1.
Proof.
  intros HC HK. destruct HN as [B M S]. pose proof (B ((z - c) * k)). pose proof (B ((- z - c) * k)). split; [lra|].
  assert ((- z - c) * k <= - ((z - c) * k)) as L by nra. apply M in L. rewrite S in L. lra.
Qed.
Lemma two_peaked u u' c : Peaked F -> 0 <= c -> 0 <= u <= u' -> F (u - c) + F (- u - c) <= F (u' - c) + F (- u' - c).
Proof.
  intros P HC HU. destruct HN as [B M S].
  replace (- u - c) with (- (u + c)) by ring. replace (- u' - c) with (- (u' + c)) by ring. rewrite !S.
  set (d := u' - u).
  cut (F (u + c + d) - F (u + c) <= F (u - c + d) - F (u - c)).
  { replace (u + c + d) with (u' + c) by (unfold d; ring). replace (u - c + d) with (u' - c) by (unfold d; ring). lra. }
  assert (0 <= d) as HD by (unfold d; lra).
  destruct (Rle_dec c u) as [H1|H1].
  - apply P; lra.
  - destruct (Rle_dec (u - c + d) 0) as [H2|H2].
    + replace (u - c) with (- (c - u)) by ring. replace (- (c - u) + d) with (- (c - u - d)) by ring. rewrite !S.
      pose proof (P (c - u - d) (u + c) d ltac:(lra) HD) as Q. replace (c - u - d + d) with (c - u) in Q by ring. lra.
    + pose proof (P 0 (u + c) (c - u) ltac:(lra) ltac:(lra)) as Q1. pose proof (P 0 (u + c + (c - u)) (d - (c - u)) ltac:(lra) ltac:(lra)) as Q2.
      replace (u + c + (c - u) + (d - (c - u))) with (u + c + d) in Q2 by ring. replace (0 + (d - (c - u))) with (u - c + d) in Q2 by ring.
      replace (0 + (c - u)) with (c - u) in Q1 by ring. replace (u - c) with (- (c - u)) by ring. rewrite S.
      pose proof (S 0) as S0. rewrite Ropp_0 in S0. replace (- (c - u) + d) with (u - c + d) by ring. lra.
Qed.
End Normal.
Section Quantile.
Variable ppf : R -> R -> R.
Hypothesis HQ : QuantileLike ppf.
Lemma quantile_half dof : 0 < dof -> ppf (/ 2) dof = 0.
Proof. intro H. pose proof (quantile_sym ppf HQ dof (/ 2) H ltac:(lra)) as S. replace (1 - / 2) with (/ 2) in S by field. lra. Qed.
Lemma quantile_pos q dof : 0 < dof -> / 2 <= q < 1 -> 0 <= ppf q dof.
Proof. intros H B. rewrite <- (quantile_half dof H). apply (quantile_mono ppf HQ); lra. Qed.
End Quantile.

(* ---------- the checks of the arguments ---------- *)
Lemma one_missing_iff r n power alpha : Nat.eqb (given r + given n + given power + given alpha) 1 = true <-> OneMissing r n power alpha.
Proof.
  unfold OneMissing. destruct r, n, power, alpha; cbn; split; intro H; try discriminate; try reflexivity; intuition congruence.
Qed.
Lemma within_r r : within r (fun v => rleb (-1) v && rleb v 1) = true <-> forall v, r = Some v -> -1 <= v <= 1.
Proof.
  destruct r as [x|]; cbn; [|split; [intros _ v H; discriminate|reflexivity]]. rewrite andb_true_iff, !rleb_iff. split; [intros H v E; injection E as <-; exact H|intro H; exact (H x eq_refl)].
Qed.
Lemma within_p r : within r (fun v => real_ltb 0 v && rleb v 1) = true <-> forall v, r = Some v -> 0 < v <= 1.
Proof.
  destruct r as [x|]; cbn; [|split; [intros _ v H; discriminate|reflexivity]]. rewrite andb_true_iff, rleb_iff, rltb_iff. split; [intros H v E; injection E as <-; exact H|intro H; exact (H x eq_refl)].
Qed.
Lemma power_checked ppf F brenth r n power alpha tail : OneMissing r n power alpha -> InRange r power alpha -> (forall v, n = Some v -> 4 < v) ->
  power_corr ppf F brenth r n power alpha tail =
  let two := String.eqb tail "two-sided" in
  match r, n, power, alpha with
  | Some r, Some n, None, Some alpha => Ok (power_of ppf F two (Rabs r) n alpha)
  | Some r, None, Some power, Some alpha => solved (brenth (fun n => minus (power_of ppf F two (Rabs r) n alpha) power) (4 + tiny) 1000000000)
  | None, Some n, Some power, Some alpha => solved (brenth (fun r => minus (power_of ppf F two r n alpha) power) tiny (1 - tiny))
  | Some r, Some n, Some power, None => solved (brenth (fun alpha => minus (power_of ppf F two (Rabs r) n alpha) power) tiny (1 - tiny))
  | _, _, _, _ => Err ValueError
  end.
Proof.
  intros O (A & B & D) N. unfold power_corr. rewrite (proj2 (one_missing_iff _ _ _ _) O), (proj2 (within_r r) A), (proj2 (within_p alpha) D), (proj2 (within_p power) B).
  assert (within n (fun v => real_ltb 4 v) = true) as -> by (destruct n as [x|]; [apply rltb_iff; exact (N x eq_refl)|reflexivity]). reflexivity.
Qed.
Lemma power_given ppf F brenth r n power alpha tail x : power_corr ppf F brenth r n power alpha tail = Ok (Some x) ->
  OneMissing r n power alpha /\ InRange r power alpha /\ (forall v, n = Some v -> 4 < v).
Proof.
  unfold power_corr. destruct (Nat.eqb _ 1) eqn:E1; [|discriminate]. apply one_missing_iff in E1. destruct (within r _) eqn:E2; [|discriminate]. pose proof (proj1 (within_r r) E2) as F2.
  destruct (within alpha _) eqn:E3; [|discriminate]. pose proof (proj1 (within_p alpha) E3) as F3. destruct (within power _) eqn:E4; [|discriminate]. pose proof (proj1 (within_p power) E4) as F4.
  destruct (within n _) eqn:E5; [|discriminate]. intros _. split; [exact E1|]. split; [split; [exact F2|split; [exact F4|exact F3]]|].
  intros v ->. apply rltb_iff. exact E5.
Qed.
Lemma tiny_pos : 0 < tiny < / 2.
Proof. unfold tiny. split; [apply Rinv_0_lt_compat; lra|apply Rinv_lt_contravar; lra]. Qed.
Lemma power_direct ppf F brenth r n alpha tail x : power_corr ppf F brenth (Some r) (Some n) None (Some alpha) tail = Ok (Some x) ->
  -1 <= r <= 1 /\ 4 < n /\ 0 < alpha <= 1 /\ power_of ppf F (String.eqb tail "two-sided") (Rabs r) n alpha = Some x.
Proof.
  intro H. destruct (power_given _ _ _ _ _ _ _ _ _ H) as (O & (A & B & D) & N). rewrite power_checked in H; [|exact O|split; auto|exact N]. cbn in H. injection H as H.
  pose proof (A r eq_refl). pose proof (D alpha eq_refl). pose proof (N n eq_refl). auto.
Qed.
Lemma direct_missing (r n alpha : R) : OneMissing (Some r) (Some n) None (Some alpha).
Proof. right. right. left. repeat split; congruence. Qed.
Lemma in_range_direct r alpha : -1 <= r <= 1 -> 0 < alpha <= 1 -> InRange (Some r) None (Some alpha).
Proof. intros A B. split; [intros v E; injection E as <-; exact A|]. split; [intros v E; discriminate|intros v E; injection E as <-; exact B]. Qed.
Lemma power_direct_eq ppf F brenth r n alpha tail : -1 <= r <= 1 -> 4 < n -> 0 < alpha <= 1 ->
  power_corr ppf F brenth (Some r) (Some n) None (Some alpha) tail = Ok (power_of ppf F (String.eqb tail "two-sided") (Rabs r) n alpha).
Proof.
  intros A B D. rewrite power_checked; [reflexivity|apply direct_missing|apply in_range_direct; assumption|]. intros v E. injection E as <-. exact B.
Qed.
Lemma abs_range r : -1 <= r <= 1 -> 0 <= Rabs r <= 1.
Proof. intro H. split; [apply Rabs_pos|apply Rabs_le; lra]. Qed.
Lemma abs_lt r : -1 < r < 1 -> 0 <= Rabs r < 1.
Proof. intro H. split; [apply Rabs_pos|apply Rabs_def1; lra]. Qed.
(** One-sided, the level 1. *)
Lemma power_of_level_one ppf F r n : power_of ppf F false r n 1 = None.
Proof. unfold power_of. cbv zeta. rewrite (proj2 (reqb_iff (1 - 1) 0)) by ring. reflexivity. Qed.

(* ---------- examples ---------- *)
Lemma ramp_in x : -1 <= x <= 1 -> ramp x = (1 + x) / 2.
Proof. intro H. unfold ramp. rewrite Rmin_right by lra. rewrite Rmax_right by lra. reflexivity. Qed.
Lemma ramp_low x : x <= -1 -> ramp x = 0.
Proof. intro H. unfold ramp. rewrite Rmin_right by lra. rewrite Rmax_left by lra. lra. Qed.
Lemma ramp_high x : 1 <= x -> ramp x = 1.
Proof. intro H. unfold ramp. rewrite Rmin_left by lra. rewrite Rmax_right by lra. lra. Qed.
Ltac ramps x := destruct (Rle_dec x (-1)); [rewrite (ramp_low x) by lra|destruct (Rle_dec 1 x); [rewrite (ramp_high x) by lra|rewrite (ramp_in x) by lra]].
Lemma ramp_normal : NormalLike ramp.
Proof.
  split.
  - intro x. ramps x; lra.
  - intros x y H. ramps x; ramps y; lra.
  - intro x. ramps x; ramps (- x); lra.
Qed.
Lemma ramp_peaked : Peaked ramp.
Proof. intros x y d H D. ramps (y + d); ramps y; ramps (x + d); ramps x; lra. Qed.
Lemma line_quantile : QuantileLike line.
Proof. split; intros; unfold line; lra. Qed.
Definition half_solver (f : R -> option R) (a b : R) : res R :=
  match f (/ 2) with Some v => if real_eqb v 0 && rleb a (/ 2) && rleb (/ 2) b then Ok (/ 2) else Err ValueError | None => Err ValueError end.
Lemma half_solves : Solver half_solver.
Proof.
  intros f a b x H. unfold half_solver in H. destruct (f (/ 2)) as [v|] eqn:E; [|discriminate]. destruct (_ && _) eqn:K; [|discriminate]. injection H as <-.
  apply andb_true_iff in K. destruct K as [K K3]. apply andb_true_iff in K. destruct K as [K1 K2]. apply rleb_iff in K2, K3. apply reqb_iff in K1. subst v. auto.
Qed.
Lemma zero_half n : power_of line ramp false 0 n (/ 2) = Some (/ 2).
Proof.
  unfold power_of. cbv zeta. rewrite (reqb_false (1 - / 2) 0) by lra. rewrite (reqb_false 0 1) by lra. unfold line. replace (1 - / 2 - / 2) with 0 by field.
  replace (0 * 0 / (0 * 0 + (n - 2))) with 0 by (unfold Rdiv; ring). rewrite sqrt_0, arctanh_0. f_equal.
  replace ((0 + 0 / (2 * (n - 1)) - 0) * sqrt (n - 3)) with 0 by (unfold Rdiv; ring). rewrite ramp_in by lra. lra.
Qed.

(* ---------- Mahalanobis distances ---------- *)
Definition gram (f g : R * R -> R) (s : list (R * R)) : R := rsum (map (fun p => (f p - average (map f s)) * (g p - average (map g s))) s).
Lemma average_mean l : average l = mean_r l. Proof. reflexivity. Qed.
Lemma rsum_nonneg l : Forall (fun x => 0 <= x) l -> 0 <= rsum l.
Proof. unfold rsum. induction 1 as [|x l H F IH]; cbn; lra. Qed.
Lemma rsum_scale c l : rsum (map (fun x => c * x) l) = c * rsum l.
Proof. unfold rsum. induction l as [|x l IH]; cbn; [ring|]. rewrite IH. ring. Qed.
Lemma gram_nonneg f s : 0 <= gram f f s.
Proof. apply rsum_nonneg. apply Forall_forall. intros x I. apply in_map_iff in I. destruct I as (p & <- & _). apply Rle_0_sqr. Qed.
Lemma combine_maps {A B D : Type} (f : A -> B) (g : A -> D) l : combine (map f l) (map g l) = map (fun x => (f x, g x)) l.
Proof. induction l as [|x l IH]; [reflexivity|]. cbn. rewrite IH. reflexivity. Qed.
Lemma sum_parts (u w : R * R -> R) k s : rsum (map (fun p => (w p - k * u p) * (w p - k * u p)) s) =
  rsum (map (fun p => w p * w p) s) - 2 * k * rsum (map (fun p => u p * w p) s) + k * k * rsum (map (fun p => u p * u p) s).
Proof. unfold rsum. induction s as [|p s IH]; cbn [map fold_right]; [ring|]. rewrite IH. ring. Qed.
Lemma qr_eq s : let S11 := gram fst fst s in let S12 := gram fst snd s in let S22 := gram snd snd s in
  qr (map (fun p => fst p - mean_r (map fst s)) s) (map (fun p => snd p - mean_r (map snd s)) s) =
  if Req_EM_T S11 0 then (0, 0, 0) else (sqrt S11, S12 / sqrt S11, sqrt (S22 - S12 * S12 / S11)).
Proof.
  cbv zeta. set (u := fun p : R * R => fst p - mean_r (map fst s)). set (w := fun p : R * R => snd p - mean_r (map snd s)).
  assert (gram fst fst s = rsum (map (fun p => u p * u p) s)) as -> by reflexivity. assert (gram fst snd s = rsum (map (fun p => u p * w p) s)) as -> by reflexivity.
  assert (gram snd snd s = rsum (map (fun p => w p * w p) s)) as -> by reflexivity.
  pose proof (gram_nonneg fst s) as P. change (gram fst fst s) with (rsum (map (fun p => u p * u p) s)) in P.
  unfold qr. rewrite !map_map. set (S11 := rsum (map (fun p => u p * u p) s)) in *. set (S12 := rsum (map (fun p => u p * w p) s)). set (S22 := rsum (map (fun p => w p * w p) s)).
  destruct (Req_EM_T S11 0) as [E|E].
  - rewrite E, sqrt_0. rewrite (proj2 (reqb_iff 0 0) eq_refl). reflexivity.
  - assert (0 < S11) as P' by lra. pose proof (sqrt_lt_R0 S11 P') as Q. rewrite (reqb_false (sqrt S11) 0) by lra. cbv zeta.
    rewrite combine_maps, !map_map. cbn [fst snd].
    assert (rsum (map (fun p => u p / sqrt S11 * w p) s) = S12 / sqrt S11) as ->.
    { unfold S12. rewrite (map_ext (fun p => u p / sqrt S11 * w p) (fun p => / sqrt S11 * (u p * w p))) by (intro p; unfold Rdiv; ring).
      rewrite <- (map_map (fun p => u p * w p) (fun x => / sqrt S11 * x)), rsum_scale. unfold Rdiv. ring. }
    f_equal. f_equal.
    rewrite (map_ext (fun p => (w p - S12 / sqrt S11 * (u p / sqrt S11)) * (w p - S12 / sqrt S11 * (u p / sqrt S11))) (fun p => (w p - S12 / S11 * u p) * (w p - S12 / S11 * u p))).
    + rewrite sum_parts. fold S11 S12 S22. field. lra.
    + intro p. assert (S12 / sqrt S11 * (u p / sqrt S11) = S12 / S11 * u p) as ->; [|reflexivity].
      rewrite <- (sqrt_sqrt S11) at 3 by lra. field. lra.
Qed.
Definition det (s : list (R * R)) : R := gram fst fst s * gram snd snd s - gram fst snd s * gram fst snd s.
Lemma cov_gram f g s : covariance f g s = gram f g s / (INR (length s) - 1).
Proof. reflexivity. Qed.
Lemma spread_det s : (2 <= length s)%nat -> spread s = det s / ((INR (length s) - 1) * (INR (length s) - 1)).
Proof. intro H. apply le_INR in H. cbn in H. unfold spread, det. rewrite !cov_gram. field. lra. Qed.
Lemma spread_zero s : (2 <= length s)%nat -> spread s = 0 <-> det s = 0.
Proof.
  intro H. rewrite (spread_det s H). apply le_INR in H. cbn in H. split; intro E.
  - apply (Rmult_eq_compat_r ((INR (length s) - 1) * (INR (length s) - 1))) in E. unfold Rdiv in E. rewrite Rmult_assoc, Rinv_l in E; nra.
  - rewrite E. unfold Rdiv. ring.
Qed.
Lemma residual_nonneg s : gram fst fst s <> 0 -> 0 <= gram snd snd s - gram fst snd s * gram fst snd s / gram fst fst s.
Proof.
  intro N. set (u := fun p : R * R => fst p - average (map fst s)). set (w := fun p : R * R => snd p - average (map snd s)).
  pose proof (sum_parts u w (gram fst snd s / gram fst fst s) s) as E.
  assert (0 <= rsum (map (fun p => (w p - gram fst snd s / gram fst fst s * u p) * (w p - gram fst snd s / gram fst fst s * u p)) s)) as P.
  { apply rsum_nonneg, Forall_forall. intros x I. apply in_map_iff in I. destruct I as (p & <- & _). apply Rle_0_sqr. }
  rewrite E in P. change (rsum (map (fun p => w p * w p) s)) with (gram snd snd s) in P. change (rsum (map (fun p => u p * w p) s)) with (gram fst snd s) in P.
  change (rsum (map (fun p => u p * u p) s)) with (gram fst fst s) in P.
  replace (gram snd snd s - gram fst snd s * gram fst snd s / gram fst fst s) with
    (gram snd snd s - 2 * (gram fst snd s / gram fst fst s) * gram fst snd s + gram fst snd s / gram fst fst s * (gram fst snd s / gram fst fst s) * gram fst fst s) by (field; exact N).
  exact P.
Qed.
Lemma gram_zero s : gram fst fst s = 0 -> gram fst snd s = 0.
Proof.
  unfold gram. set (a := average (map fst s)). set (b := average (map snd s)). clearbody a b. unfold rsum. induction s as [|p s IH]; cbn [map fold_right]; [reflexivity|]. intro H.
  assert (0 <= fold_right Rplus 0 (map (fun p0 => (fst p0 - a) * (fst p0 - a)) s)) as P.
  { apply (rsum_nonneg (map (fun p0 => (fst p0 - a) * (fst p0 - a)) s)). apply Forall_forall. intros x I. apply in_map_iff in I. destruct I as (q & <- & _). apply Rle_0_sqr. }
  pose proof (Rle_0_sqr (fst p - a)) as Q. unfold Rsqr in Q. assert ((fst p - a) * (fst p - a) = 0) as Z by lra. rewrite IH by lra.
  apply Rmult_integral in Z. assert (fst p - a = 0) as -> by (destruct Z; assumption). ring.
Qed.
Lemma mahal_eq a s n : (2 <= n)%nat -> length s = n -> mahal a s n = if Req_EM_T (spread s) 0 then Err ValueError else Ok (map (distance s) a).
Proof.
  intros H L. assert (2 <= length s)%nat as H2 by (rewrite L; exact H). unfold mahal. rewrite qr_eq.
  assert (Nat.ltb n 2 = false) as -> by (apply Nat.ltb_ge; exact H). cbn [orb].
  destruct (Req_EM_T (gram fst fst s) 0) as [E|E].
  - rewrite (proj2 (reqb_iff 0 0) eq_refl). cbn [orb]. destruct (Req_EM_T (spread s) 0) as [_|N]; [reflexivity|]. destruct N. apply spread_zero; [exact H2|].
    unfold det. rewrite E, (gram_zero s E). ring.
  - pose proof (gram_nonneg fst s) as P. assert (0 < gram fst fst s) as P' by lra. pose proof (sqrt_lt_R0 _ P') as Q. rewrite (reqb_false (sqrt _) 0) by lra. cbn [orb].
    pose proof (residual_nonneg s E) as RN. set (v := gram snd snd s - gram fst snd s * gram fst snd s / gram fst fst s) in *.
    assert (det s = gram fst fst s * v) as D by (unfold det, v; field; exact E).
    destruct (Req_EM_T (spread s) 0) as [Z|Z].
    + apply (spread_zero s H2) in Z. rewrite D in Z. assert (v = 0) as -> by (apply Rmult_integral in Z; destruct Z; [contradiction|assumption]).
      rewrite sqrt_0, (proj2 (reqb_iff 0 0) eq_refl). reflexivity.
    + assert (v <> 0) as NV. { intro V. apply Z. apply spread_zero; [exact H2|]. rewrite D, V. ring. }
      assert (0 < v) as PV by lra. pose proof (sqrt_lt_R0 _ PV) as QV. rewrite (reqb_false (sqrt v) 0) by lra. f_equal. apply map_ext. intro p. unfold distance.
      rewrite (spread_det s H2), !cov_gram, L, D. change (average (map fst s)) with (mean_r (map fst s)). change (average (map snd s)) with (mean_r (map snd s)). set (x := fst p - mean_r (map fst s)). set (y := snd p - mean_r (map snd s)).
      assert (INR n - 1 <> 0) as NN. { apply le_INR in H. cbn in H. lra. }
      set (g := gram fst fst s) in *. set (h := gram fst snd s) in *.
      assert ((x / sqrt g) * (x / sqrt g) = x * x / g) as A1 by (rewrite <- (sqrt_sqrt g) at 3 by lra; field; lra).
      assert (y - h / sqrt g * (x / sqrt g) = y - h * x / g) as A2 by (rewrite <- (sqrt_sqrt g) at 3 by lra; field; lra).
      rewrite A1, A2. assert ((y - h * x / g) / sqrt v * ((y - h * x / g) / sqrt v) = (y - h * x / g) * (y - h * x / g) / v) as A3 by (rewrite <- (sqrt_sqrt v) at 3 by lra; field; lra).
      rewrite A3. replace (gram snd snd s) with (v + h * h / g) by (unfold v; ring). field. repeat split; lra.
Qed.
Lemma take_ok b d : Forall (fun i => (i < length b)%nat) d -> take b d = Ok (sample b d).
Proof.
  induction 1 as [|i d H F IH]; [reflexivity|]. cbn [take sample map]. rewrite (nth_error_nth' b (0, 0) H), IH. reflexivity.
Qed.
Lemma sample_length b d : length (sample b d) = length d. Proof. apply map_length. Qed.
Lemma mahals_ok a b draws : (2 <= length b)%nat -> Forall (Draw b) draws -> Forall (fun d => spread (sample b d) <> 0) draws ->
  mahals a b draws = Ok (map (fun d => map (distance (sample b d)) a) draws).
Proof.
  intros H F. induction F as [|d draws [L I] F IH]; intro N; [reflexivity|]. inversion N as [|? ? N1 N2]; subst. cbn [mahals map].
  rewrite (take_ok b d I). cbn [bind]. rewrite mahal_eq by (try exact H; rewrite sample_length; exact L). destruct (Req_EM_T _ 0); [contradiction|]. cbn [bind].
  rewrite (IH N2). reflexivity.
Qed.
Lemma mahals_err a b draws : (2 <= length b)%nat -> Forall (Draw b) draws -> Exists (fun d => spread (sample b d) = 0) draws -> mahals a b draws = Err ValueError.
Proof.
  intros H F. induction F as [|d draws [L I] F IH]; intro N; [inversion N|]. cbn [mahals]. rewrite (take_ok b d I). cbn [bind].
  rewrite mahal_eq by (try exact H; rewrite sample_length; exact L). destruct (Req_EM_T _ 0) as [E|E]; [reflexivity|]. cbn [bind].
  inversion N as [? ? K|? ? K]; subst; [contradiction|]. rewrite (IH K). reflexivity.
Qed.
Lemma bsmahal_ok a b draws : (2 <= length b)%nat -> draws <> [] -> Forall (Draw b) draws -> Forall (fun d => spread (sample b d) <> 0) draws ->
  bsmahal a b draws = Ok (map (fun v => Some (average (map (fun d => distance (sample b d) v) draws))) a).
Proof.
  intros H NE F N. unfold bsmahal. rewrite (mahals_ok a b draws H F N). cbn [bind]. f_equal. destruct draws as [|d0 draws]; [congruence|]. cbn [map].
  change (map (distance (sample b d0)) a :: map (fun d => map (distance (sample b d)) a) draws) with (map (fun d => map (distance (sample b d)) a) (d0 :: draws)).
  apply nth_ext with (d := None) (d' := None); [rewrite !map_length, seq_length; reflexivity|]. intros i Hi. rewrite map_length, seq_length in Hi.
  rewrite (nth_indep _ None (Some (mean_r (map (fun m => nth 0 m 0) (map (fun d => map (distance (sample b d)) a) (d0 :: draws)))))) by (rewrite map_length, seq_length; exact Hi).
  rewrite (map_nth (fun i => Some (mean_r (map (fun m => nth i m 0) (map (fun d => map (distance (sample b d)) a) (d0 :: draws)))))), seq_nth by exact Hi. cbn [plus].
  rewrite (nth_indep _ None ((fun v => Some (average (map (fun d => distance (sample b d) v) (d0 :: draws)))) (0, 0))) by (rewrite map_length; exact Hi).
  rewrite (map_nth (fun v => Some (average (map (fun d => distance (sample b d) v) (d0 :: draws))))). f_equal. change (average (map (fun d => distance (sample b d) (nth i a (0, 0))) (d0 :: draws))) with (mean_r (map (fun d => distance (sample b d) (nth i a (0, 0))) (d0 :: draws))). f_equal. rewrite map_map. apply map_ext. intro d.
  rewrite (nth_indep _ 0 (distance (sample b d) (0, 0))) by (rewrite map_length; exact Hi). apply map_nth.
Qed.
(* ---------- units ---------- *)
Lemma average_scale a b l : (0 < length l)%nat -> average (map (fun x => a * x + b) l) = a * average l + b.
Proof.
  intro H. apply lt_INR in H. cbn in H. unfold average. rewrite map_length.
  assert (forall l, fold_right Rplus 0 (map (fun x => a * x + b) l) = a * fold_right Rplus 0 l + b * INR (length l)) as E.
  { clear. induction l as [|x l IH]; cbn [map fold_right length]; [cbn; ring|]. rewrite IH, S_INR. ring. }
  rewrite E. field. lra.
Qed.
Lemma units_fst p q r s l : map fst (map (units p q r s) l) = map (fun x => p * x + q) (map fst l).
Proof. rewrite !map_map. reflexivity. Qed.
Lemma units_snd p q r s l : map snd (map (units p q r s) l) = map (fun x => r * x + s) (map snd l).
Proof. rewrite !map_map. reflexivity. Qed.
Section Units.
Variables p q r s : R.
Let T := units p q r s.
Variable l : list (R * R).
Hypothesis NE : (0 < length l)%nat.
Lemma avg_fst : average (map fst (map T l)) = p * average (map fst l) + q.
Proof. unfold T. rewrite units_fst. apply average_scale. rewrite map_length. exact NE. Qed.
Lemma avg_snd : average (map snd (map T l)) = r * average (map snd l) + s.
Proof. unfold T. rewrite units_snd. apply average_scale. rewrite map_length. exact NE. Qed.
Lemma cov_scaled f g (k : R) : (forall v, (f (T v) - average (map f (map T l))) * (g (T v) - average (map g (map T l))) = k * ((f v - average (map f l)) * (g v - average (map g l)))) ->
  covariance f g (map T l) = k * covariance f g l.
Proof.
  intro H. unfold covariance. rewrite map_length. rewrite (map_map T).
  rewrite (map_ext _ (fun v => k * ((f v - average (map f l)) * (g v - average (map g l)))) H).
  rewrite <- (map_map (fun v => (f v - average (map f l)) * (g v - average (map g l))) (fun x => k * x)).
  change (fold_right Rplus 0 (map (fun x => k * x) (map (fun v => (f v - average (map f l)) * (g v - average (map g l))) l)))
    with (rsum (map (fun x => k * x) (map (fun v => (f v - average (map f l)) * (g v - average (map g l))) l))).
  rewrite rsum_scale. unfold Rdiv, rsum. ring.
Qed.
Lemma cov11 : covariance fst fst (map T l) = (p * p) * covariance fst fst l.
Proof. apply cov_scaled. intro v. rewrite avg_fst. cbn. ring. Qed.
Lemma cov12 : covariance fst snd (map T l) = (p * r) * covariance fst snd l.
Proof. apply cov_scaled. intro v. rewrite avg_fst, avg_snd. cbn. ring. Qed.
Lemma cov22 : covariance snd snd (map T l) = (r * r) * covariance snd snd l.
Proof. apply cov_scaled. intro v. rewrite avg_snd. cbn. ring. Qed.
Lemma spread_units : spread (map T l) = (p * p) * (r * r) * spread l.
Proof. unfold spread. rewrite cov11, cov12, cov22. ring. Qed.
Lemma distance_units v : p <> 0 -> r <> 0 -> spread l <> 0 -> distance (map T l) (T v) = distance l v.
Proof.
  intros P Q N. unfold distance. rewrite spread_units, cov11, cov12, cov22, avg_fst, avg_snd. cbn [T units fst snd].
  set (A := covariance fst fst l). set (B := covariance fst snd l). set (K := covariance snd snd l). set (D := spread l) in *. clearbody A B K D. unfold T, units. cbn [fst snd]. field. auto.
Qed.
End Units.
Lemma sample_units p q r s b d : Forall (fun i => (i < length b)%nat) d -> sample (map (units p q r s) b) d = map (units p q r s) (sample b d).
Proof.
  intro F. unfold sample. rewrite map_map. apply map_ext_in. intros i I. rewrite Forall_forall in F. specialize (F i I).
  rewrite (nth_indep _ (0, 0) (units p q r s (0, 0))) by (rewrite map_length; exact F). apply map_nth.
Qed.
Lemma flags_kept {A B : Type} (x : list A) : forall (y : list B) out, length x = length y -> length out = length x ->
  map (fun p => fst (fst p)) (filter (fun p => negb (snd p)) (combine (combine x y) out)) = unflagged x out /\
  map (fun p => snd (fst p)) (filter (fun p => negb (snd p)) (combine (combine x y) out)) = unflagged y out.
Proof.
  induction x as [|a x IH]; intros [|b y] [|o out] H1 H2; try discriminate; [split; reflexivity|].
  injection H1 as H1. injection H2 as H2. destruct (IH y out H1 H2) as [A1 B1]. cbn [combine filter snd unflagged]. destruct o; cbn [negb map fst snd]; [auto|].
  rewrite A1, B1. auto.
Qed.
Lemma power_cases ppf F two r n alpha p : 0 <= r <= 1 -> 0 < alpha <= 1 -> power_of ppf F two r n alpha = Some p ->
  let q := if two then 1 - alpha / 2 else 1 - alpha in 0 < q < 1 /\ (two = true -> / 2 <= q) /\
  ((r = 1 /\ p = 1) \/ (r < 1 /\ let c := arctanh (crit (ppf q (n - 2)) (n - 2)) in
    p = if two then F ((z_of r n - c) * sqrt (n - 3)) + F ((- z_of r n - c) * sqrt (n - 3)) else F ((z_of r n - c) * sqrt (n - 3)))).
Proof.
  intros HR HA H q. unfold power_of in H. cbv zeta in H. fold q in H. destruct (real_eqb q 0) eqn:E; [discriminate|].
  assert (q <> 0) as NQ. { intro Z. apply reqb_iff in Z. congruence. }
  split. { unfold q in *. destruct two; lra. } split. { intros ->. unfold q. lra. }
  destruct (real_eqb r 1) eqn:E1.
  - apply reqb_iff in E1. injection H as H. left. auto.
  - assert (r <> 1) as N1. { intro Z. apply reqb_iff in Z. congruence. } injection H as H. right. split; [lra|]. cbv zeta. symmetry. exact H.
Qed.
Lemma c_nonneg (ppf : R -> R -> R) q n : 4 < n -> 0 <= arctanh (crit (ppf q (n - 2)) (n - 2)).
Proof. intro H. apply arctanh_nonneg. apply crit_bounds. lra. Qed.
Lemma minus_zero (x : option R) p : minus x p = Some 0 -> x = Some p.
Proof. destruct x as [v|]; cbn; [|discriminate]. intro H. injection H as H. f_equal. lra. Qed.
Lemma solved_ok (x : res R) v : solved x = Ok (Some v) -> x = Ok v.
Proof. destruct x as [w|e]; cbn; [intro H; injection H as ->; reflexivity|destruct e; discriminate]. Qed.
Lemma existsb_in s l : existsb (String.eqb s) l = true <-> In s l.
Proof.
  rewrite existsb_exists. split.
  - intros (x & I & E). apply String.eqb_eq in E. subst. exact I.
  - intro I. exists s. split; [exact I|apply String.eqb_refl].
Qed.
Lemma bayes_ok lgamma betaln F gamma quad r n tail method k : TailName tail -> MethodName method ->
  bayesfactor_pearson lgamma betaln F gamma quad r n tail method k =
  match r with
  | None => Ok None
  | Some r => if real_ltb n 2 then Ok None else if negb (rleb (-1) r && rleb r 1) then Err AssertionError
              else if String.eqb (DriveModel.lower method) "wetzels" && String.eqb (DriveModel.lower tail) "two-sided" then bayes_wetzels gamma quad r n else bayes_ly lgamma betaln F r n k
  end.
Proof.
  intros HT HM. unfold bayesfactor_pearson. cbv zeta. rewrite (proj2 (existsb_in _ _) HM), (proj2 (existsb_in _ TAILS) HT). reflexivity.
Qed.
Lemma bayes_sign lgamma betaln F gamma quad r n tail method k :
  bayesfactor_pearson lgamma betaln F gamma quad (Some (- r)) n tail method k = bayesfactor_pearson lgamma betaln F gamma quad (Some r) n tail method k.
Proof.
  assert (- r * - r = r * r) as E by ring. assert (rleb (-1) (- r) && rleb (- r) 1 = rleb (-1) r && rleb r 1)%bool as E2.
  { unfold rleb. destruct (Rle_dec (-1) (- r)), (Rle_dec (- r) 1), (Rle_dec (-1) r), (Rle_dec r 1); cbn; try reflexivity; lra. }
  unfold bayesfactor_pearson, bayes_ly, bayes_wetzels. cbv zeta. rewrite E2, E. reflexivity.
Qed.
Lemma bsmahal_length a b draws m : bsmahal a b draws = Ok m -> length m = length a.
Proof. unfold bsmahal. destruct (mahals a b draws) as [ms|e]; [|discriminate]. cbn. intro H. injection H as <-. rewrite map_length, seq_length. reflexivity. Qed.
Lemma mahals_units p q r s a b draws : p <> 0 -> r <> 0 -> (2 <= length b)%nat -> Forall (Draw b) draws ->
  mahals (map (units p q r s) a) (map (units p q r s) b) draws = mahals a b draws.
Proof.
  intros P Q H F. induction F as [|d draws [L I] F IH]; [reflexivity|]. cbn [mahals].
  rewrite (take_ok b d I), take_ok by (rewrite map_length; exact I). cbn [bind]. rewrite sample_units by exact I. rewrite map_length, IH.
  rewrite (mahal_eq a) by (try exact H; rewrite sample_length; exact L). rewrite mahal_eq by (try exact H; rewrite map_length, sample_length; exact L).
  assert (0 < length (sample b d))%nat as NE by (rewrite sample_length, L; lia).
  rewrite (spread_units p q r s (sample b d) NE).
  destruct (Req_EM_T (spread (sample b d)) 0) as [E|E].
  - rewrite E, Rmult_0_r. destruct (Req_EM_T 0 0); [reflexivity|contradiction].
  - destruct (Req_EM_T (p * p * (r * r) * spread (sample b d)) 0) as [Z|_].
    + exfalso. apply Rmult_integral in Z. destruct Z as [Z|Z]; [|contradiction]. apply Rmult_integral in Z. destruct Z as [Z|Z]; apply Rmult_integral in Z; destruct Z; contradiction.
    + f_equal. f_equal. rewrite map_map. apply map_ext. intro v. apply (distance_units p q r s (sample b d) NE v P Q E).
Qed.
Lemma square_spread : spread (sample square [0; 1; 2]%nat) = / 12.
Proof. unfold spread, covariance, average, sample, square. cbn. field. Qed.
Lemma square_flat : spread (sample square [1; 1; 1]%nat) = 0.
Proof. unfold spread, covariance, average, sample, square. cbn. field. Qed.
Lemma square_line : spread (sample square [0; 1; 1]%nat) = 0.
Proof. unfold spread, covariance, average, sample, square. cbn. field. Qed.
Lemma draw3 i j k : (i < 3)%nat -> (j < 3)%nat -> (k < 3)%nat -> Draw square [i; j; k].
Proof. intros. split; [reflexivity|]. apply Forall_forall. intros x [<-|[<-|[<-|[]]]]; assumption. Qed.
Lemma square_err : bsmahal square square [[1; 1; 1]%nat] = Err ValueError.
Proof.
  unfold bsmahal. rewrite (mahals_err square square); [reflexivity|cbn; lia|constructor; [apply draw3; lia|constructor]|]. constructor. exact square_flat.
Qed.

(** The statements of PropertiesPower.v. *)
Lemma C140_arguments_proof : forall ppf F brenth r n power alpha tail, ~ OneMissing r n power alpha ->
  power_corr ppf F brenth r n power alpha tail = Err ValueError.
Proof.
  intros ppf F brenth r n power alpha tail H. unfold power_corr. destruct (Nat.eqb _ 1) eqn:E; [|reflexivity]. apply one_missing_iff in E. contradiction.
Qed.

Lemma C140_ranges_proof : forall ppf F brenth r n power alpha tail, OneMissing r n power alpha -> ~ InRange r power alpha ->
  power_corr ppf F brenth r n power alpha tail = Err AssertionError.
Proof.
  intros ppf F brenth r n power alpha tail O H. unfold power_corr. rewrite (proj2 (one_missing_iff _ _ _ _) O). cbn [negb].
  destruct (within r _) eqn:E2; [|reflexivity]. pose proof (proj1 (within_r r) E2) as F2. destruct (within alpha _) eqn:E3; [|reflexivity]. pose proof (proj1 (within_p alpha) E3) as F3.
  destruct (within power _) eqn:E4; [|reflexivity]. pose proof (proj1 (within_p power) E4) as F4. destruct H. split; [exact F2|split; [exact F4|exact F3]].
Qed.

Lemma C140_small_proof : forall ppf F brenth r n power alpha tail, OneMissing r (Some n) power alpha -> InRange r power alpha -> n <= 4 ->
  power_corr ppf F brenth r (Some n) power alpha tail = Ok None.
Proof.
  intros ppf F brenth r n power alpha tail O (A & B & D) L. unfold power_corr. rewrite (proj2 (one_missing_iff _ _ _ _) O), (proj2 (within_r r) A), (proj2 (within_p alpha) D), (proj2 (within_p power) B).
  cbn [negb within]. rewrite (rltb_false 4 n L). reflexivity.
Qed.

Lemma C140_value_proof : forall ppf F brenth r n alpha tail, -1 < r < 1 -> 4 < n -> 0 < alpha < 1 ->
  exists p, power_corr ppf F brenth (Some r) (Some n) None (Some alpha) tail = Ok (Some p) /\
    let two := String.eqb tail "two-sided" in Power F (ppf (if two then 1 - alpha / 2 else 1 - alpha) (n - 2)) two r n p.
Proof.
  intros ppf F brenth r n alpha tail HR HN HA. rewrite power_direct_eq by lra. pose proof (abs_lt r HR) as HB.
  rewrite power_of_eq by lra. cbv zeta. eexists. split; [reflexivity|]. set (two := String.eqb tail "two-sided"). set (t := ppf _ _).
  exists (arctanh (Rabs r)), (arctanh (crit t (n - 2))). pose proof (crit_bounds t (n - 2) ltac:(lra)) as CB.
  split; [apply tanh_arctanh; lra|]. split; [rewrite tanh_arctanh by lra; apply crit_abs; lra|]. cbv zeta. unfold z_of. destruct two; lra.
Qed.

Lemma C140_bounds_proof : forall ppf F brenth r n alpha tail p, NormalLike F -> QuantileLike ppf ->
  power_corr ppf F brenth (Some r) (Some n) None (Some alpha) tail = Ok (Some p) -> 0 <= p <= 1.
Proof.
  intros ppf F brenth r n alpha tail p HN HQ H. destruct (power_direct _ _ _ _ _ _ _ _ H) as (A & B & D & E).
  destruct (power_cases _ _ _ _ _ _ _ (abs_range r A) D E) as (Q1 & Q2 & [[_ ->]|[L ->]]); [lra|]. destruct (String.eqb tail "two-sided").
  - apply (two_bounds F HN); [apply c_nonneg; exact B|apply sqrt_pos].
  - apply (normal_range F HN).
Qed.

Lemma C140_sign_proof : forall ppf F brenth r n power alpha tail,
  power_corr ppf F brenth (Some (- r)) n power alpha tail = power_corr ppf F brenth (Some r) n power alpha tail.
Proof.
  intros ppf F brenth r n power alpha tail. assert (rleb (-1) (- r) && rleb (- r) 1 = rleb (-1) r && rleb r 1)%bool as E2.
  { unfold rleb. destruct (Rle_dec (-1) (- r)), (Rle_dec (- r) 1), (Rle_dec (-1) r), (Rle_dec r 1); cbn; try reflexivity; lra. }
  unfold power_corr. cbn [within given]. rewrite E2, Rabs_Ropp. reflexivity.
Qed.

Lemma C140_stronger_proof : forall ppf F brenth r r' n alpha tail p p', NormalLike F -> Peaked F -> QuantileLike ppf -> Rabs r <= Rabs r' ->
  power_corr ppf F brenth (Some r) (Some n) None (Some alpha) tail = Ok (Some p) ->
  power_corr ppf F brenth (Some r') (Some n) None (Some alpha) tail = Ok (Some p') -> p <= p'.
Proof.
  intros ppf F brenth r r' n alpha tail p p' HN HP HQ HR H H'. pose proof (C140_bounds_proof _ _ _ _ _ _ _ _ HN HQ H) as PB. destruct (power_direct _ _ _ _ _ _ _ _ H) as (A & B & D & E). destruct (power_direct _ _ _ _ _ _ _ _ H') as (A' & _ & _ & E').
  destruct (power_cases _ _ _ _ _ _ _ (abs_range r' A') D E') as (_ & _ & [[_ ->]|[L' ->]]); [lra|].
  destruct (power_cases _ _ _ _ _ _ _ (abs_range r A) D E) as (Q1 & Q2 & [[L _]|[L ->]]); [lra|]. pose proof (abs_range r A) as RA.
  set (c := arctanh _). assert (0 <= c) as HC by (apply c_nonneg; exact B). pose proof (z_le (Rabs r) (Rabs r') n ltac:(lra) HR L' ltac:(lra)) as Z. pose proof (z_nonneg (Rabs r) n ltac:(lra) ltac:(lra)) as Z0.
  pose proof (sqrt_pos (n - 3)) as K. set (k := sqrt (n - 3)) in *. clearbody k c. set (z := z_of (Rabs r) n) in *. set (z' := z_of (Rabs r') n) in *. clearbody z z'.
  destruct (String.eqb tail "two-sided").
  - replace ((z - c) * k) with (z * k - c * k) by ring. replace ((- z - c) * k) with (- (z * k) - c * k) by ring. replace ((z' - c) * k) with (z' * k - c * k) by ring.
    replace ((- z' - c) * k) with (- (z' * k) - c * k) by ring. apply (two_peaked F HN); [exact HP|apply Rmult_le_pos; assumption|]. split; [apply Rmult_le_pos; assumption|apply Rmult_le_compat_r; assumption].
  - apply (normal_mono F HN). apply Rmult_le_compat_r; [exact K|lra].
Qed.

Lemma C140_level_proof : forall ppf F brenth r n alpha alpha' p p', NormalLike F -> QuantileLike ppf -> alpha <= alpha' ->
  power_corr ppf F brenth (Some r) (Some n) None (Some alpha) "two-sided" = Ok (Some p) ->
  power_corr ppf F brenth (Some r) (Some n) None (Some alpha') "two-sided" = Ok (Some p') -> p <= p'.
Proof.
  intros ppf F brenth r n alpha alpha' p p' HN HQ HL H H'. pose proof (C140_bounds_proof _ _ _ _ _ _ _ _ HN HQ H) as PB. destruct (power_direct _ _ _ _ _ _ _ _ H) as (A & B & D & E). destruct (power_direct _ _ _ _ _ _ _ _ H') as (_ & _ & D' & E').
  change (String.eqb "two-sided" "two-sided") with true in *.
  destruct (power_cases _ _ _ _ _ _ _ (abs_range r A) D' E') as (Q1' & Q2' & [[_ ->]|[L' ->]]); [lra|].
  destruct (power_cases _ _ _ _ _ _ _ (abs_range r A) D E) as (Q1 & Q2 & [[L _]|[L ->]]); [lra|]. cbv zeta. specialize (Q2 eq_refl). specialize (Q2' eq_refl).
  set (c := arctanh (crit (ppf (1 - alpha / 2) (n - 2)) (n - 2))). set (c' := arctanh (crit (ppf (1 - alpha' / 2) (n - 2)) (n - 2))).
  assert (c' <= c) as CC.
  { assert (0 < n - 2) as N2 by lra. unfold c, c'. apply arctanh_le; [apply crit_bounds; exact N2| |apply crit_bounds; exact N2]. apply crit_le; [exact N2|].
    pose proof (quantile_pos ppf HQ (1 - alpha / 2) (n - 2) N2 ltac:(lra)) as P1. pose proof (quantile_pos ppf HQ (1 - alpha' / 2) (n - 2) N2 ltac:(lra)) as P2. rewrite !Rabs_pos_eq by assumption.
    apply (quantile_mono ppf HQ); lra. }
  clearbody c c'. pose proof (sqrt_pos (n - 3)) as K. apply Rplus_le_compat; apply (normal_mono F HN); apply Rmult_le_compat_r; try exact K; lra.
Qed.

Lemma C140_mirror_proof : forall ppf F brenth r n alpha tail, QuantileLike ppf -> tail <> "two-sided"%string -> 4 < n -> 0 < alpha < 1 ->
  power_corr ppf F brenth (Some r) (Some n) None (Some (1 - alpha)) tail = power_corr ppf F brenth (Some r) (Some n) None (Some alpha) tail.
Proof.
  intros ppf F brenth r n alpha tail HQ HT HN HA. unfold power_corr. cbn [given Nat.add Nat.eqb negb].
  destruct (within (Some r) _); [|reflexivity]. cbn [negb]. rewrite (proj2 (within_p (Some (1 - alpha)))) by (intros v E; injection E as <-; lra). rewrite (proj2 (within_p (Some alpha))) by (intros v E; injection E as <-; lra).
  cbn [negb]. cbn [within]. cbn [negb]. rewrite (proj2 (rltb_iff 4 n) HN). cbn [negb]. apply String.eqb_neq in HT. cbv zeta. rewrite HT. f_equal. unfold power_of. cbv zeta.
  replace (1 - (1 - alpha)) with alpha by ring. rewrite (reqb_false alpha 0), (reqb_false (1 - alpha) 0) by lra. destruct (real_eqb (Rabs r) 1); [reflexivity|].
  rewrite (quantile_sym ppf HQ (n - 2) alpha) by lra. replace (- ppf alpha (n - 2) * - ppf alpha (n - 2)) with (ppf alpha (n - 2) * ppf alpha (n - 2)) by ring. reflexivity.
Qed.

Lemma C140_level_refuted_proof : ~ (forall ppf F brenth r n alpha alpha' p p', NormalLike F -> Peaked F -> QuantileLike ppf -> alpha <= alpha' ->
  power_corr ppf F brenth (Some r) (Some n) None (Some alpha) "one-sided" = Ok (Some p) ->
  power_corr ppf F brenth (Some r) (Some n) None (Some alpha') "one-sided" = Ok (Some p') -> p <= p').
Proof.
  intro H. set (no := fun (_ : R -> option R) (_ _ : R) => Err ValueError : res R).
  assert (power_corr line ramp no (Some 0) (Some 7) None (Some (/ 2)) "one-sided" = Ok (Some (/ 2))) as H1.
  { rewrite power_direct_eq by lra. change (String.eqb "one-sided" "two-sided") with false. rewrite Rabs_R0, zero_half. reflexivity. }
  assert (power_corr line ramp no (Some 0) (Some 7) None (Some (9 / 10)) "one-sided" = Ok (power_of line ramp false 0 7 (9 / 10))) as H2.
  { rewrite power_direct_eq by lra. change (String.eqb "one-sided" "two-sided") with false. rewrite Rabs_R0. reflexivity. }
  rewrite power_of_eq in H2 by lra. cbv zeta iota in H2. specialize (H line ramp no 0 7 (/ 2) (9 / 10) (/ 2) _ ramp_normal ramp_peaked line_quantile ltac:(lra) H1 H2).
  set (t := line (1 - 9 / 10) (7 - 2)) in *. pose proof (crit_bounds t (7 - 2) ltac:(lra)) as CB. assert (0 < crit t (7 - 2)) as CP.
  { unfold crit. apply sqrt_lt_R0. assert (t = - (4 / 10)) as -> by (unfold t, line; field). apply Rdiv_lt_0_compat; lra. }
  assert (0 < arctanh (crit t (7 - 2))) as P.
  { destruct (Req_dec (arctanh (crit t (7 - 2))) 0) as [Z|Z]; [|pose proof (arctanh_nonneg _ CB); lra].
    pose proof (tanh_arctanh (crit t (7 - 2)) ltac:(lra)) as T. rewrite Z in T. unfold tanh in T. rewrite sinh_0 in T. unfold Rdiv in T. lra. }
  unfold z_of in H. rewrite arctanh_0 in H. replace (0 + 0 / (2 * (7 - 1))) with 0 in H by field. pose proof (sqrt_lt_R0 (7 - 3) ltac:(lra)) as K. set (c := arctanh _) in *. clearbody c.
  assert ((0 - c) * sqrt (7 - 3) < 0) as Q by nra. set (x := (0 - c) * sqrt (7 - 3)) in *. clearbody x.
  destruct (Rle_dec x (-1)); [rewrite ramp_low in H by lra|rewrite ramp_in in H by lra]; lra.
Qed.

Lemma C140_found_proof : forall ppf F brenth r n power alpha tail, Solver brenth ->
  (forall x, power_corr ppf F brenth (Some r) None (Some power) (Some alpha) tail = Ok (Some x) ->
     power_corr ppf F brenth (Some r) (Some x) None (Some alpha) tail = Ok (Some power)) /\
  (forall x, power_corr ppf F brenth None (Some n) (Some power) (Some alpha) tail = Ok (Some x) ->
     0 < x < 1 /\ power_corr ppf F brenth (Some x) (Some n) None (Some alpha) tail = Ok (Some power)) /\
  (forall x, power_corr ppf F brenth (Some r) (Some n) (Some power) None tail = Ok (Some x) ->
     0 < x < 1 /\ power_corr ppf F brenth (Some r) (Some n) None (Some x) tail = Ok (Some power)).
Proof.
  intros ppf F brenth r n power alpha tail SO. pose proof tiny_pos as TP. split; [|split].
  - intros x H. destruct (power_given _ _ _ _ _ _ _ _ _ H) as (O & (A & B & D) & N). rewrite power_checked in H; [|exact O|split; auto|exact N]. cbv zeta in H. apply solved_ok, SO in H. destruct H as [HB HZ]. apply minus_zero in HZ.
    rewrite power_direct_eq; [rewrite HZ; reflexivity|apply A; reflexivity|lra|apply D; reflexivity].
  - intros x H. destruct (power_given _ _ _ _ _ _ _ _ _ H) as (O & (A & B & D) & N). rewrite power_checked in H; [|exact O|split; auto|exact N]. cbv zeta in H. apply solved_ok, SO in H. destruct H as [HB HZ]. apply minus_zero in HZ.
    split; [lra|]. rewrite power_direct_eq; [rewrite Rabs_pos_eq by lra; rewrite HZ; reflexivity|lra|apply N; reflexivity|apply D; reflexivity].
  - intros x H. destruct (power_given _ _ _ _ _ _ _ _ _ H) as (O & (A & B & D) & N). rewrite power_checked in H; [|exact O|split; auto|exact N]. cbv zeta in H. apply solved_ok, SO in H. destruct H as [HB HZ]. apply minus_zero in HZ.
    split; [lra|]. rewrite power_direct_eq; [rewrite HZ; reflexivity|apply A; reflexivity|apply N; reflexivity|lra].
Qed.

Lemma C140_none_proof : forall ppf F r n power alpha tail, OneMissing r n power alpha -> power <> None -> InRange r power alpha ->
  power_corr ppf F (fun _ _ _ => Err ValueError) r n power alpha tail = Ok None.
Proof.
  intros ppf F r n power alpha tail O P (A & B & D). unfold power_corr. rewrite (proj2 (one_missing_iff _ _ _ _) O), (proj2 (within_r r) A), (proj2 (within_p alpha) D), (proj2 (within_p power) B). cbn [negb].
  destruct (within n _); [|reflexivity]. cbn [negb]. destruct O as [(-> & N & _ & M)|[(N & -> & _ & M)|[(_ & _ & Z & _)|(N & M & _ & ->)]]]; [| |contradiction|].
  - destruct n, power, alpha; try congruence. reflexivity.
  - destruct r, power, alpha; try congruence. reflexivity.
  - destruct r, n, power; try congruence. reflexivity.
Qed.

Lemma C141_formula_proof : forall Gamma Beta F gamma quad r n tail method k,
  (forall x, 0 < x -> 0 < Gamma x) -> (forall x y, 0 < x -> 0 < y -> 0 < Beta x y) -> (forall a b c x, 0 <= x < 1 -> 0 < F a b c x) ->
  TailName tail -> DriveModel.lower method = "ly"%string -> -1 < r < 1 -> 2 <= n -> 0 < k ->
  bayesfactor_pearson (fun x => ln (Gamma x)) (fun x y => ln (Beta x y)) F gamma quad (Some r) n tail method k = Ok (Some (LyFactor Gamma Beta F k n r)) /\
  0 < LyFactor Gamma Beta F k n r.
Proof.
  intros Gamma Beta F gamma quad r n tail method k HG HB HF HT HM HR HN HK.
  assert (MethodName method) as M by (unfold MethodName; rewrite HM; left; reflexivity). rewrite (bayes_ok _ _ _ _ _ _ _ _ _ _ HT M), HM. change (String.eqb "ly" "wetzels") with false. cbn [andb].
  rewrite (rltb_false n 2 HN), (proj2 (rleb_iff (-1) r)), (proj2 (rleb_iff r 1)) by lra. cbn [andb negb]. unfold bayes_ly.
  assert (0 <= r * r < 1) as RR by (split; nra). rewrite (reqb_false k 0), (rltb_false k 0), (reqb_false (r * r) 1) by lra. cbn [orb]. cbv zeta.
  assert ((n + 2 / k) / 2 = (2 + n * k) / (2 * k)) as E1 by (field; lra). assert ((n + 2 / k - 1) / 2 = (2 + k * (n - 1)) / (2 * k)) as E2 by (field; lra). rewrite E1, E2.
  assert (0 < 1 / k) as PK by (apply Rdiv_lt_0_compat; lra). pose proof (HB _ _ PK PK) as PB.
  assert (0 < (2 + k * (n - 1)) / (2 * k)) as P1 by (apply Rdiv_lt_0_compat; nra). assert (0 < (2 + n * k) / (2 * k)) as P2 by (apply Rdiv_lt_0_compat; nra).
  pose proof (HG _ P1) as G1. pose proof (HG _ P2) as G2. pose proof (HF ((n - 1) / 2) ((n - 1) / 2) ((2 + n * k) / (2 * k)) (r * r) RR) as PH. unfold LyFactor.
  set (g1 := Gamma ((2 + k * (n - 1)) / (2 * k))) in *. set (g2 := Gamma ((2 + n * k) / (2 * k))) in *. set (h := F _ _ _ _) in *. set (b := Beta _ _) in *. clearbody g1 g2 h b.
  pose proof PI_RGT_0 as PP. rewrite (proj2 (rltb_iff 0 h) PH). split.
  - f_equal. f_equal. unfold Rminus. rewrite !exp_plus, !exp_Ropp, !exp_ln by assumption. rewrite <- (Rpower_sqrt PI PP). unfold Rpower. replace ((k + - (2)) / k) with (1 + - (2 / k)) by (field; lra). field. lra.
  - assert (0 < sqrt PI) as SP by (apply sqrt_lt_R0; exact PP). assert (0 < Rpower 2 ((k - 2) / k)) as RP by apply exp_pos. unfold Rdiv in *. repeat apply Rmult_lt_0_compat; try assumption; apply Rinv_0_lt_compat; assumption.
Qed.

Lemma C141_sign_proof : forall lgamma betaln F gamma quad r n tail method k,
  bayesfactor_pearson lgamma betaln F gamma quad (Some (- r)) n tail method k = bayesfactor_pearson lgamma betaln F gamma quad (Some r) n tail method k.
Proof.
  exact bayes_sign.
Qed.

Lemma C141_tail_proof : forall lgamma betaln F gamma quad r n tail method k, TailName tail -> MethodName method ->
  (DriveModel.lower method = "ly"%string \/ DriveModel.lower tail <> "two-sided"%string) ->
  bayesfactor_pearson lgamma betaln F gamma quad r n tail method k = bayesfactor_pearson lgamma betaln F gamma quad r n "two-sided" "ly" k.
Proof.
  intros lgamma betaln F gamma quad r n tail method k HT HM H. rewrite (bayes_ok _ _ _ _ _ _ _ _ _ _ HT HM), bayes_ok; [|left; reflexivity|left; reflexivity].
  change (String.eqb (DriveModel.lower "ly") "wetzels") with false. cbn [andb].
  assert (String.eqb (DriveModel.lower method) "wetzels" && String.eqb (DriveModel.lower tail) "two-sided" = false)%bool as ->; [|reflexivity].
  destruct H as [->|H]; [reflexivity|]. apply String.eqb_neq in H. rewrite H. apply Bool.andb_false_r.
Qed.

Lemma C141_direction_refuted_proof : ~ (forall lgamma betaln F gamma quad r n k x y, 0 < r < 1 -> 2 <= n -> 0 < k ->
  bayesfactor_pearson lgamma betaln F gamma quad (Some r) n "greater" "ly" k = Ok (Some x) ->
  bayesfactor_pearson lgamma betaln F gamma quad (Some r) n "less" "ly" k = Ok (Some y) -> y < x).
Proof.
  intro H. assert (forall tail, TailName tail -> bayesfactor_pearson (fun _ => 0) (fun _ _ => 0) (fun _ _ _ _ => 1) (fun _ => 1) (fun _ => 0) (Some (/ 2)) 2 tail "ly" 1 =
    Ok (Some (exp ((1 - 2 / 1) * ln 2 + / 2 * ln PI - 0 + 0 - 0 + ln 1)))) as E.
  { intros tail HT. rewrite bayes_ok; [|exact HT|left; reflexivity]. change (String.eqb (DriveModel.lower "ly") "wetzels") with false. cbn [andb]. rewrite (rltb_false 2 2), (proj2 (rleb_iff (-1) (/ 2))), (proj2 (rleb_iff (/ 2) 1)) by lra.
    cbn [andb negb]. unfold bayes_ly. rewrite (reqb_false 1 0), (rltb_false 1 0), (reqb_false (/ 2 * / 2) 1) by lra. cbn [orb]. cbv zeta. rewrite (proj2 (rltb_iff 0 1)) by lra. reflexivity. }
  assert (TailName "greater") as T1 by (cbn; auto). assert (TailName "less") as T2 by (cbn; auto).
  specialize (H _ _ _ _ _ (/ 2) 2 1 _ _ ltac:(lra) ltac:(lra) ltac:(lra) (E _ T1) (E _ T2)). lra.
Qed.

Lemma C141_refused_proof : forall lgamma betaln F gamma quad r n tail method k,
  (~ TailName tail \/ ~ MethodName method -> bayesfactor_pearson lgamma betaln F gamma quad r n tail method k = Err AssertionError) /\
  (TailName tail -> MethodName method ->
    (r = None \/ n < 2 -> bayesfactor_pearson lgamma betaln F gamma quad r n tail method k = Ok None) /\
    (forall v, r = Some v -> 2 <= n -> v < -1 \/ 1 < v -> bayesfactor_pearson lgamma betaln F gamma quad r n tail method k = Err AssertionError) /\
    (forall v, r = Some v -> 2 <= n -> -1 <= v <= 1 -> DriveModel.lower method = "ly"%string -> k = 0 ->
      bayesfactor_pearson lgamma betaln F gamma quad r n tail method k = Err ZeroDivisionError)).
Proof.
  intros lgamma betaln F gamma quad r n tail method k. split.
  - intro H. unfold bayesfactor_pearson. cbv zeta. destruct (existsb (String.eqb (DriveModel.lower method)) _) eqn:E1; [|reflexivity]. destruct (existsb (String.eqb (DriveModel.lower tail)) TAILS) eqn:E2; [|reflexivity].
    apply existsb_in in E1, E2. destruct H as [H|H]; destruct H; assumption.
  - intros HT HM. rewrite (bayes_ok _ _ _ _ _ _ _ _ _ _ HT HM). split; [|split].
    + intros [->|H]; [reflexivity|]. destruct r as [v|]; [|reflexivity]. rewrite (proj2 (rltb_iff n 2) H). reflexivity.
    + intros v -> HN H. rewrite (rltb_false n 2 HN). destruct (rleb (-1) v && rleb v 1)%bool eqn:E; [|reflexivity]. apply Bool.andb_true_iff in E. rewrite !rleb_iff in E. lra.
    + intros v -> HN H L ->. rewrite (rltb_false n 2 HN), (proj2 (rleb_iff (-1) v)), (proj2 (rleb_iff v 1)), L by lra. change (String.eqb "ly" "wetzels") with false. cbn [andb negb]. unfold bayes_ly. rewrite (proj2 (reqb_iff 0 0) eq_refl). reflexivity.
Qed.

Lemma C142_distances_proof : forall a b draws, (2 <= length b)%nat -> draws <> [] -> Forall (Draw b) draws -> Forall (fun d => spread (sample b d) <> 0) draws ->
  bsmahal a b draws = Ok (map (fun v => Some (average (map (fun d => distance (sample b d) v) draws))) a).
Proof.
  exact bsmahal_ok.
Qed.

Lemma C142_degenerate_proof : forall a b draws, (2 <= length b)%nat -> Forall (Draw b) draws -> Exists (fun d => spread (sample b d) = 0) draws ->
  bsmahal a b draws = Err ValueError.
Proof.
  intros a b draws H F E. unfold bsmahal. rewrite (mahals_err a b draws H F E). reflexivity.
Qed.

Lemma C142_answer_refuted_proof : ~ (forall b draws, (2 <= length b)%nat -> spread b <> 0 -> Forall (Draw b) draws -> exists m, bsmahal b b draws = Ok m).
Proof.
  intro H. destruct (H square [[1; 1; 1]%nat]) as [m E].
  - cbn. lia.
  - change square with (sample square [0; 1; 2]%nat). rewrite square_spread. lra.
  - constructor; [apply draw3; lia|constructor].
  - rewrite square_err in E. discriminate.
Qed.

Lemma C142_units_proof : forall p q r s a b draws, p <> 0 -> r <> 0 -> (2 <= length b)%nat -> Forall (Draw b) draws ->
  bsmahal (map (units p q r s) a) (map (units p q r s) b) draws = bsmahal a b draws.
Proof.
  intros p q r s a b draws P Q H F. unfold bsmahal. rewrite (mahals_units p q r s a b draws P Q H F), map_length. reflexivity.
Qed.

Lemma C142_shepherd_proof : forall (A : Type) (spearmanr : list R -> list R -> A) x y draws m, length x = length y ->
  bsmahal (combine x y) (combine x y) draws = Ok m ->
  exists out, shepherd spearmanr x y draws = Ok (spearmanr (unflagged x out) (unflagged y out), out) /\
    Forall2 (fun d o => o = true <-> exists v, d = Some v /\ 6 <= v) m out.
Proof.
  intros A spearmanr x y draws m L E. exists (map outlier m). unfold shepherd. rewrite L, Nat.eqb_refl. cbn [negb]. rewrite E. cbn [bind]. pose proof (bsmahal_length _ _ _ _ E) as LM. rewrite combine_length, L, Nat.min_id in LM.
  destruct (flags_kept x y (map outlier m) L) as [K1 K2]; [rewrite map_length; congruence|]. split; [cbv zeta; rewrite K1, K2; reflexivity|].
  clear. induction m as [|d m IH]; constructor; [|exact IH]. destruct d as [v|]; cbn [outlier].
  - rewrite rleb_iff. split; [intro H; exists v; auto|intros (w & E & H); injection E as <-; exact H].
  - split; [discriminate|intros (w & E & _); discriminate].
Qed.

Lemma C142_refused_proof : forall (A : Type) (spearmanr : list R -> list R -> A) x y draws,
  (length x <> length y -> shepherd spearmanr x y draws = Err ValueError) /\
  (forall e, length x = length y -> bsmahal (combine x y) (combine x y) draws = Err e -> shepherd spearmanr x y draws = Err e).
Proof.
  intros A spearmanr x y draws. split.
  - intro H. unfold shepherd. apply Nat.eqb_neq in H. rewrite H. reflexivity.
  - intros e L E. unfold shepherd. rewrite L, Nat.eqb_refl, E. reflexivity.
Qed.

Lemma C140_arguments_case_proof : ~ OneMissing (Some (1 / 2)) (Some 20) (Some (8 / 10)) (Some (5 / 100)) /\ OneMissing (Some (1 / 2)) (Some 20) None (Some (5 / 100)).
Proof.
  split; [unfold OneMissing; intuition congruence|apply direct_missing].
Qed.

Lemma C140_ranges_case_proof : OneMissing (Some 2) (Some 3) None (Some (5 / 100)) /\ ~ InRange (Some 2) None (Some (5 / 100)).
Proof.
  split; [apply direct_missing|]. intros (A & _). specialize (A 2 eq_refl). lra.
Qed.

Lemma C140_small_case_proof : OneMissing (Some (1 / 2)) (Some 4) None (Some (5 / 100)) /\ InRange (Some (1 / 2)) None (Some (5 / 100)).
Proof.
  split; [apply direct_missing|apply in_range_direct; lra].
Qed.

Lemma C140_value_case_proof : exists p, power_corr line ramp (fun _ _ _ => Err ValueError) (Some 0) (Some 7) None (Some (/ 2)) "one-sided" = Ok (Some p) /\ p = / 2.
Proof.
  exists (/ 2). split; [|reflexivity]. rewrite power_direct_eq by lra. change (String.eqb "one-sided" "two-sided") with false. rewrite Rabs_R0, zero_half. reflexivity.
Qed.

Lemma C140_bounds_case_proof : NormalLike ramp /\ QuantileLike line.
Proof.
  exact (conj ramp_normal line_quantile).
Qed.

Lemma C140_stronger_case_proof : Peaked ramp /\ Rabs (- / 4) <= Rabs (/ 2) /\
  exists p, power_corr line ramp (fun _ _ _ => Err ValueError) (Some (/ 2)) (Some 7) None (Some (/ 2)) "two-sided" = Ok (Some p).
Proof.
  split; [exact ramp_peaked|]. split; [rewrite Rabs_Ropp, !Rabs_pos_eq by lra; lra|]. rewrite power_direct_eq by lra. rewrite power_of_eq by (try rewrite Rabs_pos_eq; lra). cbv zeta. eexists. reflexivity.
Qed.

Lemma C140_level_case_proof : exists p, power_corr line ramp (fun _ _ _ => Err ValueError) (Some (/ 2)) (Some 7) None (Some (/ 3)) "two-sided" = Ok (Some p).
Proof.
  rewrite power_direct_eq by lra. rewrite power_of_eq by (try rewrite Rabs_pos_eq; lra). cbv zeta. eexists. reflexivity.
Qed.

Lemma C140_mirror_case_proof : power_corr line ramp (fun _ _ _ => Err ValueError) (Some 0) (Some 7) None (Some (1 - / 10)) "one-sided" =
  power_corr line ramp (fun _ _ _ => Err ValueError) (Some 0) (Some 7) None (Some (/ 10)) "one-sided".
Proof.
  apply C140_mirror_proof; [exact line_quantile|discriminate|lra|lra].
Qed.

Lemma C140_found_case_proof : Solver half_solver /\
  power_corr line ramp half_solver (Some 0) (Some 7) (Some (/ 2)) None "one-sided" = Ok (Some (/ 2)).
Proof.
  split; [exact half_solves|]. pose proof tiny_pos as TP. rewrite power_checked.
  - cbv zeta. change (String.eqb "one-sided" "two-sided") with false. unfold half_solver. rewrite Rabs_R0, zero_half. cbn [minus]. rewrite (proj2 (reqb_iff _ 0)) by ring. rewrite (proj2 (rleb_iff _ _)), (proj2 (rleb_iff _ _)) by lra. reflexivity.
  - right. right. right. repeat split; congruence.
  - split; [intros v E; injection E as <-; lra|]. split; [intros v E; injection E as <-; lra|intros v E; discriminate].
  - intros v E. injection E as <-. lra.
Qed.

Lemma C140_none_case_proof : OneMissing None (Some 20) (Some (/ 2)) (Some (/ 20)) /\ InRange None (Some (/ 2)) (Some (/ 20)).
Proof.
  split; [left; repeat split; congruence|]. split; [intros v E; discriminate|]. split; intros v E; injection E as <-; lra.
Qed.

Lemma C141_formula_case_proof : (forall x, 0 < x -> 0 < exp x) /\ TailName "Greater" /\ DriveModel.lower "Ly" = "ly"%string.
Proof.
  split; [intros x _; apply exp_pos|]. split; [cbn; auto|reflexivity].
Qed.

Lemma C141_tail_case_proof : TailName "less" /\ MethodName "wetzels" /\ DriveModel.lower "less" <> "two-sided"%string.
Proof.
  split; [cbn; auto|]. split; [cbn; auto|discriminate].
Qed.

Lemma C141_refused_case_proof : ~ TailName "both" /\ TailName "one-sided" /\ MethodName "Wetzels".
Proof.
  split; [|split; cbn; auto]. cbn. intuition discriminate.
Qed.

Lemma C142_distances_case_proof : Forall (Draw square) [[0; 1; 2]%nat; [2; 0; 1]%nat] /\ spread (sample square [0; 1; 2]%nat) <> 0.
Proof.
  split; [repeat (constructor; [apply draw3; lia|]); constructor|]. rewrite square_spread. lra.
Qed.

Lemma C142_degenerate_case_proof : Draw square [1; 1; 1]%nat /\ spread (sample square [1; 1; 1]%nat) = 0 /\ spread (sample square [0; 1; 1]%nat) = 0.
Proof.
  split; [apply draw3; lia|]. exact (conj square_flat square_line).
Qed.

Lemma C142_units_case_proof : units 2 1 (-1) 0 (3, 4) = (7, -4).
Proof.
  unfold units. cbn. f_equal; ring.
Qed.

Lemma C142_shepherd_case_proof : unflagged [1; 2; 3] [false; true; false] = [1; 3].
Proof.
  reflexivity.
Qed.

Lemma C142_refused_case_proof : bsmahal square square [[1; 1; 1]%nat] = Err ValueError.
Proof.
  exact square_err.
Qed.

Lemma C141_wetzels_proof : forall lgamma betaln F gamma quad r n tail method k, PositiveOnly quad ->
  DriveModel.lower tail = "two-sided"%string -> DriveModel.lower method = "wetzels"%string -> -1 <= r <= 1 -> 2 <= n ->
  bayesfactor_pearson lgamma betaln F gamma quad (Some r) n tail method k = Ok (Some (sqrt (n / 2) / gamma (1 / 2) * quad (WetzelsTerm n r))).
Proof.
  intros lgamma betaln F gamma quad r n tail method k PQ T M HR HN. unfold bayesfactor_pearson. cbv zeta. rewrite T, M. cbn [existsb String.eqb Ascii.eqb Bool.eqb orb negb TAILS].
  destruct (real_ltb n 2) eqn:E; [apply rltb_iff in E; lra|]. assert (rleb (-1) r && rleb r 1 = true)%bool as ->. { unfold rleb. destruct (Rle_dec (-1) r); [|lra]. destruct (Rle_dec r 1); [reflexivity|lra]. }
  cbn [negb andb]. unfold bayes_wetzels. do 3 f_equal. apply PQ. intros g G. unfold WetzelsTerm, Rpower. rewrite <- !exp_plus. reflexivity.
Qed.

Lemma C141_wetzels_case_proof : PositiveOnly (fun f => f 1 + f 2) /\ DriveModel.lower "Wetzels" = "wetzels"%string.
Proof.
  split; [|reflexivity]. intros f g H. rewrite !H by lra. reflexivity.
Qed.

