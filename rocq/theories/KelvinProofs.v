(** Proofs about the wind power of the Madden-Julian oscillation. *)
From Coq Require Import Reals ZArith.
From Verif Require Import PyBase TropicsModel BlockProofs TropicsProofs KfProofs TauProofs KelvinModel KelvinSpec.
From Coq Require Import List Lra.
Import ListNotations.
Open Scope nat_scope.

(** ** The least value *)
Definition first_least (L : list R) (m : nat) : Prop :=
  m < length L /\ (forall j, j < length L -> (nth m L 0 <= nth j L 0)%R) /\ (forall j, j < m -> (nth m L 0 < nth j L 0)%R).
Lemma argmin_from_ok l : forall pre best, first_least pre best -> first_least (pre ++ l) (argmin_from (length pre) best (nth best pre 0%R) l).
Proof.
  induction l as [|x l IH]; intros pre best H; [rewrite app_nil_r; exact H|]. cbn [argmin_from]. destruct H as (A & B & D). replace (pre ++ x :: l) with ((pre ++ [x]) ++ l) by (rewrite <- app_assoc; reflexivity). assert (LP : length (pre ++ [x]) = S (length pre)) by (rewrite app_length; cbn; lia). assert (NX : nth (length pre) (pre ++ [x]) 0%R = x) by (rewrite app_nth2, Nat.sub_diag by lia; reflexivity).
  destruct (Rlt_dec x (nth best pre 0%R)) as [X|X].
  - pose proof (IH (pre ++ [x]) (length pre)) as IH'. rewrite LP, NX in IH'. apply IH'. clear IH'. split; [lia|]. split; intros j J; rewrite NX.
    + destruct (Nat.eq_dec j (length pre)) as [->|N]; [rewrite NX; lra|]. rewrite app_nth1 by lia. pose proof (B j ltac:(lia)). lra.
    + rewrite app_nth1 by lia. pose proof (B j ltac:(lia)). lra.
  - pose proof (IH (pre ++ [x]) best) as IH'. rewrite LP, (app_nth1 pre [x] 0%R A) in IH'. apply IH'. clear IH'. split; [lia|]. split; intros j J; rewrite (app_nth1 pre [x] 0%R A).
    + destruct (Nat.eq_dec j (length pre)) as [->|N]; [rewrite NX; lra|]. rewrite app_nth1 by lia. apply B. lia.
    + rewrite app_nth1 by lia. apply D. exact J.
Qed.
Lemma argmin_ok l : l <> [] -> first_least l (argmin l).
Proof.
  destruct l as [|x l]; [contradiction|]. intros _. cbn [argmin]. apply (argmin_from_ok l [x] 0). split; [cbn; lia|]. split; [|lia]. intros [|j] J; cbn in J |- *; [lra|lia].
Qed.

(** ** The recurrence *)
Section Steps.
Variables (n : nat) (d : R) (y : nat -> R).
Definition steps (phi : nat -> R) : Prop := forall j, j + 1 < n -> (phi (j + 1)%nat * (d + y (j + 1)%nat) = phi j * (d - y j))%R.
Definition phi_of (jnot : nat) (start : R) (j : nat) : R :=
  if j <=? jnot then down d y jnot (up d y jnot start 1) (jnot - j) else up d y jnot start (j - jnot).
Lemma phi_steps jnot start : jnot + 1 < n -> (forall j, j < n -> (if j <=? jnot then d - y j else d + y j)%R <> 0%R) ->
  steps (phi_of jnot start) /\ phi_of jnot start jnot = start.
Proof.
  intros J NZ. assert (NL : forall j, j <= jnot -> (d - y j)%R <> 0%R) by (intros j H; pose proof (NZ j ltac:(lia)) as X; destruct (Nat.leb_spec j jnot); [exact X|lia]). assert (NU : forall j, jnot < j < n -> (d + y j)%R <> 0%R) by (intros j H; pose proof (NZ j ltac:(lia)) as X; destruct (Nat.leb_spec j jnot); [lia|exact X]). split.
  - intros j H. unfold phi_of. destruct (Nat.lt_trichotomy j jnot) as [L|[E|G]].
    + destruct (Nat.leb_spec j jnot); [|lia]. destruct (Nat.leb_spec (j + 1) jnot); [|lia]. replace (jnot - j) with (S (jnot - (j + 1))) by lia. cbn [down]. replace (jnot - (jnot - (j + 1))) with (j + 1) by lia. replace (jnot - S (jnot - (j + 1))) with j by lia. pose proof (NL j ltac:(lia)). field. assumption.
    + subst j. destruct (Nat.leb_spec jnot jnot); [|lia]. destruct (Nat.leb_spec (jnot + 1) jnot); [lia|]. rewrite Nat.sub_diag. replace (jnot + 1 - jnot) with 1 by lia. cbn [down]. set (w := up d y jnot start 1). pose proof (NL jnot ltac:(lia)). field. assumption.
    + destruct (Nat.leb_spec j jnot); [lia|]. destruct (Nat.leb_spec (j + 1) jnot); [lia|]. replace (j + 1 - jnot) with (S (j - jnot)) by lia. cbn [up]. replace (jnot + (j - jnot)) with j by lia. replace (jnot + S (j - jnot)) with (j + 1) by lia. pose proof (NU (j + 1) ltac:(lia)). field. assumption.
  - unfold phi_of. destruct (Nat.leb_spec jnot jnot); [|lia]. rewrite Nat.sub_diag. cbn [down up]. rewrite Nat.add_0_r. pose proof (NL jnot ltac:(lia)). pose proof (NU (jnot + 1) ltac:(lia)). field. split; assumption.
Qed.
Lemma spread_over (P : nat -> Prop) m : m < n -> P m -> (forall j, j + 1 < n -> P j <-> P (j + 1)) -> forall j, j < n -> P j.
Proof.
  intros M PM H. assert (U : forall k, m + k < n -> P (m + k)). { induction k as [|k IH]; intros L; [rewrite Nat.add_0_r; exact PM|]. replace (m + S k) with (m + k + 1) by lia. apply (proj1 (H (m + k) ltac:(lia))). apply IH. lia. }
  assert (D : forall k, k <= m -> P (m - k)). { induction k as [|k IH]; intros L; [rewrite Nat.sub_0_r; exact PM|]. apply (proj2 (H (m - S k) ltac:(lia))). replace (m - S k + 1) with (m - k) by lia. apply IH. lia. }
  intros j J. destruct (Nat.le_ge_cases m j); [replace j with (m + (j - m)) by lia; apply U; lia|replace j with (m - (m - j)) by lia; apply D; lia].
Qed.
Lemma steps_unique phi psi m : (forall j, j < n -> (d - y j <> 0)%R /\ (d + y j <> 0)%R) -> steps phi -> steps psi -> m < n -> phi m = psi m -> forall j, j < n -> phi j = psi j.
Proof.
  intros NZ A B M E. apply (spread_over (fun j => phi j = psi j) m M E). intros j J. pose proof (A j J) as EA. pose proof (B j J) as EB. destruct (NZ j ltac:(lia)) as [N1 _]. destruct (NZ (j + 1) ltac:(lia)) as [_ N2]. split; intros H.
  - apply (Rmult_eq_reg_r (d + y (j + 1)%nat)); [|exact N2]. rewrite EA, EB, H. reflexivity.
  - apply (Rmult_eq_reg_r (d - y j)); [|exact N1]. rewrite <- EA, <- EB, H. reflexivity.
Qed.
Lemma steps_nonzero phi m : (forall j, j < n -> (d - y j <> 0)%R /\ (d + y j <> 0)%R) -> steps phi -> m < n -> phi m <> 0%R -> forall j, j < n -> phi j <> 0%R.
Proof.
  intros NZ A M E. apply (spread_over (fun j => phi j <> 0%R) m M E). intros j J. pose proof (A j J) as EA. destruct (NZ j ltac:(lia)) as [N1 _]. destruct (NZ (j + 1) ltac:(lia)) as [_ N2]. split; intros H X.
  - rewrite X, Rmult_0_l in EA. symmetry in EA. apply Rmult_integral in EA. tauto.
  - rewrite X, Rmult_0_l in EA. apply Rmult_integral in EA. tauto.
Qed.
Lemma steps_positive phi m : (forall j, j < n -> (0 < d - y j)%R /\ (0 < d + y j)%R) -> steps phi -> m < n -> (0 < phi m)%R -> forall j, j < n -> (0 < phi j)%R.
Proof.
  intros NZ A M E. apply (spread_over (fun j => (0 < phi j)%R) m M E). intros j J. pose proof (A j J) as EA. destruct (NZ j ltac:(lia)) as [N1 _]. destruct (NZ (j + 1) ltac:(lia)) as [_ N2]. split; intros H.
  - apply (Rmult_lt_reg_r (d + y (j + 1)%nat)); [exact N2|]. rewrite Rmult_0_l, EA. apply Rmult_lt_0_compat; assumption.
  - apply (Rmult_lt_reg_r (d - y j)); [exact N1|]. rewrite Rmult_0_l, <- EA. apply Rmult_lt_0_compat; assumption.
Qed.
End Steps.

(** ** The latitudes *)
Lemma eleq_is : eleq = Width.
Proof. unfold eleq, Width, cwave, beta, hequiv. do 4 f_equal. lra. Qed.
Lemma width_sq : (10 < Width * Width < 11)%R.
Proof.
  unfold Width. set (r := sqrt (8829 / 1000)). assert (R1 : (29 / 10 < r)%R). { unfold r. rewrite <- (sqrt_Rsqr (29 / 10)) by lra. apply sqrt_lt_1; unfold Rsqr; lra. } assert (R2 : (r < 3)%R). { unfold r. rewrite <- (sqrt_Rsqr 3) by lra. apply sqrt_lt_1; unfold Rsqr; lra. }
  set (q := (r / (228 / 10 ^ 13))%R). replace (sqrt q / 111000 * (sqrt q / 111000))%R with (sqrt q * sqrt q / (111000 * 111000))%R by field. rewrite sqrt_sqrt by (unfold q; apply Rlt_le, Rdiv_lt_0_compat; lra). unfold q. split.
  - apply (Rmult_lt_reg_r (111000 * 111000 * (228 / 10 ^ 13))); [lra|]. replace (r / (228 / 10 ^ 13) / (111000 * 111000) * (111000 * 111000 * (228 / 10 ^ 13)))%R with r by (field; lra). lra.
  - apply (Rmult_lt_reg_r (111000 * 111000 * (228 / 10 ^ 13))); [lra|]. replace (r / (228 / 10 ^ 13) / (111000 * 111000) * (111000 * 111000 * (228 / 10 ^ 13)))%R with r by (field; lra). lra.
Qed.
Lemma width_pos : (0 < Width)%R.
Proof.
  unfold Width. apply Rdiv_lt_0_compat; [|lra]. apply sqrt_lt_R0. apply Rdiv_lt_0_compat; [|lra]. apply sqrt_lt_R0. lra.
Qed.
Lemma step_is a b n : ((b / eleq - a / eleq) / INR n = Step a b n)%R.
Proof. rewrite eleq_is. unfold Step. f_equal. pose proof width_pos. field. lra. Qed.
Lemma middle_is a b n j : (a / eleq + (INR (j + 1) - 1 / 2) * Step a b n = Middle a b n j)%R.
Proof. rewrite eleq_is. unfold Middle. rewrite plus_INR. cbn [INR]. f_equal. f_equal. lra. Qed.
Lemma middle_next a b n j : Middle a b n (j + 1) = (Middle a b n j + Step a b n)%R.
Proof. unfold Middle. rewrite plus_INR. cbn [INR]. ring. Qed.
Lemma inr_pos n : 0 < n -> (0 < INR n)%R.
Proof. intros H. apply lt_0_INR. exact H. Qed.
Lemma step_pos a b n : 0 < n -> (a < b)%R -> (0 < Step a b n)%R.
Proof. intros N H. unfold Step. apply Rdiv_lt_0_compat; [apply Rdiv_lt_0_compat; [lra|exact width_pos]|apply inr_pos; exact N]. Qed.
Lemma step_nonzero a b n : 0 < n -> a <> b -> Step a b n <> 0%R.
Proof.
  intros N H E. apply H. unfold Step in E. pose proof width_pos as W. pose proof (inr_pos n N) as I. assert (X : (b - a = (b - a) / Width / INR n * (Width * INR n))%R) by (field; lra). rewrite E in X. lra.
Qed.
Lemma last_default {A} (l : list A) d d' : l <> [] -> last l d = last l d'.
Proof. induction l as [|x [|y l] IH]; intros H; [contradiction|reflexivity|]. exact (IH ltac:(discriminate)). Qed.
Lemma nearest_is a b n : 0 < n -> Nearest a b n (argmin (map (fun j => Rabs (Middle a b n j)) (seq 0 n))).
Proof.
  intros N. destruct (argmin_ok (map (fun j => Rabs (Middle a b n j)) (seq 0 n))) as (A & B & D); [destruct n; [lia|discriminate]|]. rewrite map_length, seq_length in A, B. split; [exact A|]. split; intros j J.
  - pose proof (B j J) as H. rewrite !nth_seq_map in H by assumption. exact H.
  - pose proof (D j J) as H. rewrite !nth_seq_map in H by (assumption || lia). exact H.
Qed.
Lemma nearest_unique a b n m m' : Nearest a b n m -> Nearest a b n m' -> m = m'.
Proof.
  intros (A & B & D) (A' & B' & D'). destruct (Nat.lt_trichotomy m m') as [L|[E|L]]; [|exact E|].
  - pose proof (D' m L). pose proof (B m' A'). lra.
  - pose proof (D m' L). pose proof (B' m A). lra.
Qed.
Definition norm_of (erf : R -> R) (a b : R) : R := (sqrt PI * (erf (b / Width) + erf (- (a / Width))))%R.
Definition start_of (erf : R -> R) (a b : R) (n m : nat) : R := (/ sqrt (norm_of erf a b) * exp (- (1 / 2) * Middle a b n m * Middle a b n m))%R.
(** The model with these words. *)
Lemma structure_is erf lat : lat <> [] -> let a := nth 0 lat 0%R in let b := last lat 0%R in let n := length lat in
  exists m, Nearest a b n m /\
  structure erf lat =
    if m + 1 =? n then Err IndexError
    else if Req_EM_T (Step a b n) 0 then Err NotModelled
    else if Rle_dec (norm_of erf a b) 0 then Err NotModelled
    else if existsb (fun j => if Req_EM_T (if j <=? m then 2 / Step a b n - Middle a b n j else 2 / Step a b n + Middle a b n j) 0 then true else false) (seq 0 n)
    then Err NotModelled
    else Ok (map (phi_of (2 / Step a b n) (Middle a b n) m (start_of erf a b n m)) (seq 0 n)).
Proof.
  intros NE a b n. unfold structure. destruct lat as [|l0 l]; [contradiction|]. set (lat := l0 :: l) in *. change l0 with a. rewrite (last_default lat a 0%R NE). fold b. fold n. cbv zeta.
  exists (argmin (map (fun j => Rabs (Middle a b n j)) (seq 0 n))). split; [apply nearest_is; unfold n, lat; cbn; lia|].
  assert (YY : (fun j => (a / eleq + (INR (j + 1) - 1 / 2) * ((b / eleq - a / eleq) / INR n))%R) = Middle a b n) by (apply FunctionalExtensionality.functional_extensionality; intros j; rewrite step_is; apply middle_is).
  rewrite !YY. replace (map (fun j => Rabs (a / eleq + (INR (j + 1) - 1 / 2) * ((b / eleq - a / eleq) / INR n))) (seq 0 n)) with (map (fun j => Rabs (Middle a b n j)) (seq 0 n)) by (apply map_ext; intros j; rewrite step_is, middle_is; reflexivity).
  set (m := argmin _). destruct (m + 1 =? n); [reflexivity|]. rewrite step_is. destruct (Req_EM_T (Step a b n) 0); [reflexivity|]. rewrite eleq_is. fold (norm_of erf a b). destruct (Rle_dec (norm_of erf a b) 0); [reflexivity|].
  rewrite <- eleq_is. replace (existsb _ (seq 0 n)) with (existsb (fun j => if Req_EM_T (if j <=? m then 2 / Step a b n - Middle a b n j else 2 / Step a b n + Middle a b n j) 0 then true else false) (seq 0 n)).
  - destruct (existsb _ _); [reflexivity|]. f_equal. apply map_ext. intros j. unfold phi_of, start_of. rewrite !middle_is. reflexivity.
  - generalize (seq 0 n). intros L. induction L as [|j L IH]; [reflexivity|]. cbn [existsb]. rewrite IH. rewrite middle_is. reflexivity.
Qed.

Lemma check_ok n (z : nat -> R) : existsb (fun j => if Req_EM_T (z j) 0 then true else false) (seq 0 n) = false <-> forall j, j < n -> z j <> 0%R.
Proof.
  split.
  - intros H j J E. assert (X : existsb (fun j => if Req_EM_T (z j) 0 then true else false) (seq 0 n) = true); [|congruence]. apply existsb_exists. exists j. split; [apply in_seq; lia|]. destruct (Req_EM_T (z j) 0); [reflexivity|contradiction].
  - intros H. destruct (existsb _ _) eqn:X; [|reflexivity]. apply existsb_exists in X. destruct X as (j & I & E). apply in_seq in I. destruct (Req_EM_T (z j) 0) as [Z|]; [|discriminate E]. exfalso. exact (H j ltac:(lia) Z).
Qed.
Lemma structure_ok erf lat out : structure erf lat = Ok out -> let a := nth 0 lat 0%R in let b := last lat 0%R in let n := length lat in
  exists phi m, out = map phi (seq 0 n) /\ steps n (2 / Step a b n) (Middle a b n) phi /\ (0 < phi m)%R /\ m + 1 < n /\ Step a b n <> 0%R /\ Nearest a b n m.
Proof.
  intros H a b n. assert (NE : lat <> []) by (intros ->; discriminate H). destruct (structure_is erf lat NE) as (m & NM & E). fold a b n in NM, E. rewrite E in H. pose proof NM as (ML & _). destruct (Nat.eqb_spec (m + 1) n); [discriminate H|]. destruct (Req_EM_T (Step a b n) 0) as [|SN]; [discriminate H|]. destruct (Rle_dec (norm_of erf a b) 0) as [|NP]; [discriminate H|].
  destruct (existsb _ _) eqn:X; [discriminate H|]. injection H as <-. destruct (phi_steps n (2 / Step a b n) (Middle a b n) m (start_of erf a b n m)) as [A B]; [lia|exact (proj1 (check_ok n _) X)|]. eexists _, m. split; [reflexivity|]. split; [exact A|]. rewrite B. split; [|repeat split; (assumption || lia || apply NM)].
  unfold start_of. apply Rmult_lt_0_compat; [apply Rinv_0_lt_compat, sqrt_lt_R0; lra|apply exp_pos].
Qed.
Lemma regular_is a b n : Step a b n <> 0%R -> Regular a b n -> forall j, j < n -> (2 / Step a b n - Middle a b n j <> 0)%R /\ (2 / Step a b n + Middle a b n j <> 0)%R.
Proof.
  intros S0 H j J. destruct (H j J) as [A B]. set (s := Step a b n) in *. set (y := Middle a b n j) in *. split; intros E.
  - apply A. assert (X : (2 = (2 / s) * s)%R) by (field; exact S0). replace (2 / s)%R with y in X by lra. lra.
  - apply B. assert (X : (2 = (2 / s) * s)%R) by (field; exact S0). replace (2 / s)%R with (- y)%R in X by lra. lra.
Qed.
Lemma shaped_iff nt nlat nlon f : shaped nt nlat nlon f = true <-> OfShape nt nlat nlon f.
Proof.
  unfold shaped, OfShape. rewrite andb_true_iff, Nat.eqb_eq, forallb_forall, Forall_forall. split; intros [A B]; (split; [exact A|]); intros g G; pose proof (B g G) as X.
  - apply andb_prop in X. destruct X as [X Y]. apply Nat.eqb_eq in X. split; [exact X|]. rewrite forallb_forall in Y. apply Forall_forall. intros r I. apply Nat.eqb_eq. apply Y. exact I.
  - destruct X as [X Y]. apply andb_true_intro. split; [apply Nat.eqb_eq; exact X|]. apply forallb_forall. intros r I. apply Nat.eqb_eq. rewrite Forall_forall in Y. apply Y. exact I.
Qed.

(** The statements of PropertiesKelvin.v. *)
Lemma C105_structure_proof : forall erf lat l0 m, lat <> [] -> nth 0 lat 0%R = l0 ->
  let n := length lat in let l1 := last lat 0%R in let norm := (sqrt PI * (erf (l1 / Width) + erf (- (l0 / Width))))%R in
  l0 <> l1 -> Nearest l0 l1 n m -> m + 1 < n -> (0 < norm)%R -> Regular l0 l1 n ->
  exists phi, structure erf lat = Ok (map phi (seq 0 n)) /\ Trapezoid l0 l1 n phi /\
    phi m = (exp (- (Middle l0 l1 n m ^ 2 / 2)) / sqrt norm)%R.
Proof.
  intros erf lat l0 m NE A0 n l1 norm D NM M NP RG. destruct (structure_is erf lat NE) as (m' & NM' & E). rewrite A0 in NM', E. fold l1 n in NM', E. rewrite (nearest_unique _ _ _ _ _ NM' NM) in E. destruct (Nat.eqb_spec (m + 1) n); [lia|].
  assert (SN : Step l0 l1 n <> 0%R) by (apply step_nonzero; [lia|exact D]). destruct (Req_EM_T (Step l0 l1 n) 0); [contradiction|]. unfold norm_of in E. fold norm in E. destruct (Rle_dec norm 0); [lra|].
  pose proof (regular_is l0 l1 n SN RG) as RI.
  assert (CK : forall j, j < n -> (if j <=? m then 2 / Step l0 l1 n - Middle l0 l1 n j else 2 / Step l0 l1 n + Middle l0 l1 n j)%R <> 0%R) by (intros j J; destruct (RI j J); destruct (j <=? m); assumption).
  rewrite (proj2 (check_ok n _) CK) in E. destruct (phi_steps n (2 / Step l0 l1 n) (Middle l0 l1 n) m (start_of erf l0 l1 n m) M CK) as [A B]. exists (phi_of (2 / Step l0 l1 n) (Middle l0 l1 n) m (start_of erf l0 l1 n m)). split; [exact E|]. set (phi := phi_of _ _ _ _) in *. split.
  - intros j J. pose proof (A j J) as X. set (s := Step l0 l1 n) in *. set (y := Middle l0 l1 n) in *. apply (Rmult_eq_reg_r 2); [|lra]. assert (Y : (phi (j + 1)%nat * (2 / s) - phi j * (2 / s) = - (y j * phi j + y (j + 1)%nat * phi (j + 1)%nat))%R) by lra. transitivity (phi (j + 1)%nat * (2 / s) - phi j * (2 / s))%R; [field; exact SN|]. rewrite Y. field.
  - rewrite B. unfold start_of, norm_of. fold norm. unfold Rdiv. rewrite Rmult_comm. f_equal. f_equal. lra.
Qed.

Lemma C105_structure_case_proof : Nearest (-10) 10 3 1 /\ Regular (-10) 10 3.
Proof.
  assert (W := width_sq). assert (WP := width_pos). assert (ST : Step (-10) 10 3 = (20 / 3 / Width)%R) by (unfold Step; rewrite (INR_IZR_INZ 3); cbn [Z.of_nat Pos.of_succ_nat Pos.succ]; field; lra).
  assert (M : forall j, Middle (-10) 10 3 j = ((INR j - 1) * (20 / 3) / Width)%R) by (intros j; unfold Middle; rewrite ST; field; lra). split.
  - assert (M1 : Middle (-10) 10 3 1 = 0%R) by (rewrite M; cbn [INR]; field; lra). split; [lia|]. rewrite M1, Rabs_R0. split; [intros j _; apply Rabs_pos|]. intros j J. replace j with 0 by lia. apply Rabs_pos_lt. rewrite M. cbn [INR]. unfold Rdiv. rewrite Rmult_assoc. apply Rmult_integral_contrapositive_currified; [lra|]. apply Rmult_integral_contrapositive_currified; [lra|]. apply Rinv_neq_0_compat. lra.
  - intros j J. rewrite M, ST. replace ((INR j - 1) * (20 / 3) / Width * (20 / 3 / Width))%R with ((INR j - 1) * (400 / 9) / (Width * Width))%R by (field; lra). set (q := (Width * Width)%R) in *.
    assert (X : forall z, ((INR j - 1) * (400 / 9) / q = z -> (INR j - 1) * (400 / 9) = z * q)%R) by (intros z E; rewrite <- E; field; lra).
    destruct j as [|[|[|j]]]; [| | |lia]; cbn [INR] in *; split; intros E; apply X in E; lra.
Qed.

Lemma C105_symmetric_proof : forall erf lat out, structure erf lat = Ok out -> last lat 0%R = (- nth 0 lat 0)%R ->
  Regular (nth 0 lat 0%R) (last lat 0%R) (length lat) ->
  forall j, j < length lat -> nth j out 0%R = nth (length lat - 1 - j) out 0%R.
Proof.
  intros erf lat out H SY RG. destruct (structure_ok erf lat out H) as (phi & m & E & ST & PM & ML & SN & _). cbv zeta in *. set (a := nth 0 lat 0%R) in *. set (b := last lat 0%R) in *. set (n := length lat) in *. pose proof (regular_is a b n SN RG) as NZ. set (d := (2 / Step a b n)%R) in *. set (y := Middle a b n) in *.
  assert (NP := inr_pos n ltac:(lia)). assert (WP := width_pos).
  assert (Y : forall j, j < n -> y (n - 1 - j) = (- y j)%R). { intros j J. unfold y, Middle, Step. rewrite SY. rewrite minus_INR by lia. rewrite minus_INR by lia. cbn [INR]. field. lra. }
  set (psi := fun j => phi (n - 1 - j)). assert (PS : steps n d y psi). { intros j J. unfold psi. pose proof (ST (n - 1 - (j + 1)) ltac:(lia)) as X. replace (n - 1 - (j + 1) + 1) with (n - 1 - j) in X by lia. rewrite !Y in X by lia. replace (d + - y j)%R with (d - y j)%R in X by ring. replace (d - - y (j + 1)%nat)%R with (d + y (j + 1)%nat)%R in X by ring. symmetry. exact X. }
  assert (AG : exists k, k < n /\ phi k = psi k). { destruct (Nat.Even_or_Odd n) as [[h EH]|[h EH]].
    - exists (h - 1). split; [lia|]. unfold psi. replace (n - 1 - (h - 1)) with (h - 1 + 1) by lia. pose proof (ST (h - 1) ltac:(lia)) as X. replace (y (h - 1 + 1)%nat) with (- y (h - 1)%nat)%R in X by (rewrite <- Y by lia; f_equal; lia). destruct (NZ (h - 1) ltac:(lia)) as [N1 _]. apply (Rmult_eq_reg_r (d - y (h - 1)%nat)); [|exact N1]. lra.
    - exists h. split; [lia|]. unfold psi. f_equal. lia. }
  destruct AG as (k & K & AK). intros j J. rewrite E. rewrite !nth_seq_map by lia. exact (steps_unique n d y phi psi k NZ ST PS K AK j J).
Qed.

Lemma C105_positive_proof : forall erf lat out, structure erf lat = Ok out -> (nth 0 lat 0 < last lat 0)%R ->
  (forall j, j < length lat -> (Rabs (Middle (nth 0 lat 0%R) (last lat 0%R) (length lat) j * Step (nth 0 lat 0%R) (last lat 0%R) (length lat)) < 2)%R) ->
  forall j, j < length lat -> (0 < nth j out 0)%R.
Proof.
  intros erf lat out H L B. destruct (structure_ok erf lat out H) as (phi & m & E & ST & PM & ML & SN & _). cbv zeta in *. set (a := nth 0 lat 0%R) in *. set (b := last lat 0%R) in *. set (n := length lat) in *. assert (SP := step_pos a b n ltac:(lia) L). intros j J. rewrite E, nth_seq_map by exact J.
  apply (steps_positive n (2 / Step a b n) (Middle a b n) phi m); [|exact ST|lia|exact PM|exact J]. intros i I. pose proof (B i I) as X. apply Rabs_def2 in X. destruct X as [X1 X2]. set (s := Step a b n) in *. set (y := Middle a b n i) in *. split; apply (Rmult_lt_reg_r s); try exact SP; rewrite Rmult_0_l.
  - replace ((2 / s - y) * s)%R with (2 - y * s)%R by (field; lra). lra.
  - replace ((2 / s + y) * s)%R with (2 + y * s)%R by (field; lra). lra.
Qed.

Lemma C105_positive_refuted_proof : forall erf lat out j, structure erf lat = Ok out -> (nth 0 lat 0 < last lat 0)%R ->
  Regular (nth 0 lat 0%R) (last lat 0%R) (length lat) -> j + 1 < length lat ->
  (2 < Middle (nth 0 lat 0%R) (last lat 0%R) (length lat) j * Step (nth 0 lat 0%R) (last lat 0%R) (length lat))%R ->
  (nth j out 0 * nth (j + 1) out 0 < 0)%R.
Proof.
  intros erf lat out j H L RG J B. destruct (structure_ok erf lat out H) as (phi & m & E & ST & PM & ML & SN & _). cbv zeta in *. set (a := nth 0 lat 0%R) in *. set (b := last lat 0%R) in *. set (n := length lat) in *. assert (SP := step_pos a b n ltac:(lia) L). rewrite E, !nth_seq_map by lia.
  pose proof (regular_is a b n SN RG) as NZ. pose proof (steps_nonzero n _ _ phi m NZ ST ltac:(lia) ltac:(lra) j ltac:(lia)) as PJ. pose proof (ST j J) as X. rewrite middle_next in X. set (s := Step a b n) in *. set (y := Middle a b n j) in *. assert (DP : (0 < 2 / s)%R) by (apply Rdiv_lt_0_compat; lra).
  assert (YD : (2 / s < y)%R). { apply (Rmult_lt_reg_r s); [exact SP|]. replace (2 / s * s)%R with 2%R by (field; exact SN). exact B. }
  assert (Q : (0 < 2 / s + (y + s))%R) by lra. apply (Rmult_lt_reg_r (2 / s + (y + s))); [exact Q|]. rewrite Rmult_0_l, Rmult_assoc, X. assert (0 < phi j * phi j)%R by (destruct (Rtotal_order (phi j) 0) as [Y|[Y|Y]]; [|contradiction|]; nra). nra.
Qed.

Lemma C105_positive_case_proof : (2 < Middle (-30) 30 25 20 * Step (-30) 30 25)%R /\
  (Rabs (Middle (-30) 30 25 15 * Step (-30) 30 25) < 2)%R.
Proof.
  assert (W := width_sq). assert (WP := width_pos). assert (ST : Step (-30) 30 25 = (12 / 5 / Width)%R) by (unfold Step; rewrite (INR_IZR_INZ 25); cbn [Z.of_nat Pos.of_succ_nat Pos.succ]; field; lra).
  assert (M : forall j, (Middle (-30) 30 25 j * Step (-30) 30 25 = (-30 + (INR j + 1 / 2) * (12 / 5)) * (12 / 5) / (Width * Width))%R) by (intros j; unfold Middle; rewrite ST; field; lra). rewrite !M. rewrite (INR_IZR_INZ 20), (INR_IZR_INZ 15). cbn [Z.of_nat Pos.of_succ_nat Pos.succ]. set (q := (Width * Width)%R) in *. split.
  - apply (Rmult_lt_reg_r q); [lra|]. replace ((-30 + (20 + 1 / 2) * (12 / 5)) * (12 / 5) / q * q)%R with ((-30 + (20 + 1 / 2) * (12 / 5)) * (12 / 5))%R by (field; lra). lra.
  - rewrite Rabs_right.
    + apply (Rmult_lt_reg_r q); [lra|]. replace ((-30 + (15 + 1 / 2) * (12 / 5)) * (12 / 5) / q * q)%R with ((-30 + (15 + 1 / 2) * (12 / 5)) * (12 / 5))%R by (field; lra). lra.
    + apply Rle_ge, Rlt_le. apply Rdiv_lt_0_compat; lra.
Qed.

Lemma C105_latitudes_refuted_proof : forall a s n j, s <> 0%R -> 2 <= n -> j < n ->
  let latitude j := (a + INR j * s)%R in
  Middle (latitude 0) (latitude (n - 1)) n j = (latitude j / Width)%R <-> 2 * j + 1 = n.
Proof.
  intros a s n j S0 N J lt. assert (WP := width_pos). assert (NP := inr_pos n ltac:(lia)). unfold Middle, Step, lt. rewrite minus_INR by lia. cbn [INR].
  assert (X : ((a + 0 * s) / Width + (INR j + 1 / 2) * ((a + (INR n - 1) * s - (a + 0 * s)) / Width / INR n) - (a + INR j * s) / Width = s * ((INR n - 1) - 2 * INR j) / (2 * Width * INR n))%R) by (field; lra). split.
  - intros E. rewrite E in X. assert (Y : (s * ((INR n - 1) - 2 * INR j) = 0)%R). { assert (Z : (s * ((INR n - 1) - 2 * INR j) = s * ((INR n - 1) - 2 * INR j) / (2 * Width * INR n) * (2 * Width * INR n))%R) by (field; lra). rewrite Z, <- X. ring. } apply Rmult_integral in Y. destruct Y as [Y|Y]; [contradiction|]. apply INR_eq. rewrite plus_INR, mult_INR. cbn [INR]. lra.
  - intros E. assert (Y : INR n = (2 * INR j + 1)%R) by (rewrite <- E, plus_INR, mult_INR; cbn [INR]; lra). assert (Z : (s * ((INR n - 1) - 2 * INR j) / (2 * Width * INR n) = 0)%R) by (rewrite Y; field; rewrite <- Y; lra). rewrite Z in X. lra.
Qed.

Lemma C105_power_proof : forall erf nt lat nlon u v uflx vflx phik, structure erf lat = Ok phik ->
  OfShape nt (length lat) nlon u -> OfShape nt (length lat) nlon v -> OfShape nt (length lat) nlon uflx -> OfShape nt (length lat) nlon vflx ->
  exists out, calc_wpower_MJO erf nt lat nlon u v uflx vflx = Ok out /\ OfShape nt (length lat) nlon out /\
    forall t j i, t < nt -> j < length lat -> i < nlon ->
      Entry out t j i = match Entry u t j i, Entry v t j i, Entry uflx t j i, Entry vflx t j i with
                        | Some x, Some y, Some p, Some q => Some (nth j phik 0 * (x * p + y * q))%R
                        | _, _, _, _ => None
                        end.
Proof.
  intros erf nt lat nlon u v uflx vflx phik E U V UF VF. unfold calc_wpower_MJO. rewrite E. cbn [bind]. rewrite (proj2 (shaped_iff _ _ _ u) U), (proj2 (shaped_iff _ _ _ v) V), (proj2 (shaped_iff _ _ _ uflx) UF), (proj2 (shaped_iff _ _ _ vflx) VF). cbn [andb negb]. eexists. split; [reflexivity|]. split.
  - split; [rewrite map_length, seq_length; reflexivity|]. apply Forall_forall. intros g G. apply in_map_iff in G. destruct G as (t & <- & _). split; [rewrite map_length, seq_length; reflexivity|]. apply Forall_forall. intros r I. apply in_map_iff in I. destruct I as (j & <- & _). rewrite map_length, seq_length. reflexivity.
  - intros t j i T J I. unfold Entry at 1. rewrite !nth_seq_map by assumption. change at3 with Entry. destruct (Entry u t j i), (Entry v t j i), (Entry uflx t j i), (Entry vflx t j i); cbn; try reflexivity. f_equal. ring.
Qed.

Lemma C105_power_case_proof : OfShape 1 2 1 [[[Some 1%R]; [None]]].
Proof.
  split; [reflexivity|]. repeat constructor.
Qed.

Lemma C105_exceptions_proof : forall erf nt lat nlon u v uflx vflx,
  let run := calc_wpower_MJO erf nt lat nlon u v uflx vflx in
  (length lat <= 1 -> run = Err IndexError) /\
  ((nth 0 lat 0 < last lat 0)%R -> (last lat 0 <= 0)%R -> run = Err IndexError) /\
  (forall phik, structure erf lat = Ok phik -> OfShape nt (length lat) nlon u -> OfShape nt (length lat) nlon v ->
     ~ (OfShape nt (length lat) nlon uflx /\ OfShape nt (length lat) nlon vflx) -> run = Err ValueError).
Proof.
  intros erf nt lat nlon u v uflx vflx run. split; [|split].
  - intros L. unfold run, calc_wpower_MJO. destruct lat as [|l0 [|l1 lat]]; [reflexivity| |cbn in L; lia]. destruct (structure_is erf [l0] ltac:(discriminate)) as (m & (M & _) & E). rewrite E. cbn [length] in *. replace m with 0 by lia. reflexivity.
  - intros L B. assert (NE : lat <> []) by (intros ->; cbn in L; lra). unfold run, calc_wpower_MJO. destruct (structure_is erf lat NE) as (m & (M & LE & _) & E). rewrite E. cbv zeta in *. set (a := nth 0 lat 0%R) in *. set (b := last lat 0%R) in *. set (n := length lat) in *.
    destruct (Nat.eqb_spec (m + 1) n) as [|X]; [reflexivity|]. exfalso. assert (SP := step_pos a b n ltac:(lia) L). assert (NP := inr_pos n ltac:(lia)). assert (WP := width_pos). pose proof (LE (n - 1) ltac:(lia)) as Y.
    assert (ML : forall j, j <= n - 1 -> Middle a b n j = (b / Width - (INR (n - 1) - INR j + 1 / 2) * Step a b n)%R). { intros j J. unfold Middle, Step. rewrite minus_INR by lia. cbn [INR]. field. lra. }
    assert (BN : (b / Width <= 0)%R). { unfold Rdiv. assert (IV := Rinv_0_lt_compat _ WP). nra. }
    assert (IJ : (INR m + 1 <= INR (n - 1))%R). { rewrite <- S_INR. apply le_INR. lia. }
    rewrite !ML in Y by lia. set (s := Step a b n) in *. rewrite !Rabs_left in Y; nra.
  - intros phik E U V N. unfold run, calc_wpower_MJO. rewrite E. cbn [bind]. rewrite (proj2 (shaped_iff _ _ _ u) U), (proj2 (shaped_iff _ _ _ v) V). cbn [andb negb]. destruct (shaped nt (length lat) nlon uflx && shaped nt (length lat) nlon vflx) eqn:X; [|reflexivity]. exfalso. apply N. apply andb_prop in X. destruct X as [X Y]. split; apply shaped_iff; assumption.
Qed.

Lemma C105_between_refuted_proof : forall erf lat lat', length lat = length lat' -> nth 0 lat 0%R = nth 0 lat' 0%R -> last lat 0%R = last lat' 0%R ->
  structure erf lat = structure erf lat'.
Proof.
  intros erf lat lat' HL H0 H1. destruct lat as [|a l], lat' as [|b l']; try discriminate HL; [reflexivity|]. cbn [nth] in H0. subst b.
  assert (D : forall (x : R) m d e, last (x :: m) d = last (x :: m) e).
  { intros x m d e. revert x. induction m as [|y m IH]; intro x; [reflexivity|]. exact (IH y). }
  unfold structure. rewrite (D a l a 0%R), (D a l' a 0%R), H1, HL. reflexivity.
Qed.
Lemma C105_between_case_proof : length [-10; 0; 10]%R = length [-10; 3; 10]%R /\ nth 0 [-10; 0; 10]%R 0%R = nth 0 [-10; 3; 10]%R 0%R /\
  last [-10; 0; 10]%R 0%R = last [-10; 3; 10]%R 0%R /\ [-10; 0; 10]%R <> [-10; 3; 10]%R.
Proof. repeat split. intro H. injection H. lra. Qed.
