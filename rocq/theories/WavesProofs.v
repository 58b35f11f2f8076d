(** Proofs about means, waves and winds around a storm. *)
From Coq Require Import Reals Qreals QArith String.
From Verif Require Import PyBase ColumnModel BlockModel BlockProofs TropicsProofs WindProofs WavesModel WavesSpec.
From Coq Require Import Lia List Lra.
Import ListNotations.
Open Scope nat_scope.
Open Scope R_scope.

(** ** Sums *)
Lemma tot_plus {A} (f g : A -> R) l : Total (map (fun a => f a + g a) l) = Total (map f l) + Total (map g l).
Proof. induction l as [|a l IH]; cbn; [lra|]. unfold Total in IH. rewrite IH. lra. Qed.
Lemma tot_scale {A} (c : R) (f : A -> R) l : Total (map (fun a => c * f a) l) = c * Total (map f l).
Proof. induction l as [|a l IH]; cbn; [lra|]. unfold Total in IH. rewrite IH. lra. Qed.
Lemma tot_ext {A} (f g : A -> R) l : (forall a, In a l -> f a = g a) -> Total (map f l) = Total (map g l).
Proof. intros H. rewrite (map_ext_in f g l H). reflexivity. Qed.
Lemma tot_zero {A} (f : A -> R) l : (forall a, In a l -> f a = 0) -> Total (map f l) = 0.
Proof. intros H. induction l as [|a l IH]; cbn; [reflexivity|]. rewrite (H a) by (left; reflexivity). unfold Total in IH. rewrite IH; [lra|intros; apply H; right; auto]. Qed.
Lemma tot_swap {A B} (f : A -> B -> R) l m :
  Total (map (fun a => Total (map (f a) m)) l) = Total (map (fun b => Total (map (fun a => f a b) l)) m).
Proof.
  induction l as [|a l IH].
  - cbn. symmetry. apply tot_zero. reflexivity.
  - cbn [map Total fold_right]. change (fold_right Rplus 0 ?x) with (Total x). rewrite IH, <- tot_plus. reflexivity.
Qed.
Lemma tot_app l m : Total (l ++ m) = Total l + Total m.
Proof. unfold Total. induction l as [|a l IH]; cbn; [lra|]. rewrite IH. lra. Qed.
Lemma tot_snoc (f : nat -> R) n : Total (map f (seq 0 (S n))) = Total (map f (seq 0 n)) + f n.
Proof. rewrite seq_S, map_app, tot_app. cbn. lra. Qed.
Lemma tot_tele (F : nat -> R) n : Total (map (fun k => F (S k) - F k) (seq 0 n)) = F n - F 0%nat.
Proof. induction n as [|n IH]; [cbn; lra|]. rewrite tot_snoc, IH. lra. Qed.
Lemma tot_one (g : nat -> R) k m : (k < m)%nat -> Total (map (fun i => if i =? k then g i else 0) (seq 0 m)) = g k.
Proof.
  induction m as [|m IH]; intros H; [lia|]. rewrite tot_snoc. destruct (Nat.eqb_spec m k) as [->|N].
  - rewrite tot_zero; [lra|]. intros i I. apply in_seq in I. destruct (Nat.eqb_spec i k); [lia|reflexivity].
  - rewrite IH by lia. lra.
Qed.
Lemma combine_seq {A B} (f : nat -> A) (g : nat -> B) l : combine (map f l) (map g l) = map (fun i => (f i, g i)) l.
Proof. induction l; cbn; congruence. Qed.
Lemma combine_seq' {B} (g : nat -> B) l : combine l (map g l) = map (fun i => (i, g i)) l.
Proof. induction l; cbn; congruence. Qed.
Lemma pos_len {A} (x : list A) : x <> [] -> (0 < length x)%nat.
Proof. destruct x; [contradiction|cbn; lia]. Qed.

(** ** Sums of cosines *)
Lemma turn_eq n k j : turn n k j = Turn n k j.
Proof. reflexivity. Qed.
(** The pairs of neighbours. *)
Lemma pairs c h : Total (map (fun k => (if k =? 0 then 1 else 2) * c k) (seq 0 (S h))) = Total (map (fun k => c k + c (S k)) (seq 0 h)) + c h.
Proof.
  induction h as [|h IH]; [cbn; lra|]. rewrite tot_snoc, IH. rewrite (tot_snoc (fun k => c k + c (S k))). cbn [Nat.eqb]. lra.
Qed.
Definition share (n k : nat) : R := if (k =? 0) || (2 * k =? n) then 1 else 2.
Lemma share_even c h : (0 < h)%nat -> Total (map (fun k => share (2 * h) k * c k) (seq 0 (S h))) = Total (map (fun k => c k + c (S k)) (seq 0 h)).
Proof.
  intros H. pose proof (pairs c h) as E. rewrite tot_snoc in E |- *.
  rewrite (tot_ext (fun k => share (2 * h) k * c k) (fun k => (if k =? 0 then 1 else 2) * c k)).
  - unfold share at 1. rewrite Nat.eqb_refl, Bool.orb_true_r. destruct (Nat.eqb_spec h 0); [lia|]. lra.
  - intros k I. apply in_seq in I. unfold share. destruct (Nat.eqb_spec (2 * k) (2 * h)); [lia|]. rewrite Bool.orb_false_r. reflexivity.
Qed.
Lemma share_odd c h : Total (map (fun k => share (2 * h + 1) k * c k) (seq 0 (S h))) = Total (map (fun k => c k + c (S k)) (seq 0 h)) + c h.
Proof.
  rewrite <- pairs. apply tot_ext. intros k I. unfold share. destruct (Nat.eqb_spec (2 * k) (2 * h + 1)); [lia|]. rewrite Bool.orb_false_r. reflexivity.
Qed.
Lemma pair_angle a k : sin (a / 2) * (cos (INR k * a) + cos (INR (S k) * a)) = cos (a / 2) * sin (INR (S k) * a) - cos (a / 2) * sin (INR k * a).
Proof.
  rewrite S_INR. replace (cos (a / 2) * sin ((INR k + 1) * a) - cos (a / 2) * sin (INR k * a)) with (cos (a / 2) * (sin ((INR k + 1) * a) - sin (INR k * a))) by lra.
  rewrite form1, form4.
  replace ((INR k * a - (INR k + 1) * a) / 2) with (- (a / 2)) by field. replace (((INR k + 1) * a - INR k * a) / 2) with (a / 2) by field.
  rewrite cos_neg. replace (((INR k + 1) * a + INR k * a) / 2) with ((INR k * a + (INR k + 1) * a) / 2) by field. lra.
Qed.
Lemma pairs_angle a h : sin (a / 2) * Total (map (fun k => cos (INR k * a) + cos (INR (S k) * a)) (seq 0 h)) = cos (a / 2) * sin (INR h * a).
Proof.
  rewrite <- tot_scale. rewrite (tot_ext _ (fun k => cos (a / 2) * sin (INR (S k) * a) - cos (a / 2) * sin (INR k * a))) by (intros; apply pair_angle).
  rewrite (tot_tele (fun k => cos (a / 2) * sin (INR k * a))). change (INR 0) with 0. rewrite Rmult_0_l, sin_0. lra.
Qed.
Lemma INR_nz n : (0 < n)%nat -> INR n <> 0.
Proof. intros H. apply not_0_INR. lia. Qed.
Lemma sin_int m : sin (PI * INR m) = 0.
Proof. apply sin_eq_0_1. exists (Z.of_nat m). rewrite <- INR_IZR_INZ. lra. Qed.
(** The sine of a part of half a turn. *)
Lemma sin_part n m : (0 < m < n)%nat -> sin (PI * INR m / INR n) <> 0.
Proof.
  intros [H1 H2]. apply lt_INR in H1, H2. cbn in H1. pose proof PI_RGT_0.
  assert (0 < sin (PI * INR m / INR n)); [|lra].
  assert (0 < INR n) by lra.
  apply sin_gt_0.
  - apply Rdiv_lt_0_compat; [|lra]. apply Rmult_lt_0_compat; lra.
  - apply (Rmult_lt_reg_r (INR n)); [lra|]. unfold Rdiv. rewrite Rmult_assoc, Rinv_l by lra. nra.
Qed.
(** The kernel of the sum over the waves. *)
Lemma kernel n i j : (i < n)%nat -> (j < n)%nat ->
  Total (map (fun k => share n k * cos (Turn n k j - Turn n k i)) (seq 0 (n / 2 + 1))) = if i =? j then INR n else 0.
Proof.
  intros Hi Hj.
  set (a := 2 * PI * (INR j - INR i) / INR n).
  assert (NZ : INR n <> 0) by (apply INR_nz; lia).
  rewrite (tot_ext _ (fun k => share n k * (fun k => cos (INR k * a)) k)).
  2:{ intros k _. f_equal. f_equal. unfold Turn, a. field. exact NZ. }
  replace (n / 2 + 1)%nat with (S (n / 2)) by lia.
  pose proof (Nat.div_mod n 2 ltac:(lia)) as DM. pose proof (Nat.mod_upper_bound n 2 ltac:(lia)) as MB.
  set (h := (n / 2)%nat) in *.
  assert (PA := pairs_angle a h).
  assert (SA : i <> j -> sin (a / 2) <> 0).
  { intros N. unfold a. destruct (Nat.lt_ge_cases i j).
    - replace (2 * PI * (INR j - INR i) / INR n / 2) with (PI * INR (j - i) / INR n) by (rewrite minus_INR by lia; field; exact NZ).
      apply sin_part. lia.
    - replace (2 * PI * (INR j - INR i) / INR n / 2) with (- (PI * INR (i - j) / INR n)) by (rewrite minus_INR by lia; field; exact NZ).
      rewrite sin_neg. pose proof (sin_part n (i - j) ltac:(lia)). lra. }
  assert (SN : sin (INR n * a / 2) = 0).
  { unfold a. destruct (Nat.lt_ge_cases i j).
    - replace (INR n * (2 * PI * (INR j - INR i) / INR n) / 2) with (PI * INR (j - i)) by (rewrite minus_INR by lia; field; exact NZ). apply sin_int.
    - replace (INR n * (2 * PI * (INR j - INR i) / INR n) / 2) with (- (PI * INR (i - j))) by (rewrite minus_INR by lia; field; exact NZ).
      rewrite sin_neg, sin_int. lra. }
  assert (EQ : i = j -> forall k, cos (INR k * a) = 1).
  { intros -> k. unfold a. replace (INR k * (2 * PI * (INR j - INR j) / INR n)) with 0 by (field; exact NZ). apply cos_0. }
  assert (CNT : forall c, (forall k, c k = 1) -> Total (map (fun k => c k + c (S k)) (seq 0 h)) = 2 * INR h).
  { intros c HC. generalize h. intros h0. induction h0 as [|h0 IH]; [cbn; lra|]. rewrite tot_snoc, IH, !HC, S_INR. lra. }
  assert (n mod 2 = 0 \/ n mod 2 = 1)%nat as [M|M] by lia; rewrite M in DM.
  - pose proof (share_even (fun k => cos (INR k * a)) h ltac:(lia)) as SE. replace (2 * h)%nat with n in SE by lia. cbv beta in SE |- *. rewrite SE.
    destruct (Nat.eqb_spec i j) as [E|N].
    + rewrite (CNT (fun k => cos (INR k * a))) by (apply EQ; exact E). rewrite DM, plus_INR, mult_INR. cbn. lra.
    + apply (Rmult_eq_reg_l (sin (a / 2))); [|apply SA; exact N]. rewrite PA.
      replace (INR h * a) with (INR n * a / 2) by (rewrite DM, plus_INR, mult_INR; cbn; lra). rewrite SN. lra.
  - pose proof (share_odd (fun k => cos (INR k * a)) h) as SE. replace (2 * h + 1)%nat with n in SE by lia. cbv beta in SE |- *. rewrite SE.
    destruct (Nat.eqb_spec i j) as [E|N].
    + rewrite (CNT (fun k => cos (INR k * a))) by (apply EQ; exact E). rewrite (EQ E). rewrite DM, plus_INR, mult_INR. cbn. lra.
    + apply (Rmult_eq_reg_l (sin (a / 2))); [|apply SA; exact N]. rewrite Rmult_plus_distr_l, PA.
      replace (cos (a / 2) * sin (INR h * a) + sin (a / 2) * cos (INR h * a)) with (sin (INR h * a + a / 2)) by (rewrite sin_plus; lra).
      replace (INR h * a + a / 2) with (INR n * a / 2) by (rewrite DM, plus_INR, mult_INR; cbn; lra). rewrite SN. lra.
Qed.

(** Sums over the places. *)
Lemma combine_from {A} (x : list A) s : combine (seq s (length x)) x = map (fun p => ((fst p + s)%nat, snd p)) (combine (seq 0 (length x)) x).
Proof.
  revert s. induction x as [|a x IH]; intros s; [reflexivity|]. cbn [length seq combine map]. f_equal.
  rewrite (IH (S s)), (IH 1%nat), map_map. apply map_ext. intros [i b]. cbn. f_equal. lia.
Qed.
Lemma in_places {A} (x : list A) i a : In (i, a) (combine (seq 0 (length x)) x) -> nth_error x i = Some a /\ (i < length x)%nat.
Proof.
  intros I. apply In_nth_error in I. destruct I as [p E].
  destruct (nth_error x p) as [b|] eqn:X.
  - rewrite (seq_combine x p b X) in E. injection E as <- <-. split; [exact X|]. apply nth_error_Some. congruence.
  - exfalso. apply nth_error_None in X. assert (p < length (combine (seq 0 (length x)) x))%nat by (apply nth_error_Some; congruence).
    rewrite combine_length, seq_length in H. lia.
Qed.
Lemma pick_place (x : list R) j v c : nth_error x j = Some v ->
  Total (map (fun p => snd p * (if fst p =? j then c else 0)) (combine (seq 0 (length x)) x)) = v * c.
Proof.
  revert j. induction x as [|a x IH]; intros j E; [destruct j; discriminate|].
  cbn [length seq combine map Total fold_right fst snd]. change (fold_right Rplus 0 ?y) with (Total y).
  rewrite combine_from, map_map. destruct j as [|j].
  - injection E as ->. rewrite tot_zero; [cbn; lra|]. intros [i b] _. cbn. destruct (Nat.eqb_spec (i + 1) 0); [lia|lra].
  - cbn [Nat.eqb]. rewrite (tot_ext _ (fun p => snd p * (if fst p =? j then c else 0))).
    + rewrite (IH j E). lra.
    + intros [i b] _. cbn [fst snd]. replace (i + 1 =? S j) with (i =? j); [reflexivity|]. destruct (Nat.eqb_spec i j), (Nat.eqb_spec (i + 1) (S j)); try reflexivity; lia.
Qed.

(** ** Coefficients *)
Definition coef (x : list R) (k : nat) : cplx :=
  (against (fun j => cos (turn (length x) k j)) x, - against (fun j => sin (turn (length x) k j)) x).
Lemma rfft_ok x : x <> [] -> rfft x = Ok (map (coef x) (seq 0 (length x / 2 + 1))).
Proof. destruct x; [contradiction|reflexivity]. Qed.
Lemma part_coef x k j : WavePart x k j =
  share (length x) k / INR (length x) * (fst (coef x k) * cos (Turn (length x) k j) - snd (coef x k) * sin (Turn (length x) k j)).
Proof.
  unfold WavePart, share, coef, against. cbn [fst snd]. f_equal. change rsum with Total.
  rewrite (tot_ext _ (fun p => cos (Turn (length x) k j) * (snd p * cos (turn (length x) k (fst p))) + sin (Turn (length x) k j) * (snd p * sin (turn (length x) k (fst p))))).
  - rewrite tot_plus, !tot_scale. ring.
  - intros p _. rewrite cos_minus. unfold turn, Turn. ring.
Qed.
Definition all_coefs (x : list R) : list (Z * cplx) := map (fun k => (Z.of_nat k, coef x k)) (seq 0 (length x / 2 + 1)).
Lemma coeffs_all xrft x : x <> [] -> zonal_wave_coeffs xrft x None "scipy" = Ok (all_coefs x).
Proof.
  intros H. unfold zonal_wave_coeffs. cbn [String.eqb Ascii.eqb Bool.eqb orb]. rewrite rfft_ok by exact H. cbn [bind].
  rewrite map_length, seq_length, combine_seq. destruct x; [contradiction|]. reflexivity.
Qed.
Lemma pick_there x w : (0 <= w <= Z.of_nat (length x / 2))%Z -> pick (all_coefs x) w = Ok (w, coef x (Z.to_nat w)).
Proof.
  intros H. unfold pick, all_coefs.
  assert (G : forall m s, (Z.to_nat w < m)%nat -> (s <= Z.to_nat w)%nat ->
    find (fun p => (fst p =? w)%Z) (map (fun k => (Z.of_nat k, coef x k)) (seq s (m - s))) = Some (w, coef x (Z.to_nat w))).
  { intros m s Hm. remember (Z.to_nat w - s)%nat as d. revert s Heqd. induction d as [|d IH]; intros s Hd Hs.
    - assert (s = Z.to_nat w) by lia. subst s. destruct (m - Z.to_nat w)%nat eqn:E; [lia|]. cbn [seq map find fst].
      destruct (Z.eqb_spec (Z.of_nat (Z.to_nat w)) w); [|lia]. rewrite e. reflexivity.
    - destruct (m - s)%nat eqn:E; [lia|]. cbn [seq map find fst]. destruct (Z.eqb_spec (Z.of_nat s) w); [lia|].
      replace n with (m - S s)%nat by lia. apply IH; lia. }
  rewrite <- (Nat.sub_0_r (length x / 2 + 1)). rewrite G by lia. reflexivity.
Qed.
Lemma pick_not x w : (w < 0 \/ Z.of_nat (length x / 2) < w)%Z -> pick (all_coefs x) w = Err KeyError.
Proof.
  intros H. unfold pick. destruct (find _ _) as [p|] eqn:F; [|reflexivity]. apply find_some in F. destruct F as [I E].
  unfold all_coefs in I. apply in_map_iff in I. destruct I as (k & <- & I). apply in_seq in I. apply Z.eqb_eq in E. cbn in E. lia.
Qed.
Lemma mapM_picks x ws : Forall (fun w => (0 <= w <= Z.of_nat (length x / 2))%Z) ws ->
  mapM (pick (all_coefs x)) ws = Ok (map (fun w => (w, coef x (Z.to_nat w))) ws).
Proof. induction 1 as [|w ws H _ IH]; [reflexivity|]. cbn [mapM]. rewrite pick_there by exact H. cbn [bind]. rewrite IH. reflexivity. Qed.
Lemma coeffs_some xrft x ws : x <> [] -> zonal_wave_coeffs xrft x (Some ws) "scipy" = mapM (pick (all_coefs x)) ws.
Proof.
  intros H. unfold zonal_wave_coeffs. cbn [String.eqb Ascii.eqb Bool.eqb orb]. rewrite rfft_ok by exact H. cbn [bind].
  rewrite map_length, seq_length, combine_seq. destruct x; [contradiction|]. reflexivity.
Qed.
Lemma pick_inv fc w p : pick fc w = Ok p -> In p fc /\ fst p = w.
Proof. unfold pick. destruct (find _ _) eqn:F; [|discriminate]. intros [= <-]. apply find_some in F. destruct F as [I E]. apply Z.eqb_eq in E. auto. Qed.
Lemma coeffs_in xrft x waves fc : zonal_wave_coeffs xrft x waves "scipy" = Ok fc -> x <> [] /\ forall p, In p fc -> In p (all_coefs x).
Proof.
  intros H. assert (N : x <> []) by (intros ->; discriminate H). split; [exact N|]. intros p I.
  destruct waves as [ws|].
  - rewrite coeffs_some in H by exact N. apply mapM_inv in H. apply In_nth_error in I. destruct I as [i E].
    destruct (forall2_nth_l _ _ _ _ _ H E) as (w & _ & P). apply pick_inv in P. tauto.
  - rewrite coeffs_all in H by exact N. injection H as <-. exact I.
Qed.
Lemma in_coefs x k z : In (Z.of_nat k, z) (all_coefs x) -> z = coef x k /\ (k <= length x / 2)%nat.
Proof. unfold all_coefs. intros I. apply in_map_iff in I. destruct I as (k' & E & I). injection E as E1 E2. apply Nat2Z.inj in E1. subst. apply in_seq in I. split; [auto|lia]. Qed.
Lemma coeffs_bad xrft x ws : x <> [] -> Exists (fun w => (w < 0 \/ Z.of_nat (length x / 2) < w)%Z) ws ->
  zonal_wave_coeffs xrft x (Some ws) "scipy" = Err KeyError.
Proof.
  intros N H. rewrite coeffs_some by exact N. apply Exists_exists in H. destruct H as (w & I & B).
  apply (mapM_fails _ _ w); [|exact I|apply pick_not; exact B].
  intros y _. assert ((y < 0 \/ Z.of_nat (length x / 2) < y) \/ (0 <= y <= Z.of_nat (length x / 2)))%Z as [K|K] by lia.
  - right. apply pick_not. exact K.
  - left. eexists. apply pick_there. exact K.
Qed.

(** ** The inverse transform *)
Lemma irfft_len c r : irfft c = Ok r -> length r = (2 * (length c - 1))%nat /\ length r <> 0%nat.
Proof. unfold irfft. destruct (Nat.eqb_spec (2 * (length c - 1)) 0); [discriminate|]. intros [= <-]. rewrite map_length, seq_length. auto. Qed.
Lemma irfft_exn c e : irfft c = Err e -> e = ValueError /\ (2 * (length c - 1) = 0)%nat.
Proof. unfold irfft. destruct (Nat.eqb_spec (2 * (length c - 1)) 0); [|discriminate]. intros [= <-]. auto. Qed.
Lemma irfft_wave x k : x <> [] -> Nat.Even (length x) -> (k <= length x / 2)%nat ->
  irfft (map (fun p => if Z.eqb (fst p) (Z.of_nat k) then snd p else (0, 0)) (all_coefs x)) = Ok (map (WavePart x k) (seq 0 (length x))).
Proof.
  intros N [h E] K. pose proof (pos_len x N) as P.
  assert (H2 : (length x / 2 = h)%nat) by (rewrite E, Nat.mul_comm, Nat.div_mul; lia).
  unfold irfft, all_coefs. rewrite map_map, map_length, seq_length. rewrite H2 in *.
  replace (2 * (h + 1 - 1))%nat with (length x) by lia. destruct (Nat.eqb_spec (length x) 0); [lia|].
  rewrite combine_seq'. f_equal. apply map_ext. intros j. rewrite map_map. change rsum with Total.
  rewrite (tot_ext _ (fun k' => if k' =? k then (share (length x) k' / INR (length x) * (fst (coef x k') * cos (Turn (length x) k' j) - snd (coef x k') * sin (Turn (length x) k' j))) else 0)).
  - rewrite tot_one by lia. symmetry. apply part_coef.
  - intros k' I. apply in_seq in I. cbn [fst snd]. assert (NZ : INR (length x) <> 0) by (apply INR_nz; lia).
    destruct (Nat.eqb_spec k' k) as [->|D].
    + rewrite Z.eqb_refl. destruct (coef x k) as [re im]. cbn [fst snd]. unfold share, turn, Turn.
      replace (k =? h + 1 - 1) with (2 * k =? length x). 2:{ destruct (Nat.eqb_spec (2 * k) (length x)), (Nat.eqb_spec k (h + 1 - 1)); try reflexivity; lia. }
      field. exact NZ.
    + destruct (Z.eqb_spec (Z.of_nat k') (Z.of_nat k)); [lia|]. field. exact NZ.
Qed.

(** ** Angles *)
Lemma polar z : np_abs z * cos (np_angle z) = fst z /\ np_abs z * sin (np_angle z) = snd z.
Proof.
  destruct z as [x y]. unfold np_abs, np_angle. cbn [fst snd]. replace (x * x + y * y) with (y * y + x * x) by ring.
  destruct (Rlt_dec 0 x) as [P|NP].
  - destruct (atan_right y x P). auto.
  - destruct (Rlt_dec x 0) as [M|NM].
    + destruct (atan_left y x M) as [A B]. destruct (Rlt_dec y 0).
      * replace (atan (y / x) - PI) with (- (PI - atan (y / x))) by ring. rewrite cos_neg, sin_neg, cos_minus, sin_minus, cos_PI, sin_PI. split; nra.
      * rewrite neg_cos, neg_sin. split; nra.
    + assert (x = 0) by lra. subst x. replace (y * y + 0 * 0) with (y * y) by ring.
      destruct (Rlt_dec 0 y).
      * rewrite cos_PI2, sin_PI2, sqrt_square by lra. lra.
      * destruct (Rlt_dec y 0).
        -- replace (- PI / 2) with (- (PI / 2)) by field. rewrite cos_neg, sin_neg, cos_PI2, sin_PI2.
           replace (y * y) with ((- y) * (- y)) by ring. rewrite sqrt_square by lra. lra.
        -- assert (y = 0) by lra. subst y. rewrite Rmult_0_l, sqrt_0. lra.
Qed.
Lemma angle_range z : - PI < np_angle z <= PI.
Proof.
  destruct z as [x y]. unfold np_angle. pose proof PI_RGT_0. pose proof (atan_bound (y / x)) as B.
  destruct (Rlt_dec 0 x); [lra|]. destruct (Rlt_dec x 0) as [M|].
  - destruct (Rlt_dec y 0) as [Y|Y].
    + assert (0 < y / x) by (unfold Rdiv; pose proof (Rinv_lt_0_compat x M); nra). pose proof (atan_sign_pos _ H0). lra.
    + assert (atan (y / x) <= 0).
      { destruct (Req_dec y 0) as [->|]; [unfold Rdiv; rewrite Rmult_0_l, atan_0; lra|].
        assert (y / x < 0) by (apply div_neg; lra). pose proof (atan_sign_neg _ H1). lra. }
      lra.
  - destruct (Rlt_dec 0 y); [lra|]. destruct (Rlt_dec y 0); lra.
Qed.
Lemma abs_nonneg z : 0 <= np_abs z.
Proof. apply sqrt_pos. Qed.

(** ** One wave *)
Lemma tot_cos n m b : (0 < m < n)%nat -> Total (map (fun j => cos (Turn n m j + b)) (seq 0 n)) = 0.
Proof.
  intros H. assert (NZ : INR n <> 0) by (apply INR_nz; lia).
  apply (Rmult_eq_reg_l (2 * sin (PI * INR m / INR n))); [|pose proof (sin_part n m H); lra].
  set (a := 2 * PI * INR m / INR n). replace (PI * INR m / INR n) with (a / 2) by (unfold a; field; exact NZ).
  rewrite <- tot_scale. rewrite (tot_ext _ (fun j => sin (a * INR (S j) + (b - a / 2)) - sin (a * INR j + (b - a / 2)))).
  - rewrite (tot_tele (fun j => sin (a * INR j + (b - a / 2)))). change (INR 0) with 0.
    replace (a * INR n + (b - a / 2)) with (b - a / 2 + 2 * INR m * PI) by (unfold a; field; exact NZ). rewrite sin_period.
    replace (a * 0 + (b - a / 2)) with (b - a / 2) by ring. lra.
  - intros j _. rewrite form4, S_INR.
    replace ((a * (INR j + 1) + (b - a / 2) - (a * INR j + (b - a / 2))) / 2) with (a / 2) by field.
    replace ((a * (INR j + 1) + (b - a / 2) + (a * INR j + (b - a / 2))) / 2) with (Turn n m j + b) by (unfold Turn, a; field; exact NZ). ring.
Qed.
Lemma tot_const c n : Total (map (fun _ : nat => c) (seq 0 n)) = INR n * c.
Proof. induction n as [|n IH]; [cbn; lra|]. rewrite tot_snoc, IH, S_INR. lra. Qed.
Lemma turn_diff n k k' j : (k' <= k)%nat -> (0 < n)%nat -> Turn n k j - Turn n k' j = Turn n (k - k') j.
Proof. intros H N. unfold Turn. rewrite minus_INR by exact H. field. apply INR_nz. exact N. Qed.
Lemma turn_sum n k k' j : (0 < n)%nat -> Turn n k j + Turn n k' j = Turn n (k + k') j.
Proof. intros N. unfold Turn. rewrite plus_INR. field. apply INR_nz. exact N. Qed.
Lemma tot_diff n k k' b : (2 * k < n)%nat -> (2 * k' <= n)%nat ->
  Total (map (fun j => cos (Turn n k j - Turn n k' j + b)) (seq 0 n)) = if k' =? k then INR n * cos b else 0.
Proof.
  intros H H'. destruct (Nat.eqb_spec k' k) as [->|D].
  - rewrite (tot_ext _ (fun _ => cos b)); [apply tot_const|]. intros j _. f_equal. ring.
  - destruct (Nat.lt_ge_cases k' k).
    + rewrite (tot_ext _ (fun j => cos (Turn n (k - k') j + b))) by (intros; rewrite turn_diff by lia; reflexivity). apply tot_cos. lia.
    + rewrite (tot_ext _ (fun j => cos (Turn n (k' - k) j + - b))); [apply tot_cos; lia|].
      intros j _. rewrite <- turn_diff by lia. rewrite <- cos_neg. f_equal. ring.
Qed.
Lemma against_pure f n k a phi : (0 < n)%nat ->
  against f (PureWave n k a phi) = Total (map (fun j => a * cos (Turn n k j + phi) * f j) (seq 0 n)).
Proof. intros N. unfold against, PureWave. rewrite map_length, seq_length, combine_seq', map_map. reflexivity. Qed.
Lemma coef_pure n k k' a phi : (0 < 2 * k < n)%nat -> (2 * k' <= n)%nat ->
  coef (PureWave n k a phi) k' = if k' =? k then (a * INR n / 2 * cos phi, a * INR n / 2 * sin phi) else (0, 0).
Proof.
  intros H H'. assert (N : (0 < n)%nat) by lia. unfold coef. replace (length (PureWave n k a phi)) with n by (unfold PureWave; rewrite map_length, seq_length; reflexivity).
  rewrite !against_pure by exact N.
  assert (A1 : Total (map (fun j => a * cos (Turn n k j + phi) * cos (turn n k' j)) (seq 0 n)) = a / 2 * (if k' =? k then INR n * cos phi else 0)).
  { rewrite (tot_ext _ (fun j => a / 2 * (cos (Turn n k j - Turn n k' j + phi) + cos (Turn n (k + k') j + phi)))).
    - rewrite tot_scale, tot_plus, tot_diff, tot_cos by lia. rewrite Rplus_0_r. reflexivity.
    - intros j _. rewrite form1.
      replace ((Turn n k j - Turn n k' j + phi - (Turn n (k + k') j + phi)) / 2) with (- turn n k' j) by (rewrite <- turn_sum by exact N; change turn with Turn; field).
      replace ((Turn n k j - Turn n k' j + phi + (Turn n (k + k') j + phi)) / 2) with (Turn n k j + phi) by (rewrite <- turn_sum by exact N; field).
      rewrite cos_neg. field. }
  assert (S' : forall y, cos (y - PI / 2) = sin y) by (intros y; rewrite <- cos_shift, <- (cos_neg (PI / 2 - y)); f_equal; ring).
  assert (A2 : Total (map (fun j => a * cos (Turn n k j + phi) * sin (turn n k' j)) (seq 0 n)) = - (a / 2 * (if k' =? k then INR n * sin phi else 0))).
  { rewrite (tot_ext _ (fun j => (- a / 2) * cos (Turn n k j - Turn n k' j + (phi - PI / 2)) + a / 2 * cos (Turn n (k + k') j + (phi - PI / 2)))).
    - rewrite tot_plus, !tot_scale, tot_diff, tot_cos by lia. rewrite S'. destruct (k' =? k); field.
    - intros j _.
      replace (Turn n k j - Turn n k' j + (phi - PI / 2)) with (Turn n k j - Turn n k' j + phi - PI / 2) by ring.
      replace (Turn n (k + k') j + (phi - PI / 2)) with (Turn n (k + k') j + phi - PI / 2) by ring. rewrite !S'.
      replace (- a / 2 * sin (Turn n k j - Turn n k' j + phi) + a / 2 * sin (Turn n (k + k') j + phi)) with (a / 2 * (sin (Turn n (k + k') j + phi) - sin (Turn n k j - Turn n k' j + phi))) by field.
      rewrite form4.
      replace ((Turn n (k + k') j + phi - (Turn n k j - Turn n k' j + phi)) / 2) with (turn n k' j) by (rewrite <- turn_sum by exact N; change turn with Turn; field).
      replace ((Turn n (k + k') j + phi + (Turn n k j - Turn n k' j + phi)) / 2) with (Turn n k j + phi) by (rewrite <- turn_sum by exact N; field).
      field. }
  rewrite A1, A2. destruct (k' =? k); f_equal; field.
Qed.

(** ** Means *)
Definition values_of (l : list (Q * option R)) : list (R * R) :=
  flat_map (fun p => match snd p with Some x => if in_band (fst p) then [(coslat (fst p), x)] else [] | None => [] end) l.
Lemma weighted_values l : let v := values_of l in
  weighted_mean (filter (fun p => in_band (fst p)) l) = if Req_EM_T (Total (map fst v)) 0 then None else Some (Total (map (fun p => fst p * snd p) v) / Total (map fst v)).
Proof.
  intros v. unfold weighted_mean. change rsum with Total.
  assert (E1 : flat_map (fun p => match snd p with Some _ => [coslat (fst p)] | None => [] end) (filter (fun p => in_band (fst p)) l) = map fst v).
  { unfold v, values_of. induction l as [|[lat [x|]] l IH]; [reflexivity| |]; cbn [filter fst flat_map snd]; destruct (in_band lat); cbn [flat_map fst snd app map]; rewrite IH; reflexivity. }
  assert (E2 : flat_map (fun p => match snd p with Some x => [coslat (fst p) * x] | None => [] end) (filter (fun p => in_band (fst p)) l) = map (fun p => fst p * snd p) v).
  { unfold v, values_of. clear E1. induction l as [|[lat [x|]] l IH]; [reflexivity| |]; cbn [filter fst flat_map snd]; destruct (in_band lat); cbn [flat_map fst snd app map]; rewrite IH; reflexivity. }
  rewrite E1, E2. reflexivity.
Qed.
Lemma band_iff lat : in_band lat = true <-> (60 <= lat <= 90)%Q.
Proof. unfold in_band. rewrite Bool.andb_true_iff, !Qle_bool_iff. tauto. Qed.
Lemma tiny : 0 < 6123233995736766 / 10 ^ 32 < 1 / 10 ^ 16.
Proof. split; lra. Qed.
Lemma coslat_pos lat : in_band lat = true -> 0 < coslat lat.
Proof.
  intros B. apply band_iff in B. unfold coslat. destruct (Qeq_bool lat 90) eqn:E; [apply tiny|].
  assert (N : (lat < 90)%Q). { destruct (Qlt_le_dec lat 90); [assumption|]. assert (lat == 90)%Q by (destruct B; apply Qle_antisym; assumption). apply Qeq_bool_neq in E. contradiction. }
  destruct B as [B _]. apply Qle_Rle in B. apply Qlt_Rlt in N. unfold Q2R in B at 1, N at 2. cbn in B, N.
  pose proof PI_RGT_0. apply cos_gt_0; nra.
Qed.
Lemma weight_coslat lat : Weight lat (coslat lat).
Proof. unfold Weight, coslat. destruct (Qeq_bool lat 90); [apply tiny|reflexivity]. Qed.
Lemma values_in l w x : In (w, x) (values_of l) <-> exists lat, In (lat, Some x) l /\ in_band lat = true /\ w = coslat lat.
Proof.
  unfold values_of. rewrite in_flat_map. split.
  - intros ([lat [y|]] & I & H); cbn in H; [|contradiction]. destruct (in_band lat) eqn:B; [|contradiction].
    destruct H as [[= <- <-]|[]]. exists lat. auto.
  - intros (lat & I & B & ->). exists (lat, Some x). split; [exact I|]. cbn. rewrite B. left. reflexivity.
Qed.
Lemma total_pos v : (forall p, In p v -> (0 < fst p)%R) -> v <> [] -> 0 < Total (map (@fst R R) v).
Proof.
  intros H N. destruct v as [|p v]; [contradiction|]. clear N. cbn [map Total fold_right]. change (fold_right Rplus 0 ?y) with (Total y).
  assert (0 <= Total (map fst v)).
  { induction v as [|q v IH]; [cbn; lra|]. cbn. assert (0 < fst q) by (apply H; right; left; reflexivity).
    assert (0 <= Total (map fst v)) by (apply IH; intros r [->|I]; apply H; [left; reflexivity|right; right; exact I]). unfold Total in H1. lra. }
  pose proof (H p ltac:(left; reflexivity)). lra.
Qed.
Lemma values_pos l p : In p (values_of l) -> 0 < fst p.
Proof. destruct p as [w x]. intros I. apply values_in in I. destruct I as (lat & _ & B & ->). apply coslat_pos. exact B. Qed.
Lemma Qltb_iff a b : Qlt_bool a b = true <-> (a < b)%Q.
Proof. unfold Qlt_bool. rewrite Bool.negb_true_iff. split; intros H. - apply Qnot_le_lt. intros C. apply Qle_bool_iff in C. congruence. - destruct (Qle_bool b a) eqn:E; [|reflexivity]. apply Qle_bool_iff in E. exfalso. apply (Qlt_not_le _ _ H E). Qed.
Lemma run_mean l lat1 lat2 : (lat1 < lat2)%Q -> meridional_mean l lat1 lat2 = Ok (weighted_mean (filter (fun p => in_band (fst p)) l)).
Proof.
  intros H. unfold meridional_mean. destruct (Qlt_bool lat2 lat1) eqn:A.
  - apply Qltb_iff in A. exfalso. apply (Qlt_irrefl lat1). apply (Qlt_trans _ lat2); assumption.
  - destruct (Qeq_bool lat1 lat2) eqn:E; [|reflexivity]. apply Qeq_bool_iff in E. rewrite E in H. apply Qlt_irrefl in H. contradiction.
Qed.
Lemma stop_mean l lat1 lat2 : (lat2 <= lat1)%Q -> meridional_mean l lat1 lat2 = Err ValueError.
Proof.
  intros H. unfold meridional_mean. destruct (Qlt_bool lat2 lat1) eqn:A; [reflexivity|].
  assert (lat1 == lat2)%Q. { apply Qle_antisym; [|exact H]. apply Qnot_lt_le. intros C. apply Qltb_iff in C. congruence. }
  apply Qeq_bool_iff in H0. rewrite H0. reflexivity.
Qed.
Lemma mean_inv l lat1 lat2 m : meridional_mean l lat1 lat2 = Ok (Some m) -> let v := values_of l in
  v <> [] /\ 0 < Total (map fst v) /\ m = Total (map (fun p => fst p * snd p) v) / Total (map fst v).
Proof.
  intros H v. destruct (Qlt_le_dec lat1 lat2) as [L|L]; [|rewrite stop_mean in H by exact L; discriminate].
  rewrite run_mean in H by exact L. rewrite weighted_values in H. fold v in H. destruct (Req_EM_T _ _) as [|NZ]; [discriminate|]. injection H as <-.
  assert (N : v <> []) by (intros E; apply NZ; rewrite E; reflexivity).
  split; [exact N|]. split; [|reflexivity]. apply total_pos; [apply values_pos|exact N].
Qed.
Lemma mean_between (v : list (R * R)) a b : (forall p, In p v -> 0 < fst p /\ a <= snd p <= b) ->
  a * Total (map fst v) <= Total (map (fun p => fst p * snd p) v) <= b * Total (map fst v).
Proof.
  induction v as [|p v IH]; intros H; [cbn; lra|]. cbn [map Total fold_right]. change (fold_right Rplus 0 ?y) with (Total y).
  destruct (H p ltac:(left; reflexivity)) as [P Q]. destruct (IH ltac:(intros; apply H; right; auto)) as [I1 I2]. split; nra.
Qed.

(** ** Directions around a storm *)
Lemma cos_2PI_plus t : cos (t + 2 * PI) = cos t.
Proof. rewrite <- (cos_period t 1). f_equal. cbn. ring. Qed.
Lemma sin_2PI_plus t : sin (t + 2 * PI) = sin t.
Proof. rewrite <- (sin_period t 1). f_equal. cbn. ring. Qed.
Lemma theta_dir a : cos (tc_theta a) = - sin (Q2R a * PI / 180) /\ sin (tc_theta a) = cos (Q2R a * PI / 180).
Proof.
  unfold tc_theta.
  assert (E : cos (PI / 180 * Q2R a + PI / 2) = - sin (Q2R a * PI / 180) /\ sin (PI / 180 * Q2R a + PI / 2) = cos (Q2R a * PI / 180)).
  { replace (PI / 180 * Q2R a) with (Q2R a * PI / 180) by field. rewrite cos_plus, sin_plus, cos_PI2, sin_PI2. lra. }
  destruct (Rlt_dec (2 * PI) (PI / 180 * Q2R a + PI / 2)); [|exact E].
  rewrite <- (cos_2PI_plus (PI / 180 * Q2R a + PI / 2 - 2 * PI)), <- (sin_2PI_plus (PI / 180 * Q2R a + PI / 2 - 2 * PI)).
  replace (PI / 180 * Q2R a + PI / 2 - 2 * PI + 2 * PI) with (PI / 180 * Q2R a + PI / 2) by ring. exact E.
Qed.
Lemma mapM_err {A B} (f : A -> res B) e : forall l, mapM f l = Err e -> exists x, In x l /\ f x = Err e.
Proof.
  induction l as [|a l IH]; cbn [mapM]; [discriminate|]. destruct (f a) eqn:F; cbn [bind].
  - destruct (mapM f l); cbn [bind]; [discriminate|]. intros E. destruct (IH E) as (x & I & X). exists x. split; [right; exact I|exact X].
  - intros E. injection E as ->. exists a. split; [left; reflexivity|exact F].
Qed.
Lemma forall2_ext_nth {A B} (P : A -> B -> Prop) : forall l m, length l = length m ->
  (forall k x y, nth_error l k = Some x -> nth_error m k = Some y -> P x y) -> Forall2 P l m.
Proof.
  induction l as [|a l IH]; intros [|b m] L H; try discriminate L; constructor.
  - apply (H 0%nat); reflexivity.
  - apply IH; [injection L as L; exact L|]. intros k x y X Y. apply (H (S k)); assumption.
Qed.

(** The statements of PropertiesWaves.v. *)
Lemma C80_zonal_proof : (forall row : list (option Q),
  let values := flat_map (fun o => match o with Some q => [q] | None => [] end) row in
  match zonal_mean row with
  | Some m => values <> [] /\ (m * inject_Z (Z.of_nat (List.length values)) == fold_right Qplus 0 values)%Q
  | None => values = []
  end)%nat.
Proof.
  intros row values. unfold zonal_mean, nanmean.
  change (some_numbers row) with values. clearbody values. destruct values as [|q l]; [reflexivity|]. split; [discriminate|].
  assert (NZ : ~ (inject_Z (Z.of_nat (Datatypes.length (q :: l))) == 0)%Q) by (intros Z0; unfold Qeq, inject_Z in Z0; cbn [Qnum Qden] in Z0; cbn [Datatypes.length] in Z0; lia).
  rewrite Qmult_comm. apply Qmult_div_r. exact NZ.
Qed.

Lemma C80_band_refuted_proof : (~ forall (dat : list (Q * option R)) (lat1 lat2 : Q) (m : R), (lat1 < lat2)%Q ->
  meridional_mean dat lat1 lat2 = Ok (Some m) -> BandMean lat1 lat2 dat m)%nat.
Proof.
  intros H. specialize (H [(0, Some 1%R); (60, Some 3%R)]%Q (-10)%Q 70%Q 3 ltac:(reflexivity)).
  assert (C60 : coslat 60 = 1 / 2). { unfold coslat. change (Qeq_bool 60 90) with false. cbv iota. replace (Q2R 60 * PI / 180) with (PI / 3) by (unfold Q2R; cbn; field). apply cos_PI3. }
  destruct H as (w & W & N & E).
  { rewrite run_mean by reflexivity. rewrite weighted_values. unfold values_of. cbn [flat_map snd fst]. change (in_band 0) with false. change (in_band 60) with true. cbn [map Total fold_right fst snd app].
    rewrite !C60. destruct (Req_EM_T (1 / 2 + 0) 0); [lra|]. do 2 f_equal. field. }
  cbn in E. pose proof (W 0%Q) as W0. pose proof (W 60%Q) as W6. unfold Weight in W0, W6. cbn in W0, W6.
  replace (Q2R 0 * PI / 180) with 0 in W0 by (unfold Q2R; cbn; field). rewrite cos_0 in W0.
  replace (Q2R 60 * PI / 180) with (PI / 3) in W6 by (unfold Q2R; cbn; field). rewrite cos_PI3 in W6. rewrite W0, W6 in E. lra.
Qed.

Lemma C80_meridional_proof : (forall (dat : list (Q * option R)) (lat1 lat2 : Q) (m : R),
  meridional_mean dat lat1 lat2 = Ok (Some m) -> BandMean 60 90 dat m)%nat.
Proof.
  intros dat lat1 lat2 m H. apply mean_inv in H. destruct H as (N & P & E).
  exists coslat. split; [exact weight_coslat|]. cbv zeta.
  change (flat_map _ dat) with (values_of dat). split; [exact N|]. rewrite E. field. lra.
Qed.

Lemma C80_meridional_case_proof : (exists m, meridional_mean [(0, Some 5%R); (60, Some 1%R); (75, None); (90, Some 3%R)]%Q (-10) 30 = Ok (Some m))%nat.
Proof.
  rewrite run_mean by reflexivity. rewrite weighted_values. destruct (Req_EM_T _ _) as [Z|]; [|eexists; reflexivity].
  exfalso. revert Z. apply Rgt_not_eq, total_pos; [apply values_pos|discriminate].
Qed.

Lemma C80_limits_proof : (forall (dat : list (Q * option R)) (lat1 lat2 lat1' lat2' : Q), (lat1 < lat2)%Q -> (lat1' < lat2')%Q ->
  meridional_mean dat lat1 lat2 = meridional_mean dat lat1' lat2')%nat.
Proof.
  intros dat lat1 lat2 lat1' lat2' H H'. rewrite !run_mean by assumption. reflexivity.
Qed.

Lemma C80_missing_proof : (forall (dat : list (Q * option R)) (lat1 lat2 : Q), (lat1 < lat2)%Q ->
  (meridional_mean dat lat1 lat2 = Ok None <-> forall lat x, In (lat, Some x) dat -> (lat < 60)%Q \/ (90 < lat)%Q))%nat.
Proof.
  intros dat lat1 lat2 L. rewrite run_mean, weighted_values by exact L.
  assert (V : values_of dat = [] <-> forall lat x, In (lat, Some x) dat -> (lat < 60)%Q \/ (90 < lat)%Q).
  { split.
    - intros E lat x I. destruct (in_band lat) eqn:B.
      + exfalso. assert (K : In (coslat lat, x) (values_of dat)) by (apply values_in; exists lat; auto). rewrite E in K. contradiction.
      + destruct (Qlt_le_dec lat 60); [left; assumption|]. destruct (Qlt_le_dec 90 lat); [right; assumption|].
        assert (in_band lat = true) by (apply band_iff; auto). congruence.
    - intros H. destruct (values_of dat) as [|[w x] v] eqn:E; [reflexivity|exfalso].
      assert (K : In (w, x) (values_of dat)) by (rewrite E; left; reflexivity). apply values_in in K. destruct K as (lat & I & B & _).
      apply band_iff in B. destruct B as [B1 B2]. destruct (H lat x I) as [C|C]; [apply (Qlt_not_le _ _ C B1)|apply (Qlt_not_le _ _ C B2)]. }
  rewrite <- V. destruct (Req_EM_T _ _) as [Z|Z].
  - split; [intros _|reflexivity]. destruct (values_of dat) eqn:E; [reflexivity|]. exfalso. revert Z. rewrite <- E.
    apply Rgt_not_eq, total_pos; [apply values_pos|rewrite E; discriminate].
  - split; [discriminate|]. intros E. exfalso. apply Z. rewrite E. reflexivity.
Qed.

Lemma C80_bounds_proof : (forall (dat : list (Q * option R)) (lat1 lat2 : Q) (m a b : R),
  meridional_mean dat lat1 lat2 = Ok (Some m) ->
  (forall lat x, In (lat, Some x) dat -> (60 <= lat <= 90)%Q -> (a <= x <= b)%R) -> (a <= m <= b)%R)%nat.
Proof.
  intros dat lat1 lat2 m a b H B. apply mean_inv in H. destruct H as (N & P & ->).
  destruct (mean_between (values_of dat) a b) as [L U].
  { intros [w x] I. pose proof (values_pos _ _ I). split; [assumption|]. apply values_in in I. destruct I as (lat & I & BD & _). apply band_iff in BD. apply (B lat x I BD). }
  split; apply (Rmult_le_reg_r (Total (map fst (values_of dat)))); try exact P; unfold Rdiv; rewrite Rmult_assoc, Rinv_l by lra; lra.
Qed.

Lemma C80_bounds_case_proof : (exists m, meridional_mean [(60, Some 1%R); (90, Some 3%R)]%Q 60 90 = Ok (Some m) /\ (1 <= m <= 3)%R)%nat.
Proof.
  assert (K : exists m, meridional_mean [(60, Some 1%R); (90, Some 3%R)]%Q 60 90 = Ok (Some m)).
  { rewrite run_mean by reflexivity. rewrite weighted_values. destruct (Req_EM_T _ _) as [Z|]; [|eexists; reflexivity].
    exfalso. revert Z. apply Rgt_not_eq, total_pos; [apply values_pos|discriminate]. }
  destruct K as [m K]. exists m. split; [exact K|]. apply (C80_bounds_proof _ _ _ _ 1 3 K).
  intros lat x [[= <- <-]|[[= <- <-]|[]]] _; lra.
Qed.

Lemma C80_exceptions_proof : (forall (dat : list (Q * option R)) (lat1 lat2 : Q),
  (meridional_mean dat lat1 lat2 = Err ValueError <-> (lat2 <= lat1)%Q) /\
  (forall e, meridional_mean dat lat1 lat2 = Err e -> e = ValueError))%nat.
Proof.
  intros dat lat1 lat2. destruct (Qlt_le_dec lat1 lat2) as [L|L].
  - rewrite run_mean by exact L. split; [|discriminate]. split; [discriminate|]. intros C. exfalso. apply (Qlt_not_le _ _ L C).
  - rewrite stop_mean by exact L. split; [tauto|]. congruence.
Qed.

Lemma C81_components_proof : (forall (azimuth : list Q) (u v : list R) (out : list (R * R)),
  wind_components azimuth u v = Ok out ->
  forall i a x y, nth_error azimuth i = Some a -> nth_error u i = Some x -> nth_error v i = Some y ->
    let d := (Q2R a * PI / 180)%R in
    nth_error out i = Some (x * - sin d + y * cos d, x * - cos d + y * - sin d)%R)%nat.
Proof.
  intros azimuth. induction azimuth as [|b az IH]; intros u v out H i a x y Ha Hx Hy d; [destruct i; discriminate|].
  destruct u as [|u0 u]; [discriminate H|]. destruct v as [|v0 v]; [discriminate H|]. cbn [wind_components] in H.
  destruct (wind_components az u v) as [rest|] eqn:R; [|discriminate H]. cbn [bind] in H. injection H as <-.
  destruct i as [|i]; cbn in Ha, Hx, Hy |- *.
  - injection Ha as ->. injection Hx as ->. injection Hy as ->. destruct (theta_dir a) as [-> ->]. fold d. do 2 f_equal; ring.
  - apply (IH u v rest R i a x y Ha Hx Hy).
Qed.

Lemma C81_speed_proof : (forall (azimuth : list Q) (u v : list R) (out : list (R * R)),
  wind_components azimuth u v = Ok out -> List.length out = List.length azimuth /\
  forall i a x y r t, nth_error azimuth i = Some a -> nth_error u i = Some x -> nth_error v i = Some y ->
    nth_error out i = Some (r, t) ->
    (r * r + t * t = x * x + y * y)%R /\
    let d := (Q2R a * PI / 180)%R in
    (x = - (r * sin d) - t * cos d)%R /\ (y = r * cos d - t * sin d)%R)%nat.
Proof.
  intros azimuth u v out H. split.
  - revert u v out H. induction azimuth as [|b az IH]; intros [|u0 u] [|v0 v] out H; try discriminate H; cbn [wind_components] in H.
    + injection H as <-. reflexivity.
    + destruct (wind_components az u v) as [rest|] eqn:R; [|discriminate H]. cbn [bind] in H. injection H as <-. cbn. f_equal. apply (IH _ _ _ R).
  - intros i a x y r t Ha Hx Hy Ho. pose proof (C81_components_proof _ _ _ _ H i a x y Ha Hx Hy) as E. cbv zeta in E. rewrite Ho in E. injection E as -> ->.
    pose proof (sin2_cos2 (Q2R a * PI / 180)) as P. unfold Rsqr in P. cbv zeta. set (s := sin (Q2R a * PI / 180)) in *. set (c := cos (Q2R a * PI / 180)) in *.
    split; [|split].
    + replace (x * x + y * y) with ((x * x + y * y) * (s * s + c * c)) by (rewrite P; ring). ring.
    + replace x with (x * (s * s + c * c)) at 1 by (rewrite P; ring). ring.
    + replace y with (y * (s * s + c * c)) at 1 by (rewrite P; ring). ring.
Qed.

Lemma C81_turn_proof : (forall (a : Q) (x y : R), wind_components [a]%Q [x] [y] = wind_components [a + 360]%Q [x] [y])%nat.
Proof.
  intros a x y. cbn [wind_components bind]. destruct (theta_dir a) as [-> ->]. destruct (theta_dir (a + 360)) as [-> ->].
  rewrite Q2R_plus. replace ((Q2R a + Q2R 360) * PI / 180) with (Q2R a * PI / 180 + 2 * PI) by (unfold Q2R at 3; cbn; field).
  rewrite sin_2PI_plus, cos_2PI_plus. reflexivity.
Qed.

Lemma C81_exceptions_proof : (forall (azimuth : list Q) (u v : list R),
  ((exists out, wind_components azimuth u v = Ok out) <-> List.length u = List.length azimuth /\ List.length v = List.length azimuth) /\
  (forall e, wind_components azimuth u v = Err e -> e = ValueError))%nat.
Proof.
  intros azimuth. induction azimuth as [|b az IH]; intros [|u0 u] [|v0 v]; cbn [wind_components Datatypes.length].
  all: try (split; [split; [intros [out O]; discriminate O|intros [A B]; discriminate]|congruence]).
  - split; [split; [auto|intros _; eexists; reflexivity]|discriminate].
  - destruct (IH u v) as [I1 I2]. destruct (wind_components az u v) as [rest|e] eqn:R; cbn [bind].
    + split; [|discriminate]. split; [intros _|intros _; eexists; reflexivity]. destruct (proj1 I1 ltac:(eexists; reflexivity)). lia.
    + rewrite (I2 e eq_refl). split; [|congruence]. split; [intros [out O]; discriminate O|].
      intros [A B]. destruct (proj2 I1 ltac:(lia)) as [out O]. discriminate O.
Qed.

Lemma C82_parts_proof : (forall (x : list R) (j : nat) (v : R), nth_error x j = Some v ->
  Total (map (fun k => WavePart x k j) (seq 0 (List.length x / 2 + 1))) = v)%nat.
Proof.
  intros x j v E. assert (J : (j < length x)%nat) by (apply nth_error_Some; congruence). assert (NZ : INR (length x) <> 0) by (apply INR_nz; lia).
  unfold WavePart.
  rewrite (tot_ext _ (fun k => / INR (length x) * Total (map (fun p => snd p * (share (length x) k * cos (Turn (length x) k j - Turn (length x) k (fst p)))) (combine (seq 0 (length x)) x)))).
  - rewrite tot_scale, tot_swap.
    rewrite (tot_ext _ (fun p => snd p * (if fst p =? j then INR (length x) else 0))).
    + rewrite (pick_place x j v _ E). field. exact NZ.
    + intros [i b] I. apply in_places in I. cbn [fst snd]. rewrite tot_scale. rewrite kernel by tauto. reflexivity.
  - intros k _. fold (share (length x) k). unfold Rdiv. rewrite (Rmult_comm (share _ _)), Rmult_assoc. f_equal. rewrite <- tot_scale. apply tot_ext. intros p _. ring.
Qed.

Lemma C82_contributions_proof : (forall xrft (x : list R), x <> [] -> Nat.Even (List.length x) ->
  exists cols, zonal_wave_contributions xrft x None "scipy" = Ok cols /\ List.length cols = List.length x / 2 + 1 /\
    forall k w col, nth_error cols k = Some (w, col) ->
      w = Z.of_nat k /\ col = map (WavePart x k) (seq 0 (List.length x)))%nat.
Proof.
  intros xrft x N EV. unfold zonal_wave_contributions. rewrite coeffs_all by exact N. cbn [bind]. cbn [String.eqb Ascii.eqb Bool.eqb].
  assert (F : map fst (all_coefs x) = map Z.of_nat (seq 0 (length x / 2 + 1))) by (unfold all_coefs; rewrite map_map; reflexivity). rewrite F.
  assert (M : mapM (fun k => irfft (map (fun p => if Z.eqb (fst p) k then snd p else (0, 0)) (all_coefs x))) (map Z.of_nat (seq 0 (length x / 2 + 1)))
     = Ok (map (fun k => map (WavePart x k) (seq 0 (length x))) (seq 0 (length x / 2 + 1)))).
  { assert (G : forall l, (forall k, In k l -> (k <= length x / 2)%nat) -> mapM (fun k => irfft (map (fun p => if Z.eqb (fst p) k then snd p else (0, 0)) (all_coefs x))) (map Z.of_nat l) = Ok (map (fun k => map (WavePart x k) (seq 0 (length x))) l)).
    { induction l as [|k l IH]; intros H; [reflexivity|]. cbn [map mapM]. rewrite irfft_wave by (auto; apply H; left; reflexivity). cbn [bind].
      rewrite IH by (intros; apply H; right; auto). reflexivity. }
    apply G. intros k I. apply in_seq in I. lia. }
  rewrite M. cbn [bind].
  destruct (map (fun k => map (WavePart x k) (seq 0 (length x))) (seq 0 (length x / 2 + 1))) as [|c0 cs] eqn:E.
  { exfalso. apply (f_equal (@length _)) in E. rewrite map_length, seq_length in E. cbn in E. lia. }
  rewrite <- E. rewrite (proj2 (forallb_forall _ _)).
  2:{ intros col I. apply in_map_iff in I. destruct I as (k & <- & _). rewrite map_length, seq_length. apply Nat.eqb_refl. }
  rewrite combine_seq. eexists. split; [reflexivity|]. split; [rewrite map_length, seq_length; reflexivity|].
  intros k w col K. rewrite nth_error_map in K. destruct (nth_error (seq 0 (length x / 2 + 1)) k) as [k'|] eqn:S; [|discriminate]. cbn in K. injection K as <- <-.
  apply seq_at in S. destruct S. split; reflexivity.
Qed.

Lemma C82_odd_proof : (forall xrft (x : list R), Nat.Odd (List.length x) -> zonal_wave_contributions xrft x None "scipy" = Err ValueError)%nat.
Proof.
  intros xrft x [h E]. assert (N : x <> []) by (intros ->; cbn in E; lia).
  unfold zonal_wave_contributions. rewrite coeffs_all by exact N. cbn [bind]. cbn [String.eqb Ascii.eqb Bool.eqb].
  destruct (mapM _ _) as [recons|e] eqn:M; cbn [bind].
  - destruct recons as [|c cs]; [reflexivity|]. apply mapM_inv in M. destruct (map fst (all_coefs x)) as [|w ws]; [inversion M|]. inversion M as [|? ? ? ? I _]; subst.
    apply irfft_len in I. rewrite map_length in I. unfold all_coefs in I. rewrite map_length, seq_length in I. destruct I as [I _].
    cbn [forallb]. destruct (Nat.eqb_spec (length c) (length x)); [lia|]. reflexivity.
  - f_equal. apply mapM_err in M. destruct M as (k & _ & M). apply irfft_exn in M. tauto.
Qed.

Lemma C82_sum_proof : (forall xrft (x : list R) cols, zonal_wave_contributions xrft x None "scipy" = Ok cols ->
  forall j v, nth_error x j = Some v ->
    exists at_j, Forall2 (fun c y => nth_error (snd c) j = Some y) cols at_j /\ Total at_j = v)%nat.
Proof.
  intros xrft x cols H j v E. assert (N : x <> []) by (intros ->; destruct j; discriminate).
  destruct (Nat.Even_or_Odd (length x)) as [EV|OD]; [|rewrite C82_odd_proof in H by exact OD; discriminate].
  destruct (C82_contributions_proof xrft x N EV) as (cols' & H' & L & C). rewrite H in H'. injection H' as <-.
  exists (map (fun k => WavePart x k j) (seq 0 (length x / 2 + 1))). split; [|apply C82_parts_proof; exact E].
  apply forall2_ext_nth; [rewrite map_length, seq_length; exact L|].
  intros k [w col] y K1 K2. destruct (C k w col K1) as [-> ->]. cbn [snd].
  rewrite nth_error_map in K2. destruct (nth_error (seq 0 (length x / 2 + 1)) k) eqn:S; [|discriminate]. cbn in K2. injection K2 as <-. apply seq_at in S. destruct S.
  rewrite nth_error_map. rewrite seq_there by (apply nth_error_Some; congruence). reflexivity.
Qed.

Lemma C82_total_refuted_proof : (~ forall xrft (x : list R), x <> [] -> exists cols, zonal_wave_contributions xrft x None "scipy" = Ok cols)%nat.
Proof.
  intros H. destruct (H (fun _ => Err NotModelled) [1; 5; 2] ltac:(discriminate)) as [cols C]. rewrite C82_odd_proof in C by (exists 1%nat; reflexivity). discriminate.
Qed.

Lemma C82_selected_proof : (forall xrft (x : list R) (ws : list Z), x <> [] ->
  Forall (fun w => (0 <= w <= Z.of_nat (List.length x / 2))%Z) ws ->
  ((exists cols, zonal_wave_contributions xrft x (Some ws) "scipy" = Ok cols) <->
     List.length x = 2 * (List.length ws - 1)) /\
  (forall e, zonal_wave_contributions xrft x (Some ws) "scipy" = Err e -> e = ValueError))%nat.
Proof.
  intros xrft x ws N F. unfold zonal_wave_contributions. rewrite coeffs_some, mapM_picks by assumption. cbn [bind]. cbn [String.eqb Ascii.eqb Bool.eqb].
  assert (L : map fst (map (fun w => (w, coef x (Z.to_nat w))) ws) = ws) by (rewrite map_map; apply map_id). rewrite L. clear L.
  pose proof (pos_len x N) as P.
  destruct (mapM _ ws) as [recons|e] eqn:M; cbn [bind].
  - apply mapM_inv in M.
    assert (A : Forall (fun col => length col = (2 * (length ws - 1))%nat) recons).
    { apply Forall_forall. intros col I. apply In_nth_error in I. destruct I as [i I]. destruct (forall2_nth_l _ _ _ _ _ M I) as (w & _ & R). apply irfft_len in R.
      rewrite !map_length in R. tauto. }
    destruct recons as [|c cs].
    + split; [|congruence]. inversion M; subst. cbn. split; [intros [? C]; discriminate C|lia].
    + destruct (forallb _ (c :: cs)) eqn:FB.
      * split; [|discriminate]. split; [intros _|eexists; reflexivity]. rewrite forallb_forall in FB. specialize (FB c ltac:(left; reflexivity)). apply Nat.eqb_eq in FB.
        inversion A; subst. congruence.
      * split; [|congruence]. split; [intros [? C]; discriminate C|]. intros E. exfalso. rewrite <- Bool.not_true_iff_false in FB. apply FB. apply forallb_forall.
        intros col I. rewrite Forall_forall in A. apply Nat.eqb_eq. rewrite (A col I). auto.
  - apply mapM_err in M. destruct M as (k & _ & M). apply irfft_exn in M. rewrite !map_length in M. destruct M as [-> M].
    split; [|congruence]. split; [intros [? C]; discriminate C|]. lia.
Qed.

Lemma C82_selected_refuted_proof : (~ forall xrft (x : list R) (ws : list Z), x <> [] -> Nat.Even (List.length x) -> ws <> [] ->
  Forall (fun w => (0 <= w <= Z.of_nat (List.length x / 2))%Z) ws ->
  exists cols, zonal_wave_contributions xrft x (Some ws) "scipy" = Ok cols)%nat.
Proof.
  intros H. assert (F : Forall (fun w => (0 <= w <= Z.of_nat (Datatypes.length [1; 5; 2; 0] / 2))%Z) [1; 2]%Z) by (repeat constructor; cbn; lia).
  pose proof (H (fun _ => Err NotModelled) [1; 5; 2; 0] [1; 2]%Z ltac:(discriminate) ltac:(exists 2%nat; reflexivity) ltac:(discriminate) F) as K.
  apply C82_selected_proof in K; [|discriminate|exact F]. discriminate K.
Qed.

Lemma C82_order_refuted_proof : (~ forall xrft (x : list R) (ws : list Z) cols, x <> [] -> Nat.Even (List.length x) ->
  zonal_wave_contributions xrft x (Some ws) "scipy" = Ok cols ->
  forall w col, In (w, col) cols -> col = map (WavePart x (Z.to_nat w)) (seq 0 (List.length x)))%nat.
Proof.
  intros H.
  assert (F : Forall (fun w => (0 <= w <= Z.of_nat (Datatypes.length [1; 3] / 2))%Z) [1; 0]%Z) by (repeat constructor; cbn; lia).
  destruct (C82_selected_proof (fun _ => Err NotModelled) [1; 3] [1; 0]%Z ltac:(discriminate) F) as [[_ K] _]. destruct (K eq_refl) as [cols C].
  pose proof (H (fun _ => Err NotModelled) [1; 3] [1; 0]%Z cols ltac:(discriminate) ltac:(exists 1%nat; reflexivity) C) as B.
  unfold zonal_wave_contributions in C. rewrite coeffs_some, mapM_picks in C by (exact F || discriminate). cbn [bind] in C. cbn [String.eqb Ascii.eqb Bool.eqb] in C.
  cbn [map fst snd mapM] in C. change (1 =? 1)%Z with true in C. change (0 =? 1)%Z with false in C. change (1 =? 0)%Z with false in C. change (0 =? 0)%Z with true in C. cbv iota in C.
  unfold irfft in C. cbn [Datatypes.length Nat.sub Nat.mul Nat.add Nat.eqb bind seq map combine forallb] in C. cbn [andb] in C. cbv iota in C. injection C as C.
  rewrite <- C in B. specialize (B 1%Z _ ltac:(left; reflexivity)).
  cbn [Datatypes.length seq map] in B. injection B as B1 B2. clear C H K F cols.
  unfold WavePart, Turn in B1, B2. cbn in B1, B2.
  unfold turn in B1, B2. cbn in B1, B2. change (Pos.to_nat 1) with 1%nat in B1, B2. cbn in B1, B2.
  assert (A00 : forall t, 2 * PI * t * 0 / (1 + 1) = 0) by (intros; field). assert (A01 : 2 * PI * 0 * 1 / (1 + 1) = 0) by field.
  assert (A11 : 2 * PI * 1 * 1 / (1 + 1) = PI) by field. rewrite ?A00, ?A01, ?A11 in B1, B2.
  rewrite ?Rminus_0_r, ?Rminus_0_l, ?cos_neg, ?cos_0, ?sin_0, ?cos_PI, ?sin_PI in B1, B2.
  replace (PI - PI) with 0 in B2 by ring. rewrite ?cos_0 in B2. replace (1 + 1) with 2 in B2 by ring. replace (2 * PI * 0 * 1 / 2) with 0 in B2 by field. rewrite cos_0, sin_0 in B2. lra.
Qed.

Lemma C82_exceptions_proof : (forall xrft (x : list R) (ws : list Z) waves pkg,
  (x <> [] -> Exists (fun w => (w < 0 \/ Z.of_nat (List.length x / 2) < w)%Z) ws ->
     zonal_wave_contributions xrft x (Some ws) "scipy" = Err KeyError) /\
  zonal_wave_contributions xrft [] waves "scipy" = Err ValueError /\
  (pkg <> "scipy"%string -> pkg <> "xrft"%string -> zonal_wave_contributions xrft x waves pkg = Err ValueError) /\
  (forall fc, x <> [] -> xrft x = Ok fc -> zonal_wave_contributions xrft x None "xrft" = Err AttributeError) /\
  (forall cols, zonal_wave_contributions xrft x waves "xrft" <> Ok cols))%nat.
Proof.
  intros xrft x ws waves pkg. unfold zonal_wave_contributions. split; [|split; [|split; [|split]]].
  - intros N X. rewrite coeffs_bad by assumption. reflexivity.
  - reflexivity.
  - intros A B. unfold zonal_wave_coeffs. apply String.eqb_neq in A, B. rewrite A, B. reflexivity.
  - intros fc N X. unfold zonal_wave_coeffs. cbn [String.eqb Ascii.eqb Bool.eqb orb]. rewrite X. cbn [bind]. destruct x; [contradiction|]. reflexivity.
  - intros cols. destruct (zonal_wave_coeffs xrft x waves "xrft"); cbn [bind]; [|discriminate]. cbn [String.eqb Ascii.eqb Bool.eqb]. discriminate.
Qed.

Lemma C83_wave_proof : (forall xrft (x : list R) waves rows, zonal_wave_ampl_phase xrft x waves false "scipy" = Ok rows ->
  forall k a phi, In (Z.of_nat k, (a, phi)) rows -> 2 * k < List.length x ->
    (0 <= a)%R /\ (- PI < phi <= PI)%R /\
    forall j, WavePart x k j = (a * cos (Turn (List.length x) k j + phi))%R)%nat.
Proof.
  intros xrft x waves rows H k a phi I K. unfold zonal_wave_ampl_phase in H.
  destruct (zonal_wave_coeffs xrft x waves "scipy") as [fc|] eqn:C; [|discriminate H]. cbn [bind] in H. injection H as <-.
  apply in_map_iff in I. destruct I as ([w z] & E & I). apply coeffs_in in C. destruct C as [N C]. apply C in I.
  injection E as E1 E2 E3. subst w. apply in_coefs in I. destruct I as [-> _].
  assert (P : 0 < INR (length x)) by (apply lt_0_INR; apply pos_len; exact N).
  subst a phi. split; [|split; [apply angle_range|]].
  - apply Rmult_le_pos; [|left; apply Rinv_0_lt_compat; exact P]. apply Rmult_le_pos; [destruct (_ =? _)%Z; lra|apply abs_nonneg].
  - intros j. rewrite part_coef. destruct (polar (coef x k)) as [<- <-]. rewrite cos_plus.
    assert (SH : share (length x) k = if (Z.of_nat k =? 0)%Z then 1 else 2).
    { unfold share. destruct (Nat.eqb_spec (2 * k) (length x)); [lia|]. rewrite Bool.orb_false_r. destruct (Nat.eqb_spec k 0), (Z.eqb_spec (Z.of_nat k) 0); try reflexivity; lia. }
    rewrite SH. destruct (polar (coef x k)) as [-> ->]. destruct (polar (coef x k)) as [P1 P2]. 
    replace ((if (Z.of_nat k =? 0)%Z then 1 else 2) * np_abs (coef x k) / INR (length x) * (cos (Turn (length x) k j) * cos (np_angle (coef x k)) - sin (Turn (length x) k j) * sin (np_angle (coef x k))))
      with ((if (Z.of_nat k =? 0)%Z then 1 else 2) / INR (length x) * (np_abs (coef x k) * cos (np_angle (coef x k)) * cos (Turn (length x) k j) - np_abs (coef x k) * sin (np_angle (coef x k)) * sin (Turn (length x) k j))) by (field; lra).
    rewrite P1, P2. reflexivity.
Qed.

Lemma C83_wave_case_proof : (exists rows a phi, zonal_wave_ampl_phase (fun _ => Err NotModelled) [1; 5; 2]%R (Some [1%Z]) false "scipy" = Ok rows /\
  In (Z.of_nat 1, (a, phi)) rows /\ 2 * 1 < List.length [1; 5; 2]%R)%nat.
Proof.
  destruct (polar (coef [1; 5; 2] 1)) as [_ _].
  unfold zonal_wave_ampl_phase. rewrite coeffs_some by discriminate. rewrite mapM_picks by (repeat constructor; cbn; lia). cbn [bind map].
  eexists _, _, _. split; [reflexivity|]. split; [left; reflexivity|cbn; lia].
Qed.

Lemma C83_shortest_proof : (forall xrft (x : list R) waves rows, zonal_wave_ampl_phase xrft x waves false "scipy" = Ok rows ->
  forall k a phi, In (Z.of_nat k, (a, phi)) rows -> 0 < k -> 2 * k = List.length x ->
    forall j, (2 * WavePart x k j = a * cos (Turn (List.length x) k j + phi))%R)%nat.
Proof.
  intros xrft x waves rows H k a phi I K0 K j. unfold zonal_wave_ampl_phase in H.
  destruct (zonal_wave_coeffs xrft x waves "scipy") as [fc|] eqn:C; [|discriminate H]. cbn [bind] in H. injection H as <-.
  apply in_map_iff in I. destruct I as ([w z] & E & I). apply coeffs_in in C. destruct C as [N C]. apply C in I.
  injection E as E1 E2 E3. subst w. apply in_coefs in I. destruct I as [-> _].
  assert (P : 0 < INR (length x)) by (apply lt_0_INR; apply pos_len; exact N). subst a phi.
  rewrite part_coef. rewrite cos_plus. destruct (polar (coef x k)) as [P1 P2].
  assert (SH : share (length x) k = 1) by (unfold share; rewrite K, Nat.eqb_refl, Bool.orb_true_r; reflexivity). rewrite SH.
  destruct (Z.eqb_spec (Z.of_nat k) 0); [lia|].
  replace (2 * np_abs (coef x k) / INR (length x) * (cos (Turn (length x) k j) * cos (np_angle (coef x k)) - sin (Turn (length x) k j) * sin (np_angle (coef x k))))
      with (2 / INR (length x) * (np_abs (coef x k) * cos (np_angle (coef x k)) * cos (Turn (length x) k j) - np_abs (coef x k) * sin (np_angle (coef x k)) * sin (Turn (length x) k j))) by (field; lra).
  rewrite P1, P2. field. lra.
Qed.

Lemma C83_shortest_refuted_proof : (~ forall xrft (x : list R) waves rows, zonal_wave_ampl_phase xrft x waves false "scipy" = Ok rows ->
  forall k a phi, In (Z.of_nat k, (a, phi)) rows ->
    forall j, WavePart x k j = (a * cos (Turn (List.length x) k j + phi))%R)%nat.
Proof.
  intros H. set (x := [1; 3]).
  assert (Ex : exists rows a phi, zonal_wave_ampl_phase (fun _ => Err NotModelled) x (Some [1%Z]) false "scipy" = Ok rows /\ In (Z.of_nat 1, (a, phi)) rows).
  { unfold zonal_wave_ampl_phase. rewrite coeffs_some by discriminate. rewrite mapM_picks by (repeat constructor; cbn; lia). cbn [bind map].
    eexists _, _, _. split; [reflexivity|]. left. reflexivity. }
  destruct Ex as (rows & a & phi & R & I).
  pose proof (H _ _ _ _ R 1%nat a phi I 0%nat) as A. pose proof (C83_shortest_proof _ _ _ _ R 1%nat a phi I ltac:(lia) eq_refl 0%nat) as B.
  rewrite <- A in B. assert (W : WavePart x 1 0 = -1).
  { unfold WavePart, Turn, x. cbn. replace (2 * PI * 1 * 0 / (1 + 1) - 2 * PI * 1 * 0 / (1 + 1)) with 0 by field.
    replace (2 * PI * 1 * 0 / (1 + 1) - 2 * PI * 1 * 1 / (1 + 1)) with (- PI) by field. rewrite cos_0, cos_neg, cos_PI. field. }
  rewrite W in B. lra.
Qed.

Lemma C83_pure_proof : (forall xrft (n k : nat) (a phi : R) rows, 0 < 2 * k < n -> (0 <= a)%R ->
  zonal_wave_ampl_phase xrft (PureWave n k a phi) None false "scipy" = Ok rows ->
  forall k' a' phi', In (Z.of_nat k', (a', phi')) rows ->
    (k' <> k -> a' = 0%R) /\
    (k' = k -> a' = a /\ ((0 < a)%R -> cos phi' = cos phi /\ sin phi' = sin phi)))%nat.
Proof.
  intros xrft n k a phi rows K A H k' a' phi' I. set (x := PureWave n k a phi) in *.
  assert (LX : length x = n) by (unfold x, PureWave; rewrite map_length, seq_length; reflexivity).
  assert (N : x <> []) by (intros E; rewrite E in LX; cbn in LX; lia).
  unfold zonal_wave_ampl_phase in H. rewrite coeffs_all in H by exact N. cbn [bind] in H. injection H as <-.
  apply in_map_iff in I. destruct I as ([w z] & E & I). injection E as E1 E2 E3. subst w. apply in_coefs in I. destruct I as [-> KL].
  assert (2 * k' <= n)%nat by (pose proof (Nat.div_mod n 2 ltac:(lia)); rewrite LX in KL; lia).
  assert (P : 0 < INR n) by (apply lt_0_INR; lia). rewrite LX in E2.
  pose proof (coef_pure n k k' a phi K H) as CP. fold x in CP. rewrite CP in E2, E3.
  split; intros D.
  - destruct (Nat.eqb_spec k' k); [contradiction|]. rewrite <- E2. unfold np_abs. cbn [fst snd]. rewrite Rmult_0_l, Rplus_0_l, sqrt_0. field. lra.
  - subst k'. rewrite Nat.eqb_refl in E2, E3. destruct (Z.eqb_spec (Z.of_nat k) 0); [lia|].
    assert (AB : np_abs (a * INR n / 2 * cos phi, a * INR n / 2 * sin phi) = a * INR n / 2).
    { unfold np_abs. cbn [fst snd]. pose proof (sin2_cos2 phi) as SC. unfold Rsqr in SC.
      replace (a * INR n / 2 * cos phi * (a * INR n / 2 * cos phi) + a * INR n / 2 * sin phi * (a * INR n / 2 * sin phi)) with ((a * INR n / 2) * (a * INR n / 2) * (sin phi * sin phi + cos phi * cos phi)) by ring.
      rewrite SC, Rmult_1_r. apply sqrt_square. nra. }
    split.
    + rewrite <- E2, AB. field. lra.
    + intros PA. destruct (polar (a * INR n / 2 * cos phi, a * INR n / 2 * sin phi)) as [P1 P2]. rewrite AB, E3 in P1, P2. cbn [fst snd] in P1, P2.
      assert (a * INR n / 2 <> 0) by nra. split; apply (Rmult_eq_reg_l (a * INR n / 2)); assumption.
Qed.

Lemma C83_pure_case_proof : (exists rows, 0 < 2 * 2 < 5 /\ (0 <= 3)%R /\
  zonal_wave_ampl_phase (fun _ => Err NotModelled) (PureWave 5 2 3 (PI / 3)) None false "scipy" = Ok rows)%nat.
Proof.
  eexists. split; [lia|]. split; [lra|]. unfold zonal_wave_ampl_phase. rewrite coeffs_all by discriminate. reflexivity.
Qed.

Lemma C83_rows_proof : (forall xrft (x : list R), x <> [] ->
  (exists rows, zonal_wave_ampl_phase xrft x None false "scipy" = Ok rows /\
     map fst rows = map Z.of_nat (seq 0 (List.length x / 2 + 1)) /\
     forall ws, Forall (fun w => (0 <= w <= Z.of_nat (List.length x / 2))%Z) ws ->
       exists some, zonal_wave_ampl_phase xrft x (Some ws) false "scipy" = Ok some /\ map fst some = ws /\
         forall r, In r some -> In r rows) /\
  forall waves pkg rows, zonal_wave_ampl_phase xrft x waves false pkg = Ok rows ->
    zonal_wave_ampl_phase xrft x waves true pkg = Ok (map (fun '(k, (a, phi)) => (k, (a, phi * 180 / PI)%R)) rows))%nat.
Proof.
  intros xrft x N. split.
  - eexists. split; [unfold zonal_wave_ampl_phase; rewrite coeffs_all by exact N; reflexivity|]. split.
    + unfold all_coefs. rewrite !map_map. reflexivity.
    + intros ws F. eexists. split; [unfold zonal_wave_ampl_phase; rewrite coeffs_some, mapM_picks by assumption; reflexivity|].
      split; [rewrite !map_map; apply map_id|]. intros r I. rewrite map_map in I. apply in_map_iff in I. destruct I as (w & <- & I).
      rewrite Forall_forall in F. specialize (F w I). apply in_map_iff. exists (w, coef x (Z.to_nat w)). split; [reflexivity|].
      unfold all_coefs. apply in_map_iff. exists (Z.to_nat w). split; [f_equal; lia|]. apply in_seq. lia.
  - intros waves pkg rows H. unfold zonal_wave_ampl_phase in *. destruct (zonal_wave_coeffs xrft x waves pkg); [|discriminate H]. cbn [bind] in *.
    injection H as <-. rewrite map_map. f_equal. apply map_ext. intros [k z]. reflexivity.
Qed.

Lemma C83_exceptions_proof : (forall xrft (x : list R) (ws : list Z) waves deg pkg,
  (x <> [] -> Exists (fun w => (w < 0 \/ Z.of_nat (List.length x / 2) < w)%Z) ws ->
     zonal_wave_ampl_phase xrft x (Some ws) deg "scipy" = Err KeyError) /\
  zonal_wave_ampl_phase xrft [] waves deg "scipy" = Err ValueError /\
  (pkg <> "scipy"%string -> pkg <> "xrft"%string -> zonal_wave_ampl_phase xrft x waves deg pkg = Err ValueError))%nat.
Proof.
  intros xrft x ws waves deg pkg. unfold zonal_wave_ampl_phase. split; [|split].
  - intros N X. rewrite coeffs_bad by assumption. reflexivity.
  - reflexivity.
  - intros A B. unfold zonal_wave_coeffs. apply String.eqb_neq in A, B. rewrite A, B. reflexivity.
Qed.

Lemma C83_covariance_refuted_proof : (~ exists (x y : list R) waves pkg cov, zonal_wave_covariance x y waves pkg = Ok cov)%nat.
Proof.
  intros (x & y & waves & pkg & cov & H). discriminate H.
Qed.

