From Verif Require Import PyBase BaseSpec BaseProofs RealBase RealSpec.
From Coq Require Import Reals Qreals.
Ltac qlra := Lqa.lra.
From Coq Require Import Lra.
Ltac rlra := Lra.lra.

Lemma Int_part_spec x : (IZR (Int_part x) <= x /\ x < IZR (Int_part x) + 1)%R.
Proof. destruct (base_Int_part x). split; lra. Qed.

Lemma Int_part_unique x z : (IZR z <= x)%R -> (x < IZR z + 1)%R -> Int_part x = z.
Proof.
  intros H1 H2. destruct (Int_part_spec x) as [A B].
  assert (IZR (Int_part x) < IZR z + 1)%R by lra. assert (IZR z < IZR (Int_part x) + 1)%R by lra.
  rewrite <- plus_IZR in *. apply lt_IZR in H. apply lt_IZR in H0. lia.
Qed.

Lemma Q2R_inject z : Q2R (inject_Z z) = IZR z.
Proof. unfold Q2R, inject_Z. simpl. field. Qed.

Lemma Int_part_Q q : Int_part (Q2R q) = Qfloor q.
Proof.
  apply Int_part_unique.
  - rewrite <- Q2R_inject. apply Qle_Rle. apply Qfloor_le.
  - rewrite <- Q2R_inject. replace 1%R with (Q2R 1) by (unfold Q2R; simpl; field).
    rewrite <- Q2R_plus. apply Qlt_Rlt. rewrite <- (inject_Z_plus _ 1). apply Qlt_floor.
Qed.

Lemma half_R : (/ 2)%R = Q2R (1 # 2).
Proof. unfold Q2R. simpl. field. Qed.

Lemma rhuR_Q q d : round_half_up_R (Q2R q) d = round_half_up q d.
Proof.
  unfold round_half_up_R, round_half_up. f_equal.
  rewrite <- Int_part_Q. f_equal. rewrite Q2R_plus, Q2R_mult, <- half_R.
  f_equal. f_equal. unfold Q2R. simpl. field.
Qed.

Lemma pow10_R d : (0 < IZR (Zpos (pow10 d)))%R.
Proof. apply IZR_lt. lia. Qed.

Lemma rhuR_value x d : Q2R (round_half_up_R x d) = (IZR (Int_part (x * IZR (Zpos (pow10 d)) + / 2)) / IZR (Zpos (pow10 d)))%R.
Proof. reflexivity. Qed.

Lemma half_unit_R d : Q2R (half_unit d) = (/ 2 / IZR (Zpos (pow10 d)))%R.
Proof.
  unfold half_unit. rewrite Q2R_div.
  - rewrite Q2R_inject, pow10_Z, <- half_R. reflexivity.
  - pose proof (pow10_pos d). qlra.
Qed.

Lemma rhuR_nearest x d : NearestR d x (round_half_up_R x d).
Proof.
  pose proof (pow10_R d) as P. split; [|split].
  - unfold MultipleOf, round_half_up_R. exists (Int_part (x * IZR (Z.pos (pow10 d)) + / 2)).
    rewrite <- pow10_Z. rewrite Qmake_div. field. intro K. discriminate.
  - rewrite rhuR_value, half_unit_R. destruct (Int_part_spec (x * IZR (Zpos (pow10 d)) + / 2)) as [A B].
    apply (Rmult_le_reg_r (IZR (Zpos (pow10 d)))); [exact P|].
    field_simplify; try lra.
  - rewrite rhuR_value, half_unit_R. destruct (Int_part_spec (x * IZR (Zpos (pow10 d)) + / 2)) as [A B].
    apply (Rmult_lt_reg_r (IZR (Zpos (pow10 d)))); [exact P|].
    field_simplify; try lra.
Qed.

Lemma Q2R_le x y : (Q2R x <= Q2R y)%R <-> x <= y.
Proof. split; [apply Rle_Qle|apply Qle_Rle]. Qed.
Lemma Q2R_lt x y : (Q2R x < Q2R y)%R <-> x < y.
Proof. split; [apply Rlt_Qlt|apply Qlt_Rlt]. Qed.

Lemma nearestR_Q d v w : NearestR d (Q2R v) w <-> Nearest d v w.
Proof.
  unfold NearestR, Nearest.
  rewrite <- Q2R_plus, <- Q2R_minus, Q2R_le, Q2R_lt. reflexivity.
Qed.

Lemma rhuR_mono x y d : (x <= y)%R -> round_half_up_R x d <= round_half_up_R y d.
Proof.
  intro H. apply Q2R_le. rewrite !rhuR_value.
  pose proof (pow10_R d) as P.
  apply Rmult_le_compat_r; [left; apply Rinv_0_lt_compat; exact P|].
  apply IZR_le.
  destruct (Int_part_spec (x * IZR (Zpos (pow10 d)) + / 2)) as [A B].
  destruct (Int_part_spec (y * IZR (Zpos (pow10 d)) + / 2)) as [C D].
  assert (K : (x * IZR (Zpos (pow10 d)) <= y * IZR (Zpos (pow10 d)))%R) by (apply Rmult_le_compat_r; lra).
  assert (L : (IZR (Int_part (x * IZR (Zpos (pow10 d)) + / 2)) < IZR (Int_part (y * IZR (Zpos (pow10 d)) + / 2)) + 1)%R) by lra.
  rewrite <- plus_IZR in L. apply lt_IZR in L. lia.
Qed.

Lemma rhuR_interval lo hi x d : MultipleOf d lo -> MultipleOf d hi ->
  (Q2R lo <= x <= Q2R hi)%R -> lo <= round_half_up_R x d <= hi.
Proof.
  intros Hl Hh [A B]. split.
  - rewrite <- (rhu_fix lo d Hl). rewrite <- rhuR_Q. apply rhuR_mono; assumption.
  - rewrite <- (rhu_fix hi d Hh). rewrite <- rhuR_Q. apply rhuR_mono; assumption.
Qed.

Lemma Q2R_eq x y : x == y -> Q2R x = Q2R y.
Proof. apply Qeq_eqR. Qed.
Lemma Q2R_0 : Q2R 0 = 0%R. Proof. unfold Q2R; simpl; field. Qed.
Lemma Q2R_1 : Q2R 1 = 1%R. Proof. unfold Q2R; simpl; field. Qed.
Lemma Q2R_m1 : Q2R (-1) = (-1)%R. Proof. unfold Q2R; simpl; field. Qed.

Lemma Qlt_bool_iff a b : Qlt_bool a b = true <-> a < b.
Proof.
  unfold Qlt_bool. rewrite negb_true_iff. rewrite <- not_true_iff_false, Qle_bool_iff.
  split; intro H; [apply Qnot_le_lt|apply Qlt_not_le]; assumption.
Qed.
Lemma Qlt_bool_false a b : Qlt_bool a b = false <-> b <= a.
Proof.
  unfold Qlt_bool. rewrite negb_false_iff. apply Qle_bool_iff.
Qed.
