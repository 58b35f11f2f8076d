(** Proofs about the significance classes of the scorecard. *)
From Verif Require Import PyBase ColumnModel BaseSpec BaseProofs AggSpec AggProofs MomentProofs RealProofs
  Sl1l2Spec Sl1l2Proofs EventModel EventProofs UtilModel UtilSpec UtilProofs TostModel TostSpec TostProofs SeriesModel SeriesSpec SeriesProofs ScoreModel ScoreSpec.
From Coq Require Import Reals Qreals Qabs Lra.
From Coq Require Import List.
Open Scope string_scope.
Open Scope Q_scope.

(* ---------- rounding to even ---------- *)
Lemma even_of_even f : Z.even (even_of f) = true.
Proof.
  unfold even_of. destruct (Z.even f) eqn:E; [assumption|].
  rewrite Z.add_1_r, Z.even_succ, <- Z.negb_even, E. reflexivity.
Qed.
Lemma even_of_or f : even_of f = f \/ even_of f = (f + 1)%Z.
Proof. unfold even_of. destruct (Z.even f); tauto. Qed.

Lemma round_even_R_spec d v : RoundedEven d v (round_even_R d v).
Proof.
  unfold round_even_R, RoundedEven. rewrite <- pow10_Z. set (s := (v * IZR (Zpos (pow10 d)))%R).
  destruct (base_Int_part s) as (A & B). set (f := Int_part s) in *.
  set (r := (s - IZR f)%R). assert (D : (0 <= r < 1)%R) by (unfold r; rlra).
  assert (M : forall k, (k # pow10 d) * inject_Z (Zpos (pow10 d)) == inject_Z k).
  { intro k. unfold Qeq, Qmult, inject_Z. cbn [Qnum Qden]. rewrite !Pos.mul_1_r, !Z.mul_1_r. reflexivity. }
  assert (E1 : (s - IZR (f + 1) = r - 1)%R) by (unfold r; rewrite plus_IZR; ring).
  destruct (Rlt_dec r (/ 2)) as [L|L].
  { exists f. split; [apply M|]. fold r. rewrite Rabs_right by rlra. split; [rlra|]. intro E. rlra. }
  destruct (Rlt_dec (/ 2) r) as [G|G].
  { exists (f + 1)%Z. split; [apply M|]. rewrite E1, Rabs_left by rlra. split; [rlra|]. intro E. rlra. }
  exists (even_of f). split; [apply M|].
  destruct (even_of_or f) as [Ef|Ef]; split; try (intros _; apply even_of_even); rewrite Ef.
  - fold r. rewrite Rabs_right by rlra. rlra.
  - rewrite E1, Rabs_left by rlra. rlra.
Qed.

Lemma round_even_R_Q d q : round_even_R d (Q2R q) = round_even d q.
Proof.
  unfold round_even_R, round_even. set (s := q * (Zpos (pow10 d) # 1)).
  assert (E : (Q2R q * IZR (Zpos (pow10 d)))%R = Q2R s).
  { unfold s. rewrite Q2R_mult. f_equal. unfold Q2R. simpl. field. }
  rewrite E, Int_part_Q. set (f := Qfloor s).
  assert (E2 : (Q2R s - IZR f)%R = Q2R (s - inject_Z f)) by (rewrite Q2R_minus, Q2R_inject; reflexivity).
  rewrite E2. f_equal. rewrite half_R.
  assert (L : forall a b, (if Rlt_dec (Q2R a) (Q2R b) then true else false) = Qlt_bool a b).
  { intros a b. destruct (Rlt_dec (Q2R a) (Q2R b)) as [H|H]; symmetry.
    - apply Qlt_bool_iff. apply Q2R_lt. assumption.
    - apply not_true_iff_false. intro C. apply Qlt_bool_iff in C. apply H. apply Q2R_lt. assumption. }
  rewrite <- (L (s - inject_Z f) (1 # 2)), <- (L (1 # 2) (s - inject_Z f)).
  destruct (Rlt_dec (Q2R (s - inject_Z f)) (Q2R (1 # 2))); [reflexivity|].
  destruct (Rlt_dec (Q2R (1 # 2)) (Q2R (s - inject_Z f))); reflexivity.
Qed.
Lemma round_even_spec d q : RoundedEven d (Q2R q) (round_even d q).
Proof. rewrite <- round_even_R_Q. apply round_even_R_spec. Qed.

Lemma rounded_unique d v w w' : RoundedEven d v w -> RoundedEven d v w' -> w == w'.
Proof.
  intros (k & E & A & B) (k' & E' & A' & B').
  assert (K : k = k').
  { set (s := (v * IZR (10 ^ Z.of_nat d))%R) in *.
    assert (C : (Rabs (IZR k - IZR k') <= 1)%R).
    { replace (IZR k - IZR k')%R with ((s - IZR k') - (s - IZR k))%R by ring.
      eapply Rle_trans; [apply Rabs_triang|]. rewrite Rabs_Ropp. rlra. }
    destruct (Z.eq_dec k k') as [|N]; [assumption|]. exfalso.
    assert (K2 : (k - k' = 1 \/ k - k' = -1)%Z).
    { rewrite <- minus_IZR, <- abs_IZR in C. apply le_IZR in C. lia. }
    assert (H : (Rabs (s - IZR k) = / 2 /\ Rabs (s - IZR k') = / 2)%R).
    { assert (D : (1 <= Rabs (s - IZR k) + Rabs (s - IZR k'))%R).
      { rewrite (Rabs_minus_sym s (IZR k)). eapply Rle_trans; [|apply Rabs_triang].
        replace (IZR k - s + (s - IZR k'))%R with (IZR k - IZR k')%R by ring. rewrite <- minus_IZR, <- abs_IZR.
        apply IZR_le. lia. }
      rlra. }
    destruct H as [H H']. apply B in H. apply B' in H'.
    destruct K2 as [K2|K2].
    - replace k with (Z.succ k') in H by lia. rewrite Z.even_succ, <- Z.negb_even, H' in H. discriminate H.
    - replace k' with (Z.succ k) in H' by lia. rewrite Z.even_succ, <- Z.negb_even, H in H'. discriminate H'. }
  subst k'. pose proof (pow10_pos d) as P.
  apply (Qmult_inj_r _ _ (inject_Z (10 ^ Z.of_nat d))); [qlra|]. rewrite E, E'. reflexivity.
Qed.
Lemma rounded_compat d v w w' : w == w' -> RoundedEven d v w -> RoundedEven d v w'.
Proof. intros H (k & E & A). exists k. split; [rewrite <- H; assumption|assumption]. Qed.
Lemma rounded_opp d v w : RoundedEven d v w -> RoundedEven d (- v) (- w).
Proof.
  intros (k & E & A & B). exists (- k)%Z. rewrite inject_Z_opp, <- E. split; [ring|].
  rewrite opp_IZR, Ropp_mult_distr_l_reverse.
  replace (- (v * IZR (10 ^ Z.of_nat d)) - - IZR k)%R with (- (v * IZR (10 ^ Z.of_nat d) - IZR k))%R by ring.
  rewrite Rabs_Ropp. split; [assumption|]. intro H. rewrite Z.even_opp. auto.
Qed.
Lemma rounded_0 d : RoundedEven d 0 0.
Proof.
  exists 0%Z. split; [unfold inject_Z; ring|]. rewrite Rmult_0_l, Rminus_0_r, Rabs_R0. split; [rlra|]. reflexivity.
Qed.
Lemma rounded_nonneg d v w : RoundedEven d v w -> (0 <= v)%R -> 0 <= w.
Proof.
  intros (k & E & A & B) H. pose proof (pow10_pos d) as P. pose proof (pow10_R d) as PR. rewrite pow10_Z in PR.
  assert (K : (0 <= k)%Z).
  { apply Z.lt_succ_r, lt_IZR. unfold Z.succ. rewrite plus_IZR.
    assert (0 <= v * IZR (10 ^ Z.of_nat d))%R by (apply Rmult_le_pos; rlra).

    unfold Rabs in A. destruct (Rcase_abs _) in A; rlra. }
  destruct (Qlt_le_dec w 0) as [C|C]; [|assumption]. exfalso.
  assert (L : w * inject_Z (10 ^ Z.of_nat d) < 0).
  { setoid_replace 0 with (0 * inject_Z (10 ^ Z.of_nat d)) by ring. apply Qmult_lt_r; assumption. }
  rewrite E in L. change 0 with (inject_Z 0) in L. rewrite <- Zlt_Qlt in L. lia.
Qed.

(* ---------- comparing rounded values with an even number of thousandths ---------- *)
Lemma round_k x : exists k : Z, round_even 3 x == k # 1000 /\
  forall m, Z.even m = true ->
    ((m <= k)%Z <-> inject_Z m - (1 # 2) <= x * 1000) /\ ((k <= m)%Z <-> x * 1000 <= inject_Z m + (1 # 2)).
Proof.
  unfold round_even. change (Zpos (pow10 3) # 1) with (1000 # 1). change (pow10 3) with 1000%positive.
  set (s := x * (1000 # 1)). pose proof (Qfloor_le s) as L. pose proof (Qlt_floor s) as U.
  set (f := Qfloor s) in *. rewrite inject_Z_plus in U. change (inject_Z 1) with 1 in U.
  assert (Zl : forall a b, (a <= b)%Z <-> inject_Z a <= inject_Z b) by (intros; rewrite <- Zle_Qle; reflexivity).
  eexists. split; [reflexivity|]. intros m Hm.
  change (x * 1000) with s.
  assert (C : forall a b : Z, (a <= b)%Z \/ (b + 1 <= a)%Z) by (intros; lia).
  destruct (Qlt_bool (s - inject_Z f) (1 # 2)) eqn:E1.
  - apply Qlt_bool_iff in E1. split; split; intro H.
    + apply Zl in H. qlra.
    + destruct (C m f) as [|D]; [assumption|]. apply Zl in D. rewrite inject_Z_plus in D. change (inject_Z 1) with 1 in D. qlra.
    + apply Zl in H. qlra.
    + destruct (C f m) as [|D]; [assumption|]. apply Zl in D. rewrite inject_Z_plus in D. change (inject_Z 1) with 1 in D. qlra.
  - apply Qlt_bool_false in E1. destruct (Qlt_bool (1 # 2) (s - inject_Z f)) eqn:E2.
    + apply Qlt_bool_iff in E2. split; split; intro H.
      * apply Zl in H. rewrite inject_Z_plus in H. change (inject_Z 1) with 1 in H. qlra.
      * destruct (C m (f + 1)%Z) as [|D]; [assumption|]. apply Zl in D. rewrite !inject_Z_plus in D. change (inject_Z 1) with 1 in D. qlra.
      * apply Zl in H. rewrite inject_Z_plus in H. change (inject_Z 1) with 1 in H. qlra.
      * destruct (C (f + 1)%Z m) as [|D]; [assumption|]. assert (D' : (m <= f)%Z) by lia. apply Zl in D'. qlra.
    + apply Qlt_bool_false in E2. pose proof (even_of_even f) as Ev. split; split; intro H.
      * destruct (even_of_or f) as [F|F]; rewrite F in H; apply Zl in H; rewrite ?inject_Z_plus in H; change (inject_Z 1) with 1 in H; qlra.
      * destruct (C m (even_of f)) as [|D]; [assumption|]. exfalso.
        assert (D' : (even_of f + 2 <= m)%Z).
        { destruct (Z.eq_dec m (even_of f + 1)) as [->|]; [|lia]. rewrite Z.add_1_r, Z.even_succ, <- Z.negb_even, Ev in Hm. discriminate Hm. }
        destruct (even_of_or f) as [F|F]; rewrite F in D'; apply Zl in D'; rewrite ?inject_Z_plus in D'; change (inject_Z 1) with 1 in D'; change (inject_Z 2) with 2 in D'; qlra.
      * destruct (even_of_or f) as [F|F]; rewrite F in H; apply Zl in H; rewrite ?inject_Z_plus in H; change (inject_Z 1) with 1 in H; qlra.
      * destruct (C (even_of f) m) as [|D]; [assumption|]. exfalso.
        assert (D' : (m + 2 <= even_of f)%Z).
        { destruct (Z.eq_dec (even_of f) (m + 1)) as [Q1|]; [|lia]. rewrite Q1, Z.add_1_r, Z.even_succ, <- Z.negb_even, Hm in Ev. discriminate Ev. }
        destruct (even_of_or f) as [F|F]; rewrite F in D'; apply Zl in D'; rewrite ?inject_Z_plus in D'; change (inject_Z 1) with 1 in D'; change (inject_Z 2) with 2 in D'; qlra.
Qed.
Lemma thousandth m k : (m # 1000 <= k # 1000 <-> (m <= k)%Z).
Proof. unfold Qle. cbn [Qnum Qden]. lia. Qed.
Lemma round_ge m x : Z.even m = true -> (m # 1000 <= round_even 3 x <-> inject_Z m - (1 # 2) <= x * 1000).
Proof. intro H. destruct (round_k x) as (k & E & K). rewrite E, thousandth. apply K. assumption. Qed.
Lemma round_le m x : Z.even m = true -> (round_even 3 x <= m # 1000 <-> x * 1000 <= inject_Z m + (1 # 2)).
Proof. intro H. destruct (round_k x) as (k & E & K). rewrite E, thousandth. apply K. assumption. Qed.

(* ---------- the classes ---------- *)
Lemma ge1 x : 1 <= round_even 3 x <-> 9995 # 10000 <= x.
Proof.
  change 1 with (1000 # 1000) at 1 || idtac.
  pose proof (round_ge 1000 x eq_refl) as H. change (inject_Z 1000) with 1000 in H.
  setoid_replace 1 with (1000 # 1000) by reflexivity. rewrite H. split; intro; qlra.
Qed.
Lemma lem1 x : round_even 3 x <= -1 <-> x <= - (9995 # 10000).
Proof.
  pose proof (round_le (-1000) x eq_refl) as H. change (inject_Z (-1000)) with (-1000) in H.
  setoid_replace (-1) with (-1000 # 1000) by reflexivity. rewrite H. split; intro; qlra.
Qed.
Lemma lem100 x : round_even 3 x <= -100 <-> x <= - (100 - (5 # 10000)).
Proof.
  pose proof (round_le (-100000) x eq_refl) as H. change (inject_Z (-100000)) with (-100000) in H.
  setoid_replace (-100) with (-100000 # 1000) by reflexivity. rewrite H. split; intro; qlra.
Qed.
Lemma gem100 x : -100 <= round_even 3 x <-> - (100 + (5 # 10000)) <= x.
Proof.
  pose proof (round_ge (-100000) x eq_refl) as H. change (inject_Z (-100000)) with (-100000) in H.
  setoid_replace (-100) with (-100000 # 1000) by reflexivity. rewrite H. split; intro; qlra.
Qed.
Ltac toprop :=
  repeat match goal with
  | H : Qle_bool _ _ = true |- _ => apply Qle_bool_iff in H
  | H : Qle_bool ?a ?b = false |- _ =>
      let K := fresh in assert (K : b < a) by (apply Qnot_le_lt; intro K; apply Qle_bool_iff in K; congruence); clear H
  | H : Qlt_bool _ _ = true |- _ => apply Qlt_bool_iff in H
  | H : Qlt_bool _ _ = false |- _ => apply Qlt_bool_false in H
  end.
Lemma lt_iff (a b : Q) : a < b <-> ~ b <= a.
Proof. split; intro H; [qlra|]. apply Qnot_le_lt. assumption. Qed.

(** The chain of comparisons on the three quotients. *)
Lemma chain (s x y : Q) :
  0 <= s /\ 0 <= y /\ y <= x /\ x <= s * (8 # 10) \/ s <= 0 /\ y <= 0 /\ x <= y /\ s * (8 # 10) <= x ->
  let ds99 := round_even 3 x in
  let ds999 := round_even 3 y in
  (if Qle_bool 1 ds999 then Some 1
   else if Qlt_bool ds999 1 && Qle_bool 1 ds99 then Some (99 # 100)
   else if Qlt_bool ds99 1 && Qle_bool 1 s then Some (95 # 100)
   else if Qlt_bool (-1) s && Qlt_bool s 1 then Some 0
   else if Qle_bool s (-1) && Qlt_bool (-1) ds99 then Some (- (95 # 100))
   else if Qle_bool ds99 (-1) && Qlt_bool (-1) ds999 then Some (- (99 # 100))
   else if Qle_bool ds999 (-1) && Qlt_bool (-100) ds999 then Some (-1)
   else if Qlt_bool ds999 (-100) then Some (-1)
   else None) =
  (if Qlt_le_dec s 0 then
     if Qlt_le_dec (- s) 1 then Some 0
     else if Qlt_le_dec (- x) (9995 # 10000) then Some (- (95 # 100))
     else if Qlt_le_dec (- y) (9995 # 10000) then Some (- (99 # 100))
     else if Qlt_le_dec (- (100 - (5 # 10000))) y then Some (-1)
     else if Qlt_le_dec y (- (100 + (5 # 10000))) then Some (-1)
     else None
   else
     if Qlt_le_dec s 1 then Some 0
     else if Qlt_le_dec x (9995 # 10000) then Some (95 # 100)
     else if Qlt_le_dec y (9995 # 10000) then Some (99 # 100)
     else Some 1).
Proof.
  intros H ds99 ds999.
  pose proof (ge1 x) as G1. pose proof (ge1 y) as G2. pose proof (lem1 x) as L1. pose proof (lem1 y) as L2.
  pose proof (lem100 y) as L3. pose proof (gem100 y) as L4. fold ds99 in G1, L1. fold ds999 in G2, L2, L3, L4.
  clearbody ds99 ds999.
  assert (Q1 : Qle_bool 1 ds999 = true <-> 9995 # 10000 <= y) by (rewrite Qle_bool_iff; assumption).
  assert (Q2 : Qlt_bool ds999 1 = true <-> y < 9995 # 10000) by (rewrite Qlt_bool_iff, !lt_iff, G2; tauto).
  assert (Q3 : Qle_bool 1 ds99 = true <-> 9995 # 10000 <= x) by (rewrite Qle_bool_iff; assumption).
  assert (Q4 : Qlt_bool ds99 1 = true <-> x < 9995 # 10000) by (rewrite Qlt_bool_iff, !lt_iff, G1; tauto).
  assert (Q5 : Qlt_bool (-1) ds99 = true <-> - (9995 # 10000) < x) by (rewrite Qlt_bool_iff, !lt_iff, L1; tauto).
  assert (Q6 : Qle_bool ds99 (-1) = true <-> x <= - (9995 # 10000)) by (rewrite Qle_bool_iff; assumption).
  assert (Q7 : Qlt_bool (-1) ds999 = true <-> - (9995 # 10000) < y) by (rewrite Qlt_bool_iff, !lt_iff, L2; tauto).
  assert (Q8 : Qle_bool ds999 (-1) = true <-> y <= - (9995 # 10000)) by (rewrite Qle_bool_iff; assumption).
  assert (Q9 : Qlt_bool (-100) ds999 = true <-> - (100 - (5 # 10000)) < y) by (rewrite Qlt_bool_iff, !lt_iff, L3; tauto).
  assert (Q10 : Qlt_bool ds999 (-100) = true <-> y < - (100 + (5 # 10000))) by (rewrite Qlt_bool_iff, !lt_iff, L4; tauto).
  assert (Q11 : Qle_bool 1 s = true <-> 1 <= s) by apply Qle_bool_iff.
  assert (Q12 : Qlt_bool (-1) s = true <-> -1 < s) by apply Qlt_bool_iff.
  assert (Q13 : Qlt_bool s 1 = true <-> s < 1) by apply Qlt_bool_iff.
  assert (Q14 : Qle_bool s (-1) = true <-> s <= -1) by apply Qle_bool_iff.
  clear G1 G2 L1 L2 L3 L4.
  assert (T : forall (b : bool) P, (b = true <-> P) -> {b = true /\ P} + {b = false /\ ~ P}).
  { intros b P K. destruct b; [left|right]; split; try reflexivity; [tauto|]. intro C. apply K in C. discriminate C. }
  apply T in Q1, Q2, Q3, Q4, Q5, Q6, Q7, Q8, Q9, Q10, Q11, Q12, Q13, Q14.
  Ltac one Hq := let E := fresh "E" in let K := fresh "K" in
    destruct Hq as [[E K]|[E K]]; rewrite E; cbn [andb].
  repeat (match goal with |- context [Qlt_le_dec ?a ?b] => destruct (Qlt_le_dec a b) end); try (exfalso; qlra);
  one Q1; try (exfalso; qlra); try reflexivity;
  one Q2; try (exfalso; qlra); try reflexivity;
  one Q3; try (exfalso; qlra); try reflexivity;
  one Q4; try (exfalso; qlra); try reflexivity;
  one Q11; try (exfalso; qlra); try reflexivity;
  one Q12; try (exfalso; qlra); try reflexivity;
  try (one Q13; try (exfalso; qlra); try reflexivity);
  try (one Q14; try (exfalso; qlra); try reflexivity);
  try (one Q5; try (exfalso; qlra); try reflexivity);
  try (one Q6; try (exfalso; qlra); try reflexivity);
  try (one Q7; try (exfalso; qlra); try reflexivity);
  try (one Q8; try (exfalso; qlra); try reflexivity);
  try (one Q9; try (exfalso; qlra); try reflexivity);
  try (one Q10; try (exfalso; qlra); try reflexivity).
Qed.

Definition level_of (s x y : Q) : Q :=
  if Qlt_le_dec s 1 then 0
  else if Qlt_le_dec x (9995 # 10000) then 95 # 100
  else if Qlt_le_dec y (9995 # 10000) then 99 # 100
  else 1.
Lemma level_of_compat s x y s' x' y' : s == s' -> x == x' -> y == y' -> level_of s x y = level_of s' x' y'.
Proof.
  intros E1 E2 E3. unfold level_of.
  repeat (match goal with |- context [Qlt_le_dec ?a ?b] => destruct (Qlt_le_dec a b) end); try reflexivity; exfalso; qlra.
Qed.
(** A description of the levels by two positive factors. *)
Lemma factors ndays : exists k2 k3, 0 < k3 /\ k3 < k2 /\ k2 <= 8 # 10 /\
  (forall s, level ndays s = level_of s (s * k2) (s * k3)) /\
  (forall s, hole ndays s <-> - (100 + (5 # 10000)) <= s * k3 <= - (100 - (5 # 10000))) /\
  (forall s, emc_class ndays s =
     let ds99 := round_even 3 (s * k2) in
     let ds999 := round_even 3 (s * k3) in
  (if Qle_bool 1 ds999 then Some 1
   else if Qlt_bool ds999 1 && Qle_bool 1 ds99 then Some (99 # 100)
   else if Qlt_bool ds99 1 && Qle_bool 1 s then Some (95 # 100)
   else if Qlt_bool (-1) s && Qlt_bool s 1 then Some 0
   else if Qle_bool s (-1) && Qlt_bool (-1) ds99 then Some (- (95 # 100))
   else if Qle_bool ds99 (-1) && Qlt_bool (-1) ds999 then Some (- (99 # 100))
   else if Qle_bool ds999 (-1) && Qlt_bool (-100) ds999 then Some (-1)
   else if Qlt_bool ds999 (-100) then Some (-1)
   else None)).
Proof.
  assert (RC : forall a b, a == b -> round_even 3 a = round_even 3 b).
  { intros a b E. rewrite <- !round_even_R_Q. rewrite (Q2R_eq _ _ E). reflexivity. }
  assert (K : forall a b c a' b' c', (a == a' /\ b == b' /\ c == c') ->
    0 < a / c -> a / c < a / b -> a / b <= 8 # 10 -> ~ b == 0 -> ~ c == 0 ->
    alphas ndays = (a, b, c) -> critical ndays = (a', b', c') ->
    exists k2 k3, 0 < k3 /\ k3 < k2 /\ k2 <= 8 # 10 /\
  (forall s, level ndays s = level_of s (s * k2) (s * k3)) /\
  (forall s, hole ndays s <-> - (100 + (5 # 10000)) <= s * k3 <= - (100 - (5 # 10000))) /\
  (forall s, emc_class ndays s =
     let ds99 := round_even 3 (s * k2) in
     let ds999 := round_even 3 (s * k3) in
  (if Qle_bool 1 ds999 then Some 1
   else if Qlt_bool ds999 1 && Qle_bool 1 ds99 then Some (99 # 100)
   else if Qlt_bool ds99 1 && Qle_bool 1 s then Some (95 # 100)
   else if Qlt_bool (-1) s && Qlt_bool s 1 then Some 0
   else if Qle_bool s (-1) && Qlt_bool (-1) ds99 then Some (- (95 # 100))
   else if Qle_bool ds99 (-1) && Qlt_bool (-1) ds999 then Some (- (99 # 100))
   else if Qle_bool ds999 (-1) && Qlt_bool (-100) ds999 then Some (-1)
   else if Qlt_bool ds999 (-100) then Some (-1)
   else None))).
  { intros a b c a' b' c' (Ea & Eb & Ec) H1 H2 H3 Nb Nc A C. exists (a / b), (a / c).
    split; [assumption|]. split; [assumption|]. split; [assumption|]. split; [|split].
    - intro s. unfold level. rewrite C. apply level_of_compat; [reflexivity|rewrite <- Ea, <- Eb|rewrite <- Ea, <- Ec]; unfold Qdiv; ring.
    - intro s. unfold hole. rewrite C.
      assert (E : s * a' / c' == s * (a / c)) by (rewrite <- Ea, <- Ec; unfold Qdiv; ring).
      rewrite E. reflexivity.
    - intro s. unfold emc_class. rewrite A. cbv zeta.
      rewrite (RC (s * a / b) (s * (a / b))) by (unfold Qdiv; ring).
      rewrite (RC (s * a / c) (s * (a / c))) by (unfold Qdiv; ring). reflexivity. }
  unfold alphas, critical in *.
  destruct (Z_lt_dec ndays 20); [|destruct (Z_lt_dec ndays 40); [|destruct (Z_lt_dec ndays 80)]].
  - rewrite (proj2 (Z.leb_gt 80 ndays)), (proj2 (Z.leb_gt 40 ndays)), (proj2 (Z.leb_gt 20 ndays)) in K by lia. cbn [andb] in K.
    eapply K; [..|reflexivity|reflexivity]; [split; [|split]; reflexivity|..]; try reflexivity; try (unfold Qeq; cbn; lia); try (unfold Qle; cbn; lia).
  - rewrite (proj2 (Z.leb_gt 80 ndays)), (proj2 (Z.leb_gt 40 ndays)), (proj2 (Z.leb_le 20 ndays)), (proj2 (Z.ltb_lt ndays 40)) in K by lia. cbn [andb] in K.
    eapply K; [..|reflexivity|reflexivity]; [split; [|split]; reflexivity|..]; try reflexivity; try (unfold Qeq; cbn; lia); try (unfold Qle; cbn; lia).
  - rewrite (proj2 (Z.leb_gt 80 ndays)), (proj2 (Z.leb_le 40 ndays)), (proj2 (Z.ltb_lt ndays 80)) in K by lia. cbn [andb] in K.
    eapply K; [..|reflexivity|reflexivity]; [split; [|split]; reflexivity|..]; try reflexivity; try (unfold Qeq; cbn; lia); try (unfold Qle; cbn; lia).
  - rewrite (proj2 (Z.leb_le 80 ndays)) in K by lia. cbn [andb] in K.
    eapply K; [..|reflexivity|reflexivity]; [split; [|split]; reflexivity|..]; try reflexivity; try (unfold Qeq; cbn; lia); try (unfold Qle; cbn; lia).
Qed.

Lemma emc_class_spec ndays s :
  (hole ndays s -> emc_class ndays s = None) /\
  (~ hole ndays s -> exists c, emc_class ndays s = Some c /\ c == signed_level ndays s).
Proof.
  destruct (factors ndays) as (k2 & k3 & P3 & P23 & P2 & L & Hh & E).
  rewrite Hh, E. unfold signed_level. rewrite !L.
  assert (F : forall k, - s * k == - (s * k)) by (intro; ring).
  assert (D : 0 <= s /\ 0 <= s * k3 /\ s * k3 <= s * k2 /\ s * k2 <= s * (8 # 10) \/
              s <= 0 /\ s * k3 <= 0 /\ s * k2 <= s * k3 /\ s * (8 # 10) <= s * k2).
  { assert (MM : forall u v, 0 <= u -> 0 <= v -> 0 <= u * v) by (intros; apply Qmult_le_0_compat; assumption).
    destruct (Qlt_le_dec s 0) as [C|C]; [right|left].
    - pose proof (MM (- s) k3). pose proof (MM (- s) (k2 - k3)). pose proof (MM (- s) ((8 # 10) - k2)).
      assert (0 <= - s * k3) by (apply MM; qlra). assert (0 <= - s * (k2 - k3)) by (apply MM; qlra).
      assert (0 <= - s * ((8 # 10) - k2)) by (apply MM; qlra). repeat split; qlra.
    - assert (0 <= s * k3) by (apply MM; qlra). assert (0 <= s * (k2 - k3)) by (apply MM; qlra).
      assert (0 <= s * ((8 # 10) - k2)) by (apply MM; qlra). repeat split; qlra. }
  rewrite (chain s (s * k2) (s * k3) D).
  pose proof (F k2) as F2. pose proof (F k3) as F3. clear F.
  set (x := s * k2) in *. set (y := s * k3) in *. set (x' := - s * k2) in *. set (y' := - s * k3) in *. clearbody x y x' y'.
  unfold level_of.
  split; intro Hyp.
  - repeat (match goal with |- context [Qlt_le_dec ?a ?b] => destruct (Qlt_le_dec a b) end); try reflexivity; exfalso; qlra.
  - repeat (match goal with |- context [Qlt_le_dec ?a ?b] => destruct (Qlt_le_dec a b) end);
      try (eexists; split; [reflexivity|reflexivity]); exfalso; try (apply Hyp; split; qlra); qlra.
Qed.

Lemma signed_level_odd ndays s : signed_level ndays (- s) == - signed_level ndays s.
Proof.
  destruct (factors ndays) as (k2 & k3 & P3 & P23 & P2 & L & Hh & E). unfold signed_level. rewrite !L.
  destruct (Qlt_le_dec s 0) as [A|A], (Qlt_le_dec (- s) 0) as [B|B]; try (exfalso; qlra).
  - ring.
  - rewrite (level_of_compat (- - s) (- - s * k2) (- - s * k3) s (s * k2) (s * k3)); ring.
  - assert (Z0 : s == 0) by qlra.
    unfold level_of. repeat (match goal with |- context [Qlt_le_dec ?a ?b] => destruct (Qlt_le_dec a b) end); try reflexivity; exfalso; qlra.
Qed.
Lemma signed_level_compat ndays s s' : s == s' -> signed_level ndays s = signed_level ndays s'.
Proof.
  intro H. destruct (factors ndays) as (k2 & k3 & P3 & P23 & P2 & L & Hh & E). unfold signed_level. rewrite !L.
  destruct (Qlt_le_dec s 0) as [A|A], (Qlt_le_dec s' 0) as [B|B]; try (exfalso; qlra).
  - f_equal. apply level_of_compat; rewrite H; reflexivity.
  - apply level_of_compat; rewrite H; reflexivity.
Qed.
Lemma level_cases ndays s : In (level ndays s) [1; 99 # 100; 95 # 100; 0].
Proof.
  destruct (factors ndays) as (k2 & k3 & P3 & P23 & P2 & L & Hh & E). rewrite L. unfold level_of.
  repeat (match goal with |- context [Qlt_le_dec ?a ?b] => destruct (Qlt_le_dec a b) end); cbn [In]; tauto.
Qed.
Lemma level_mono ndays s s' : s <= s' -> level ndays s <= level ndays s'.
Proof.
  intro H. destruct (factors ndays) as (k2 & k3 & P3 & P23 & P2 & L & Hh & E). rewrite !L.
  assert (A : s * k2 <= s' * k2) by (apply Qmult_le_r; [qlra|assumption]).
  assert (B : s * k3 <= s' * k3) by (apply Qmult_le_r; [qlra|assumption]).
  unfold level_of.
  repeat (match goal with |- context [Qlt_le_dec ?a ?b] => destruct (Qlt_le_dec a b) end); try qlra.
Qed.
Lemma level_nonneg ndays s : 0 <= level ndays s.
Proof. pose proof (level_cases ndays s) as H. cbn [In] in H. repeat destruct H as [H|H]; try (rewrite <- H; qlra). destruct H. Qed.
Lemma signed_mono ndays s s' : s <= s' -> signed_level ndays s <= signed_level ndays s'.
Proof.
  intro H. unfold signed_level. pose proof (level_nonneg ndays s'). pose proof (level_nonneg ndays (- s)).
  destruct (Qlt_le_dec s 0) as [A|A], (Qlt_le_dec s' 0) as [B|B].
  - assert (L : level ndays (- s') <= level ndays (- s)) by (apply level_mono; qlra). qlra.
  - qlra.
  - qlra.
  - apply level_mono. assumption.
Qed.
Lemma signed_cases ndays s :
  In (signed_level ndays s) [1; 99 # 100; 95 # 100; 0] \/ In (- signed_level ndays s) [1; 99 # 100; 95 # 100; 0].
Proof.
  unfold signed_level. destruct (Qlt_le_dec s 0); [right|left].
  - pose proof (level_cases ndays (- s)) as H. cbn [In] in H. repeat destruct H as [H|H]; try (rewrite <- H; cbn; tauto). destruct H.
  - apply level_cases.
Qed.

(* ---------- the function ---------- *)
Lemma np_sub_known v1 v2 : length v1 = length v2 ->
  np_subtract (map Some v2) (map Some v1) = Ok (map Some (case_differences v1 v2)).
Proof.
  intro H. unfold np_subtract. rewrite !map_length, H, Nat.eqb_refl. f_equal. unfold case_differences.
  clear H. revert v2. induction v1 as [|a t IH]; intros [|b u]; try reflexivity.
  cbn [map combine fst snd nan_sub]. f_equal. apply IH.
Qed.
Lemma advantage_eq stat m1 m2 : emc_numerator stat m1 m2 == advantage stat m1 m2.
Proof.
  unfold emc_numerator, advantage, bias_like, rmse_like, starts_with.
  destruct (String.prefix "ME" stat || String.prefix "BIAS" stat).
  - destruct (Qlt_bool (Qabs m2 - Qabs m1) 0) eqn:E, (Qlt_le_dec (Qabs m2) (Qabs m1)) as [C|C]; try ring.
    + apply Qlt_bool_iff in E. qlra.
    + apply Qlt_bool_false in E. qlra.
  - destruct (String.prefix "RMSE" stat || String.prefix "RMSVE" stat); reflexivity.
Qed.
Lemma emc_value ndays stat v1 v2 : (0 < ndays)%Z -> length v1 = length v2 -> (2 <= length v1)%nat ->
  exists m1 m2, m1 == mean_of self v1 /\ m2 == mean_of self v2 /\
    calculate_diff_sig_emc ndays stat (map Some v1) (map Some v2) =
    (let intvl := round_even_R 6 (half_width ndays v1 v2) in
     let num := emc_numerator stat (round_even 6 m1) (round_even 6 m2) in
     if Qeq_bool intvl 0 then
       if Qlt_bool 0 num then Ok (Some 1) else if Qlt_bool num 0 then Ok (Some (-1)) else Ok None
     else Ok (emc_class ndays (round_even 3 (num / intvl)))).
Proof.
  intros HN HL HS. unfold calculate_diff_sig_emc. rewrite np_sub_known by assumption. cbn [bind].
  destruct (Z.eqb_spec ndays 0) as [E|_]; [lia|]. rewrite all_present_map, map_length.
  set (d := case_differences v1 v2).
  assert (N1 : v1 <> []) by (intros ->; cbn in HS; lia). assert (N2 : v2 <> []) by (intros ->; cbn in HL; lia).
  destruct (st_mean_value v1 N1) as (m1 & E1 & M1). destruct (st_mean_value v2 N2) as (m2 & E2 & M2).
  exists m1, m2. split; [assumption|]. split; [assumption|].
  assert (PN : 0 < inject_Z ndays) by (change 0 with (inject_Z 0); rewrite <- Zlt_Qlt; assumption).
  set (m := pysum d / inject_Z ndays).
  set (ss := pysum (map (fun x => (x - m) * (x - m)) d) / inject_Z ndays).
  assert (Hm : m == total_of self d / inject_Z ndays) by (unfold m; rewrite pysum_total; reflexivity).
  assert (Hss : ss == total_of (fun x => (x - total_of self d / inject_Z ndays) * (x - total_of self d / inject_Z ndays)) d / inject_Z ndays).
  { unfold ss. rewrite pysum_map. apply Qdiv_comp; [|reflexivity]. apply total_ext. intros x _. rewrite Hm. reflexivity. }
  assert (Pss : 0 <= ss).
  { rewrite Hss. apply Qle_shift_div_l; [assumption|]. rewrite Qmult_0_l. apply total_nonneg. intros. apply Qsq_nonneg. }
  destruct (Qlt_bool ss 0) eqn:Els; [apply Qlt_bool_iff in Els; qlra|].
  destruct (Z.ltb_spec (Z.of_nat (length v1)) 1); [lia|]. destruct (Z.eqb_spec (Z.of_nat (length v1)) 1); [lia|].
  rewrite !all_present_map, E1, E2. cbn [bind].
  assert (EH : (Q2R (1960 # 1000) * sqrt (Q2R ss) / sqrt (IZR (Z.of_nat (length v1) - 1)))%R = half_width ndays v1 v2).
  { unfold half_width. fold d. rewrite (Q2R_eq _ _ Hss). rewrite (Q2R_eq (1960 # 1000) (196 # 100)) by reflexivity. reflexivity. }
  rewrite EH. reflexivity.
Qed.
Lemma sqrt_nn_div a b : (0 <= a)%R -> (0 < b)%R -> (0 <= a / b)%R.
Proof. intros. apply Rmult_le_pos; [assumption|]. left. apply Rinv_0_lt_compat. assumption. Qed.
Lemma half_width_nonneg ndays v1 v2 : (2 <= length v1)%nat -> (0 <= half_width ndays v1 v2)%R.
Proof.
  intro H. unfold half_width. apply sqrt_nn_div.
  - apply Rmult_le_pos; [unfold Q2R; simpl; rlra|apply sqrt_pos].
  - apply sqrt_lt_R0. apply IZR_lt. lia.
Qed.
Lemma round6_mean l m : m == mean_of self l -> RoundedEven 6 (Q2R (mean_of self l)) (round_even 6 m).
Proof. intro H. rewrite <- (Q2R_eq _ _ H). apply round_even_spec. Qed.

Lemma C31_class_lem ndays stat v1 v2 :
  (0 < ndays)%Z -> length v1 = length v2 -> (2 <= length v1)%nat ->
  exists h m1 m2 r,
    RoundedEven 6 (half_width ndays v1 v2) h /\
    RoundedEven 6 (Q2R (mean_of self v1)) m1 /\ RoundedEven 6 (Q2R (mean_of self v2)) m2 /\
    calculate_diff_sig_emc ndays stat (map Some v1) (map Some v2) = Ok r /\
    0 <= h /\
    (0 < h -> exists s, RoundedEven 3 (Q2R (advantage stat m1 m2 / h)) s /\
       (hole ndays s -> r = None) /\
       (~ hole ndays s -> exists c, r = Some c /\ c == signed_level ndays s)) /\
    (h == 0 ->
       (0 < advantage stat m1 m2 -> r = Some 1) /\
       (advantage stat m1 m2 < 0 -> r = Some (-1)) /\
       (advantage stat m1 m2 == 0 -> r = None)).
Proof.
  intros HN HL HS. destruct (emc_value ndays stat v1 v2 HN HL HS) as (m1 & m2 & M1 & M2 & E). cbv zeta in E.
  set (h := round_even_R 6 (half_width ndays v1 v2)) in *.
  set (num := emc_numerator stat (round_even 6 m1) (round_even 6 m2)) in *.
  pose proof (advantage_eq stat (round_even 6 m1) (round_even 6 m2)) as HA. fold num in HA.
  assert (Rh : RoundedEven 6 (half_width ndays v1 v2) h) by apply round_even_R_spec.
  assert (Ph : 0 <= h) by (eapply rounded_nonneg; [exact Rh|apply half_width_nonneg; assumption]).
  destruct (Qeq_bool h 0) eqn:E0.
  - apply Qeq_bool_iff in E0.
    exists h, (round_even 6 m1), (round_even 6 m2),
      (if Qlt_bool 0 num then Some 1 else if Qlt_bool num 0 then Some (-1) else None).
    split; [exact Rh|]. split; [apply round6_mean; assumption|]. split; [apply round6_mean; assumption|].
    split; [rewrite E; destruct (Qlt_bool 0 num); [reflexivity|]; destruct (Qlt_bool num 0); reflexivity|].
    split; [assumption|]. split; [intro C; qlra|]. intros _. rewrite <- HA.
    destruct (Qlt_bool 0 num) eqn:B1; toprop.
    + split; [|split]; intro; try reflexivity; exfalso; qlra.
    + destruct (Qlt_bool num 0) eqn:B2; toprop; (split; [|split]); intro; try reflexivity; exfalso; qlra.
  - assert (N0 : ~ h == 0) by (intro C; apply Qeq_bool_iff in C; congruence).
    exists h, (round_even 6 m1), (round_even 6 m2), (emc_class ndays (round_even 3 (num / h))).
    split; [exact Rh|]. split; [apply round6_mean; assumption|]. split; [apply round6_mean; assumption|].
    split; [exact E|]. split; [assumption|]. split; [|intro C; contradiction].
    intros _. exists (round_even 3 (num / h)). split; [|apply emc_class_spec].
    rewrite <- (Q2R_eq (num / h) _); [apply round_even_spec|]. rewrite HA. reflexivity.
Qed.

Lemma total_swap v1 v2 g : (forall x y, x == y -> g x == g y) ->
  total_of g (case_differences v2 v1) == total_of (fun x => g (- x)) (case_differences v1 v2).
Proof.
  intro HG. unfold case_differences, total_of. rewrite !map_map. revert v2.
  induction v1 as [|a t IH]; intros [|b u]; try reflexivity.
  cbn [combine map qsum fold_right fst snd]. unfold qsum in IH |- *. cbn [fold_right]. rewrite IH.
  apply Qplus_comp; [|reflexivity]. apply HG. ring.
Qed.
Lemma half_width_swap ndays v1 v2 : length v1 = length v2 -> half_width ndays v2 v1 = half_width ndays v1 v2.
Proof.
  intro H. unfold half_width. rewrite H. f_equal. f_equal. f_equal. apply Q2R_eq.
  set (n := inject_Z ndays). apply Qdiv_comp; [|reflexivity].
  assert (E : total_of self (case_differences v2 v1) == - total_of self (case_differences v1 v2)).
  { rewrite total_swap by (intros x y E; exact E). rewrite <- (Qmult_1_l (total_of self _)).
    rewrite (total_ext _ (fun x => (-1) * self x)) by (intros; unfold self; ring). rewrite total_scale. ring. }
  rewrite total_swap.
  - apply total_ext. intros x _. rewrite E. unfold Qdiv. ring.
  - intros x y Exy. rewrite Exy. reflexivity.
Qed.
Lemma advantage_swap stat m1 m2 : (bias_like stat = true -> ~ Qabs m1 == Qabs m2) ->
  advantage stat m2 m1 == - advantage stat m1 m2.
Proof.
  intro H. unfold advantage. destruct (bias_like stat).
  - specialize (H eq_refl). pose proof (Qabs_Qminus m1 m2) as E.
    destruct (Qlt_le_dec (Qabs m1) (Qabs m2)), (Qlt_le_dec (Qabs m2) (Qabs m1)); rewrite ?E; try ring; exfalso; try qlra.
  - destruct (rmse_like stat); ring.
Qed.
Lemma advantage_compat stat m1 m2 m1' m2' : m1 == m1' -> m2 == m2' -> advantage stat m1 m2 == advantage stat m1' m2'.
Proof.
  intros E1 E2. unfold advantage. pose proof (Qabs_wd _ _ E1) as A1. pose proof (Qabs_wd _ _ E2) as A2.
  destruct (bias_like stat); [|destruct (rmse_like stat); rewrite E1, E2; reflexivity].
  destruct (Qlt_le_dec (Qabs m2) (Qabs m1)), (Qlt_le_dec (Qabs m2') (Qabs m1')); try (exfalso; qlra); rewrite E1, E2; reflexivity.
Qed.

Lemma hole_dec ndays s : {hole ndays s} + {~ hole ndays s}.
Proof.
  unfold hole. destruct (critical ndays) as [[a b] c].
  destruct (Qlt_le_dec (s * a / c) (- (100 + (5 # 10000)))) as [H|H]; [right; intros [K _]; qlra|].
  destruct (Qlt_le_dec (- (100 - (5 # 10000))) (s * a / c)) as [K|K]; [right; intros [_ L]; qlra|]. left. split; assumption.
Qed.
Lemma C31_exchange_lem ndays stat v1 v2 c c' :
  (0 < ndays)%Z -> length v1 = length v2 -> (2 <= length v1)%nat ->
  calculate_diff_sig_emc ndays stat (map Some v1) (map Some v2) = Ok (Some c) ->
  calculate_diff_sig_emc ndays stat (map Some v2) (map Some v1) = Ok (Some c') ->
  (bias_like stat = true -> forall m1 m2,
     RoundedEven 6 (Q2R (mean_of self v1)) m1 -> RoundedEven 6 (Q2R (mean_of self v2)) m2 ->
     ~ Qabs m1 == Qabs m2) ->
  c' == - c.
Proof.
  intros HN HL HS Ec Ec' HB.
  destruct (C31_class_lem ndays stat v1 v2 HN HL HS) as (h & m1 & m2 & r & Rh & R1 & R2 & E & Ph & P & Z).
  destruct (C31_class_lem ndays stat v2 v1 HN (eq_sym HL) ltac:(lia)) as (h' & m2' & m1' & r' & Rh' & R2' & R1' & E' & Ph' & P' & Z').
  rewrite E in Ec. rewrite E' in Ec'. injection Ec as Ec. injection Ec' as Ec'. subst r r'.
  rewrite half_width_swap in Rh' by assumption.
  pose proof (rounded_unique _ _ _ _ Rh Rh') as Eh. pose proof (rounded_unique _ _ _ _ R1 R1') as Em1. pose proof (rounded_unique _ _ _ _ R2 R2') as Em2.
  assert (A : advantage stat m2' m1' == - advantage stat m1 m2).
  { rewrite <- (advantage_compat stat m2 m1 m2' m1' Em2 Em1). apply advantage_swap. intro B. apply HB; assumption. }
  destruct (Qlt_le_dec 0 h) as [L|L].
  - destruct (P L) as (s & Rs & Hh & Hs). destruct (P' ltac:(qlra)) as (s' & Rs' & Hh' & Hs').
    destruct (hole_dec ndays s) as [D|D]; [discriminate (Hh D)|]. destruct (hole_dec ndays s') as [D'|D']; [discriminate (Hh' D')|].
    destruct (Hs D) as (k & Ek & K). destruct (Hs' D') as (k' & Ek' & K'). injection Ek as <-. injection Ek' as <-.
    assert (S : s' == - s).
    { apply rounded_opp in Rs. eapply rounded_unique; [exact Rs'|]. rewrite <- Q2R_opp in Rs.
      rewrite (Q2R_eq _ (- (advantage stat m1 m2 / h))); [exact Rs|]. rewrite A, <- Eh. unfold Qdiv. ring. }
    rewrite K, K', (signed_level_compat _ _ _ S). apply signed_level_odd.
  - destruct (Z ltac:(qlra)) as (Z1 & Z2 & Z3). destruct (Z' ltac:(qlra)) as (Z1' & Z2' & Z3').
    destruct (Q_dec 0 (advantage stat m1 m2)) as [[L1|L1]|L1].
    + specialize (Z1 L1). specialize (Z2' ltac:(qlra)). injection Z1 as ->. injection Z2' as ->. reflexivity.
    + specialize (Z2 L1). specialize (Z1' ltac:(qlra)). injection Z2 as ->. injection Z1' as ->. reflexivity.
    + specialize (Z3 ltac:(qlra)). discriminate Z3.
Qed.

(* ---------- concrete samples ---------- *)
Lemma sqrt_square q : 0 <= q -> sqrt (Q2R (q * q)) = Q2R q.
Proof. intro H. rewrite Q2R_mult. apply sqrt_square. apply (proj1 (Q2R_le 0 q)) in H || idtac. rewrite <- Q2R_0. apply Q2R_le. assumption. Qed.
Lemma pair_width a b c d e :
  0 <= e ->
  let df := case_differences [a; b] [c; d] in
  let m := total_of self df / 2 in
  total_of (fun x => (x - m) * (x - m)) df / 2 == e * e ->
  half_width 2 [a; b] [c; d] = Q2R ((196 # 100) * e).
Proof.
  intros He df m H. unfold half_width. fold df. change (inject_Z 2) with 2. fold m.
  rewrite (Q2R_eq _ _ H), sqrt_square by assumption. cbn [length]. change (Z.of_nat 2 - 1)%Z with 1%Z. rewrite sqrt_1, Q2R_mult. field.
Qed.
Lemma pair_value stat a b c d e : 0 <= e ->
  let df := case_differences [a; b] [c; d] in
  let m := total_of self df / 2 in
  total_of (fun x => (x - m) * (x - m)) df / 2 == e * e ->
  let intvl := round_even 6 ((196 # 100) * e) in
  calculate_diff_sig_emc 2 stat (map Some [a; b]) (map Some [c; d]) =
     let num := emc_numerator stat (round_even 6 (mean_of self [a; b])) (round_even 6 (mean_of self [c; d])) in
     if Qeq_bool intvl 0 then
       if Qlt_bool 0 num then Ok (Some 1) else if Qlt_bool num 0 then Ok (Some (-1)) else Ok None
     else Ok (emc_class 2 (round_even 3 (num / intvl))).
Proof.
  intros He df m H intvl.
  assert (RC : forall a b, a == b -> round_even 6 a = round_even 6 b).
  { intros x y E. rewrite <- !round_even_R_Q. rewrite (Q2R_eq _ _ E). reflexivity. }
  destruct (emc_value 2 stat [a; b] [c; d]) as (m1 & m2 & E1 & E2 & E); [lia|reflexivity|cbn; lia|].
  rewrite (pair_width a b c d e He H), round_even_R_Q in E. rewrite E. rewrite (RC _ _ E1), (RC _ _ E2). reflexivity.
Qed.

(* ---------- other inputs ---------- *)
Lemma missing_difference v1 v2 : length v1 = length v2 -> In None v1 \/ In None v2 ->
  In None (map (fun e => nan_sub (fst e) (snd e)) (combine v2 v1)).
Proof.
  revert v2. induction v1 as [|a t IH]; intros [|b u] HL H; try discriminate HL.
  - destruct H as [[]|[]].
  - cbn [combine map fst snd In]. destruct a as [a|]; [destruct b as [b|]|].
    + right. apply IH; [cbn in HL; lia|]. cbn [In] in H. intuition discriminate.
    + left. reflexivity.
    + left. destruct b; reflexivity.
Qed.
Lemma total_sq_nonneg_test ndays d : (0 < ndays)%Z -> forall m,
  Qlt_bool (pysum (map (fun x => (x - m) * (x - m)) d) / inject_Z ndays) 0 = false.
Proof.
  intros H m. apply not_true_iff_false. intro C. apply Qlt_bool_iff in C. rewrite pysum_map in C.
  assert (P : 0 < inject_Z ndays) by (change 0 with (inject_Z 0); rewrite <- Zlt_Qlt; assumption).
  assert (0 <= total_of (fun x => (x - m) * (x - m)) d / inject_Z ndays).
  { apply Qle_shift_div_l; [assumption|]. rewrite Qmult_0_l. apply total_nonneg. intros. apply Qsq_nonneg. }
  qlra.
Qed.
Lemma C31_errors_lem ndays stat v1 v2 :
  (0 < ndays)%Z ->
  (length v1 <> length v2 -> length v1 <> 1%nat -> length v2 <> 1%nat ->
     calculate_diff_sig_emc ndays stat v1 v2 = Err ValueError) /\
  (v1 = [] -> v2 = [] -> calculate_diff_sig_emc ndays stat v1 v2 = Err ValueError) /\
  (length v1 = 1%nat -> calculate_diff_sig_emc ndays stat v1 v2 = Err ZeroDivisionError) /\
  (length v1 = length v2 -> (2 <= length v1)%nat -> In None v1 \/ In None v2 ->
     calculate_diff_sig_emc ndays stat v1 v2 = Ok None).
Proof.
  intro HN. unfold calculate_diff_sig_emc. split; [|split; [|split]].
  - intros H1 H2 H3. unfold np_subtract. rewrite (proj2 (Nat.eqb_neq (length v2) (length v1))) by congruence.
    rewrite (proj2 (Nat.eqb_neq _ _) H2), (proj2 (Nat.eqb_neq _ _) H3). reflexivity.
  - intros -> ->. cbn [np_subtract length Nat.eqb map combine bind all_present].
    destruct (Z.eqb_spec ndays 0); [lia|]. pose proof (total_sq_nonneg_test ndays [] HN 0) as K. cbn [map] in K. rewrite K. reflexivity.
  - intro H. assert (E : exists l, np_subtract v2 v1 = Ok l).
    { unfold np_subtract. rewrite H. destruct (Nat.eqb (length v2) 1); [eexists; reflexivity|]. cbn [Nat.eqb]. eexists; reflexivity. }
    destruct E as (l & ->). cbn [bind]. destruct (Z.eqb_spec ndays 0); [lia|]. rewrite H.
    destruct (all_present l) as [d|]; [|reflexivity]. rewrite total_sq_nonneg_test by assumption. reflexivity.
  - intros H1 H2 H3. unfold np_subtract. rewrite <- H1, Nat.eqb_refl. cbn [bind]. destruct (Z.eqb_spec ndays 0); [lia|].
    rewrite all_present_none by (apply missing_difference; assumption).
    destruct (Z.ltb_spec (Z.of_nat (length v1)) 1); [lia|]. destruct (Z.eqb_spec (Z.of_nat (length v1)) 1); [lia|]. reflexivity.
Qed.

(* ---------- the t test ---------- *)
Lemma half_at_zero F Q : SymmetricDistribution F Q -> F 0%R = (/ 2)%R.
Proof. intros [I S B _]. specialize (S 0%R). rewrite Ropp_0 in S. rlra. Qed.
Lemma zip_minus v1 v2 : zip_with Qminus v1 v2 = map (fun e => fst e - snd e) (combine v1 v2).
Proof. unfold zip_with. apply map_ext. intros [a b]. reflexivity. Qed.
Lemma ncar_start cdf stat v1 v2 : length v1 = length v2 ->
  let d := map (fun e => fst e - snd e) (combine v1 v2) in
  calculate_diff_sig_ncar cdf stat v1 v2 =
  (avg <- st_mean d ;;
      let total := Z.of_nat (length d) in
      if (total <? 2)%Z then Err ValueError
      else
        let var := pysum (map (fun x => (x - avg) * (x - avg)) d) / inject_Z (total - 1) in
        let p_val :=
          if Qeq_bool var 0 then if Qeq_bool avg 0 then OutNaN else OutNum (1 - 2 * 0)
          else
            let t := (Q2R avg / (sqrt (Q2R var) / sqrt (IZR total)))%R in
            OutNum (1 - 2 * pt cdf (Rabs t) (total - 1) false)%R in
        mean1 <- st_mean v1 ;; mean2 <- st_mean v2 ;;
        match perfect_score_adjustment mean1 mean2 stat 1 with
        | None => Ok OutNone
        | Some s => Ok (match p_val with OutNum p => OutNum (p * Q2R s) | o => o end)
        end).
Proof.
  intros H d. unfold calculate_diff_sig_ncar, calc_derived_curve_value. rewrite !all_present_map.
  rewrite H, Nat.eqb_refl. cbn [String.eqb orb Ascii.eqb Bool.eqb]. cbn [bind]. rewrite zip_minus. fold d. reflexivity.
Qed.
Lemma adjust_compat stat m1 m2 m1' m2' p : m1 == m1' -> m2 == m2' ->
  perfect_score_adjustment m1 m2 stat p = perfect_score_adjustment m1' m2' stat p.
Proof.
  intros E1 E2. unfold perfect_score_adjustment.
  assert (G : forall a b c d, a == c -> b == d -> Qgt_abs a b = Qgt_abs c d).
  { intros a b c d E E'. unfold Qgt_abs. rewrite E, E'. reflexivity. }
  rewrite (G m1 m2 m1' m2' E1 E2), (G (m1 - 1) (m2 - 1) (m1' - 1) (m2' - 1)); [reflexivity| |]; rewrite ?E1, ?E2; reflexivity.
Qed.
Lemma diff_length v1 v2 : length v1 = length v2 -> length (map (fun e => fst e - snd e) (combine v1 v2)) = length (v1 : list Q).
Proof. intro H. rewrite map_length, combine_length, H. apply Nat.min_id. Qed.
Lemma differences_rev v1 v2 : case_differences v2 v1 = map (fun e => fst e - snd e) (combine v1 v2).
Proof.
  unfold case_differences. revert v2. induction v1 as [|a t IH]; intros [|b u]; try reflexivity.
  cbn [combine map fst snd]. f_equal. apply IH.
Qed.
Lemma C31_confidence_lem cdf ppf stat name p v1 v2 :
  (forall df, SymmetricDistribution (cdf df) (ppf df)) ->
  length v1 = length v2 -> (2 <= length v1)%nat ->
  0 < codev self self (case_differences v2 v1) ->
  Capitals stat name ->
  (p = 0 /\ In name perfect_score_zero \/ p = 1 /\ In name perfect_score_one) ->
  let n := Z.of_nat (length v1) in
  let confidence := (1 - 2 * (1 - cdf (n - 1)%Z (Rabs (t_statistic (case_differences v2 v1)))))%R in
  (0 <= confidence < 1)%R /\
  (farther p (mean_of self v1) (mean_of self v2) ->
     calculate_diff_sig_ncar cdf stat v1 v2 = Ok (OutNum (- confidence))) /\
  (~ farther p (mean_of self v1) (mean_of self v2) ->
     calculate_diff_sig_ncar cdf stat v1 v2 = Ok (OutNum confidence)).
Proof.
  intros HF HL HS HV HC HP n confidence. rewrite differences_rev in HV; unfold confidence in *; clear confidence; rewrite differences_rev.
  set (d := map (fun e => fst e - snd e) (combine v1 v2)) in *.
  set (confidence := (1 - 2 * (1 - cdf (n - 1)%Z (Rabs (t_statistic d))))%R).
  assert (Ld : length d = length v1) by (apply diff_length; assumption).
  assert (Nd : d <> []) by (intro C; rewrite C in Ld; cbn in Ld; lia).
  assert (N1 : v1 <> []) by (intros ->; cbn in HS; lia). assert (N2 : v2 <> []) by (intros ->; cbn in HL; lia).
  split.
  - pose proof (half_at_zero _ _ (HF (n - 1)%Z)) as H0. destruct (HF (n - 1)%Z) as [I S B _].
    set (x := Rabs (t_statistic d)) in *. assert (X : (0 <= x)%R) by apply Rabs_pos. specialize (B x).
    assert (C : (/ 2 <= cdf (n - 1)%Z x)%R).
    { destruct X as [X|X]; [specialize (I _ _ X); rlra|rewrite <- X, H0; rlra]. }
    unfold confidence. split; rlra.
  - destruct (st_mean_value d Nd) as (avg & Ea & Ha). destruct (st_mean_value v1 N1) as (m1 & E1 & M1). destruct (st_mean_value v2 N2) as (m2 & E2 & M2).
    rewrite ncar_start by assumption. cbv zeta. fold d. rewrite Ea, E1, E2. cbn [bind]. rewrite Ld.
    destruct (Z.ltb_spec (Z.of_nat (length v1)) 2); [lia|]. fold n.
    set (var := pysum (map (fun x => (x - avg) * (x - avg)) d) / inject_Z (n - 1)).
    assert (EV : var == codev self self d / (count d - 1)).
    { unfold var. rewrite pysum_map. apply Qdiv_comp.
      - unfold codev. apply total_ext. intros x _. rewrite Ha. reflexivity.
      - unfold count. rewrite Ld. fold n. unfold Z.sub. rewrite inject_Z_plus. reflexivity. }
    assert (PC : 0 < count d - 1).
    { unfold count. rewrite Ld. setoid_replace (inject_Z (Z.of_nat (length v1)) - 1) with (inject_Z (n - 1)) by (unfold n, Z.sub; rewrite inject_Z_plus; reflexivity).
      change 0 with (inject_Z 0). rewrite <- Zlt_Qlt. lia. }
    assert (PV : 0 < var).
    { rewrite EV. apply Qlt_shift_div_l; [assumption|]. rewrite Qmult_0_l. assumption. }
    assert (E0 : Qeq_bool var 0 = false) by (apply not_true_iff_false; intro C; apply Qeq_bool_iff in C; qlra).
    rewrite E0.
    assert (ET : (1 - 2 * pt cdf (Rabs (Q2R avg / (sqrt (Q2R var) / sqrt (IZR n)))) (n - 1) false)%R = confidence).
    { unfold confidence, pt, t_statistic. rewrite Ld. fold n. rewrite (Q2R_eq _ _ EV), (Q2R_eq _ _ Ha). reflexivity. }
    rewrite ET. rewrite (adjust_compat stat m1 m2 _ _ 1 M1 M2).
    destruct (adjust_perfect stat name (mean_of self v1) (mean_of self v2) 1 HC p HP) as (A & B).
    split; intro H0.
    + rewrite (A H0). f_equal. f_equal. rewrite (Q2R_eq (1 * -1) (-1)) by reflexivity. unfold Q2R. simpl. field.
    + rewrite (B H0). f_equal. f_equal. unfold Q2R. simpl. field.
Qed.
Lemma C31_confidence_other_lem cdf stat name v1 v2 :
  Capitals stat name ->
  (length v1 <> length v2 -> calculate_diff_sig_ncar cdf stat v1 v2 = Err TypeError) /\
  (length v1 = length v2 -> (length v1 < 2)%nat -> calculate_diff_sig_ncar cdf stat v1 v2 = Err ValueError) /\
  (length v1 = length v2 -> (2 <= length v1)%nat -> In name without_perfect_score ->
     calculate_diff_sig_ncar cdf stat v1 v2 = Ok OutNone) /\
  (length v1 = length v2 -> (2 <= length v1)%nat -> ~ In name without_perfect_score ->
     (forall a b, In (a, b) (combine v1 v2) -> a == b) ->
     calculate_diff_sig_ncar cdf stat v1 v2 = Ok OutNaN).
Proof.
  intro HC. split; [|split; [|split]].
  - intro H. unfold calculate_diff_sig_ncar, calc_derived_curve_value. rewrite !all_present_map.
    apply Nat.eqb_neq in H. rewrite H. reflexivity.
  - intros HL HS. rewrite ncar_start by assumption. cbv zeta. rewrite diff_length by assumption.
    destruct v1 as [|a [|b t]]; destruct v2 as [|a' [|b' t']]; try discriminate HL; try reflexivity. cbn in HS. lia.
  - intros HL HS HI. rewrite ncar_start by assumption. cbv zeta. rewrite diff_length by assumption.
    assert (N1 : v1 <> []) by (intros ->; cbn in HS; lia). assert (N2 : v2 <> []) by (intros ->; cbn in HL; lia).
    assert (Nd : map (fun e => fst e - snd e) (combine v1 v2) <> []) by (destruct v1, v2; cbn; congruence).
    destruct (st_mean_value _ Nd) as (avg & Ea & Ha). destruct (st_mean_value v1 N1) as (m1 & E1 & M1). destruct (st_mean_value v2 N2) as (m2 & E2 & M2).
    rewrite Ea, E1, E2. cbn [bind]. destruct (Z.ltb_spec (Z.of_nat (length v1)) 2); [lia|].
    rewrite (adjust_na stat name m1 m2 1 HC HI). reflexivity.
  - intros HL HS HI HE. rewrite ncar_start by assumption. cbv zeta. rewrite diff_length by assumption.
    assert (N1 : v1 <> []) by (intros ->; cbn in HS; lia). assert (N2 : v2 <> []) by (intros ->; cbn in HL; lia).
    set (d := map (fun e => fst e - snd e) (combine v1 v2)).
    assert (Nd : d <> []) by (unfold d; destruct v1, v2; cbn; congruence).
    destruct (st_mean_value _ Nd) as (avg & Ea & Ha). destruct (st_mean_value v1 N1) as (m1 & E1 & M1). destruct (st_mean_value v2 N2) as (m2 & E2 & M2).
    rewrite Ea, E1, E2. cbn [bind]. destruct (Z.ltb_spec (Z.of_nat (length v1)) 2); [lia|].
    assert (Z0 : forall x, In x d -> x == 0).
    { intros x Hx. unfold d in Hx. apply in_map_iff in Hx. destruct Hx as ([u w] & <- & Hu). cbn [fst snd]. rewrite (HE _ _ Hu). ring. }
    assert (A0 : avg == 0).
    { rewrite Ha. unfold mean_of. rewrite (total_ext self (fun _ => 0) d) by (intros x Hx; exact (Z0 x Hx)). rewrite total_const. unfold Qdiv. ring. }
    assert (V0 : pysum (map (fun x => (x - avg) * (x - avg)) d) / inject_Z (Z.of_nat (length v1) - 1) == 0).
    { rewrite pysum_map, (total_ext _ (fun _ => 0) d) by (intros x Hx; rewrite (Z0 x Hx), A0; ring). rewrite total_const. unfold Qdiv. ring. }
    apply Qeq_bool_iff in V0, A0. rewrite V0, A0.
    unfold perfect_score_adjustment. rewrite (upper_capitals _ _ HC), na_list.
    assert (HM : mem name without_perfect_score = false) by (apply not_true_iff_false; intro C; apply mem_iff in C; contradiction). rewrite HM. cbv iota. destruct (mem name _ && _); [reflexivity|]. destruct (mem name _ && _); reflexivity.
Qed.

(** The statements of PropertiesScore.v. *)
Lemma C31_class_proof : forall ndays stat v1 v2,
  (0 < ndays)%Z -> length v1 = length v2 -> (2 <= length v1)%nat ->
  exists h m1 m2 r,
    RoundedEven 6 (half_width ndays v1 v2) h /\
    RoundedEven 6 (Q2R (mean_of self v1)) m1 /\ RoundedEven 6 (Q2R (mean_of self v2)) m2 /\
    calculate_diff_sig_emc ndays stat (map Some v1) (map Some v2) = Ok r /\
    0 <= h /\
    (0 < h -> exists s, RoundedEven 3 (Q2R (advantage stat m1 m2 / h)) s /\
       (hole ndays s -> r = None) /\
       (~ hole ndays s -> exists c, r = Some c /\ c == signed_level ndays s)) /\
    (h == 0 ->
       (0 < advantage stat m1 m2 -> r = Some 1) /\
       (advantage stat m1 m2 < 0 -> r = Some (-1)) /\
       (advantage stat m1 m2 == 0 -> r = None)).
Proof.
  exact C31_class_lem.
Qed.

Lemma C31_levels_proof : forall ndays s s',
  (In (signed_level ndays s) [1; 99 # 100; 95 # 100; 0] \/ In (- signed_level ndays s) [1; 99 # 100; 95 # 100; 0]) /\
  signed_level ndays (- s) == - signed_level ndays s /\
  (s <= s' -> signed_level ndays s <= signed_level ndays s').
Proof.
  intros ndays s s'. split; [apply signed_cases|]. split; [apply signed_level_odd|apply signed_mono].
Qed.

Lemma C31_exchange_proof : forall ndays stat v1 v2 c c',
  (0 < ndays)%Z -> length v1 = length v2 -> (2 <= length v1)%nat ->
  calculate_diff_sig_emc ndays stat (map Some v1) (map Some v2) = Ok (Some c) ->
  calculate_diff_sig_emc ndays stat (map Some v2) (map Some v1) = Ok (Some c') ->
  (bias_like stat = true -> forall m1 m2,
     RoundedEven 6 (Q2R (mean_of self v1)) m1 -> RoundedEven 6 (Q2R (mean_of self v2)) m2 ->
     ~ Qabs m1 == Qabs m2) ->
  c' == - c.
Proof.
  exact C31_exchange_lem.
Qed.

Lemma C31_exchange_bias_refuted_proof :
  exists ndays v1 v2,
    calculate_diff_sig_emc ndays "ME" (map Some v1) (map Some v2) = Ok (Some 1) /\
    calculate_diff_sig_emc ndays "ME" (map Some v2) (map Some v1) = Ok (Some 1).
Proof.
  exists 2%Z, [10; 10], [-9; -11]. split.
  - (rewrite (pair_value _ _ _ _ _ 1); [vm_compute; reflexivity|qlra|vm_compute; reflexivity]).
  - (rewrite (pair_value _ _ _ _ _ 1); [vm_compute; reflexivity|qlra|vm_compute; reflexivity]).
Qed.

Lemma C31_defined_refuted_proof :
  exists ndays v1 v2,
    calculate_diff_sig_emc ndays "ACC" (map Some v1) (map Some v2) = Ok None /\
    calculate_diff_sig_emc ndays "ACC" (map Some v2) (map Some v1) = Ok (Some 1).
Proof.
  exists 2%Z, [0; 0], [4045248 # 10000; 4025248 # 10000]. split.
  - (rewrite (pair_value _ _ _ _ _ 1); [vm_compute; reflexivity|qlra|vm_compute; reflexivity]).
  - (rewrite (pair_value _ _ _ _ _ 1); [vm_compute; reflexivity|qlra|vm_compute; reflexivity]).
Qed.

Lemma C31_error_measure_refuted_proof :
  exists ndays v1 v2,
    (forall x y, In x v1 -> In y v2 -> y < x) /\
    calculate_diff_sig_emc ndays "MAE" (map Some v1) (map Some v2) = Ok (Some 1) /\
    calculate_diff_sig_emc ndays "RMSE" (map Some v1) (map Some v2) = Ok (Some (-1)).
Proof.
  exists 2%Z, [20; 20], [1; 3]. split; [|split].
  - intros x y Hx Hy. cbn [In] in Hx, Hy. repeat destruct Hx as [<-|Hx]; repeat destruct Hy as [<-|Hy]; try qlra; try destruct Hx; try destruct Hy.
  - (rewrite (pair_value _ _ _ _ _ 1); [vm_compute; reflexivity|qlra|vm_compute; reflexivity]).
  - (rewrite (pair_value _ _ _ _ _ 1); [vm_compute; reflexivity|qlra|vm_compute; reflexivity]).
Qed.

Lemma C31_errors_proof : forall ndays stat v1 v2,
  (0 < ndays)%Z ->
  (length v1 <> length v2 -> length v1 <> 1%nat -> length v2 <> 1%nat ->
     calculate_diff_sig_emc ndays stat v1 v2 = Err ValueError) /\
  (v1 = [] -> v2 = [] -> calculate_diff_sig_emc ndays stat v1 v2 = Err ValueError) /\
  (length v1 = 1%nat -> calculate_diff_sig_emc ndays stat v1 v2 = Err ZeroDivisionError) /\
  (length v1 = length v2 -> (2 <= length v1)%nat -> In None v1 \/ In None v2 ->
     calculate_diff_sig_emc ndays stat v1 v2 = Ok None).
Proof.
  exact C31_errors_lem.
Qed.

Lemma C31_confidence_proof : forall cdf ppf stat name p v1 v2,
  (forall df, SymmetricDistribution (cdf df) (ppf df)) ->
  length v1 = length v2 -> (2 <= length v1)%nat ->
  0 < codev self self (case_differences v2 v1) ->
  Capitals stat name ->
  (p = 0 /\ In name perfect_score_zero \/ p = 1 /\ In name perfect_score_one) ->
  let n := Z.of_nat (length v1) in
  let confidence := (1 - 2 * (1 - cdf (n - 1)%Z (Rabs (t_statistic (case_differences v2 v1)))))%R in
  (0 <= confidence < 1)%R /\
  (farther p (mean_of self v1) (mean_of self v2) ->
     calculate_diff_sig_ncar cdf stat v1 v2 = Ok (OutNum (- confidence))) /\
  (~ farther p (mean_of self v1) (mean_of self v2) ->
     calculate_diff_sig_ncar cdf stat v1 v2 = Ok (OutNum confidence)).
Proof.
  exact C31_confidence_lem.
Qed.

Lemma C31_confidence_other_proof : forall cdf stat name v1 v2,
  Capitals stat name ->
  (length v1 <> length v2 -> calculate_diff_sig_ncar cdf stat v1 v2 = Err TypeError) /\
  (length v1 = length v2 -> (length v1 < 2)%nat -> calculate_diff_sig_ncar cdf stat v1 v2 = Err ValueError) /\
  (length v1 = length v2 -> (2 <= length v1)%nat -> In name without_perfect_score ->
     calculate_diff_sig_ncar cdf stat v1 v2 = Ok OutNone) /\
  (length v1 = length v2 -> (2 <= length v1)%nat -> ~ In name without_perfect_score ->
     (forall a b, In (a, b) (combine v1 v2) -> a == b) ->
     calculate_diff_sig_ncar cdf stat v1 v2 = Ok OutNaN).
Proof.
  exact C31_confidence_other_lem.
Qed.

Lemma C31_class_case_proof :
  calculate_diff_sig_emc 2 "RMSE" (map Some [0; 0]) (map Some [1; 3]) = Ok (Some (95 # 100)) /\
  ~ hole 2 (1020 # 1000) /\ signed_level 2 (1020 # 1000) = 95 # 100.
Proof.
  split; [(rewrite (pair_value _ _ _ _ _ 1); [vm_compute; reflexivity|qlra|vm_compute; reflexivity])|].
  split; [intros [A B]; unfold hole in *; cbn [critical] in *; vm_compute in B; apply B; reflexivity|vm_compute; reflexivity].
Qed.

Lemma C31_exchange_case_proof :
  calculate_diff_sig_emc 2 "ME" (map Some [0; 0]) (map Some [1; 3]) = Ok (Some (95 # 100)) /\
  calculate_diff_sig_emc 2 "ME" (map Some [1; 3]) (map Some [0; 0]) = Ok (Some (- (95 # 100))) /\
  forall m1 m2, RoundedEven 6 (Q2R (mean_of self [0; 0])) m1 -> RoundedEven 6 (Q2R (mean_of self [1; 3])) m2 ->
    ~ Qabs m1 == Qabs m2.
Proof.
  split; [(rewrite (pair_value _ _ _ _ _ 1); [vm_compute; reflexivity|qlra|vm_compute; reflexivity])|].
  split; [(rewrite (pair_value _ _ _ _ _ 1); [vm_compute; reflexivity|qlra|vm_compute; reflexivity])|].
  intros m1 m2 R1 R2.
  pose proof (rounded_unique _ _ _ _ R1 (round_even_spec 6 _)) as E1. pose proof (rounded_unique _ _ _ _ R2 (round_even_spec 6 _)) as E2.
  rewrite E1, E2. vm_compute. discriminate.
Qed.

Lemma C31_errors_case_proof :
  calculate_diff_sig_emc 10 "RMSE" [Some 1; None] [Some 2; Some 3] = Ok None /\
  calculate_diff_sig_emc 10 "RMSE" [Some 1] [Some 2] = Err ZeroDivisionError.
Proof.
  split; reflexivity.
Qed.

Lemma C31_confidence_case_proof :
  (forall df : Z, SymmetricDistribution ((fun _ => cauchy) df) ((fun _ => cauchy_q) df)) /\
  0 < codev self self (case_differences [1; 3] [2; 7]) /\ Capitals "rmse" "RMSE" /\ In "RMSE" perfect_score_zero /\
  farther 0 (mean_of self [2; 7]) (mean_of self [1; 3]).
Proof.
  split; [intros _; apply C19_interval_case_proof|]. split; [reflexivity|]. split; [(unfold Capitals; cbn [list_ascii_of_string];
    repeat (constructor; [split; [intros H; vm_compute in H; first [reflexivity|lia]|intros H; first [reflexivity|exfalso; apply H; vm_compute; lia]]|]); constructor)|].
  split; [cbn [In perfect_score_zero]; tauto|reflexivity].
Qed.

Lemma C31_confidence_other_case_proof :
  Capitals "fbar" "FBAR" /\ In "FBAR" without_perfect_score /\ ~ In "RMSE" without_perfect_score.
Proof.
  split; [(unfold Capitals; cbn [list_ascii_of_string];
    repeat (constructor; [split; [intros H; vm_compute in H; first [reflexivity|lia]|intros H; first [reflexivity|exfalso; apply H; vm_compute; lia]]|]); constructor)|]. split; [cbn [In without_perfect_score]; tauto|].
  intro H. cbn [In without_perfect_score] in H. repeat (destruct H as [H|H]; [discriminate H|]). destruct H.
Qed.

