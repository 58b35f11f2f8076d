From Coq Require Import Permutation.
From Verif Require Import PyBase ColumnModel BaseSpec BaseProofs AggSpec AggProofs MomentProofs RealProofs EclvModel EclvSpec EclvProofs
  BootModel BootSpec BootProofs Sl1l2Spec Sl1l2Proofs Sl1l2Proofs2 SeriesModel SeriesSpec SeriesProofs StdErrSpec.
From Coq Require Import Reals Qreals Qabs Lra.
Open Scope string_scope.
Open Scope Q_scope.

Lemma num_known l : map to_pyval (numbers l) = map Some l.
Proof. unfold numbers. rewrite map_map. reflexivity. Qed.
Lemma num_length l : length (numbers l) = length l.
Proof. apply map_length. Qed.
Lemma num_none l : existsb is_none (numbers l) = false.
Proof. induction l; simpl; congruence. Qed.
Lemma num_missing l : existsb is_missing (numbers l) = false.
Proof. induction l; simpl; congruence. Qed.
Lemma num_count p l : (forall q, p (Num q) = false) -> count_s p (numbers l) = 0%Z.
Proof. intro H. unfold count_s. induction l as [|a l IH]; simpl; [reflexivity|]. rewrite H. exact IH. Qed.
Lemma spread_iff l : Spread l <-> Varies (map Some l).
Proof. unfold Spread, Varies. rewrite known_map. reflexivity. Qed.
Lemma variance_value l : (2 <= length l)%nat -> exists v, st_variance (numbers l) = Ok (Some v) /\ v == sample_variance l.
Proof.
  intro L. unfold st_variance. rewrite num_length, num_none, num_missing, num_known, none_known, known_map.
  destruct (Nat.ltb (length l) 2) eqn:B; [apply Nat.ltb_lt in B; lia|]. eexists. split; [reflexivity|].
  unfold sample_variance. rewrite pysum_map. assert (M : pysum l / len l == mean_of self l).
  { unfold mean_of. rewrite pysum_total. reflexivity. }
  rewrite (total_ext _ (fun x => (self x - mean_of self l) * (self x - mean_of self l))).
  - unfold codev, count. unfold Z.sub. rewrite inject_Z_plus, inject_Z_opp. reflexivity.
  - intros x _. rewrite M. reflexivity.
Qed.
Lemma count_ge l k : (k <= length l)%nat -> inject_Z (Z.of_nat k) <= count (l : list Q).
Proof. intro H. unfold count. rewrite <- Zle_Qle. lia. Qed.
Lemma spread_var l : (2 <= length l)%nat -> (Spread l <-> 0 < sample_variance l) /\ 0 <= sample_variance l.
Proof.
  intro L. pose proof (count_ge l 2 L) as C. change (inject_Z (Z.of_nat 2)) with 2 in C.
  assert (H : known (map Some l) <> []) by (rewrite known_map; destruct l; [simpl in L; lia|discriminate]).
  pose proof (codev_self_nonneg self l) as N. unfold sample_variance.
  assert (NN : 0 <= codev self self l / (count l - 1)) by (apply Qle_shift_div_l; qlra).
  split; [|exact NN]. rewrite spread_iff, (varies_iff _ H), acov_0, known_map. split.
  - intro Z0. apply Qlt_shift_div_l; [qlra|]. rewrite Qmult_0_l. apply Qle_lteq in N. destruct N as [N|N]; [exact N|].
    exfalso. apply Z0. rewrite <- N. field. qlra.
  - intros P Z0. assert (E : codev self self l == 0).
    { setoid_replace (codev self self l) with (codev self self l / count l * count l) by (field; qlra). rewrite Z0. ring. }
    rewrite E in P. assert (0 / (count l - 1) == 0) by (unfold Qdiv; apply Qmult_0_l). qlra.
Qed.
Lemma spread_dec l : Spread l \/ ~ Spread l.
Proof. rewrite spread_iff. apply varies_dec. Qed.

Lemma vif_value a : ~ a == 1 -> vif (Some a) = Ok (inflation a, flag_of a, a).
Proof.
  intro H. unfold vif. rewrite fdiv_ok by qlra. cbn [bind].
  assert (NEG : Qlt_bool ((1 + a) / (1 - a)) 0 = true <-> a < -1 \/ 1 < a).
  { rewrite Qlt_bool_iff. set (r := (1 + a) / (1 - a)). assert (E : r * (1 - a) == 1 + a) by (unfold r; field; qlra). split.
    - intro R0. destruct (Qlt_le_dec 1 a) as [G|G]; [right; exact G|]. left.
      assert (P : 0 < 1 - a). { apply Qle_lteq in G. destruct G as [G|G]; [qlra|contradiction]. }
      assert (0 < (- r) * (1 - a)) by (apply Qmult_lt_0_compat; qlra). qlra.
    - intros [G|G]; destruct (Qlt_le_dec r 0) as [R0|R0]; try exact R0; exfalso.
      + assert (0 <= r * (1 - a)) by (apply Qmult_le_0_compat; qlra). qlra.
      + assert (0 <= r * (a - 1)) by (apply Qmult_le_0_compat; qlra). qlra. }
  cbv zeta. apply (f_equal Ok). apply (f_equal2 (@Datatypes.pair _ _)); [apply (f_equal2 (@Datatypes.pair _ _))|reflexivity].
  - unfold inflation. destruct (Qlt_le_dec a (3 # 10)) as [A|A].
    { replace (Qlt_bool a (3 # 10)) with true by (symmetry; apply Qlt_bool_iff; exact A). reflexivity. }
    replace (Qlt_bool a (3 # 10)) with false by (symmetry; apply not_true_iff_false; rewrite Qlt_bool_iff; qlra). cbn [orb].
    destruct (Qlt_le_dec a (99 # 100)) as [B|B].
    + replace (Qle_bool (99 # 100) a) with false by (symmetry; apply not_true_iff_false; rewrite Qle_bool_iff; qlra).
      destruct (Qlt_bool ((1 + a) / (1 - a)) 0); [|reflexivity]. exfalso. destruct (proj1 NEG eq_refl); qlra.
    + replace (Qle_bool (99 # 100) a) with true by (symmetry; apply Qle_bool_iff; exact B). reflexivity.
  - unfold flag_of. destruct (Qlt_bool ((1 + a) / (1 - a)) 0) eqn:E.
    + destruct (proj1 NEG eq_refl) as [G|G]; destruct (Qlt_le_dec a (-1)); try reflexivity; [qlra|].
      destruct (Qlt_le_dec 1 a); [reflexivity|qlra].
    + destruct (Qlt_le_dec a (-1)) as [G|G]; [assert (false = true) by (apply NEG; auto); discriminate|].
      destruct (Qlt_le_dec 1 a) as [K|K]; [assert (false = true) by (apply NEG; auto); discriminate|reflexivity].
Qed.
Lemma inflation_bounds a : (1 <= inflation a < 15)%R.
Proof.
  unfold inflation. destruct (Qlt_le_dec a (3 # 10)); [rlra|]. destruct (Qlt_le_dec a (99 # 100)) as [B|B]; [|rlra].
  set (r := (1 + a) / (1 - a)). assert (R1 : 1 <= r) by (unfold r; apply Qle_shift_div_l; qlra).
  assert (R2 : r < 225) by (unfold r; apply Qlt_shift_div_r; qlra).
  assert (R1' : (1 <= Q2R r)%R) by (rewrite <- Q2R_1; apply Q2R_le; exact R1).
  assert (R2' : (Q2R r < 225)%R).
  { replace 225%R with (Q2R 225) by (unfold Q2R; simpl; field). apply Q2R_lt. exact R2. }
  split.
  - rewrite <- sqrt_1. apply sqrt_le_1_alt. exact R1'.
  - replace 15%R with (sqrt 225) by (replace 225%R with (15 * 15)%R by ring; apply sqrt_square; rlra).
    apply sqrt_lt_1_alt. rlra.
Qed.
Lemma inflation_compat a b : a == b -> inflation a = inflation b.
Proof.
  intro E. unfold inflation. destruct (Qlt_le_dec a (3 # 10)), (Qlt_le_dec b (3 # 10)); try reflexivity; try qlra.
  destruct (Qlt_le_dec a (99 # 100)), (Qlt_le_dec b (99 # 100)); try reflexivity; try qlra.
  f_equal. apply Q2R_eq. rewrite E. reflexivity.
Qed.
Lemma flag_compat a b : a == b -> flag_of a = flag_of b.
Proof.
  intro E. unfold flag_of. destruct (Qlt_le_dec a (-1)), (Qlt_le_dec b (-1)); try reflexivity; try qlra.
  destruct (Qlt_le_dec 1 a), (Qlt_le_dec 1 b); try reflexivity; qlra.
Qed.
Lemma plain_pos v n : 0 < v -> (1 <= n)%nat -> (0 < plain_error v n)%R.
Proof.
  intros V N. unfold plain_error. unfold Rdiv. apply Rmult_lt_0_compat.
  - apply sqrt_lt_R0. rewrite <- Q2R_0. apply Q2R_lt. exact V.
  - apply Rinv_0_lt_compat, sqrt_lt_R0. apply lt_0_INR. lia.
Qed.
Lemma from_mean l : (2 <= length l)%nat ->
  (~ Spread l \/ length l = 2%nat -> compute_std_err_from_mean (numbers l) = Ok (StdErr (Some 0%R) 0 0 (Z.of_nat (length l)))) /\
  (Spread l -> (3 <= length l)%nat -> compute_std_err_from_mean (numbers l) =
     bind (autocor_coef (map Some l)) (fun c => bind (vif c) (fun '(f, flag, a) =>
       Ok (StdErr (Some (f * plain_error (sample_variance l) (length l))%R) flag a (Z.of_nat (length l)))))).
Proof.
  intro L. destruct (variance_value l L) as (v & E & V). destruct (spread_var l L) as (S1 & S2).
  unfold compute_std_err_from_mean. rewrite E, num_length, num_known, (num_count is_none) by reflexivity. cbn [bind]. rewrite Z.sub_0_r. split.
  - intro C. assert (B : Qlt_bool 0 v && (2 <? Z.of_nat (length l))%Z = false); [|rewrite B; reflexivity].
    apply andb_false_iff. destruct C as [C|C].
    + left. apply not_true_iff_false. rewrite Qlt_bool_iff, V. tauto.
    + right. apply Z.ltb_ge. lia.
  - intros C C3. assert (B : Qlt_bool 0 v && (2 <? Z.of_nat (length l))%Z = true).
    { apply andb_true_iff. rewrite Qlt_bool_iff, V, Z.ltb_lt. split; [tauto|lia]. }
    rewrite B. destruct (autocor_coef (map Some l)) as [c|e]; cbn [bind]; [|reflexivity].
    destruct (vif c) as [[[f fl] a]|e]; cbn [bind]; [|reflexivity].
    unfold plain_error. rewrite (Q2R_eq _ _ V). do 3 f_equal. rewrite <- INR_IZR_INZ. unfold Rdiv. ring.
Qed.
Lemma coef_some l c : (2 <= length l)%nat -> autocor_coef (map Some l) = Ok c -> exists a, c = Some a.
Proof.
  intros L E. destruct c as [a|]; [eauto|]. exfalso. unfold autocor_coef in E. rewrite none_known, known_map in E.
  destruct (Nat.ltb (length l) 2) eqn:B; [apply Nat.ltb_lt in B; lia|].
  destruct (st_mean l) as [m|e]; cbn [bind] in E; [|discriminate E]. cbv zeta in E.
  unfold fdiv in E. match type of E with context [if ?b then _ else _] => destruct b end; cbn [bind] in E; [discriminate E|].
  match type of E with context [if ?b then _ else _] => destruct b end; cbn [bind] in E; discriminate E.
Qed.

(** Outcome of the coefficient. *)
Lemma coef_outcome l : (2 <= length l)%nat -> exists m, m == mean_of self l /\
  let P := successive l in
  let sx := total_of (fun p => fst p - m) P in let sy := total_of (fun p => snd p - m) P in
  let sxx := total_of (fun p => (fst p - m) * (fst p - m)) P in let sxy := total_of (fun p => (fst p - m) * (snd p - m)) P in
  let N := inject_Z (Z.of_nat (length l) - 1) in
  (sx - N * sxx == 0 \/ sxx - sx * sx / N == 0 -> autocor_coef (map Some l) = Err ZeroDivisionError) /\
  (~ sx - N * sxx == 0 -> ~ sxx - sx * sx / N == 0 -> exists c, autocor_coef (map Some l) = Ok (Some c) /\
     c == sx * sy / (sx - N * sxx) + sxy / (sxx - sx * sx / N)).
Proof.
  intro L. unfold autocor_coef. rewrite none_known, known_map.
  destruct (Nat.ltb (length l) 2) eqn:B; [apply Nat.ltb_lt in B; lia|].
  assert (H : l <> []) by (destruct l; [simpl in L; lia|discriminate]).
  destruct (st_mean_value _ H) as (m & -> & Hm). cbn [bind]. exists m. split; [exact Hm|]. cbv zeta.
  destruct (sums_model l L m Hm) as (E1 & E2 & E3 & E4).
  set (X1 := pysum (map (fun v => v - m) (firstn (length l - 1) l))) in *.
  set (X2 := pysum (map (fun v => v - m) (tl l))) in *.
  set (X3 := pysum (map (fun q => q * q) (map (fun v => v - m) (firstn (length l - 1) l)))) in *.
  set (X4 := pysum (map (fun p => fst p * snd p) (combine (map (fun v => v - m) (firstn (length l - 1) l)) (map (fun v => v - m) (tl l))))) in *.
  set (N := inject_Z (Z.of_nat (length l) - 1)) in *.
  unfold fdiv. destruct (Qeq_bool (X1 - N * X3) 0) eqn:B1; cbn [bind].
  - apply Qeq_bool_iff in B1. rewrite E1, E3 in B1. split; [reflexivity|contradiction].
  - destruct (Qeq_bool (X3 - X1 * X1 / N) 0) eqn:B2; cbn [bind].
    + apply Qeq_bool_iff in B2. rewrite E1, E3 in B2. split; [reflexivity|contradiction].
    + apply Qeq_bool_neq in B1, B2. rewrite E1, E3 in B1, B2. split; [tauto|]. intros _ _. eexists. split; [reflexivity|].
      rewrite E1, E2, E3, E4. reflexivity.
Qed.
Lemma succ_map (f : Q -> Q) l : successive (map f l) = map (fun p => (f (fst p), f (snd p))) (successive l).
Proof. unfold successive. replace (tl (map f l)) with (map f (tl l)) by (destruct l; reflexivity). apply combine_map2. Qed.
Lemma mean_shift l c : l <> [] -> mean_of self (map (fun v => v + c) l) == mean_of self l + c.
Proof.
  intro H. pose proof (mean_affine 1 c l H) as M. assert (E : mean_of self (map (fun v => v + c) l) == mean_of self (map (fun v => 1 * v + c) l)).
  { unfold mean_of. rewrite !count_map, !total_map. rewrite (total_ext (fun a => self (a + c)) (fun a => self (1 * a + c))); [reflexivity|].
    intros x _. unfold self. ring. }
  rewrite E, M. ring.
Qed.
Lemma coef_shift l c : (2 <= length l)%nat ->
  (forall e, autocor_coef (map Some l) = Err e -> autocor_coef (map Some (map (fun v => v + c) l)) = Err e) /\
  (forall a, autocor_coef (map Some l) = Ok (Some a) -> exists a', autocor_coef (map Some (map (fun v => v + c) l)) = Ok (Some a') /\ a' == a).
Proof.
  intro L. set (l' := map (fun v => v + c) l); assert (L' : (2 <= length l')%nat) by (unfold l'; rewrite map_length; exact L).
  assert (H : l <> []) by (destruct l; [simpl in L; lia|discriminate]).
  destruct (coef_outcome l L) as (m & Hm & A & B). destruct (coef_outcome _ L') as (m' & Hm' & A' & B').
  unfold l' in *. clear l'. cbv zeta in *. rewrite map_length in *. rewrite succ_map in A', B'. rewrite !total_map in A', B'. cbn [fst snd] in *.
  rewrite (mean_shift l c H) in Hm'. rewrite <- Hm in Hm'.
  set (P := successive l) in *. set (N := inject_Z (Z.of_nat (length l) - 1)) in *.
  assert (D : forall v, v + c - m' == v - m) by (intro v; rewrite Hm'; ring).
  set (sx := total_of (fun p => fst p - m) P) in *. set (sy := total_of (fun p => snd p - m) P) in *.
  set (sxx := total_of (fun p => (fst p - m) * (fst p - m)) P) in *. set (sxy := total_of (fun p => (fst p - m) * (snd p - m)) P) in *.
  set (sx' := total_of (fun a => fst a + c - m') P) in *. set (sy' := total_of (fun a => snd a + c - m') P) in *.
  set (sxx' := total_of (fun a => (fst a + c - m') * (fst a + c - m')) P) in *. set (sxy' := total_of (fun a => (fst a + c - m') * (snd a + c - m')) P) in *.
  assert (E1 : sx' == sx) by (apply total_ext; intros; apply D).
  assert (E2 : sy' == sy) by (apply total_ext; intros; apply D).
  assert (E3 : sxx' == sxx) by (apply total_ext; intros; rewrite D; reflexivity).
  assert (E4 : sxy' == sxy) by (apply total_ext; intros; rewrite !D; reflexivity).
  clearbody sx sy sxx sxy sx' sxx'.
  assert (R1 : sx' - N * sxx' == sx - N * sxx) by (rewrite E1, E3; reflexivity).
  assert (R2 : sxx' - sx' * sx' / N == sxx - sx * sx / N) by (rewrite E1, E3; reflexivity).
  destruct (Qeq_dec (sx - N * sxx) 0) as [Z1|Z1].
  { rewrite A, A' by (rewrite ?R1; auto). split; [auto|]. intros a K. discriminate K. }
  destruct (Qeq_dec (sxx - sx * sx / N) 0) as [Z2|Z2].
  { rewrite A, A' by (rewrite ?R2; auto). split; [auto|]. intros a K. discriminate K. }
  destruct (B Z1 Z2) as (a & Ea & Va). destruct B' as (a' & Ea' & Va'); [rewrite R1; exact Z1|rewrite R2; exact Z2|]. rewrite Ea, Ea'. split; [intros e K; discriminate K|].
  intros a0 K. apply Ok_some_inj' in K. subst a0. exists a'. split; [reflexivity|]. rewrite Va, Va', !total_map. cbn [fst snd]. fold sy' sxy'. rewrite R1, R2, E1, E2, E4. reflexivity.
Qed.
Lemma codev_ext_shift l c : codev self self (map (fun v => v + c) l) == codev self self l.
Proof.
  destruct l as [|x0 l0]; [reflexivity|]. set (l := x0 :: l0). unfold codev. rewrite total_map. apply total_ext. intros x _.
  rewrite (mean_shift l c) by discriminate. unfold self. ring.
Qed.
Lemma var_shift l c : sample_variance (map (fun v => v + c) l) == sample_variance l.
Proof. unfold sample_variance. rewrite codev_ext_shift, count_map. reflexivity. Qed.
Lemma spread_shift l c : Spread l -> Spread (map (fun v => v + c) l).
Proof.
  intros (a & b & Ia & Ib & N). exists (a + c), (b + c). split; [apply in_map_iff; exists a; auto|]. split; [apply in_map_iff; exists b; auto|].
  intro E. apply N. qlra.
Qed.
Lemma spread_unshift l c : Spread (map (fun v => v + c) l) -> Spread l.
Proof.
  intros (a & b & Ia & Ib & N). apply in_map_iff in Ia, Ib. destruct Ia as (x & <- & Ix), Ib as (y & <- & Iy).
  exists x, y. split; [exact Ix|]. split; [exact Iy|]. intro E. apply N. rewrite E. reflexivity.
Qed.

(** Quartiles. *)
Lemma present_known data : remove_none (map to_pyval data) = present data.
Proof. induction data as [|[q| |] data IH]; simpl; [reflexivity| | |]; congruence. Qed.
Lemma present_len data : (Z.of_nat (length data) - count_s is_missing data = Z.of_nat (length (present data)))%Z.
Proof. unfold count_s. induction data as [|[q| |] data IH]; simpl length; simpl filter; [reflexivity| | |]; simpl length; lia. Qed.
Lemma present_num l : present (numbers l) = l.
Proof. induction l; simpl; congruence. Qed.
Lemma iqr_value l : l <> [] -> exists w, iqr l = Ok (Some w) /\ QuartileRange l w.
Proof.
  intro H. destruct (percentile_quantile l 25 H) as (a & Ea & Qa); [split; discriminate|].
  destruct (percentile_quantile l 75 H) as (b & Eb & Qb); [split; discriminate|].
  unfold iqr. destruct l as [|x l0]; [congruence|]. rewrite Ea, Eb. cbn [bind]. exists (b - a). split; [reflexivity|].
  exists a, b. split; [eapply quantile_ext; [|exact Qa]; reflexivity|]. split; [eapply quantile_ext; [|exact Qb]; reflexivity|]. reflexivity.
Qed.
Lemma range_unique l w w' : QuartileRange l w -> QuartileRange l w' -> w == w'.
Proof.
  intros (a & b & A & B & W) (a' & b' & A' & B' & W'). rewrite W, W', (quantile_unique _ _ _ _ A A'), (quantile_unique _ _ _ _ B B'). reflexivity.
Qed.
Lemma quartile_compat w w' n : w == w' -> quartile_error w n = quartile_error w' n.
Proof. intro E. unfold quartile_error. rewrite (Q2R_eq _ _ E). reflexivity. Qed.
Lemma factor_eq w n : (1 <= n)%nat -> (Q2R w * median_factor / sqrt (INR n))%R = quartile_error w n.
Proof.
  intro H. unfold median_factor, quartile_error. assert (sqrt (INR n) <> 0)%R. { apply Rgt_not_eq, sqrt_lt_R0, lt_0_INR. lia. }
  field. exact H0.
Qed.
Lemma median_plain data : compute_std_err_from_median_no_vif data =
  bind (iqr (present data)) (fun q => let m := Z.of_nat (length (present data)) in
  match q with
  | Some w =>
      if Qlt_bool 0 w && (2 <? m)%Z then
        Ok (StdErr (Some (Q2R w * median_factor / sqrt (IZR m))%R) 0 0 m)
      else Ok (StdErr (Some 0%R) 0 0 m)
  | None => Ok (StdErr (Some 0%R) 0 0 m)
  end).
Proof. unfold compute_std_err_from_median_no_vif. rewrite present_known, present_len. reflexivity. Qed.

(** Rounding to two decimals. *)
Lemma py_round2_spec x : Rounded2 x (py_round2 x).
Proof.
  unfold py_round2, Rounded2. destruct (base_Int_part (x * 100)) as (A & B). set (f := Int_part (x * 100)) in *.
  set (d := (x * 100 - IZR f)%R) in *. assert (D : (0 <= d < 1)%R) by (unfold d; rlra).
  assert (X : (x = (IZR f + d) / 100)%R) by (unfold d; field).
  destruct (Rlt_dec d (/ 2)) as [L|L].
  { exists f. split; [reflexivity|]. replace (x - IZR f / 100)%R with (d / 100)%R by (rewrite X; field).
    rewrite Rabs_right by rlra. split; [rlra|]. intro E. rlra. }
  assert (U : (x - IZR (f + 1) / 100 = - ((1 - d) / 100))%R) by (rewrite plus_IZR, X; field).
  destruct (Rlt_dec (/ 2) d) as [G|G].
  { exists (f + 1)%Z. split; [reflexivity|]. rewrite U, Rabs_Ropp, Rabs_right by rlra. split; [rlra|]. intro E. rlra. }
  assert (d = / 2)%R by rlra. destruct (Z.even f) eqn:Ev.
  - exists f. split; [reflexivity|]. replace (x - IZR f / 100)%R with (d / 100)%R by (rewrite X; field).
    rewrite Rabs_right by rlra. split; [rlra|]. intros _. apply Z.even_spec. exact Ev.
  - exists (f + 1)%Z. split; [reflexivity|]. rewrite U, Rabs_Ropp, Rabs_right by rlra. split; [rlra|]. intros _.
    apply Z.even_spec. rewrite Z.add_1_r, Z.even_succ, <- Z.negb_even, Ev. reflexivity.
Qed.
Lemma py_round2_near x k : (Rabs (x - IZR k / 100) < 1 / 200)%R -> py_round2 x = k # 100.
Proof.
  intro H. apply Rabs_def2 in H. destruct H as (H1 & H2). unfold py_round2.
  destruct (Rlt_le_dec x (IZR k / 100)) as [L|L].
  - assert (E : Int_part (x * 100) = (k - 1)%Z) by (apply Int_part_unique; rewrite minus_IZR; rlra).
    rewrite E. destruct (Rlt_dec (x * 100 - IZR (k - 1)) (/ 2)) as [K|K]; [rewrite minus_IZR in K; rlra|].
    destruct (Rlt_dec (/ 2) (x * 100 - IZR (k - 1))) as [G|G]; [|rewrite minus_IZR in G; rlra].
    f_equal. lia.
  - assert (E : Int_part (x * 100) = k) by (apply Int_part_unique; rlra).
    rewrite E. destruct (Rlt_dec (x * 100 - IZR k) (/ 2)) as [K|K]; [reflexivity|rlra].
Qed.

(** Revisions. *)
Lemma unique_seen l seen : unique_ids l seen = filter (fun j => negb (existsb (String.eqb j) seen)) (first_seen l).
Proof.
  revert seen. induction l as [|i l IH]; intro seen; [reflexivity|]. cbn [unique_ids first_seen filter].
  assert (F : forall s', filter (fun j => negb (existsb (String.eqb j) s')) (filter (fun j => negb (String.eqb i j)) (first_seen l)) =
     filter (fun j => negb (existsb (String.eqb j) (i :: s'))) (first_seen l)).
  { intro s'. clear IH. induction (first_seen l) as [|j t IHt]; [reflexivity|]. cbn [filter existsb].
    destruct (String.eqb_spec i j) as [->|N]; cbn [negb].
    - rewrite String.eqb_refl. cbn [orb negb]. exact IHt.
    - cbn [filter]. destruct (String.eqb_spec j i) as [->|_]; [congruence|]. cbn [orb].
      destruct (existsb (String.eqb j) s'); cbn [negb]; rewrite IHt; reflexivity. }
  rewrite F. destruct (existsb (String.eqb i) seen) eqn:E; cbn [negb].
  - rewrite IH. apply filter_ext. intro j. cbn [existsb]. destruct (String.eqb_spec j i) as [->|_]; [rewrite E; reflexivity|reflexivity].
  - rewrite IH. reflexivity.
Qed.
Lemma unique_first l : unique_ids l [] = first_seen l.
Proof. rewrite unique_seen. simpl. induction (first_seen l) as [|a t IH]; [reflexivity|]. simpl. congruence. Qed.
Lemma first_seen_in l i : In i (first_seen l) <-> In i l.
Proof.
  induction l as [|j l IH]; simpl; [tauto|]. rewrite filter_In, IH. destruct (String.eqb_spec j i) as [->|N]; simpl; intuition congruence.
Qed.
Lemma first_seen_nodup l : NoDup (first_seen l).
Proof.
  induction l as [|j l IH]; simpl; constructor.
  - rewrite filter_In. rewrite String.eqb_refl. intros (_ & K). discriminate K.
  - apply NoDup_filter. exact IH.
Qed.
Definition joined (rows : list (string * pyval)) : list pyval := joined_values (revisions rows) rows.
Lemma joined_known ids rows : known (joined_values ids rows) = concat (map (fun i => known (of_revision i rows)) ids).
Proof.
  assert (P : forall a b : list pyval, known (a ++ b)%list = (known a ++ known b)%list).
  { induction a as [|[v|] a IH]; intro b; simpl; try rewrite IH; reflexivity. }
  induction ids as [|i ids IH]; [reflexivity|]. destruct ids as [|j ids].
  - simpl. rewrite app_nil_r. reflexivity.
  - change (joined_values (i :: j :: ids) rows) with (of_revision i rows ++ None :: joined_values (j :: ids) rows)%list.
    rewrite P. change (known (None :: joined_values (j :: ids) rows)) with (known (joined_values (j :: ids) rows)). rewrite IH. reflexivity.
Qed.
Lemma partition_len ids rows : NoDup ids -> (forall r, In r rows -> In (fst r) ids) ->
  length (concat (map (fun i => of_revision i rows) ids)) = length rows.
Proof.
  intros ND. induction rows as [|[i v] rows IH]; intro C.
  - assert (E : concat (map (fun i => of_revision i []) ids) = []); [|rewrite E; reflexivity].
    clear. induction ids; simpl; [reflexivity|exact IHids].
  - simpl length. rewrite <- IH by (intros; apply C; right; assumption).
    assert (I : In i ids) by (apply (C (i, v)); left; reflexivity). clear IH C. revert I.
    induction ids as [|j ids IH]; [intros []|]. intro I. inversion ND as [|? ? N ND']; subst.
    cbn [map concat]. rewrite !app_length. unfold of_revision at 1 3. cbn [filter fst]. destruct (String.eqb_spec i j) as [->|D].
    + simpl length. cbn. do 2 f_equal. f_equal. clear -N. induction ids as [|k ids IH]; [reflexivity|]. cbn [map concat]. rewrite IH by (intro K; apply N; right; exact K).
      f_equal. unfold of_revision. cbn [filter fst]. destruct (String.eqb_spec j k) as [->|_]; [exfalso; apply N; left; reflexivity|reflexivity].
    + destruct I as [->|I]; [congruence|]. rewrite (IH ND' I). unfold of_revision. lia.
Qed.
Lemma joined_len ids rows : ids <> [] ->
  S (length (joined_values ids rows)) = (length (concat (map (fun i => of_revision i rows) ids)) + length ids)%nat.
Proof.
  induction ids as [|i ids IH]; [congruence|]. intros _. destruct ids as [|j ids].
  - simpl. rewrite app_nil_r. unfold of_revision. lia.
  - change (joined_values (i :: j :: ids) rows) with (of_revision i rows ++ None :: joined_values (j :: ids) rows)%list.
    cbn [map concat] in *. rewrite !app_length in *. cbn [length] in *. specialize (IH ltac:(discriminate)). lia.
Qed.
Lemma revisions_ne rows : rows <> [] -> revisions rows <> [].
Proof. destruct rows as [|[i v] rows]; [congruence|]. intros _. unfold revisions. simpl. discriminate. Qed.
Lemma joined_length rows : rows <> [] -> length (joined rows) = (length rows + length (revisions rows) - 1)%nat.
Proof.
  intro H. unfold joined. pose proof (joined_len (revisions rows) rows (revisions_ne rows H)) as J.
  rewrite partition_len in J; [lia|apply first_seen_nodup|]. intros r I. apply first_seen_in. apply in_map. exact I.
Qed.
Lemma lag1_app a b : lag_pairs 1 (a ++ None :: b)%list = (lag_pairs 1 a ++ lag_pairs 1 b)%list.
Proof.
  unfold lag_pairs. induction a as [|x a IH].
  - simpl. destruct b as [|y b]; [reflexivity|]. simpl. reflexivity.
  - destruct a as [|y a].
    + simpl in *. destruct x; destruct b; simpl; reflexivity.
    + simpl in *. destruct x as [x|], y as [y|]; simpl in *; rewrite IH; reflexivity.
Qed.
Lemma joined_lag1 ids rows : lag_pairs 1 (joined_values ids rows) = concat (map (fun i => lag_pairs 1 (of_revision i rows)) ids).
Proof.
  induction ids as [|i ids IH]; [reflexivity|]. destruct ids as [|j ids].
  - cbn [map concat]. rewrite app_nil_r. reflexivity.
  - change (joined_values (i :: j :: ids) rows) with (of_revision i rows ++ None :: joined_values (j :: ids) rows)%list.
    rewrite lag1_app, IH. reflexivity.
Qed.

(** Subtracting a number from a series. *)
Definition lower (m : Q) (x : list pyval) : list pyval := map (fun a => match a with Some v => Some (v - m) | None => None end) x.
Lemma lower_known m x : known (lower m x) = map (fun v => v - m) (known x).
Proof. induction x as [|[v|] x IH]; simpl; [reflexivity| |]; congruence. Qed.
Lemma lower_pairs m k x : lag_pairs k (lower m x) = map (fun p => (fst p - m, snd p - m)) (lag_pairs k x).
Proof.
  unfold lag_pairs, lower. rewrite skipn_map. generalize (skipn k x) as y. intro y. revert y.
  induction x as [|[u|] x IH]; intros [|[v|] y]; simpl; try reflexivity; try apply IH. rewrite IH. reflexivity.
Qed.
Lemma mean_lower m l : l <> [] -> mean_of self (map (fun v => v - m) l) == mean_of self l - m.
Proof.
  intro H. rewrite <- (mean_shift l (- m) H). reflexivity.
Qed.
Lemma lower_acov m k x : known x <> [] -> acov k (lower m x) == acov k x.
Proof.
  intro H. unfold acov. assert (M : series_mean (lower m x) == series_mean x - m).
  { unfold series_mean. rewrite lower_known. apply mean_lower. exact H. }
  rewrite (acov_around_compat _ _ k _ M). unfold acov_around. rewrite lower_pairs, count_map, total_map.
  rewrite (total_ext _ (fun p => (fst p - series_mean x) * (snd p - series_mean x))); [reflexivity|]. intros p _. cbn [fst snd]. ring.
Qed.
Lemma lower_varies m x : Varies (lower m x) <-> Varies x.
Proof.
  unfold Varies. rewrite lower_known. split.
  - intros (a & b & Ia & Ib & N). apply in_map_iff in Ia, Ib. destruct Ia as (u & <- & Iu), Ib as (v & <- & Iv).
    exists u, v. split; [exact Iu|]. split; [exact Iv|]. intro E. apply N. rewrite E. reflexivity.
  - intros (a & b & Ia & Ib & N). exists (a - m), (b - m). split; [apply in_map_iff; exists a; auto|]. split; [apply in_map_iff; exists b; auto|].
    intro E. apply N. qlra.
Qed.
Lemma order_lower m l k x : OrderStatistic l k x -> OrderStatistic (map (fun v => v - m) l) k (x - m).
Proof.
  assert (LE : forall u v, Qle_bool (u - m) (v - m) = Qle_bool u v).
  { intros u v. apply eq_true_iff_eq. rewrite !Qle_bool_iff. split; intro; qlra. }
  intros (I & C). split; [apply in_map_iff; exists x; auto|]. unfold smaller, not_larger in *.
  rewrite (filter_map_len (fun v => v - m) (fun y => negb (Qle_bool (x - m) y)) (fun y => negb (Qle_bool x y))),
    (filter_map_len (fun v => v - m) (fun y => Qle_bool y (x - m)) (fun y => Qle_bool y x)).
  - exact C. - intro y. apply LE. - intro y. rewrite LE. reflexivity.
Qed.
Lemma quantile_lower m l f t : Quantile l f t -> Quantile (map (fun v => v - m) l) f (t - m).
Proof.
  intros (k & s & a & b & E & T & A & B & V). exists k, s, (a - m), (b - m). rewrite map_length.
  split; [exact E|]. split; [exact T|]. split; [apply order_lower; exact A|]. split; [|rewrite V; ring].
  destruct B as [B|(T0 & K & ->)]; [left; apply order_lower; exact B|right; auto].
Qed.
Lemma sides_lower m t l : sides (t - m) (map (fun v => v - m) l) = sides t l.
Proof.
  induction l as [|x l IH]; simpl; [reflexivity|]. rewrite IH.
  assert (C : (x - m ?= t - m) = (x ?= t)); [|rewrite C; reflexivity].
  destruct (Qcompare x t) eqn:C.
  - apply (proj2 (Qeq_alt _ _)) in C. apply (proj1 (Qeq_alt _ _)). rewrite C. reflexivity.
  - apply (proj2 (Qlt_alt _ _)) in C. apply (proj1 (Qlt_alt _ _)). qlra.
  - apply (proj2 (Qgt_alt _ _)) in C. apply (proj1 (Qgt_alt _ _)). qlra.
Qed.

(** The whole computation for a non-empty frame. *)
Lemma revision_unfold cdf rows lag : in_order rows <> [] -> exists m, m == mean_of self (in_order rows) /\
  calculate_mtd_revision_stats cdf rows lag =
    bind (acf (lower m (joined rows)) "correlation" lag) (fun acf_value =>
    bind (match acf_value with
               | None => Ok None
               | Some [] => Err IndexError
               | Some (v :: l) => Ok (Some (py_round2 (Q2R (last l v))))
               end) (fun cor_r =>
    bind (runs_test cdf (lower m (joined rows)) "left.sided" "median") (fun r =>
    bind (lookup "p_value" r) (fun p =>
      Ok (RevisionStats (match p with OReal v => Some (py_round2 v) | _ => None end)
        (Some (py_round2 (revision_p (length (joined rows))))) cor_r))))).
Proof.
  intro H. assert (R : rows <> []) by (intros ->; apply H; reflexivity).
  assert (K : known (joined rows) = in_order rows) by apply joined_known.
  destruct (st_mean_value (in_order rows) H) as (m & Em & Hm). exists m. split; [exact Hm|].
  unfold calculate_mtd_revision_stats. destruct rows as [|r0 rows0]; [congruence|]. set (rows := r0 :: rows0) in *.
  cbv zeta. rewrite unique_first. change (first_seen (map fst rows)) with (revisions rows). change (joined_values (revisions rows) rows) with (joined rows).
  rewrite none_known, K, Em. cbn [bind]. fold (lower m (joined rows)).
  assert (LL : length (lower m (joined rows)) = length (joined rows)) by apply map_length. rewrite LL. reflexivity.
Qed.
Lemma revision_empty cdf rows lag : rows <> [] -> in_order rows = [] -> calculate_mtd_revision_stats cdf rows lag = Err ValueError.
Proof.
  intros R H. assert (K : known (joined rows) = in_order rows) by apply joined_known.
  unfold calculate_mtd_revision_stats. destruct rows as [|r0 rows0]; [congruence|]. set (rows := r0 :: rows0) in *.
  cbv zeta. rewrite unique_first. change (first_seen (map fst rows)) with (revisions rows). change (joined_values (revisions rows) rows) with (joined rows).
  rewrite none_known, K, H. reflexivity.
Qed.
Lemma bind_Ok {A B} (x : res A) (f : A -> res B) b : bind x f = Ok b -> exists a, x = Ok a /\ f a = Ok b.
Proof. destruct x as [a|e]; cbn [bind]; intro H; [eauto|discriminate H]. Qed.
Lemma total_perm {A} (g : A -> Q) l l' : Permutation l l' -> total_of g l == total_of g l'.
Proof.
  unfold total_of. intro P. induction P; simpl; [reflexivity|rewrite IHP; reflexivity|ring|rewrite IHP1; exact IHP2].
Qed.
Lemma count_perm' {A} (l l' : list A) : Permutation l l' -> count l = count l'.
Proof. intro P. unfold count. rewrite (Permutation_length P). reflexivity. Qed.
Lemma perm_concat_map {A B} (f : A -> list B) l l' : Permutation l l' -> Permutation (concat (map f l)) (concat (map f l')).
Proof. intro P. rewrite <- !flat_map_concat_map. apply Permutation_flat_map. exact P. Qed.
Lemma nth_last {A} (l : list A) v : nth_error (v :: l) (length l) = Some (last l v).
Proof.
  revert v. induction l as [|a l IH]; intro v; [reflexivity|]. simpl length. cbn [nth_error]. rewrite (IH a). f_equal.
  destruct l as [|b l]; [reflexivity|]. cbn [last]. clear. revert a v b. induction l as [|c l IH]; intros; [reflexivity|]. cbn [last]. apply IH; exact a.
Qed.
Lemma joined_in rows : known (joined rows) = in_order rows.
Proof. apply joined_known. Qed.
Lemma acor_lower m k x : known x <> [] -> acor k (lower m x) == acor k x.
Proof. intro H. unfold acor. rewrite !lower_acov by exact H. reflexivity. Qed.
Lemma cor_of_acf m rows lag r : in_order rows <> [] -> (0 <= lag)%Z ->
  acf (lower m (joined rows)) "correlation" (Some lag) = Ok (Some r) ->
  exists v l, r = v :: l /\ last l v == acor (Z.to_nat (Z.min lag (Z.of_nat (length (joined rows)) - 1))) (joined rows).
Proof.
  intros H L E. destruct (acf_inv _ _ _ E) as (K & Len & _ & N). rewrite <- joined_in in H.
  assert (J : (1 <= length (joined rows))%nat) by (destruct (joined rows); [contradiction (H eq_refl)|simpl; lia]).
  unfold entries, lower in Len. rewrite map_length in Len. fold (lower m (joined rows)) in *.
  destruct r as [|v l]; [simpl in Len; lia|]. exists v, l. split; [reflexivity|]. simpl length in Len.
  rewrite (N (length l) _ (nth_last l v)), (acor_lower m _ _ H). replace (length l) with (Z.to_nat (Z.min lag (Z.of_nat (length (joined rows)) - 1))) by lia. reflexivity.
Qed.
Lemma cor_value cdf rows lag r : (0 <= lag)%Z -> in_order rows <> [] -> calculate_mtd_revision_stats cdf rows (Some lag) = Ok r ->
  auto_cor_r r = Some (py_round2 (Q2R (acor (Z.to_nat (Z.min lag (Z.of_nat (length (joined rows)) - 1))) (joined rows)))).
Proof.
  intros L H E. destruct (revision_unfold cdf rows (Some lag) H) as (m & Hm & U). rewrite U in E. clear U.
  apply bind_Ok in E. destruct E as (av & Ea & E). apply bind_Ok in E. destruct E as (cr & Ec & E).
  apply bind_Ok in E. destruct E as (d & _ & E). apply bind_Ok in E. destruct E as (p & _ & E). apply Ok_inj in E. subst r. cbn [auto_cor_r].
  destruct av as [av|].
  - destruct (cor_of_acf m rows lag av H L Ea) as (v & l & -> & V). apply Ok_inj in Ec. subst cr. rewrite (Q2R_eq _ _ V). reflexivity.
  - exfalso. unfold acf in Ea. simpl (negb _) in Ea. cbv iota in Ea. rewrite <- joined_in in H.
    assert (K : known (lower m (joined rows)) <> []) by (rewrite lower_known; destruct (known (joined rows)); [congruence|discriminate]).
    destruct (lower m (joined rows)) as [|x0 x]; [contradiction (K eq_refl)|].
    apply bind_Ok in Ea. destruct Ea as (mv & _ & Ea). apply bind_Ok in Ea. destruct Ea as (c0 & _ & Ea). apply bind_Ok in Ea. destruct Ea as (l & _ & Ea).
    apply Ok_inj in Ea. discriminate Ea.
Qed.
Lemma acor_1 rows : in_order rows <> [] -> acor 1 (joined rows) == revision_acor rows.
Proof.
  intro H. unfold acor, revision_acor. rewrite acov_0, joined_in. cbv zeta.
  unfold acov, acov_around, series_mean. rewrite joined_in. unfold joined. rewrite joined_lag1. fold (within rows). reflexivity.
Qed.
Lemma cor_r_value cdf rows r : calculate_mtd_revision_stats cdf rows (Some 1%Z) = Ok r -> (2 <= length rows)%nat ->
  auto_cor_r r = Some (py_round2 (Q2R (revision_acor rows))).
Proof.
  intros E L. assert (R : rows <> []) by (destruct rows; [simpl in L; lia|discriminate]).
  destruct (in_order rows) as [|x0 l0] eqn:IO. { rewrite (revision_empty cdf rows _ R IO) in E. discriminate E. }
  assert (H : in_order rows <> []) by (rewrite IO; discriminate). rewrite (cor_value cdf rows 1 r ltac:(lia) H E).
  pose proof (joined_length rows R) as J. pose proof (revisions_ne rows R) as RN.
  assert (1 <= length (revisions rows))%nat by (destruct (revisions rows); [congruence|simpl; lia]).
  replace (Z.to_nat (Z.min 1 (Z.of_nat (length (joined rows)) - 1))) with 1%nat by lia.
  rewrite (Q2R_eq _ _ (acor_1 rows H)). reflexivity.
Qed.
Lemma lower_threshold m rows t : Quantile (in_order rows) (1 # 2) t -> ThresholdOf "median" (known (lower m (joined rows))) (t - m).
Proof. intro Q. left. split; [reflexivity|]. rewrite lower_known, joined_in. apply quantile_lower. exact Q. Qed.
Lemma lower_ne m rows : in_order rows <> [] -> known (lower m (joined rows)) <> [].
Proof. intro H. rewrite lower_known, joined_in. destruct (in_order rows); [congruence|discriminate]. Qed.
Lemma runs_lower cdf m rows t : in_order rows <> [] -> Quantile (in_order rows) (1 # 2) t ->
  runs_test cdf (lower m (joined rows)) "left.sided" "median" =
  runs_out cdf (Z.of_nat (above t (in_order rows))) (Z.of_nat (below t (in_order rows))) (Z.of_nat (runs_of (sides t (in_order rows)))) "left.sided".
Proof.
  intros H Q. rewrite (test_out cdf (lower m (joined rows)) "left.sided" "median" (t - m) ltac:(simpl; auto) (lower_ne m rows H) (lower_threshold m rows t Q)).
  unfold above, below. rewrite lower_known, joined_in, sides_lower. reflexivity.
Qed.
Lemma runs_value cdf rows lag r t : in_order rows <> [] -> calculate_mtd_revision_stats cdf rows lag = Ok r ->
  Quantile (in_order rows) (1 # 2) t ->
  EnoughRuns (above t (in_order rows)) (below t (in_order rows)) /\
  ww_run r = Some (py_round2 (cdf (runs_statistic (above t (in_order rows)) (below t (in_order rows)) (runs_of (sides t (in_order rows)))))).
Proof.
  intros H E Q. destruct (revision_unfold cdf rows lag H) as (m & Hm & U). rewrite U in E. clear U.
  apply bind_Ok in E. destruct E as (av & _ & E). apply bind_Ok in E. destruct E as (cr & _ & E).
  apply bind_Ok in E. destruct E as (d & Ed & E). apply bind_Ok in E. destruct E as (p & Ep & E). apply Ok_inj in E. subst r. cbn [ww_run].
  rewrite (runs_lower cdf m rows t H Q) in Ed.
  set (P := above t (in_order rows)) in *. set (Qn := below t (in_order rows)) in *. set (N := runs_of (sides t (in_order rows))) in *.
  destruct (runs_out_enough cdf P Qn N "left.sided") as (A & B).
  assert (En : EnoughRuns P Qn).
  { unfold EnoughRuns in *. destruct (Nat.le_gt_cases 1 P), (Nat.le_gt_cases 1 Qn), (Nat.le_gt_cases 3 (P + Qn)); try (rewrite B in Ed by lia; discriminate Ed). lia. }
  split; [exact En|]. destruct (A En) as (mm & v & Eq0 & _). rewrite Eq0 in Ed. apply Ok_inj in Ed. subst d. cbn [lookup] in Ep.
  simpl (String.eqb _ _) in Ep. cbv iota in Ep. apply Ok_inj in Ep. subst p. reflexivity.
Qed.
Lemma revision_ok cdf rows lag : in_order rows <> [] -> (0 <= lag)%Z -> Spread (in_order rows) ->
  (exists t, Quantile (in_order rows) (1 # 2) t /\ EnoughRuns (above t (in_order rows)) (below t (in_order rows))) ->
  exists r, calculate_mtd_revision_stats cdf rows (Some lag) = Ok r /\
    auto_cor_r r = Some (py_round2 (Q2R (acor (Z.to_nat (Z.min lag (Z.of_nat (length (joined rows)) - 1))) (joined rows)))).
Proof.
  intros H L S (t & Q & En). assert (X : exists r, calculate_mtd_revision_stats cdf rows (Some lag) = Ok r).
  { destruct (revision_unfold cdf rows (Some lag) H) as (m & Hm & U). rewrite U.
    assert (V : Varies (lower m (joined rows))) by (apply lower_varies; unfold Varies; rewrite joined_in; exact S).
    destruct (proj1 (acf_correlation _ (Some lag) (lower_ne m rows H)) V) as (l & E & _). rewrite E. cbn [bind].
    destruct (cor_of_acf m rows lag l H L E) as (v & l' & -> & _). cbn [bind].
    rewrite (runs_lower cdf m rows t H Q). destruct (proj1 (runs_out_enough cdf _ _ (runs_of (sides t (in_order rows))) "left.sided") En) as (mm & vv & Eq0 & _).
    rewrite Eq0. eexists. reflexivity. }
  destruct X as (r & E). exists r. split; [exact E|]. apply (cor_value cdf rows lag r L H E).
Qed.
Lemma revision_p_bounds n : (1 <= n)%nat -> 0 <= py_round2 (revision_p n) <= 6 # 100 /\ ((158 <= n)%nat -> py_round2 (revision_p n) == 0).
Proof.
  intro N. assert (S1 : (1 <= sqrt (INR n))%R). { rewrite <- sqrt_1. apply sqrt_le_1_alt. apply (le_INR 1 n N). }
  assert (C : (Q2R (6270678 # 100000000) = 6270678 / 100000000)%R) by reflexivity.
  assert (I : (0 < / sqrt (INR n) <= 1)%R).
  { split; [apply Rinv_0_lt_compat; rlra|]. rewrite <- Rinv_1. apply Rinv_le_contravar; rlra. }
  assert (B : (0 <= revision_p n <= 6270678 / 100000000)%R). { unfold revision_p. rewrite C. unfold Rdiv at 1 3. split; [apply Rmult_le_pos; rlra|]. rlra. }
  destruct (py_round2_spec (revision_p n)) as (k & E & D & _). 
  assert (D1 : (- (1 / 200) <= revision_p n - IZR k / 100)%R) by (pose proof (Rle_abs (- (revision_p n - IZR k / 100))) as A0; rewrite Rabs_Ropp in A0; rlra).
  assert (D2 : (revision_p n - IZR k / 100 <= 1 / 200)%R) by (pose proof (Rle_abs (revision_p n - IZR k / 100)); rlra).
  assert (K1 : (-1 < k)%Z) by (apply lt_IZR; rlra). assert (K2 : (k < 7)%Z) by (apply lt_IZR; rlra).
  split; [rewrite E; split; unfold Qle; simpl; lia|].
  intro G. assert (S2 : (1255 / 100 < sqrt (INR n))%R).
  { replace (1255 / 100)%R with (sqrt (1255 / 100 * (1255 / 100))) by (apply sqrt_square; rlra). apply sqrt_lt_1_alt. split; [rlra|].
    apply (Rlt_le_trans _ (INR 158)); [simpl; rlra|apply le_INR; exact G]. }
  rewrite (py_round2_near (revision_p n) 0); [reflexivity|]. apply Rabs_def1; [|rlra].
  assert (I2 : (/ sqrt (INR n) < / (1255 / 100))%R) by (apply Rinv_lt_contravar; [apply Rmult_lt_0_compat; rlra|exact S2]).
  unfold revision_p. rewrite C. unfold Rdiv in *. rlra.
Qed.
Lemma lag_two_value cdf rows t k : Spread (in_order rows) -> Quantile (in_order rows) (1 # 2) t ->
  EnoughRuns (above t (in_order rows)) (below t (in_order rows)) -> (3 <= length (joined rows))%nat ->
  (Rabs (Q2R (acor 2 (joined rows)) - IZR k / 100) < 1 / 200)%R ->
  exists r, calculate_mtd_revision_stats cdf rows (Some 2%Z) = Ok r /\ auto_cor_r r = Some (k # 100).
Proof.
  intros S Q En J D. assert (H : in_order rows <> []). { destruct S as (a & _ & I & _). intro E. rewrite E in I. destruct I. }
  destruct (revision_ok cdf rows 2 H ltac:(lia) S (ex_intro _ t (conj Q En))) as (r & E & A). exists r. split; [exact E|]. rewrite A.
  replace (Z.to_nat (Z.min 2 (Z.of_nat (length (joined rows)) - 1))) with 2%nat by lia. rewrite (py_round2_near _ k D). reflexivity.
Qed.
Lemma median_is l m : l <> [] -> (forall v, st_median l = Ok v -> v == m) -> Quantile l (1 # 2) m.
Proof.
  intros H E. destruct (st_median_value l H) as (v & Ev & (k & t & a & b & H1 & H2 & H3 & H4 & H5)).
  exists k, t, a, b. split; [exact H1|]. split; [exact H2|]. split; [exact H3|]. split; [exact H4|]. rewrite <- (E v Ev). exact H5.
Qed.

(** The statements of PropertiesStdErr.v. *)
Lemma C44_mean_proof : forall l,
  ((length l < 2)%nat -> compute_std_err_from_mean (numbers l) = Err ValueError) /\
  ((2 <= length l)%nat -> ~ Spread l \/ length l = 2%nat ->
     compute_std_err_from_mean (numbers l) = Ok (StdErr (Some 0%R) 0 0 (Z.of_nat (length l)))) /\
  ((3 <= length l)%nat -> Spread l ->
     (forall e, autocor_coef (map Some l) = Err e -> compute_std_err_from_mean (numbers l) = Err e) /\
     forall a, autocor_coef (map Some l) = Ok (Some a) ->
       (a == 1 -> compute_std_err_from_mean (numbers l) = Err ZeroDivisionError) /\
       (~ a == 1 -> compute_std_err_from_mean (numbers l) =
          Ok (StdErr (Some (inflation a * plain_error (sample_variance l) (length l))%R) (flag_of a) a (Z.of_nat (length l))))).
Proof.
  intro l. split; [|split].
  - intro L. unfold compute_std_err_from_mean, st_variance. rewrite num_length. apply Nat.ltb_lt in L. rewrite L. reflexivity.
  - intros L C. apply (proj1 (from_mean l L) C).
  - intros L S. assert (L2 : (2 <= length l)%nat) by lia. rewrite (proj2 (from_mean l L2) S L). split.
    + intros e E. rewrite E. reflexivity.
    + intros a E. rewrite E. cbn [bind]. split; intro H.
      * unfold vif. rewrite fdiv_0; [reflexivity|]. rewrite H. reflexivity.
      * rewrite (vif_value a H). reflexivity.
Qed.

Lemma C44_bounds_proof : forall l r, (3 <= length l)%nat -> Spread l -> compute_std_err_from_mean (numbers l) = Ok r ->
  exists s, se r = Some s /\ (0 < plain_error (sample_variance l) (length l) <= s)%R /\
    (s < 15 * plain_error (sample_variance l) (length l))%R /\
    (ratio_flag r = 1%Z <-> impossible (ar_1 r)) /\ (ratio_flag r = 1%Z \/ ratio_flag r = 0%Z) /\
    (ratio_flag r = 1%Z -> s = plain_error (sample_variance l) (length l)).
Proof.
  intros l r L S E. assert (L2 : (2 <= length l)%nat) by lia. destruct (C44_mean_proof l) as (_ & _ & M). destruct (M L S) as (M1 & M2).
  destruct (autocor_coef (map Some l)) as [c|e] eqn:C; [|rewrite (M1 e eq_refl) in E; discriminate E].
  destruct (coef_some l c L2 C) as (a & ->). destruct (M2 a eq_refl) as (N1 & N2).
  destruct (Qeq_dec a 1) as [A|A]; [rewrite (N1 A) in E; discriminate E|]. rewrite (N2 A) in E. apply Ok_inj in E. subst r.
  cbn [se ratio_flag ar_1]. eexists. split; [reflexivity|].
  assert (PP : (0 < plain_error (sample_variance l) (length l))%R).
  { apply plain_pos; [|lia]. apply (proj1 (proj1 (spread_var l L2))). exact S. }
  set (p := plain_error (sample_variance l) (length l)) in *. pose proof (inflation_bounds a) as (I1 & I2).
  split; [split; [exact PP|]|].
  { rewrite <- (Rmult_1_l p) at 1. apply Rmult_le_compat_r; [rlra|exact I1]. }
  split; [apply Rmult_lt_compat_r; assumption|].
  unfold impossible, flag_of, inflation. split; [|split].
  - destruct (Qlt_le_dec a (-1)); [tauto|]. destruct (Qlt_le_dec 1 a); [tauto|]. split; [intro K; discriminate K|]. intros [K|K]; qlra.
  - destruct (Qlt_le_dec a (-1)); [tauto|]. destruct (Qlt_le_dec 1 a); tauto.
  - intro F. destruct (Qlt_le_dec a (3 # 10)); [ring|]. destruct (Qlt_le_dec a (99 # 100)); [|ring].
    destruct (Qlt_le_dec a (-1)); [qlra|]. destruct (Qlt_le_dec 1 a); [qlra|discriminate F].
Qed.

Lemma C44_shift_proof : forall l c r, compute_std_err_from_mean (numbers l) = Ok r ->
  exists r', compute_std_err_from_mean (numbers (map (fun v => v + c) l)) = Ok r' /\
    se r' = se r /\ ratio_flag r' = ratio_flag r /\ ar_1 r' == ar_1 r /\ se_len r' = se_len r.
Proof.
  intros l c r E. destruct (C44_mean_proof l) as (A1 & A2 & A3). destruct (C44_mean_proof (map (fun v => v + c) l)) as (B1 & B2 & B3).
  rewrite map_length in *.
  destruct (Nat.le_gt_cases 2 (length l)) as [L|L]; [|rewrite (A1 L) in E; discriminate E].
  destruct (spread_dec l) as [S|S].
  - destruct (Nat.eq_dec (length l) 2) as [L2|L2].
    + rewrite (A2 L (or_intror L2)) in E. apply Ok_inj in E. subst r. rewrite (B2 L (or_intror L2)). eexists. split; [reflexivity|]. repeat split; reflexivity.
    + destruct (A3 ltac:(lia) S) as (M1 & M2). destruct (B3 ltac:(lia) (spread_shift l c S)) as (N1 & N2).
      destruct (coef_shift l c L) as (_ & CS).
      destruct (autocor_coef (map Some l)) as [k|e] eqn:C; [|rewrite (M1 e eq_refl) in E; discriminate E].
      destruct (coef_some l k L C) as (a & ->). destruct (M2 a eq_refl) as (P1 & P2). destruct (CS a eq_refl) as (a' & Ea' & Va').
      destruct (Qeq_dec a 1) as [A|A]; [rewrite (P1 A) in E; discriminate E|]. rewrite (P2 A) in E. apply Ok_inj in E. subst r.
      destruct (N2 a' Ea') as (_ & Q2). eexists. split; [apply Q2; rewrite Va'; exact A|].
      cbn [se ratio_flag ar_1 se_len]. split; [|split; [apply flag_compat; exact Va'|split; [exact Va'|reflexivity]]].
      rewrite (inflation_compat _ _ Va'). unfold plain_error. rewrite (Q2R_eq _ _ (var_shift l c)). reflexivity.
  - assert (S' : ~ Spread (map (fun v => v + c) l)) by (intro K; apply S; exact (spread_unshift l c K)).
    rewrite (A2 L (or_introl S)) in E. apply Ok_inj in E. subst r. rewrite (B2 L (or_introl S')). eexists. split; [reflexivity|]. repeat split; reflexivity.
Qed.

Lemma C44_scale_refuted_proof : exists l r r' s s',
  compute_std_err_from_mean (numbers l) = Ok r /\ se r = Some s /\
  compute_std_err_from_mean (numbers (map (fun v => 2 * v) l)) = Ok r' /\ se r' = Some s' /\
  (0 < s)%R /\ (s' = sqrt 2 * s)%R /\ s' <> (2 * s)%R.
Proof.
  set (l := [2; 1; 1; 1; 0]). set (l' := map (fun v => 2 * v) l).
  assert (S : Spread l) by (exists 2, 1; split; [simpl; auto|]; split; [simpl; auto|]; discriminate).
  assert (S' : Spread l') by (exists (2 * 2), (2 * 1); split; [simpl; auto|]; split; [simpl; auto|]; discriminate).
  destruct (C44_mean_proof l) as (_ & _ & A). destruct (C44_mean_proof l') as (_ & _ & B).
  destruct (A ltac:(simpl; lia) S) as (_ & A2). destruct (B ltac:(simpl; lia) S') as (_ & B2). clear A B.
  set (c := autocor_coef (map Some l)) in *. vm_compute in c. set (c' := autocor_coef (map Some l')) in *. vm_compute in c'.
  unfold c in A2. unfold c' in B2. destruct (A2 _ eq_refl) as (_ & A3). destruct (B2 _ eq_refl) as (_ & B3). clear A2 B2 c c'.
  specialize (A3 ltac:(intro K; vm_compute in K; discriminate K)). specialize (B3 ltac:(intro K; vm_compute in K; discriminate K)).
  exists l. eexists. eexists. eexists. eexists. split; [exact A3|]. split; [reflexivity|]. split; [exact B3|]. split; [reflexivity|].
  assert (V : sample_variance l == 1 # 2) by (vm_compute; reflexivity).
  assert (V' : sample_variance l' == 2) by (vm_compute; reflexivity).
  assert (P : (0 < plain_error (1 # 2) 5)%R) by (apply plain_pos; [reflexivity|lia]).
  assert (PL : plain_error (sample_variance l) (length l) = plain_error (1 # 2) 5).
  { unfold plain_error. rewrite (Q2R_eq _ _ V). reflexivity. }
  assert (PL' : plain_error (sample_variance l') (length l') = (2 * plain_error (1 # 2) 5)%R).
  { unfold plain_error. rewrite (Q2R_eq _ _ V'). change (length l') with 5%nat.
    assert (Sq : (sqrt (Q2R 2) = 2 * sqrt (Q2R (1 # 2)))%R).
    { replace (Q2R 2) with (4 * Q2R (1 # 2))%R by (unfold Q2R; simpl; field). rewrite sqrt_mult_alt by rlra.
      replace 4%R with (2 * 2)%R by ring. rewrite sqrt_square by rlra. reflexivity. }
    rewrite Sq. unfold Rdiv. ring. }
  rewrite PL, PL'. clear A3 B3 PL PL'. set (p := plain_error (1 # 2) 5) in *.
  match goal with |- context [(inflation ?u * p)%R] => assert (I1 : inflation u = sqrt 2) end.
  { rewrite (inflation_compat _ (1 # 3)) by (vm_compute; reflexivity). unfold inflation.
    destruct (Qlt_le_dec (1 # 3) (3 # 10)) as [K|K]; [vm_compute in K; discriminate K|].
    destruct (Qlt_le_dec (1 # 3) (99 # 100)) as [G|G]; [|vm_compute in G; exfalso; apply G; reflexivity].
    f_equal. unfold Q2R. simpl. field. }
  match goal with |- context [(inflation ?u * (2 * p))%R] => assert (I2 : inflation u = 1%R) end.
  { rewrite (inflation_compat _ (2 # 7)) by (vm_compute; reflexivity). unfold inflation.
    destruct (Qlt_le_dec (2 # 7) (3 # 10)) as [K|K]; [reflexivity|vm_compute in K; exfalso; apply K; reflexivity]. }
  rewrite I1, I2. pose proof (sqrt_lt_R0 2 ltac:(rlra)) as S2. pose proof (sqrt_def 2 ltac:(rlra)) as SD.
  split; [apply Rmult_lt_0_compat; assumption|]. split; [replace (sqrt 2 * (sqrt 2 * p))%R with (sqrt 2 * sqrt 2 * p)%R by ring; rewrite SD; ring|].
  intro K. assert (E : sqrt 2 = 1%R). { apply (Rmult_eq_reg_r (2 * p)); [rlra|rlra]. }
  rewrite E in SD. rlra.
Qed.

Lemma C44_sum_proof : forall data,
  (forall e, compute_std_err_from_mean data = Err e -> compute_std_err_from_sum data = Err e) /\
  (forall r s, compute_std_err_from_mean data = Ok r -> se r = Some s ->
     compute_std_err_from_sum data =
       Ok (StdErr (Some (s * INR (length data))%R) (ratio_flag r) (ar_1 r) (se_len r))).
Proof.
  intro data. unfold compute_std_err_from_sum. split.
  - intros e E. rewrite E. reflexivity.
  - intros r s E S. rewrite E. cbn [bind]. rewrite S, <- INR_IZR_INZ. reflexivity.
Qed.

Lemma C44_last_value_raises_proof : forall c z k, (2 <= k)%nat -> ~ c == z ->
  compute_std_err_from_mean (numbers (repeat c k ++ [z])%list) = Err ZeroDivisionError.
Proof.
  intros c z k K N. set (l := (repeat c k ++ [z])%list).
  assert (L : (3 <= length l)%nat) by (unfold l; rewrite app_length, repeat_length; simpl; lia).
  assert (S : Spread l). { exists c, z. split; [|split; [|exact N]]; unfold l; apply in_or_app; [left|right; left; reflexivity].
    destruct k; [lia|left; reflexivity]. }
  destruct (C44_mean_proof l) as (_ & _ & A). destruct (A L S) as (A1 & _). apply A1.
  destruct (C34_coefficient_raises_proof (map Some l)) as (_ & R). apply (R c z k); [lia|apply known_map].
Qed.

Lemma C44_missing_proof : forall data, (2 <= length data)%nat ->
  (In PyNone data -> compute_std_err_from_mean data = Err TypeError) /\
  (In NaN data -> ~ In PyNone data ->
     compute_std_err_from_mean data = Ok (StdErr (Some 0%R) 0 0 (Z.of_nat (length data)))).
Proof.
  intros data L. assert (B : Nat.ltb (length data) 2 = false) by (apply Nat.ltb_ge; exact L).
  assert (T : forall p x, p x = true -> In x data -> existsb p data = true) by (intros p x Px I; apply existsb_exists; eauto).
  unfold compute_std_err_from_mean, st_variance. rewrite B. split.
  - intro I. rewrite (T is_none PyNone eq_refl I). reflexivity.
  - intros I N. rewrite (T is_missing NaN eq_refl I).
    assert (E : existsb is_none data = false).
    { apply not_true_iff_false. rewrite existsb_exists. intros (x & Ix & Px). destruct x; try discriminate Px. contradiction. }
    rewrite E. reflexivity.
Qed.

Lemma C44_median_proof : forall data,
  compute_std_err_from_median_no_vif data = compute_std_err_from_median_no_vif (numbers (present data)) /\
  (forall w, QuartileRange (present data) w -> 0 < w -> (3 <= length (present data))%nat ->
     compute_std_err_from_median_no_vif data =
       Ok (StdErr (Some (quartile_error w (length (present data)))) 0 0 (Z.of_nat (length (present data))))) /\
  ((forall w, QuartileRange (present data) w -> ~ 0 < w) \/ (length (present data) < 3)%nat ->
     compute_std_err_from_median_no_vif data = Ok (StdErr (Some 0%R) 0 0 (Z.of_nat (length (present data))))).
Proof.
  intro data. split; [rewrite !median_plain, present_num; reflexivity|]. rewrite !median_plain. cbv zeta. split.
  - intros w W P L. assert (H : present data <> []) by (destruct (present data); [simpl in L; lia|discriminate]).
    destruct (iqr_value _ H) as (w' & E & W'). rewrite E. cbn [bind]. pose proof (range_unique _ _ _ W W') as U.
    assert (B : Qlt_bool 0 w' && (2 <? Z.of_nat (length (present data)))%Z = true).
    { apply andb_true_iff. rewrite Qlt_bool_iff, Z.ltb_lt. split; [qlra|lia]. }
    rewrite B, <- INR_IZR_INZ, factor_eq by lia. rewrite (quartile_compat _ _ _ U). reflexivity.
  - intro C. destruct (present data) as [|x0 l0] eqn:PD; [reflexivity|]. rewrite <- PD in *.
    assert (H : present data <> []) by (rewrite PD; discriminate).
    destruct (iqr_value _ H) as (w' & E & W'). rewrite E. cbn [bind].
    assert (B : Qlt_bool 0 w' && (2 <? Z.of_nat (length (present data)))%Z = false); [|rewrite B; reflexivity].
    apply andb_false_iff. destruct C as [C|C].
    + left. apply not_true_iff_false. rewrite Qlt_bool_iff. apply C. exact W'.
    + right. apply Z.ltb_ge. lia.
Qed.

Lemma C44_median_inflated_proof : forall l w a,
  QuartileRange l w -> 0 < w -> (3 <= length l)%nat -> autocor_coef (map Some l) = Ok (Some a) -> ~ a == 1 ->
  compute_std_err_from_median_vif (numbers l) =
    Ok (StdErr (Some (inflation a * quartile_error w (length l))%R) (flag_of a) a (Z.of_nat (length l))).
Proof.
  intros l w a W P L E A. unfold compute_std_err_from_median_vif. rewrite present_known, present_len, present_num, num_known, E.
  assert (H : l <> []) by (destruct l; [simpl in L; lia|discriminate]).
  destruct (iqr_value _ H) as (w' & Eq0 & W'). rewrite Eq0. cbn [bind]. pose proof (range_unique _ _ _ W W') as U.
  assert (B : Qlt_bool 0 w' && (2 <? Z.of_nat (length l))%Z = true).
  { apply andb_true_iff. rewrite Qlt_bool_iff, Z.ltb_lt. split; [qlra|lia]. }
  rewrite B, (vif_value a A). cbn [bind]. rewrite num_none, num_missing, num_length, <- INR_IZR_INZ, factor_eq by lia.
  rewrite (quartile_compat _ _ _ U). reflexivity.
Qed.

Lemma C44_median_inflated_missing_refuted_proof : forall data w a,
  QuartileRange (present data) w -> 0 < w -> (3 <= length (present data))%nat ->
  autocor_coef (map Some (present data)) = Ok (Some a) -> ~ a == 1 ->
  (In PyNone data -> compute_std_err_from_median_vif data = Err TypeError) /\
  (In NaN data -> ~ In PyNone data -> exists r, compute_std_err_from_median_vif data = Ok r /\ se r = None).
Proof.
  intros data w a W P L E A. unfold compute_std_err_from_median_vif. rewrite present_known, present_len.
  assert (EC : autocor_coef (map to_pyval data) = Ok (Some a)).
  { rewrite <- E. unfold autocor_coef. rewrite present_known, none_known, known_map. reflexivity. }
  rewrite EC. assert (H : present data <> []) by (destruct (present data); [simpl in L; lia|discriminate]).
  destruct (iqr_value _ H) as (w' & Eq0 & W'). rewrite Eq0. cbn [bind]. pose proof (range_unique _ _ _ W W') as U.
  assert (B : Qlt_bool 0 w' && (2 <? Z.of_nat (length (present data)))%Z = true).
  { apply andb_true_iff. rewrite Qlt_bool_iff, Z.ltb_lt. split; [qlra|lia]. }
  rewrite B, (vif_value a A). cbn [bind].
  assert (T : forall p x, p x = true -> In x data -> existsb p data = true) by (intros p x Px I; apply existsb_exists; eauto).
  split.
  - intro I. rewrite (T is_none PyNone eq_refl I). reflexivity.
  - intros I N. rewrite (T is_missing NaN eq_refl I).
    assert (En : existsb is_none data = false).
    { apply not_true_iff_false. rewrite existsb_exists. intros (x & Ix & Px). destruct x; try discriminate Px. contradiction. }
    rewrite En. eexists. split; reflexivity.
Qed.

Lemma C44_case_proof : (3 <= length falling)%nat /\ Spread falling /\
  (exists a, autocor_coef (map Some falling) = Ok (Some a) /\ a == 1 # 3 /\ ~ a == 1) /\
  QuartileRange [1; 2; 3; 4; 6] 2 /\ present [Num 1; NaN; Num 2; PyNone; Num 3; Num 4; Num 6] = [1; 2; 3; 4; 6] /\
  exists a, autocor_coef (map Some [1; 2; 3; 4; 6]) = Ok (Some a) /\ ~ a == 1.
Proof.
  split; [simpl; lia|]. split; [exists 2, 1; split; [simpl; auto|]; split; [simpl; auto|]; discriminate|].
  split; [eexists; split; [vm_compute; reflexivity|]; split; [reflexivity|]; intro K; vm_compute in K; discriminate K|].
  split; [|split; [reflexivity|eexists; split; [vm_compute; reflexivity|]; intro K; vm_compute in K; discriminate K]].
  destruct (iqr_value [1; 2; 3; 4; 6]) as (w & E & W); [discriminate|].
  assert (M : w == 2) by (vm_compute in E; apply Ok_some_inj' in E; subst w; reflexivity).
  destruct W as (a & b & A & B & V). exists a, b. split; [exact A|]. split; [exact B|]. rewrite <- M. exact V.
Qed.

Lemma C45_within_revisions_proof : forall norm_cdf rows r,
  calculate_mtd_revision_stats norm_cdf rows (Some 1%Z) = Ok r -> (2 <= length rows)%nat ->
  exists q, auto_cor_r r = Some q /\ Rounded2 (Q2R (revision_acor rows)) q.
Proof.
  intros cdf rows r E L. rewrite (cor_r_value cdf rows r E L). eexists. split; [reflexivity|apply py_round2_spec].
Qed.

Lemma C45_order_proof : forall norm_cdf rows rows' r r', (2 <= length rows)%nat ->
  Permutation (revisions rows) (revisions rows') ->
  (forall i, of_revision i rows = of_revision i rows') ->
  calculate_mtd_revision_stats norm_cdf rows (Some 1%Z) = Ok r ->
  calculate_mtd_revision_stats norm_cdf rows' (Some 1%Z) = Ok r' ->
  auto_cor_r r = auto_cor_r r'.
Proof.
  intros cdf rows rows' r r' L P H E E'.
  assert (L' : (2 <= length rows')%nat).
  { assert (K : length rows' = length rows); [|lia].
    rewrite <- (partition_len (revisions rows') rows'), <- (partition_len (revisions rows) rows).
    - apply Permutation_length. rewrite (map_ext (fun i => of_revision i rows) (fun i => of_revision i rows')) by exact H. apply perm_concat_map. apply Permutation_sym. exact P.
    - apply first_seen_nodup. - intros q I. apply first_seen_in, in_map. exact I.
    - apply first_seen_nodup. - intros q I. apply first_seen_in, in_map. exact I. }
  rewrite (cor_r_value cdf rows r E L), (cor_r_value cdf rows' r' E' L'). do 2 f_equal. apply Q2R_eq.
  assert (P1 : Permutation (in_order rows) (in_order rows')).
  { unfold in_order. rewrite (map_ext (fun i => known (of_revision i rows)) (fun i => known (of_revision i rows'))) by (intro i; rewrite H; reflexivity).
    apply perm_concat_map. exact P. }
  assert (P2 : Permutation (within rows) (within rows')).
  { unfold within. rewrite (map_ext (fun i => lag_pairs 1 (of_revision i rows)) (fun i => lag_pairs 1 (of_revision i rows'))) by (intro i; rewrite H; reflexivity).
    apply perm_concat_map. exact P. }
  unfold revision_acor. cbv zeta.
  assert (M : mean_of self (in_order rows) == mean_of self (in_order rows')).
  { unfold mean_of. rewrite (total_perm _ _ _ P1), (count_perm' _ _ P1). reflexivity. }
  assert (D : codev self self (in_order rows) == codev self self (in_order rows')).
  { unfold codev. rewrite (total_perm _ _ _ P1). apply total_ext. intros x _. rewrite M. reflexivity. }
  rewrite D, (count_perm' _ _ P1), (count_perm' _ _ P2), (total_perm _ _ _ P2).
  rewrite (total_ext _ (fun p => (fst p - mean_of self (in_order rows')) * (snd p - mean_of self (in_order rows')))); [reflexivity|].
  intros p _. rewrite M. reflexivity.
Qed.

Lemma C45_lag_two_refuted_proof : exists rows rows',
  Permutation (revisions rows) (revisions rows') /\ (forall i, of_revision i rows = of_revision i rows') /\
  forall norm_cdf, exists r r' q q',
    calculate_mtd_revision_stats norm_cdf rows (Some 2%Z) = Ok r /\ auto_cor_r r = Some q /\
    calculate_mtd_revision_stats norm_cdf rows' (Some 2%Z) = Ok r' /\ auto_cor_r r' = Some q' /\ ~ q == q'.
Proof.
  exists [("A", Some 0); ("B", Some 1); ("C", Some 5); ("D", Some 9)], [("B", Some 1); ("A", Some 0); ("D", Some 9); ("C", Some 5)].
  split; [|split].
  - vm_compute. etransitivity; [apply perm_swap|]. apply perm_skip. apply perm_skip. apply perm_swap.
  - intro i. unfold of_revision. cbn [filter fst].
    destruct (String.eqb_spec "A" i) as [<-|NA]; [reflexivity|]. destruct (String.eqb_spec "B" i) as [<-|NB]; [reflexivity|].
    destruct (String.eqb_spec "C" i) as [<-|NC]; [reflexivity|]. destruct (String.eqb_spec "D" i) as [<-|ND]; reflexivity.
  - intro cdf.
    destruct (lag_two_value cdf [("A", Some 0); ("B", Some 1); ("C", Some 5); ("D", Some 9)] 3 21) as (r & E & A).
    { exists 0, 1. split; [vm_compute; auto|]. split; [vm_compute; auto|discriminate]. }
    { apply median_is; [discriminate|]. intros v K. vm_compute in K. apply Ok_inj in K. subst v. reflexivity. }
    { unfold EnoughRuns. vm_compute. lia. }
    { vm_compute. lia. }
    { match goal with |- context [Q2R ?u] => set (w := u) end. vm_compute in w. unfold w, Q2R. simpl. apply Rabs_def1; rlra. }
    destruct (lag_two_value cdf [("B", Some 1); ("A", Some 0); ("D", Some 9); ("C", Some 5)] 3 (-4)) as (r' & E' & A').
    { exists 0, 1. split; [vm_compute; auto|]. split; [vm_compute; auto|discriminate]. }
    { apply median_is; [discriminate|]. intros v K. vm_compute in K. apply Ok_inj in K. subst v. reflexivity. }
    { unfold EnoughRuns. vm_compute. lia. }
    { vm_compute. lia. }
    { match goal with |- context [Q2R ?u] => set (w := u) end. vm_compute in w. unfold w, Q2R. simpl. apply Rabs_def1; rlra. }
    exists r, r'. eexists. eexists. split; [exact E|]. split; [exact A|]. split; [exact E'|]. split; [exact A'|]. discriminate.
Qed.

Lemma C45_runs_proof : forall norm_cdf rows lag r t,
  calculate_mtd_revision_stats norm_cdf rows lag = Ok r -> rows <> [] ->
  Quantile (in_order rows) (1 # 2) t ->
  exists q, ww_run r = Some q /\
    Rounded2 (norm_cdf (runs_statistic (above t (in_order rows)) (below t (in_order rows)) (runs_of (sides t (in_order rows))))) q.
Proof.
  intros cdf rows lag r t E R Ht. destruct (in_order rows) as [|x0 l0] eqn:IO.
  { rewrite (revision_empty cdf rows lag R IO) in E. discriminate E. }
  rewrite <- IO in *. assert (H : in_order rows <> []) by (rewrite IO; discriminate).
  destruct (runs_value cdf rows lag r t H E Ht) as (En & W). rewrite W. eexists. split; [reflexivity|apply py_round2_spec].
Qed.

Lemma C45_p_value_proof : forall norm_cdf rows lag r,
  calculate_mtd_revision_stats norm_cdf rows lag = Ok r -> rows <> [] ->
  exists q, auto_cor_p r = Some q /\
    let n := (length rows + length (revisions rows) - 1)%nat in
    Rounded2 (revision_p n) q /\ 0 <= q <= 6 # 100 /\ ((158 <= n)%nat -> q == 0).
Proof.
  intros cdf rows lag r E R. destruct (in_order rows) as [|x0 l0] eqn:IO.
  { rewrite (revision_empty cdf rows lag R IO) in E. discriminate E. }
  assert (H : in_order rows <> []) by (rewrite IO; discriminate).
  destruct (revision_unfold cdf rows lag H) as (m & Hm & U). rewrite U in E. clear U.
  apply bind_Ok in E. destruct E as (av & _ & E). apply bind_Ok in E. destruct E as (cr & _ & E).
  apply bind_Ok in E. destruct E as (d & _ & E). apply bind_Ok in E. destruct E as (p & _ & E). apply Ok_inj in E. subst r.
  cbn [auto_cor_p]. eexists. split; [reflexivity|]. cbv zeta. rewrite <- (joined_length rows R).
  set (n := length (joined rows)). assert (N : (1 <= n)%nat).
  { unfold n. rewrite (joined_length rows R). pose proof (revisions_ne rows R) as RN. destruct (revisions rows); [congruence|]. destruct rows; [congruence|]. simpl. lia. }
  split; [apply py_round2_spec|]. exact (revision_p_bounds n N).
Qed.

Lemma C45_other_cases_proof : forall norm_cdf rows lag,
  calculate_mtd_revision_stats norm_cdf [] lag = Ok (RevisionStats None None None) /\
  (rows <> [] -> in_order rows = [] -> calculate_mtd_revision_stats norm_cdf rows lag = Err ValueError) /\
  (in_order rows <> [] -> forall l, (l < 0)%Z ->
     calculate_mtd_revision_stats norm_cdf rows (Some l) = Err IndexError) /\
  (in_order rows <> [] -> ~ Spread (in_order rows) -> forall l, (0 <= l)%Z ->
     calculate_mtd_revision_stats norm_cdf rows (Some l) = Err ZeroDivisionError).
Proof.
  intros cdf rows lag. split; [reflexivity|]. split; [intros R H; apply revision_empty; assumption|].
  assert (K : known (joined rows) = in_order rows) by apply joined_known. split.
  - intros H l L. destruct (revision_unfold cdf rows (Some l) H) as (m & Hm & U). rewrite U.
    destruct (C34_other_cases_proof (lower m (joined rows)) "correlation" (Some l)) as (_ & _ & A).
    rewrite (A ltac:(rewrite lower_known, K; destruct (in_order rows); [congruence|discriminate]) ltac:(simpl; auto) l eq_refl L). reflexivity.
  - intros H S l L. destruct (revision_unfold cdf rows (Some l) H) as (m & Hm & U). rewrite U.
    destruct (C34_values_proof (lower m (joined rows)) l) as (_ & _ & A); [rewrite lower_known, K; destruct (in_order rows); [congruence|discriminate]|exact L|].
    rewrite A; [reflexivity|]. rewrite lower_varies. unfold Varies. rewrite K. exact S.
Qed.

Lemma C45_case_proof : revisions two_revisions = ["A"; "B"] /\ in_order two_revisions = [1; 2; 5; 4; 7; 3] /\
  within two_revisions = [(1, 2); (2, 5); (4, 7)] /\ Quantile (in_order two_revisions) (1 # 2) (7 # 2) /\
  forall norm_cdf, exists r, calculate_mtd_revision_stats norm_cdf two_revisions (Some 1%Z) = Ok r.
Proof.
  split; [reflexivity|]. split; [reflexivity|]. split; [reflexivity|].
  assert (Hq : Quantile (in_order two_revisions) (1 # 2) (7 # 2)).
  { destruct (st_median_value (in_order two_revisions)) as (m & E & Hm); [discriminate|].
    assert (M : m == 7 # 2) by (vm_compute in E; apply Ok_inj in E; subst m; reflexivity).
    destruct Hm as (k & t & a & b & H1 & H2 & H3 & H4 & H5). exists k, t, a, b.
    split; [exact H1|]. split; [exact H2|]. split; [exact H3|]. split; [exact H4|]. rewrite <- M. exact H5. }
  split; [exact Hq|]. intro cdf.
  destruct (revision_ok cdf two_revisions 1) as (r & E & _); [discriminate|lia| | |exists r; exact E].
  - exists 1, 2. split; [vm_compute; auto|]. split; [vm_compute; auto|discriminate].
  - exists (7 # 2). split; [exact Hq|]. unfold EnoughRuns. vm_compute. lia.
Qed.

