From Coq Require Import Permutation.
From Verif Require Import PyBase ColumnModel BaseSpec BaseProofs EclvModel EclvSpec.

Lemma insertQ_perm x l : Permutation (insertQ x l) (x :: l).
Proof.
  induction l as [|y t IH]; simpl; [reflexivity|].
  destruct (Qle_bool x y); [reflexivity|].
  rewrite IH. apply perm_swap.
Qed.
Lemma sortQ_perm l : Permutation (sortQ l) l.
Proof. induction l as [|x t IH]; simpl; [reflexivity|]. rewrite insertQ_perm, IH. reflexivity. Qed.

Lemma insertQ_asc x l : Ascending l -> Ascending (insertQ x l).
Proof.
  induction l as [|y t IH]; simpl; intro H; [split; [intros ? []|exact I]|].
  destruct (Qle_bool x y) eqn:E.
  - apply Qle_bool_iff in E. simpl. split; [|exact H]. intros z [<-|Hz]; [assumption|].
    destruct H as [H _]. specialize (H z Hz). lra.
  - assert (E' : y <= x). { destruct (Qlt_le_dec y x) as [L|L]; [lra|]. apply Qle_bool_iff in L. congruence. }
    destruct H as [H H']. simpl. split; [|auto].
    intros z Hz. apply (Permutation_in _ (insertQ_perm x t)) in Hz. destruct Hz as [<-|Hz]; auto.
Qed.
Lemma sortQ_asc l : Ascending (sortQ l).
Proof. induction l; simpl; [exact I|]. apply insertQ_asc; assumption. Qed.

Lemma qdiv_spec a b : (b == 0 /\ qdiv a b = Err PyWarning) \/ (~ b == 0 /\ qdiv a b = Ok (a / b)).
Proof.
  unfold qdiv. destruct (Qeq_bool b 0) eqn:E.
  - left. apply Qeq_bool_iff in E. auto.
  - right. apply Qeq_bool_neq in E. auto.
Qed.

Lemma mapM_ok {A B} (f : A -> res B) (g : A -> B) l :
  (forall x, In x l -> f x = Ok (g x)) -> mapM f l = Ok (map g l).
Proof.
  induction l as [|x t IH]; simpl; intro H; [reflexivity|].
  rewrite (H x (or_introl eq_refl)). simpl. rewrite IH; [reflexivity|]. intros; apply H; auto.
Qed.

Lemma mapM_err {A B} (f : A -> res B) l e x :
  (forall y, In y l -> (exists z, f y = Ok z) \/ f y = Err e) -> In x l -> f x = Err e ->
  mapM f l = Err e.
Proof.
  induction l as [|y t IH]; simpl; intros H Hx E; [contradiction|].
  destruct Hx as [->|Hin].
  - rewrite E. reflexivity.
  - destruct (H y (or_introl eq_refl)) as [[z ->]| ->]; simpl; [|reflexivity].
    rewrite IH; auto.
Qed.

Definition gv1 f h s cl := (1 - f) - s / (1 - s) * (1 - cl) / cl * (1 - h).
Definition gv2 f h s cl := h - (1 - s) / s * cl / (1 - cl) * f.
Definition gv f h s cl := if Qle_bool s cl then gv2 f h s cl else gv1 f h s cl.

Lemma select_map f h s l : select_values s l (map (gv1 f h s) l) (map (gv2 f h s) l) = map (gv f h s) l.
Proof. induction l as [|x t IH]; simpl; [reflexivity|]. rewrite IH. reflexivity. Qed.

(** Domain in which the routine yields a result. *)
Section Value.
Variables (a b c d : Q) (pts : list Q) (add : bool).
Let n := 0 + a + b + c + d.
Let f := b / (b + d).
Let h := a / (a + c).
Let s := (a + c) / n.
Let cls := sortQ (if add then pts ++ [s] else pts).

Definition eclv_result : eclv :=
  {| e_vmax := round_half_up (h - f) PRECISION; e_V := map (gv f h s) cls;
     e_F := round_half_up f PRECISION; e_H := round_half_up h PRECISION; e_cl := cls;
     e_s := round_half_up s PRECISION; e_n := n |}.

Definition eclv_bad := a + c == 0 \/ b + d == 0 \/ n == 0 \/ exists x, In x pts /\ (x == 0 \/ x == 1).

Lemma s_ne0 : ~ a + c == 0 -> ~ n == 0 -> ~ s == 0.
Proof.
  intros H1 H2 K. apply H1. unfold s in K.
  setoid_replace (a + c) with ((a + c) / n * n) by (field; exact H2). rewrite K. ring.
Qed.
Lemma s_ne1 : ~ b + d == 0 -> ~ n == 0 -> ~ 1 - s == 0.
Proof.
  intros H1 H2 K. apply H1.
  setoid_replace (b + d) with ((1 - s) * n).
  - rewrite K. ring.
  - unfold s. unfold n in *. field. intro Z. apply H2. lra.
Qed.

Lemma eclv_compute :
  ~ a + c == 0 -> ~ b + d == 0 -> ~ n == 0 -> (forall x, In x pts -> ~ x == 0 /\ ~ x == 1) ->
  calculate_economic_value [Some a; Some b; Some c; Some d] pts add = Ok (Some eclv_result).
Proof.
  intros H1 H2 H3 H4. unfold calculate_economic_value.
  pose proof (s_ne0 H1 H3) as S0. pose proof (s_ne1 H2 H3) as S1.
  assert (E2 : Qeq_bool (b + d) 0 = false) by (apply not_true_iff_false; rewrite Qeq_bool_iff; assumption).
  assert (E1 : Qeq_bool (a + c) 0 = false) by (apply not_true_iff_false; rewrite Qeq_bool_iff; assumption).
  assert (E3 : Qeq_bool n 0 = false) by (apply not_true_iff_false; rewrite Qeq_bool_iff; assumption).
  cbn [pybin bind pylit pydiv]. fold n. cbn [bind].
  rewrite E2. cbn [bind]. rewrite E1. cbn [bind]. rewrite E3. cbn [bind].
  fold f h s cls.
  assert (HC : forall x, In x cls -> ~ x == 0 /\ ~ 1 - x == 0).
  { intros x Hx. apply (Permutation_in _ (sortQ_perm _)) in Hx.
    assert (K : In x pts \/ x = s).
    { destruct add; [|auto]. apply in_app_or in Hx. destruct Hx as [Hx|[Hx|[]]]; auto. }
    destruct K as [K|K].
    - destruct (H4 x K) as [A B]. split; [exact A|]. intro Z. apply B. lra.
    - subst x. auto. }
  rewrite (mapM_ok (value_below f h s) (gv1 f h s)).
  2:{ intros x Hx. destruct (HC x Hx) as [A B]. unfold value_below.
      destruct (qdiv_spec s (1 - s)) as [[K _]|[_ ->]]; [contradiction|]. simpl.
      destruct (qdiv_spec (s / (1 - s) * (1 - x)) x) as [[K _]|[_ ->]]; [contradiction|]. reflexivity. }
  cbn [bind].
  rewrite (mapM_ok (value_above f h s) (gv2 f h s)).
  2:{ intros x Hx. destruct (HC x Hx) as [A B]. unfold value_above.
      destruct (qdiv_spec (1 - s) s) as [[K _]|[_ ->]]; [contradiction|]. simpl.
      destruct (qdiv_spec ((1 - s) / s * x) (1 - x)) as [[K _]|[_ ->]]; [contradiction|]. reflexivity. }
  cbn [bind]. rewrite select_map. reflexivity.
Qed.

Lemma eclv_undefined : eclv_bad ->
  calculate_economic_value [Some a; Some b; Some c; Some d] pts add = Ok None.
Proof.
  intro HB. unfold calculate_economic_value.
  cbn [pybin bind pylit pydiv]. fold n. cbn [bind].
  destruct (Qeq_bool (b + d) 0) eqn:E2; [reflexivity|]. cbn [bind].
  destruct (Qeq_bool (a + c) 0) eqn:E1; [reflexivity|]. cbn [bind].
  destruct (Qeq_bool n 0) eqn:E3; [reflexivity|]. cbn [bind].
  apply Qeq_bool_neq in E1, E2, E3.
  destruct HB as [K|[K|[K|[x [Hx K]]]]]; try contradiction.
  fold f h s cls.
  pose proof (s_ne0 E1 E3) as S0. pose proof (s_ne1 E2 E3) as S1.
  assert (Hin : In x cls).
  { apply (Permutation_in _ (Permutation_sym (sortQ_perm _))).
    destruct add; [apply in_or_app; left|]; assumption. }
  assert (M1 : forall y, In y cls -> (exists z, value_below f h s y = Ok z) \/ value_below f h s y = Err PyWarning).
  { intros y _. unfold value_below.
    destruct (qdiv_spec s (1 - s)) as [[_ ->]|[_ ->]]; simpl; auto.
    destruct (qdiv_spec (s / (1 - s) * (1 - y)) y) as [[_ ->]|[_ ->]]; simpl; eauto. }
  assert (M2 : forall y, In y cls -> (exists z, value_above f h s y = Ok z) \/ value_above f h s y = Err PyWarning).
  { intros y _. unfold value_above.
    destruct (qdiv_spec (1 - s) s) as [[_ ->]|[_ ->]]; simpl; auto.
    destruct (qdiv_spec ((1 - s) / s * y) (1 - y)) as [[_ ->]|[_ ->]]; simpl; eauto. }
  destruct K as [K|K].
  - rewrite (mapM_err _ _ PyWarning x M1 Hin); [reflexivity|].
    unfold value_below. destruct (qdiv_spec s (1 - s)) as [[_ ->]|[_ ->]]; simpl; auto.
    destruct (qdiv_spec (s / (1 - s) * (1 - x)) x) as [[_ ->]|[Z _]]; simpl; [auto|contradiction].
  - destruct (mapM (value_below f h s) cls) as [v1|e] eqn:EV.
    + cbn [bind]. rewrite (mapM_err _ _ PyWarning x M2 Hin); [reflexivity|].
      unfold value_above. destruct (qdiv_spec (1 - s) s) as [[_ ->]|[_ ->]]; simpl; auto.
      destruct (qdiv_spec ((1 - s) / s * x) (1 - x)) as [[_ ->]|[Z _]]; simpl; [auto|].
      exfalso; apply Z; rewrite K; reflexivity.
    + assert (e = PyWarning) as ->.
      { clear -EV M1. revert e EV M1. induction cls as [|y t IH]; simpl; intros e EV M1; [discriminate|].
        destruct (M1 y (or_introl eq_refl)) as [[z Ez]|Ez]; rewrite Ez in EV; simpl in EV.
        - destruct (mapM (value_below f h s) t) as [w|e'] eqn:E'; [discriminate|]. simpl in EV.
          injection EV as <-. apply IH; auto.
        - congruence. }
      reflexivity.
Qed.
End Value.

(* --- facts about the value function --- *)
Lemma gv_expense f h s cl : 0 < s < 1 -> 0 < cl < 1 -> EconomicValue h f s cl (gv f h s cl).
Proof.
  intros [S0 S1] [C0 C1]. unfold EconomicValue, climate_expense, perfect_expense, forecast_expense, gv.
  destruct (Qlt_le_dec cl s) as [L|L].
  - assert (E : Qle_bool s cl = false).
    { apply not_true_iff_false. rewrite Qle_bool_iff. lra. }
    rewrite E. unfold gv1. field. split; lra.
  - apply Qle_bool_iff in L. rewrite L. unfold gv2. field. split; lra.
Qed.

Lemma Qdiv_le x y z : 0 < z -> x * z <= y -> x <= y / z.
Proof. intros. apply Qle_shift_div_l; assumption. Qed.
Lemma Qdiv_ge x y z : 0 < z -> y <= x * z -> y / z <= x.
Proof. intros. apply Qle_shift_div_r; assumption. Qed.

(** monotone part of [gv1]: (1-cl)/cl is decreasing *)
Lemma ratio_dec x y : 0 < x -> x <= y -> (1 - y) / y <= (1 - x) / x.
Proof.
  intros Hx Hy. assert (0 < y) by lra.
  apply Qdiv_ge; [lra|].
  setoid_replace ((1 - x) / x * y) with ((1 - x) * y / x) by (field; lra).
  apply Qdiv_le; [lra|]. lra.
Qed.
Lemma ratio_inc x y : x <= y -> y < 1 -> x / (1 - x) <= y / (1 - y).
Proof.
  intros Hx Hy. apply Qdiv_ge; [lra|].
  setoid_replace (y / (1 - y) * (1 - x)) with (y * (1 - x) / (1 - y)) by (field; lra).
  apply Qdiv_le; lra.
Qed.

Lemma Qdiv_nonneg x y : 0 <= x -> 0 < y -> 0 <= x / y.
Proof. intros. apply Qdiv_le; lra. Qed.

Lemma gv1_mono f h s x y : 0 < s < 1 -> h <= 1 -> 0 < x -> x <= y -> gv1 f h s x <= gv1 f h s y.
Proof.
  intros S H X Y. unfold gv1.
  assert (K : s / (1 - s) * (1 - y) / y * (1 - h) <= s / (1 - s) * (1 - x) / x * (1 - h)).
  { setoid_replace (s / (1 - s) * (1 - y) / y * (1 - h)) with ((1 - y) / y * (s / (1 - s) * (1 - h))) by (field; lra).
    setoid_replace (s / (1 - s) * (1 - x) / x * (1 - h)) with ((1 - x) / x * (s / (1 - s) * (1 - h))) by (field; lra).
    apply Qmult_le_compat_r; [apply ratio_dec; lra|].
    apply Qmult_le_0_compat; [|lra]. apply Qdiv_nonneg; lra. }
  lra.
Qed.
Lemma gv2_mono f h s x y : 0 < s < 1 -> 0 <= f -> x <= y -> y < 1 -> gv2 f h s y <= gv2 f h s x.
Proof.
  intros S F X Y. unfold gv2.
  assert (K : (1 - s) / s * x / (1 - x) * f <= (1 - s) / s * y / (1 - y) * f).
  { setoid_replace ((1 - s) / s * x / (1 - x) * f) with (x / (1 - x) * ((1 - s) / s * f)) by (field; lra).
    setoid_replace ((1 - s) / s * y / (1 - y) * f) with (y / (1 - y) * ((1 - s) / s * f)) by (field; lra).
    apply Qmult_le_compat_r; [apply ratio_inc; lra|].
    apply Qmult_le_0_compat; [|lra]. apply Qdiv_nonneg; lra. }
  lra.
Qed.
Lemma gv1_at f h s : 0 < s < 1 -> gv1 f h s s == h - f.
Proof. intro S. unfold gv1. field. lra. Qed.
Lemma gv2_at f h s : 0 < s < 1 -> gv2 f h s s == h - f.
Proof. intro S. unfold gv2. field. lra. Qed.

Lemma gv_cases f h s cl :
  (s <= cl /\ gv f h s cl = gv2 f h s cl) \/ (cl < s /\ gv f h s cl = gv1 f h s cl).
Proof.
  unfold gv. destruct (Qle_bool s cl) eqn:E.
  - left. apply Qle_bool_iff in E. auto.
  - right. split; [|reflexivity]. destruct (Qlt_le_dec cl s) as [L|L]; [exact L|].
    apply Qle_bool_iff in L. congruence.
Qed.

Lemma gv_below_mono f h s x y : 0 < s < 1 -> h <= 1 -> 0 < x -> x <= y -> y <= s ->
  gv f h s x <= gv f h s y.
Proof.
  intros S H X XY Y.
  destruct (gv_cases f h s x) as [[A ->]|[A ->]], (gv_cases f h s y) as [[B ->]|[B ->]]; try lra.
  - assert (x == y) by lra. assert (x == s) by lra.
    unfold gv2. assert (E : (1 - s) / s * x / (1 - x) * f == (1 - s) / s * y / (1 - y) * f).
    { rewrite H0. reflexivity. } lra.
  - pose proof (gv1_mono f h s x s S H X ltac:(lra)) as K. rewrite (gv1_at f h s S) in K.
    assert (y == s) by lra. assert (E : gv2 f h s y == gv2 f h s s) by (unfold gv2; rewrite H0; reflexivity).
    rewrite (gv2_at f h s S) in E. lra.
  - apply gv1_mono; assumption.
Qed.
Lemma gv_above_mono f h s x y : 0 < s < 1 -> 0 <= f -> s <= x -> x <= y -> y < 1 ->
  gv f h s y <= gv f h s x.
Proof.
  intros S H X XY Y.
  destruct (gv_cases f h s x) as [[A ->]|[A ->]], (gv_cases f h s y) as [[B ->]|[B ->]]; try lra.
  apply gv2_mono; assumption.
Qed.
Lemma gv_max f h s x : 0 < s < 1 -> h <= 1 -> 0 <= f -> 0 < x < 1 -> gv f h s x <= h - f.
Proof.
  intros S H F X. assert (E : gv f h s s == h - f).
  { destruct (gv_cases f h s s) as [[A ->]|[A ->]]; [apply gv2_at; assumption|lra]. }
  destruct (Qlt_le_dec x s) as [L|L].
  - pose proof (gv_below_mono f h s x s S H ltac:(lra) ltac:(lra) ltac:(lra)). lra.
  - pose proof (gv_above_mono f h s s x S F ltac:(lra) L ltac:(lra)). lra.
Qed.

(* --- packaged --- *)
Definition genuine4 (a b c d : Q) : Prop := 0 <= a /\ 0 <= b /\ 0 <= c /\ 0 <= d /\ 0 < a + c /\ 0 < b + d.

Lemma rates a b c d : genuine4 a b c d ->
  0 <= hit_rate a b c d <= 1 /\ 0 <= false_rate a b c d <= 1 /\ 0 < base_rate a b c d < 1.
Proof.
  intros (A & B & C & D & H1 & H2). unfold hit_rate, false_rate, base_rate.
  repeat split; try (apply Qdiv_nonneg; lra); try (apply Qdiv_ge; lra).
  - apply Qlt_shift_div_l; lra.
  - apply Qlt_shift_div_r; lra.
Qed.

Lemma in_combine_map {A B} (g : A -> B) l x y : In (x, y) (combine l (map g l)) -> In x l /\ y = g x.
Proof.
  induction l as [|z t IH]; simpl; [contradiction|].
  intros [H|H]; [injection H as -> <-; auto|]. destruct (IH H); auto.
Qed.

Lemma eclv_exists a b c d pts add : genuine4 a b c d -> (forall x, In x pts -> 0 < x < 1) ->
  calculate_economic_value [Some a; Some b; Some c; Some d] pts add = Ok (Some (eclv_result a b c d pts add)).
Proof.
  intros (A & B & C & D & H1 & H2) HP. apply eclv_compute; try lra.
  intros x Hx. specialize (HP x Hx). split; lra.
Qed.

Lemma gv_compat f h s s' cl : s == s' -> gv f h s cl == gv f h s' cl.
Proof.
  intro E. destruct (gv_cases f h s cl) as [[A ->]|[A ->]], (gv_cases f h s' cl) as [[B ->]|[B ->]]; try lra.
  - unfold gv2. rewrite E. reflexivity.
  - unfold gv1. rewrite E. reflexivity.
Qed.

Lemma base_eq a b c d : (a + c) / (0 + a + b + c + d) == base_rate a b c d.
Proof.
  unfold base_rate. setoid_replace (0 + a + b + c + d) with (a + b + c + d) by ring. reflexivity.
Qed.

Lemma eclv_cl_range a b c d pts add : genuine4 a b c d -> (forall x, In x pts -> 0 < x < 1) ->
  forall x, In x (e_cl (eclv_result a b c d pts add)) -> 0 < x < 1.
Proof.
  intros G HP x Hx. cbn [eclv_result e_cl] in Hx. apply (Permutation_in _ (sortQ_perm _)) in Hx.
  assert (K : In x pts \/ x = (a + c) / (0 + a + b + c + d)).
  { destruct add; [|auto]. apply in_app_or in Hx. destruct Hx as [Hx|[Hx|[]]]; auto. }
  destruct K as [K| ->]; [auto|]. rewrite base_eq. apply rates; assumption.
Qed.

Lemma eclv_point a b c d pts add cl v : genuine4 a b c d -> (forall x, In x pts -> 0 < x < 1) ->
  In (cl, v) (combine (e_cl (eclv_result a b c d pts add)) (e_V (eclv_result a b c d pts add))) ->
  0 < cl < 1 /\ v == gv (false_rate a b c d) (hit_rate a b c d) (base_rate a b c d) cl.
Proof.
  intros G HP H. cbn [eclv_result e_cl e_V] in H. apply in_combine_map in H. destruct H as [H ->].
  split; [eapply (eclv_cl_range _ _ _ _ pts add); eassumption|].
  rewrite (gv_compat _ _ _ _ _ (base_eq a b c d)). reflexivity.
Qed.

Lemma EconomicValue_proper h f s cl v v' : v == v' -> EconomicValue h f s cl v -> EconomicValue h f s cl v'.
Proof. unfold EconomicValue. intros ->. auto. Qed.

Lemma eclv_main a b c d pts add : 0 <= a -> 0 <= b -> 0 <= c -> 0 <= d -> 0 < a + c -> 0 < b + d ->
  (forall x, In x pts -> 0 < x < 1) ->
  exists r, calculate_economic_value [Some a; Some b; Some c; Some d] pts add = Ok (Some r) /\
    (exists s, s == base_rate a b c d /\ Permutation (e_cl r) (if add then pts ++ [s] else pts)) /\
    Ascending (e_cl r) /\ length (e_V r) = length (e_cl r) /\
    (forall cl v, In (cl, v) (combine (e_cl r) (e_V r)) ->
       EconomicValue (hit_rate a b c d) (false_rate a b c d) (base_rate a b c d) cl v) /\
    Nearest 7 (hit_rate a b c d - false_rate a b c d) (e_vmax r) /\
    Nearest 7 (hit_rate a b c d) (e_H r) /\ Nearest 7 (false_rate a b c d) (e_F r) /\
    Nearest 7 (base_rate a b c d) (e_s r) /\ e_n r == a + b + c + d.
Proof.
  intros A B C D H1 H2 HP. assert (G : genuine4 a b c d) by (unfold genuine4; auto 10).
  exists (eclv_result a b c d pts add). split; [apply eclv_exists; assumption|].
  split; [|split; [|split; [|split; [|split; [|split; [|split; [|split]]]]]]].
  - exists ((a + c) / (0 + a + b + c + d)). split; [apply base_eq|]. apply sortQ_perm.
  - apply sortQ_asc.
  - cbn [eclv_result e_cl e_V]. apply map_length.
  - intros cl v H. destruct (eclv_point _ _ _ _ _ _ _ _ G HP H) as [Hc Hv].
    eapply EconomicValue_proper; [symmetry; exact Hv|]. apply gv_expense; [apply rates; exact G|exact Hc].
  - apply rhu_nearest.
  - apply rhu_nearest.
  - apply rhu_nearest.
  - cbn [eclv_result e_s]. rewrite (rhu_compat _ _ PRECISION (base_eq a b c d)). apply rhu_nearest.
  - cbn [eclv_result e_n]. ring.
Qed.

Lemma eclv_bounds a b c d pts add r : 0 <= a -> 0 <= b -> 0 <= c -> 0 <= d -> 0 < a + c -> 0 < b + d ->
  (forall x, In x pts -> 0 < x < 1) ->
  calculate_economic_value [Some a; Some b; Some c; Some d] pts add = Ok (Some r) ->
  forall cl v, In (cl, v) (combine (e_cl r) (e_V r)) ->
    v <= hit_rate a b c d - false_rate a b c d /\ v <= 1 /\
    v <= hit_rate a b c d /\ v <= 1 - false_rate a b c d /\
    (cl == base_rate a b c d -> v == hit_rate a b c d - false_rate a b c d).
Proof.
  intros A B C D H1 H2 HP E cl v Hin. assert (G : genuine4 a b c d) by (unfold genuine4; auto 10).
  rewrite (eclv_exists _ _ _ _ _ _ G HP) in E. injection E as <-.
  destruct (eclv_point _ _ _ _ _ _ _ _ G HP Hin) as [Hc Hv].
  destruct (rates _ _ _ _ G) as [Rh [Rf Rs]].
  pose proof (gv_max (false_rate a b c d) (hit_rate a b c d) (base_rate a b c d) cl Rs
                ltac:(lra) ltac:(lra) Hc) as M.
  repeat split; try lra.
  intro Ec. rewrite Hv. destruct (gv_cases (false_rate a b c d) (hit_rate a b c d) (base_rate a b c d) cl) as [[_ ->]|[Z _]]; [|lra].
  rewrite <- (gv2_at (false_rate a b c d) _ _ Rs). unfold gv2. rewrite Ec. reflexivity.
Qed.

Lemma eclv_mono a b c d pts add r : 0 <= a -> 0 <= b -> 0 <= c -> 0 <= d -> 0 < a + c -> 0 < b + d ->
  (forall x, In x pts -> 0 < x < 1) ->
  calculate_economic_value [Some a; Some b; Some c; Some d] pts add = Ok (Some r) ->
  forall x v y w, In (x, v) (combine (e_cl r) (e_V r)) -> In (y, w) (combine (e_cl r) (e_V r)) ->
    x <= y -> (y <= base_rate a b c d -> v <= w) /\ (base_rate a b c d <= x -> w <= v).
Proof.
  intros A B C D H1 H2 HP E x v y w Hx Hy XY. assert (G : genuine4 a b c d) by (unfold genuine4; auto 10).
  rewrite (eclv_exists _ _ _ _ _ _ G HP) in E. injection E as <-.
  destruct (eclv_point _ _ _ _ _ _ _ _ G HP Hx) as [Hcx Hvx].
  destruct (eclv_point _ _ _ _ _ _ _ _ G HP Hy) as [Hcy Hvy].
  destruct (rates _ _ _ _ G) as [Rh [Rf Rs]].
  split; intro K; rewrite Hvx, Hvy.
  - apply gv_below_mono; lra.
  - apply gv_above_mono; lra.
Qed.

Lemma eclv_defined_iff a b c d pts add :
  exists r, calculate_economic_value [Some a; Some b; Some c; Some d] pts add = Ok r /\
  (r = None <-> a + c == 0 \/ b + d == 0 \/ a + b + c + d == 0 \/ exists x, In x pts /\ (x == 0 \/ x == 1)).
Proof.
  assert (N : 0 + a + b + c + d == a + b + c + d) by ring.
  assert (BAD : (a + c == 0 \/ b + d == 0 \/ a + b + c + d == 0 \/ exists x, In x pts /\ (x == 0 \/ x == 1)) <->
    eclv_bad a b c d pts).
  { unfold eclv_bad. rewrite N. reflexivity. }
  enough (exists r, calculate_economic_value [Some a; Some b; Some c; Some d] pts add = Ok r /\
    (r = None <-> eclv_bad a b c d pts)) as [r [E1 E2]] by (exists r; split; [exact E1|rewrite BAD; exact E2]).
  destruct (Qeq_dec (a + c) 0) as [K1|K1]; [exists None; split; [apply eclv_undefined; left|split; intro; [left|]]; auto|].
  destruct (Qeq_dec (b + d) 0) as [K2|K2]; [exists None; split; [apply eclv_undefined; right; left|split; intro; [right; left|]]; auto|].
  destruct (Qeq_dec (0 + a + b + c + d) 0) as [K3|K3]; [exists None; split; [apply eclv_undefined; right; right; left|split; intro; [right; right; left|]]; auto|].
  assert (DEC : (exists x, In x pts /\ (x == 0 \/ x == 1)) \/ (forall x, In x pts -> ~ x == 0 /\ ~ x == 1)).
  { clear. induction pts as [|y t IH]; [right; intros ? []|].
    destruct IH as [[x [H1 H2]]|H]; [left; exists x; simpl; auto|].
    destruct (Qeq_dec y 0); [left; exists y; simpl; auto|].
    destruct (Qeq_dec y 1); [left; exists y; simpl; auto|].
    right. intros x [<-|Hx]; auto. }
  destruct DEC as [DEC|DEC].
  - exists None. split; [apply eclv_undefined; unfold eclv_bad; auto|]. split; [unfold eclv_bad; auto|reflexivity].
  - eexists. split; [apply eclv_compute; assumption|]. split; [discriminate|].
    intros [Z|[Z|[Z|[x [Hx Z]]]]]; try contradiction. destruct (DEC x Hx). tauto.
Qed.

Lemma eclv_missing values pts add : In None values ->
  calculate_economic_value values pts add = Ok None.
Proof.
  intro H. unfold calculate_economic_value.
  destruct values as [|v0 [|v1 [|v2 [|v3 [|]]]]]; try reflexivity.
  destruct v0, v1, v2, v3; try reflexivity.
  simpl in H. destruct H as [H|[H|[H|[H|[]]]]]; discriminate.
Qed.

(** table level *)
Lemma eclv_ctc_table data columns np_float thresh pts addz a b c d :
  sum_column_data_by_name data columns "fy_oy" true = Ok a ->
  sum_column_data_by_name data columns "fy_on" true = Ok b ->
  sum_column_data_by_name data columns "fn_oy" true = Ok c ->
  sum_column_data_by_name data columns "fn_on" true = Ok d ->
  calculate_eclv data columns np_float thresh "ctc" pts addz
  = calculate_economic_value [a; b; c; d] pts (addz =? 1)%Z.
Proof.
  intros E1 E2 E3 E4. unfold calculate_eclv. rewrite E1, E2, E3, E4.
  cbn [String.eqb Ascii.eqb Bool.eqb negb andb bind].
  assert (K : forall v l p, catch std_exns (calculate_economic_value v l p) None = calculate_economic_value v l p).
  { intros v l p. destruct (calculate_economic_value v l p) as [o|e] eqn:E; [reflexivity|].
    exfalso. unfold calculate_economic_value, catch in E.
    match type of E with match ?m with _ => _ end = _ => destruct m as [x|e'] eqn:E' end; [discriminate|].
    destruct (existsb (exn_eqb e') std_exns) eqn:X; [discriminate|]. injection E as ->.
    destruct v as [|v0 [|v1 [|v2 [|v3 [|]]]]]; try discriminate.
    destruct v0, v1, v2, v3; cbn [pybin bind pylit pydiv] in E'; try (injection E' as <-; discriminate).
    repeat match type of E' with
    | context [if ?b then _ else _] => destruct b; cbn [bind] in E'; try (injection E' as <-; discriminate)
    end;
    repeat match type of E' with
    | context [mapM ?g ?l] => let w := fresh in destruct (mapM g l) as [w|] eqn:?; cbn [bind] in E'
    end; try discriminate;
    injection E' as ->;
    match goal with H : mapM ?g ?l = Err e |- _ => revert H; generalize l; let t := fresh in intro t;
      induction t as [|y t' IH]; simpl; intro H; [discriminate|];
      destruct (g y) eqn:Eg; simpl in H; [destruct (mapM g t'); simpl in H; [discriminate|]; apply IH; exact H|];
      injection H as ->;
      unfold value_above, value_below, qdiv in Eg;
      repeat match type of Eg with context [if ?b then _ else _] => destruct b; simpl in Eg end;
      try discriminate; injection Eg as <-; discriminate
    end. }
  destruct thresh; apply K.
Qed.

Lemma eclv_pct_raises data columns th pts addz :
  calculate_eclv data columns false (Some th) "pct" pts addz = Err AttributeError.
Proof. reflexivity. Qed.

Lemma eclv_bad_line_type data columns np th lt pts addz :
  lt <> "ctc"%string -> lt <> "pct"%string -> calculate_eclv data columns np th lt pts addz = Ok None.
Proof.
  intros H1 H2. unfold calculate_eclv. apply String.eqb_neq in H1, H2. rewrite H1, H2. reflexivity.
Qed.

Lemma mapM_length {A B} (f : A -> res B) l r : mapM f l = Ok r -> length r = length l.
Proof.
  revert r. induction l as [|x t IH]; simpl; intros r H; [injection H as <-; reflexivity|].
  destruct (f x); simpl in H; [|discriminate]. destruct (mapM f t); simpl in H; [|discriminate].
  injection H as <-. simpl. rewrite (IH _ eq_refl). reflexivity.
Qed.

Lemma eclv_V_length a b c d pts add r :
  calculate_economic_value [a; b; c; d] pts add = Ok (Some r) -> (length pts <= length (e_V r))%nat.
Proof.
  destruct a as [a|]; [|intro E; rewrite eclv_missing in E by (simpl; auto); discriminate].
  destruct b as [b|]; [|intro E; rewrite eclv_missing in E by (simpl; auto); discriminate].
  destruct c as [c|]; [|intro E; rewrite eclv_missing in E by (simpl; auto); discriminate].
  destruct d as [d|]; [|intro E; rewrite eclv_missing in E by (simpl; auto 6); discriminate].
  intro E. destruct (eclv_defined_iff a b c d pts add) as [o [Eo Ho]].
  pose proof (eq_trans (eq_sym Eo) E) as E0. injection E0 as ->.
  assert (NB : ~ eclv_bad a b c d pts).
  { intro K. pose proof (eclv_undefined a b c d pts add K) as Z. pose proof (eq_trans (eq_sym Eo) Z). discriminate. }
  assert (E' : calculate_economic_value [Some a; Some b; Some c; Some d] pts add = Ok (Some (eclv_result a b c d pts add))).
  { apply eclv_compute; unfold eclv_bad in NB; try tauto.
    intros x Hx. split; intro; apply NB; right; right; right; exists x; auto. }
  pose proof (eq_trans (eq_sym Eo) E') as E1. injection E1 as ->. cbn [eclv_result e_V]. rewrite map_length.
  rewrite (Permutation_length (sortQ_perm _)). destruct add; [rewrite app_length|]; lia.
Qed.

Lemma eclv_ctc_statistics_none data columns a b c d :
  sum_column_data_by_name data columns "fy_oy" true = Ok a ->
  sum_column_data_by_name data columns "fy_on" true = Ok b ->
  sum_column_data_by_name data columns "fn_oy" true = Ok c ->
  sum_column_data_by_name data columns "fn_on" true = Ok d ->
  calculate_eclv_ctc_statistics data columns = Ok None.
Proof.
  intros E1 E2 E3 E4. unfold calculate_eclv_ctc_statistics. rewrite E1, E2, E3, E4. cbn [bind].
  assert (T : exists o, calculate_economic_value [a; b; c; d] cl_pts false = Ok o).
  { destruct a as [a|]; [|eexists; apply eclv_missing; simpl; auto].
    destruct b as [b|]; [|eexists; apply eclv_missing; simpl; auto].
    destruct c as [c|]; [|eexists; apply eclv_missing; simpl; auto].
    destruct d as [d|]; [|eexists; apply eclv_missing; simpl; auto 6].
    destruct (eclv_defined_iff a b c d cl_pts false) as [o [Eo _]]. eauto. }
  destruct T as [[r|] E]; rewrite E; [|reflexivity]. cbn [bind].
  pose proof (eclv_V_length _ _ _ _ _ _ _ E) as L. change (length cl_pts) with 19%nat in L.
  destruct (e_V r) as [|v [|w t]]; simpl in L; try lia; reflexivity.
Qed.
