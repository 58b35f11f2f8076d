From Coq Require Import Permutation.
From Verif Require Import PyBase ColumnModel BaseSpec BaseProofs AggSpec AggProofs MomentProofs RealProofs EclvModel EclvSpec EclvProofs
  BootModel BootSpec BootProofs Sl1l2Spec Sl1l2Proofs Sl1l2Proofs2 SeriesModel SeriesSpec.
From Coq Require Import Reals Qreals Qabs Lra.
Open Scope string_scope.
Open Scope Q_scope.

Lemma none_known x : remove_none x = known x.
Proof. induction x as [|[v|] t IH]; simpl; congruence. Qed.
Lemma pysum_acc l a : fold_left Qplus l a == a + qsum l.
Proof. revert a. induction l as [|x t IH]; intro a; simpl; [ring|]. rewrite IH. ring. Qed.
Lemma pysum_total l : pysum l == total_of self l.
Proof.
  unfold pysum. rewrite pysum_acc. unfold total_of. rewrite Qplus_0_l. induction l as [|x t IH]; simpl; [reflexivity|]. rewrite IH. reflexivity.
Qed.
Lemma pysum_map {A} (g : A -> Q) l : pysum (map g l) == total_of g l.
Proof. unfold pysum. rewrite pysum_acc. unfold total_of. ring. Qed.
Lemma st_mean_value l : l <> [] -> exists m, st_mean l = Ok m /\ m == mean_of self l.
Proof.
  intro H. unfold st_mean. destruct l as [|a l]; [congruence|]. eexists. split; [reflexivity|].
  unfold mean_of. rewrite pysum_total. reflexivity.
Qed.
Lemma fdiv_ok a b : ~ b == 0 -> fdiv a b = Ok (a / b).
Proof. intro H. unfold fdiv. destruct (Qeq_bool b 0) eqn:E; [apply Qeq_bool_iff in E; contradiction|reflexivity]. Qed.
Lemma fdiv_0 a b : b == 0 -> fdiv a b = Err ZeroDivisionError.
Proof. intro H. unfold fdiv. apply Qeq_bool_iff in H. rewrite H. reflexivity. Qed.

(** Autocovariances. *)
Definition swap {A B} (p : A * B) : B * A := (snd p, fst p).
Lemma combine_swap {A B} (a : list A) (b : list B) : combine b a = map swap (combine a b).
Proof. revert b. induction a as [|x a IH]; intros [|y b]; simpl; try reflexivity. rewrite IH. reflexivity. Qed.
Lemma loop_value ps m tot c : exists v, autocov_loop (map swap ps) m tot c = (v, (c + Z.of_nat (length (both ps)))%Z) /\
  v == tot + total_of (fun p => (fst p - m) * (snd p - m)) (both ps).
Proof.
  revert tot c. induction ps as [|[[a|] [b|]] ps IH]; intros tot c; simpl.
  - exists tot. split; [f_equal; lia|]. unfold total_of. simpl. ring.
  - destruct (IH (tot + (b - m) * (a - m)) (c + 1)%Z) as (v & E & V). exists v. rewrite E. split; [f_equal; lia|].
    rewrite V. unfold total_of. simpl. ring.
  - apply IH. - apply IH. - apply IH.
Qed.
Lemma autocov_value x k m : (0 < length (lag_pairs k x) + k)%nat ->
  exists v, autocovariance x k m = Ok v /\ v == acov_around m k x.
Proof.
  intro H. unfold autocovariance. rewrite combine_swap.
  destruct (loop_value (combine x (skipn k x)) m 0 0) as (v & E & V). rewrite E. cbv beta iota zeta.
  change (both (combine x (skipn k x))) with (lag_pairs k x) in *.
  destruct ((0 + Z.of_nat (length (lag_pairs k x)) + Z.of_nat k =? 0)%Z) eqn:B; [exfalso; apply Z.eqb_eq in B; unfold lag_pairs in *; lia|].
  apply Z.eqb_neq in B. eexists. split; [reflexivity|]. rewrite V. unfold acov_around, count.
  set (n := Z.of_nat (length (lag_pairs k x))) in *. assert (N : ~ inject_Z n + inject_Z (Z.of_nat k) == 0).
  { rewrite <- inject_Z_plus. intro Z0. change 0 with (inject_Z 0) in Z0. apply (proj1 (inject_Z_injective _ _)) in Z0. lia. }
  rewrite Z.add_0_l, inject_Z_plus. field. exact N.
Qed.
Lemma lag_pairs_0 x : lag_pairs 0 x = map (fun a => (a, a)) (known x).
Proof. unfold lag_pairs. simpl. induction x as [|[v|] t IH]; simpl; congruence. Qed.
Lemma acov_around_compat m m' k x : m == m' -> acov_around m k x == acov_around m' k x.
Proof.
  intro E. unfold acov_around. rewrite (total_ext _ (fun p => (fst p - m') * (snd p - m'))); [reflexivity|].
  intros p _. rewrite E. reflexivity.
Qed.
Lemma total_map {A B} (f : A -> B) (g : B -> Q) l : total_of g (map f l) = total_of (fun a => g (f a)) l.
Proof. unfold total_of. rewrite map_map. reflexivity. Qed.
Lemma count_map {A B} (f : A -> B) l : count (map f l) = count l.
Proof. unfold count. rewrite map_length. reflexivity. Qed.
Lemma acov_0 x : acov 0 x == codev self self (known x) / count (known x).
Proof.
  unfold acov, acov_around, series_mean. rewrite lag_pairs_0, total_map, count_map. unfold codev, self. simpl.
  rewrite Qplus_0_r. reflexivity.
Qed.
Lemma varies_iff x : known x <> [] -> (Varies x <-> ~ acov 0 x == 0).
Proof.
  intro H. rewrite acov_0. pose proof (count_pos _ H) as P.
  assert (K : codev self self (known x) / count (known x) == 0 <-> codev self self (known x) == 0).
  { split; intro E; [|rewrite E; field; qlra].
    setoid_replace (codev self self (known x)) with (codev self self (known x) / count (known x) * count (known x)) by (field; qlra).
    rewrite E. ring. }
  rewrite K, codev_zero_iff. split.
  - intros (a & b & Ia & Ib & N) C. apply N. rewrite (C a b Ia Ib). reflexivity.
  - intro N. unfold Varies. (* decidable search *)
    assert (D : forall l, (exists a b, In a l /\ In b l /\ ~ a == b) \/ (forall a b, In a l -> In b l -> a == b)).
    { intro l. destruct l as [|c l]; [right; intros ? ? []|].
      destruct (existsb (fun b => negb (Qeq_bool c b)) l) eqn:E.
      - left. apply existsb_exists in E. destruct E as (b & Ib & B). exists c, b. split; [left; reflexivity|]. split; [right; exact Ib|].
        apply negb_true_iff in B. apply Qeq_bool_neq in B. exact B.
      - right. assert (U : forall b, In b (c :: l) -> c == b).
        { intros b [<-|Ib]; [reflexivity|]. destruct (Qeq_bool c b) eqn:B; [apply Qeq_bool_iff; exact B|].
          assert (existsb (fun b => negb (Qeq_bool c b)) l = true) by (apply existsb_exists; exists b; rewrite B; auto). congruence. }
        intros a b Ia Ib. rewrite <- (U a Ia). apply U. exact Ib. }
    destruct (D (known x)) as [E|E]; [exact E|]. exfalso. apply N. unfold Constant. intros; apply E; assumption.
Qed.
Lemma map_res_values {B} (f : nat -> res B) (P : nat -> B -> Prop) n s :
  (forall i, (s <= i < s + n)%nat -> exists v, f i = Ok v /\ P i v) ->
  exists r, map_res f (seq s n) = Ok r /\ length r = n /\ forall k v, nth_error r k = Some v -> P (s + k)%nat v.
Proof.
  revert s. induction n as [|n IH]; intros s H; simpl.
  - exists []. split; [reflexivity|]. split; [reflexivity|]. intros [|k] v E; discriminate E.
  - destruct (H s ltac:(lia)) as (v & E & Pv). rewrite E. cbn [bind].
    destruct (IH (S s)) as (r & Er & L & N); [intros i Hi; apply H; lia|]. rewrite Er. cbn [bind].
    exists (v :: r). split; [reflexivity|]. split; [simpl; congruence|]. intros [|k] w K; simpl in K.
    + injection K as <-. rewrite Nat.add_0_r. exact Pv.
    + specialize (N k w K). rewrite <- Nat.add_succ_comm. exact N.
Qed.
Definition entries (x : list pyval) (lag : option Z) : nat :=
  Z.to_nat (Z.min (match lag with Some l => l | None => default_lag (length x) end) (Z.of_nat (length x) - 1) + 1).
Lemma pairs_pos x k : known x <> [] -> (0 < length (lag_pairs k x) + k)%nat.
Proof.
  intro H. destruct k; [|lia]. rewrite lag_pairs_0, map_length. destruct (known x); [congruence|simpl; lia].
Qed.
Lemma acf_covariance x lag : known x <> [] -> exists r, acf x "covariance" lag = Ok (Some r) /\ length r = entries x lag /\
  forall k v, nth_error r k = Some v -> v == acov k x.
Proof.
  intro H. unfold acf. simpl (negb _). cbv iota. destruct x as [|a x']; [contradiction (H eq_refl)|].
  set (x := a :: x') in *. rewrite none_known. destruct (st_mean_value _ H) as (m & Em & Hm). rewrite Em. cbn [bind].
  destruct (autocov_value x 0 m (pairs_pos x 0 H)) as (c & Ec & Hc). rewrite Ec. cbn [bind]. simpl (String.eqb _ _). cbv iota.
  destruct (map_res_values (fun i => bind (autocovariance x i m) (fun cov => Ok cov)) (fun k v => v == acov k x) (entries x lag) 0) as (r & Er & L & N).
  { intros i _. destruct (autocov_value x i m (pairs_pos x i H)) as (v & Ev & Hv). exists v. rewrite Ev. split; [reflexivity|].
    rewrite Hv. apply acov_around_compat. exact Hm. }
  unfold entries in Er. rewrite Er. cbn [bind]. exists r. auto.
Qed.
Lemma acf_correlation x lag : known x <> [] ->
  (Varies x -> exists r, acf x "correlation" lag = Ok (Some r) /\ length r = entries x lag /\
     forall k v, nth_error r k = Some v -> v == acor k x) /\
  (~ Varies x -> acf x "correlation" lag = if Nat.eqb (entries x lag) 0 then Ok (Some []) else Err ZeroDivisionError).
Proof.
  intro H. unfold acf. simpl (negb _). cbv iota. destruct x as [|a x']; [contradiction (H eq_refl)|].
  set (x := a :: x') in *. rewrite none_known. destruct (st_mean_value _ H) as (m & Em & Hm). rewrite Em. cbn [bind].
  destruct (autocov_value x 0 m (pairs_pos x 0 H)) as (c & Ec & Hc). rewrite Ec. cbn [bind]. simpl (String.eqb _ _). cbv iota.
  assert (Hc' : c == acov 0 x) by (rewrite Hc; apply acov_around_compat; exact Hm).
  rewrite (varies_iff x H). split; intro V.
  - destruct (map_res_values (fun i => bind (autocovariance x i m) (fun cov => fdiv cov c)) (fun k v => v == acor k x) (entries x lag) 0) as (r & Er & L & N).
    { intros i _. destruct (autocov_value x i m (pairs_pos x i H)) as (v & Ev & Hv). exists (v / c). rewrite Ev. cbn [bind].
      rewrite fdiv_ok by (rewrite Hc'; exact V). split; [reflexivity|].
      unfold acor. rewrite Hv, Hc', (acov_around_compat m (series_mean x) i x Hm). reflexivity. }
    unfold entries in Er. rewrite Er. cbn [bind]. exists r. auto.
  - fold (entries x lag). destruct (entries x lag) as [|n]; [reflexivity|]. simpl. rewrite Ec. cbn [bind].
    rewrite fdiv_0; [reflexivity|]. rewrite Hc'. destruct (Qeq_dec (acov 0 x) 0) as [E|E]; [exact E|contradiction].
Qed.

(** Medians. *)
Lemma nth_some {A} (l : list A) k : (k < length l)%nat -> exists v, nth_error l k = Some v.
Proof. intro H. destruct (nth_error l k) eqn:E; [eauto|]. apply nth_error_None in E. lia. Qed.
Lemma order_exists l k : (k < length l)%nat -> exists v, OrderStatistic l k v.
Proof.
  intro H. rewrite <- (Permutation_length (sortQ_perm l)) in H. destruct (nth_some _ _ H) as (v & E). exists v.
  eapply order_perm; [apply sortQ_perm|]. apply order_of_sorted; [apply sortQ_asc|exact E].
Qed.
Lemma st_median_value l : l <> [] -> exists m, st_median l = Ok m /\ Quantile l (1 # 2) m.
Proof.
  intro H. unfold st_median.
  assert (O : forall k v, nth_error (sortQ l) k = Some v -> OrderStatistic l k v).
  { intros k v E. eapply order_perm; [apply sortQ_perm|]. apply order_of_sorted; [apply sortQ_asc|exact E]. }
  pose proof (Permutation_length (sortQ_perm l)) as L. set (s := sortQ l) in *. set (n := length s) in *.
  assert (Hn : (0 < n)%nat) by (rewrite L; destruct l; [congruence|simpl; lia]).
  destruct l as [|a l']; [congruence|]. set (l := a :: l') in *. cbv zeta.
  pose proof (Nat.div2_odd n) as D. destruct (Nat.odd n) eqn:Od; simpl Nat.b2n in D.
  - destruct (nth_some s (Nat.div2 n)) as (v & E); [fold n; lia|]. rewrite E. exists v. split; [reflexivity|].
    set (k := Nat.div2 n) in *. 
    assert (P : (1 # 2) * inject_Z (Z.of_nat (length l) - 1) == inject_Z (Z.of_nat k) + 0).
    { rewrite <- L. replace (Z.of_nat n - 1)%Z with (2 * Z.of_nat k)%Z by lia. rewrite inject_Z_mult. change (inject_Z 2) with 2. ring. }
    destruct (Nat.eq_dec (S k) n) as [K|K].
    + exists k, 0, v, v. split; [exact P|]. split; [qlra|]. split; [apply O; exact E|]. split; [|ring].
      right. split; [reflexivity|]. split; [congruence|reflexivity].
    + destruct (nth_some s (S k)) as (w & Ew); [fold n; lia|].
      exists k, 0, v, w. split; [exact P|]. split; [qlra|]. split; [apply O; exact E|]. split; [|ring].
      left. apply O; exact Ew.
  - destruct (nth_some s (Nat.div2 n)) as (v & E); [fold n; lia|].
    destruct (nth_some s (Nat.div2 n - 1)) as (w & Ew); [fold n; lia|]. rewrite E, Ew.
    eexists. split; [reflexivity|]. exists (Nat.div2 n - 1)%nat, (1 # 2), w, v.
    split. { rewrite <- L. replace (Z.of_nat n - 1)%Z with (2 * Z.of_nat (Nat.div2 n - 1) + 1)%Z by lia.
      rewrite inject_Z_plus, inject_Z_mult. change (inject_Z 2) with 2. change (inject_Z 1) with 1. ring. }
    split; [qlra|]. split; [apply O; exact Ew|]. split; [|field].
    left. apply O. replace (S (Nat.div2 n - 1)) with (Nat.div2 n) by lia. exact E.
Qed.
Lemma filter_split {A} (p : A -> bool) l : (length (filter p l) + length (filter (fun x => negb (p x)) l) = length l)%nat.
Proof. induction l as [|x l IH]; simpl; [reflexivity|]. destruct (p x); simpl; lia. Qed.
Lemma filter_map_len {A B} (f : A -> B) p q l : (forall x, p (f x) = q x) -> length (filter p (map f l)) = length (filter q l).
Proof. intro H. induction l as [|x l IH]; simpl; [reflexivity|]. rewrite H. destruct (q x); simpl; congruence. Qed.
Lemma affine_le a b x y : 0 < a -> Qle_bool (a * x + b) (a * y + b) = Qle_bool x y.
Proof.
  intro H. destruct (Qle_bool x y) eqn:E.
  - apply Qle_bool_iff in E. apply Qle_bool_iff. pose proof (Qmult_le_0_compat a (y - x)). qlra.
  - destruct (Qle_bool (a * x + b) (a * y + b)) eqn:F; [|reflexivity]. apply Qle_bool_iff in F.
    assert (x <= y); [|apply Qle_bool_iff in H0; congruence]. apply (Qmult_le_l x y a H). qlra.
Qed.
Lemma affine_ge a b x y : a < 0 -> Qle_bool (a * x + b) (a * y + b) = Qle_bool y x.
Proof.
  intro H. rewrite <- (affine_le (- a) (- b) y x) by qlra.
  apply eq_true_iff_eq. rewrite !Qle_bool_iff. split; intro; qlra.
Qed.
Lemma order_up a b l k x : 0 < a -> OrderStatistic l k x -> OrderStatistic (map (fun v => a * v + b) l) k (a * x + b).
Proof.
  intros H (I & C). split; [apply in_map_iff; exists x; auto|]. unfold smaller, not_larger in *.
  rewrite (filter_map_len (fun v => a * v + b) (fun y => negb (Qle_bool (a * x + b) y)) (fun y => negb (Qle_bool x y))),
    (filter_map_len (fun v => a * v + b) (fun y => Qle_bool y (a * x + b)) (fun y => Qle_bool y x)).
  - exact C. - intro y. apply affine_le; exact H. - intro y. rewrite affine_le by exact H. reflexivity.
Qed.
Lemma order_down a b l k x : a < 0 -> OrderStatistic l k x ->
  OrderStatistic (map (fun v => a * v + b) l) (length l - 1 - k) (a * x + b).
Proof.
  intros H (I & C). split; [apply in_map_iff; exists x; auto|]. unfold smaller, not_larger in *.
  rewrite (filter_map_len (fun v => a * v + b) (fun y => negb (Qle_bool (a * x + b) y)) (fun y => negb (Qle_bool y x))),
    (filter_map_len (fun v => a * v + b) (fun y => Qle_bool y (a * x + b)) (fun y => Qle_bool x y)).
  - pose proof (filter_split (fun y => Qle_bool y x) l). pose proof (filter_split (fun y => Qle_bool x y) l). lia.
  - intro y. apply affine_ge; exact H. - intro y. rewrite affine_ge by exact H. reflexivity.
Qed.
Lemma median_affine a b l m : ~ a == 0 -> Quantile l (1 # 2) m -> Quantile (map (fun v => a * v + b) l) (1 # 2) (a * m + b).
Proof.
  intros Ha (k & t & u & v & E & T & U & V & M). unfold Quantile. rewrite map_length.
  pose proof (order_len _ _ _ U) as LU.
  destruct (Qlt_le_dec 0 a) as [P|P].
  - exists k, t, (a * u + b), (a * v + b). split; [exact E|]. split; [exact T|]. split; [apply order_up; assumption|].
    split; [|rewrite M; ring]. destruct V as [V|(T0 & K & ->)]; [left; apply order_up; assumption|right; auto].
  - assert (N : a < 0). { apply Qle_lteq in P. destruct P as [P|P]; [exact P|contradiction]. }
    assert (D : (Z.of_nat (length l) - 1 = 2 * Z.of_nat k /\ t == 0 \/ Z.of_nat (length l) - 1 = 2 * Z.of_nat k + 1 /\ t == 1 # 2)%Z).
    { set (n := (Z.of_nat (length l) - 1)%Z) in *.
      assert (E2 : inject_Z (n - 2 * Z.of_nat k) == 2 * t).
      { unfold Z.sub. rewrite inject_Z_plus, inject_Z_opp, inject_Z_mult. change (inject_Z 2) with 2. qlra. }
      assert (0 <= n - 2 * Z.of_nat k < 2)%Z.
      { split; [rewrite Zle_Qle|rewrite Zlt_Qlt]; rewrite E2; [change (inject_Z 0) with 0|change (inject_Z 2) with 2]; qlra. }
      assert (C : (n - 2 * Z.of_nat k = 0 \/ n - 2 * Z.of_nat k = 1)%Z) by lia. destruct C as [C|C]; rewrite C in E2.
      - left. split; [lia|]. change (inject_Z 0) with 0 in E2. qlra.
      - right. split; [lia|]. change (inject_Z 1) with 1 in E2. qlra. }
    destruct D as [(D & T0)|(D & T0)].
    + assert (K : (length l - 1 - k = k)%nat) by lia.
      pose proof (order_down a b l k u N U) as U'. rewrite K in U'.
      destruct (Nat.eq_dec (S k) (length l)) as [S|S].
      * exists k, t, (a * u + b), (a * u + b). split; [exact E|]. split; [exact T|]. split; [exact U'|].
        split; [right; auto|]. rewrite M, T0. ring.
      * destruct (order_exists (map (fun v => a * v + b) l) (Datatypes.S k)) as (w & W); [rewrite map_length; lia|].
        exists k, t, (a * u + b), w. split; [exact E|]. split; [exact T|]. split; [exact U'|].
        split; [left; exact W|]. rewrite M, T0. ring.
    + destruct V as [V|(T1 & _)]; [|rewrite T0 in T1; discriminate T1].
      pose proof (order_down a b l k u N U) as U'. replace (length l - 1 - k)%nat with (S k) in U' by lia.
      pose proof (order_down a b l (S k) v N V) as V'. replace (length l - 1 - S k)%nat with k in V' by lia.
      exists k, t, (a * v + b), (a * u + b). split; [exact E|]. split; [exact T|]. split; [exact V'|].
      split; [left; exact U'|]. rewrite M, T0. ring.
Qed.
Lemma total_rev {A} (g : A -> Q) l : total_of g (rev l) == total_of g l.
Proof.
  unfold total_of. rewrite map_rev. assert (P : forall a b, qsum (a ++ b)%list == qsum a + qsum b).
  { induction a as [|x a IH]; intro b; simpl; [ring|]. rewrite IH. ring. }
  induction (map g l) as [|x t IH]; simpl; [reflexivity|]. rewrite P, IH. simpl. ring.
Qed.
Lemma count_rev {A} (l : list A) : count (rev l) = count l.
Proof. unfold count. rewrite rev_length. reflexivity. Qed.
Lemma mean_rev l : mean_of self (rev l) == mean_of self l.
Proof. unfold mean_of. rewrite total_rev, count_rev. reflexivity. Qed.
Lemma mean_affine a b l : l <> [] -> mean_of self (map (fun v => a * v + b) l) == a * mean_of self l + b.
Proof.
  intro H. pose proof (count_pos l H). unfold mean_of. rewrite count_map.
  assert (T : total_of self (map (fun v => a * v + b) l) == a * total_of self l + b * count l).
  { clear H0 H. unfold count. induction l as [|x l IH]; [unfold total_of; simpl; ring|].
    unfold total_of in *. simpl length. rewrite Nat2Z.inj_succ. simpl map. simpl qsum. rewrite IH. unfold Z.succ. rewrite inject_Z_plus.
    change (inject_Z 1) with 1. unfold self. ring. }
  rewrite T. field. qlra.
Qed.
Lemma known_rev {A} (x : list (option A)) : known (rev x) = rev (known x).
Proof.
  assert (P : forall a b : list (option A), known (a ++ b)%list = (known a ++ known b)%list).
  { induction a as [|[v|] a IH]; intro b; simpl; try rewrite IH; reflexivity. }
  induction x as [|[v|] x IH]; simpl; [reflexivity| |]; rewrite P, IH; simpl; [reflexivity|apply app_nil_r].
Qed.
Lemma known_affine a b x : known (affine a b x) = map (fun v => a * v + b) (known x).
Proof. induction x as [|[v|] x IH]; simpl; [reflexivity| |]; congruence. Qed.

Definition sgn_of (b : bool) : Z := if b then 1%Z else (-1)%Z.
Lemma signs_sides t l :
  map (fun i => sign (i - t)) (filter (fun e => negb (Qeq_bool e t)) l) = map sgn_of (sides t l).
Proof.
  induction l as [|x l IH]; simpl; [reflexivity|].
  destruct (Qcompare x t) eqn:C.
  - apply (proj2 (Qeq_alt _ _)) in C. apply Qeq_bool_iff in C. rewrite C. exact IH.
  - apply (proj2 (Qlt_alt _ _)) in C. destruct (Qeq_bool x t) eqn:E; [apply Qeq_bool_iff in E; qlra|]. simpl. f_equal; [|exact IH].
    assert (L : x - t < 0) by qlra. unfold sign. unfold Qlt in L. simpl in L. change (Qnum 0) with 0%Z in L.
    unfold Qminus, Qplus, Qopp in *. simpl in *. apply Z.sgn_neg. lia.
  - apply (proj2 (Qgt_alt _ _)) in C. destruct (Qeq_bool x t) eqn:E; [apply Qeq_bool_iff in E; qlra|]. simpl. f_equal; [|exact IH].
    assert (L : 0 < x - t) by qlra. unfold sign. unfold Qlt in L. simpl in L.
    unfold Qminus, Qplus, Qopp in *. simpl in *. apply Z.sgn_pos. lia.
Qed.
Fixpoint bkeys (s : list bool) : list bool :=
  match s with
  | a :: ((b :: _) as rest) => if Bool.eqb a b then bkeys rest else a :: bkeys rest
  | _ => s
  end.
Lemma keys_map s : group_keys (map sgn_of s) = map sgn_of (bkeys s).
Proof.
  induction s as [|a s IH]; [reflexivity|]. destruct s as [|b s]; [reflexivity|].
  simpl map in *. cbn [group_keys bkeys] in *. rewrite IH. destruct a, b; reflexivity.
Qed.
Lemma bkeys_2 a b s : bkeys (a :: b :: s) = if Bool.eqb a b then bkeys (b :: s) else a :: bkeys (b :: s).
Proof. reflexivity. Qed.
Lemma switches_2 a b s : switches (a :: b :: s) = ((if Bool.eqb a b then 0 else 1) + switches (b :: s))%nat.
Proof. reflexivity. Qed.
Lemma keys_len s : length (bkeys s) = runs_of s.
Proof.
  destruct s as [|a s]; [reflexivity|]. unfold runs_of. revert a. induction s as [|b s IH]; intro a; [reflexivity|].
  rewrite bkeys_2, switches_2. specialize (IH b). destruct (Bool.eqb a b); [exact IH|]. cbn [length]. rewrite IH. reflexivity.
Qed.
Lemma count_true s : count_if (fun v => (0 <? v)%Z) (map sgn_of s) = Z.of_nat (length (filter (fun b => b) s)).
Proof. unfold count_if. f_equal. apply filter_map_len. intros []; reflexivity. Qed.
Lemma count_false s : count_if (fun v => (v <? 0)%Z) (map sgn_of s) = Z.of_nat (length (filter negb s)).
Proof. unfold count_if. f_equal. apply filter_map_len. intros []; reflexivity. Qed.
Lemma count_keys s : (count_if (fun k => (k =? 1)%Z) (map sgn_of s) + count_if (fun k => (k =? -1)%Z) (map sgn_of s) = Z.of_nat (length s))%Z.
Proof.
  unfold count_if. rewrite (filter_map_len sgn_of _ (fun b => b)) by (intros []; reflexivity).
  rewrite (filter_map_len sgn_of _ negb) by (intros []; reflexivity).
  rewrite <- Nat2Z.inj_add. f_equal. exact (filter_split (fun b => b) s).
Qed.

(** The test depends on the two counts and the number of runs only. *)
Definition runs_out (cdf : R -> R) (n1 n2 rr : Z) (alternative : string) : res (list (string * obj)) :=
  let n := (n1 + n2)%Z in
  m <- fdiv (inject_Z (2 * n1 * n2)) (inject_Z (n1 + n2)) ;;
  let mean_value := 1 + m in
  variance <- fdiv (inject_Z (2 * n1 * n2 * (2 * n1 * n2 - n1 - n2))) (inject_Z (n * n * (n - 1))) ;;
  if Qlt_bool variance 0 then Err ValueError
  else if Qeq_bool variance 0 then Err ZeroDivisionError
  else
    let statistic := (Q2R (inject_Z rr - mean_value) / sqrt (Q2R variance))%R in
    let pv0 := cdf statistic in
    let pv := if String.eqb alternative "two.sided" then (2 * Rmin pv0 (1 - pv0))%R
              else if String.eqb alternative "left.sided" then pv0
              else (1 - pv0)%R in
    Ok [("statistic", OReal statistic); ("p_value", OReal pv); ("runs", OInt rr); ("mean_value ", ONone);
        ("variance", ORat variance); ("mean_value", ORat mean_value)].
Lemma runs_core_out cdf l t alt :
  runs_core cdf l t alt = runs_out cdf (Z.of_nat (above t l)) (Z.of_nat (below t l)) (Z.of_nat (runs_of (sides t l))) alt.
Proof.
  unfold runs_core. rewrite signs_sides, keys_map, count_true, count_false, count_keys, keys_len. reflexivity.
Qed.
Lemma runs_out_sym cdf p q r alt : runs_out cdf p q r alt = runs_out cdf q p r alt.
Proof.
  unfold runs_out. rewrite (Z.add_comm q p). replace (2 * q * p)%Z with (2 * p * q)%Z by ring.
  replace (2 * p * q - q - p)%Z with (2 * p * q - p - q)%Z by ring. reflexivity.
Qed.
Lemma sides_compat t t' l : t == t' -> sides t l = sides t' l.
Proof. intro E. induction l as [|x l IH]; simpl; [reflexivity|]. rewrite (Qcompare_comp x x (Qeq_refl x) t t' E), IH. reflexivity. Qed.
Lemma sides_rev t l : sides t (rev l) = rev (sides t l).
Proof.
  assert (P : forall a b, sides t (a ++ b)%list = (sides t a ++ sides t b)%list).
  { induction a as [|x a IH]; intro b; simpl; [reflexivity|]. rewrite IH. destruct (Qcompare x t); reflexivity. }
  induction l as [|x l IH]; simpl; [reflexivity|]. rewrite P, IH. simpl. destruct (Qcompare x t); simpl; try reflexivity. apply app_nil_r.
Qed.
Lemma sides_up a b t l : 0 < a -> sides (a * t + b) (map (fun v => a * v + b) l) = sides t l.
Proof.
  intro H. induction l as [|x l IH]; simpl; [reflexivity|]. rewrite IH.
  assert (C : (a * x + b ?= a * t + b) = (x ?= t)); [|rewrite C; reflexivity].
  destruct (Qcompare x t) eqn:C.
  - apply (proj2 (Qeq_alt _ _)) in C. apply (proj1 (Qeq_alt _ _)). rewrite C. reflexivity.
  - apply (proj2 (Qlt_alt _ _)) in C. apply (proj1 (Qlt_alt _ _)). assert (K : a * x < a * t) by (apply Qmult_lt_l; assumption). qlra.
  - apply (proj2 (Qgt_alt _ _)) in C. apply (proj1 (Qgt_alt _ _)). assert (K : a * t < a * x) by (apply Qmult_lt_l; assumption). qlra.
Qed.
Lemma sides_down a b t l : a < 0 -> sides (a * t + b) (map (fun v => a * v + b) l) = map negb (sides t l).
Proof.
  intro H. assert (H' : 0 < - a) by qlra. induction l as [|x l IH]; simpl; [reflexivity|]. rewrite IH.
  destruct (Qcompare x t) eqn:C.
  - apply (proj2 (Qeq_alt _ _)) in C. assert (D : (a * x + b ?= a * t + b) = Eq) by (apply (proj1 (Qeq_alt _ _)); rewrite C; reflexivity). rewrite D. reflexivity.
  - apply (proj2 (Qlt_alt _ _)) in C. assert (D : (a * x + b ?= a * t + b) = Gt); [|rewrite D; reflexivity].
    apply (proj1 (Qgt_alt _ _)). assert (K : - a * x < - a * t) by (apply Qmult_lt_l; assumption). qlra.
  - apply (proj2 (Qgt_alt _ _)) in C. assert (D : (a * x + b ?= a * t + b) = Lt); [|rewrite D; reflexivity].
    apply (proj1 (Qlt_alt _ _)). assert (K : - a * t < - a * x) by (apply Qmult_lt_l; assumption). qlra.
Qed.
Lemma switches_negb s : switches (map negb s) = switches s.
Proof. induction s as [|a s IH]; [reflexivity|]. destruct s as [|b s]; [reflexivity|]. simpl map in *. rewrite !switches_2, IH. destruct a, b; reflexivity. Qed.
Lemma runs_negb s : runs_of (map negb s) = runs_of s.
Proof. destruct s; [reflexivity|]. unfold runs_of. rewrite <- switches_negb with (s := b :: s). reflexivity. Qed.
Lemma switches_app s a b r : switches ((s ++ [a]) ++ b :: r)%list = (switches (s ++ [a])%list + (if Bool.eqb a b then 0 else 1) + switches (b :: r))%nat.
Proof.
  induction s as [|x s IH]; [simpl app; rewrite switches_2; simpl (switches [a]); lia|].
  destruct s as [|y s].
  - simpl app in *. rewrite !switches_2 in *. simpl (switches [a]) in *. lia.
  - simpl app in *. rewrite !(switches_2 x), IH. lia.
Qed.
Lemma switches_rev s : switches (rev s) = switches s.
Proof.
  induction s as [|a s IH]; [reflexivity|]. destruct s as [|b s]; [reflexivity|].
  change (rev (a :: b :: s)) with ((rev s ++ [b]) ++ [a])%list. rewrite switches_app.
  change (rev s ++ [b])%list with (rev (b :: s)). rewrite IH, switches_2. simpl (switches [a]). destruct a, b; simpl Bool.eqb; cbv iota; lia.
Qed.
Lemma runs_rev s : runs_of (rev s) = runs_of s.
Proof.
  destruct s as [|a s]; [reflexivity|]. unfold runs_of. rewrite switches_rev.
  destruct (rev (a :: s)) eqn:E; [apply (f_equal (@length bool)) in E; rewrite rev_length in E; discriminate E|reflexivity].
Qed.
Lemma filter_rev_len {A} (p : A -> bool) l : length (filter p (rev l)) = length (filter p l).
Proof.
  assert (P : forall a b : list A, filter p (a ++ b)%list = (filter p a ++ filter p b)%list).
  { induction a as [|x a IH]; intro b; simpl; [reflexivity|]. rewrite IH. destruct (p x); reflexivity. }
  induction l as [|x l IH]; simpl; [reflexivity|]. rewrite P, app_length, IH. simpl. destruct (p x); simpl; lia.
Qed.
(** Bounds on the number of runs. *)
Lemma switch_true a s : (switches (a :: s) + (if a then 1 else 0) <= 2 * length (filter (fun b => b) (a :: s)))%nat.
Proof.
  revert a. induction s as [|b s IH]; intro a; [destruct a; simpl; lia|].
  specialize (IH b). rewrite switches_2. cbn [filter] in *. destruct a, b; cbn [Bool.eqb length filter negb] in *; lia.
Qed.
Lemma switch_false a s : (switches (a :: s) + (if a then 0 else 1) <= 2 * length (filter negb (a :: s)))%nat.
Proof.
  revert a. induction s as [|b s IH]; intro a; [destruct a; simpl; lia|].
  specialize (IH b). rewrite switches_2. cbn [filter] in *. destruct a, b; cbn [Bool.eqb length filter negb] in *; lia.
Qed.
Lemma switch_len a s : (switches (a :: s) <= length s)%nat.
Proof. revert a. induction s as [|b s IH]; intro a; [simpl; lia|]. specialize (IH b). rewrite switches_2. cbn [length] in *. destruct (Bool.eqb a b); lia. Qed.
Lemma switch_pos a s : switches (a :: s) = 0%nat -> filter negb (a :: s) = [] \/ filter (fun b => b) (a :: s) = [].
Proof.
  revert a. induction s as [|b s IH]; intro a; [destruct a; simpl; auto|].
  rewrite switches_2. intro H. destruct (Bool.eqb a b) eqn:E; [|discriminate H]. apply Bool.eqb_prop in E. subst b.
  destruct (IH a H) as [K|K]; destruct a; simpl in *; try discriminate K; auto.
Qed.
Lemma runs_out_enough cdf p q r alt :
  (EnoughRuns p q -> exists m v,
     runs_out cdf (Z.of_nat p) (Z.of_nat q) (Z.of_nat r) alt =
       Ok [("statistic", OReal (runs_statistic p q r));
           ("p_value", OReal (if String.eqb alt "two.sided" then (2 * Rmin (cdf (runs_statistic p q r)) (1 - cdf (runs_statistic p q r)))%R
              else if String.eqb alt "left.sided" then cdf (runs_statistic p q r)
              else (1 - cdf (runs_statistic p q r))%R));
           ("runs", OInt (Z.of_nat r)); ("mean_value ", ONone); ("variance", ORat v); ("mean_value", ORat m)]
     /\ m == runs_mean p q /\ v == runs_var p q) /\
  (~ EnoughRuns p q -> runs_out cdf (Z.of_nat p) (Z.of_nat q) (Z.of_nat r) alt = Err ZeroDivisionError).
Proof.
  unfold runs_out, EnoughRuns. set (P := Z.of_nat p). set (Q := Z.of_nat q).
  assert (IQ : forall z : Z, inject_Z z == 0 <-> z = 0%Z) by (intro z; change 0 with (inject_Z 0); apply inject_Z_injective).
  split.
  - intros (A & B & C).
    assert (HP : (1 <= P)%Z) by (unfold P; lia). assert (HQ : (1 <= Q)%Z) by (unfold Q; lia). assert (HS : (3 <= P + Q)%Z) by (unfold P, Q; lia).
    rewrite fdiv_ok by (rewrite IQ; lia). cbn [bind].
    assert (D : (0 < (P + Q) * (P + Q) * (P + Q - 1))%Z) by nia.
    rewrite fdiv_ok by (rewrite IQ; lia). cbn [bind].
    assert (N : (0 < 2 * P * Q * (2 * P * Q - P - Q))%Z). { apply Z.mul_pos_pos; nia. }
    set (v := inject_Z (2 * P * Q * (2 * P * Q - P - Q)) / inject_Z ((P + Q) * (P + Q) * (P + Q - 1))).
    set (m := 1 + inject_Z (2 * P * Q) / inject_Z (P + Q)).
    assert (Vv : v == runs_var p q).
    { unfold v, runs_var. fold P Q. cbv zeta. unfold Z.sub. rewrite !inject_Z_mult, !inject_Z_plus, !inject_Z_mult, !inject_Z_opp. reflexivity. }
    assert (Vm : m == runs_mean p q).
    { unfold m, runs_mean. fold P Q. cbv zeta. rewrite !inject_Z_mult, !inject_Z_plus. reflexivity. }
    assert (Pv : 0 < v). { unfold v. apply Qlt_shift_div_l; [change 0 with (inject_Z 0); rewrite <- Zlt_Qlt; exact D|].
      rewrite Qmult_0_l. change 0 with (inject_Z 0); rewrite <- Zlt_Qlt; exact N. }
    destruct (Qlt_bool v 0) eqn:L; [apply Qlt_bool_iff in L; qlra|].
    destruct (Qeq_bool v 0) eqn:E; [apply Qeq_bool_iff in E; qlra|].
    exists m, v. split; [|split; assumption].
    assert (St : (Q2R (inject_Z (Z.of_nat r) - m) / sqrt (Q2R v))%R = runs_statistic p q r).
    { unfold runs_statistic. rewrite (Qeq_eqR _ _ Vv). rewrite (Qeq_eqR (inject_Z (Z.of_nat r) - m) (inject_Z (Z.of_nat r) - runs_mean p q)); [reflexivity|].
      rewrite Vm. reflexivity. }
    rewrite St. reflexivity.
  - intro NE. destruct (Z.eq_dec (P + Q) 0) as [Z0|Z0].
    + rewrite fdiv_0; [reflexivity|]. apply IQ. exact Z0.
    + rewrite fdiv_ok by (rewrite IQ; exact Z0). cbn [bind].
      destruct (Z.eq_dec (P + Q) 1) as [Z1|Z1].
      * rewrite fdiv_0; [reflexivity|]. apply IQ. rewrite Z1. reflexivity.
      * assert (D : ((P + Q) * (P + Q) * (P + Q - 1) <> 0)%Z). { rewrite !Z.mul_eq_0. lia. }
        rewrite fdiv_ok by (rewrite IQ; exact D). cbn [bind].
        assert (N : (2 * P * Q * (2 * P * Q - P - Q) = 0)%Z).
        { assert (K : (p = 0 \/ q = 0 \/ (p = 1 /\ q = 1))%nat) by lia. unfold P, Q. destruct K as [->|[->|(-> & ->)]]; try reflexivity; lia. }
        rewrite N. set (v := inject_Z 0 / _). assert (v == 0) by (unfold v, Qdiv; apply Qmult_0_l).
        destruct (Qlt_bool v 0) eqn:L; [apply Qlt_bool_iff in L; qlra|].
        destruct (Qeq_bool v 0) eqn:E; [reflexivity|]. apply Qeq_bool_neq in E. contradiction.
Qed.
Lemma alt_known alt : In alt alternatives ->
  negb (String.eqb alt "two.sided" || String.eqb alt "left.sided" || String.eqb alt "right.sided") = false.
Proof. intros [<-|[<-|[<-|[]]]]; reflexivity. Qed.
Lemma alt_unknown alt : ~ In alt alternatives ->
  negb (String.eqb alt "two.sided" || String.eqb alt "left.sided" || String.eqb alt "right.sided") = true.
Proof.
  intro H. apply negb_true_iff. destruct (String.eqb_spec alt "two.sided") as [->|_]; [exfalso; apply H; simpl; auto|].
  destruct (String.eqb_spec alt "left.sided") as [->|_]; [exfalso; apply H; simpl; auto|].
  destruct (String.eqb_spec alt "right.sided") as [->|_]; [exfalso; apply H; simpl; auto|reflexivity].
Qed.
Lemma test_out cdf x alt th t : In alt alternatives -> known x <> [] -> ThresholdOf th (known x) t ->
  runs_test cdf x alt th =
  runs_out cdf (Z.of_nat (above t (known x))) (Z.of_nat (below t (known x))) (Z.of_nat (runs_of (sides t (known x)))) alt.
Proof.
  intros HA HK HT. unfold runs_test. rewrite (alt_known _ HA). destruct x as [|a x']; [contradiction (HK eq_refl)|].
  set (x := a :: x') in *. rewrite none_known. destruct HT as [(-> & HT)|(-> & HT)].
  - destruct (st_median_value _ HK) as (m & E & Hm). simpl (String.eqb _ _). cbv iota. rewrite E. cbn [bind].
    rewrite runs_core_out. unfold above, below. rewrite (sides_compat m t); [reflexivity|]. eapply quantile_unique; eassumption.
  - destruct (st_mean_value _ HK) as (m & E & Hm). simpl (String.eqb _ _). cbv iota. rewrite E. cbn [bind].
    rewrite runs_core_out. unfold above, below. rewrite (sides_compat m t); [reflexivity|]. rewrite HT. exact Hm.
Qed.
Lemma threshold_exists th l : l <> [] -> In th ["median"; "mean"] -> exists t, ThresholdOf th l t.
Proof.
  intros H [<-|[<-|[]]].
  - destruct (st_median_value l H) as (m & _ & Q). exists m. left. auto.
  - exists (mean_of self l). right. split; reflexivity.
Qed.
Lemma threshold_rev th l t : ThresholdOf th l t -> ThresholdOf th (rev l) t.
Proof.
  intros [(-> & H)|(-> & H)]; [left|right]; split; try reflexivity.
  - eapply quantile_perm; [apply Permutation_rev|exact H].
  - rewrite mean_rev. exact H.
Qed.
Lemma threshold_affine th l t a b : l <> [] -> ~ a == 0 -> ThresholdOf th l t -> ThresholdOf th (map (fun v => a * v + b) l) (a * t + b).
Proof.
  intros L A [(-> & H)|(-> & H)]; [left|right]; split; try reflexivity.
  - apply median_affine; assumption.
  - rewrite mean_affine by exact L. rewrite H. reflexivity.
Qed.
Lemma test_other cdf x alt th : x <> [] -> In alt alternatives ->
  (known x = [] -> In th ["median"; "mean"] -> runs_test cdf x alt th = Err ValueError) /\
  (known x = [] -> ~ In th ["median"; "mean"] -> runs_test cdf x alt th = Err ZeroDivisionError) /\
  (known x <> [] -> ~ In th ["median"; "mean"] -> runs_test cdf x alt th = Err TypeError).
Proof.
  intros HX HA. unfold runs_test. rewrite (alt_known _ HA). destruct x as [|a x']; [congruence|].
  set (x := a :: x') in *. rewrite none_known.
  assert (U : ~ In th ["median"; "mean"] -> String.eqb th "median" = false /\ String.eqb th "mean" = false).
  { intro H. split; apply String.eqb_neq; intros ->; apply H; simpl; auto. }
  split; [|split].
  - intros -> [<-|[<-|[]]]; reflexivity.
  - intros -> H. destruct (U H) as (-> & ->). reflexivity.
  - intros K H. destruct (U H) as (-> & ->). destruct (known x); [congruence|reflexivity].
Qed.
Lemma th_dec th : In th ["median"; "mean"] \/ ~ In th ["median"; "mean"].
Proof. destruct (in_dec string_dec th ["median"; "mean"]); auto. Qed.
Lemma alt_dec alt : In alt alternatives \/ ~ In alt alternatives.
Proof. destruct (in_dec string_dec alt alternatives); auto. Qed.
Lemma th_of th l t : ThresholdOf th l t -> In th ["median"; "mean"].
Proof. intros [(-> & _)|(-> & _)]; simpl; auto. Qed.
Lemma test_same cdf x y alt th :
  (x = [] <-> y = []) -> (known x = [] <-> known y = []) ->
  (known x <> [] -> forall t, ThresholdOf th (known x) t -> exists t', ThresholdOf th (known y) t' /\
     runs_of (sides t' (known y)) = runs_of (sides t (known x)) /\
     (above t' (known y) = above t (known x) /\ below t' (known y) = below t (known x) \/
      above t' (known y) = below t (known x) /\ below t' (known y) = above t (known x))) ->
  runs_test cdf y alt th = runs_test cdf x alt th.
Proof.
  intros E K H. destruct (alt_dec alt) as [HA|HA].
  2:{ unfold runs_test. rewrite (alt_unknown _ HA). reflexivity. }
  destruct x as [|x0 x']; [rewrite (proj1 E eq_refl); reflexivity|]. set (x := x0 :: x') in *.
  assert (NX : x <> []) by discriminate. assert (NY : y <> []) by tauto.
  destruct (test_other cdf x alt th NX HA) as (X1 & X2 & X3). destruct (test_other cdf y alt th NY HA) as (Y1 & Y2 & Y3).
  destruct (known x) as [|k0 k'] eqn:KX.
  - pose proof (proj1 K eq_refl) as KY. destruct (th_dec th); [rewrite X1, Y1 by auto|rewrite X2, Y2 by auto]; reflexivity.
  - assert (KXn : known x <> []) by (rewrite KX; discriminate).
    assert (KYn : known y <> []) by (intro Z; apply K in Z; discriminate Z). rewrite <- KX in *.
    destruct (th_dec th) as [T|T]; [|rewrite X3, Y3 by auto; reflexivity].
    destruct (threshold_exists th (known x) KXn T) as (t & Ht). destruct (H KXn t Ht) as (t' & Ht' & R & C).
    rewrite (test_out cdf x alt th t HA KXn Ht), (test_out cdf y alt th t' HA KYn Ht'), R.
    destruct C as [(-> & ->)|(-> & ->)]; [reflexivity|apply runs_out_sym].
Qed.

(** Autocorrelations: bounds and invariance. *)
Lemma varies_dec x : Varies x \/ ~ Varies x.
Proof.
  destruct (known x) as [|k0 k'] eqn:K.
  - right. intros (a & b & I & _). rewrite K in I. destruct I.
  - assert (H : known x <> []) by (rewrite K; discriminate). rewrite (varies_iff x H).
    destruct (Qeq_dec (acov 0 x) 0) as [E|E]; [right|left]; tauto.
Qed.
Lemma acf_inv x lag r : acf x "correlation" lag = Ok (Some r) ->
  known x <> [] /\ length r = entries x lag /\ (Varies x \/ entries x lag = 0%nat) /\ forall k v, nth_error r k = Some v -> v == acor k x.
Proof.
  intro E. destruct (known x) as [|k0 k'] eqn:K.
  - exfalso. unfold acf in E. simpl (negb _) in E. cbv iota in E. destruct x; [discriminate E|].
    rewrite none_known, K in E. discriminate E.
  - assert (H : known x <> []) by (rewrite K; discriminate). split; [discriminate|].
    destruct (acf_correlation x lag H) as (A & B). destruct (varies_dec x) as [V|V].
    + destruct (A V) as (r' & E' & L & N). rewrite E' in E. injection E as <-. auto.
    + rewrite (B V) in E. destruct (entries x lag) as [|n] eqn:En; simpl in E; [|discriminate E].
      injection E as <-. split; [reflexivity|]. split; [auto|]. intros [|k] v Hv; discriminate Hv.
Qed.
Lemma acf_again x lag : known x <> [] -> Varies x \/ entries x lag = 0%nat ->
  exists r, acf x "correlation" lag = Ok (Some r) /\ length r = entries x lag /\ forall k v, nth_error r k = Some v -> v == acor k x.
Proof.
  intros H C. destruct (acf_correlation x lag H) as (A & B). destruct (varies_dec x) as [V|V]; [apply A; exact V|].
  destruct C as [C|C]; [contradiction|]. rewrite (B V), C. exists []. split; [reflexivity|]. split; [reflexivity|].
  intros [|k] v Hv; discriminate Hv.
Qed.
Lemma forall2_nth (l l' : list Q) : length l = length l' ->
  (forall k a b, nth_error l k = Some a -> nth_error l' k = Some b -> a == b) -> Forall2 Qeq l l'.
Proof.
  revert l'. induction l as [|a l IH]; intros [|b l'] L H; try discriminate L; constructor.
  - apply (H 0%nat); reflexivity.
  - apply IH; [simpl in L; congruence|]. intros k u v U V. apply (H (S k)); assumption.
Qed.
Lemma both_swap ps : both (map swap ps) = map swap (both ps).
Proof. induction ps as [|[[a|] [b|]] ps IH]; simpl; try exact IH; [reflexivity|]. rewrite IH. reflexivity. Qed.
Lemma both_app a b : both (a ++ b)%list = (both a ++ both b)%list.
Proof. induction a as [|[[u|] [v|]] a IH]; simpl; try exact IH; [reflexivity|]. rewrite IH. reflexivity. Qed.
Lemma both_rev ps : both (rev ps) = rev (both ps).
Proof.
  induction ps as [|[[a|] [b|]] ps IH]; simpl; [reflexivity| | | |]; rewrite both_app, IH; simpl; try reflexivity; apply app_nil_r.
Qed.
Lemma combine_app_len {A B} (a a' : list A) (b b' : list B) : length a = length b ->
  combine (a ++ a')%list (b ++ b')%list = (combine a b ++ combine a' b')%list.
Proof. revert b. induction a as [|x a IH]; intros [|y b] L; try discriminate L; simpl; [reflexivity|]. rewrite IH by (simpl in L; congruence). reflexivity. Qed.
Lemma combine_rev_len {A B} (a : list A) (b : list B) : length a = length b -> combine (rev a) (rev b) = rev (combine a b).
Proof.
  revert b. induction a as [|x a IH]; intros [|y b] L; try discriminate L; simpl; [reflexivity|].
  simpl in L. rewrite combine_app_len by (rewrite !rev_length; congruence). rewrite IH by congruence. reflexivity.
Qed.
Lemma combine_short {A B} (a : list A) (b : list B) : combine a b = combine (firstn (length b) a) b.
Proof. revert a. induction b as [|y b IH]; intros [|x a]; simpl; try reflexivity. rewrite <- IH. reflexivity. Qed.
Lemma lag_rev k x : lag_pairs k (rev x) = rev (map swap (lag_pairs k x)).
Proof.
  unfold lag_pairs. rewrite <- both_swap, <- both_rev. f_equal.
  rewrite <- combine_swap. rewrite skipn_rev.
  destruct (Nat.le_gt_cases k (length x)) as [L|L].
  - rewrite combine_short, rev_length, firstn_length_le by lia. rewrite firstn_rev.
    replace (length x - (length x - k))%nat with k by lia. rewrite combine_rev_len.
    + f_equal. rewrite (combine_swap x (skipn k x)), (combine_short x), <- combine_swap, skipn_length. reflexivity.
    + rewrite skipn_length, firstn_length_le by lia. reflexivity.
  - replace (length x - k)%nat with 0%nat by lia. rewrite (skipn_all2 x) by lia. simpl. destruct (rev x); reflexivity.
Qed.
Lemma lag_affine a b k x : lag_pairs k (affine a b x) = map (fun p => (a * fst p + b, a * snd p + b)) (lag_pairs k x).
Proof.
  unfold lag_pairs, affine. rewrite skipn_map. generalize (skipn k x) as y. intro y. revert y.
  induction x as [|[u|] x IH]; intros [|[v|] y]; simpl; try reflexivity; try apply IH. rewrite IH. reflexivity.
Qed.
Lemma series_mean_rev x : series_mean (rev x) == series_mean x.
Proof. unfold series_mean. rewrite known_rev. apply mean_rev. Qed.
Lemma series_mean_affine a b x : known x <> [] -> series_mean (affine a b x) == a * series_mean x + b.
Proof. intro H. unfold series_mean. rewrite known_affine. apply mean_affine. exact H. Qed.
Lemma acov_rev k x : acov k (rev x) == acov k x.
Proof.
  unfold acov. rewrite (acov_around_compat _ (series_mean x) k (rev x) (series_mean_rev x)).
  unfold acov_around. rewrite lag_rev, total_rev, count_rev, count_map, total_map.
  rewrite (total_ext (fun p => (fst (swap p) - series_mean x) * (snd (swap p) - series_mean x)) (fun p => (fst p - series_mean x) * (snd p - series_mean x))).
  - reflexivity. - intros [u v] _. simpl. ring.
Qed.
Lemma acov_affine a b k x : known x <> [] -> acov k (affine a b x) == a * a * acov k x.
Proof.
  intro H. unfold acov. rewrite (acov_around_compat _ _ k (affine a b x) (series_mean_affine a b x H)).
  unfold acov_around. rewrite lag_affine, count_map, total_map.
  rewrite (total_ext _ (fun p => a * a * ((fst p - series_mean x) * (snd p - series_mean x)))).
  - rewrite total_scale. unfold Qdiv. ring. - intros [u v] _. simpl. ring.
Qed.
Lemma entries_len x y lag : length x = length y -> entries x lag = entries y lag.
Proof. intro L. unfold entries. rewrite L. reflexivity. Qed.
Lemma complete_map x : Complete x -> x = map Some (known x).
Proof.
  intro H. induction x as [|[v|] x IH]; simpl; [reflexivity| |].
  - rewrite <- IH; [reflexivity|]. intro I. apply H. right. exact I.
  - exfalso. apply H. left. reflexivity.
Qed.
Lemma lag_complete k l : lag_pairs k (map Some l) = combine l (skipn k l).
Proof.
  unfold lag_pairs. rewrite skipn_map. generalize (skipn k l) as y. revert k. intros _.
  induction l as [|u l IH]; intros [|v y]; simpl; try reflexivity. rewrite IH. reflexivity.
Qed.
Lemma known_map l : known (map Some l) = (l : list Q).
Proof. induction l; simpl; congruence. Qed.
Lemma total_fst_le (g : Q -> Q) (a b : list Q) : (forall v, 0 <= g v) -> total_of (fun p => g (fst p)) (combine a b) <= total_of g a.
Proof.
  intro G. revert b. induction a as [|u a IH]; intro b; [apply Qle_refl|]. destruct b as [|v b].
  - simpl. apply total_nonneg. auto.
  - unfold total_of in *. simpl. specialize (IH b). specialize (G u). qlra.
Qed.
Lemma total_snd_le (g : Q -> Q) (a b : list Q) : (forall v, 0 <= g v) -> total_of (fun p => g (snd p)) (combine a b) <= total_of g b.
Proof.
  intro G. revert b. induction a as [|u a IH]; intro b; [simpl; apply total_nonneg; auto|]. destruct b as [|v b].
  - apply Qle_refl.
  - unfold total_of in *. simpl. specialize (IH b). specialize (G v). qlra.
Qed.
Lemma total_skip_le (g : Q -> Q) k (l : list Q) : (forall v, 0 <= g v) -> total_of g (skipn k l) <= total_of g l.
Proof.
  intro G. revert l. induction k as [|k IH]; intro l; [apply Qle_refl|]. destruct l as [|u l]; [apply Qle_refl|].
  simpl skipn. specialize (IH l). specialize (G u). unfold total_of in *. simpl. qlra.
Qed.
Lemma acor_bound k x : Complete x -> Varies x -> (k < length x)%nat -> -1 <= acor k x <= 1.
Proof.
  intros C V K. assert (H : known x <> []). { destruct V as (a & _ & I & _). intro E. rewrite E in I. destruct I. }
  pose proof (proj1 (varies_iff x H) V) as NZ. set (m := series_mean x).
  rewrite (complete_map x C) in K. rewrite map_length in K.
  unfold acor. assert (A0 : acov 0 x == total_of (fun v => (v - m) * (v - m)) (known x) / count (known x)).
  { rewrite acov_0. unfold codev, self, m, series_mean. reflexivity. }
  pose proof (count_pos _ H) as P.
  assert (Ak : acov k x == total_of (fun p => (fst p - m) * (snd p - m)) (combine (known x) (skipn k (known x))) / count (known x)).
  { unfold acov, acov_around. fold m. rewrite (complete_map x C), lag_complete, known_map.
    assert (L : count (combine (known x) (skipn k (known x))) + inject_Z (Z.of_nat k) == count (known x)); [|rewrite L; reflexivity].
    unfold count. rewrite <- inject_Z_plus. apply inject_Z_injective. rewrite combine_length, skipn_length. lia. }
  set (T := total_of (fun p => (fst p - m) * (snd p - m)) (combine (known x) (skipn k (known x)))) in *.
  set (S0 := total_of (fun v => (v - m) * (v - m)) (known x)) in *.
  assert (SN : 0 <= S0) by (apply total_nonneg; intros; apply Qsq_nonneg).
  assert (SP : 0 < S0). { apply Qle_lteq in SN. destruct SN as [SN|SN]; [exact SN|]. exfalso. apply NZ. rewrite A0, <- SN. field. qlra. }
  assert (F : total_of (fun p => (fst p - m) * (fst p - m)) (combine (known x) (skipn k (known x))) <= S0).
  { apply (total_fst_le (fun v => (v - m) * (v - m))). intro; apply Qsq_nonneg. }
  assert (G : total_of (fun p => (snd p - m) * (snd p - m)) (combine (known x) (skipn k (known x))) <= S0).
  { eapply Qle_trans; [apply (total_snd_le (fun v => (v - m) * (v - m))); intro; apply Qsq_nonneg|].
    apply (total_skip_le (fun v => (v - m) * (v - m))). intro; apply Qsq_nonneg. }
  set (l2 := combine (known x) (skipn k (known x))) in *.
  assert (U : 2 * T <= 2 * S0).
  { assert (E : 2 * T <= total_of (fun p => (fst p - m) * (fst p - m) + (snd p - m) * (snd p - m)) l2).
    { unfold T. rewrite <- total_scale. apply total_le. intros p _. pose proof (Qsq_nonneg (fst p - m - (snd p - m))). qlra. }
    rewrite total_plus in E. qlra. }
  assert (W : - (2) * S0 <= 2 * T).
  { assert (E : 0 <= total_of (fun p => 2 * ((fst p - m) * (snd p - m)) + ((fst p - m) * (fst p - m) + (snd p - m) * (snd p - m))) l2).
    { apply total_nonneg. intros p _. pose proof (Qsq_nonneg (fst p - m + (snd p - m))). qlra. }
    rewrite total_plus, total_plus, total_scale in E. fold T in E. qlra. }
  rewrite Ak, A0. setoid_replace (T / count (known x) / (S0 / count (known x))) with (T / S0) by (field; split; qlra).
  split; [apply Qle_shift_div_l|apply Qle_shift_div_r]; qlra.
Qed.
Lemma entries_le x lag : known x <> [] -> (entries x lag <= length x)%nat.
Proof.
  intro H. unfold entries. assert (1 <= length x)%nat by (destruct x; [contradiction (H eq_refl)|simpl; lia]).
  set (l := match lag with Some l => l | None => default_lag (length x) end). lia.
Qed.
Lemma default_pos n : (1 <= n)%nat -> (0 <= default_lag n)%Z.
Proof.
  intro H. unfold default_lag. rewrite ln_1. unfold Rdiv at 2. rewrite Rmult_0_l, Rminus_0_r.
  assert (L1 : (0 <= ln (INR n))%R).
  { rewrite <- ln_1. destruct (Nat.eq_dec n 1) as [->|N]; [simpl; apply Rle_refl|].
    left. apply ln_increasing; [rlra|]. apply (lt_INR 1 n). lia. }
  assert (L10 : (0 < ln 10)%R). { rewrite <- ln_1. apply ln_increasing; rlra. }
  assert (P : (0 <= 10 * (ln (INR n) / ln 10))%R).
  { apply Rmult_le_pos; [rlra|]. unfold Rdiv. apply Rmult_le_pos; [exact L1|]. left. apply Rinv_0_lt_compat. exact L10. }
  set (z := (10 * (ln (INR n) / ln 10))%R) in *. destruct (base_Int_part z) as (_ & B).
  assert (G : (-1 < Int_part z)%Z). { apply lt_IZR. rlra. } lia.
Qed.

(** The lag-1 coefficient. *)
Lemma map_fst_combine {A B} (a : list A) (b : list B) : length a = length b -> map fst (combine a b) = a.
Proof. revert b. induction a as [|x a IH]; intros [|y b] L; try discriminate L; simpl; [reflexivity|]. rewrite IH by (simpl in L; congruence). reflexivity. Qed.
Lemma map_snd_combine {A B} (a : list A) (b : list B) : length a = length b -> map snd (combine a b) = b.
Proof. revert b. induction a as [|x a IH]; intros [|y b] L; try discriminate L; simpl; [reflexivity|]. rewrite IH by (simpl in L; congruence). reflexivity. Qed.
Lemma combine_map2 {A B} (f : A -> B) (a b : list A) : combine (map f a) (map f b) = map (fun p => (f (fst p), f (snd p))) (combine a b).
Proof. revert b. induction a as [|x a IH]; intros [|y b]; simpl; try reflexivity. rewrite IH. reflexivity. Qed.
Lemma codev_shift {A} (g h : A -> Q) c d l : codev (fun x => g x - c) (fun x => h x - d) l == codev g h l.
Proof.
  destruct l as [|x0 l0]; [reflexivity|]. set (l := x0 :: l0). unfold codev. apply total_ext. intros x _.
  rewrite !mean_minus, (mean_const (fun _ => c) l c), (mean_const (fun _ => d) l d); try (intros; reflexivity); try discriminate. ring.
Qed.
Section Coef.
Variable l : list Q.
Hypothesis L2 : (2 <= length l)%nat.
Variable m : Q.
Hypothesis Hm : m == mean_of self l.
Let P := successive l.
Let sx := total_of (fun p => fst p - m) P.
Let sy := total_of (fun p => snd p - m) P.
Let sxx := total_of (fun p => (fst p - m) * (fst p - m)) P.
Let sxy := total_of (fun p => (fst p - m) * (snd p - m)) P.
Let N := inject_Z (Z.of_nat (length l) - 1).
Lemma succ_first : P = combine (firstn (length l - 1) l) (tl l).
Proof. unfold P, successive. destruct l as [|a t]; [reflexivity|]. simpl tl. rewrite combine_short. simpl length. rewrite Nat.sub_succ, Nat.sub_0_r. reflexivity. Qed.
Lemma succ_lens : length (firstn (length l - 1) l) = length (tl l).
Proof. rewrite firstn_length_le by lia. destruct l; [simpl in L2; lia|simpl; lia]. Qed.
Lemma succ_count : count P == N.
Proof.
  rewrite succ_first. unfold count, N. rewrite combine_length, succ_lens, Nat.min_id. apply inject_Z_injective.
  destruct l as [|a t]; [simpl in L2; lia|simpl length; lia].
Qed.
Lemma succ_ne : P <> [].
Proof. unfold P, successive. destruct l as [|a [|b t]]; simpl in L2; try lia. discriminate. Qed.
Lemma N_pos : 0 < N.
Proof. rewrite <- succ_count. apply count_pos. exact succ_ne. Qed.
Lemma sums_model :
  pysum (map (fun v => v - m) (firstn (length l - 1) l)) == sx /\
  pysum (map (fun v => v - m) (tl l)) == sy /\
  pysum (map (fun q => q * q) (map (fun v => v - m) (firstn (length l - 1) l))) == sxx /\
  pysum (map (fun p => fst p * snd p) (combine (map (fun v => v - m) (firstn (length l - 1) l)) (map (fun v => v - m) (tl l)))) == sxy.
Proof.
  pose proof (map_fst_combine _ _ succ_lens) as F. pose proof (map_snd_combine _ _ succ_lens) as S0.
  rewrite <- succ_first in F, S0. rewrite combine_map2, <- succ_first.
  assert (A : forall g, pysum (map g (firstn (length l - 1) l)) == total_of (fun p => g (fst p)) P).
  { intro g. rewrite <- F, map_map. apply pysum_map. }
  assert (B : forall g, pysum (map g (tl l)) == total_of (fun p => g (snd p)) P).
  { intro g. rewrite <- S0, map_map. apply pysum_map. }
  split; [apply A|]. split; [apply B|]. rewrite !map_map. split; [apply A|apply pysum_map].
Qed.
Lemma dev_xx : codev fst fst P == sxx - sx * sx / N.
Proof.
  rewrite <- (codev_shift fst fst m m P), codev_alg by exact succ_ne. fold sx sxx. rewrite succ_count. reflexivity.
Qed.
Lemma dev_xy : codev fst snd P == sxy - sx * sy / N.
Proof.
  rewrite <- (codev_shift fst snd m m P), codev_alg by exact succ_ne. fold sx sy sxy. rewrite succ_count. reflexivity.
Qed.
Lemma dev_total : total_of (fun v => v - m) l == 0.
Proof.
  rewrite (total_ext _ (fun v => self v - m)) by (intros; reflexivity). rewrite total_minus, total_const.
  rewrite Hm. unfold mean_of. assert (l <> []) by (destruct l; [simpl in L2; lia|discriminate]). pose proof (count_pos l H). field. qlra.
Qed.
Lemma sy_first a : hd_error l = Some a -> sy == - (a - m).
Proof.
  intro H. pose proof dev_total as D. unfold sy.
  pose proof (map_snd_combine _ _ succ_lens) as S0. rewrite <- succ_first in S0.
  assert (E : total_of (fun p : Q * Q => snd p - m) P == total_of (fun v => v - m) (tl l)).
  { rewrite <- S0, total_map. reflexivity. }
  rewrite E. destruct l as [|b t]; [discriminate H|]. injection H as ->. unfold total_of in *. simpl in *. qlra.
Qed.
Lemma sx_last a : hd_error (rev l) = Some a -> sx == - (a - m).
Proof.
  intro H. pose proof dev_total as D. unfold sx.
  pose proof (map_fst_combine _ _ succ_lens) as S0. rewrite <- succ_first in S0.
  assert (E : total_of (fun p : Q * Q => fst p - m) P == total_of (fun v => v - m) (firstn (length l - 1) l)).
  { rewrite <- S0, total_map. reflexivity. }
  rewrite E. assert (K : l = (firstn (length l - 1) l ++ [a])%list).
  { destruct (rev l) as [|b t] eqn:R; [discriminate H|]. injection H as ->.
    assert (Q1 : l = (rev t ++ [a])%list). { rewrite <- (rev_involutive l), R. reflexivity. }
    rewrite Q1, app_length. simpl length. rewrite Nat.add_sub, firstn_app, firstn_all, Nat.sub_diag. simpl. rewrite app_nil_r. reflexivity. }
  assert (G : total_of (fun v => v - m) l == total_of (fun v => v - m) (firstn (length l - 1) l) + (a - m)).
  { rewrite K at 1. rewrite <- (total_rev _ (_ ++ _)%list), rev_unit. unfold total_of at 1. simpl.
    fold (total_of (fun v => v - m) (rev (firstn (length l - 1) l))). rewrite total_rev. ring. }
  qlra.
Qed.
Lemma coef_algebra a b : ~ sx - N * sxx == 0 -> ~ sxx - sx * sx / N == 0 ->
  hd_error l = Some a -> hd_error (rev l) = Some b ->
  (sx * sy / (sx - N * sxx) + sxy / (sxx - sx * sx / N) == slope P <-> a == m \/ b == m \/ b == m - 1).
Proof.
  intros D1 D2 Ha Hb. pose proof N_pos as PN. pose proof (sy_first a Ha) as Sy. pose proof (sx_last b Hb) as Sx.
  unfold slope. rewrite dev_xx, dev_xy.
  assert (K : sx * sy / (sx - N * sxx) + sxy / (sxx - sx * sx / N) - (sxy - sx * sy / N) / (sxx - sx * sx / N)
    == sx * sy * (sx * (1 - sx)) / ((sx - N * sxx) * (N * (sxx - sx * sx / N)))).
  { assert (D3 : ~ sxx * N - sx * sx == 0).
    { intro Z0. apply D2. setoid_replace (sxx - sx * sx / N) with ((sxx * N - sx * sx) / N) by (field; qlra). rewrite Z0. field. qlra. }
    field. repeat split; try assumption; qlra. }
  assert (M : ~ (sx - N * sxx) * (N * (sxx - sx * sx / N)) == 0).
  { intro Z0. apply Qmult_integral in Z0. destruct Z0 as [Z0|Z0]; [contradiction|]. apply Qmult_integral in Z0. destruct Z0 as [Z0|Z0]; [qlra|contradiction]. }
  assert (I : sx * sy * (sx * (1 - sx)) == 0 <-> a == m \/ b == m \/ b == m - 1).
  { split.
    - intro Z0. apply Qmult_integral in Z0. destruct Z0 as [Z0|Z0]; apply Qmult_integral in Z0; destruct Z0 as [Z0|Z0].
      + right; left. rewrite Sx in Z0. qlra. + left. rewrite Sy in Z0. qlra.
      + right; left. rewrite Sx in Z0. qlra. + right; right. rewrite Sx in Z0. qlra.
    - intros [E|[E|E]].
      + assert (sy == 0) by (rewrite Sy; qlra). rewrite H. ring.
      + assert (sx == 0) by (rewrite Sx; qlra). rewrite H. ring.
      + assert (1 - sx == 0) by (rewrite Sx; qlra). rewrite H. ring. }
  rewrite <- I. split; intro E.
  - rewrite E in K. set (num := sx * sy * (sx * (1 - sx))) in *. set (den := (sx - N * sxx) * (N * (sxx - sx * sx / N))) in *.
    setoid_replace num with (num / den * den) by (field; exact M). rewrite <- K. ring.
  - rewrite E in K. assert (Z0 : 0 / ((sx - N * sxx) * (N * (sxx - sx * sx / N))) == 0) by (unfold Qdiv; apply Qmult_0_l).
    rewrite Z0 in K. qlra.
Qed.
End Coef.
Lemma Ok_some_inj' {A} (a b : A) : Ok (Some a) = Ok (Some b) -> a = b.
Proof. congruence. Qed.
Lemma coef_inv data c : autocor_coef data = Ok (Some c) -> (2 <= length (known data))%nat /\ exists m, m == mean_of self (known data) /\
  let l := known data in let P := successive l in
  let sx := total_of (fun p => fst p - m) P in let sy := total_of (fun p => snd p - m) P in
  let sxx := total_of (fun p => (fst p - m) * (fst p - m)) P in let sxy := total_of (fun p => (fst p - m) * (snd p - m)) P in
  let N := inject_Z (Z.of_nat (length l) - 1) in
  ~ sx - N * sxx == 0 /\ ~ sxx - sx * sx / N == 0 /\ c == sx * sy / (sx - N * sxx) + sxy / (sxx - sx * sx / N).
Proof.
  unfold autocor_coef. rewrite none_known. destruct (Nat.ltb (length (known data)) 2) eqn:L; [discriminate|].
  apply Nat.ltb_ge in L. assert (H : known data <> []) by (destruct (known data); [simpl in L; lia|discriminate]).
  destruct (st_mean_value _ H) as (m & -> & Hm). cbn [bind]. cbv zeta.
  destruct (sums_model (known data) L m Hm) as (E1 & E2 & E3 & E4).
  set (l := known data) in *.
  set (X1 := pysum (map (fun v => v - m) (firstn (length l - 1) l))) in *.
  set (X2 := pysum (map (fun v => v - m) (tl l))) in *.
  set (X3 := pysum (map (fun q => q * q) (map (fun v => v - m) (firstn (length l - 1) l)))) in *.
  set (X4 := pysum (map (fun p => fst p * snd p) (combine (map (fun v => v - m) (firstn (length l - 1) l)) (map (fun v => v - m) (tl l))))) in *.
  set (N := inject_Z (Z.of_nat (length l) - 1)) in *.
  unfold fdiv. destruct (Qeq_bool (X1 - N * X3) 0) eqn:B1; [intro K; discriminate K|]. cbn [bind].
  destruct (Qeq_bool (X3 - X1 * X1 / N) 0) eqn:B2; [intro K; discriminate K|]. cbn [bind]. intro E. apply Ok_some_inj' in E. subst c.
  apply Qeq_bool_neq in B1, B2. split; [exact L|]. exists m. split; [exact Hm|].
  rewrite <- E1, <- E2, <- E3, <- E4. split; [exact B1|]. split; [exact B2|]. reflexivity.
Qed.

(** The statements of PropertiesSeries.v. *)
Lemma C33_test_proof : forall norm_cdf x alternative threshold t,
  In alternative alternatives -> known x <> [] -> ThresholdOf threshold (known x) t ->
  let p := above t (known x) in let q := below t (known x) in let r := runs_of (sides t (known x)) in
  (EnoughRuns p q -> exists d,
     runs_test norm_cdf x alternative threshold = Ok d /\
     In ("runs", OInt (Z.of_nat r)) d /\
     (exists m, In ("mean_value", ORat m) d /\ m == runs_mean p q) /\
     (exists v, In ("variance", ORat v) d /\ v == runs_var p q) /\
     In ("statistic", OReal (runs_statistic p q r)) d) /\
  (~ EnoughRuns p q -> runs_test norm_cdf x alternative threshold = Err ZeroDivisionError).
Proof.
  intros cdf x alt th t HA HK HT. cbv zeta.
  destruct (runs_out_enough cdf (above t (known x)) (below t (known x)) (runs_of (sides t (known x))) alt) as (A & B).
  rewrite (test_out cdf x alt th t HA HK HT). split; [|exact B].
  intro E. destruct (A E) as (m & v & Eq0 & Hm & Hv). rewrite Eq0. eexists. split; [reflexivity|].
  split; [simpl; auto 8|]. split; [exists m; split; [simpl; auto 8|exact Hm]|]. split; [exists v; split; [simpl; auto 8|exact Hv]|].
  left. reflexivity.
Qed.

Lemma C33_run_bounds_proof : forall norm_cdf x alternative threshold t d r,
  In alternative alternatives -> known x <> [] -> ThresholdOf threshold (known x) t ->
  runs_test norm_cdf x alternative threshold = Ok d -> In ("runs", OInt r) d ->
  let p := Z.of_nat (above t (known x)) in let q := Z.of_nat (below t (known x)) in
  (2 <= r <= p + q /\ r <= 2 * Z.min p q + 1)%Z.
Proof.
  intros cdf x alt th t d r HA HK HT E I. cbv zeta.
  rewrite (test_out cdf x alt th t HA HK HT) in E.
  destruct (runs_out_enough cdf (above t (known x)) (below t (known x)) (runs_of (sides t (known x))) alt) as (A & B).
  assert (En : EnoughRuns (above t (known x)) (below t (known x))).
  { unfold EnoughRuns in *. destruct (Nat.le_gt_cases 1 (above t (known x))), (Nat.le_gt_cases 1 (below t (known x))),
      (Nat.le_gt_cases 3 (above t (known x) + below t (known x))); try (rewrite B in E by lia; discriminate E). lia. }
  destruct (A En) as (m & v & Eq0 & _ & _). rewrite Eq0 in E. apply Ok_inj in E. subst d.
  assert (R : r = Z.of_nat (runs_of (sides t (known x)))).
  { simpl in I. repeat (destruct I as [I|I]; [try discriminate I; try (injection I; congruence)|]). destruct I. }
  subst r. unfold EnoughRuns, above, below in *. destruct (sides t (known x)) as [|a s] eqn:Es; [simpl in En; lia|].
  unfold runs_of. pose proof (switch_true a s). pose proof (switch_false a s). pose proof (switch_len a s).
  pose proof (filter_split (fun b => b) (a :: s)) as F. change (fun x0 : bool => negb x0) with negb in F. cbn [length] in F.
  assert (P : (1 <= switches (a :: s))%nat).
  { destruct (switches (a :: s)) eqn:S0; [|lia]. destruct (switch_pos a s S0) as [K|K]; rewrite K in En; simpl in En; lia. }
  destruct a; lia.
Qed.

Lemma C33_invariant_proof : forall norm_cdf x alternative threshold,
  runs_test norm_cdf (rev x) alternative threshold = runs_test norm_cdf x alternative threshold /\
  forall a b, ~ a == 0 ->
    runs_test norm_cdf (affine a b x) alternative threshold = runs_test norm_cdf x alternative threshold.
Proof.
  intros cdf x alt th. split.
  - apply test_same.
    + split; [intros ->; reflexivity|]. intro E. apply (f_equal (@rev pyval)) in E. rewrite rev_involutive in E. exact E.
    + rewrite known_rev. split; [intros ->; reflexivity|]. intro E. apply (f_equal (@rev Q)) in E. rewrite rev_involutive in E. exact E.
    + intros K t Ht. exists t. rewrite known_rev. split; [apply threshold_rev; exact Ht|]. unfold above, below.
      rewrite sides_rev, runs_rev, !filter_rev_len. auto.
  - intros a b Ha. apply test_same.
    + unfold affine. destruct x; split; intro E; try reflexivity; discriminate E.
    + rewrite known_affine. destruct (known x); split; intro E; try reflexivity; discriminate E.
    + intros K t Ht. exists (a * t + b). rewrite known_affine. split; [apply threshold_affine; assumption|]. unfold above, below.
      destruct (Qlt_le_dec 0 a) as [P|P].
      * rewrite (sides_up a b t _ P). auto.
      * assert (N : a < 0). { apply Qle_lteq in P. destruct P as [P|P]; [exact P|contradiction]. }
        rewrite (sides_down a b t _ N), runs_negb. split; [reflexivity|]. right.
        split; apply filter_map_len; intros []; reflexivity.
Qed.

Lemma C33_p_values_proof : forall norm_cdf x threshold d,
  runs_test norm_cdf x "left.sided" threshold = Ok d -> x <> [] ->
  exists left dr dt,
    In ("p_value", OReal left) d /\
    runs_test norm_cdf x "right.sided" threshold = Ok dr /\ In ("p_value", OReal (1 - left)) dr /\
    runs_test norm_cdf x "two.sided" threshold = Ok dt /\ In ("p_value", OReal (2 * Rmin left (1 - left))) dt /\
    exists s, In ("statistic", OReal s) d /\ left = norm_cdf s.
Proof.
  intros cdf x th d E NX. assert (HA : In "left.sided" alternatives) by (simpl; auto).
  assert (HR : In "right.sided" alternatives) by (simpl; auto). assert (HT : In "two.sided" alternatives) by (simpl; auto).
  destruct (test_other cdf x "left.sided" th NX HA) as (X1 & X2 & X3).
  destruct (known x) as [|k0 k'] eqn:K.
  { destruct (th_dec th) as [T|T]; [rewrite X1 in E by auto|rewrite X2 in E by auto]; discriminate E. }
  assert (KN : known x <> []) by (rewrite K; discriminate). rewrite <- K in *.
  destruct (th_dec th) as [T|T]; [|rewrite X3 in E by auto; discriminate E].
  destruct (threshold_exists th (known x) KN T) as (t & Ht).
  rewrite (test_out cdf x _ th t HA KN Ht) in E. rewrite (test_out cdf x _ th t HR KN Ht), (test_out cdf x _ th t HT KN Ht).
  destruct (runs_out_enough cdf (above t (known x)) (below t (known x)) (runs_of (sides t (known x))) "left.sided") as (A & B).
  assert (En : EnoughRuns (above t (known x)) (below t (known x))).
  { unfold EnoughRuns in *. destruct (Nat.le_gt_cases 1 (above t (known x))), (Nat.le_gt_cases 1 (below t (known x))),
      (Nat.le_gt_cases 3 (above t (known x) + below t (known x))); try (rewrite B in E by lia; discriminate E). lia. }
  destruct (A En) as (m & v & Eq0 & _ & _). rewrite Eq0 in E. apply Ok_inj in E. subst d.
  destruct (proj1 (runs_out_enough cdf _ _ (runs_of (sides t (known x))) "right.sided") En) as (mr & vr & Er & _ & _).
  destruct (proj1 (runs_out_enough cdf _ _ (runs_of (sides t (known x))) "two.sided") En) as (mt & vt & Et & _ & _).
  rewrite Er, Et. eexists. eexists. eexists. simpl (String.eqb _ _). cbv iota.
  split; [right; left; reflexivity|]. split; [reflexivity|]. split; [right; left; reflexivity|]. split; [reflexivity|].
  split; [right; left; reflexivity|]. eexists. split; [left; reflexivity|reflexivity].
Qed.

Lemma C33_other_cases_proof : forall norm_cdf x alternative threshold,
  (x = [] \/ ~ In alternative alternatives -> exists d,
     runs_test norm_cdf x alternative threshold = Ok d /\ forall k v, In (k, v) d -> v = ONone) /\
  (x <> [] -> In alternative alternatives -> known x = [] -> In threshold ["median"; "mean"] ->
     runs_test norm_cdf x alternative threshold = Err ValueError) /\
  (known x <> [] -> In alternative alternatives -> ~ In threshold ["median"; "mean"] ->
     runs_test norm_cdf x alternative threshold = Err TypeError).
Proof.
  intros cdf x alt th. split; [|split].
  - intro H. exists empty_result. split.
    + unfold runs_test. destruct (alt_dec alt) as [HA|HA]; [|rewrite (alt_unknown _ HA); reflexivity].
      rewrite (alt_known _ HA). destruct H as [->|H]; [reflexivity|contradiction].
    + intros k v I. unfold empty_result in I. simpl in I. repeat (destruct I as [I|I]; [congruence|]). destruct I.
  - intros NX HA K T. destruct (test_other cdf x alt th NX HA) as (X1 & _). auto.
  - intros K HA T. assert (NX : x <> []) by (intros ->; apply K; reflexivity).
    destruct (test_other cdf x alt th NX HA) as (_ & _ & X3). auto.
Qed.

Lemma C33_mean_key_refuted_proof : forall norm_cdf alternative threshold,
  exists d, runs_test norm_cdf [] alternative threshold = Ok d /\
    (forall v, ~ In ("mean_value", v) d) /\ exists v, In ("mean_value ", v) d.
Proof.
  intros cdf alt th. exists empty_result. split.
  - unfold runs_test. destruct (negb _); reflexivity.
  - split; [|exists ONone; simpl; auto 8]. intros v I. unfold empty_result in I. simpl in I.
    repeat (destruct I as [I|I]; [discriminate I|]). destruct I.
Qed.

Lemma C33_case_proof :
  ThresholdOf "median" (known small_series) (7 # 2) /\ ThresholdOf "mean" (known small_series) 4 /\
  EnoughRuns (above (7 # 2) (known small_series)) (below (7 # 2) (known small_series)) /\
  runs_of (sides (7 # 2) (known small_series)) = 6%nat /\
  ~ EnoughRuns (above 1 [1; 2; 3]) (below 1 [1; 2; 3]).
Proof.
  split; [|split; [|split; [|split]]].
  - left. split; [reflexivity|]. destruct (st_median_value (known small_series)) as (m & E & Hm); [discriminate|].
    assert (M : m == 7 # 2) by (vm_compute in E; apply Ok_inj in E; subst m; reflexivity).
    destruct Hm as (k & t & a & b & H1 & H2 & H3 & H4 & H5). exists k, t, a, b.
    split; [exact H1|]. split; [exact H2|]. split; [exact H3|]. split; [exact H4|]. rewrite <- M. exact H5.
  - right. split; reflexivity.
  - unfold EnoughRuns. vm_compute. lia.
  - reflexivity.
  - unfold EnoughRuns. vm_compute. lia.
Qed.

Lemma C34_values_proof : forall x lag, known x <> [] -> (0 <= lag)%Z ->
  (exists r, acf x "covariance" (Some lag) = Ok (Some r) /\
     Z.of_nat (length r) = (Z.min lag (Z.of_nat (length x) - 1) + 1)%Z /\
     forall k v, nth_error r k = Some v -> v == acov k x) /\
  (Varies x -> exists r, acf x "correlation" (Some lag) = Ok (Some r) /\
     Z.of_nat (length r) = (Z.min lag (Z.of_nat (length x) - 1) + 1)%Z /\
     forall k v, nth_error r k = Some v -> v == acor k x) /\
  (~ Varies x -> acf x "correlation" (Some lag) = Err ZeroDivisionError).
Proof.
  intros x lag H L.
  assert (LX : (1 <= length x)%nat) by (destruct x; [contradiction (H eq_refl)|simpl; lia]).
  assert (EN : Z.of_nat (entries x (Some lag)) = (Z.min lag (Z.of_nat (length x) - 1) + 1)%Z) by (unfold entries; lia).
  split; [|split].
  - destruct (acf_covariance x (Some lag) H) as (r & E & Lr & N). exists r. rewrite Lr. auto.
  - intro V. destruct (proj1 (acf_correlation x (Some lag) H) V) as (r & E & Lr & N). exists r. rewrite Lr. auto.
  - intro V. rewrite (proj2 (acf_correlation x (Some lag) H) V).
    destruct (entries x (Some lag)) eqn:E0; [lia|reflexivity].
Qed.

Lemma C34_bounded_proof : forall x lag r, acf x "correlation" lag = Ok (Some r) ->
  (forall v, nth_error r 0 = Some v -> v == 1) /\
  (Complete x -> forall v, In v r -> -1 <= v <= 1).
Proof.
  intros x lag r E. destruct (acf_inv x lag r E) as (H & L & C & N).
  assert (V : forall k v, nth_error r k = Some v -> Varies x).
  { intros k v K. destruct C as [C|C]; [exact C|]. rewrite C in L. destruct r; [destruct k; discriminate K|discriminate L]. }
  split.
  - intros v Hv. rewrite (N _ _ Hv). unfold acor. pose proof (proj1 (varies_iff x H) (V _ _ Hv)). field. exact H0.
  - intros HC v I. apply In_nth_error in I. destruct I as (k & Hk). rewrite (N _ _ Hk).
    apply acor_bound; [exact HC|exact (V _ _ Hk)|]. pose proof (entries_le x lag H).
    assert (k < length r)%nat by (apply nth_error_Some; congruence). lia.
Qed.

Lemma C34_gaps_bounded_refuted_proof : exists r v,
  acf gap_series "correlation" (Some 1%Z) = Ok (Some r) /\ In v r /\ v == 3 # 2.
Proof.
  set (r := acf gap_series "correlation" (Some 1%Z)). vm_compute in r.
  match eval unfold r in r with Ok (Some [?a; ?b]) => exists [a; b], b end.
  split; [vm_compute; reflexivity|]. split; [right; left; reflexivity|reflexivity].
Qed.

Lemma C34_invariant_proof : forall x lag r, acf x "correlation" lag = Ok (Some r) ->
  (exists r', acf (rev x) "correlation" lag = Ok (Some r') /\ same_numbers r r') /\
  forall a b, ~ a == 0 ->
    exists r', acf (affine a b x) "correlation" lag = Ok (Some r') /\ same_numbers r r'.
Proof.
  intros x lag r E. destruct (acf_inv x lag r E) as (H & L & C & N). split.
  - destruct (acf_again (rev x) lag) as (r' & E' & L' & N').
    + rewrite known_rev. intro K. apply H. apply (f_equal (@rev Q)) in K. rewrite rev_involutive in K. exact K.
    + rewrite (entries_len (rev x) x lag (rev_length x)). destruct C as [(a & b & Ia & Ib & D)|C]; [left|right; exact C].
      exists a, b. rewrite known_rev, <- !in_rev. auto.
    + exists r'. split; [exact E'|]. apply forall2_nth; [rewrite L, L'; symmetry; apply entries_len; apply rev_length|].
      intros k u v U W. rewrite (N _ _ U), (N' _ _ W). unfold acor. rewrite !acov_rev. reflexivity.
  - intros a b Ha. assert (LA : length (affine a b x) = length x) by apply map_length.
    assert (HA : known (affine a b x) <> []) by (rewrite known_affine; destruct (known x); [congruence|discriminate]).
    destruct (acf_again (affine a b x) lag HA) as (r' & E' & L' & N').
    + rewrite (entries_len _ x lag LA). destruct C as [(u & v & Iu & Iv & D)|C]; [left|right; exact C].
      exists (a * u + b), (a * v + b). rewrite known_affine. split; [apply in_map_iff; exists u; auto|]. split; [apply in_map_iff; exists v; auto|].
      intro K. apply D. assert (Z0 : a * (u - v) == 0) by qlra. apply Qmult_integral in Z0. destruct Z0; [contradiction|qlra].
    + exists r'. split; [exact E'|]. apply forall2_nth; [rewrite L, L'; symmetry; apply entries_len; exact LA|].
      intros k u v U W. rewrite (N _ _ U), (N' _ _ W). unfold acor. rewrite !acov_affine by exact H.
      assert (V : Varies x). { destruct C as [C|C]; [exact C|]. rewrite C in L. destruct r; [destruct k; discriminate U|discriminate L]. }
      pose proof (proj1 (varies_iff x H) V). field. split; assumption.
Qed.

Lemma C34_default_lag_proof : forall x, Varies x -> exists r,
  acf x "correlation" None = Ok (Some r) /\ (1 <= length r <= length x)%nat.
Proof.
  intros x V. assert (H : known x <> []). { destruct V as (a & _ & I & _). intro E. rewrite E in I. destruct I. }
  destruct (proj1 (acf_correlation x None H) V) as (r & E & L & _). exists r. split; [exact E|]. rewrite L.
  split; [|apply entries_le; exact H]. unfold entries.
  assert (LX : (1 <= length x)%nat) by (destruct x; [contradiction (H eq_refl)|simpl; lia]).
  pose proof (default_pos _ LX). lia.
Qed.

Lemma C34_other_cases_proof : forall x acf_type lag,
  (x = [] \/ ~ In acf_type ["covariance"; "correlation"] -> acf x acf_type lag = Ok None) /\
  (x <> [] -> In acf_type ["covariance"; "correlation"] -> known x = [] -> acf x acf_type lag = Err ValueError) /\
  (known x <> [] -> In acf_type ["covariance"; "correlation"] -> forall l, lag = Some l -> (l < 0)%Z ->
     acf x acf_type lag = Ok (Some [])).
Proof.
  intros x ty lag. split; [|split].
  - intro H. unfold acf. destruct (negb _) eqn:B; [reflexivity|]. destruct H as [->|H]; [reflexivity|].
    exfalso. apply negb_false_iff, orb_true_iff in B. apply H. destruct B as [B|B]; apply String.eqb_eq in B; subst ty; simpl; auto.
  - intros NX HT K. unfold acf. assert (B : negb (String.eqb ty "covariance" || String.eqb ty "correlation") = false).
    { destruct HT as [<-|[<-|[]]]; reflexivity. }
    rewrite B. destruct x as [|x0 x']; [congruence|]. rewrite none_known, K. reflexivity.
  - intros K HT l -> L. assert (E0 : entries x (Some l) = 0%nat) by (unfold entries; lia). destruct HT as [<-|[<-|[]]].
    + destruct (acf_covariance x (Some l) K) as (r & E & Lr & _). rewrite E0 in Lr. destruct r; [exact E|discriminate Lr].
    + destruct (acf_again x (Some l) K (or_intror E0)) as (r & E & Lr & _). rewrite E0 in Lr. destruct r; [exact E|discriminate Lr].
Qed.

Lemma C34_coefficient_proof : forall data c first last,
  autocor_coef data = Ok (Some c) ->
  hd_error (known data) = Some first -> hd_error (rev (known data)) = Some last ->
  (c == slope (successive (known data)) <->
   first == series_mean data \/ last == series_mean data \/ last == series_mean data - 1).
Proof.
  intros data c a b E Ha Hb. destruct (coef_inv data c E) as (L & m & Hm & D1 & D2 & Hc). cbv zeta in *.
  rewrite Hc, (coef_algebra (known data) L m Hm a b D1 D2 Ha Hb). change (mean_of self (known data)) with (series_mean data) in Hm. rewrite Hm. reflexivity.
Qed.

Lemma C34_coefficient_scale_refuted_proof : exists data c c',
  autocor_coef data = Ok (Some c) /\ autocor_coef (affine 2 0 data) = Ok (Some c') /\ ~ c == c' /\
  exists data2 c2, autocor_coef data2 = Ok (Some c2) /\ 1 < Qabs c2.
Proof.
  exists small_series. set (r := autocor_coef small_series). vm_compute in r. set (r2 := autocor_coef (affine 2 0 small_series)). vm_compute in r2.
  match eval unfold r in r with Ok (Some ?c) => match eval unfold r2 in r2 with Ok (Some ?c') => exists c, c' end end.
  split; [vm_compute; reflexivity|]. split; [vm_compute; reflexivity|]. split; [intro K; vm_compute in K; discriminate K|].
  exists [Some 0; Some 0; Some (1#10); Some (-(7#10))].
  set (r3 := autocor_coef [Some 0; Some 0; Some (1#10); Some (-(7#10))]). vm_compute in r3.
  match eval unfold r3 in r3 with Ok (Some ?c) => exists c end. split; [vm_compute; reflexivity|vm_compute; reflexivity].
Qed.

Lemma C34_coefficient_raises_proof : forall data,
  ((length (known data) < 2)%nat -> autocor_coef data = Ok None) /\
  (forall c z k, (1 <= k)%nat -> known data = (repeat c k ++ [z])%list ->
     autocor_coef data = Err ZeroDivisionError).
Proof.
  intro data. split.
  - intro L. unfold autocor_coef. rewrite none_known. apply Nat.ltb_lt in L. rewrite L. reflexivity.
  - intros c z k K E. assert (L : (2 <= length (known data))%nat) by (rewrite E, app_length, repeat_length; simpl; lia).
    unfold autocor_coef. rewrite none_known. destruct (Nat.ltb (length (known data)) 2) eqn:B; [apply Nat.ltb_lt in B; lia|].
    assert (H : known data <> []) by (destruct (known data); [simpl in L; lia|discriminate]).
    destruct (st_mean_value _ H) as (m & -> & Hm). cbn [bind]. cbv zeta.
    destruct (sums_model (known data) L m Hm) as (E1 & E2 & E3 & E4).
    unfold fdiv. match goal with |- context [if Qeq_bool ?u 0 then Err _ else Ok (?v / ?w)] => destruct (Qeq_bool u 0); [reflexivity|] end.
    cbn [bind]. match goal with |- context [Qeq_bool ?u 0] => assert (Z0 : u == 0) end.
    { rewrite E1, E3, <- (dev_xx (known data) L m Hm). apply codev_zero_iff.
      assert (A : forall p, In p (successive (known data)) -> fst p = c).
      { intros p I. rewrite (succ_first (known data) L m Hm) in I. destruct p as [u v]. apply in_combine_l in I. simpl.
        rewrite E, app_length, repeat_length in I. simpl length in I. rewrite Nat.add_sub, firstn_app, repeat_length, Nat.sub_diag in I. simpl in I.
        rewrite app_nil_r, firstn_all2 in I by (rewrite repeat_length; lia). apply repeat_spec in I. exact I. }
      intros p q Ip Iq. rewrite (A p Ip), (A q Iq). reflexivity. }
    apply Qeq_bool_iff in Z0. rewrite Z0. reflexivity.
Qed.

Lemma C34_case_proof : Varies small_series /\ known small_series <> [] /\ Complete [Some 1; Some 2] /\ Varies [Some 1; Some 2] /\
  exists c, autocor_coef small_series = Ok (Some c).
Proof.
  split; [exists 1, 4; split; [simpl; auto|]; split; [simpl; auto|]; discriminate|].
  split; [discriminate|]. split; [intros [K|[K|[]]]; discriminate K|].
  split; [exists 1, 2; split; [simpl; auto|]; split; [simpl; auto|]; discriminate|].
  eexists. vm_compute. reflexivity.
Qed.

