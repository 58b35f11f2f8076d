(** Proofs about arithmetic on results. *)
From Coq Require Import Qabs.
From Verif Require Import PyBase BootModel IntervalModel IntervalSpec.
From Coq Require Import Lia List Lqa.
Import ListNotations.
Open Scope Q_scope.

Lemma ltb_iff a b : Qlt_bool a b = true <-> a < b.
Proof. unfold Qlt_bool. rewrite Bool.negb_true_iff. split; intros H; [apply Qnot_le_lt; intros K; apply Qle_bool_iff in K; congruence|]. destruct (Qle_bool b a) eqn:E; [apply Qle_bool_iff in E; lra|reflexivity]. Qed.
Lemma make_ordered a v b : a <= b -> BootstrapResults (Some a) (Some v) (Some b) = Results (Some a) (Some v) (Some b).
Proof. intros H. unfold BootstrapResults. destruct (Qlt_bool b a) eqn:E; [apply ltb_iff in E; lra|reflexivity]. Qed.
Lemma make_turned a v b : b < a -> BootstrapResults (Some a) (Some v) (Some b) = Results (Some b) (Some v) (Some a).
Proof. intros H. apply ltb_iff in H. unfold BootstrapResults. rewrite H. reflexivity. Qed.
Lemma apply_run f r l v u : IsResult r l v u -> exists l' v' u', apply_func f r = Ok (BootstrapResults (Some (f l')) (Some (f v')) (Some (f u'))) /\ l' == l /\ v' == v /\ u' == u.
Proof. intros (l' & v' & u' & -> & A & B & D). exists l', v', u'. split; [reflexivity|]. auto. Qed.
Lemma is_result a v b l w u : a == l -> v == w -> b == u -> IsResult (Results (Some a) (Some v) (Some b)) l w u.
Proof. intros. exists a, v, b. auto. Qed.
(** An increasing or decreasing function of a result. *)
Lemma apply_up f r l v u : IsResult r l v u -> l <= u -> (forall a b, a <= b -> f a <= f b) -> (forall a b, a == b -> f a == f b) ->
  exists s, apply_func f r = Ok s /\ IsResult s (f l) (f v) (f u).
Proof.
  intros H L M P. destruct (apply_run f r l v u H) as (a & w & b & E & A & W & B). rewrite make_ordered in E by (apply M; lra). eexists. split; [exact E|]. apply is_result; apply P; assumption.
Qed.
Lemma apply_down f r l v u : IsResult r l v u -> l <= u -> (forall a b, a <= b -> f b <= f a) -> (forall a b, a == b -> f a == f b) ->
  exists s, apply_func f r = Ok s /\ IsResult s (f u) (f v) (f l).
Proof.
  intros H L M P. destruct (apply_run f r l v u H) as (a & w & b & E & A & W & B). destruct (Qlt_le_dec (f b) (f a)) as [T|T].
  - rewrite make_turned in E by exact T. eexists. split; [exact E|]. apply is_result; apply P; assumption.
  - rewrite make_ordered in E by exact T. eexists. split; [exact E|]. assert (X : f b <= f a) by (apply M; lra). pose proof (P _ _ A). pose proof (P _ _ B). apply is_result; [lra|apply P; assumption|lra].
Qed.
Lemma is_result_eq r l v u l' v' u' : IsResult r l v u -> l == l' -> v == v' -> u == u' -> IsResult r l' v' u'.
Proof. intros (a & b & d & E & A & B & D) X Y Z. exists a, b, d. split; [exact E|]. repeat split; lra. Qed.
Lemma width_of s l v u : IsResult s l v u -> exists w, error_width s = Ok (Some w) /\ w == u - l.
Proof. intros (a & b & d & -> & A & B & D). eexists. split; [reflexivity|]. lra. Qed.
Lemma sgn_proper a b : a == b -> Z.sgn (Qnum a) = Z.sgn (Qnum b).
Proof. unfold Qeq. destruct a as [n p], b as [m q]. cbn. intros H. apply (f_equal Z.sgn) in H. rewrite !Z.sgn_mul in H. cbn in H. lia. Qed.
Lemma sgn_mult a b : Z.sgn (Qnum (a * b)) = (Z.sgn (Qnum a) * Z.sgn (Qnum b))%Z.
Proof. cbn. apply Z.sgn_mul. Qed.
Lemma result_of s l v u z : IsResult s l v u -> (get_result s = Ok z <-> z = ((if Z.eqb (Z.sgn (Qnum u)) (Z.sgn (Qnum l)) then 1 else 0) * Z.sgn (Qnum v))%Z).
Proof.
  intros (a & b & d & -> & A & B & D). unfold get_result, is_significant. cbn [upper_bound lower_bound value np_sign bind]. rewrite (sgn_proper _ _ A), (sgn_proper _ _ B), (sgn_proper _ _ D). split; [intros [= <-]; reflexivity|intros ->; reflexivity].
Qed.
Lemma apply_ordered f r s : apply_func f r = Ok s -> exists l v u, IsResult s l v u /\ l <= u.
Proof.
  unfold apply_func. destruct (lower_bound r) as [l|]; [|discriminate]. destruct (value r) as [v|]; [|discriminate]. destruct (upper_bound r) as [u|]; [|discriminate]. intros E. assert (E2 : s = BootstrapResults (Some (f l)) (Some (f v)) (Some (f u))) by congruence. clear E. subst s.
  destruct (Qlt_le_dec (f u) (f l)) as [T|T].
  - rewrite make_turned by exact T. exists (f u), (f v), (f l). split; [apply is_result; reflexivity|lra].
  - rewrite make_ordered by exact T. exists (f l), (f v), (f u). split; [apply is_result; reflexivity|lra].
Qed.
Lemma apply_fails f r e : apply_func f r = Err e <-> e = TypeError /\ Incomplete r.
Proof.
  unfold apply_func, Incomplete. destruct (lower_bound r) as [l|], (value r) as [v|], (upper_bound r) as [u|]; split; try (intros [= <-]; tauto); try (intros [-> _]; reflexivity); try discriminate.
  intros [_ [H|[H|H]]]; discriminate.
Qed.
Lemma shift_proof r l v u c : IsResult r l v u -> l <= u ->
  (exists s, add r c = Ok s /\ IsResult s (l + c) (v + c) (u + c)) /\
  (exists s, sub r c = Ok s /\ IsResult s (l - c) (v - c) (u - c)) /\
  (exists s, rsub c r = Ok s /\ IsResult s (c - u) (c - v) (c - l)).
Proof.
  intros H L. split; [|split].
  - destruct (apply_up (fun x => c + x) r l v u H L) as (s & E & R); [intros; lra|intros; lra|]. exists s. split; [exact E|]. apply (is_result_eq _ _ _ _ _ _ _ R); lra.
  - apply (apply_up (fun x => x - c) r l v u H L); intros; lra.
  - apply (apply_down (fun x => c - x) r l v u H L); intros; lra.
Qed.
Lemma scale_proof r l v u c : IsResult r l v u -> l <= u ->
  exists s, mul r c = Ok s /\ if Qlt_le_dec c 0 then IsResult s (u * c) (v * c) (l * c) else IsResult s (l * c) (v * c) (u * c).
Proof.
  intros H L. destruct (Qlt_le_dec c 0) as [N|N].
  - apply (apply_down (fun x => x * c) r l v u H L).
    + intros a b K. assert (X : 0 <= (b - a) * - c) by (apply Qmult_le_0_compat; lra). lra.
    + intros a b K. rewrite K. reflexivity.
  - apply (apply_up (fun x => x * c) r l v u H L).
    + intros a b K. assert (X : 0 <= (b - a) * c) by (apply Qmult_le_0_compat; lra). lra.
    + intros a b K. rewrite K. reflexivity.
Qed.

(** The statements of PropertiesInterval.v. *)
Lemma C91_shift_proof : forall r l v u c, IsResult r l v u -> l <= u ->
  (exists s, add r c = Ok s /\ IsResult s (l + c) (v + c) (u + c)) /\
  (exists s, sub r c = Ok s /\ IsResult s (l - c) (v - c) (u - c)) /\
  (exists s, rsub c r = Ok s /\ IsResult s (c - u) (c - v) (c - l)).
Proof.
  exact shift_proof.
Qed.

Lemma C91_shift_case_proof : IsResult (Results (Some 1) (Some 2) (Some 4)) 1 2 4 /\ 1 <= 4.
Proof.
  split; [apply is_result; reflexivity|lra].
Qed.

Lemma C91_scale_proof : forall r l v u c, IsResult r l v u -> l <= u ->
  exists s, mul r c = Ok s /\ if Qlt_le_dec c 0 then IsResult s (u * c) (v * c) (l * c) else IsResult s (l * c) (v * c) (u * c).
Proof.
  exact scale_proof.
Qed.

Lemma C91_ordered_proof : forall r c s, In (Ok s) [add r c; sub r c; rsub c r; mul r c] ->
  exists l v u, IsResult s l v u /\ l <= u.
Proof.
  intros r c s [E|[E|[E|[E|[]]]]]; exact (apply_ordered _ _ _ E).
Qed.

Lemma C91_ordered_case_proof : In (Ok (Results (Some 4) (Some 5) (Some 6))) [add (Results (Some 1) (Some 2) (Some 3)) 3; sub (Results (Some 1) (Some 2) (Some 3)) 3].
Proof.
  left. reflexivity.
Qed.

Lemma C91_width_proof : forall r l v u c, IsResult r l v u -> l <= u ->
  Forall (fun '(op, w) => exists s w', op = Ok s /\ error_width s = Ok (Some w') /\ w' == w)
    [(add r c, u - l); (sub r c, u - l); (rsub c r, u - l); (mul r c, (u - l) * Qabs c)].
Proof.
  intros r l v u c H L. destruct (shift_proof r l v u c H L) as ((a & A & RA) & (b & B & RB) & (d & D & RD)). destruct (scale_proof r l v u c H L) as (m & M & RM).
  constructor; [|constructor; [|constructor; [|constructor; [|constructor]]]].
  - destruct (width_of _ _ _ _ RA) as (w & W & E). exists a, w. split; [exact A|]. split; [exact W|lra].
  - destruct (width_of _ _ _ _ RB) as (w & W & E). exists b, w. split; [exact B|]. split; [exact W|lra].
  - destruct (width_of _ _ _ _ RD) as (w & W & E). exists d, w. split; [exact D|]. split; [exact W|lra].
  - destruct (Qlt_le_dec c 0) as [N|N].
    + destruct (width_of _ _ _ _ RM) as (w & W & E). exists m, w. split; [exact M|]. split; [exact W|]. rewrite Qabs_neg by lra. lra.
    + destruct (width_of _ _ _ _ RM) as (w & W & E). exists m, w. split; [exact M|]. split; [exact W|]. rewrite Qabs_pos by lra. lra.
Qed.

Lemma C91_back_proof : forall r l v u c s, IsResult r l v u -> l <= u -> add r c = Ok s -> exists s', sub s c = Ok s' /\ IsResult s' l v u.
Proof.
  intros r l v u c s H L E. destruct (shift_proof r l v u c H L) as ((a & A & RA) & _). rewrite A in E. injection E as <-.
  destruct (shift_proof a _ _ _ c RA) as (_ & (b & B & RB) & _); [lra|]. exists b. split; [exact B|]. apply (is_result_eq _ _ _ _ _ _ _ RB); lra.
Qed.

Lemma C91_significance_proof : forall r l v u c s z, IsResult r l v u -> l <= u -> mul r c = Ok s -> get_result r = Ok z ->
  get_result s = Ok (Z.sgn (Qnum c) * z)%Z.
Proof.
  intros r l v u c s z H L E Z. destruct (scale_proof r l v u c H L) as (m & M & RM). rewrite M in E. injection E as <-. apply (result_of _ _ _ _ _ H) in Z. subst z.
  destruct (Qlt_le_dec c 0) as [N|N]; apply (result_of _ _ _ _ _ RM); rewrite !sgn_mult.
  - assert (SC : Z.sgn (Qnum c) = (-1)%Z) by (apply Z.sgn_neg; unfold Qlt in N; cbn in N; lia). rewrite SC. destruct (Z.eqb_spec (Z.sgn (Qnum u)) (Z.sgn (Qnum l))), (Z.eqb_spec (Z.sgn (Qnum l) * -1) (Z.sgn (Qnum u) * -1)); lia.
  - assert (SC : Z.sgn (Qnum c) = 0%Z \/ Z.sgn (Qnum c) = 1%Z) by (unfold Qle in N; cbn in N; destruct (Qnum c); cbn; lia). destruct SC as [SC|SC]; rewrite SC; [rewrite !Z.mul_0_r; lia|].
    destruct (Z.eqb_spec (Z.sgn (Qnum u)) (Z.sgn (Qnum l))), (Z.eqb_spec (Z.sgn (Qnum u) * 1) (Z.sgn (Qnum l) * 1)); lia.
Qed.

Lemma C91_significance_case_proof : mul (Results (Some 1) (Some 2) (Some 4)) 3 = Ok (Results (Some 3) (Some 6) (Some 12)) /\ get_result (Results (Some 1) (Some 2) (Some 4)) = Ok 1%Z.
Proof.
  split; reflexivity.
Qed.

Lemma C91_exceptions_proof : forall r c e,
  Forall (fun op => (op = Err e <-> e = TypeError /\ Incomplete r)) [add r c; sub r c; rsub c r; mul r c].
Proof.
  intros r c e. repeat (apply Forall_cons; [apply apply_fails|]). apply Forall_nil.
Qed.

Lemma C91_fraction_proof : forall r l v u c, IsResult r l v u -> l <= u ->
  (v == 0 -> error_fraction r = Ok None) /\
  (~ v == 0 -> exists f, error_fraction r = Ok (Some f) /\ f * v == u - l) /\
  (~ v == 0 -> ~ c == 0 -> exists s f f', mul r c = Ok s /\ error_fraction r = Ok (Some f) /\ error_fraction s = Ok (Some f') /\
     f' == if Qlt_le_dec c 0 then - f else f).
Proof.
  intros r l v u c H HO. pose proof H as H0. destruct H0 as (l' & v' & u' & -> & El & Ev & Eu). cbn [error_fraction value].
  assert (F : forall q, (Qeq_bool q 0 = true <-> q == 0)) by (intro q; apply Qeq_bool_iff).
  assert (W : forall a b d, ~ b == 0 -> error_fraction (Results (Some a) (Some b) (Some d)) = Ok (Some ((d - a) / b))).
  { intros a b d N. cbn. destruct (Qeq_bool b 0) eqn:E; [apply F in E; contradiction|]. reflexivity. }
  split; [|split].
  - intro Z. assert (Qeq_bool v' 0 = true) as -> by (apply F; rewrite Ev; exact Z). reflexivity.
  - intro N. assert (N' : ~ v' == 0) by (rewrite Ev; exact N). eexists. split; [exact (W l' v' u' N')|].
    rewrite <- Ev, <- Eu, <- El. field. exact N'.
  - intros N NC. assert (N' : ~ v' == 0) by (rewrite Ev; exact N).
    destruct (C91_scale_proof (Results (Some l') (Some v') (Some u')) l v u c H HO) as (s & E & G).
    destruct (Qlt_le_dec c 0) as [B|B]; destruct G as (l2 & v2 & u2 & -> & E1 & E2 & E3).
    + exists (Results (Some l2) (Some v2) (Some u2)). eexists. eexists. split; [exact E|]. split; [exact (W l' v' u' N')|].
      assert (N2 : ~ v2 == 0) by (rewrite E2; intro G; apply Qmult_integral in G; tauto). split; [exact (W l2 v2 u2 N2)|].
      rewrite E1, E2, E3, Ev, El, Eu. field. split; assumption.
    + exists (Results (Some l2) (Some v2) (Some u2)). eexists. eexists. split; [exact E|]. split; [exact (W l' v' u' N')|].
      assert (N2 : ~ v2 == 0) by (rewrite E2; intro G; apply Qmult_integral in G; tauto). split; [exact (W l2 v2 u2 N2)|].
      rewrite E1, E2, E3, Ev, El, Eu. field. split; assumption.
Qed.
Lemma C91_fraction_case_proof : error_fraction (Results (Some 1) (Some 2) (Some 4)) = Ok (Some (3 # 2)) /\
  error_fraction (Results (Some (-1)) (Some 0) (Some 4)) = Ok None.
Proof. split; reflexivity. Qed.
Lemma C91_fraction_missing_proof : forall r, Incomplete r ->
  ((exists v, value r = Some v /\ v == 0) -> error_fraction r = Ok None) /\
  (~ (exists v, value r = Some v /\ v == 0) -> error_fraction r = Err TypeError).
Proof.
  intros [l [v|] u] H; cbn [value]; split.
  - intros (w & E & Z). injection E as <-. cbn. apply Qeq_bool_iff in Z. rewrite Z. reflexivity.
  - intro N. cbn. destruct (Qeq_bool v 0) eqn:E; [apply Qeq_bool_iff in E; destruct N; exists v; tauto|].
    destruct H as [H|[H|H]]; cbn in H; destruct u as [u|], l as [l|]; try discriminate H; reflexivity.
  - intros (w & E & _). discriminate E.
  - intros _. cbn. destruct u, l; reflexivity.
Qed.
Lemma C91_fraction_missing_case_proof : Incomplete (Results None (Some 0) (Some 1)).
Proof. left. reflexivity. Qed.
