From Coq Require Import Permutation Lqa.
From Verif Require Import PyBase EclvModel EclvSpec EclvProofs BootModel BootSpec.
Open Scope Q_scope.

(* ---------- blocks ---------- *)
Section Blocks.
Local Open Scope nat_scope.
Variables n L : nat.
Hypothesis HL : 1 < L.

Lemma wrap_mod x c : x < n -> c < n -> (if n - 1 <? x + c then x + c - n else x + c) = (x + c) mod n.
Proof.
  intros X C. destruct (Nat.ltb_spec (n - 1) (x + c)).
  - symmetry. replace (x + c) with (x + c - n + 1 * n) at 1 by lia. rewrite Nat.mod_add by lia. apply Nat.mod_small. lia.
  - symmetry. apply Nat.mod_small. lia.
Qed.

Lemma cbb_length counter init row : length (cbb_loop n L counter init row) = length row.
Proof. revert counter init. induction row as [|v row IH]; intros counter init; simpl; [reflexivity|]. now rewrite IH. Qed.

Lemma cbb_nth row : forall counter init p, counter < L -> p < length row -> counter + length row <= n ->
  (forall x, In x row -> x < n) -> init < n ->
  nth_error (cbb_loop n L counter init row) p =
    Some (((if ((counter + p) / L =? 0) && negb (counter =? 0) then init
            else nth (p - (counter + p) mod L) row 0) + (counter + p) mod L) mod n).
Proof.
  induction row as [|v row IH]; intros counter init p HC HP HN HR HI; [simpl in HP; lia|].
  assert (Hv : v < n) by (apply HR; simpl; auto).
  assert (HR' : forall x, In x row -> x < n) by (intros; apply HR; simpl; auto).
  cbn [cbb_loop length] in *.
  destruct p as [|p].
  - cbn [nth_error]. rewrite Nat.add_0_r. rewrite (Nat.div_small counter L HC), (Nat.mod_small counter L HC).
    destruct (Nat.eqb_spec counter 0) as [->|N]; cbn [Nat.eqb negb andb].
    + cbn [Nat.sub nth]. rewrite Nat.add_0_r. now rewrite Nat.mod_small.
    + f_equal. apply wrap_mod; lia.
  - cbn [nth_error]. set (init' := if counter =? 0 then v else init).
    assert (Hi' : init' < n) by (unfold init'; destruct (counter =? 0); assumption).
    replace (counter + 1) with (S counter) by lia.
    destruct (Nat.eqb_spec (S counter) L) as [E|E].
    + rewrite IH by (try lia; assumption). cbn [Nat.eqb negb]. rewrite andb_false_r. cbn [Nat.add].
      replace (counter + S p) with (p + 1 * L) by lia. rewrite Nat.mod_add, Nat.div_add by lia.
      replace (p / L + 1 =? 0) with false by (symmetry; apply Nat.eqb_neq; lia). cbn [andb].
      assert (p mod L <= p) by (apply Nat.mod_le; lia).
      replace (S p - p mod L) with (S (p - p mod L)) by lia. reflexivity.
    + rewrite IH by (try lia; assumption). replace (S counter + p) with (counter + S p) by lia.
      cbn [Nat.eqb negb]. rewrite andb_true_r.
      destruct (Nat.eqb_spec ((counter + S p) / L) 0) as [D|D]; cbn [andb].
      * apply Nat.div_small_iff in D; [|lia]. rewrite (Nat.mod_small _ _ D).
        unfold init'. destruct (Nat.eqb_spec counter 0) as [->|N]; cbn [negb]; [|reflexivity].
        replace (S p - (0 + S p)) with 0 by lia. reflexivity.
      * assert (L <= counter + S p).
        { destruct (Nat.le_gt_cases L (counter + S p)); [assumption|]. exfalso. apply D. apply Nat.div_small. assumption. }
        assert ((counter + S p) mod L <= p).
        { replace (counter + S p) with (counter + S p - L + 1 * L) by lia. rewrite Nat.mod_add by lia.
          etransitivity; [apply Nat.mod_le; lia|lia]. }
        replace (S p - (counter + S p) mod L) with (S (p - (counter + S p) mod L)) by lia. reflexivity.
Qed.
End Blocks.

Section Rule.
Local Open Scope nat_scope.
Lemma cbb_rule L row out : 1 < L -> (forall x, In x row -> x < length row) -> apply_cbb L row = Ok out ->
  length out = length row /\
  forall p, p < length row -> nth_error out p = Some ((nth (p - p mod L) row 0 + p mod L) mod length row).
Proof.
  intros HL HR. destruct row as [|v row]; [discriminate|]. intro E. injection E as <-.
  set (r := v :: row) in *. split; [now rewrite <- (cbb_length (length r) L 0 v r)|].
  intros p Hp. change (nth_error (cbb_loop (length r) L 0 v r) p = Some ((nth (p - p mod L) r 0 + p mod L) mod length r)).
  rewrite (cbb_nth (length r) L HL r 0 v p); try lia; try assumption.
  - cbn [Nat.eqb negb]. rewrite andb_false_r. reflexivity.
  - apply HR. simpl; auto.
Qed.
End Rule.

(* ---------- lists of results ---------- *)
Lemma map_res_ok {A B} (f : A -> res B) (g : A -> B) l : (forall x, In x l -> f x = Ok (g x)) -> map_res f l = Ok (map g l).
Proof.
  intro H. induction l as [|x t IH]; [reflexivity|]. simpl. rewrite H by (simpl; auto). cbn [bind].
  rewrite IH by (intros; apply H; simpl; auto). reflexivity.
Qed.
Lemma map_res_inv {A B} (f : A -> res B) l r : map_res f l = Ok r -> Forall2 (fun x y => f x = Ok y) l r.
Proof.
  revert r. induction l as [|x t IH]; simpl; intros r H; [injection H as <-; constructor|].
  destruct (f x) as [y|] eqn:E; [|discriminate H]. cbn [bind] in H. destruct (map_res f t) as [ys|]; [|discriminate H].
  injection H as <-. constructor; [exact E|]. now apply IH.
Qed.
Lemma map_res_exists {A B} (f : A -> res B) (P : A -> B -> Prop) l :
  (forall x, In x l -> exists y, f x = Ok y /\ P x y) -> exists r, map_res f l = Ok r /\ Forall2 P l r.
Proof.
  induction l as [|x t IH]; intro H; [exists []; split; [reflexivity|constructor]|].
  destruct (H x) as (y & E & Py); [simpl; auto|]. destruct IH as (r & R & F); [intros; apply H; simpl; auto|].
  exists (y :: r). simpl. rewrite E. cbn [bind]. rewrite R. split; [reflexivity|]. now constructor.
Qed.
Definition only {A} (e : exn) (m : res A) : Prop := match m with Err e' => e' = e | Ok _ => True end.
Lemma map_res_only {A B} e (f : A -> res B) l : (forall x, In x l -> only e (f x)) -> only e (map_res f l).
Proof.
  induction l as [|x t IH]; intro H; [exact I|]. simpl. pose proof (H x (or_introl eq_refl)) as X.
  destruct (f x) as [y|]; [|exact X]. cbn [bind].
  assert (Y : only e (map_res f t)) by (apply IH; intros; apply H; simpl; auto).
  destruct (map_res f t); [exact I|exact Y].
Qed.
Lemma map_res_app {A B} (f : A -> res B) l l' :
  map_res f (l ++ l') = (a <- map_res f l ;; b <- map_res f l' ;; Ok (a ++ b)).
Proof.
  induction l as [|x t IH]; simpl.
  - destruct (map_res f l'); reflexivity.
  - destruct (f x); [|reflexivity]. cbn [bind]. rewrite IH. destruct (map_res f t); [|reflexivity]. cbn [bind].
    destruct (map_res f l'); reflexivity.
Qed.
Lemma map_res_comp {A B C} e (f : A -> res B) (g : B -> res C) l :
  (forall x, In x l -> only e (f x)) -> (forall x y, In x l -> f x = Ok y -> only e (g y)) ->
  (ys <- map_res f l ;; map_res g ys) = map_res (fun x => y <- f x ;; g y) l.
Proof.
  induction l as [|x t IH]; intros F G; [reflexivity|]. simpl.
  pose proof (F x (or_introl eq_refl)) as Fx. pose proof (fun y => G x y (or_introl eq_refl)) as Gx.
  assert (IH' : (ys <- map_res f t ;; map_res g ys) = map_res (fun x => y <- f x ;; g y) t)
    by (apply IH; intros; [apply F|eapply G]; simpl; eauto).
  destruct (f x) as [y|] eqn:E; [|reflexivity]. cbn [bind]. specialize (Gx y eq_refl). rewrite <- IH'.
  assert (T : only e (map_res f t)) by (apply map_res_only; intros; apply F; simpl; auto).
  destruct (map_res f t) as [ys|e'] eqn:Et; cbn [bind].
  - simpl. reflexivity.
  - simpl in T. subst e'. destruct (g y) as [z|e']; [reflexivity|]. simpl in Gx. now subst.
Qed.

(* ---------- resamples ---------- *)
Section Sim.
Variable gen : Type.
Variable randint : gen -> nat -> nat * gen.
Variable seed_gen : Z -> gen.
Variables A S : Type.
Variable values : list A.
Variable stat_func : array A -> res (list S).
Variable f : list A -> S.
Hypothesis Hstat : forall l, stat_func (Samples l) = Ok (map f l).
Notation n := (length values).
Notation GEN := (generate_distributions_cbb gen randint A values).

Definition sample_of (block_length : Z) (row : list nat) : res (list A) :=
  ids <- (if (1 <? block_length)%Z then apply_cbb (Z.to_nat block_length) row else Ok row) ;;
  take A values ids.

Lemma take_only ids : only IndexError (take A values ids).
Proof. apply map_res_only. intros i _. destruct (nth_error values i); simpl; auto. Qed.
Lemma cbb_only L row : only IndexError (apply_cbb L row).
Proof. destruct row; simpl; auto. Qed.
Lemma map_res_id {X} (l : list X) : map_res (fun x => Ok x) l = Ok l.
Proof. induction l as [|x t IH]; [reflexivity|]. simpl. now rewrite IH. Qed.

Lemma gen_eq g k bl : (0 <= k)%Z ->
  GEN g k bl = (let '(ids, g') := draw_matrix gen randint g n (Z.to_nat k) in
                sims <- map_res (sample_of bl) ids ;; Ok (sims, g')).
Proof.
  intro K. unfold generate_distributions_cbb. replace (k <? 0)%Z with false by (symmetry; apply Z.ltb_ge; lia).
  destruct (draw_matrix gen randint g n (Z.to_nat k)) as (ids & g').
  unfold sample_of. destruct (1 <? bl)%Z.
  - rewrite <- (map_res_comp IndexError (apply_cbb (Z.to_nat bl)) (take A values)).
    + destruct (map_res (apply_cbb (Z.to_nat bl)) ids); reflexivity.
    + intros; apply cbb_only.
    + intros; apply take_only.
  - cbn [bind]. reflexivity.
Qed.

Lemma draw_matrix_app a b : forall g,
  draw_matrix gen randint g n (a + b) =
    (let '(l, g1) := draw_matrix gen randint g n a in let '(l', g2) := draw_matrix gen randint g1 n b in (l ++ l', g2))%list.
Proof.
  induction a as [|a IH]; intro g; simpl.
  - destruct (draw_matrix gen randint g n b); reflexivity.
  - destruct (draw_row gen randint g n n) as (x & g0). rewrite IH.
    destruct (draw_matrix gen randint g0 n a) as (l & g1). destruct (draw_matrix gen randint g1 n b); reflexivity.
Qed.

Lemma gen_app g a b bl : (0 <= a)%Z -> (0 <= b)%Z ->
  GEN g (a + b) bl = (d <- GEN g a bl ;; let '(s, g1) := d in
                      d' <- GEN g1 b bl ;; let '(s', g2) := d' in Ok ((s ++ s')%list, g2)).
Proof.
  intros Ha Hb. rewrite (gen_eq g (a + b)) by lia. rewrite (gen_eq g a) by lia.
  rewrite Z2Nat.inj_add by lia. rewrite draw_matrix_app.
  destruct (draw_matrix gen randint g n (Z.to_nat a)) as (l & g1) eqn:D1.
  destruct (draw_matrix gen randint g1 n (Z.to_nat b)) as (l' & g2) eqn:D2.
  rewrite map_res_app. destruct (map_res (sample_of bl) l) as [s|]; [|reflexivity]. cbn [bind].
  rewrite (gen_eq g1 b) by lia. rewrite D2. destruct (map_res (sample_of bl) l') as [s'|]; reflexivity.
Qed.

Lemma gen_zero g bl : GEN g 0 bl = Ok ([], g).
Proof. rewrite gen_eq by lia. reflexivity. Qed.

Lemma loop_eq N B bl m : forall i g rs, (0 < B)%Z ->
  (0 <= N - Z.of_nat i * B)%Z ->
  ((Z.of_nat m - 1) * B < N - Z.of_nat i * B <= Z.of_nat m * B)%Z ->
  sim_loop gen randint A S values stat_func g N B bl (map (fun j => (Z.of_nat j * B)%Z) (seq i m)) rs =
  (d <- GEN g (N - Z.of_nat i * B) bl ;; let '(s, g') := d in Ok ((rs ++ map f s)%list, g')).
Proof.
  induction m as [|m IH]; intros i g rs HB HR HM.
  - simpl. assert (N - Z.of_nat i * B = 0)%Z as -> by lia. rewrite gen_zero. cbn [bind map].
    now rewrite app_nil_r.
  - cbn [seq map sim_loop].
    set (R := (N - Z.of_nat i * B)%Z) in *.
    assert (Hsplit : (R = Z.min B R + (N - Z.of_nat (Datatypes.S i) * B))%Z \/ (Z.min B R = R /\ m = 0%nat)).
    { unfold R in *. destruct (Z.le_gt_cases B (N - Z.of_nat i * B)).
      - left. rewrite Z.min_l by lia. lia.
      - right. split; [apply Z.min_r; lia|]. nia. }
    destruct Hsplit as [E|(E & ->)].
    + destruct (Z.le_gt_cases 0 (N - Z.of_nat (Datatypes.S i) * B)) as [H0|H0].
      2:{ exfalso. unfold R in *. destruct (Z.min_spec B (N - Z.of_nat i * B)); lia. }
      rewrite E at 2. rewrite gen_app by (unfold R in *; lia).
      destruct (GEN g (Z.min B R) bl) as [[s g1]|]; [|reflexivity]. cbn [bind]. rewrite Hstat. cbn [bind].
      rewrite IH; [|assumption|assumption|].
      * destruct (GEN g1 (N - Z.of_nat (Datatypes.S i) * B) bl) as [[s' g2]|]; [|reflexivity]. cbn [bind].
        now rewrite map_app, app_assoc.
      * unfold R in *. rewrite Z.min_l in E by lia. lia.
    + rewrite E. destruct (GEN g R bl) as [[s g1]|]; [|reflexivity]. cbn [bind]. rewrite Hstat. reflexivity.
Qed.

Lemma ceil_count N B : (0 < B)%Z -> (0 <= N)%Z ->
  let m := Z.to_nat ((N + B - 1) / B) in ((Z.of_nat m - 1) * B < N <= Z.of_nat m * B)%Z.
Proof.
  intros HB HN m. unfold m. rewrite Z2Nat.id by (apply Z.div_pos; lia).
  pose proof (Z.div_mod (N + B - 1) B ltac:(lia)). pose proof (Z.mod_pos_bound (N + B - 1) B HB). nia.
Qed.

Lemma sim_eq g N B bl : (0 < B)%Z -> (0 <= N)%Z ->
  bootstrap_sim_cbb gen randint A S values stat_func g N B bl =
  (d <- GEN g N bl ;; let '(s, g') := d in Ok (map f s, g')).
Proof.
  intros HB HN. unfold bootstrap_sim_cbb, py_range.
  replace (B =? 0)%Z with false by (symmetry; apply Z.eqb_neq; lia).
  replace (0 <? B)%Z with true by (symmetry; apply Z.ltb_lt; lia). cbn [bind].
  rewrite loop_eq; [|assumption|lia|].
  - replace (N - Z.of_nat 0 * B)%Z with N by lia. reflexivity.
  - replace (N - Z.of_nat 0 * B)%Z with N by lia. now apply ceil_count.
Qed.

Lemma draw_matrix_length k : forall g l g', draw_matrix gen randint g n k = (l, g') -> length l = k.
Proof.
  induction k as [|k IH]; intros g l g' E; simpl in E; [injection E as <- _; reflexivity|].
  destruct (draw_row gen randint g n n) as (x & g0). destruct (draw_matrix gen randint g0 n k) as (l0 & g1) eqn:D.
  injection E as <- _. simpl. f_equal. eapply IH; eassumption.
Qed.
Lemma map_res_length {X Y} (h : X -> res Y) l r : map_res h l = Ok r -> length r = length l.
Proof. intro H. apply map_res_inv in H. induction H; simpl; congruence. Qed.

Lemma gen_length g k bl s g' : (0 <= k)%Z -> GEN g k bl = Ok (s, g') -> Z.of_nat (length s) = k.
Proof.
  intros K. rewrite gen_eq by assumption. destruct (draw_matrix gen randint g n (Z.to_nat k)) as (ids & g1) eqn:D.
  destruct (map_res (sample_of bl) ids) as [s0|] eqn:E; [|discriminate]. cbn [bind]. intro H. injection H as <- _.
  apply map_res_length in E. rewrite E. rewrite (draw_matrix_length _ _ _ _ D). lia.
Qed.

Section Range.
Hypothesis Hdraw : forall g m, (0 < m)%nat -> (fst (randint g m) < m)%nat.
Hypothesis Hval : values <> [].
Lemma n_pos : (0 < n)%nat.
Proof. destruct values; [contradiction|simpl; lia]. Qed.

Lemma draw_row_ok k : forall g l g', draw_row gen randint g n k = (l, g') ->
  length l = k /\ forall x, In x l -> (x < n)%nat.
Proof.
  induction k as [|k IH]; intros g l g' E; simpl in E; [injection E as <- _; split; [reflexivity|intros x []]|].
  pose proof (Hdraw g n n_pos) as X. destruct (randint g n) as (x & g0).
  destruct (draw_row gen randint g0 n k) as (l0 & g1) eqn:D. injection E as <- _.
  destruct (IH _ _ _ D) as (L & I). split; [simpl; congruence|]. intros y [<-|Hy]; [exact X|now apply I].
Qed.
Lemma draw_matrix_ok k : forall g l g', draw_matrix gen randint g n k = (l, g') ->
  forall row, In row l -> length row = n /\ forall x, In x row -> (x < n)%nat.
Proof.
  induction k as [|k IH]; intros g l g' E; simpl in E; [injection E as <- _; intros row []|].
  destruct (draw_row gen randint g n n) as (x & g0) eqn:D0.
  destruct (draw_matrix gen randint g0 n k) as (l0 & g1) eqn:D. injection E as <- _.
  intros row [<-|H]; [eapply draw_row_ok; eassumption|]. eapply IH; eassumption.
Qed.

Lemma take_ok ids : (forall x, In x ids -> (x < n)%nat) ->
  exists s, take A values ids = Ok s /\ Forall2 (fun i c => nth_error values i = Some c) ids s.
Proof.
  intro H. apply map_res_exists. intros i Hi. destruct (nth_error values i) as [c|] eqn:E; [eauto|].
  apply nth_error_None in E. specialize (H i Hi). lia.
Qed.

Lemma forall2_nth {X Y} (R : X -> Y -> Prop) l l' p x : Forall2 R l l' -> nth_error l p = Some x ->
  exists y, nth_error l' p = Some y /\ R x y.
Proof.
  intro H. revert p. induction H as [|a b l l' HR _ IH]; intros [|p]; simpl; try discriminate.
  - intro E. injection E as <-. eauto.
  - apply IH.
Qed.
Lemma forall2_length {X Y} (R : X -> Y -> Prop) l l' : Forall2 R l l' -> length l = length l'.
Proof. intro H. induction H; simpl; congruence. Qed.

Lemma sample_ok bl row : length row = n -> (forall x, In x row -> (x < n)%nat) ->
  exists s, sample_of bl row = Ok s /\ BlockResample (Nat.max 1 (Z.to_nat bl)) values s.
Proof.
  intros HL HR. pose proof n_pos as NP. unfold sample_of. destruct (Z.ltb_spec 1 bl) as [B|B].
  - set (L := Z.to_nat bl). assert (HL1 : (1 < L)%nat) by (unfold L; lia).
    rewrite Nat.max_r by lia.
    assert (exists ids, apply_cbb L row = Ok ids) as (ids & E).
    { destruct row; [simpl in HL; lia|]. eexists; reflexivity. }
    rewrite E. cbn [bind]. rewrite <- HL in HR. destruct (cbb_rule L row ids HL1 HR E) as (LI & NI). rewrite HL in *.
    destruct (take_ok ids) as (s & T & F).
    { intros x Hx. apply In_nth_error in Hx. destruct Hx as (p & Hp).
      assert (p < n)%nat by (rewrite <- LI; apply nth_error_Some; congruence).
      rewrite NI in Hp by assumption. injection Hp as <-. apply Nat.mod_upper_bound. lia. }
    exists s. split; [exact T|]. split.
    + rewrite <- (forall2_length _ _ _ F). exact LI.
    + exists (fun b => if (b * L <? n)%nat then nth (b * L) row 0%nat else 0%nat). split.
      * intro b. destruct (Nat.ltb_spec (b * L) n); [|lia]. apply HR. apply nth_In. lia.
      * intros p Hp. assert (X := Nat.div_mod p L ltac:(lia)).
        replace (p / L * L <? n)%nat with true by (symmetry; apply Nat.ltb_lt; nia).
        replace (p / L * L)%nat with (p - p mod L)%nat by nia.
        destruct (forall2_nth _ _ _ _ _ F (NI p Hp)) as (c & C1 & C2). now rewrite C1, C2.
  - replace (Z.to_nat bl) with (Z.to_nat bl) by reflexivity. cbn [bind].
    rewrite Nat.max_l by lia. destruct (take_ok row HR) as (s & T & F). exists s. split; [exact T|]. split.
    + rewrite <- (forall2_length _ _ _ F). exact HL.
    + exists (fun b => if (b <? n)%nat then nth b row 0%nat else 0%nat). split.
      * intro b. destruct (Nat.ltb_spec b n); [|lia]. apply HR. apply nth_In. lia.
      * intros p Hp. rewrite Nat.div_1_r, Nat.mod_1_r, Nat.add_0_r.
        replace (p <? n)%nat with true by (symmetry; apply Nat.ltb_lt; lia).
        assert (E : nth_error row p = Some (nth p row 0%nat)) by (apply nth_error_nth'; lia).
        destruct (forall2_nth _ _ _ _ _ F E) as (c & C1 & C2).
        rewrite Nat.mod_small by (apply HR; apply nth_In; lia). now rewrite C1, C2.
Qed.

Lemma gen_ok g k bl : (0 <= k)%Z -> exists s g', GEN g k bl = Ok (s, g') /\
  Forall (BlockResample (Nat.max 1 (Z.to_nat bl)) values) s.
Proof.
  intro K. rewrite gen_eq by assumption. destruct (draw_matrix gen randint g n (Z.to_nat k)) as (ids & g1) eqn:D.
  destruct (map_res_exists (sample_of bl) (fun _ s => BlockResample (Nat.max 1 (Z.to_nat bl)) values s) ids) as (s & E & F).
  { intros row Hrow. destruct (draw_matrix_ok _ _ _ _ D row Hrow). now apply sample_ok. }
  exists s, g1. rewrite E. split; [reflexivity|]. clear -F. induction F; constructor; auto.
Qed.
End Range.
End Sim.

Lemma ceil_spec N T : (0 < T)%Z -> IsCeiling N T (- ((- N) / T)).
Proof.
  intro HT. unfold IsCeiling. pose proof (Z.div_mod (- N) T ltac:(lia)). pose proof (Z.mod_pos_bound (- N) T HT). nia.
Qed.

(* ---------- quantiles ---------- *)
Lemma count_perm p l l' : Permutation l l' -> length (filter p l) = length (@filter Q p l').
Proof.
  intro H. induction H; simpl; try congruence; repeat destruct (p _); simpl; congruence.
Qed.
Lemma order_perm l l' k x : Permutation l l' -> OrderStatistic l k x -> OrderStatistic l' k x.
Proof.
  intros P (I & C). split; [eapply Permutation_in; eassumption|]. unfold smaller, not_larger in *.
  now rewrite <- !(count_perm _ _ _ P).
Qed.
Lemma quantile_perm l l' f p : Permutation l l' -> Quantile l f p -> Quantile l' f p.
Proof.
  intros P (k & t & a & b & E & T & A & B & V). exists k, t, a, b.
  rewrite <- (Permutation_length P). repeat split; try tauto; try apply T.
  - destruct (order_perm _ _ _ _ P A). assumption.
  - destruct (order_perm _ _ _ _ P A). tauto.
  - destruct (order_perm _ _ _ _ P A). tauto.
  - destruct B as [B|B]; [left; now apply (order_perm _ _ _ _ P)|right; exact B].
Qed.

Lemma quantile_ext l f f' p : f == f' -> Quantile l f p -> Quantile l f' p.
Proof. intros E (k & t & a & b & F & R). exists k, t, a, b. split; [now rewrite <- E|exact R]. Qed.

Lemma order_of_sorted s : Ascending s -> forall k x, nth_error s k = Some x -> OrderStatistic s k x.
Proof.
  intros H k x E. split; [eapply nth_error_In; eassumption|].
  revert k x E. induction s as [|y s IH]; intros [|k] x E; try discriminate E.
  - injection E as <-. destruct H as (H & _). unfold smaller, not_larger. cbn [filter].
    replace (Qle_bool y y) with true by (symmetry; apply Qle_bool_iff; apply Qle_refl). cbn [negb length]. split; [|lia].
    enough (filter (fun z => negb (Qle_bool y z)) s = []) as -> by (simpl; lia).
    clear -H. induction s as [|z s IH]; [reflexivity|]. simpl.
    replace (Qle_bool y z) with true by (symmetry; apply Qle_bool_iff; apply H; simpl; auto). simpl. apply IH.
    intros; apply H; simpl; auto.
  - cbn [nth_error] in E. destruct H as (H & HA). destruct (IH HA k x E) as (I1 & I2).
    unfold smaller, not_larger in *. cbn [filter].
    replace (Qle_bool y x) with true by (symmetry; apply Qle_bool_iff; apply H; eapply nth_error_In; eassumption).
    cbn [length]. destruct (negb (Qle_bool x y)); cbn [length]; lia.
Qed.

Lemma order_mono l k k' x x' : OrderStatistic l k x -> OrderStatistic l k' x' -> (k <= k')%nat -> x <= x'.
Proof.
  intros (_ & A & _) (_ & _ & B) K. destruct (Qlt_le_dec x' x) as [H|H]; [|exact H]. exfalso.
  assert (not_larger x' l <= smaller x l)%nat; [|lia].
  unfold not_larger, smaller. clear -H. induction l as [|y l IH]; [apply le_n|]. simpl.
  destruct (Qle_bool y x') eqn:E.
  - apply Qle_bool_iff in E. destruct (Qle_bool x y) eqn:F.
    + apply Qle_bool_iff in F. exfalso. lra.
    + simpl. lia.
  - destruct (negb (Qle_bool x y)); simpl; lia.
Qed.

Lemma order_len l k x : OrderStatistic l k x -> (k < length l)%nat.
Proof.
  intros (_ & _ & B). unfold not_larger in B. eapply Nat.lt_le_trans; [exact B|].
  clear. induction l as [|y l IH]; [apply le_n|]. simpl. destruct (Qle_bool y x); simpl; lia.
Qed.

Lemma quantile_in l f p : Quantile l f p -> exists k t a b,
  f * inject_Z (Z.of_nat (length l) - 1) == inject_Z (Z.of_nat k) + t /\ 0 <= t < 1 /\ OrderStatistic l k a /\
  a <= p /\ p <= b /\ (OrderStatistic l (S k) b \/ t == 0 /\ S k = length l /\ b = a) /\ p == a + t * (b - a).
Proof.
  intros (k & t & a & b & E & T & A & B & V). exists k, t, a, b.
  assert (AB : a <= b).
  { destruct B as [B|(_ & _ & ->)]; [|apply Qle_refl]. eapply order_mono; [exact A|exact B|lia]. }
  assert (0 <= t * (b - a)) by (apply Qmult_le_0_compat; lra).
  assert (0 <= (1 - t) * (b - a)) by (apply Qmult_le_0_compat; lra).
  repeat split; try tauto; try apply A; try lra; apply T.
Qed.

Lemma quantile_monotone l f f' p p' : Quantile l f p -> Quantile l f' p' -> f <= f' -> p <= p'.
Proof.
  intros Q1 Q2 F. apply quantile_in in Q1, Q2.
  destruct Q1 as (k & t & a & b & E & T & A & AP & PB & B & V).
  destruct Q2 as (k' & t' & a' & b' & E' & T' & A' & AP' & PB' & B' & V').
  pose proof (order_len _ _ _ A) as LK. pose proof (order_len _ _ _ A') as LK'.
  assert (KT : inject_Z (Z.of_nat k) + t <= inject_Z (Z.of_nat k') + t').
  { rewrite <- E, <- E'. apply Qmult_le_compat_r; [exact F|]. change 0 with (inject_Z 0). rewrite <- Zle_Qle. lia. }
  assert (KK : (k <= k')%nat).
  { destruct (le_gt_dec k k'); [assumption|]. exfalso.
    assert (inject_Z (Z.of_nat k') + 1 <= inject_Z (Z.of_nat k)).
    { change 1 with (inject_Z 1). rewrite <- inject_Z_plus, <- Zle_Qle. lia. }
    lra. }
  destruct (Nat.eq_dec k k') as [<-|NE].
  - assert (t <= t') by lra. assert (EA : a == a') by (apply Qle_antisym; eapply order_mono; eauto).
    destruct B as [B|(T0 & _ & ->)].
    2:{ rewrite V. assert (a + t * (a - a) == a) as -> by ring. lra. }
    destruct B' as [B'|(T0' & _ & ->)].
    2:{ assert (t == 0) as T0 by lra. rewrite V, T0. assert (a + 0 * (b - a) == a) as -> by ring. lra. }
    assert (EB : b == b') by (apply Qle_antisym; eapply order_mono; eauto).
    rewrite V, V', <- EA, <- EB.
    assert (a <= b) by (eapply order_mono; [exact A|exact B|lia]).
    assert (0 <= (t' - t) * (b - a)) by (apply Qmult_le_0_compat; lra).
    lra.
  - destruct B as [B|(_ & L & _)]; [|lia].
    assert (b <= a') by (eapply order_mono; [exact B|exact A'|lia]). lra.
Qed.

Lemma quantile_unique l f p p' : Quantile l f p -> Quantile l f p' -> p == p'.
Proof. intros A B. apply Qle_antisym; eapply quantile_monotone; eauto; apply Qle_refl. Qed.

Lemma quantile_bounded l f p : Quantile l f p -> exists a b, In a l /\ In b l /\ a <= p <= b.
Proof.
  intro Q. apply quantile_in in Q. destruct Q as (k & t & a & b & _ & _ & A & AP & PB & B & _).
  exists a, b. split; [apply A|]. split; [|split; assumption].
  destruct B as [B|(_ & _ & ->)]; [apply B|apply A].
Qed.

Lemma percentile_quantile l q : l <> [] -> 0 <= q <= 100 ->
  exists p, percentile l q = Ok p /\ Quantile l (q / 100) p.
Proof.
  intros HL (Q0 & Q1). unfold percentile.
  replace (Qle_bool 0 q) with true by (symmetry; now apply Qle_bool_iff).
  replace (Qle_bool q 100) with true by (symmetry; now apply Qle_bool_iff). cbn [andb negb].
  set (s := sortQ l). set (v := inject_Z (Z.of_nat (length s) - 1) * (q / 100)).
  assert (LS : length s = length l) by (apply Permutation_length, sortQ_perm).
  assert (LP : (0 < length s)%nat) by (rewrite LS; destruct l; [contradiction|simpl; lia]).
  assert (F0 : 0 <= q / 100) by (apply Qle_shift_div_l; [reflexivity|lra]).
  assert (F1 : q / 100 <= 1) by (apply Qle_shift_div_r; [reflexivity|lra]).
  assert (N0 : 0 <= inject_Z (Z.of_nat (length s) - 1)).
  { change 0 with (inject_Z 0). rewrite <- Zle_Qle. lia. }
  assert (V0 : 0 <= v) by (apply Qmult_le_0_compat; assumption).
  assert (V1 : v <= inject_Z (Z.of_nat (length s) - 1)).
  { unfold v. assert (0 <= inject_Z (Z.of_nat (length s) - 1) * (1 - q / 100)) by (apply Qmult_le_0_compat; lra). lra. }
  pose proof (Qfloor_le v) as FL. pose proof (Qlt_floor v) as FU. rewrite inject_Z_plus in FU.
  change (inject_Z 1) with 1 in FU. set (m := Qfloor v) in *.
  assert (M0 : (0 <= m)%Z) by (unfold m; change 0%Z with (Qfloor 0); now apply Qfloor_resp_le).
  assert (M1 : (m <= Z.of_nat (length s) - 1)%Z).
  { rewrite Zle_Qle. lra. }
  assert (exists a, nth_error s (Z.to_nat m) = Some a) as (a & Ea).
  { destruct (nth_error s (Z.to_nat m)) eqn:E; [eauto|]. apply nth_error_None in E. lia. }
  pose proof (order_of_sorted s (sortQ_asc l) _ _ Ea) as OA. rewrite Ea.
  destruct (Z.le_gt_cases (m + 1) (Z.of_nat (length s) - 1)) as [M|M].
  - rewrite Z.min_l by exact M. replace (Z.to_nat (m + 1)) with (S (Z.to_nat m)) by lia.
    assert (exists b, nth_error s (S (Z.to_nat m)) = Some b) as (b & Eb).
    { destruct (nth_error s (S (Z.to_nat m))) eqn:E; [eauto|]. apply nth_error_None in E. lia. }
    pose proof (order_of_sorted s (sortQ_asc l) _ _ Eb) as OB. rewrite Eb.
    eexists; split; [reflexivity|]. apply (quantile_perm s); [apply sortQ_perm|].
    exists (Z.to_nat m), (v - inject_Z m), a, b. rewrite Z2Nat.id by assumption.
    split; [unfold v; ring|]. split; [lra|]. split; [exact OA|]. split; [left; exact OB|]. ring.
  - assert (ME : m = (Z.of_nat (length s) - 1)%Z) by lia.
    rewrite Z.min_r by lia.
    assert (E2 : nth_error s (Z.to_nat (Z.of_nat (length s) - 1)) = Some a) by (rewrite <- ME; exact Ea).
    rewrite E2. eexists; split; [reflexivity|]. apply (quantile_perm s); [apply sortQ_perm|].
    assert (T0 : v - inject_Z m == 0) by (rewrite ME in *; lra).
    exists (Z.to_nat m), (v - inject_Z m), a, a. rewrite Z2Nat.id by assumption.
    split; [unfold v; ring|]. split; [lra|]. split; [exact OA|].
    split; [right; split; [exact T0|]; split; [lia|reflexivity]|]. ring.
Qed.

Lemma percentile_inv l q p : percentile l q = Ok p -> 0 <= q <= 100 /\ l <> [] /\ Quantile l (q / 100) p.
Proof.
  intro H. assert (R : 0 <= q <= 100 /\ l <> []).
  { unfold percentile in H. destruct (Qle_bool 0 q) eqn:A; [|discriminate H]. destruct (Qle_bool q 100) eqn:B; [|discriminate H].
    apply Qle_bool_iff in A, B. split; [split; assumption|]. intros ->. cbn [andb negb sortQ] in H.
    assert (X : forall k, nth_error ([] : list Q) k = None) by (intros [|k]; reflexivity). rewrite X in H. discriminate H. }
  destruct R as (R & N). split; [exact R|]. split; [exact N|].
  destruct (percentile_quantile l q N R) as (p' & E & Q). rewrite E in H. injection H as <-. exact Q.
Qed.

(* ---------- limits ---------- *)
Lemma known_not_none {A} (l : list (option A)) : not_none l = known l.
Proof. induction l as [|[x|] t IH]; simpl; congruence. Qed.
Lemma in_known {A} (l : list (option A)) x : In x (known l) <-> In (Some x) l.
Proof.
  induction l as [|[y|] t IH]; simpl; [tauto| |].
  - rewrite IH. split; intros [H|H]; auto; left; congruence.
  - rewrite IH. split; [auto|]. intros [H|H]; [discriminate H|exact H].
Qed.
Lemma one_value_spec l : one_value l = true <-> l <> [] /\ forall x y, In x l -> In y l -> x == y.
Proof.
  destruct l as [|a l]; simpl.
  - split; [discriminate|]. intros (H & _). contradiction.
  - rewrite forallb_forall. split.
    + intro H. split; [discriminate|]. assert (K : forall x, a = x \/ In x l -> a == x).
      { intros x [<-|I]; [reflexivity|]. apply Qeq_bool_iff. now apply H. }
      intros x y Hx Hy. transitivity a; [symmetry|]; now apply K.
    + intros (_ & H) x Hx. apply Qeq_bool_iff. apply H; auto.
Qed.
Lemma Ok_inj {A} (a b : A) : Ok a = Ok b -> a = b.
Proof. intro H. now injection H. Qed.
Lemma boot_results low v high l v' h : BootstrapResults low v high = Results (Some l) v' (Some h) ->
  v' = v /\ l <= h /\ exists a b, low = Some a /\ high = Some b /\ (a = l /\ b = h \/ a = h /\ b = l /\ l < h).
Proof.
  destruct low as [a|]; [|destruct high; discriminate]. destruct high as [b|]; [|discriminate].
  unfold BootstrapResults, Qlt_bool. destruct (Qle_bool a b) eqn:E; cbn [negb]; intro H; injection H as <- <- <-.
  - apply Qle_bool_iff in E. split; [reflexivity|]. split; [exact E|]. exists a, b. auto.
  - assert (b < a). { apply Qnot_le_lt. intro K. apply Qle_bool_iff in K. congruence. }
    split; [reflexivity|]. split; [lra|]. exists a, b. auto 6.
Qed.

Lemma perc_inv dist sv alpha low v high :
  get_confidence_interval_and_value dist sv alpha Perc = Ok (Results (Some low) v (Some high)) ->
  v = sv /\ 0 <= alpha <= 2 /\ low <= high /\ exists a b,
    Quantile (known dist) (alpha / 2) a /\ Quantile (known dist) (1 - alpha / 2) b /\
    (a = low /\ b = high \/ a = high /\ b = low /\ low < high).
Proof.
  unfold get_confidence_interval_and_value. destruct sv as [s|]; [|discriminate].
  destruct (all_the_same dist); [discriminate|].
  destruct (percentile (not_none dist) (100 * (alpha / 2))) as [a|] eqn:A; [|discriminate].
  destruct (percentile (not_none dist) (100 * (1 - alpha / 2))) as [b|] eqn:B; [|discriminate]. cbn [bind].
  intro H. apply Ok_inj in H. apply boot_results in H. destruct H as (-> & LH & a' & b' & Ea & Eb & C).
  injection Ea as <-. injection Eb as <-.
  apply percentile_inv in A, B. rewrite known_not_none in *. destruct A as (RA & _ & QA), B as (RB & _ & QB).
  split; [reflexivity|]. split.
  { assert (X : 100 * (alpha / 2) == 50 * alpha) by field. rewrite X in RA. lra. }
  split; [exact LH|]. exists a, b. split; [|split; [|exact C]].
  - eapply quantile_ext; [|exact QA]. field.
  - eapply quantile_ext; [|exact QB]. field.
Qed.

Lemma perc_nested_aux dist sv alpha low v high : 0 <= alpha <= 1 ->
  get_confidence_interval_and_value dist sv alpha Perc = Ok (Results (Some low) v (Some high)) ->
  Quantile (known dist) (alpha / 2) low /\ Quantile (known dist) (1 - alpha / 2) high.
Proof.
  intros A H. apply perc_inv in H. destruct H as (_ & _ & _ & a & b & QA & QB & C).
  assert (AB : a <= b).
  { eapply quantile_monotone; [exact QA|exact QB|]. assert (X : alpha / 2 == (1 # 2) * alpha) by field. rewrite X. lra. }
  destruct C as [(<- & <-)|(<- & <- & C)]; [auto|]. exfalso. lra.
Qed.

Lemma different_values dist x y : In (Some x) dist -> In (Some y) dist -> ~ x == y ->
  all_the_same dist = false /\ known dist <> [].
Proof.
  intros X Y N. split.
  - unfold all_the_same. destruct dist as [|d0 dist0]; [destruct X|]. set (dist := d0 :: dist0) in *.
    destruct (one_value (not_none dist)) eqn:E; [|reflexivity]. exfalso. apply N.
    apply one_value_spec in E. rewrite known_not_none in E. apply E; now apply in_known.
  - apply in_known in X. intro H. rewrite H in X. destruct X.
Qed.

(** The statements of PropertiesBoot.v. *)
Lemma C21_block_resamples_proof :
  forall (gen : Type) (randint : gen -> nat -> nat * gen) (seed_gen : Z -> gen)
         (A S : Type) (values : list A) (stat_func : array A -> res (list S)) (f : list A -> S)
         (g : gen) (num_iterations : Z) (batch : option Z) (num_threads cpu_count : Z) (seeds : list Z)
         (block_length : Z),
  (forall g n, (0 < n)%nat -> (fst (randint g n) < n)%nat) ->
  (forall l, stat_func (Samples l) = Ok (map f l)) ->
  values <> [] -> (0 < num_iterations)%Z ->
  match batch with Some b => (0 < b)%Z | None => True end ->
  (num_threads <= Z.of_nat (length seeds) /\ cpu_count <= Z.of_nat (length seeds))%Z ->
  exists samples,
    bootstrap_distribution_cbb gen randint seed_gen A S values stat_func g num_iterations batch
      num_threads cpu_count seeds block_length = Ok (map f samples) /\
    Forall (BlockResample (Nat.max 1 (Z.to_nat block_length)) values) samples.
Proof.
  intros gen randint seed_gen A S values stat_func f g N batch T cpu seeds bl HD HS HV HN HB HT.
  set (b := match batch with Some b => b | None => N end).
  assert (Hb : (0 < b)%Z) by (unfold b; destruct batch; assumption).
  unfold bootstrap_distribution_cbb. fold b.
  set (T' := if (T =? -1)%Z then cpu else T).
  destruct (Z.leb_spec T' 1) as [L|L].
  - rewrite (sim_eq gen randint A S values stat_func f HS g N b bl Hb) by lia.
    destruct (gen_ok gen randint A values HD HV g N bl) as (s & g' & E & F); [lia|].
    rewrite E. cbn [bind fst]. exists s. auto.
  - set (share := (- (- N / T'))%Z).
    assert (Hs : (0 <= share)%Z).
    { pose proof (ceil_spec N T' ltac:(lia)) as C. fold share in C. unfold IsCeiling in C. nia. }
    set (sd := firstn (Z.to_nat T') seeds).
    assert (exists r, map_res (fun seed => bootstrap_sim_cbb gen randint A S values stat_func (seed_gen seed) share b bl) sd = Ok r /\
            exists ss, concat (map fst r) = map f ss /\ Forall (BlockResample (Nat.max 1 (Z.to_nat bl)) values) ss) as (r & E & ss & Es & F).
    { clearbody sd. induction sd as [|s0 sd IH].
      - exists []. split; [reflexivity|]. exists []. split; [reflexivity|constructor].
      - destruct IH as (r & E & ss & Es & F).
        destruct (gen_ok gen randint A values HD HV (seed_gen s0) share bl Hs) as (s & g' & E1 & F1).
        exists ((map f s, g') :: r). split.
        + simpl. rewrite (sim_eq gen randint A S values stat_func f HS (seed_gen s0) share b bl Hb) by lia.
          rewrite E1. cbn [bind]. rewrite E. reflexivity.
        + exists (s ++ ss)%list. split; [simpl; now rewrite map_app, Es|]. apply Forall_app. auto. }
    rewrite E. cbn [bind]. exists ss. rewrite Es. auto.
Qed.

Lemma C21_block_rule_proof : forall block_length row out,
  (1 < block_length)%nat -> (forall x, In x row -> (x < length row)%nat) ->
  apply_cbb block_length row = Ok out ->
  length out = length row /\
  forall p s, nth_error row (p - p mod block_length) = Some s -> (p < length row)%nat ->
    nth_error out p = Some ((s + p mod block_length) mod length row)%nat.
Proof.
  intros L row out HL HR E. destruct (cbb_rule L row out HL HR E) as (A & B). split; [exact A|].
  intros p s Hs Hp. rewrite (B p Hp). f_equal. f_equal. f_equal. now apply nth_error_nth.
Qed.

Lemma C21_independent_draws_model :
  forall (gen : Type) (randint : gen -> nat -> nat * gen) (A : Type) (values : list A) (g : gen) (k block_length : Z)
         (ids : list (list nat)) (g' : gen),
  (0 <= k)%Z -> (block_length <= 1)%Z ->
  draw_matrix gen randint g (length values) (Z.to_nat k) = (ids, g') ->
  (forall row x, In row ids -> In x row -> (x < length values)%nat) ->
  exists samples, generate_distributions_cbb gen randint A values g k block_length = Ok (samples, g') /\
    Forall2 (fun row sample => Forall2 (fun i c => nth_error values i = Some c) row sample) ids samples.
Proof.
  intros gen randint A values g k bl ids g' K B D R.
  rewrite (gen_eq gen randint A values g k bl K). rewrite D.
  destruct (map_res_exists (sample_of A values bl)
     (fun row sample => Forall2 (fun i c => nth_error values i = Some c) row sample) ids) as (s & E & F).
  { intros row Hrow. unfold sample_of. replace (1 <? bl)%Z with false by (symmetry; apply Z.ltb_ge; lia). cbn [bind].
    apply take_ok. intros x Hx. eapply R; eassumption. }
  exists s. rewrite E. auto.
Qed.

Lemma C21_case_proof :
  apply_cbb 3 [5; 0; 2; 6; 1; 1; 4]%nat = Ok [5; 6; 0; 6; 0; 1; 4]%nat /\
  (forall x, In x [5; 0; 2; 6; 1; 1; 4]%nat -> (x < 7)%nat).
Proof.
  split; [reflexivity|]. intros x H. simpl in H. intuition lia.
Qed.

Lemma C23_exact_count_proof :
  forall (gen : Type) (randint : gen -> nat -> nat * gen) (seed_gen : Z -> gen)
         (A S : Type) (values : list A) (stat_func : array A -> res (list S)) (f : list A -> S)
         (g : gen) (num_iterations : Z) (batch : option Z) (num_threads cpu_count : Z) (seeds : list Z)
         (block_length : Z) (dist : list S),
  (forall l, stat_func (Samples l) = Ok (map f l)) ->
  (0 <= num_iterations)%Z -> match batch with Some b => (0 < b)%Z | None => True end ->
  (num_threads <= 1 /\ num_threads <> -1)%Z ->
  bootstrap_distribution_cbb gen randint seed_gen A S values stat_func g num_iterations batch
    num_threads cpu_count seeds block_length = Ok dist ->
  Z.of_nat (length dist) = num_iterations.
Proof.
  intros gen randint seed_gen A S values stat_func f g N batch T cpu seeds bl dist HS HN HB HT.
  unfold bootstrap_distribution_cbb.
  replace (T =? -1)%Z with false by (symmetry; apply Z.eqb_neq; lia).
  replace (T <=? 1)%Z with true by (symmetry; apply Z.leb_le; lia).
  set (b := match batch with Some b => b | None => N end).
  destruct (Z.eq_dec b 0) as [Z0|NZ].
  { unfold b in *. destruct batch; [lia|]. subst N. discriminate. }
  assert (Hb : (0 < b)%Z) by (unfold b in *; destruct batch; lia).
  rewrite (sim_eq gen randint A S values stat_func f HS g N b bl Hb HN).
  destruct (generate_distributions_cbb gen randint A values g N bl) as [[s g']|] eqn:E; [|discriminate].
  cbn [bind fst]. intro H. injection H as <-. rewrite map_length. eapply gen_length; eassumption.
Qed.

Lemma C23_batch_size_irrelevant_proof :
  forall (gen : Type) (randint : gen -> nat -> nat * gen) (seed_gen : Z -> gen)
         (A S : Type) (values : list A) (stat_func : array A -> res (list S)) (f : list A -> S)
         (g : gen) (num_iterations batch : Z) (cpu_count : Z) (seeds : list Z) (block_length : Z),
  (forall l, stat_func (Samples l) = Ok (map f l)) ->
  (0 < num_iterations)%Z -> (0 < batch)%Z ->
  bootstrap_distribution_cbb gen randint seed_gen A S values stat_func g num_iterations (Some batch)
    1 cpu_count seeds block_length =
  bootstrap_distribution_cbb gen randint seed_gen A S values stat_func g num_iterations None
    1 cpu_count seeds block_length.
Proof.
  intros gen randint seed_gen A S values stat_func f g N b cpu seeds bl HS HN HB.
  unfold bootstrap_distribution_cbb. cbn [Z.eqb Z.leb Z.compare Pos.compare Pos.compare_cont].
  rewrite !(sim_eq gen randint A S values stat_func f HS) by lia. reflexivity.
Qed.

Lemma C23_threads_round_up_proof :
  forall (gen : Type) (randint : gen -> nat -> nat * gen) (seed_gen : Z -> gen)
         (A S : Type) (values : list A) (stat_func : array A -> res (list S)) (f : list A -> S)
         (g : gen) (num_iterations : Z) (batch : option Z) (num_threads cpu_count : Z) (seeds : list Z)
         (block_length : Z) (dist : list S),
  (forall l, stat_func (Samples l) = Ok (map f l)) ->
  (0 <= num_iterations)%Z -> match batch with Some b => (0 < b)%Z | None => True end ->
  (1 < num_threads)%Z -> Z.of_nat (length seeds) = num_threads ->
  bootstrap_distribution_cbb gen randint seed_gen A S values stat_func g num_iterations batch
    num_threads cpu_count seeds block_length = Ok dist ->
  exists share, IsCeiling num_iterations num_threads share /\
                Z.of_nat (length dist) = (num_threads * share)%Z.
Proof.
  intros gen randint seed_gen A S values stat_func f g N batch T cpu seeds bl dist HS HN HB HT HL.
  unfold bootstrap_distribution_cbb.
  replace (T =? -1)%Z with false by (symmetry; apply Z.eqb_neq; lia).
  replace (T <=? 1)%Z with false by (symmetry; apply Z.leb_gt; lia).
  set (b := match batch with Some b => b | None => N end).
  set (share := (- (- N / T))%Z). pose proof (ceil_spec N T ltac:(lia)) as C. fold share in C.
  assert (Hs : (0 <= share)%Z) by (unfold IsCeiling in C; nia).
  rewrite firstn_all2 by lia. intro H. exists share. split; [exact C|]. rewrite <- HL. clear HL.
  destruct (map_res _ seeds) as [rs|] eqn:E; [|discriminate H]. cbn [bind] in H. injection H as <-.
  revert rs E. induction seeds as [|s0 seeds IH]; intros rs E.
  - injection E as <-. reflexivity.
  - cbn [map_res] in E.
    destruct (bootstrap_sim_cbb gen randint A S values stat_func (seed_gen s0) share b bl) as [[d g1]|] eqn:E1; [|discriminate E].
    cbn [bind] in E. destruct (map_res _ seeds) as [rs'|] eqn:E2; [|discriminate E]. cbn [bind] in E. injection E as <-.
    cbn [map concat fst]. rewrite app_length. specialize (IH rs' eq_refl).
    destruct (Z.eq_dec b 0) as [Z0|NZ].
    { unfold b in *. destruct batch; [lia|]. subst N. discriminate E1. }
    assert (Hb : (0 < b)%Z) by (unfold b in *; destruct batch; lia).
    rewrite (sim_eq gen randint A S values stat_func f HS _ share b bl Hb Hs) in E1.
    destruct (generate_distributions_cbb gen randint A values (seed_gen s0) share bl) as [[s g']|] eqn:E3; [|discriminate E1].
    cbn [bind] in E1. injection E1 as <- _. apply gen_length in E3; [|exact Hs]. rewrite map_length. cbn [length]. lia.
Qed.

Lemma C23_threads_exact_refuted_proof :
  ~ (forall (gen : Type) (randint : gen -> nat -> nat * gen) (seed_gen : Z -> gen)
            (A S : Type) (values : list A) (stat_func : array A -> res (list S)) (f : list A -> S)
            (g : gen) (num_iterations : Z) (num_threads cpu_count : Z) (seeds : list Z) (dist : list S),
     (forall l, stat_func (Samples l) = Ok (map f l)) ->
     (0 < num_iterations)%Z -> (0 < num_threads)%Z -> Z.of_nat (length seeds) = num_threads ->
     bootstrap_distribution_cbb gen randint seed_gen A S values stat_func g num_iterations None
       num_threads cpu_count seeds 1 = Ok dist ->
     Z.of_nat (length dist) = num_iterations).
Proof.
  intro H.
  specialize (H nat (fun g n => (g mod n, S g)%nat) (fun _ => 0%nat) nat nat [1; 2]%nat
     (fun a => match a with Samples l => Ok (map (fun r => fold_right plus 0%nat r) l) | Data r => Ok [0%nat] end)
     (fun r => fold_right plus 0%nat r) 0%nat 3%Z 2%Z 4%Z [7; 8]%Z).
  specialize (H _ (fun l => eq_refl) eq_refl eq_refl eq_refl eq_refl). discriminate H.
Qed.

Lemma C23_no_iterations_raises_proof :
  forall (gen : Type) (randint : gen -> nat -> nat * gen) (seed_gen : Z -> gen)
         (A S : Type) (values : list A) (stat_func : array A -> res (list S)) (g : gen)
         (cpu_count : Z) (seeds : list Z) (block_length : Z),
  bootstrap_distribution_cbb gen randint seed_gen A S values stat_func g 0 None 1 cpu_count seeds block_length
  = Err ValueError.
Proof.
  reflexivity.
Qed.

Lemma C23_case_proof :
  let randint := (fun g n => (g mod n, (7 * g + 3) mod 11))%nat in
  let f := fun l : list nat => fold_right plus 0%nat l in
  let stat := fun a => match a with Samples l => Ok (map f l) | Data r => Ok [f r] end in
  bootstrap_distribution_cbb nat randint (fun _ => 0%nat) nat nat [10; 20; 40; 80]%nat stat 1%nat 5 (Some 2%Z)
    1 4 [] 3
  = Ok [150; 150; 170; 130; 110]%nat.
Proof.
  reflexivity.
Qed.

Lemma C22_percentile_limits_proof : forall dist stat_val alpha x y,
  In (Some x) dist -> In (Some y) dist -> ~ x == y -> 0 <= alpha <= 1 ->
  exists low high,
    get_confidence_interval_and_value dist (Some stat_val) alpha Perc =
      Ok (Results (Some low) (Some stat_val) (Some high)) /\
    Quantile (known dist) (alpha / 2) low /\ Quantile (known dist) (1 - alpha / 2) high.
Proof.
  intros dist sv alpha x y X Y N R. destruct (different_values dist x y X Y N) as (S & K).
  assert (E2 : alpha / 2 == (1 # 2) * alpha) by field.
  destruct (percentile_quantile (known dist) (100 * (alpha / 2)) K) as (a & Ea & Qa); [rewrite E2; lra|].
  destruct (percentile_quantile (known dist) (100 * (1 - alpha / 2)) K) as (b & Eb & Qb); [rewrite E2; lra|].
  assert (Qa' : Quantile (known dist) (alpha / 2) a) by (eapply quantile_ext; [|exact Qa]; field).
  assert (Qb' : Quantile (known dist) (1 - alpha / 2) b) by (eapply quantile_ext; [|exact Qb]; field).
  assert (AB : a <= b) by (eapply quantile_monotone; [exact Qa'|exact Qb'|rewrite E2; lra]).
  exists a, b. split; [|auto]. unfold get_confidence_interval_and_value. rewrite S, known_not_none, Ea, Eb. cbn [bind].
  unfold BootstrapResults, Qlt_bool. replace (Qle_bool a b) with true by (symmetry; now apply Qle_bool_iff). reflexivity.
Qed.

Lemma C22_pivotal_limits_proof : forall l stat_val alpha,
  l <> [] -> 0 <= alpha <= 1 ->
  exists low high p q,
    get_confidence_interval_and_value (map Some l) (Some stat_val) alpha Pivotal =
      Ok (Results (Some low) (Some stat_val) (Some high)) /\
    Quantile l (alpha / 2) p /\ Quantile l (1 - alpha / 2) q /\
    low == 2 * stat_val - q /\ high == 2 * stat_val - p.
Proof.
  intros l sv alpha N R.
  assert (K : not_none (map Some l) = l) by (clear; induction l as [|x l IH]; simpl; congruence).
  assert (X : existsb (fun x : pyval => match x with None => true | _ => false end) (map Some l) = false)
    by (clear; induction l as [|x l IH]; simpl; [reflexivity|exact IH]).
  assert (E2 : alpha / 2 == (1 # 2) * alpha) by field.
  destruct (percentile_quantile l (100 * (alpha / 2)) N) as (a & Ea & Qa); [rewrite E2; lra|].
  destruct (percentile_quantile l (100 * (1 - alpha / 2)) N) as (b & Eb & Qb); [rewrite E2; lra|].
  assert (Qa' : Quantile l (alpha / 2) a) by (eapply quantile_ext; [|exact Qa]; field).
  assert (Qb' : Quantile l (1 - alpha / 2) b) by (eapply quantile_ext; [|exact Qb]; field).
  assert (AB : a <= b) by (eapply quantile_monotone; [exact Qa'|exact Qb'|rewrite E2; lra]).
  exists (2 * sv - b), (2 * sv - a), a, b. split; [|repeat split; try assumption; reflexivity].
  unfold get_confidence_interval_and_value, percentile_any. rewrite X, K, Ea, Eb.
  replace (Qle_bool 0 (100 * (1 - alpha / 2))) with true by (symmetry; apply Qle_bool_iff; rewrite E2; lra).
  replace (Qle_bool (100 * (1 - alpha / 2)) 100) with true by (symmetry; apply Qle_bool_iff; rewrite E2; lra).
  replace (Qle_bool 0 (100 * (alpha / 2))) with true by (symmetry; apply Qle_bool_iff; rewrite E2; lra).
  replace (Qle_bool (100 * (alpha / 2)) 100) with true by (symmetry; apply Qle_bool_iff; rewrite E2; lra).
  cbn [andb negb bind]. unfold BootstrapResults, Qlt_bool.
  replace (Qle_bool (2 * sv - b) (2 * sv - a)) with true by (symmetry; apply Qle_bool_iff; lra). reflexivity.
Qed.

Lemma C22_pivotal_missing_raises_proof : forall dist stat_val alpha,
  In None dist -> 0 <= alpha <= 1 ->
  get_confidence_interval_and_value dist (Some stat_val) alpha Pivotal = Err TypeError.
Proof.
  intros dist sv alpha N R. assert (E2 : alpha / 2 == (1 # 2) * alpha) by field.
  unfold get_confidence_interval_and_value, percentile_any.
  replace (Qle_bool 0 (100 * (1 - alpha / 2))) with true by (symmetry; apply Qle_bool_iff; rewrite E2; lra).
  replace (Qle_bool (100 * (1 - alpha / 2)) 100) with true by (symmetry; apply Qle_bool_iff; rewrite E2; lra).
  cbn [andb negb].
  replace (existsb (fun x : pyval => match x with None => true | _ => false end) dist) with true; [reflexivity|].
  symmetry. apply existsb_exists. exists None. auto.
Qed.

Lemma C22_quantile_monotone_proof : forall l f f' p p',
  Quantile l f p -> Quantile l f' p' -> f <= f' -> p <= p'.
Proof.
  exact quantile_monotone.
Qed.

Lemma C22_quantile_bounded_proof : forall l f p,
  Quantile l f p -> exists a b, In a l /\ In b l /\ a <= p <= b.
Proof.
  exact quantile_bounded.
Qed.

Lemma C22_limits_ordered_proof : forall dist stat_val alpha method low v high,
  get_confidence_interval_and_value dist stat_val alpha method = Ok (Results (Some low) v (Some high)) ->
  low <= high /\ v = stat_val.
Proof.
  intros dist sv alpha method low v high. unfold get_confidence_interval_and_value.
  destruct sv as [s|]; [|discriminate]. destruct method.
  - destruct (percentile_any dist (100 * (1 - alpha / 2))) as [p|]; [|discriminate].
    destruct (percentile_any dist (100 * (alpha / 2))) as [q|]; [|discriminate]. cbn [bind]. intro H. apply Ok_inj in H.
    apply boot_results in H. tauto.
  - destruct (all_the_same dist); [discriminate|].
    destruct (percentile (not_none dist) (100 * (alpha / 2))) as [p|]; [|discriminate].
    destruct (percentile (not_none dist) (100 * (1 - alpha / 2))) as [q|]; [|discriminate]. cbn [bind]. intro H. apply Ok_inj in H.
    apply boot_results in H. tauto.
  - discriminate.
Qed.

Lemma C22_limits_in_range_proof : forall dist stat_val alpha low v high,
  get_confidence_interval_and_value dist stat_val alpha Perc = Ok (Results (Some low) v (Some high)) ->
  exists a b, In (Some a) dist /\ In (Some b) dist /\ a <= low /\ high <= b.
Proof.
  intros dist sv alpha low v high H. apply perc_inv in H. destruct H as (_ & _ & LH & a & b & QA & QB & C).
  apply quantile_bounded in QA, QB. destruct QA as (a1 & a2 & A1 & A2 & A3), QB as (b1 & b2 & B1 & B2 & B3).
  apply in_known in A1, A2, B1, B2.
  destruct C as [(<- & <-)|(<- & <- & C)].
  - exists a1, b2. repeat split; try assumption; lra.
  - exists b1, a2. repeat split; try assumption; lra.
Qed.

Lemma C22_nested_proof : forall dist stat_val alpha alpha' low v high low' v' high',
  0 <= alpha -> alpha <= alpha' -> alpha' <= 1 ->
  get_confidence_interval_and_value dist stat_val alpha Perc = Ok (Results (Some low) v (Some high)) ->
  get_confidence_interval_and_value dist stat_val alpha' Perc = Ok (Results (Some low') v' (Some high')) ->
  low <= low' /\ high' <= high.
Proof.
  intros dist sv alpha alpha' low v high low' v' high' A1 A2 A3 H H'.
  apply perc_nested_aux in H; [|lra]. apply perc_nested_aux in H'; [|lra].
  assert (E2 : alpha / 2 == (1 # 2) * alpha) by field. assert (E2' : alpha' / 2 == (1 # 2) * alpha') by field.
  split; eapply quantile_monotone; try apply H; try apply H'; rewrite E2, E2'; lra.
Qed.

Lemma C22_order_irrelevant_proof : forall dist dist' stat_val alpha r,
  Permutation (known dist) (known dist') -> known dist <> [] ->
  get_confidence_interval_and_value dist (Some stat_val) alpha Perc = Ok r ->
  exists r', get_confidence_interval_and_value dist' (Some stat_val) alpha Perc = Ok r' /\
    value r' = value r /\
    match lower_bound r, lower_bound r' with Some a, Some b => a == b | None, None => True | _, _ => False end /\
    match upper_bound r, upper_bound r' with Some a, Some b => a == b | None, None => True | _, _ => False end.
Proof.
  intros dist dist' sv alpha r P K. assert (K' : known dist' <> []).
  { intro E. rewrite E in P. apply Permutation_sym, Permutation_nil in P. contradiction. }
  assert (Same : all_the_same dist = all_the_same dist').
  { assert (forall d, known d <> [] -> all_the_same d = one_value (known d)) as X.
    { intros d N. unfold all_the_same. destruct d; [contradiction|]. now rewrite known_not_none. }
    rewrite !X by assumption. apply eq_true_iff_eq. rewrite !one_value_spec.
    split; intros (_ & H); (split; [assumption|]); intros x y Hx Hy; apply H;
      (eapply Permutation_in; [|eassumption]); [now apply Permutation_sym| now apply Permutation_sym|assumption|assumption]. }
  unfold get_confidence_interval_and_value. rewrite <- Same. destruct (all_the_same dist).
  - intro H. injection H as <-. eexists; split; [reflexivity|]. repeat split; exact I.
  - rewrite (known_not_none dist).
    destruct (percentile (known dist) (100 * (alpha / 2))) as [a|] eqn:A; [|discriminate].
    destruct (percentile (known dist) (100 * (1 - alpha / 2))) as [b|] eqn:B; [|discriminate]. cbn [bind].
    intro H. apply Ok_inj in H. subst r. rewrite (known_not_none dist'). apply percentile_inv in A, B. destruct A as (RA & _ & QA), B as (RB & _ & QB).
    destruct (percentile_quantile (known dist') _ K' RA) as (a' & A' & QA').
    destruct (percentile_quantile (known dist') _ K' RB) as (b' & B' & QB').
    rewrite A', B'. cbn [bind]. eexists; split; [reflexivity|].
    assert (EA : a == a') by (eapply quantile_unique; [eapply quantile_perm; eassumption|exact QA']).
    assert (EB : b == b') by (eapply quantile_unique; [eapply quantile_perm; eassumption|exact QB']).
    unfold BootstrapResults, Qlt_bool.
    assert (Qle_bool a' b' = Qle_bool a b) as -> by (apply eq_true_iff_eq; rewrite !Qle_bool_iff; now rewrite EA, EB).
    destruct (Qle_bool a b); cbn; auto.
Qed.

Lemma C22_constant_no_limits_proof : forall dist stat_val alpha x,
  In (Some x) dist -> (forall y, In (Some y) dist -> y == x) ->
  get_confidence_interval_and_value dist (Some stat_val) alpha Perc = Ok (Results None (Some stat_val) None).
Proof.
  intros dist sv alpha x X H. unfold get_confidence_interval_and_value.
  replace (all_the_same dist) with true; [reflexivity|]. symmetry. unfold all_the_same.
  destruct dist as [|d0 dist0]; [reflexivity|]. set (dist := d0 :: dist0) in *.
  rewrite known_not_none. apply one_value_spec. split.
  - apply in_known in X. intro E. rewrite E in X. destruct X.
  - intros y z Hy Hz. apply in_known in Hy, Hz. rewrite (H y Hy), (H z Hz). reflexivity.
Qed.

Lemma C22_undefined_statistic_proof : forall dist alpha method,
  get_confidence_interval_and_value dist None alpha method = Ok (Results None None None).
Proof.
  reflexivity.
Qed.

Lemma C22_all_missing_raises_proof : forall dist stat_val alpha,
  dist <> [] -> (forall x, In x dist -> x = None) ->
  exists e, get_confidence_interval_and_value dist (Some stat_val) alpha Perc = Err e.
Proof.
  intros dist sv alpha N H. assert (K : known dist = []).
  { destruct (known dist) as [|x t] eqn:E; [reflexivity|]. assert (I : In x (known dist)) by (rewrite E; simpl; auto).
    apply in_known, H in I. discriminate I. }
  unfold get_confidence_interval_and_value, all_the_same. destruct dist as [|d0 dist0]; [contradiction|].
  set (dist := d0 :: dist0) in *. rewrite known_not_none, K. cbn [one_value].
  destruct (percentile [] (100 * (alpha / 2))) as [a|e] eqn:E.
  - exfalso. apply percentile_inv in E. destruct E as (_ & E & _). contradiction.
  - exists e. reflexivity.
Qed.

Lemma C22_bad_alpha_proof : forall dist stat_val alpha x y,
  In (Some x) dist -> In (Some y) dist -> ~ x == y -> alpha < 0 \/ 2 < alpha ->
  get_confidence_interval_and_value dist (Some stat_val) alpha Perc = Err ValueError.
Proof.
  intros dist sv alpha x y X Y N R. destruct (different_values dist x y X Y N) as (S & K).
  assert (E2 : alpha / 2 == (1 # 2) * alpha) by field.
  unfold get_confidence_interval_and_value. rewrite S. unfold percentile at 1.
  replace (Qle_bool 0 (100 * (alpha / 2)) && Qle_bool (100 * (alpha / 2)) 100) with false; [reflexivity|].
  symmetry. apply not_true_iff_false. intro H. apply andb_true_iff in H. rewrite !Qle_bool_iff in H. rewrite E2 in H. lra.
Qed.

Lemma C22_significance_proof : forall low v high,
  low <= v <= high -> ~ v == 0 ->
  exists s, get_result (Results (Some low) (Some v) (Some high)) = Ok s /\
    (s = 1%Z <-> 0 < low) /\ (s = (-1)%Z <-> high < 0) /\ (s = 0%Z <-> low <= 0 <= high).
Proof.
  intros low v high (L & H) NZ.
  assert (SG : forall q : Q, (Z.sgn (Qnum q) = 1%Z <-> 0 < q) /\ (Z.sgn (Qnum q) = (-1)%Z <-> q < 0) /\ (Z.sgn (Qnum q) = 0%Z <-> q == 0)).
  { intros [a d]. unfold Qlt, Qeq. simpl. destruct (Z.sgn_spec a) as [(A & ->)|[(A & ->)|(A & ->)]]; repeat split; intro; try lia; try discriminate; try reflexivity. }
  unfold get_result, is_significant, np_sign. cbn [upper_bound lower_bound value bind].
  eexists; split; [reflexivity|].
  destruct (SG low) as (L1 & L2 & L3), (SG v) as (V1 & V2 & V3), (SG high) as (H1 & H2 & H3).
  destruct (Z.eqb_spec (Z.sgn (Qnum high)) (Z.sgn (Qnum low))) as [E|E].
  - rewrite Z.mul_1_l.
    destruct (Q_dec low 0) as [[A|A]|A].
    + assert (high < 0) by (apply H2; rewrite E; now apply L2). assert (Z.sgn (Qnum v) = -1)%Z as -> by (apply V2; lra).
      split; [|split]; (split; intro); first [discriminate|reflexivity|lra|exfalso; lra].
    + assert (Z.sgn (Qnum v) = 1)%Z as -> by (apply V1; lra).
      split; [|split]; (split; intro); first [discriminate|reflexivity|lra|exfalso; lra].
    + assert (high == 0) by (apply H3; rewrite E; now apply L3). exfalso. apply NZ. lra.
  - rewrite Z.mul_0_l. assert (X : low <= 0 <= high).
    { destruct (Qlt_le_dec 0 low) as [A|A].
      - exfalso. apply E. assert (Z.sgn (Qnum low) = 1)%Z as -> by now apply L1. apply H1. lra.
      - split; [exact A|]. destruct (Qlt_le_dec high 0) as [B|B]; [|exact B].
        exfalso. apply E. assert (Z.sgn (Qnum high) = -1)%Z as -> by now apply H2. symmetry. apply L2. lra. }
    split; [|split]; (split; intro); first [discriminate|reflexivity|exact X|exfalso; lra].
Qed.

Lemma C22_significance_refuted_proof :
  ~ (forall r s, get_result r = Ok s -> (s = -1)%Z ->
       forall low high, lower_bound r = Some low -> upper_bound r = Some high -> high < 0).
Proof.
  intro H. specialize (H (Results (Some 1) (Some (-1)) (Some 2)) (-1)%Z eq_refl eq_refl 1 2 eq_refl eq_refl). discriminate H.
Qed.

Lemma C22_eclv_no_limits_proof : forall dist cl v alpha r,
  (forall x, In x v -> x <> None) ->
  get_confidence_interval_and_value_eclv dist (Some (cl, v)) alpha Perc = Ok r ->
  eclv_lower r = Some (map (fun _ => None) cl) /\ eclv_upper r = Some (map (fun _ => None) cl).
Proof.
  intros dist cl v alpha r NV. unfold get_confidence_interval_and_value_eclv.
  destruct (same_lengths (map snd (not_none dist))); [|discriminate]. cbn [negb].
  replace (existsb (fun x : pyval => match x with None => true | _ => false end) v) with false.
  2:{ symmetry. apply not_true_iff_false. intro H. apply existsb_exists in H. destruct H as ([q|] & I & E); [discriminate E|].
      now apply (NV None I). }
  destruct (map_res _ (seq 0 (length cl))) as [lim|] eqn:E; [|discriminate]. cbn [bind].
  assert (LL : lim = map (fun _ => (None, None)) cl).
  { apply map_res_inv in E. remember (seq 0 (length cl)) as sq eqn:SQ.
    assert (LS : length sq = length cl) by (subst; apply seq_length). clear SQ. revert cl LS.
    induction E as [|i y sq lim Hy _ IH]; intros [|c cl] LS; try discriminate LS; [reflexivity|].
    simpl. rewrite (IH cl) by (simpl in LS; congruence). f_equal.
    destruct (column_of (map snd (not_none dist)) i) as [col|]; [|discriminate Hy]. cbn [bind] in Hy.
    unfold eclv_limits in Hy. destruct (all_the_same col); injection Hy as <-; reflexivity. }
  rewrite LL. assert (L1 : map fst (map (fun _ : Q => (None : pyval, None : pyval)) cl) = map (fun _ => None) cl) by (rewrite map_map; reflexivity).
  assert (L2 : map snd (map (fun _ : Q => (None : pyval, None : pyval)) cl) = map (fun _ => None) cl) by (rewrite map_map; reflexivity).
  rewrite L1, L2. assert (G : list_gt (map (fun _ => None) cl) (map (fun _ => None) cl) = Ok false).
  { clear. induction cl as [|c cl IH]; [reflexivity|]. exact IH. }
  rewrite G. cbn [catch bind]. intro H. injection H as <-. auto.
Qed.

Lemma C22_eclv_case_proof :
  get_confidence_interval_and_value_eclv
    [Some ([1 # 4; 1 # 2], [Some 0; Some (1 # 2)]); Some ([1 # 4; 1 # 2], [Some (1 # 5); Some (1 # 3)])]
    (Some ([1 # 4; 1 # 2], [Some (1 # 10); Some (2 # 5)])) (1 # 20) Perc
  = Ok (EclvResults (Some [None; None]) (Some ([1 # 4; 1 # 2], [Some (1 # 10); Some (2 # 5)])) (Some [None; None])).
Proof.
  reflexivity.
Qed.

Lemma C22_case_proof : exists low high,
  get_confidence_interval_and_value [Some 4; None; Some 1; Some 3; Some 2; Some 5] (Some 3) (1 # 5) Perc
    = Ok (Results (Some low) (Some 3) (Some high)) /\ low == 7 # 5 /\ high == 23 # 5.
Proof.
  eexists; eexists. split; [reflexivity|]. split; reflexivity.
Qed.
Lemma drawn_row {gen} randint n (row : list nat) : forall (g : gen) rest g2, Drawn randint n g (row ++ rest) g2 ->
  exists g1, draw_row gen randint g n (length row) = (row, g1) /\ Drawn randint n g1 rest g2.
Proof.
  induction row as [|x row IH]; intros g rest g2 D; [exists g; split; [reflexivity|exact D]|]. inversion D as [|? ? g1 ? ? E D']; subst.
  destruct (IH _ _ _ D') as (g3 & E' & D3). exists g3. split; [|exact D3]. cbn. rewrite E, E'. reflexivity.
Qed.
Lemma drawn_matrix (gen : Type) randint n (ids : list (list nat)) : forall (g : gen) g2, (forall row, In row ids -> length row = n) ->
  Drawn randint n g (concat ids) g2 -> draw_matrix gen randint g n (length ids) = (ids, g2).
Proof.
  induction ids as [|row ids IH]; intros g g2 W D; cbn in *; [inversion D; reflexivity|].
  destruct (drawn_row _ _ _ _ _ _ D) as (g1 & E & D1). rewrite (W row (or_introl eq_refl)) in E. rewrite E.
  rewrite (IH g1 g2 (fun r H => W r (or_intror H)) D1). reflexivity.
Qed.
Lemma C21_independent_draws_proof :
  forall (gen : Type) (randint : gen -> nat -> nat * gen) (A : Type) (values : list A) (g : gen) (k block_length : Z)
         (ids : list (list nat)) (g' : gen),
  (0 <= k)%Z -> (block_length <= 1)%Z ->
  length ids = Z.to_nat k -> (forall row, In row ids -> length row = length values) -> Drawn randint (length values) g (concat ids) g' ->
  (forall row x, In row ids -> In x row -> (x < length values)%nat) ->
  exists samples, generate_distributions_cbb gen randint A values g k block_length = Ok (samples, g') /\
    Forall2 (fun row sample => Forall2 (fun i c => nth_error values i = Some c) row sample) ids samples.
Proof.
  intros gen randint A values g k bl ids g' K B N W D. apply (C21_independent_draws_model gen randint A values g k bl ids g' K B).
  rewrite <- N. exact (drawn_matrix _ _ _ _ _ _ W D).
Qed.
