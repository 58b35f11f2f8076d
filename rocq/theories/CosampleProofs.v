(** Proofs of the statement C149. *)
From Coq Require Import List ZArith QArith Lia.
From Verif Require Import PyBase EclvModel BootModel BootProofs CosampleModel CosampleSpec.
Import ListNotations.
Local Open Scope nat_scope.

Lemma bind_ok {A B : Type} (x : res A) (f : A -> res B) b : (y <- x ;; f y) = Ok b -> exists a, x = Ok a /\ f a = Ok b.
Proof. destruct x; simpl; [eauto|discriminate]. Qed.
Lemma shape_eqb_eq a b : shape_eqb a b = true <-> a = b.
Proof. unfold shape_eqb. destruct (list_eq_dec Nat.eq_dec a b); split; congruence. Qed.
Lemma Forall2_nth_r {X Y} (R : X -> Y -> Prop) l l' p y : Forall2 R l l' -> nth_error l' p = Some y -> exists x, nth_error l p = Some x /\ R x y.
Proof.
  intro H. revert p. induction H as [|a b l l' HR _ IH]; intros [|p]; simpl; try discriminate; [|apply IH].
  intro E. injection E as <-. eauto.
Qed.

Section Check.
Variable A : Type.
Lemma rest_dense tail (rows : list A) rest : validate_rest A (Dense tail rows) rest = Ok tt <-> AllDense (List.length rows :: tail) rest.
Proof.
  unfold AllDense. induction rest as [|v rest IH]; simpl; [split; auto|].
  destruct v as [t' r'|? ? ?|]; simpl.
  - destruct (shape_eqb (List.length rows :: tail) (List.length r' :: t')) eqn:E.
    + apply shape_eqb_eq in E. rewrite IH. split.
      * intros F. constructor; [exists t', r'; auto|auto].
      * intros F. inversion F; auto.
    + split; [discriminate|]. intros F. inversion F; subst. destruct H1 as (a & b & Ev & Es). injection Ev as <- <-.
      rewrite Es in E. rewrite (proj2 (shape_eqb_eq _ _) eq_refl) in E. discriminate.
  - split; [discriminate|]. intros F. inversion F; subst. destruct H1 as (a & b & Ev & Es). discriminate.
  - split; [discriminate|]. intros F. inversion F; subst. destruct H1 as (a & b & Ev & Es). discriminate.
Qed.
Lemma rest_error t rest e : validate_rest A t rest = Err e -> e = ValueError.
Proof.
  induction rest as [|v rest IH]; simpl; [discriminate|]. destruct t, v; try congruence; destruct (shape_eqb _ _); auto; try congruence.
  destruct (1 <? nrows0); auto. congruence.
Qed.
Lemma rest_sparse r c s rest : validate_rest A (Sparse r c s) rest = Ok tt -> Forall (fun v => match v with Sparse _ _ _ => True | _ => False end) rest.
Proof.
  induction rest as [|v rest IH]; simpl; [auto|]. destruct v; try discriminate. destruct (shape_eqb _ _); [|discriminate].
  destruct (1 <? nrows); [discriminate|]. intros E. constructor; auto.
Qed.
Lemma validate_dense (arrays : list (given A)) k tail rows : validate_arrays A arrays = Ok tt -> nth_error arrays k = Some (Dense tail rows) ->
  AllDense (List.length rows :: tail) arrays.
Proof.
  destruct arrays as [|[t r|r c s|] rest]; simpl; try discriminate.
  - intros V N. apply rest_dense in V. assert (W : AllDense (List.length r :: t) (Dense t r :: rest)).
    { constructor; [exists t, r; auto|exact V]. }
    assert (E : List.length rows :: tail = List.length r :: t).
    { pose proof (nth_error_In _ _ N) as I. unfold AllDense in W. rewrite Forall_forall in W. destruct (W _ I) as (a & b & Ev & Es). congruence. }
    rewrite E. exact W.
  - intros V N. apply bind_ok in V as ([] & V & _). apply rest_sparse in V. destruct k; [discriminate|]. simpl in N.
    apply nth_error_In in N. rewrite Forall_forall in V. destruct (V _ N).
Qed.
End Check.

Section Run.
Variable gen : Type.
Variable randint : gen -> nat -> nat * gen.
Variable seed_gen : Z -> gen.
Variables A B : Type.
Variable arrays : list (given A).
Variable funcs : list (array A -> res (list B)).
Variable n : nat.
Variable tl0 : list nat.
Hypothesis Hdense : AllDense (n :: tl0) arrays.
Hypothesis Hnonempty : arrays <> [].

Lemma draw_row_len k : forall g l g', draw_row gen randint g n k = (l, g') -> List.length l = k.
Proof.
  induction k as [|k IH]; simpl; intros g l g' E; [injection E as <- _; auto|]. destruct (randint g n) as [x g0]. destruct (draw_row gen randint g0 n k) as [t g1] eqn:D.
  injection E as <- _. simpl. f_equal. eauto.
Qed.
Lemma draw_matrix_len k : forall g l g', draw_matrix gen randint g n k = (l, g') -> Forall (fun r => List.length r = n) l.
Proof.
  induction k as [|k IH]; simpl; intros g l g' E; [injection E as <- _; auto|]. destruct (draw_row gen randint g n n) as [x g0] eqn:D0. destruct (draw_matrix gen randint g0 n k) as [t g1] eqn:D.
  injection E as <- _. constructor; [eapply draw_row_len; eauto|eauto].
Qed.
Lemma cbb_len L ids out : map_res (apply_cbb L) ids = Ok out -> Forall (fun r => List.length r = n) ids -> Forall (fun r => List.length r = n) out.
Proof.
  intros E. apply map_res_inv in E. induction E as [|x y l l' H _ IH]; intros F; [constructor|]. inversion F; subst.
  constructor; [|auto]. destruct x as [|a x]; [discriminate|]. injection H as <-. simpl. f_equal. apply (cbb_length (S (List.length x)) L).
Qed.

Lemma dense_at k v : nth_error arrays k = Some v -> exists tail rows, v = Dense tail rows /\ List.length rows = n.
Proof.
  intros N. apply nth_error_In in N. pose proof Hdense as HD. unfold AllDense in HD. rewrite Forall_forall in HD. destruct (HD _ N) as (t & r & -> & E). injection E as E _. eauto.
Qed.

Lemma generate_spec g k bl sims g' : generate A gen randint arrays g k bl = Ok (sims, g') ->
  exists ids, Forall (Draw n) ids /\
    forall j tail rows, nth_error arrays j = Some (Dense tail rows) -> exists s, nth_error sims j = Some s /\ Forall2 (RecordsAt rows) ids s /\
      generate_distributions_cbb gen randint A rows g k bl = Ok (s, g').
Proof.
  unfold generate. assert (EX : exists first rest, arrays = first :: rest) by (destruct arrays; [congruence|eauto]).
  destruct EX as (first & rest & EA). pose proof dense_at as DA. rewrite EA in DA |- *.
  destruct (DA 0 first) as (t0 & r0 & -> & L0); [reflexivity|]. simpl. rewrite L0.
  destruct (k <? 0)%Z eqn:Ek; [discriminate|]. destruct (draw_matrix gen randint g n (Z.to_nat k)) as [ids g1] eqn:D. intros E.
  apply bind_ok in E as (ids' & Ei & E).
  change (r <- map_res (take A r0) ids' ;; ys <- map_res (fun v => pick A v ids') rest ;; Ok (r :: ys)) with (map_res (fun v => pick A v ids') (Dense t0 r0 :: rest)) in E.
  apply bind_ok in E as (sims' & Es & E). injection E as <- <-. apply map_res_inv in Es.
  assert (LI : Forall (fun r => List.length r = n) ids').
  { pose proof (draw_matrix_len _ _ _ _ D) as F. destruct (1 <? bl)%Z; [eapply cbb_len; eauto|injection Ei as <-; auto]. }
  assert (PK : forall j tail rows, nth_error (Dense t0 r0 :: rest) j = Some (Dense tail rows) ->
    exists s, nth_error sims' j = Some s /\ Forall2 (RecordsAt rows) ids' s /\ map_res (take A rows) ids' = Ok s).
  { intros j tail rows N. destruct (forall2_nth _ _ _ _ _ Es N) as (s & Ns & Ps). simpl in Ps. exists s. split; [auto|]. split; [|auto].
    apply map_res_inv in Ps. clear - Ps. induction Ps as [|x y l l' H _ IH]; [constructor|]. constructor; [|auto]. unfold RecordsAt.
    unfold take in H. apply map_res_inv in H. clear - H. induction H as [|i c l l' H _ IH]; [constructor|]. constructor; [|auto].
    destruct (nth_error rows i); congruence. }
  exists ids'. split.
  - destruct (PK 0 t0 r0 eq_refl) as (s & _ & F & _). clear - F LI L0. induction F as [|x y l l' H _ IH]; [constructor|]. inversion LI; subst. constructor; [|auto].
    split; [auto|]. clear - H. induction H as [|i c l l' H _ IH]; [constructor|]. constructor; [|auto]. apply nth_error_Some. congruence.
  - intros j tail rows N. destruct (PK j tail rows N) as (s & Ns & F & T). exists s. split; [auto|]. split; [auto|].
    assert (LR : List.length rows = n).
    { destruct (DA j (Dense tail rows)) as (a & b & Eab & Lb); [auto|]. injection Eab as <- <-. auto. }
    unfold generate_distributions_cbb. rewrite Ek, LR, D, Ei. simpl. rewrite T. reflexivity.
Qed.

Lemma extend_spec fs : forall results sims out, extend A B results sims fs = Ok out ->
  List.length out = List.length results /\
  forall j r s f, nth_error results j = Some r -> nth_error sims j = Some s -> nth_error fs j = Some f ->
    exists x, f (Samples s) = Ok x /\ nth_error out j = Some (r ++ x).
Proof.
  induction fs as [|f0 fs IH]; intros [|r0 results] [|s0 sims] out E; simpl in E; try (injection E as <-; split; [auto|]; intros [|j] ? ? ? ? ? ?; simpl in *; congruence).
  apply bind_ok in E as (x & Ex & E). apply bind_ok in E as (t & Et & E). injection E as <-. destruct (IH _ _ _ Et) as (L & H). split; [simpl; lia|].
  intros [|j] r s f Nr Ns Nf; simpl in *; [injection Nr as <-; injection Ns as <-; injection Nf as <-; eauto|eauto].
Qed.

Lemma loop_spec N b bl rngs : forall g results out, loop A B gen randint arrays funcs g N b bl rngs results = Ok out ->
  List.length out = List.length results /\
  exists batches, Forall (Forall (Draw n)) batches /\
    forall j tail rows f r, nth_error arrays j = Some (Dense tail rows) -> nth_error funcs j = Some f -> nth_error results j = Some r ->
      exists vals, nth_error out j = Some (r ++ vals) /\ OnBatches rows f batches vals /\
        exists g', sim_loop gen randint A B rows f g N b bl rngs r = Ok (r ++ vals, g').
Proof.
  induction rngs as [|rng rngs IH]; intros g results out E; simpl in E.
  - injection E as <-. split; [auto|]. exists []. split; [constructor|]. intros j tail rows f r Na Nf Nr. exists []. rewrite app_nil_r. split; [auto|].
    split; [exists []; split; [auto|constructor]|]. exists g. simpl. reflexivity.
  - apply bind_ok in E as ((sims & g1) & Eg & E). apply bind_ok in E as (res1 & Ee & E).
    destruct (generate_spec _ _ _ _ _ Eg) as (ids & DI & GI). destruct (extend_spec _ _ _ _ Ee) as (Le & XE).
    destruct (IH _ _ _ E) as (Lo & batches & FB & HB). split; [lia|]. exists (ids :: batches). split; [constructor; auto|].
    intros j tail rows f r Na Nf Nr. destruct (GI _ _ _ Na) as (s & Ns & RS & GG). destruct (XE _ _ _ _ Nr Ns Nf) as (x & Fx & Nx).
    destruct (HB _ _ _ _ _ Na Nf Nx) as (vals & No & (parts & -> & FP) & g' & SL). exists (x ++ concat parts). rewrite app_assoc. split; [auto|].
    split; [exists (x :: parts); split; [reflexivity|constructor; [exists s; auto|auto]]|]. exists g'. simpl. rewrite GG. simpl. rewrite Fx. simpl. exact SL.
Qed.

Lemma simulate_spec g N b bl out : simulate A B gen randint arrays funcs g N b bl = Ok out ->
  List.length out = List.length arrays /\
  exists batches, Forall (Forall (Draw n)) batches /\
    forall j tail rows f, nth_error arrays j = Some (Dense tail rows) -> nth_error funcs j = Some f ->
      exists vals, nth_error out j = Some vals /\ OnBatches rows f batches vals /\
        exists g', bootstrap_sim_cbb gen randint A B rows f g N b bl = Ok (vals, g').
Proof.
  unfold simulate, bootstrap_sim_cbb. intros E. apply bind_ok in E as (rngs & Er & E). apply bind_ok in E as (rs & El & E).
  destruct (same_lengths B rs); [|discriminate]. injection E as <-. destruct (loop_spec _ _ _ _ _ _ _ El) as (L & batches & FB & HB).
  rewrite map_length in L. split; [auto|]. exists batches. split; [auto|]. intros j tail rows f Na Nf.
  destruct (HB j tail rows f [] Na Nf) as (vals & No & OB & g' & SL); [rewrite nth_error_map, Na; reflexivity|]. exists vals. simpl in *. split; [auto|]. split; [auto|].
  exists g'. rewrite Er. simpl. exact SL.
Qed.

Lemma append_nth (a : list (list B)) : forall b j x y, nth_error a j = Some x -> nth_error b j = Some y -> nth_error (append_rows B a b) j = Some (x ++ y).
Proof. induction a as [|p a IH]; intros [|q b] [|j] x y Na Nb; simpl in *; try discriminate; [congruence|eauto]. Qed.
Lemma append_len (a : list (list B)) : forall b, List.length (append_rows B a b) = List.length a.
Proof. induction a as [|p a IH]; intros [|q b]; simpl; auto. Qed.
Lemma fold_append_len l : forall r, List.length (fold_left (append_rows B) l r) = List.length r.
Proof. induction l as [|x l IH]; intros r; simpl; [auto|]. rewrite IH. apply append_len. Qed.
Lemma fold_append_nth j (ys : list (list B)) : forall l r x, nth_error r j = Some x -> Forall2 (fun m y => nth_error m j = Some y) l ys ->
  nth_error (fold_left (append_rows B) l r) j = Some (x ++ concat ys).
Proof.
  induction ys as [|y ys IH]; intros l r x N F; inversion F; subst; simpl; [rewrite app_nil_r; auto|]. rewrite app_assoc. apply IH; [|auto]. apply append_nth; auto.
Qed.

Lemma jobs_spec N b bl seeds rs : map_res (fun seed => simulate A B gen randint arrays funcs (seed_gen seed) N b bl) seeds = Ok rs ->
  exists batches, Forall (Forall (Draw n)) batches /\
    forall j tail rows f, nth_error arrays j = Some (Dense tail rows) -> nth_error funcs j = Some f ->
      exists ys us, Forall2 (fun m y => nth_error m j = Some y) rs ys /\ OnBatches rows f batches (concat ys) /\
        map_res (fun seed => bootstrap_sim_cbb gen randint A B rows f (seed_gen seed) N b bl) seeds = Ok us /\ map fst us = ys.
Proof.
  revert rs. induction seeds as [|s seeds IH]; intros rs E; simpl in E.
  - injection E as <-. exists []. split; [constructor|]. intros. exists [], []. split; [constructor|]. split; [exists []; split; [reflexivity|constructor]|]. split; reflexivity.
  - apply bind_ok in E as (m & Em & E). apply bind_ok in E as (ms & Ems & E). injection E as <-.
    destruct (IH _ Ems) as (bs & FB & HB). destruct (simulate_spec _ _ _ _ _ Em) as (_ & b1 & F1 & H1). exists (b1 ++ bs). split; [apply Forall_app; auto|].
    intros j tail rows f Na Nf. destruct (HB _ _ _ _ Na Nf) as (ys & us & FY & (p2 & E2 & P2) & MU & EU). destruct (H1 _ _ _ _ Na Nf) as (v & Nv & (p1 & E1 & P1) & g' & SV).
    exists (v :: ys), ((v, g') :: us). split; [constructor; auto|]. split.
    + exists (p1 ++ p2). split; [simpl; rewrite concat_app; congruence|]. apply Forall2_app; auto.
    + simpl. rewrite SV. simpl. rewrite MU. simpl. rewrite EU. auto.
Qed.
End Run.

Lemma validated {A B : Type} gen randint seed_gen (arrays : list (given A)) (funcs : list (array A -> res (list B))) g N b th cpu seeds bl out :
  distribution A B gen randint seed_gen arrays funcs g N b th cpu seeds bl = Ok out -> validate_arrays A arrays = Ok tt.
Proof. unfold distribution. intros E. apply bind_ok in E as ([] & V & _). exact V. Qed.

(** Totals of the records at indexes. *)
Definition total_at (rows : list Q) (ids : list nat) : Q := row_total (map (fun i => nth i rows 0%Q) ids).
Lemma records_total rows ids s : RecordsAt rows ids s -> row_total s = total_at rows ids.
Proof.
  unfold total_at. intros H. f_equal. induction H as [|i x l l' H _ IH]; [reflexivity|]. simpl. rewrite IH. f_equal. symmetry. apply nth_error_nth. exact H.
Qed.
Lemma batches_total rows batches row : OnBatches rows sum_rows batches row -> row = map (total_at rows) (concat batches).
Proof.
  intros (parts & -> & F). induction F as [|batch part bs ps (s & FS & E) _ IH]; [reflexivity|]. simpl. rewrite map_app. f_equal; [|auto].
  injection E as <-. clear - FS. induction FS as [|ids s l l' H _ IH]; [reflexivity|]. simpl. rewrite (records_total _ _ _ H), IH. reflexivity.
Qed.
Lemma adds_nth a b c i : Adds a b c -> (nth i c 0 == nth i a 0 + nth i b 0)%Q.
Proof.
  intros [L ->]. revert b L i. induction a as [|x a IH]; intros [|y b] L [|i]; simpl in *; try discriminate; try reflexivity. apply IH. lia.
Qed.
Lemma adds_total a b c ids : Adds a b c -> (total_at c ids == total_at a ids + total_at b ids)%Q.
Proof.
  intros H. unfold total_at. induction ids as [|i ids IH]; simpl; [reflexivity|]. rewrite IH, (adds_nth _ _ _ i H). ring.
Qed.

Lemma extend_more {A B : Type} (fs more : list (array A -> res (list B))) : forall results sims, List.length results <= List.length fs ->
  extend A B results sims (fs ++ more) = extend A B results sims fs.
Proof.
  induction fs as [|f fs IH]; intros [|r results] [|s sims] L; simpl in *; try lia; try reflexivity.
  destruct (f (Samples s)); simpl; [|reflexivity]. rewrite IH by lia. reflexivity.
Qed.
Lemma extend_length {A B : Type} (fs : list (array A -> res (list B))) : forall results sims out, extend A B results sims fs = Ok out -> List.length out = List.length results.
Proof.
  induction fs as [|f fs IH]; intros [|r results] [|s sims] out E; simpl in E; try (injection E as <-; reflexivity).
  apply bind_ok in E as (x & _ & E). apply bind_ok in E as (t & Et & E). injection E as <-. simpl. f_equal. eauto.
Qed.
Lemma extend_beyond {A B : Type} (fs : list (array A -> res (list B))) : forall results sims out j, extend A B results sims fs = Ok out -> List.length fs <= j ->
  nth_error out j = nth_error results j.
Proof.
  induction fs as [|f fs IH]; intros [|r results] [|s sims] out j E L; simpl in E; try (injection E as <-; reflexivity).
  apply bind_ok in E as (x & _ & E). apply bind_ok in E as (t & Et & E). injection E as <-. destruct j; simpl in *; [lia|]. eapply IH; [eauto|lia].
Qed.
Section More.
Variable gen : Type.
Variable randint : gen -> nat -> nat * gen.
Variable seed_gen : Z -> gen.
Variables A B : Type.
Variable arrays : list (given A).
Lemma loop_more (fs more : list (array A -> res (list B))) N b bl rngs : forall g results, List.length results <= List.length fs ->
  loop A B gen randint arrays (fs ++ more) g N b bl rngs results = loop A B gen randint arrays fs g N b bl rngs results.
Proof.
  induction rngs as [|rng rngs IH]; intros g results L; simpl; [reflexivity|]. destruct (generate _ _ _ _ _ _ _) as [[sims g1]|]; simpl; [|reflexivity].
  rewrite extend_more by auto. destruct (extend A B results sims fs) eqn:E; simpl; [|reflexivity]. apply IH. rewrite (extend_length _ _ _ _ E). auto.
Qed.
Lemma loop_beyond (fs : list (array A -> res (list B))) N b bl rngs : forall g results out j, loop A B gen randint arrays fs g N b bl rngs results = Ok out ->
  List.length fs <= j -> nth_error out j = nth_error results j.
Proof.
  induction rngs as [|rng rngs IH]; intros g results out j E L; simpl in E; [injection E as <-; reflexivity|]. apply bind_ok in E as ((sims & g1) & _ & E).
  apply bind_ok in E as (r1 & Ee & E). rewrite (IH _ _ _ _ E L). apply (extend_beyond _ _ _ _ _ Ee L).
Qed.
Lemma same_lengths_all (l : list (list B)) : same_lengths B l = true -> In [] l -> Forall (fun row => row = []) l.
Proof.
  destruct l as [|r rest]; simpl; intros S I; [constructor|]. rewrite forallb_forall in S.
  assert (R0 : r = []).
  { destruct I as [->|I]; [auto|]. specialize (S _ I). simpl in S. destruct r; [auto|discriminate]. }
  subst r. constructor; [auto|]. apply Forall_forall. intros x Hx. specialize (S _ Hx). destruct x; [auto|discriminate].
Qed.
Lemma simulate_beyond (fs : list (array A -> res (list B))) g N b bl out : simulate A B gen randint arrays fs g N b bl = Ok out ->
  List.length fs < List.length arrays -> Forall (fun row => row = []) out.
Proof.
  unfold simulate. intros E L. apply bind_ok in E as (rngs & _ & E). apply bind_ok in E as (rs & El & E). destruct (same_lengths B rs) eqn:S; [|discriminate].
  injection E as <-. apply same_lengths_all; [auto|]. apply nth_error_In with (n := List.length fs). rewrite (loop_beyond _ _ _ _ _ _ _ _ _ El (Nat.le_refl _)).
  rewrite nth_error_map. destruct (nth_error arrays (List.length fs)) eqn:Na; [reflexivity|]. apply nth_error_None in Na. lia.
Qed.
Lemma append_empty (a : list (list B)) : forall b, Forall (fun row => row = []) a -> Forall (fun row => row = []) b -> Forall (fun row => row = []) (append_rows B a b).
Proof.
  induction a as [|x a IH]; intros [|y b] Fa Fb; simpl; auto. inversion Fa; inversion Fb; subst. constructor; auto.
Qed.
End More.

(** The statements of PropertiesCosample.v. *)
Lemma C149_same_draws_proof : forall gen randint seed_gen A B (arrays : list (given A)) (funcs : list (array A -> res (list B)))
    g num_iterations batch num_threads cpu_count seeds block_length results,
  distribution A B gen randint seed_gen arrays funcs g num_iterations batch num_threads cpu_count seeds block_length = Ok results ->
  exists batches, forall k tail rows f row,
    nth_error arrays k = Some (Dense tail rows) -> nth_error funcs k = Some f -> nth_error results k = Some row ->
    Forall (Forall (Draw (List.length rows))) batches /\ OnBatches rows f batches row.
Proof.
  intros gen randint seed_gen A B arrays funcs g N batch th cpu seeds bl results E. pose proof (validated _ _ _ _ _ _ _ _ _ _ _ _ _ E) as V.
  assert (CS : (exists j tail rows, nth_error arrays j = Some (Dense tail rows)) \/ ~ exists j tail rows, nth_error arrays j = Some (@Dense A tail rows)).
  { destruct arrays as [|[t r|r c s|] rest]; try discriminate V.
    - left. exists 0, t, r. reflexivity.
    - right. intros (j & t & r' & Nj). pose proof (validate_dense _ _ _ _ _ V Nj) as D. unfold AllDense in D. inversion D; subst.
      destruct H1 as (? & ? & H1 & _). discriminate. }
  destruct CS as [(j0 & t0 & r0 & N0)|NO].
  2:{ exists []. intros k tail rows f row Na. exfalso. apply NO. eauto. }
  pose proof (validate_dense _ _ _ _ _ V N0) as AD. assert (NE : arrays <> []) by (intros ->; discriminate).
  unfold distribution in E. rewrite V in E. cbn [bind] in E. cbv zeta in E.
  destruct (_ <=? 1)%Z.
  - destruct (simulate_spec _ _ _ _ _ _ _ _ AD NE _ _ _ _ _ E) as (_ & batches & FB & HB). exists batches. intros k tail rows f row Na Nf Nr.
    destruct (HB _ _ _ _ Na Nf) as (vals & Nv & OB & _). rewrite Nr in Nv. injection Nv as <-. split; [|auto].
    destruct (dense_at _ _ _ _ AD _ _ Na) as (a & b & Eab & Lb). injection Eab as <- <-. rewrite Lb. exact FB.
  - apply bind_ok in E as (rs & Er & E). injection E as <-. destruct (jobs_spec _ _ _ _ _ _ _ _ _ AD NE _ _ _ _ _ Er) as (batches & FB & HB).
    exists batches. intros k tail rows f row Na Nf Nr. destruct (HB _ _ _ _ Na Nf) as (ys & us & FY & OB & _).
    destruct (dense_at _ _ _ _ AD _ _ Na) as (a & b & Eab & Lb). injection Eab as <- <-. rewrite Lb. split; [exact FB|].
    destruct rs as [|r rs]; [destruct k; discriminate|]. inversion FY; subst. simpl in Nr. rewrite (fold_append_nth _ _ _ _ _ _ H1 H3) in Nr. injection Nr as <-. exact OB.
Qed.

Lemma C149_same_draws_case_proof : exists results,
  distribution Q Q nat counter (fun _ => 0) [Dense [] [1%Q; 2%Q; 4%Q]; Dense [] [10%Q; 20%Q; 40%Q]] [sum_rows; sum_rows] 1 2 None 1 4 [] 1 = Ok results /\
  results = [[(2 + (4 + (1 + 0)))%Q; (2 + (4 + (1 + 0)))%Q]; [(20 + (40 + (10 + 0)))%Q; (20 + (40 + (10 + 0)))%Q]].
Proof.
  eexists. split; [vm_compute; reflexivity|]. reflexivity.
Qed.

Lemma C149_alone_proof : forall gen randint seed_gen A B (arrays : list (given A)) (funcs : list (array A -> res (list B)))
    g num_iterations batch num_threads cpu_count seeds block_length results k tail rows f,
  distribution A B gen randint seed_gen arrays funcs g num_iterations batch num_threads cpu_count seeds block_length = Ok results ->
  (num_threads <= Z.of_nat (List.length seeds) /\ cpu_count <= Z.of_nat (List.length seeds))%Z ->
  nth_error arrays k = Some (Dense tail rows) -> nth_error funcs k = Some f ->
  exists row, nth_error results k = Some row /\
    bootstrap_distribution_cbb gen randint seed_gen A B rows f g num_iterations batch num_threads cpu_count seeds block_length = Ok row.
Proof.
  intros gen randint seed_gen A B arrays funcs g N batch th cpu seeds bl results k tail rows f E SL Na Nf. pose proof (validated _ _ _ _ _ _ _ _ _ _ _ _ _ E) as V.
  pose proof (validate_dense _ _ _ _ _ V Na) as AD. assert (NE : arrays <> []) by (intros ->; destruct k; discriminate).
  unfold distribution in E. rewrite V in E. cbn [bind] in E. cbv zeta in E. unfold bootstrap_distribution_cbb. cbv zeta.
  assert (TH : ((if (th =? -1)%Z then cpu else th) <= Z.of_nat (List.length seeds))%Z) by (destruct (th =? -1)%Z; lia).
  set (thr := if (th =? -1)%Z then cpu else th) in *. destruct (Z.leb_spec thr 1).
  - destruct (simulate_spec _ _ _ _ _ _ _ _ AD NE _ _ _ _ _ E) as (_ & batches & FB & HB). destruct (HB _ _ _ _ Na Nf) as (vals & Nv & OB & g' & SB).
    exists vals. split; [auto|]. rewrite SB. reflexivity.
  - apply bind_ok in E as (rs & Er & E). injection E as <-. destruct (jobs_spec _ _ _ _ _ _ _ _ _ AD NE _ _ _ _ _ Er) as (batches & FB & HB).
    destruct (HB _ _ _ _ Na Nf) as (ys & us & FY & OB & MU & EU). exists (concat ys). rewrite MU. simpl. rewrite EU. split; [|reflexivity].
    assert (LR : List.length rs <> 0).
    { rewrite (map_res_length _ _ _ Er), firstn_length. lia. }
    destruct rs as [|r rs]; [simpl in LR; congruence|]. inversion FY; subst. simpl. apply fold_append_nth; auto.
Qed.

Lemma C149_totals_add_proof : forall gen randint seed_gen a b c g num_iterations batch num_threads cpu_count seeds block_length ra rb rc,
  distribution Q Q gen randint seed_gen [Dense [] a; Dense [] b; Dense [] c] [sum_rows; sum_rows; sum_rows]
    g num_iterations batch num_threads cpu_count seeds block_length = Ok [ra; rb; rc] ->
  Adds a b c -> Forall2 Qeq rc (map (fun p => (fst p + snd p)%Q) (combine ra rb)).
Proof.
  intros gen randint seed_gen a b c g N batch th cpu seeds bl ra rb rc E AD.
  destruct (C149_same_draws_proof _ _ _ _ _ _ _ _ _ _ _ _ _ _ _ E) as (batches & HB).
  destruct (HB 0 [] a sum_rows ra eq_refl eq_refl eq_refl) as (_ & Ba). destruct (HB 1 [] b sum_rows rb eq_refl eq_refl eq_refl) as (_ & Bb).
  destruct (HB 2 [] c sum_rows rc eq_refl eq_refl eq_refl) as (_ & Bc). apply batches_total in Ba, Bb, Bc. subst. clear HB E.
  induction (concat batches) as [|ids l IH]; [constructor|]. simpl. constructor; [apply adds_total; auto|auto].
Qed.

Lemma C149_totals_add_case_proof : Adds [1%Q; 2%Q] [3%Q; 4%Q] [(1 + 3)%Q; (2 + 4)%Q].
Proof.
  split; reflexivity.
Qed.

Lemma C149_shapes_proof : forall gen randint seed_gen A B (funcs : list (array A -> res (list B))) g num_iterations batch num_threads cpu_count seeds block_length,
  let run l := distribution A B gen randint seed_gen l funcs g num_iterations batch num_threads cpu_count seeds block_length in
  run [] = Err IndexError /\ (forall rest, run (Otherwise :: rest) = Err ValueError) /\
  forall tail rows rest,
    (AllDense (List.length rows :: tail) rest -> validate_arrays A (Dense tail rows :: rest) = Ok tt) /\
    (~ AllDense (List.length rows :: tail) rest -> run (Dense tail rows :: rest) = Err ValueError).
Proof.
  intros gen randint seed_gen A B funcs g N batch th cpu seeds bl run. split; [reflexivity|]. split; [reflexivity|]. intros tail rows rest.
  split; [intros D; simpl; apply rest_dense; exact D|]. intros ND. unfold run, distribution. simpl.
  destruct (validate_rest A (Dense tail rows) rest) as [[]|e] eqn:V; [exfalso; apply ND, rest_dense; auto|]. apply rest_error in V. subst e. reflexivity.
Qed.

Lemma C149_shapes_case_proof : AllDense [2] [Dense [] [1%Q; 2%Q]] /\ ~ AllDense [2] [Dense [] [1%Q]].
Proof.
  split.
  - constructor; [exists [], [1%Q; 2%Q]; auto|constructor].
  - intros D. inversion D; subst. destruct H1 as (t & r & Ev & Es). injection Ev as <- <-. discriminate.
Qed.

Lemma C149_sparse_refuted_proof : forall gen randint seed_gen A B r c s rest (funcs : list (array A -> res (list B)))
    g num_iterations batch num_threads cpu_count seeds block_length,
  (0 < num_iterations)%Z -> match batch with Some b => (0 < b)%Z | None => True end -> seeds <> [] ->
  exists e, (e = ValueError \/ e = IndexError) /\
    distribution A B gen randint seed_gen (Sparse r c s :: rest) funcs g num_iterations batch num_threads cpu_count seeds block_length = Err e.
Proof.
  intros gen randint seed_gen A B r c s rest funcs g N batch th cpu seeds bl NP BP SN.
  unfold distribution. destruct (validate_arrays A (Sparse r c s :: rest)) as [[]|e] eqn:V.
  2:{ exists e. split; [|reflexivity]. left. simpl in V. destruct (validate_rest A (Sparse r c s) rest) as [[]|e'] eqn:R; simpl in V.
      - destruct (needs_sparse_unification _ _); congruence.
      - apply rest_error in R. congruence. }
  exists IndexError. split; [auto|]. cbn [bind]. cbv zeta.
  assert (SI : forall g N b, (0 < N)%Z -> (0 < b)%Z -> simulate A B gen randint (Sparse r c s :: rest) funcs g N b bl = Err IndexError).
  { clear. intros g N b NP BP. unfold simulate, py_range. replace (b =? 0)%Z with false by (symmetry; apply Z.eqb_neq; lia).
    replace (0 <? b)%Z with true by (symmetry; apply Z.ltb_lt; lia). cbn [bind].
    assert (CN : exists k, Z.to_nat ((N + b - 1) / b) = S k).
    { exists (pred (Z.to_nat ((N + b - 1) / b))). assert (1 <= (N + b - 1) / b)%Z by (apply Z.div_le_lower_bound; lia). lia. }
    destruct CN as (k & ->). simpl seq. simpl map. cbn [loop].
    assert (GE : forall k, (0 <= k)%Z -> generate A gen randint (Sparse r c s :: rest) g k bl = Err IndexError).
    { intros k0 K0. unfold generate. simpl. replace (k0 <? 0)%Z with false by (symmetry; apply Z.ltb_ge; lia).
      destruct (draw_matrix gen randint g r (Z.to_nat k0)) as [ids g1]. destruct (1 <? bl)%Z; simpl; [|reflexivity].
      pose proof (map_res_only IndexError (apply_cbb (Z.to_nat bl)) ids (fun x _ => cbb_only _ x)) as O. destruct (map_res (apply_cbb (Z.to_nat bl)) ids) as [v|e]; simpl in *; [reflexivity|congruence]. }
    rewrite GE by lia. reflexivity. }
  assert (BB : (0 < match batch with Some b => b | None => N end)%Z) by (destruct batch; auto).
  destruct (Z.leb_spec (if (th =? -1)%Z then cpu else th) 1); [apply SI; auto|].
  set (thr := if (th =? -1)%Z then cpu else th) in *.
  destruct seeds as [|s0 seeds]; [congruence|]. assert (TN : exists m, Z.to_nat thr = S m) by (exists (pred (Z.to_nat thr)); lia). destruct TN as (m & ->).
  cbn [firstn map_res]. rewrite SI; [reflexivity| |auto].
  assert ((- N) / thr < 0)%Z by (apply Z.div_lt_upper_bound; lia). lia.
Qed.

Lemma C149_sparse_refuted_case_proof : validate_arrays Q [Sparse 1 3 [((0, 1), 2%Q)]; Sparse 1 3 [((0, 1), 4%Q)]] = Ok tt.
Proof.
  reflexivity.
Qed.

Lemma C149_sparse_rows_refuted_proof : forall A r c s,
  NoDup (map fst s) -> Forall (fun e => ~ (snd e == 0)%Q) s ->
  validate_arrays A [Sparse r c s] = Ok tt /\ (1 < r -> validate_arrays A [Sparse r c s; Sparse r c s] = Err ValueError).
Proof.
  intros A r c s ND NZ.
  assert (FE : filter (fun e : (nat * nat) * Q => negb (Qeq_bool (snd e) 0)) s = s).
  { clear ND. induction NZ as [|e s H _ IH]; [reflexivity|]. simpl. destruct (Qeq_bool (snd e) 0) eqn:Q0; [apply Qeq_bool_eq in Q0; contradiction|]. simpl. rewrite IH. reflexivity. }
  split.
  - simpl. unfold needs_sparse_unification. simpl. rewrite FE, app_nil_r, (nodup_fixed_point pair_dec ND), map_length, Nat.eqb_refl. reflexivity.
  - intros R1. simpl. replace (shape_eqb [r; c] [r; c]) with true by (symmetry; apply shape_eqb_eq; reflexivity).
    replace (1 <? r) with true by (symmetry; apply Nat.ltb_lt; auto). reflexivity.
Qed.

Lemma C149_sparse_rows_refuted_case_proof : NoDup (map fst [((0, 1), 2%Q); ((1, 1), 3%Q)]) /\ Forall (fun e : (nat * nat) * Q => ~ (snd e == 0)%Q) [((0, 1), 2%Q); ((1, 1), 3%Q)].
Proof.
  split; [simpl; repeat constructor; simpl; intuition discriminate|repeat constructor; simpl; discriminate].
Qed.

Lemma C149_aligned_refuted_proof :
  (exists v w : given Q, SamePlaces v w /\ validate_arrays Q [v; w] = Err ValueError) /\
  (exists v w : given Q, shape_of Q v = shape_of Q w /\ ~ SamePlaces v w /\ validate_arrays Q [v; w] = Ok tt).
Proof.
  split.
  - exists (Sparse 1 2 [((0, 0), 0%Q)]), (Sparse 1 2 [((0, 0), 0%Q)]). split; [simpl; auto|reflexivity].
  - exists (Sparse 1 2 [((0, 0), 1%Q)]), (Sparse 1 2 [((0, 1), 0%Q)]). split; [reflexivity|]. split; [|reflexivity]. simpl. intros (_ & _ & E). discriminate.
Qed.

Lemma C149_functions_proof : forall gen randint seed_gen A B (arrays : list (given A)) (funcs more : list (array A -> res (list B)))
    g num_iterations batch num_threads cpu_count seeds block_length,
  let run fs := distribution A B gen randint seed_gen arrays fs g num_iterations batch num_threads cpu_count seeds block_length in
  (List.length arrays <= List.length funcs -> run (funcs ++ more) = run funcs) /\
  (forall results, List.length funcs < List.length arrays -> run funcs = Ok results -> Forall (fun row => row = []) results).
Proof.
  intros gen randint seed_gen A B arrays funcs more g N batch th cpu seeds bl run. split.
  - intros L. unfold run, distribution. destruct (validate_arrays A arrays); [|reflexivity]. cbn [bind]. cbv zeta.
    assert (SI : forall g N b, simulate A B gen randint arrays (funcs ++ more) g N b bl = simulate A B gen randint arrays funcs g N b bl).
    { intros. unfold simulate. destruct (py_range N0 b); [|reflexivity]. cbn [bind]. rewrite loop_more by (rewrite map_length; auto). reflexivity. }
    destruct (_ <=? 1)%Z; [apply SI|]. f_equal. induction (firstn _ seeds) as [|s l IH]; [reflexivity|]. simpl. rewrite SI, IH. reflexivity.
  - intros results L E. unfold run, distribution in E. apply bind_ok in E as (u & _ & E). cbv zeta in E. destruct (_ <=? 1)%Z.
    + eapply simulate_beyond; eauto.
    + apply bind_ok in E as (rs & Er & E). injection E as <-. apply map_res_inv in Er.
      assert (FR : Forall (Forall (fun row => row = [])) rs).
      { clear - Er L. induction Er; constructor; [eapply simulate_beyond; eauto|auto]. }
      destruct rs as [|r rs]; [constructor|]. simpl. inversion FR; subst. clear - H1 H2. revert r H1. induction H2 as [|x rs H _ IH]; intros r Hr; simpl; [auto|].
      apply IH. apply append_empty; auto.
Qed.

