From Coq Require Import Qabs Lqa Field.
From Verif Require Import PyBase DiffModel DiffSpec.
Open Scope Q_scope.

Lemma plin_inv xs ys l r p : PiecewiseLinear xs ys l r = Ok p ->
  (2 <= length xs)%nat /\ length xs = length ys /\ p = Plin xs ys l r.
Proof.
  unfold PiecewiseLinear. destruct (Nat.ltb_spec (length xs) 2); [discriminate|].
  destruct (existsb _ (np_diff xs)); cbn [Qlt_bool Qle_bool negb Qnum Qden Z.mul Z.leb Z.compare];
    (destruct (Nat.eqb_spec (length xs) (length ys)); [|discriminate]); cbn [negb]; intro E; injection E as <-; auto.
Qed.

Lemma last_in {A} (l : list A) d : In (last l d) (d :: l).
Proof.
  revert d. induction l as [|x t IH]; intro d; [simpl; auto|].
  destruct t as [|y t]; [simpl; auto|]. specialize (IH d). change (last (x :: y :: t) d) with (last (y :: t) d).
  destruct IH as [IH|IH]; [left; exact IH|right; right; exact IH].
Qed.
Lemma last_cons {A} (x : A) t d : last (x :: t) d = last t x.
Proof. revert x d. induction t as [|y t IH]; intros x d; [reflexivity|]. change (last (x :: y :: t) d) with (last (y :: t) d). rewrite IH. symmetry. apply IH. Qed.
Lemma last_ge xs : forall x0, StrictlyAscending (x0 :: xs) -> forall z, In z (x0 :: xs) -> z <= last xs x0.
Proof.
  induction xs as [|x1 xs IH]; intros x0 H z I.
  - destruct I as [<-|[]]. apply Qle_refl.
  - rewrite (last_cons x1 xs x0). destruct H as (H & H'). destruct I as [<-|I].
    + apply Qlt_le_weak. eapply Qlt_le_trans; [apply H; left; reflexivity|]. apply IH; [exact H'|left; reflexivity].
    + now apply IH.
Qed.

Lemma Qle_true a b : a <= b -> Qle_bool a b = true.
Proof. apply Qle_bool_iff. Qed.
Lemma Qle_false a b : b < a -> Qle_bool a b = false.
Proof. intro H. apply not_true_iff_false. intro E. apply Qle_bool_iff in E. lra. Qed.
Lemma Qlt_true a b : a < b -> Qlt_bool a b = true.
Proof. intro H. unfold Qlt_bool. now rewrite Qle_false. Qed.
Lemma Qlt_false a b : b <= a -> Qlt_bool a b = false.
Proof. intro H. unfold Qlt_bool. now rewrite Qle_true. Qed.

Lemma interp_at x y xs ys key : (forall z, In z xs -> x < z) -> key == x -> interp_from x y xs ys key = y.
Proof.
  intros H E. destruct xs as [|x1 xs], ys as [|y1 ys]; try reflexivity. simpl.
  rewrite Qle_false by (specialize (H x1 (or_introl eq_refl)); lra).
  replace (Qeq_bool x key) with true; [reflexivity|]. symmetry. apply Qeq_bool_iff. now symmetry.
Qed.

Lemma interp_line k : forall xs ys a b x0 y0 x1 y1 key,
  StrictlyAscending (a :: xs) ->
  nth_error (a :: xs) k = Some x0 -> nth_error (b :: ys) k = Some y0 ->
  nth_error xs k = Some x1 -> nth_error ys k = Some y1 ->
  x0 <= key <= x1 -> interp_from a b xs ys key == line x0 y0 x1 y1 key.
Proof.
  induction k as [|k IH]; intros xs ys a b x0 y0 x1 y1 key SA X0 Y0 X1 Y1 R.
  - injection X0 as ->. injection Y0 as ->. destruct xs as [|z xs]; [discriminate X1|]. destruct ys as [|w ys]; [discriminate Y1|].
    injection X1 as ->. injection Y1 as ->. destruct SA as (S0 & S1 & S2).
    assert (L : x0 < x1) by (apply S0; left; reflexivity).
    simpl. destruct (Qle_bool x1 key) eqn:E.
    + apply Qle_bool_iff in E. assert (K : key == x1) by lra. rewrite interp_at by assumption.
      unfold line. rewrite K. field. intro; lra.
    + destruct (Qeq_bool x0 key) eqn:F.
      * apply Qeq_bool_iff in F. unfold line. rewrite <- F. field. intro; lra.
      * unfold line. field. intro; lra.
  - destruct xs as [|z xs]; [discriminate X1|]. destruct ys as [|w ys]; [discriminate Y1|].
    cbn [nth_error] in *. simpl.
    assert (Z : z <= key).
    { destruct SA as (_ & S1 & S2). destruct k as [|k]; [injection X0 as ->; apply R|].
      apply Qlt_le_weak. eapply Qlt_le_trans; [apply S1; eapply nth_error_In; exact X0|apply R]. }
    rewrite Qle_true by exact Z. eapply IH; try eassumption. apply SA.
Qed.

Lemma sa_head x t z : StrictlyAscending (x :: t) -> In z (x :: t) -> x <= z.
Proof. intros (H & _) [<-|I]; [apply Qle_refl|]. apply Qlt_le_weak. auto. Qed.

Lemma interp_inside xs ys l r x0 : forall key, StrictlyAscending (x0 :: xs) ->
  forall y0, x0 <= key -> (exists z, In z (x0 :: xs) /\ key <= z) ->
  interp (Plin (x0 :: xs) (y0 :: ys) l r) (Some key) = Fin (interp_from x0 y0 xs ys key).
Proof.
  intros key S y0 H (z & I & K). unfold interp. cbn [x_domain y_range left right].
  pose proof (last_ge xs x0 S z I). rewrite !Qlt_false by lra. reflexivity.
Qed.

Lemma plin_cons xs ys l r p : PiecewiseLinear xs ys l r = Ok p ->
  exists x0 x1 xt y0 y1 yt, xs = x0 :: x1 :: xt /\ ys = y0 :: y1 :: yt /\ length xt = length yt /\ p = Plin xs ys l r.
Proof.
  intro H. apply plin_inv in H. destruct H as (A & B & ->).
  destruct xs as [|x0 [|x1 xt]]; simpl in *; try lia. destruct ys as [|y0 [|y1 yt]]; simpl in *; try lia.
  exists x0, x1, xt, y0, y1, yt. repeat split; lia.
Qed.

Lemma line_proof xs ys l r p x0 y0 x1 y1 x :
  PiecewiseLinear xs ys l r = Ok p -> StrictlyAscending xs ->
  Neighbours xs ys x0 y0 x1 y1 -> x0 <= x <= x1 ->
  exists v, interp p (Some x) = Fin v /\ v == line x0 y0 x1 y1 x.
Proof.
  intros H S (k & X0 & Y0 & X1 & Y1) R. apply plin_cons in H.
  destruct H as (a & a1 & xt & b & b1 & yt & -> & -> & L & ->).
  rewrite interp_inside; [| exact S| |].
  - eexists; split; [reflexivity|]. eapply interp_line with (k := k); eassumption.
  - eapply Qle_trans; [eapply sa_head; [exact S|eapply nth_error_In; exact X0]|apply R].
  - exists x1. split; [eapply nth_error_In; exact X1|apply R].
Qed.

Lemma covered_aux xs : forall ys x0 y0 x1 y1 x, length xs = length ys -> x0 <= x ->
  (exists z, In z (x1 :: xs) /\ x <= z) ->
  exists a b a' b', Neighbours (x0 :: x1 :: xs) (y0 :: y1 :: ys) a b a' b' /\ a <= x <= a'.
Proof.
  induction xs as [|x2 xs IH]; intros [|y2 ys] x0 y0 x1 y1 x L X (z & I & K); try discriminate L.
  - destruct I as [<-|[]]. exists x0, y0, x1, y1. split; [exists 0%nat; auto|split; assumption].
  - destruct (Qlt_le_dec x x1) as [C|C].
    + exists x0, y0, x1, y1. split; [exists 0%nat; auto|split; [assumption|apply Qlt_le_weak; assumption]].
    + assert (exists z0, In z0 (x2 :: xs) /\ x <= z0 \/ (x1 = z /\ x <= x1)) as [z0 Z].
      { destruct I as [<-|I]; [exists 0; right; auto|exists z; left; auto]. }
      destruct Z as [Z|(E & Z)].
      * destruct (IH ys x1 y1 x2 y2 x) as (a & b & a' & b' & (k & N) & R);
          [simpl in L; congruence|exact C|exists z0; exact Z|].
        exists a, b, a', b'. split; [exists (S k); exact N|exact R].
      * exists x0, y0, x1, y1. split; [exists 0%nat; auto|split; assumption].
Qed.

Lemma neighbours_lt xs ys x0 y0 x1 y1 : StrictlyAscending xs -> Neighbours xs ys x0 y0 x1 y1 -> x0 < x1.
Proof.
  intros S (k & A & _ & B & _). revert xs S A B. induction k as [|k IH]; intros [|z xs] S A B; try discriminate A.
  - injection A as ->. apply S. eapply nth_error_In with (n := 0%nat). exact B.
  - eapply (IH xs); [apply S|exact A|exact B].
Qed.

Lemma line_between x0 y0 x1 y1 x : x0 < x1 -> x0 <= x <= x1 ->
  (y0 <= line x0 y0 x1 y1 x <= y1) \/ (y1 <= line x0 y0 x1 y1 x <= y0).
Proof.
  intros L R. unfold line. set (t := (x - x0) / (x1 - x0)).
  assert (T0 : 0 <= t) by (apply Qle_shift_div_l; lra). assert (T1 : t <= 1) by (apply Qle_shift_div_r; lra).
  destruct (Qlt_le_dec y0 y1).
  - left. assert (0 <= (y1 - y0) * t) by (apply Qmult_le_0_compat; lra).
    assert (0 <= (y1 - y0) * (1 - t)) by (apply Qmult_le_0_compat; lra). split; lra.
  - right. assert (0 <= (y0 - y1) * t) by (apply Qmult_le_0_compat; lra).
    assert (0 <= (y0 - y1) * (1 - t)) by (apply Qmult_le_0_compat; lra). split; lra.
Qed.

Lemma line_mono x0 y0 x1 y1 x x' : x0 < x1 -> x <= x' ->
  (y0 <= y1 -> line x0 y0 x1 y1 x <= line x0 y0 x1 y1 x') /\ (y1 <= y0 -> line x0 y0 x1 y1 x' <= line x0 y0 x1 y1 x).
Proof.
  intros L R. unfold line. set (t := (x - x0) / (x1 - x0)). set (t' := (x' - x0) / (x1 - x0)).
  assert (T : t <= t').
  { unfold t, t'. apply Qmult_le_compat_r; [lra|]. apply Qlt_le_weak, Qinv_lt_0_compat. lra. }
  split; intro.
  - assert (0 <= (y1 - y0) * (t' - t)) by (apply Qmult_le_0_compat; lra). lra.
  - assert (0 <= (y0 - y1) * (t' - t)) by (apply Qmult_le_0_compat; lra). lra.
Qed.

(* ---------- arrays ---------- *)
Lemma zip_nth {A B C} (f : A -> B -> C) l l' i a b : nth_error l i = Some a -> nth_error l' i = Some b ->
  nth_error (zip_with f l l') i = Some (f a b).
Proof.
  revert l l'. induction i as [|i IH]; intros [|x l] [|y l'] H H'; try discriminate; simpl in *; [congruence|].
  now apply IH.
Qed.
Lemma zip_length {A B C} (f : A -> B -> C) l l' : length l = length l' -> length (zip_with f l l') = length l.
Proof. revert l'. induction l as [|x l IH]; intros [|y l'] H; try discriminate; simpl in *; [reflexivity|]. f_equal. apply IH. congruence. Qed.
Lemma zip_map {A B A' B' C} (f : A' -> B' -> C) (g : A -> A') (h : B -> B') l l' :
  zip_with f (map g l) (map h l') = zip_with (fun a b => f (g a) (h b)) l l'.
Proof. revert l'. induction l as [|x l IH]; intros [|y l']; simpl; congruence. Qed.
Lemma map_zip {A B C D} (g : C -> D) (f : A -> B -> C) l l' :
  map g (zip_with f l l') = zip_with (fun a b => g (f a b)) l l'.
Proof. revert l'. induction l as [|x l IH]; intros [|y l']; simpl; congruence. Qed.

Lemma largest_exists a l : exists m, Largest m (a :: l) /\ fold_right xmax Nan (map Fin (a :: l)) = Fin m.
Proof.
  revert a. induction l as [|b l IH]; intro a.
  - exists a. split; [|reflexivity]. split; [simpl; auto|]. intros x [<-|[]]. apply Qle_refl.
  - destruct (IH b) as (m & (I & H) & E). change (map Fin (a :: b :: l)) with (Fin a :: map Fin (b :: l)).
    change (fold_right xmax Nan (Fin a :: map Fin (b :: l))) with (xmax (Fin a) (fold_right xmax Nan (map Fin (b :: l)))).
    rewrite E. simpl. destruct (Qle_bool a m) eqn:F.
    + apply Qle_bool_iff in F. exists m. split; [|reflexivity]. split; [right; exact I|].
      intros x [<-|Hx]; [exact F|now apply H].
    + assert (m < a). { apply Qnot_le_lt. intro K. apply Qle_bool_iff in K. congruence. }
      exists a. split; [|reflexivity]. split; [left; reflexivity|].
      intros x [<-|Hx]; [apply Qle_refl|]. specialize (H x Hx). lra.
Qed.

Lemma below_count thr f :
  length (filter (fun c => match c with Some q => negb (Qle_bool thr q) | None => true end) (map Some f)) = below thr f.
Proof.
  induction f as [|x f IH]; [reflexivity|]. simpl. destruct (Qlt_le_dec x thr) as [L|L].
  - rewrite Qle_false by exact L. simpl. now rewrite IH.
  - rewrite Qle_true by exact L. simpl. exact IH.
Qed.
Lemma below_le thr f : (below thr f <= length f)%nat.
Proof. induction f as [|x f IH]; simpl; [lia|]. destruct (Qlt_le_dec x thr); lia. Qed.

Lemma Qeq_false q : ~ q == 0 -> Qeq_bool q 0 = false.
Proof. intro H. apply not_true_iff_false. intro E. apply Qeq_bool_iff in E. contradiction. Qed.
Lemma nat_pos k : (0 < k)%nat -> 0 < inject_Z (Z.of_nat k).
Proof. intro H. change 0 with (inject_Z 0). rewrite <- Zlt_Qlt. lia. Qed.

Lemma prob_fraction thr k f : length f = k -> (0 < k)%nat ->
  under_prob thr k (map Some f) = Fin (fraction_below thr f).
Proof.
  intros L K. unfold under_prob. rewrite below_count. cbn [xdiv]. rewrite Qeq_false.
  - unfold fraction_below. now rewrite L.
  - pose proof (nat_pos k K). intro; lra.
Qed.

Lemma fraction_range thr f : f <> [] -> 0 <= fraction_below thr f <= 1.
Proof.
  intro N. unfold fraction_below. assert (P : 0 < inject_Z (Z.of_nat (length f))).
  { apply nat_pos. destruct f; [contradiction|simpl; lia]. }
  assert (0 <= inject_Z (Z.of_nat (below thr f))) by (change 0 with (inject_Z 0); rewrite <- Zle_Qle; lia).
  assert (inject_Z (Z.of_nat (below thr f)) <= inject_Z (Z.of_nat (length f))).
  { rewrite <- Zle_Qle. pose proof (below_le thr f). lia. }
  split; [apply Qle_shift_div_l; lra|apply Qle_shift_div_r; lra].
Qed.

Lemma shape_refl s : shape_eqb s s = true.
Proof. unfold shape_eqb. now rewrite !Nat.eqb_refl. Qed.
Lemma shape_spec a b : shape_eqb a b = true -> a = b.
Proof.
  unfold shape_eqb. intro H. apply andb_true_iff in H. destruct H as (A & B). apply Nat.eqb_eq in A, B.
  destruct a, b; simpl in *; congruence.
Qed.

Lemma nonzero_cells sig : Forall (fun s => 0 < s) sig ->
  forallb (fun c : option Q => match c with Some q => negb (Qeq_bool q 0) | None => true end) (map Some sig) = true.
Proof.
  intro H. apply forallb_forall. intros c I. apply in_map_iff in I. destruct I as (s & <- & I).
  rewrite Forall_forall in H. specialize (H s I). rewrite Qeq_false; [reflexivity|]. intro; lra.
Qed.

Lemma check_ok shape sig mu tt k fields ref ut u :
  Forall (fun s => 0 < s) sig -> is_scalar tt = true -> is_scalar ut = true -> EPS <= ref -> 0 <= u <= 1 ->
  input_check (Array2 shape (map Some sig)) (MArray (Array2 shape mu)) tt (Array3 shape k fields) ref ut u = Ok Datatypes.tt.
Proof.
  intros S T U R (U0 & U1). unfold input_check. cbn [cells2 shape2 shape3]. rewrite T, U, nonzero_cells by exact S.
  rewrite shape_refl, !Qle_true by (assumption || (unfold EPS; lra)). reflexivity.
Qed.

Definition ratio (s m : Q) : xnum := xdiv (Fin s) (Fin m).
Lemma ratio_fin s m : 0 < m -> ratio s m = Fin (s / m).
Proof. intro H. unfold ratio, xdiv. rewrite Qeq_false; [reflexivity|]. intro; lra. Qed.
Lemma ratios_fin sig mu : Forall (fun m => 0 < m) mu -> zip_with ratio sig mu = map Fin (zip_with Qdiv sig mu).
Proof.
  intro H. revert sig. induction H as [|m mu M _ IH]; intros [|s sig]; try reflexivity. simpl.
  rewrite ratio_fin by exact M. now rewrite IH.
Qed.
Lemma pinf_max l : In PInf l -> fold_right xmax Nan l = PInf.
Proof.
  induction l as [|x l IH]; intros I; [destruct I|]. destruct I as [E|I]; simpl.
  - subst x. destruct (fold_right xmax Nan l); reflexivity.
  - rewrite IH by exact I. destruct x; reflexivity.
Qed.

(** The steps after the input check, for arrays without missing values. *)
Lemma index_eq shape sig mu fields k tt thr p ref ut u :
  Forall (fun s => 0 < s) sig -> length sig = length mu -> sig <> [] ->
  Forall (fun f => length f = k) fields -> (0 < k)%nat ->
  is_scalar tt = true -> is_scalar ut = true -> EPS <= ref -> 0 <= u <= 1 ->
  difficulty_index (Array2 shape (map Some sig)) (MArray (Array2 shape (map Some mu))) tt thr
      (Array3 shape k (map (map Some) fields)) p ref ut u =
  (let rs := zip_with ratio sig mu in
   let big := xmax (Fin ref) (fold_right xmax Nan rs) in
   Ok (zip_with xmul (map (fun m => xmul (Fin (1 # 2)) (interp p (Some m))) mu)
        (zip_with xadd (map (fun x => xdiv x big) rs)
           (map (fun f => Fin (1 - Qabs (1 - u - fraction_below thr f))) fields)))).
Proof.
  intros S L N F K T U R UR. unfold difficulty_index. rewrite check_ok by assumption. cbn [bind].
  cbn [means cells2 cells3 members]. rewrite zip_map.
  change (fun a b : Q => xdiv (of_option (Some a)) (of_option (Some b))) with ratio.
  destruct (zip_with ratio sig mu) as [|r0 rs] eqn:E.
  { exfalso. apply (f_equal (@length xnum)) in E. rewrite zip_length in E by exact L. destruct sig; [contradiction|discriminate E]. }
  set (rs' := r0 :: rs) in *. unfold nanmax at 1. unfold rs' at 1. cbn [bind].
  assert (NM : nanmax [Fin ref; fold_right xmax Nan rs'] = Ok (xmax (Fin ref) (fold_right xmax Nan rs'))).
  { unfold nanmax. cbn [fold_right]. f_equal. f_equal. destruct (fold_right xmax Nan rs'); reflexivity. }
  rewrite NM. cbn [bind]. f_equal. f_equal.
  - unfold values. rewrite !map_map. reflexivity.
  - f_equal. rewrite !map_map. apply map_ext_in. intros f I. rewrite Forall_forall in F.
    rewrite prob_fraction by (auto). reflexivity.
Qed.

Lemma formula_bounds taper spread largest u threshold members :
  0 <= taper -> 0 < spread -> spread <= largest -> 0 <= u <= 1 -> members <> [] ->
  0 <= index_formula taper spread largest u (fraction_below threshold members) <= taper.
Proof.
  intros T S L U N. pose proof (fraction_range threshold members N) as F. unfold index_formula.
  set (w := fraction_below threshold members) in *. set (v := spread / largest).
  assert (V : 0 <= v <= 1) by (split; [apply Qle_shift_div_l; lra|apply Qle_shift_div_r; lra]).
  assert (A : 0 <= Qabs (1 - u - w) <= 1).
  { split; [apply Qabs_nonneg|]. apply Qabs_Qle_condition. lra. }
  set (a := Qabs (1 - u - w)) in *. set (c := (v + (1 - a)) / 2).
  assert (C : c == (1 # 2) * (v + (1 - a))) by (unfold c; field).
  assert (0 <= c <= 1) by (rewrite C; lra).
  split; [apply Qmult_le_0_compat; lra|]. assert (0 <= taper * (1 - c)) by (apply Qmult_le_0_compat; lra). lra.
Qed.

Lemma zip_in {A B C} (f : A -> B -> C) l l' i a b : nth_error l i = Some a -> nth_error l' i = Some b ->
  In (f a b) (zip_with f l l').
Proof. intros. eapply nth_error_In. eapply zip_nth; eassumption. Qed.
Lemma nth_same_length {A B} (l : list A) (l' : list B) i a : length l = length l' -> nth_error l i = Some a ->
  exists b, nth_error l' i = Some b.
Proof.
  intros L H. destruct (nth_error l' i) as [b|] eqn:E; [eauto|]. apply nth_error_None in E.
  assert (i < length l)%nat by (apply nth_error_Some; congruence). lia.
Qed.

Lemma EPS_pos : 0 < EPS.
Proof. reflexivity. Qed.

(** The statements of PropertiesDiff.v. *)
Lemma C29_construction_proof : forall xs ys l r,
  ((2 <= length xs)%nat /\ length xs = length ys ->
     exists p, PiecewiseLinear xs ys l r = Ok p /\
       x_domain p = xs /\ y_range p = ys /\ left p = l /\ right p = r) /\
  ((length xs < 2)%nat \/ length xs <> length ys -> PiecewiseLinear xs ys l r = Err IncompatibleLengths).
Proof.
  intros xs ys l r. split.
  - intros (A & B). exists (Plin xs ys l r). split; [|auto]. unfold PiecewiseLinear.
    replace (length xs <? 2)%nat with false by (symmetry; apply Nat.ltb_ge; lia).
    rewrite <- B, Nat.eqb_refl. destruct (existsb _ (np_diff xs)); reflexivity.
  - intro H. destruct (PiecewiseLinear xs ys l r) as [p|e] eqn:E.
    + apply plin_inv in E. lia.
    + unfold PiecewiseLinear in E. destruct (length xs <? 2)%nat; [now injection E as <-|].
      destruct (existsb _ (np_diff xs)); cbn [Qlt_bool Qle_bool negb Qnum Qden Z.mul Z.leb Z.compare] in E;
        (destruct (length xs =? length ys)%nat; [discriminate E|now injection E as <-]).
Qed.

Lemma C29_line_proof : forall xs ys l r p x0 y0 x1 y1 x,
  PiecewiseLinear xs ys l r = Ok p -> StrictlyAscending xs ->
  Neighbours xs ys x0 y0 x1 y1 -> x0 <= x <= x1 ->
  exists v, interp p (Some x) = Fin v /\ v == line x0 y0 x1 y1 x.
Proof.
  exact line_proof.
Qed.

Lemma C29_nodes_proof : forall xs ys l r p k x y,
  PiecewiseLinear xs ys l r = Ok p -> StrictlyAscending xs ->
  nth_error xs k = Some x -> nth_error ys k = Some y ->
  exists v, interp p (Some x) = Fin v /\ v == y.
Proof.
  intros xs ys l r p k x y H S X Y. pose proof (plin_cons _ _ _ _ _ H) as H'.
  destruct H' as (a & a1 & xt & b & b1 & yt & Ex & Ey & L & ->).
  destruct k as [|k].
  - subst. injection X as ->. injection Y as ->.
    destruct (line_proof _ _ _ _ _ x y a1 b1 x H S) as (v & V & E).
    + exists 0%nat. auto.
    + assert (x < a1) by (apply S; left; reflexivity). split; [apply Qle_refl|lra].
    + exists v. split; [exact V|]. rewrite E. unfold line.
      assert (x < a1) by (apply S; left; reflexivity). field. intro; lra.
  - assert (exists x0 y0, nth_error xs k = Some x0 /\ nth_error ys k = Some y0) as (x0 & y0 & X0 & Y0).
    { assert (k < length xs)%nat by (assert (Datatypes.S k < length xs)%nat by (apply nth_error_Some; congruence); lia).
      destruct (nth_error xs k) as [x0|] eqn:E1; [|apply nth_error_None in E1; lia].
      destruct (nth_error ys k) as [y0|] eqn:E2; [eauto|]. apply nth_error_None in E2. subst; simpl in *; lia. }
    assert (N : Neighbours xs ys x0 y0 x y) by (exists k; auto).
    pose proof (neighbours_lt _ _ _ _ _ _ S N) as LT.
    destruct (line_proof _ _ _ _ _ _ _ _ _ x H S N) as (v & V & E).
    + split; [lra|apply Qle_refl].
    + exists v. split; [exact V|]. rewrite E. unfold line. field. intro; lra.
Qed.

Lemma C29_covered_proof : forall xs ys l r p first x,
  PiecewiseLinear xs ys l r = Ok p -> StrictlyAscending xs ->
  hd_error xs = Some first -> first <= x -> (exists z, In z xs /\ x <= z) ->
  exists x0 y0 x1 y1, Neighbours xs ys x0 y0 x1 y1 /\ x0 <= x <= x1.
Proof.
  intros xs ys l r p first x H S F X E. apply plin_cons in H.
  destruct H as (a & a1 & xt & b & b1 & yt & -> & -> & L & ->). injection F as ->.
  apply covered_aux; [exact L|exact X|]. destruct E as (z & [<-|I] & Z).
  - exists a1. split; [left; reflexivity|]. assert (first < a1) by (apply S; left; reflexivity). lra.
  - exists z. auto.
Qed.

Lemma C29_outside_model : forall xs ys l r p x,
  PiecewiseLinear xs ys l r = Ok p ->
  ((forall z, In z xs -> x < z) -> interp p (Some x) = of_option l) /\
  ((forall z, In z xs -> z < x) -> interp p (Some x) = of_option r) /\
  interp p None = Nan.
Proof.
  intros xs ys l r p x H. apply plin_cons in H.
  destruct H as (a & a1 & xt & b & b1 & yt & -> & -> & L & ->).
  split; [|split].
  - intro Z. unfold interp. cbn [x_domain y_range left right].
    rewrite Qlt_false. 2:{ apply Qlt_le_weak. apply Z. apply last_in. }
    rewrite Qlt_true by (apply Z; left; reflexivity). reflexivity.
  - intro Z. unfold interp. cbn [x_domain y_range left right]. rewrite Qlt_true by (apply Z; apply last_in). reflexivity.
  - reflexivity.
Qed.

Lemma C29_range_proof : forall xs ys l r p x v,
  PiecewiseLinear xs ys l r = Ok p -> StrictlyAscending xs -> interp p (Some x) = Fin v ->
  l = Some v \/ r = Some v \/ exists a b, In a ys /\ In b ys /\ a <= v <= b.
Proof.
  intros xs ys l r p x v H S E. pose proof (plin_cons _ _ _ _ _ H) as H'.
  destruct H' as (a & a1 & xt & b & b1 & yt & Ex & Ey & L & P).
  destruct (Qlt_le_dec x a) as [C|C].
  - left. subst. unfold interp in E. cbn [x_domain y_range left right] in E.
    assert (a <= last (a1 :: xt) a) by (apply last_ge; [exact S|left; reflexivity]).
    rewrite Qlt_false in E by lra. rewrite Qlt_true in E by exact C. destruct l; [now injection E as ->|discriminate E].
  - destruct (Qlt_le_dec (last (a1 :: xt) a) x) as [D|D].
    + right; left. subst. unfold interp in E. cbn [x_domain y_range left right] in E. rewrite Qlt_true in E by exact D.
      destruct r; [now injection E as ->|discriminate E].
    + right; right.
      destruct (covered_aux xt yt a b a1 b1 x L C) as (x0 & y0 & x1 & y1 & N & R).
      { destruct (last_in (a1 :: xt) a) as [I|I].
        - exists a1. split; [left; reflexivity|]. rewrite <- I in D. subst.
          assert (a < a1) by (apply S; left; reflexivity). lra.
        - exists (last (a1 :: xt) a). auto. }
      subst xs ys. destruct (line_proof _ _ _ _ _ _ _ _ _ x H S N R) as (v' & V & EL). rewrite V in E. injection E as <-.
      pose proof (neighbours_lt _ _ _ _ _ _ S N) as LT.
      destruct N as (k & _ & N0 & _ & N1). apply nth_error_In in N0, N1.
      destruct (line_between x0 y0 x1 y1 x LT R) as [B|B]; rewrite <- EL in B; [exists y0, y1|exists y1, y0]; auto.
Qed.

Lemma C29_monotone_proof : forall xs ys l r p x0 y0 x1 y1 x x' v v',
  PiecewiseLinear xs ys l r = Ok p -> StrictlyAscending xs ->
  Neighbours xs ys x0 y0 x1 y1 -> x0 <= x -> x <= x' -> x' <= x1 ->
  interp p (Some x) = Fin v -> interp p (Some x') = Fin v' ->
  (y0 <= y1 -> v <= v') /\ (y1 <= y0 -> v' <= v).
Proof.
  intros xs ys l r p x0 y0 x1 y1 x x' v v' H S N A B C E E'.
  pose proof (neighbours_lt _ _ _ _ _ _ S N) as LT.
  destruct (line_proof _ _ _ _ _ _ _ _ _ x H S N) as (w & W & L); [lra|].
  destruct (line_proof _ _ _ _ _ _ _ _ _ x' H S N) as (w' & W' & L'); [lra|].
  rewrite W in E. injection E as <-. rewrite W' in E'. injection E' as <-.
  rewrite L, L'. now apply line_mono.
Qed.

Lemma C29_ymax_proof : forall xs ys l r p,
  PiecewiseLinear xs ys l r = Ok p -> exists m, get_ymax p = Ok m /\ Largest m ys.
Proof.
  intros xs ys l r p H. apply plin_cons in H. destruct H as (a & a1 & xt & b & b1 & yt & -> & -> & L & ->).
  unfold get_ymax. cbn [y_range]. eexists; split; [reflexivity|]. generalize (b1 :: yt). clear.
  intro t. revert b. induction t as [|z t IH]; intro b.
  - split; [left; reflexivity|]. intros x [<-|[]]. apply Qle_refl.
  - cbn [fold_left]. destruct (Qle_bool b z) eqn:E.
    + destruct (IH z) as (I & M). split; [right; exact I|]. intros x [<-|Hx]; [|now apply M].
      apply Qle_bool_iff in E. eapply Qle_trans; [exact E|]. apply M. left; reflexivity.
    + destruct (IH b) as (I & M). split; [destruct I; [left|right; right]; assumption|].
      intros x [<-|[<-|Hx]]; [apply M; left; reflexivity| |apply M; right; exact Hx].
      assert (z < b). { apply Qnot_le_lt. intro K. apply Qle_bool_iff in K. congruence. }
      eapply Qle_trans; [apply Qlt_le_weak; eassumption|]. apply M; left; reflexivity.
Qed.

Lemma C29_unsorted_rejected_refuted_proof :
  ~ (forall xs ys l r p, PiecewiseLinear xs ys l r = Ok p ->
       forall i a b, nth_error xs i = Some a -> nth_error xs (S i) = Some b -> a <= b).
Proof.
  intro H. specialize (H [1; 0] [0; 0] None None _ eq_refl 0%nat 1 0 eq_refl eq_refl). apply H. reflexivity.
Qed.

Lemma C29_nodes_unsorted_refuted_proof :
  ~ (forall xs ys l r p k x y,
       PiecewiseLinear xs ys l r = Ok p -> nth_error xs k = Some x -> nth_error ys k = Some y ->
       exists v, interp p (Some x) = Fin v /\ v == y).
Proof.
  intro H. destruct (H [0; 2; 1] [5; 6; 7] None None _ 1%nat 2 6 eq_refl eq_refl eq_refl) as (v & E & _). discriminate E.
Qed.

Lemma C29_case_proof : exists p, default_envelope = Ok p /\ StrictlyAscending (x_domain p) /\
  Neighbours (x_domain p) (y_range p) 3 0 9 (3 # 2) /\
  (exists v, interp p (Some 6) = Fin v /\ v == 3 # 4) /\
  (exists v, interp p (Some 15) = Fin v /\ v == 1) /\ interp p (Some 30) = Fin 0.
Proof.
  eexists. split; [reflexivity|]. cbn [x_domain y_range]. split.
  { simpl. repeat match goal with |- _ /\ _ => split | |- True => exact Logic.I end; intros y Hy; intuition (subst; reflexivity). }
  split; [exists 0%nat; auto|].
  split; [eexists; split; [reflexivity|reflexivity]|].
  split; [eexists; split; [reflexivity|reflexivity]|reflexivity].
Qed.

Lemma C30_index_model : forall shape sig mu fields k tt threshold p ref ut u,
  Forall (fun s => 0 < s) sig -> Forall (fun m => 0 < m) mu ->
  length sig = length mu -> length sig = length fields -> sig <> [] ->
  Forall (fun f => length f = k) fields -> (0 < k)%nat ->
  is_scalar tt = true -> is_scalar ut = true -> EPS <= ref -> 0 <= u <= 1 ->
  exists l largest,
    difficulty_index (Array2 shape (map Some sig)) (MArray (Array2 shape (map Some mu))) tt threshold
      (Array3 shape k (map (map Some) fields)) p ref ut u = Ok l /\
    Largest largest (ref :: zip_with Qdiv sig mu) /\ length l = length sig /\
    forall i s m f, nth_error sig i = Some s -> nth_error mu i = Some m -> nth_error fields i = Some f ->
      (forall t, interp p (Some m) = Fin t ->
         exists d, nth_error l i = Some (Fin d) /\
                   d == index_formula t (s / m) largest u (fraction_below threshold f)) /\
      (interp p (Some m) = Nan -> nth_error l i = Some Nan).
Proof.
  intros shape sig mu fields k tt thr p ref ut u S M L LF N F K T U R UR.
  rewrite index_eq by assumption. cbv zeta. rewrite ratios_fin by exact M.
  destruct (largest_exists ref (zip_with Qdiv sig mu)) as (big & LG & E).
  change (xmax (Fin ref) (fold_right xmax Nan (map Fin (zip_with Qdiv sig mu)))) with
    (fold_right xmax Nan (map Fin (ref :: zip_with Qdiv sig mu))). rewrite E.
  eexists; exists big. split; [reflexivity|]. split; [exact LG|].
  assert (BP : 0 < big). { pose proof EPS_pos. assert (ref <= big) by (apply LG; left; reflexivity). lra. }
  split.
  { rewrite zip_length; rewrite map_length; [congruence|]. rewrite zip_length; rewrite !map_length; rewrite zip_length by exact L; congruence. }
  intros i s m f Hs Hm Hf.
  assert (V : nth_error (zip_with xadd (map (fun x => xdiv x (Fin big)) (map Fin (zip_with Qdiv sig mu)))
           (map (fun f => Fin (1 - Qabs (1 - u - fraction_below thr f))) fields)) i =
         Some (Fin (s / m / big + (1 - Qabs (1 - u - fraction_below thr f))))).
  { assert (A1 : nth_error (map (fun x => xdiv x (Fin big)) (map Fin (zip_with Qdiv sig mu))) i = Some (xdiv (Fin (s / m)) (Fin big))).
    { apply map_nth_error with (f := fun x => xdiv x (Fin big)). apply map_nth_error. now apply zip_nth. }
    assert (A2 := map_nth_error (fun f => Fin (1 - Qabs (1 - u - fraction_below thr f))) i fields Hf).
    rewrite (zip_nth xadd _ _ i _ _ A1 A2). cbn [xdiv]. rewrite Qeq_false by (intro; lra). reflexivity. }
  assert (W := map_nth_error (fun m => xmul (Fin (1 # 2)) (interp p (Some m))) i mu Hm).
  split.
  - intros t Ht. rewrite (zip_nth xmul _ _ i _ _ W V). rewrite Ht. cbn [xmul]. eexists; split; [reflexivity|].
    assert (0 < m) by (rewrite Forall_forall in M; apply M; eapply nth_error_In; eassumption).
    unfold index_formula. field. split; intro; lra.
  - intro Ht. rewrite (zip_nth xmul _ _ i _ _ W V). rewrite Ht. reflexivity.
Qed.

Lemma C30_formula_bounds_proof : forall taper spread largest u threshold members,
  0 <= taper -> 0 < spread -> spread <= largest -> 0 <= u <= 1 -> members <> [] ->
  0 <= index_formula taper spread largest u (fraction_below threshold members) <= taper.
Proof.
  exact formula_bounds.
Qed.

Lemma C30_default_range_model : forall shape sig mu fields k tt threshold ref,
  Forall (fun s => 0 < s) sig -> Forall (fun m => 0 < m) mu ->
  length sig = length mu -> length sig = length fields -> sig <> [] ->
  Forall (fun f => length f = k) fields -> (0 < k)%nat -> is_scalar tt = true -> EPS <= ref ->
  exists l,
    forecast_difficulty (Array2 shape (map Some sig)) (MArray (Array2 shape (map Some mu))) tt threshold
      (Array3 shape k (map (map Some) fields)) None ref = Ok l /\
    length l = length sig /\ Forall (fun x => exists d, x = Fin d /\ 0 <= d <= 3 # 2) l.
Proof.
  intros shape sig mu fields k tt thr ref S M L LF N F K T R.
  unfold forecast_difficulty. destruct default_envelope as [p|] eqn:D; [|discriminate D]. cbn [bind].
  destruct (C30_index_model shape sig mu fields k tt thr p ref TFloat (1 # 2)) as (l & big & E & LG & LL & H);
    try assumption; try reflexivity; [lra|].
  exists l. split; [exact E|]. split; [exact LL|].
  apply Forall_forall. intros x I. apply In_nth_error in I. destruct I as (i & I).
  assert (Ii : (i < length sig)%nat) by (rewrite <- LL; apply nth_error_Some; congruence).
  destruct (nth_error sig i) as [s|] eqn:Hs; [|apply nth_error_None in Hs; lia].
  destruct (nth_same_length sig mu i s L Hs) as (m & Hm). destruct (nth_same_length sig fields i s LF Hs) as (f & Hf).
  destruct (H i s m f Hs Hm Hf) as (HA & HB).
  assert (TR : exists t, interp p (Some m) = Fin t /\ 0 <= t <= 3 # 2).
  { assert (SA : StrictlyAscending [3; 9; 12; 21]) by (simpl; repeat match goal with |- _ /\ _ => split | |- True => exact Logic.I end; intros y Hy; intuition (subst; reflexivity)).
    assert (exists t, interp p (Some m) = Fin t) as (t & Ht).
    { injection D as <-. unfold interp. cbn [x_domain y_range left right of_option].
      destruct (Qlt_bool (last [9; 12; 21] 3) m); [eauto|]. destruct (Qlt_bool m 3); eauto. }
    exists t. split; [exact Ht|]. destruct (C29_range_proof _ _ _ _ _ m t D SA Ht) as [E0|[E0|(a & b & Ia & Ib & AB)]].
    - injection E0 as <-. lra.
    - injection E0 as <-. lra.
    - assert (0 <= a) by (simpl in Ia; intuition (subst; lra)). assert (b <= 3 # 2) by (simpl in Ib; intuition (subst; lra)). lra. }
  destruct TR as (t & Ht & TR). destruct (HA t Ht) as (d & Id & Ed). rewrite I in Id. injection Id as ->.
  exists d. split; [reflexivity|]. rewrite Ed.
  apply nth_error_In in Hf as If. rewrite Forall_forall in F. specialize (F f If).
  assert (MP : 0 < m) by (rewrite Forall_forall in M; apply M; eapply nth_error_In; eassumption).
  assert (SP : 0 < s) by (rewrite Forall_forall in S; apply S; eapply nth_error_In; eassumption).
  assert (B := formula_bounds t (s / m) big (1 # 2) thr f). 
  assert (0 < s / m) by (apply Qlt_shift_div_l; lra).
  assert (s / m <= big) by (apply LG; right; eapply zip_in; eassumption).
  assert (f <> []) by (intros ->; simpl in F; lia).
  assert (BB : 0 <= index_formula t (s / m) big (1 # 2) (fraction_below thr f) <= t) by (apply B; try assumption; lra).
  lra.
Qed.

Lemma C30_scalar_mean_proof : forall shape sig m field tt threshold p ref ut u,
  difficulty_index (Array2 shape sig) (MScalar m) tt threshold field p ref ut u =
  difficulty_index (Array2 shape sig) (MArray (Array2 shape (map (fun _ => m) sig))) tt threshold field p ref ut u.
Proof.
  intros. unfold difficulty_index, input_check. cbn [means cells2 shape2]. rewrite shape_refl. reflexivity.
Qed.

Lemma C30_rejected_model : forall sigma mu tt threshold field p ref ut u,
  is_scalar tt = false \/ In (Some 0) (cells2 sigma) \/ ref < EPS \/ shape2 sigma <> shape3 field \/
  (exists m, mu = MArray m /\ shape2 m <> shape2 sigma) \/ is_scalar ut = false \/ u < 0 \/ 1 < u ->
  difficulty_index sigma mu tt threshold field p ref ut u = Err AssertionError.
Proof.
  intros sigma mu tt thr field p ref ut u H. unfold difficulty_index.
  enough (E : input_check sigma mu tt field ref ut u = Err AssertionError) by now rewrite E.
  unfold input_check.
  destruct (is_scalar tt) eqn:E1; [|reflexivity]. cbn [py_assert bind].
  destruct (forallb _ (cells2 sigma)) eqn:E2; [|reflexivity]. rewrite (Qle_true EPS 1) by (unfold EPS; lra). cbn [py_assert bind].
  destruct H as [H|[H|[H|[H|[H|[H|H]]]]]].
  - discriminate H.
  - exfalso. rewrite forallb_forall in E2. specialize (E2 _ H). discriminate E2.
  - destruct mu as [q|m]; [|destruct (shape_eqb (shape2 m) (shape2 sigma)); [|reflexivity]]; cbn [py_assert bind];
      rewrite (Qle_false EPS ref) by exact H; reflexivity.
  - assert (X : shape_eqb (shape2 sigma) (shape3 field) = false).
    { apply not_true_iff_false. intro K. apply H. now apply shape_spec. }
    rewrite X. destruct mu as [q|m]; [|destruct (shape_eqb (shape2 m) (shape2 sigma)); [|reflexivity]]; cbn [py_assert bind];
      (destruct (Qle_bool EPS ref); reflexivity).
  - destruct H as (m & -> & H). replace (shape_eqb (shape2 m) (shape2 sigma)) with false; [reflexivity|].
    symmetry. apply not_true_iff_false. intro K. apply H. now apply shape_spec.
  - rewrite H. destruct mu as [q|m]; [|destruct (shape_eqb (shape2 m) (shape2 sigma)); [|reflexivity]]; cbn [py_assert bind];
      (destruct (Qle_bool EPS ref); [|reflexivity]); cbn [py_assert bind];
      (destruct (shape_eqb (shape2 sigma) (shape3 field)); reflexivity).
  - assert (X : Qle_bool 0 u && Qle_bool u 1 = false).
    { destruct H as [H|H]; [now rewrite (Qle_false 0 u)|rewrite (Qle_false u 1) by exact H; apply andb_false_r]. }
    rewrite X. destruct mu as [q|m]; [|destruct (shape_eqb (shape2 m) (shape2 sigma)); [|reflexivity]]; cbn [py_assert bind];
      (destruct (Qle_bool EPS ref); [|reflexivity]); cbn [py_assert bind];
      (destruct (shape_eqb (shape2 sigma) (shape3 field)); [|reflexivity]); cbn [py_assert bind];
      (destruct (is_scalar ut); reflexivity).
Qed.

Lemma C30_positive_spread_checked_refuted_proof :
  ~ (forall sigma mu tt threshold field ref l,
       forecast_difficulty sigma mu tt threshold field None ref = Ok l ->
       forall s, In (Some s) (cells2 sigma) -> EPS <= s).
Proof.
  intro H. specialize (H (Array2 (1, 1)%nat [Some (-1)]) (MScalar (Some 10)) TFloat 5 (Array3 (1, 1)%nat 1 [[Some 4]]) 1 _ eq_refl (-1) (or_introl eq_refl)).
  apply H. reflexivity.
Qed.

Lemma C30_range_without_check_refuted_proof :
  ~ (forall sigma mu tt threshold field ref l d,
       forecast_difficulty sigma mu tt threshold field None ref = Ok l -> In (Fin d) l -> 0 <= d).
Proof.
  intro H. specialize (H (Array2 (1, 1)%nat [Some (-100)]) (MScalar (Some 10)) TFloat 5 (Array3 (1, 1)%nat 1 [[Some 4]]) 1 _ _ eq_refl (or_introl eq_refl)).
  apply H. reflexivity.
Qed.

Lemma C30_missing_members_below_proof : forall sigma mu tt threshold shape k fields p ref ut u low,
  low < threshold ->
  difficulty_index sigma mu tt threshold (Array3 shape k fields) p ref ut u =
  difficulty_index sigma mu tt threshold
    (Array3 shape k (map (map (fun c => match c with Some q => Some q | None => Some low end)) fields)) p ref ut u.
Proof.
  intros sigma mu tt thr shape k fields p ref ut u low H. unfold difficulty_index.
  assert (E : map (under_prob thr k) (map (map (fun c => match c with Some q => Some q | None => Some low end)) fields) =
              map (under_prob thr k) fields).
  { rewrite map_map. apply map_ext. intro f. unfold under_prob. do 4 f_equal.
    induction f as [|[q|] f IH]; [reflexivity| |]; simpl.
    - destruct (negb (Qle_bool thr q)); simpl; congruence.
    - rewrite Qle_false by exact H. simpl. congruence. }
  cbn [members cells3]. rewrite E. reflexivity.
Qed.

Lemma C30_zero_mean_model : forall shape sig mu fields k tt threshold p ref ut u,
  Forall (fun s => 0 < s) sig -> Forall (fun m => 0 <= m) mu -> (exists z, In z mu /\ z == 0) ->
  length sig = length mu -> length sig = length fields ->
  Forall (fun f => length f = k) fields -> (0 < k)%nat ->
  is_scalar tt = true -> is_scalar ut = true -> EPS <= ref -> 0 <= u <= 1 ->
  exists l,
    difficulty_index (Array2 shape (map Some sig)) (MArray (Array2 shape (map Some mu))) tt threshold
      (Array3 shape k (map (map Some) fields)) p ref ut u = Ok l /\
    forall i m f t, nth_error mu i = Some m -> nth_error fields i = Some f -> interp p (Some m) = Fin t ->
      (m == 0 -> nth_error l i = Some Nan) /\
      (0 < m -> exists d, nth_error l i = Some (Fin d) /\
                  d == t * ((1 - Qabs (1 - u - fraction_below threshold f)) / 2)).
Proof.
  intros shape sig mu fields k tt thr p ref ut u S M (z & Iz & Ez) L LF F K T U R UR.
  assert (N : sig <> []). { intros ->. destruct mu; [destruct Iz|discriminate L]. }
  rewrite index_eq by assumption. cbv zeta. eexists; split; [reflexivity|].
  assert (PM : fold_right xmax Nan (zip_with ratio sig mu) = PInf).
  { apply pinf_max. apply In_nth_error in Iz. destruct Iz as (j & Hj).
    destruct (nth_same_length mu sig j z (eq_sym L) Hj) as (s & Hs).
    replace PInf with (ratio s z); [eapply zip_in; eassumption|].
    assert (0 < s) by (rewrite Forall_forall in S; apply S; eapply nth_error_In; eassumption).
    unfold ratio, xdiv. replace (Qeq_bool z 0) with true by (symmetry; now apply Qeq_bool_iff).
    rewrite Qeq_false by (intro; lra). rewrite Qle_true by lra. reflexivity. }
  rewrite PM. cbn [xmax].
  intros i m f t Hm Hf Ht. destruct (nth_same_length mu sig i m (eq_sym L) Hm) as (s & Hs).
  assert (SP : 0 < s) by (rewrite Forall_forall in S; apply S; eapply nth_error_In; eassumption).
  assert (A1 := map_nth_error (fun x => xdiv x PInf) i _ (zip_nth ratio _ _ i _ _ Hs Hm)).
  assert (A2 := map_nth_error (fun f => Fin (1 - Qabs (1 - u - fraction_below thr f))) i fields Hf).
  assert (W := map_nth_error (fun m => xmul (Fin (1 # 2)) (interp p (Some m))) i mu Hm).
  assert (V := zip_nth xadd _ _ i _ _ A1 A2). rewrite (zip_nth xmul _ _ i _ _ W V). rewrite Ht. split.
  - intro Z. unfold ratio, xdiv. replace (Qeq_bool m 0) with true by (symmetry; now apply Qeq_bool_iff).
    rewrite Qeq_false by (intro; lra). rewrite Qle_true by lra. reflexivity.
  - intro MP. rewrite ratio_fin by exact MP. cbn [xdiv xadd xmul]. eexists; split; [reflexivity|]. field.
Qed.

Lemma C30_case_proof : exists a b,
  forecast_difficulty (Array2 (1, 2)%nat [Some 1; Some 2]) (MArray (Array2 (1, 2)%nat [Some 10; Some 8]))
    TFloat 9 (Array3 (1, 2)%nat 3 [[Some 8; Some 9; Some 12]; [Some 6; Some 8; Some 10]]) None EPS
  = Ok [Fin a; Fin b] /\ a == 37 # 40 /\ b == 55 # 48.
Proof.
  eexists; eexists. split; [reflexivity|]. split; reflexivity.
Qed.
Lemma scalar_true t : ~ In t [TInt64; TOther] -> is_scalar t = true.
Proof. destruct t; cbn; tauto. Qed.
Lemma scalar_false t : In t [TInt64; TOther] -> is_scalar t = false.
Proof. intros [<-|[<-|[]]]; reflexivity. Qed.
Lemma zip_combine {A B C} (f : A -> B -> C) l : forall m, zip_with f l m = map (fun x => f (fst x) (snd x)) (combine l m).
Proof. induction l as [|a l IH]; intros [|b m]; cbn; try reflexivity. rewrite IH. reflexivity. Qed.
Lemma C30_index_proof : forall shape sig mu fields k tt threshold p ref ut u,
  Forall (fun s => 0 < s) sig -> Forall (fun m => 0 < m) mu ->
  length sig = length mu -> length sig = length fields -> sig <> [] ->
  Forall (fun f => length f = k) fields -> (0 < k)%nat ->
  ~ In tt [TInt64; TOther] -> ~ In ut [TInt64; TOther] -> single_precision <= ref -> 0 <= u <= 1 ->
  exists l largest,
    difficulty_index (Array2 shape (map Some sig)) (MArray (Array2 shape (map Some mu))) tt threshold
      (Array3 shape k (map (map Some) fields)) p ref ut u = Ok l /\
    Largest largest (ref :: map (fun x => fst x / snd x) (combine sig mu)) /\ length l = length sig /\
    forall i s m f, nth_error sig i = Some s -> nth_error mu i = Some m -> nth_error fields i = Some f ->
      (forall t, interp p (Some m) = Fin t ->
         exists d, nth_error l i = Some (Fin d) /\
                   d == index_formula t (s / m) largest u (fraction_below threshold f)) /\
      (interp p (Some m) = Nan -> nth_error l i = Some Nan).
Proof.
  intros shape sig mu fields k tt threshold p ref ut u H1 H2 H3 H4 H5 H6 H7 H8 H9. rewrite <- (zip_combine Qdiv sig mu).
  exact (C30_index_model shape sig mu fields k tt threshold p ref ut u H1 H2 H3 H4 H5 H6 H7 (scalar_true _ H8) (scalar_true _ H9)).
Qed.
Lemma C30_default_range_proof : forall shape sig mu fields k tt threshold ref,
  Forall (fun s => 0 < s) sig -> Forall (fun m => 0 < m) mu ->
  length sig = length mu -> length sig = length fields -> sig <> [] ->
  Forall (fun f => length f = k) fields -> (0 < k)%nat -> ~ In tt [TInt64; TOther] -> single_precision <= ref ->
  exists l,
    forecast_difficulty (Array2 shape (map Some sig)) (MArray (Array2 shape (map Some mu))) tt threshold
      (Array3 shape k (map (map Some) fields)) None ref = Ok l /\
    length l = length sig /\ Forall (fun x => exists d, x = Fin d /\ 0 <= d <= 3 # 2) l.
Proof.
  intros shape sig mu fields k tt threshold ref H1 H2 H3 H4 H5 H6 H7 H8.
  exact (C30_default_range_model shape sig mu fields k tt threshold ref H1 H2 H3 H4 H5 H6 H7 (scalar_true _ H8)).
Qed.
Lemma C30_rejected_proof : forall sigma mu tt threshold field p ref ut u,
  In tt [TInt64; TOther] \/ In (Some 0) (cells2 sigma) \/ ref < single_precision \/ shape2 sigma <> shape3 field \/
  (exists m, mu = MArray m /\ shape2 m <> shape2 sigma) \/ In ut [TInt64; TOther] \/ u < 0 \/ 1 < u ->
  difficulty_index sigma mu tt threshold field p ref ut u = Err AssertionError.
Proof.
  intros sigma mu tt threshold field p ref ut u H. apply C30_rejected_model.
  destruct H as [H|[H|[H|[H|[H|[H|H]]]]]]; [left; exact (scalar_false _ H)|tauto|tauto|tauto|tauto| |tauto].
  do 5 right. left. exact (scalar_false _ H).
Qed.
Lemma C30_zero_mean_proof : forall shape sig mu fields k tt threshold p ref ut u,
  Forall (fun s => 0 < s) sig -> Forall (fun m => 0 <= m) mu -> (exists z, In z mu /\ z == 0) ->
  length sig = length mu -> length sig = length fields ->
  Forall (fun f => length f = k) fields -> (0 < k)%nat ->
  ~ In tt [TInt64; TOther] -> ~ In ut [TInt64; TOther] -> single_precision <= ref -> 0 <= u <= 1 ->
  exists l,
    difficulty_index (Array2 shape (map Some sig)) (MArray (Array2 shape (map Some mu))) tt threshold
      (Array3 shape k (map (map Some) fields)) p ref ut u = Ok l /\
    forall i m f t, nth_error mu i = Some m -> nth_error fields i = Some f -> interp p (Some m) = Fin t ->
      (m == 0 -> nth_error l i = Some Nan) /\
      (0 < m -> exists d, nth_error l i = Some (Fin d) /\
                  d == t * ((1 - Qabs (1 - u - fraction_below threshold f)) / 2)).
Proof.
  intros shape sig mu fields k tt threshold p ref ut u. intros. eapply C30_zero_mean_model; eauto using scalar_true.
Qed.
Lemma C29_outside_proof : forall xs ys l r p x,
  PiecewiseLinear xs ys l r = Ok p ->
  ((forall z, In z xs -> x < z) -> interp p (Some x) = match l with Some q => Fin q | None => Nan end) /\
  ((forall z, In z xs -> z < x) -> interp p (Some x) = match r with Some q => Fin q | None => Nan end) /\
  interp p None = Nan.
Proof.
  exact C29_outside_model.
Qed.
