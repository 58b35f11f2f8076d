(** Proofs about EofModel.v. *)
From Coq Require Import Reals Lia List.
From Verif Require Import PyBase ActivityModel CorrModel WavesProofs BandProofs MjoProofs PowerProofs EofModel EofSpec.
From Verif Require MjoModel MjoSpec WavesSpec.
From Coq Require Import List Lra.
Import ListNotations.
Open Scope nat_scope.
Open Scope R_scope.

(* ---------- sums ---------- *)
Lemma sum_tot n f : Sum n f = WavesSpec.Total (map f (seq 0 n)). Proof. reflexivity. Qed.
Lemma sum_ext n f g : (forall i, (i < n)%nat -> f i = g i) -> Sum n f = Sum n g.
Proof. intro H. rewrite !sum_tot. apply tot_ext. intros i I. apply in_seq in I. apply H. lia. Qed.
Lemma sum_plus n f g : Sum n (fun i => f i + g i) = Sum n f + Sum n g.
Proof. rewrite !sum_tot. apply tot_plus. Qed.
Lemma sum_scale n c f : Sum n (fun i => c * f i) = c * Sum n f.
Proof. rewrite !sum_tot. apply tot_scale. Qed.
Lemma sum_zero n f : (forall i, (i < n)%nat -> f i = 0) -> Sum n f = 0.
Proof. intro H. rewrite sum_tot. apply tot_zero. intros i I. apply in_seq in I. apply H. lia. Qed.
Lemma sum_swap n p f : Sum n (fun i => Sum p (f i)) = Sum p (fun j => Sum n (fun i => f i j)).
Proof. unfold Sum. exact (tot_swap f (seq 0 n) (seq 0 p)). Qed.
Lemma sum_S n f : Sum (S n) f = Sum n f + f n.
Proof. rewrite !sum_tot. apply tot_snoc. Qed.
Lemma sum_delta n k f : (k < n)%nat -> Sum n (fun i => (if Nat.eqb k i then 1 else 0) * f i) = f k.
Proof.
  intro H. rewrite (sum_ext n _ (fun i => if Nat.eqb i k then f i else 0)).
  - rewrite sum_tot. apply tot_one. exact H.
  - intros i _. rewrite Nat.eqb_sym. destruct (Nat.eqb i k); ring.
Qed.
Lemma sum_minus n f g : Sum n (fun i => f i - g i) = Sum n f - Sum n g.
Proof. rewrite (sum_ext n _ (fun i => f i + (-1) * g i)) by (intros; ring). rewrite sum_plus, sum_scale. ring. Qed.
Lemma sum_nonneg n f : (forall i, (i < n)%nat -> 0 <= f i) -> 0 <= Sum n f.
Proof. induction n as [|n IH]; intro H; [cbn; lra|]. rewrite sum_S. pose proof (IH (fun i L => H i (Nat.lt_lt_succ_r _ _ L))). pose proof (H n (Nat.lt_succ_diag_r n)). lra. Qed.
Lemma sum_le_part n f k : (forall i, (i < n)%nat -> 0 <= f i) -> (k < n)%nat -> f k <= Sum n f.
Proof.
  induction n as [|n IH]; intros H L; [lia|]. rewrite sum_S. assert (forall i, (i < n)%nat -> 0 <= f i) as H' by (intros; apply H; lia). destruct (Nat.eq_dec k n) as [->|N].
  - pose proof (sum_nonneg n f H'). lra.
  - pose proof (IH H' ltac:(lia)). pose proof (H n ltac:(lia)). lra.
Qed.
Lemma sum_zero_parts n f : (forall i, (i < n)%nat -> 0 <= f i) -> Sum n f = 0 -> forall k, (k < n)%nat -> f k = 0.
Proof. intros H Z k L. pose proof (sum_le_part n f k H L). pose proof (H k L). lra. Qed.
Lemma sum_const n c : Sum n (fun _ => c) = INR n * c.
Proof. apply tot_const. Qed.
Lemma sum_app n m f : Sum (n + m) f = Sum n f + Sum m (fun k => f (n + k)%nat).
Proof. induction m as [|m IH]; [rewrite Nat.add_0_r; cbn; lra|]. rewrite Nat.add_succ_r, !sum_S, IH. lra. Qed.
Lemma rsum_map f n : rsum (map f (seq 0 n)) = Sum n f. Proof. reflexivity. Qed.
Lemma nth_map_seq {A : Type} (f : nat -> A) n i d : (i < n)%nat -> nth i (map f (seq 0 n)) d = f i.
Proof. intro H. rewrite (nth_indep _ d (f 0%nat)) by (rewrite map_length, seq_length; exact H). rewrite map_nth, seq_nth by exact H. reflexivity. Qed.
Lemma list_nths {A : Type} (d : A) l : l = map (fun i => nth i l d) (seq 0 (length l)).
Proof. apply nth_ext with (d := d) (d' := d); [rewrite map_length, seq_length; reflexivity|]. intros i H. rewrite nth_map_seq by exact H. reflexivity. Qed.
Lemma rsum_sum l : rsum l = Sum (length l) (fun i => nth i l 0).
Proof. rewrite (list_nths 0 l) at 1. apply rsum_map. Qed.
Lemma mean_Mean f n : mean_r (map f (seq 0 n)) = Mean n f.
Proof. unfold mean_r, Mean. rewrite map_length, seq_length. reflexivity. Qed.
Lemma elem_rows n p x i j : (i < n)%nat -> (j < p)%nat -> elem (rows n p x) i j = x i j.
Proof. intros H L. unfold elem, rows. rewrite nth_map_seq by exact H. apply nth_map_seq. exact L. Qed.
Lemma is_rows n p x : IsRows (rows n p x) n p.
Proof. split; [unfold rows; rewrite map_length, seq_length; reflexivity|]. apply Forall_forall. intros r I. apply in_map_iff in I. destruct I as (t & <- & _). rewrite map_length, seq_length. reflexivity. Qed.
Lemma rows_eta m n p : IsRows m n p -> m = rows n p (elem m).
Proof.
  intros [L F]. unfold rows. rewrite <- L. rewrite (list_nths [] m) at 1. apply map_ext_in. intros t I. apply in_seq in I.
  assert (length (nth t m []) = p) as E. { rewrite Forall_forall in F. apply F. apply nth_In. lia. }
  rewrite (list_nths 0 (nth t m [])) at 1. rewrite E. reflexivity.
Qed.
Lemma rows_ext n p x y : (forall t j, (t < n)%nat -> (j < p)%nat -> x t j = y t j) -> rows n p x = rows n p y.
Proof. intro H. apply map_ext_in. intros t I. apply in_seq in I. apply map_ext_in. intros j J. apply in_seq in J. apply H; lia. Qed.
(* ---------- orthonormal systems ---------- *)
Definition combo (r : nat) (u v : nat -> nat -> R) (c : nat -> R) (t j : nat) : R := Sum r (fun k => u t k * c k * v k j).
Section Ortho.
Variables (n p r : nat) (u v : nat -> nat -> R).
Hypothesis HU : forall k l, (k < r)%nat -> (l < r)%nat -> Sum n (fun t => u t k * u t l) = if Nat.eqb k l then 1 else 0.
Hypothesis HV : forall k l, (k < r)%nat -> (l < r)%nat -> Sum p (fun j => v k j * v l j) = if Nat.eqb k l then 1 else 0.
Lemma left_project c l j : (l < r)%nat -> Sum n (fun t => u t l * combo r u v c t j) = c l * v l j.
Proof.
  intro L. rewrite (sum_ext n _ (fun t => Sum r (fun k => (u t l * u t k) * (c k * v k j)))).
  - rewrite sum_swap. rewrite (sum_ext r _ (fun k => (if Nat.eqb l k then 1 else 0) * (c k * v k j))); [apply sum_delta; exact L|]. intros k K. rewrite <- HU by assumption.
    rewrite (sum_ext n _ (fun t => (c k * v k j) * (u t l * u t k))) by (intros; ring). rewrite sum_scale. ring.
  - intros t _. unfold combo. rewrite <- sum_scale. apply sum_ext. intros; ring.
Qed.
Lemma right_project c l t : (l < r)%nat -> Sum p (fun j => combo r u v c t j * v l j) = u t l * c l.
Proof.
  intro L. rewrite (sum_ext p _ (fun j => Sum r (fun k => (v l j * v k j) * (u t k * c k)))).
  - rewrite sum_swap. rewrite (sum_ext r _ (fun k => (if Nat.eqb l k then 1 else 0) * (u t k * c k))); [rewrite (sum_delta r l (fun k => u t k * c k) L); reflexivity|]. intros k K. rewrite <- HV by assumption.
    rewrite (sum_ext p _ (fun j => (u t k * c k) * (v l j * v k j))) by (intros; ring). rewrite sum_scale. ring.
  - intros j _. unfold combo. rewrite Rmult_comm, <- sum_scale. apply sum_ext. intros; ring.
Qed.
Lemma energy_combo c : Energy n p (combo r u v c) = Sum r (fun k => c k * c k).
Proof.
  unfold Energy. rewrite (sum_ext n _ (fun t => Sum r (fun k => u t k * c k * (u t k * c k)))).
  - rewrite sum_swap. apply sum_ext. intros k K. rewrite (sum_ext n _ (fun t => (c k * c k) * (u t k * u t k))) by (intros; ring). rewrite sum_scale, HU, Nat.eqb_refl by assumption. ring.
  - intros t _. rewrite (sum_ext p _ (fun j => Sum r (fun k => (u t k * c k) * (combo r u v c t j * v k j)))).
    + rewrite sum_swap. apply sum_ext. intros k K. rewrite sum_scale, right_project by assumption. ring.
    + intros j _. unfold combo at 2. rewrite <- sum_scale. apply sum_ext. intros; ring.
Qed.
End Ortho.
Lemma energy_ext n p x y : (forall t j, (t < n)%nat -> (j < p)%nat -> x t j = y t j) -> Energy n p x = Energy n p y.
Proof. intro H. apply sum_ext. intros t T. apply sum_ext. intros j J. rewrite H by assumption. reflexivity. Qed.
Lemma energy_zero n p x : Energy n p x = 0 -> forall t j, (t < n)%nat -> (j < p)%nat -> x t j = 0.
Proof.
  intros H t j T J. unfold Energy in H. assert (forall i, (i < n)%nat -> 0 <= Sum p (fun j => x i j * x i j)) as P by (intros; apply sum_nonneg; intros; apply Rle_0_sqr).
  pose proof (sum_zero_parts n _ P H t T) as E. cbv beta in E. assert (x t j * x t j = 0) as Z by (apply (sum_zero_parts p (fun j => x t j * x t j)); [intros; apply Rle_0_sqr|exact E|exact J]).
  apply Rmult_integral in Z. destruct Z; assumption.
Qed.
Lemma combo_cut q r u v c t j : (q <= r)%nat -> combo r u v c t j - combo q u v c t j = combo r u v (fun k => if Nat.ltb k q then 0 else c k) t j.
Proof.
  intro H. unfold combo. replace r with (q + (r - q))%nat by lia. rewrite !sum_app. rewrite (sum_zero q (fun k => u t k * (if Nat.ltb k q then 0 else c k) * v k j)).
  - rewrite (sum_ext (r - q) (fun k => u t (q + k)%nat * (if Nat.ltb (q + k) q then 0 else c (q + k)%nat) * v (q + k)%nat j) (fun k => u t (q + k)%nat * c (q + k)%nat * v (q + k)%nat j)); [lra|].
    intros k _. destruct (Nat.ltb_spec (q + k) q); [lia|reflexivity].
  - intros k K. destruct (Nat.ltb_spec k q); [ring|lia].
Qed.
Lemma cut_squares q r c : (q <= r)%nat -> Sum r (fun k => (if Nat.ltb k q then 0 else c k) * (if Nat.ltb k q then 0 else c k)) = Sum r (fun k => c k * c k) - Sum q (fun k => c k * c k).
Proof.
  intro H. replace r with (q + (r - q))%nat by lia. rewrite !sum_app. rewrite (sum_zero q).
  - rewrite (sum_ext (r - q) (fun k => (if Nat.ltb (q + k) q then 0 else c (q + k)%nat) * (if Nat.ltb (q + k) q then 0 else c (q + k)%nat)) (fun k => c (q + k)%nat * c (q + k)%nat)); [lra|].
    intros k _. destruct (Nat.ltb_spec (q + k) q); [lia|reflexivity].
  - intros k K. destruct (Nat.ltb_spec k q); [ring|lia].
Qed.
(** As many orthonormal columns as rows: a vector that is orthogonal to all of them is zero. *)
Lemma complete n (u : nat -> nat -> R) w : (forall k l, (k < n)%nat -> (l < n)%nat -> Sum n (fun t => u t k * u t l) = if Nat.eqb k l then 1 else 0) ->
  (forall k, (k < n)%nat -> Sum n (fun t => u t k * w t) = 0) -> forall t, (t < n)%nat -> w t = 0.
Proof.
  intros HU HW t T. set (d := fun a b => (if Nat.eqb a b then 1 else 0) - Sum n (fun k => u a k * u b k)).
  assert (Energy n n d = 0) as E.
  { unfold Energy. rewrite (sum_ext n _ (fun a => 1 - Sum n (fun k => u a k * u a k))).
    - rewrite sum_minus, sum_const, sum_swap. rewrite (sum_ext n _ (fun _ => 1)); [rewrite sum_const; ring|]. intros k K. rewrite HU, Nat.eqb_refl by assumption. reflexivity.
    - intros a A. unfold d. rewrite (sum_ext n _ (fun b => ((if Nat.eqb a b then 1 else 0) * (1 - 2 * Sum n (fun k => u a k * u b k))) + Sum n (fun k => u a k * u b k) * Sum n (fun k => u a k * u b k))).
      + rewrite sum_plus, (sum_delta n a (fun b => 1 - 2 * Sum n (fun k => u a k * u b k)) A).
        assert (Sum n (fun b => Sum n (fun k => u a k * u b k) * Sum n (fun k => u a k * u b k)) = Sum n (fun k => u a k * u a k)) as ->; [|ring].
        rewrite (sum_ext n _ (fun b => Sum n (fun k => u a k * (u b k * Sum n (fun l => u a l * u b l))))).
        * rewrite sum_swap. apply sum_ext. intros k K. rewrite sum_scale. f_equal. rewrite (sum_ext n _ (fun b => Sum n (fun l => u a l * (u b k * u b l)))).
          -- rewrite sum_swap. rewrite (sum_ext n _ (fun l => (if Nat.eqb k l then 1 else 0) * u a l)); [apply sum_delta; exact K|]. intros l L. rewrite sum_scale, HU by assumption. ring.
          -- intros b _. rewrite <- sum_scale. apply sum_ext. intros; ring.
        * intros b _. rewrite <- sum_scale. apply sum_ext. intros; ring.
      + intros b _. destruct (Nat.eqb a b); ring. }
  pose proof (energy_zero n n d E t) as D. assert (w t = Sum n (fun b => (if Nat.eqb t b then 1 else 0) * w b)) as -> by (symmetry; apply sum_delta; exact T).
  rewrite (sum_ext n _ (fun b => Sum n (fun k => u t k * (u b k * w b)))).
  - rewrite sum_swap. apply sum_zero. intros k K. rewrite sum_scale, HW by exact K. ring.
  - intros b B. specialize (D b T B). unfold d in D. assert ((if Nat.eqb t b then 1 else 0) = Sum n (fun k => u t k * u b k)) as -> by lra. rewrite Rmult_comm, <- sum_scale. apply sum_ext. intros; ring.
Qed.
(* ---------- decompositions ---------- *)
Section Svd.
Variables (n p : nat) (x : nat -> nat -> R) (d : list (list R) * list R * list (list R)).
Hypothesis H : IsSvd n p x d.
Let r := Nat.min n p.
Let u := elem (fst (fst d)).
Let s := fun k => nth k (snd (fst d)) 0.
Let v := elem (snd d).
Lemma svd_combo t j : (t < n)%nat -> (j < p)%nat -> x t j = combo r u v s t j.
Proof. apply (svd_product _ _ _ _ H). Qed.
Lemma svd_energy : Energy n p x = Sum r (fun k => s k * s k).
Proof. rewrite (energy_ext n p x (combo r u v s) svd_combo). apply energy_combo; [apply (svd_left _ _ _ _ H)|apply (svd_right _ _ _ _ H)]. Qed.
Lemma svd_residual q : (q <= r)%nat -> Energy n p (fun t j => x t j - combo q u v s t j) = Energy n p x - Sum q (fun k => s k * s k).
Proof.
  intro Q. rewrite (energy_ext n p _ (combo r u v (fun k => if Nat.ltb k q then 0 else s k))).
  - rewrite energy_combo; [|apply (svd_left _ _ _ _ H)|apply (svd_right _ _ _ _ H)]. rewrite cut_squares by exact Q. rewrite svd_energy. reflexivity.
  - intros t j T J. rewrite svd_combo by assumption. apply combo_cut. exact Q.
Qed.
Lemma svd_projected t l : (t < n)%nat -> (l < r)%nat -> Sum p (fun j => x t j * v l j) = u t l * s l.
Proof.
  intros T L. rewrite (sum_ext p _ (fun j => combo r u v s t j * v l j)); [|intros j J; rewrite svd_combo by assumption; reflexivity].
  apply (right_project p r u v); [apply (svd_right _ _ _ _ H)|exact L].
Qed.
Lemma svd_pattern l j : (l < r)%nat -> (j < p)%nat -> Sum n (fun t => u t l * x t j) = s l * v l j.
Proof.
  intros L J. rewrite (sum_ext n _ (fun t => u t l * combo r u v s t j)); [|intros t T; rewrite svd_combo by assumption; reflexivity].
  apply (left_project n r u v); [apply (svd_left _ _ _ _ H)|exact L].
Qed.
Lemma svd_nonneg k : (k < r)%nat -> 0 <= s k.
Proof. intro K. pose proof (svd_order _ _ _ _ H k k (le_n k) K). tauto. Qed.
End Svd.
(* ---------- indices ---------- *)
Lemma indices_length shape : length (indices shape) = Size shape.
Proof.
  induction shape as [|n shape IH]; [reflexivity|]. cbn [indices Size fold_right]. fold (Size shape). rewrite <- IH. generalize 0%nat as a. induction n as [|n IHn]; intro a; [reflexivity|].
  cbn [seq flat_map]. rewrite app_length, map_length, IHn. lia.
Qed.
Lemma flat_nth (l : list (list nat)) n i j a : (i < n)%nat -> (j < length l)%nat -> nth (i * length l + j) (flat_map (fun i => map (cons i) l) (seq a n)) [] = (a + i)%nat :: nth j l [].
Proof.
  revert i a. induction n as [|n IH]; intros i a I J; [lia|]. cbn [seq flat_map]. destruct i as [|i].
  - cbn [Nat.mul Nat.add]. rewrite app_nth1 by (rewrite map_length; exact J). rewrite (nth_indep _ [] (a :: [])) by (rewrite map_length; exact J). rewrite map_nth, Nat.add_0_r. reflexivity.
  - rewrite app_nth2 by (rewrite map_length; cbn; lia). rewrite map_length. replace (S i * length l + j - length l)%nat with (i * length l + j)%nat by (cbn; lia). rewrite IH by lia. f_equal. lia.
Qed.
Lemma offset_nth shape idx : InShape idx shape -> (Offset shape idx < Size shape)%nat /\ nth (Offset shape idx) (indices shape) [] = idx.
Proof.
  intro F. induction F as [|i n idx shape L F [IH1 IH2]]; [split; [cbn; lia|reflexivity]|]. cbn [Offset Size fold_right indices]. fold (Size shape). split; [nia|].
  rewrite <- (indices_length shape). rewrite flat_nth by (rewrite ?indices_length; assumption). rewrite IH2. reflexivity.
Qed.
Lemma indices_in shape idx : In idx (indices shape) -> InShape idx shape.
Proof.
  revert idx. induction shape as [|n shape IH]; intros idx I; [destruct I as [<-|[]]; constructor|]. cbn in I. apply in_flat_map in I. destruct I as (i & I & J). apply in_seq in I. apply in_map_iff in J.
  destruct J as (q & <- & J). constructor; [lia|apply IH; exact J].
Qed.
Lemma indices_offset shape j : (j < Size shape)%nat -> InShape (nth j (indices shape) []) shape /\ Offset shape (nth j (indices shape) []) = j.
Proof.
  intro J. assert (In (nth j (indices shape) []) (indices shape)) as I by (apply nth_In; rewrite indices_length; exact J). pose proof (indices_in _ _ I) as S. split; [exact S|].
  clear I S. revert j J. induction shape as [|n shape IH]; intros j J; [cbn in *; lia|]. cbn [Size fold_right] in J. fold (Size shape) in J. cbn [indices].
  assert (Size shape <> 0)%nat as NZ by nia. pose proof (Nat.div_mod j (Size shape) NZ) as DM. pose proof (Nat.mod_upper_bound j (Size shape) NZ) as B.
  assert (j / Size shape < n)%nat as Q by (apply Nat.div_lt_upper_bound; lia).
  rewrite DM at 1. rewrite (Nat.mul_comm (Size shape)). rewrite <- (indices_length shape) at 2. rewrite flat_nth by (rewrite ?indices_length; lia). cbn [Offset plus]. rewrite IH by exact B. fold (Size shape). lia.
Qed.
Lemma size_pos shape : Forall (lt 0) shape -> (0 < Size shape)%nat.
Proof. induction 1 as [|n l L F IH]; cbn; [lia|]. fold (Size l). nia. Qed.
Lemma others_pos dim shape : Forall (lt 0) shape -> Forall (lt 0) (Others dim shape).
Proof.
  intro F. rewrite <- (firstn_skipn dim shape) in F. apply Forall_app in F. destruct F as [F1 F2]. apply Forall_app. split; [exact F1|]. clear F1.
  revert dim F2. induction shape as [|a shape IH]; intros [|dim] F2; cbn in *; [constructor|constructor|inversion F2; assumption|]. apply IH. exact F2.
Qed.
Lemma data_matrix shape value dim x : DataRows shape value dim x ->
  map (fun t => map (fun idx => value (put_at dim t idx)) (indices (without dim shape))) (seq 0 (nth dim shape 0%nat)) = rows (nth dim shape 0%nat) (Size (Others dim shape)) x.
Proof.
  intro D. apply map_ext_in. intros t I. apply in_seq in I. apply nth_ext with (d := 0) (d' := 0).
  - rewrite !map_length, seq_length. apply indices_length.
  - intros j J. rewrite map_length, indices_length in J. rewrite nth_map_seq by exact J. rewrite (nth_indep _ 0 (value (put_at dim t []))) by (rewrite map_length, indices_length; exact J).
    rewrite (map_nth (fun idx => value (put_at dim t idx))). destruct (indices_offset (without dim shape) j J) as [S O]. rewrite <- O at 2. symmetry. apply D; [lia|exact S].
Qed.
Lemma column_rows n p x j : (j < p)%nat -> column (rows n p x) j = map (fun t => x t j) (seq 0 n).
Proof. intro H. unfold column, rows. rewrite map_map. apply map_ext. intro t. apply nth_map_seq. exact H. Qed.
Lemma std_deviation f n : std_r (map f (seq 0 n)) = Deviation n f.
Proof. unfold std_r, Deviation. rewrite mean_Mean, map_map, mean_Mean. reflexivity. Qed.
Lemma standardise_ok n p x : (forall j, (j < p)%nat -> Deviation n (fun t => x t j) <> 0) -> standardise (rows n p x) p = Ok (rows n p (Standard n x)).
Proof.
  intro H. unfold standardise. destruct (existsb _ (seq 0 p)) eqn:E.
  - apply existsb_exists in E. destruct E as (j & I & E). apply in_seq in I. rewrite column_rows in E by lia. rewrite std_deviation in E. apply reqb_iff in E. destruct (H j); [lia|exact E].
  - f_equal. unfold rows. rewrite map_map. apply map_ext_in. intros t _. fold (rows n p x). apply map_ext_in. intros j I. apply in_seq in I. rewrite nth_map_seq by lia. rewrite column_rows by lia. rewrite std_deviation, mean_Mean. reflexivity.
Qed.
Lemma standardise_err n p x j : (j < p)%nat -> Deviation n (fun t => x t j) = 0 -> standardise (rows n p x) p = Err ValueError.
Proof.
  intros J H. unfold standardise. assert (existsb (fun j => real_eqb (std_r (column (rows n p x) j)) 0) (seq 0 p) = true) as ->; [|reflexivity].
  apply existsb_exists. exists j. split; [apply in_seq; lia|]. rewrite column_rows by exact J. rewrite std_deviation. apply reqb_iff. exact H.
Qed.
Definition answer (svd : matrix -> matrix * list R * matrix) (shape : list nat) (neof dim : nat) (a : matrix) : res (matrix * list (option R) * (list nat * matrix)) :=
  let '(eofts, s, eof) := svd a in
  let var := map (fun v => v * v) s in
  if Nat.ltb (Nat.min (nth dim shape 0%nat) (Size (Others dim shape))) neof then Err ValueError
  else if Nat.eqb (length shape) 1 then Err IndexError
  else Ok (map (firstn neof) eofts, firstn neof (map (fun v => over v (rsum var)) var), (neof :: Others dim shape, firstn neof eof)).
Lemma eof_comp_eq svd shape value neof cov dim x : (dim < length shape)%nat -> Forall (lt 0) shape -> DataRows shape value dim x ->
  eof_comp svd shape value neof cov dim =
  (a <- (if cov then Ok (rows (nth dim shape 0%nat) (Size (Others dim shape)) x) else standardise (rows (nth dim shape 0%nat) (Size (Others dim shape)) x) (Size (Others dim shape))) ;; answer svd shape neof dim a).
Proof.
  intros H F D. unfold eof_comp. assert (Nat.ltb dim (length shape) = true) as -> by (apply Nat.ltb_lt; exact H). cbn [negb]. cbv zeta.
  assert (0 < nth dim shape 0)%nat as P1. { rewrite Forall_forall in F. apply F. apply nth_In. exact H. }
  pose proof (size_pos _ (others_pos dim shape F)) as P2. change (fold_right Nat.mul 1%nat (without dim shape)) with (Size (Others dim shape)).
  assert (Nat.eqb (nth dim shape 0%nat) 0 = false) as -> by (apply Nat.eqb_neq; lia). assert (Nat.eqb (Size (Others dim shape)) 0 = false) as -> by (apply Nat.eqb_neq; lia). cbn [orb].
  rewrite (data_matrix shape value dim x D). destruct cov; reflexivity.
Qed.
Lemma nth_firstn_lt {A : Type} q (l : list A) k d : (k < q)%nat -> nth k (firstn q l) d = nth k l d.
Proof. revert l k. induction q as [|q IH]; intros l k H; [lia|]. destruct l as [|a l]; [reflexivity|]. destruct k as [|k]; [reflexivity|]. cbn. apply IH. lia. Qed.
Lemma elem_cut_cols m q t k : (k < q)%nat -> elem (map (firstn q) m) t k = elem m t k.
Proof.
  intro H. unfold elem. replace (nth t (map (firstn q) m) []) with (firstn q (nth t m [])); [apply nth_firstn_lt; exact H|].
  rewrite <- (map_nth (firstn q)). destruct q; reflexivity.
Qed.
Lemma elem_cut_rows m q k j : (k < q)%nat -> elem (firstn q m) k j = elem m k j.
Proof. intro H. unfold elem. rewrite nth_firstn_lt by exact H. reflexivity. Qed.
Lemma in_firstn {A : Type} q (l : list A) x : In x (firstn q l) -> In x l.
Proof. intro H. rewrite <- (firstn_skipn q l). apply in_or_app. left. exact H. Qed.
Section Answer.
Variables (svd : matrix -> matrix * list R * matrix) (shape : list nat) (neof dim : nat) (x : nat -> nat -> R).
Let nt := nth dim shape 0%nat.
Let np := Size (Others dim shape).
Let r := Nat.min nt np.
Let d := svd (rows nt np x).
Hypothesis HS : IsSvd nt np x d.
Hypothesis H2 : (2 <= length shape)%nat.
Lemma answer_ok : (neof <= r)%nat -> answer svd shape neof dim (rows nt np x) =
  Ok (map (firstn neof) (fst (fst d)), map (fun k => over (nth k (snd (fst d)) 0 * nth k (snd (fst d)) 0) (Energy nt np x)) (seq 0 neof), (neof :: Others dim shape, firstn neof (snd d))).
Proof.
  intro L. unfold answer. fold nt np r d. pose proof (svd_energy nt np x d HS) as E. pose proof (svd_length _ _ _ _ HS) as SL. fold r in E, SL. destruct d as [[u s] v]. cbn [fst snd] in *.
  assert (Nat.ltb r neof = false) as -> by (apply Nat.ltb_ge; exact L). assert (Nat.eqb (length shape) 1 = false) as -> by (apply Nat.eqb_neq; lia).
  assert (rsum (map (fun v => v * v) s) = Energy nt np x) as ->. { rewrite E. rewrite (list_nths 0 s) at 1. rewrite map_map, SL. reflexivity. }
  f_equal. f_equal. f_equal. rewrite map_map. rewrite (list_nths 0 s) at 1. rewrite map_map, SL, firstn_map. f_equal. clear - L.
  replace r with (neof + (r - neof))%nat by lia. rewrite seq_app, firstn_app, seq_length, Nat.sub_diag, firstn_O, app_nil_r. apply firstn_all2. rewrite seq_length. lia.
Qed.
Lemma answer_neof y : answer svd shape neof dim (rows nt np x) = Ok y -> (neof <= r)%nat.
Proof. unfold answer. fold nt np r d. destruct d as [[u s] v]. destruct (Nat.ltb_spec r neof) as [L|L]; [discriminate|]. intros _. exact L. Qed.
End Answer.
Definition canonical (shape : list nat) (value : list nat -> R) (dim : nat) (t j : nat) : R := value (With dim t (nth j (indices (Others dim shape)) [])).
Lemma canonical_rows shape value dim : DataRows shape value dim (canonical shape value dim).
Proof. intros t idx T I. unfold canonical. destruct (offset_nth _ _ I) as [_ E]. rewrite E. reflexivity. Qed.
Lemma decide_all (P : nat -> Prop) p : (forall j, P j \/ ~ P j) -> (forall j, (j < p)%nat -> P j) \/ exists j, (j < p)%nat /\ ~ P j.
Proof.
  intro D. induction p as [|p IH]; [left; intros; lia|]. destruct IH as [IH|(j & J & N)]; [|right; exists j; split; [lia|exact N]].
  destruct (D p) as [Y|N]; [|right; exists p; split; [lia|exact N]]. left. intros j J. destruct (Nat.eq_dec j p) as [->|X]; [exact Y|apply IH; lia].
Qed.
Lemma decide_zero (f : nat -> R) j : f j <> 0 \/ ~ f j <> 0.
Proof. destruct (Req_EM_T (f j) 0) as [E|E]; [right; intro N; apply N; exact E|left; exact E]. Qed.
Lemma real_back (a : R) : ~ a <> 0 -> a = 0.
Proof. intro N. destruct (Req_EM_T a 0) as [E|E]; [exact E|contradiction]. Qed.
Lemma mean_units n f a b : (0 < n)%nat -> Mean n (fun t => a * f t + b) = a * Mean n f + b.
Proof. intro H. apply lt_INR in H. cbn in H. unfold Mean. rewrite sum_plus, sum_scale, sum_const. field. lra. Qed.
Lemma mean_scale n f a : Mean n (fun t => a * f t) = a * Mean n f.
Proof. unfold Mean. rewrite sum_scale. unfold Rdiv. ring. Qed.
Lemma mean_ext n f g : (forall i, (i < n)%nat -> f i = g i) -> Mean n f = Mean n g.
Proof. intro H. unfold Mean. rewrite (sum_ext n f g H). reflexivity. Qed.
Lemma deviation_units n f a b : (0 < n)%nat -> 0 < a -> Deviation n (fun t => a * f t + b) = a * Deviation n f.
Proof.
  intros H A. unfold Deviation. rewrite (mean_units n f a b H).
  rewrite (mean_ext n _ (fun t => (a * a) * ((f t - Mean n f) * (f t - Mean n f)))) by (intros; ring). rewrite mean_scale, sqrt_mult_alt by nra. rewrite sqrt_square by lra. reflexivity.
Qed.
Lemma deviation_ext n f g : (forall i, (i < n)%nat -> f i = g i) -> Deviation n f = Deviation n g.
Proof. intro H. unfold Deviation. f_equal. rewrite (mean_ext n f g H). apply mean_ext. intros i I. rewrite (H i I). reflexivity. Qed.
(* ---------- records ---------- *)
Lemma cleaned_detrend y : cleaned y = MjoModel.detrend y.
Proof.
  unfold cleaned. cbv zeta. destruct (detrend_is y) as (_ & _ & Z & _). unfold mean_r. rewrite Z. unfold Rdiv. rewrite Rmult_0_l. rewrite <- (map_id (MjoModel.detrend y)) at 2. apply map_ext. intro v. lra.
Qed.
Lemma record_anomalies e nd np y d j : (y < length e)%nat -> (d < nd)%nat -> (j < np)%nat -> record_ (anomalies e nd np) y d j = nth y (cleaned (series e d j)) 0.
Proof. intros Y D J. unfold record_, anomalies. rewrite nth_map_seq by exact Y. rewrite nth_map_seq by exact D. rewrite nth_map_seq by exact J. reflexivity. Qed.
Lemma series_records e d j : series e d j = map (fun y => record_ e y d j) (seq 0 (length e)).
Proof. unfold series, record_. rewrite (list_nths [] e) at 1. rewrite map_map. reflexivity. Qed.
Lemma series_length e d j : length (series e d j) = length e. Proof. apply map_length. Qed.
Lemma series_anomalies e nd np d j : (d < nd)%nat -> (j < np)%nat -> map (fun y => record_ (anomalies e nd np) y d j) (seq 0 (length e)) = MjoModel.detrend (series e d j).
Proof.
  intros D J. rewrite <- cleaned_detrend. rewrite (map_ext_in _ (fun y => nth y (cleaned (series e d j)) 0)).
  - symmetry. etransitivity; [apply (list_nths 0)|]. rewrite cleaned_detrend, detrend_len, series_length. reflexivity.
  - intros y I. apply in_seq in I. apply record_anomalies; [lia|exact D|exact J].
Qed.
Lemma anomalies_length e nd np : length (anomalies e nd np) = length e.
Proof. unfold anomalies. rewrite map_length, seq_length. reflexivity. Qed.
Lemma anomalies_again e nd np : anomalies (anomalies e nd np) nd np = anomalies e nd np.
Proof.
  unfold anomalies at 1. rewrite anomalies_length. apply map_ext_in. intros y Y. apply in_seq in Y. apply map_ext_in. intros d D. apply in_seq in D. apply map_ext_in. intros j J. apply in_seq in J.
  f_equal. rewrite !cleaned_detrend, series_records, anomalies_length, series_anomalies by lia. apply detrend_again.
Qed.
Lemma concat_seq {A : Type} (g : nat -> nat -> A) nd Y : (0 < nd)%nat -> concat (map (fun y => map (g y) (seq 0 nd)) (seq 0 Y)) = map (fun t => g (t / nd)%nat (t mod nd)) (seq 0 (Y * nd)).
Proof.
  intro H. induction Y as [|Y IH]; [reflexivity|]. rewrite seq_S, map_app, concat_app, IH. cbn [map concat]. rewrite app_nil_r. replace (S Y * nd)%nat with (Y * nd + nd)%nat by lia.
  rewrite seq_app, map_app. f_equal. cbn [plus]. apply nth_ext with (d := g 0%nat 0%nat) (d' := g 0%nat 0%nat); [rewrite !map_length, !seq_length; reflexivity|]. intros i I. rewrite map_length, seq_length in I.
  rewrite nth_map_seq by exact I. rewrite (nth_indep _ (g 0%nat 0%nat) ((fun t => g (t / nd)%nat (t mod nd)) 0%nat)) by (rewrite map_length, seq_length; exact I). rewrite (map_nth (fun t => g (t / nd)%nat (t mod nd))), seq_nth by exact I.
  rewrite Nat.div_add_l by lia. rewrite (Nat.div_small i nd I), Nat.add_0_r. rewrite (Nat.add_comm (Y * nd)), Nat.mod_add by lia. rewrite (Nat.mod_small i nd I). reflexivity.
Qed.
Definition flatrec (x : list matrix) (nd : nat) (t j : nat) : R := record_ x (t / nd) (t mod nd) j.
Lemma anomalies_concat e nd np : (0 < nd)%nat -> concat (anomalies e nd np) = rows (length e * nd) np (flatrec (anomalies e nd np) nd).
Proof.
  intro H. unfold anomalies at 1. rewrite (concat_seq (fun y d => map (fun j => nth y (cleaned (series e d j)) 0) (seq 0 np)) nd _ H). apply map_ext_in. intros t T. apply in_seq in T.
  apply map_ext_in. intros j J. apply in_seq in J. unfold flatrec. rewrite record_anomalies; [reflexivity|apply Nat.div_lt_upper_bound; lia|apply Nat.mod_upper_bound; lia|lia].
Qed.
Lemma sum_days (f : nat -> nat -> R) nd Y : (0 < nd)%nat -> Sum (Y * nd) (fun t => f (t / nd)%nat (t mod nd)) = Sum Y (fun y => Sum nd (f y)).
Proof.
  intro H. induction Y as [|Y IH]; [reflexivity|]. rewrite sum_S, <- IH. replace (S Y * nd)%nat with (Y * nd + nd)%nat by lia. rewrite sum_app. f_equal. apply sum_ext. intros i I.
  rewrite Nat.div_add_l by lia. rewrite (Nat.div_small i nd I), Nat.add_0_r. rewrite (Nat.add_comm (Y * nd)), Nat.mod_add by lia. rewrite (Nat.mod_small i nd I). reflexivity.
Qed.
Lemma flat_column_zero e nd np j : (0 < nd)%nat -> (j < np)%nat -> Sum (length e * nd) (fun t => flatrec (anomalies e nd np) nd t j) = 0.
Proof.
  intros H J. unfold flatrec. rewrite (sum_days (fun y d => record_ (anomalies e nd np) y d j) nd (length e) H). rewrite sum_swap. apply sum_zero. intros d D. unfold Sum.
  rewrite series_anomalies by assumption. apply detrend_is.
Qed.
Lemma calc_facts svd numpcs e nd np eof pc f x : Calc_EOF svd numpcs e nd np = Ok (eof, pc, f, x) ->
  let n := (length e * nd)%nat in let data := rows n np (flatrec x nd) in let s := snd (fst (svd data)) in
  x = anomalies e nd np /\ concat x = data /\ (2 <= n)%nat /\ (0 < np)%nat /\ (0 < nd)%nat /\ (numpcs <= Nat.min n np)%nat /\
  pc = pcs (fst (fst (svd data))) s n numpcs /\ eof = eofs_cov pc data np numpcs /\
  f = map (fun v => match over v (rsum (map (fun v => v * v / (INR n - 1)) s)) with Some q => Some (q * 100) | None => None end) (firstn numpcs (map (fun v => v * v / (INR n - 1)) s)).
Proof.
  unfold Calc_EOF. cbv zeta. destruct (Nat.ltb_spec (length e * nd) 2) as [L|L]; [discriminate|]. destruct (Nat.eqb_spec np 0) as [Z|Z]; [discriminate|]. cbn [orb].
  assert (0 < nd)%nat as D by (destruct nd; lia). rewrite (anomalies_concat e nd np D). intro H.
  destruct (svd (rows (length e * nd) np (flatrec (anomalies e nd np) nd))) as [[u s] v] eqn:E. destruct (Nat.ltb_spec (Nat.min (length e * nd) np) numpcs) as [M|M]; [discriminate|].
  injection H as <- <- <- <-. rewrite E. cbn [fst snd]. rewrite (anomalies_concat e nd np D). repeat split; try assumption; lia.
Qed.
Lemma over_ok a b : b <> 0 -> over a b = Some (a / b).
Proof. intro H. unfold over. rewrite reqb_false by exact H. reflexivity. Qed.
Lemma scaled_pc u s n : 2 <= INR n -> 0 < s -> over (u * s) (sqrt (s * s / (INR n - 1))) = Some (u * sqrt (INR n - 1)).
Proof.
  intros H P. assert (0 < sqrt (INR n - 1)) as K by (apply sqrt_lt_R0; lra). assert (sqrt (s * s / (INR n - 1)) = s / sqrt (INR n - 1)) as E. { rewrite sqrt_div by nra. rewrite sqrt_square by lra. reflexivity. }
  rewrite E. rewrite over_ok; [f_equal; field; lra|]. apply Rgt_not_eq, Rdiv_lt_0_compat; assumption.
Qed.
Lemma missing_pc u s n : s = 0 -> over (u * s) (sqrt (s * s / (INR n - 1))) = None.
Proof. intros ->. unfold Rdiv. rewrite !Rmult_0_l, sqrt_0. unfold over. rewrite (proj2 (reqb_iff 0 0) eq_refl). reflexivity. Qed.
Lemma oall_some {A B : Type} (f : A -> B) l : oall (map (fun a => Some (f a)) l) = Some (map f l).
Proof. induction l as [|a l IH]; [reflexivity|]. cbn. rewrite IH. reflexivity. Qed.
Lemma osum_some {A : Type} (f : A -> R) l : osum (map (fun a => Some (f a)) l) = Some (fold_right Rplus 0 (map f l)).
Proof. induction l as [|a l IH]; [reflexivity|]. cbn. unfold osum in IH. rewrite IH. reflexivity. Qed.
Lemma osum_none l : In None l -> osum l = None.
Proof. induction l as [|a l IH]; intro H; [destruct H|]. cbn. destruct H as [->|H]; [reflexivity|]. unfold osum in IH. rewrite (IH H). destruct a; reflexivity. Qed.
Lemma covariance_centered c z n : (0 < n)%nat -> Sum n z = 0 -> covariance (map c (seq 0 n)) (map z (seq 0 n)) = Sum n (fun t => c t * z t) / (INR n - 1).
Proof.
  intros H Z. unfold covariance. rewrite map_length, seq_length, combine_maps, map_map, rsum_map. cbn [fst snd]. rewrite !mean_Mean. unfold Mean at 2. rewrite Z. f_equal.
  rewrite (sum_ext n _ (fun t => c t * z t - Mean n c * z t)) by (intros; unfold Rdiv; ring). rewrite sum_minus, sum_scale, Z. ring.
Qed.
Lemma left_mean n p x d k : IsSvd n p x d -> (forall j, (j < p)%nat -> Sum n (fun t => x t j) = 0) -> (k < Nat.min n p)%nat -> nth k (snd (fst d)) 0 <> 0 ->
  Sum n (fun t => elem (fst (fst d)) t k) = 0.
Proof.
  intros H Z K N. apply (Rmult_eq_reg_r (nth k (snd (fst d)) 0)); [|exact N]. rewrite Rmult_0_l, Rmult_comm, <- sum_scale.
  rewrite (sum_ext n _ (fun t => Sum p (fun j => x t j * elem (snd d) k j))).
  - rewrite sum_swap. apply sum_zero. intros j J. rewrite (sum_ext n _ (fun t => elem (snd d) k j * x t j)) by (intros; ring). rewrite sum_scale, Z by exact J. ring.
  - intros t T. rewrite (svd_projected n p x d H t k T K). ring.
Qed.
Lemma reconstruct_ok numpcs n np eof pc a : length eof = numpcs -> pc = map (fun t => map (a t) (seq 0 numpcs)) (seq 0 n) ->
  reconstruct_heights numpcs np eof pc = Ok (map (fun t => map (fun j => osum (map (fun k => omul (a t k) (nth j (nth k eof []) None)) (seq 0 numpcs))) (seq 0 np)) (seq 0 n)).
Proof.
  intros L ->. unfold reconstruct_heights. rewrite L, Nat.eqb_refl. cbn [negb orb]. destruct (existsb _ _) eqn:E.
  - apply existsb_exists in E. destruct E as (row & I & E). apply in_map_iff in I. destruct I as (t & <- & _). rewrite map_length, seq_length, Nat.eqb_refl in E. discriminate.
  - f_equal. rewrite map_map. apply map_ext. intro t. apply map_ext. intro j. f_equal. apply map_ext_in. intros k K. apply in_seq in K. rewrite nth_map_seq by lia. reflexivity.
Qed.
(* ---------- examples ---------- *)
Ltac small_svd := constructor; cbn [fst snd];
  [split; [split; [reflexivity|repeat constructor]|]|split; [split; [reflexivity|repeat constructor]|]|reflexivity| |].
Lemma easy_ok m : IsSvd 2 2 small (easy_svd m).
Proof.
  unfold easy_svd. small_svd.
  - intros k l K L. cbn in K, L. destruct k as [|[|k]]; [| |lia]; (destruct l as [|[|l]]; [| |lia]); cbn; lra.
  - intros k l K L. cbn in K, L. destruct k as [|[|k]]; [| |lia]; (destruct l as [|[|l]]; [| |lia]); cbn; lra.
  - intros k l K L. cbn in L. destruct l as [|[|l]]; [| |lia]; (destruct k as [|[|k]]; [| |lia]); try lia; cbn; lra.
  - intros t j T J. destruct t as [|[|t]]; [| |lia]; (destruct j as [|[|j]]; [| |lia]); cbn; lra.
Qed.
Lemma small_rows : DataRows [2; 2]%nat two_by_two 0 small.
Proof.
  intros t idx T I. cbn in T, I. unfold InShape in I. cbn in I. inversion I as [|i n q l L F]; subst. inversion F; subst. cbn. destruct t as [|[|t]]; [| |lia]; (destruct i as [|[|i]]; [| |lia]); reflexivity.
Qed.
Lemma small_energy : Energy 2 2 small = 10.
Proof. unfold Energy. cbn. lra. Qed.
Lemma flat_ok : IsSvd 2 2 (fun t j => record_ flat (t / 1) (t mod 1) j) flat_svd.
Proof.
  unfold flat_svd. small_svd.
  - intros k l K L. cbn in K, L. destruct k as [|[|k]]; [| |lia]; (destruct l as [|[|l]]; [| |lia]); cbn; lra.
  - intros k l K L. cbn in K, L. destruct k as [|[|k]]; [| |lia]; (destruct l as [|[|l]]; [| |lia]); cbn; lra.
  - intros k l K L. cbn in L. destruct l as [|[|l]]; [| |lia]; (destruct k as [|[|k]]; [| |lia]); try lia; cbn; lra.
  - intros t j T J. destruct t as [|[|t]]; [| |lia]; (destruct j as [|[|j]]; [| |lia]); cbn; lra.
Qed.
Lemma root6 : 0 < sqrt 6 /\ sqrt 6 * sqrt 6 = 6.
Proof. split; [apply sqrt_lt_R0; lra|apply sqrt_sqrt; lra]. Qed.
Lemma hump_ok : IsSvd 3 1 (fun t j => record_ hump (t / 1) (t mod 1) j) hump_svd.
Proof.
  destruct root6 as [P Q]. unfold hump_svd. small_svd.
  - intros k l K L. cbn in K, L. destruct k; [|lia]. destruct l; [|lia]. cbn. set (a := sqrt 6) in *. replace (1 / a * (1 / a) + (-2 / a * (-2 / a) + (1 / a * (1 / a) + 0))) with (6 / (a * a)) by (field; lra). rewrite Q. field.
  - intros k l K L. cbn in K, L. destruct k; [|lia]. destruct l; [|lia]. cbn. lra.
  - intros k l K L. cbn in L. destruct l; [|lia]. destruct k; [|lia]. cbn. lra.
  - intros t j T J. destruct j; [|lia]. destruct t as [|[|[|t]]]; [| | |lia]; cbn; field; lra.
Qed.
Lemma detrended_same y : fold_right Rplus 0 y = 0 -> fold_right Rplus 0 (map (fun p => INR (fst p) * snd p) (combine (seq 0 (length y)) y)) = 0 -> MjoModel.detrend y = y.
Proof.
  intros A B. apply (detrend_unique y); [apply detrend_is|]. split; [reflexivity|]. split; [|split; assumption]. exists 0, 0. intros t v w E1 E2. rewrite E1 in E2. injection E2 as <-. lra.
Qed.
Lemma hump_same : anomalies hump 1 1 = hump.
Proof.
  assert (cleaned (series hump 0 0) = [1; -2; 1]) as E. { rewrite cleaned_detrend. apply detrended_same; cbn; lra. }
  unfold anomalies. cbn [length hump seq map]. rewrite E. reflexivity.
Qed.
Lemma flat_same : anomalies flat 1 2 = flat.
Proof.
  assert (forall j, (j < 2)%nat -> cleaned (series flat 0 j) = [0; 0]) as E. { intros j J. rewrite cleaned_detrend. destruct j as [|[|j]]; [| |lia]; apply detrended_same; cbn; lra. }
  unfold anomalies. cbn [length flat seq map]. rewrite (E 0%nat), (E 1%nat) by lia. reflexivity.
Qed.

Lemma index_inshape shape j : (j < Size shape)%nat -> InShape (nth j (indices shape) []) shape.
Proof.
  intro J. assert (forall idx, In idx (indices shape) -> InShape idx shape) as A.
  { clear J. induction shape as [|n shape IH]; intros idx I; [destruct I as [<-|[]]; constructor|]. cbn in I. apply in_flat_map in I. destruct I as (i & I & L). apply in_seq in I. apply in_map_iff in L. destruct L as (r & <- & L). constructor; [lia|apply IH; exact L]. }
  apply A. apply nth_In. rewrite indices_length. exact J.
Qed.

Lemma map_repeat_all {A : Type} (f : nat -> A) c n : (forall i, f i = c) -> map f (seq 0 n) = repeat c n.
Proof. intro H. generalize 0%nat. induction n as [|n IH]; intro a; [reflexivity|]. cbn. rewrite IH, H. reflexivity. Qed.

(** The statements of PropertiesEof.v. *)
Lemma C143_answer_proof : forall svd shape value neof dim x, (dim < length shape)%nat -> (2 <= length shape)%nat -> Forall (lt 0) shape ->
  let nt := nth dim shape 0%nat in let np := Size (Others dim shape) in
  DataRows shape value dim x -> IsSvd nt np x (svd (rows nt np x)) -> (neof <= Nat.min nt np)%nat ->
  exists u f e, eof_comp svd shape value neof true dim = Ok (u, f, (neof :: Others dim shape, e)) /\
    IsRows u nt neof /\ OrthoColumns nt neof u /\ length f = neof /\ IsRows e neof np /\ OrthoRows neof np e.
Proof.
  intros svd shape value neof dim x H L F nt np D HS N. rewrite (eof_comp_eq _ _ _ _ _ _ x H F D). cbn [bind]. rewrite (answer_ok svd shape neof dim x HS L N).
  do 3 eexists. split; [reflexivity|]. fold nt np. destruct (svd_left _ _ _ _ HS) as [[U1 U2] U3]. destruct (svd_right _ _ _ _ HS) as [[V1 V2] V3]. rewrite Forall_forall in U2, V2.
  split; [|split; [|split; [|split]]].
  - split; [rewrite map_length; exact U1|]. apply Forall_forall. intros row I. apply in_map_iff in I. destruct I as (row' & <- & I). rewrite firstn_length, (U2 _ I). lia.
  - intros k l K M. rewrite <- (U3 k l) by lia. apply sum_ext. intros t _. rewrite !elem_cut_cols by assumption. reflexivity.
  - rewrite map_length, seq_length. reflexivity.
  - split; [rewrite firstn_length; etransitivity; [apply f_equal; exact V1|lia]|]. apply Forall_forall. intros row I. apply V2. apply in_firstn in I. exact I.
  - intros k l K M. rewrite <- (V3 k l) by lia. apply sum_ext. intros t _. rewrite !elem_cut_rows by assumption. reflexivity.
Qed.

Lemma C143_answer_case_proof : DataRows [2; 2]%nat two_by_two 0 small /\ IsSvd 2 2 small (easy_svd (rows 2 2 small)).
Proof.
  split; [exact small_rows|apply easy_ok].
Qed.

Lemma C143_fractions_proof : forall svd shape value neof dim x u f e, (dim < length shape)%nat -> (2 <= length shape)%nat -> Forall (lt 0) shape ->
  let nt := nth dim shape 0%nat in let np := Size (Others dim shape) in
  DataRows shape value dim x -> IsSvd nt np x (svd (rows nt np x)) -> Energy nt np x <> 0 ->
  eof_comp svd shape value neof true dim = Ok (u, f, (neof :: Others dim shape, e)) ->
  exists g, f = map Some g /\ length g = neof /\
    (forall k, (k < neof)%nat -> 0 <= nth k g 0 <= 1 /\ nth k g 0 * Energy nt np x = Sum nt (fun t => Sum np (fun j => x t j * elem e k j) * Sum np (fun j => x t j * elem e k j))) /\
    (forall k l, (k <= l < neof)%nat -> nth l g 0 <= nth k g 0) /\
    Energy nt np (fun t j => x t j - Sum neof (fun k => sqrt (nth k g 0 * Energy nt np x) * elem u t k * elem e k j)) = (1 - Sum neof (fun k => nth k g 0)) * Energy nt np x.
Proof.
  intros svd shape value neof dim x u f e H L F nt np D HS E A. rewrite (eof_comp_eq _ _ _ _ _ _ x H F D) in A. cbn [bind] in A. pose proof (answer_neof svd shape neof dim x HS _ A) as N.
  rewrite (answer_ok svd shape neof dim x HS L N) in A. fold nt np in A, N. set (dd := svd (rows nt np x)) in *. injection A as <- <- <-.
  set (s := fun k => nth k (snd (fst dd)) 0). assert (0 < Energy nt np x) as EP. { pose proof (svd_energy nt np x dd HS) as EE. assert (0 <= Energy nt np x); [|lra]. rewrite EE. apply sum_nonneg. intros; apply Rle_0_sqr. }
  assert (forall k, (k < neof)%nat -> s k * s k <= Energy nt np x) as SE. { intros k K. rewrite (svd_energy nt np x dd HS). apply (sum_le_part (Nat.min nt np) (fun k => s k * s k)); [intros; apply Rle_0_sqr|lia]. }
  assert (forall k, (k < neof)%nat -> 0 <= s k) as SN by (intros k K; apply (svd_nonneg nt np x dd HS); lia).
  exists (map (fun k => s k * s k / Energy nt np x) (seq 0 neof)).
  assert (forall k, (k < neof)%nat -> nth k (map (fun k => s k * s k / Energy nt np x) (seq 0 neof)) 0 = s k * s k / Energy nt np x) as G by (intros k K; rewrite nth_map_seq by exact K; reflexivity).
  split; [|split; [|split; [|split]]].
  - rewrite map_map. apply map_ext. intro k. unfold over. rewrite reqb_false by exact E. reflexivity.
  - rewrite map_length, seq_length. reflexivity.
  - intros k K. rewrite (G k K). split; [split|].
    + unfold Rdiv. apply Rmult_le_pos; [apply Rle_0_sqr|left; apply Rinv_0_lt_compat; exact EP].
    + apply (Rmult_le_reg_r (Energy nt np x)); [exact EP|]. specialize (SE k K). unfold Rdiv. rewrite Rmult_assoc, Rinv_l by lra. lra.
    + transitivity (s k * s k); [field; lra|]. destruct (svd_left _ _ _ _ HS) as [_ U3]. symmetry.
      rewrite (sum_ext nt _ (fun t => (s k * s k) * (elem (fst (fst dd)) t k * elem (fst (fst dd)) t k))).
      * rewrite sum_scale, U3 by lia. rewrite Nat.eqb_refl. ring.
      * intros t T. cbv beta. assert (Sum np (fun j => x t j * elem (firstn neof (snd dd)) k j) = elem (fst (fst dd)) t k * s k) as PJ.
        2: { transitivity ((elem (fst (fst dd)) t k * s k) * (elem (fst (fst dd)) t k * s k)); [|ring]. rewrite <- PJ. reflexivity. }
        transitivity (Sum np (fun j => x t j * elem (snd dd) k j)); [apply sum_ext; intros j _; rewrite elem_cut_rows by exact K; reflexivity|]. apply (svd_projected nt np x dd HS t k T). lia.
  - intros k l [K M]. rewrite !G by lia. unfold Rdiv. apply Rmult_le_compat_r; [left; apply Rinv_0_lt_compat; exact EP|]. assert (0 <= s l <= s k) as O by (apply (svd_order _ _ _ _ HS); lia). nra.
  - rewrite (energy_ext nt np _ (fun t j => x t j - combo neof (elem (fst (fst dd))) (elem (snd dd)) s t j)).
    + etransitivity; [apply (svd_residual nt np x dd HS neof N)|]. change (fun k => nth k (snd (fst dd)) 0 * nth k (snd (fst dd)) 0) with (fun k => s k * s k).
      rewrite (sum_ext neof (fun k => nth k _ 0) (fun k => / Energy nt np x * (s k * s k))); [rewrite sum_scale; field; lra|]. intros k K. rewrite (G k K). unfold Rdiv. ring.
    + intros t j T J. f_equal. unfold combo. apply sum_ext. intros k K. rewrite (G k K), elem_cut_cols, elem_cut_rows by exact K.
      replace (s k * s k / Energy nt np x * Energy nt np x) with (s k * s k) by (field; lra). rewrite sqrt_square by (apply SN; exact K). apply f_equal2; [apply Rmult_comm|reflexivity].
Qed.

Lemma C143_fractions_case_proof : Energy 2 2 small = 10 /\
  eof_comp easy_svd [2; 2]%nat two_by_two 1 true 0 = Ok ([[1]; [0]], [Some (9 / 10)], ([1; 2]%nat, [[1; 0]])).
Proof.
  split; [exact small_energy|]. rewrite (eof_comp_eq _ _ _ _ _ _ small); [|cbn; lia|repeat constructor|exact small_rows]. cbn [bind].
  rewrite (answer_ok easy_svd [2; 2]%nat 1 0 small (easy_ok _)); [|cbn; lia|cbn; lia]. change (Energy _ _ small) with (Energy 2 2 small). rewrite small_energy. cbn. rewrite over_ok by lra. repeat f_equal. lra.
Qed.

Lemma C143_whole_proof : forall svd shape value dim x u f e, (dim < length shape)%nat -> (2 <= length shape)%nat -> Forall (lt 0) shape ->
  let nt := nth dim shape 0%nat in let np := Size (Others dim shape) in
  DataRows shape value dim x -> IsSvd nt np x (svd (rows nt np x)) -> Energy nt np x <> 0 ->
  eof_comp svd shape value (Nat.min nt np) true dim = Ok (u, f, (Nat.min nt np :: Others dim shape, e)) ->
  exists g, f = map Some g /\ Sum (Nat.min nt np) (fun k => nth k g 0) = 1 /\
    forall t idx, (t < nt)%nat -> InShape idx (Others dim shape) ->
      value (With dim t idx) = Sum (Nat.min nt np) (fun k => sqrt (nth k g 0 * Energy nt np x) * elem u t k * elem e k (Offset (Others dim shape) idx)).
Proof.
  intros svd shape value dim x u f e H L F nt np D HS E A. destruct (C143_fractions_proof svd shape value (Nat.min nt np) dim x u f e H L F D HS E A) as (g & G1 & G2 & G3 & G4 & G5).
  fold nt np in G3, G5. rewrite (eof_comp_eq _ _ _ _ _ _ x H F D) in A. cbn [bind] in A. rewrite (answer_ok svd shape (Nat.min nt np) dim x HS L (Nat.le_refl _)) in A. fold nt np in A. set (dd := svd (rows nt np x)) in *. injection A as <- A <-.
  set (s := fun k => nth k (snd (fst dd)) 0).
  assert (g = map (fun k => s k * s k / Energy nt np x) (seq 0 (Nat.min nt np))) as GE.
  { rewrite G1 in A. clear - A E. assert (map Some (map (fun k => s k * s k / Energy nt np x) (seq 0 (Nat.min nt np))) = map Some g) as B. { rewrite <- A, map_map. apply map_ext. intro k. rewrite over_ok by exact E. reflexivity. }
    clear A. revert g B. generalize (map (fun k => s k * s k / Energy nt np x) (seq 0 (Nat.min nt np))). induction l as [|a l IH]; intros [|b g] B; try discriminate; [reflexivity|]. cbn in B. injection B as -> B. f_equal. apply IH. exact B. }
  exists g. split; [exact G1|]. split.
  - rewrite GE. rewrite (sum_ext _ _ (fun k => / Energy nt np x * (s k * s k))) by (intros k K; rewrite nth_map_seq by exact K; unfold Rdiv; ring).
    rewrite sum_scale. rewrite (svd_energy nt np x dd HS) in E |- *. apply Rinv_l. exact E.
  - intros t idx T I. rewrite <- (D t idx T I). destruct (offset_nth _ _ I) as [O _]. rewrite (svd_combo nt np x dd HS t _ T O). unfold combo. apply sum_ext. intros k K.
    rewrite GE, nth_map_seq, elem_cut_cols, elem_cut_rows by exact K. replace (s k * s k / Energy nt np x * Energy nt np x) with (s k * s k) by (field; exact E).
    rewrite sqrt_square by (apply (svd_nonneg nt np x dd HS); exact K). apply f_equal2; [apply Rmult_comm|reflexivity].
Qed.

Lemma C143_whole_case_proof : eof_comp easy_svd [2; 2]%nat two_by_two 2 true 0 = Ok ([[1; 0]; [0; 1]], [Some (9 / 10); Some (1 / 10)], ([2; 2]%nat, [[1; 0]; [0; 1]])).
Proof.
  rewrite (eof_comp_eq _ _ _ _ _ _ small); [|cbn; lia|repeat constructor|exact small_rows]. cbn [bind].
  rewrite (answer_ok easy_svd [2; 2]%nat 2 0 small (easy_ok _)); [|cbn; lia|cbn; lia]. change (Energy _ _ small) with (Energy 2 2 small). rewrite small_energy. cbn. rewrite !over_ok by lra. repeat f_equal; lra.
Qed.

Lemma C143_zero_proof : forall svd shape value neof dim x u f e, (dim < length shape)%nat -> (2 <= length shape)%nat -> Forall (lt 0) shape ->
  let nt := nth dim shape 0%nat in let np := Size (Others dim shape) in
  DataRows shape value dim x -> IsSvd nt np x (svd (rows nt np x)) -> Energy nt np x = 0 ->
  eof_comp svd shape value neof true dim = Ok (u, f, (neof :: Others dim shape, e)) -> f = repeat None neof.
Proof.
  intros svd shape value neof dim x u f e H L F nt np D HS E A. rewrite (eof_comp_eq _ _ _ _ _ _ x H F D) in A. cbn [bind] in A. pose proof (answer_neof svd shape neof dim x HS _ A) as N.
  rewrite (answer_ok svd shape neof dim x HS L N) in A. fold nt np in A. rewrite E in A. injection A as <- <- <-. rewrite <- (seq_length neof 0) at 2. generalize (seq 0 neof). induction l as [|k l IH]; [reflexivity|].
  cbn [map repeat length]. rewrite IH. f_equal. unfold over. rewrite (proj2 (reqb_iff 0 0) eq_refl). reflexivity.
Qed.

Lemma C143_zero_case_proof : IsSvd 1 2 (fun _ _ => 0) ([[1]], [0], [[1; 0]]) /\ Energy 1 2 (fun _ _ => 0) = 0.
Proof.
  split.
  - small_svd.
    + intros k l K M. cbn in K, M. destruct k; [|lia]. destruct l; [|lia]. cbn. lra.
    + intros k l K M. cbn in K, M. destruct k; [|lia]. destruct l; [|lia]. cbn. lra.
    + intros k l K M. cbn in M. destruct l; [|lia]. destruct k; [|lia]. cbn. lra.
    + intros t j T J. destruct t; [|lia]. destruct j as [|[|j]]; [| |lia]; cbn; lra.
  - unfold Energy. cbn. lra.
Qed.

Lemma C143_standard_proof : forall svd shape value neof dim x, (dim < length shape)%nat -> Forall (lt 0) shape ->
  let nt := nth dim shape 0%nat in let np := Size (Others dim shape) in DataRows shape value dim x ->
  (forall j, (j < np)%nat -> Deviation nt (fun t => x t j) <> 0) ->
  forall value', DataRows shape value' dim (Standard nt x) -> eof_comp svd shape value neof false dim = eof_comp svd shape value' neof true dim.
Proof.
  intros svd shape value neof dim x H F nt np D N value' D'. rewrite (eof_comp_eq _ _ _ _ _ _ x H F D), (eof_comp_eq _ _ _ _ _ _ _ H F D'). fold nt np. rewrite (standardise_ok nt np x N). reflexivity.
Qed.

Lemma C143_standard_case_proof : Deviation 2 (fun t => small t 0) <> 0 /\ Deviation 2 (fun t => small t 1) <> 0.
Proof.
  unfold Deviation, Mean. split; apply Rgt_not_eq, sqrt_lt_R0; cbn; lra.
Qed.

Lemma C143_units_proof : forall svd shape value value' neof dim (scale shift : list nat -> R), (dim < length shape)%nat -> Forall (lt 0) shape ->
  (forall idx, InShape idx (Others dim shape) -> 0 < scale idx) ->
  (forall t idx, (t < nth dim shape 0)%nat -> InShape idx (Others dim shape) -> value' (With dim t idx) = scale idx * value (With dim t idx) + shift idx) ->
  eof_comp svd shape value' neof false dim = eof_comp svd shape value neof false dim.
Proof.
  intros svd shape value value' neof dim scale shift H F P V. set (x := canonical shape value dim). set (x' := canonical shape value' dim).
  rewrite (eof_comp_eq _ _ _ _ _ _ x' H F (canonical_rows _ _ _)), (eof_comp_eq _ _ _ _ _ _ x H F (canonical_rows _ _ _)). set (nt := nth dim shape 0%nat) in *. set (np := Size (Others dim shape)).
  assert (0 < nt)%nat as NT. { rewrite Forall_forall in F. apply F. apply nth_In. exact H. }
  assert (forall j, (j < np)%nat -> exists a b, 0 < a /\ forall t, (t < nt)%nat -> x' t j = a * x t j + b) as X.
  { intros j J. pose proof (index_inshape _ _ J) as I. exists (scale (nth j (indices (Others dim shape)) [])), (shift (nth j (indices (Others dim shape)) [])). split; [apply P; exact I|]. intros t T. apply V; assumption. }
  assert (forall j, (j < np)%nat -> exists a, 0 < a /\ Deviation nt (fun t => x' t j) = a * Deviation nt (fun t => x t j)) as DV.
  { intros j J. destruct (X j J) as (a & b & A & E). exists a. split; [exact A|]. rewrite (deviation_ext nt _ (fun t => a * x t j + b)) by exact E. apply deviation_units; assumption. }
  destruct (decide_all (fun j => Deviation nt (fun t => x t j) <> 0) np (decide_zero (fun j => Deviation nt (fun t => x t j)))) as [A|(j & J & N)].
  - rewrite !standardise_ok; [|exact A|].
    + cbn [bind]. f_equal. apply rows_ext. intros t j T J. destruct (X j J) as (a & b & P1 & E). unfold Standard. rewrite (mean_ext nt _ (fun t => a * x t j + b)) by exact E.
      rewrite (deviation_ext nt (fun t => x' t j) (fun t => a * x t j + b)) by exact E. rewrite (mean_units nt (fun t => x t j)), (deviation_units nt (fun t => x t j)) by assumption. rewrite E by exact T. field. split; [apply A; exact J|lra].
    + intros j J. destruct (DV j J) as (a & P1 & ->). apply Rmult_integral_contrapositive. split; [lra|apply A; exact J].
  - apply real_back in N. rewrite (standardise_err nt np x j J N). rewrite (standardise_err nt np x' j J); [reflexivity|]. destruct (DV j J) as (a & P1 & ->). rewrite N. ring.
Qed.

Lemma C143_units_case_proof : InShape [1]%nat (Others 0 [2; 2]%nat) /\ With 0 0 [1]%nat = [0; 1]%nat.
Proof.
  split; [|reflexivity]. repeat constructor.
Qed.

Lemma C143_covariance_refuted_proof : ~ (forall svd value value' c u f e u' f' e', (forall t j, value' [t; j] = value [t; j] + c j) ->
  IsSvd 2 1 (fun t j => value [t; j]) (svd (rows 2 1 (fun t j => value [t; j]))) -> IsSvd 2 1 (fun t j => value' [t; j]) (svd (rows 2 1 (fun t j => value' [t; j]))) ->
  eof_comp svd [2; 1]%nat value 1 true 0 = Ok (u, f, e) -> eof_comp svd [2; 1]%nat value' 1 true 0 = Ok (u', f', e') -> u' = u).
Proof.
  intro H. set (r2 := sqrt 2). assert (0 < r2) as P by (apply sqrt_lt_R0; lra). assert (r2 * r2 = 2) as Q by (apply sqrt_sqrt; lra).
  set (svd := fun m : matrix => if Req_EM_T (elem m 1 0) 0 then ([[1]; [0]], [2], [[1]]) else ([[1 / r2]; [-1 / r2]], [r2], [[1]])).
  set (value := fun idx : list nat => match idx with [0%nat; _] => 1 | _ => -1 end). set (value' := fun idx : list nat => match idx with [0%nat; _] => 2 | _ => 0 end).
  assert (svd (rows 2 1 (fun t j => value [t; j])) = ([[1 / r2]; [-1 / r2]], [r2], [[1]])) as E1. { unfold svd. destruct (Req_EM_T _ 0) as [E|E]; [|reflexivity]. cbn in E. lra. }
  assert (svd (rows 2 1 (fun t j => value' [t; j])) = ([[1]; [0]], [2], [[1]])) as E2. { unfold svd. destruct (Req_EM_T _ 0) as [E|E]; [reflexivity|]. exfalso. apply E. reflexivity. }
  assert (IsSvd 2 1 (fun t j => value [t; j]) (svd (rows 2 1 (fun t j => value [t; j])))) as S1.
  { rewrite E1. small_svd.
    - intros k l K M. cbn in K, M. destruct k; [|lia]. destruct l; [|lia]. cbn. replace (1 / r2 * (1 / r2) + (-1 / r2 * (-1 / r2) + 0)) with (2 / (r2 * r2)) by (field; lra). rewrite Q. field.
    - intros k l K M. cbn in K, M. destruct k; [|lia]. destruct l; [|lia]. cbn. lra.
    - intros k l K M. cbn in M. destruct l; [|lia]. destruct k; [|lia]. cbn. lra.
    - intros t j T J. destruct j; [|lia]. destruct t as [|[|t]]; [| |lia]; cbn; field; lra. }
  assert (IsSvd 2 1 (fun t j => value' [t; j]) (svd (rows 2 1 (fun t j => value' [t; j])))) as S2.
  { rewrite E2. small_svd.
    - intros k l K M. cbn in K, M. destruct k; [|lia]. destruct l; [|lia]. cbn. lra.
    - intros k l K M. cbn in K, M. destruct k; [|lia]. destruct l; [|lia]. cbn. lra.
    - intros k l K M. cbn in M. destruct l; [|lia]. destruct k; [|lia]. cbn. lra.
    - intros t j T J. destruct j; [|lia]. destruct t as [|[|t]]; [| |lia]; cbn; lra. }
  assert (forall va, DataRows [2; 1]%nat va 0 (fun t j => va [t; j])) as DR.
  { intros va t idx T I. unfold InShape in I. cbn in I. inversion I as [|i n q l L F]; subst. inversion F; subst. assert (i = 0)%nat as -> by lia. reflexivity. }
  assert (forall va, IsSvd 2 1 (fun t j => va [t; j]) (svd (rows 2 1 (fun t j => va [t; j]))) -> exists f e, eof_comp svd [2; 1]%nat va 1 true 0 = Ok (map (firstn 1) (fst (fst (svd (rows 2 1 (fun t j => va [t; j]))))), f, e)) as A.
  { intros va S. rewrite (eof_comp_eq _ _ _ _ _ _ (fun t j => va [t; j])); [|cbn; lia|repeat constructor|apply DR]. cbn [bind].
    rewrite (answer_ok svd [2; 1]%nat 1 0 (fun t j => va [t; j]) S); [|cbn; lia|cbn; lia]. do 2 eexists. reflexivity. }
  destruct (A value S1) as (f & e & A1). destruct (A value' S2) as (f' & e' & A2).
  assert (forall t j, value' [t; j] = value [t; j] + 1) as C. { intros t j. destruct t; cbn; lra. }
  specialize (H svd value value' (fun _ => 1) _ _ _ _ _ _ C S1 S2 A1 A2). rewrite E1, E2 in H. cbn in H. injection H as H _. assert (1 = r2) as Z. { apply (Rmult_eq_reg_r (/ r2)); [|apply Rinv_neq_0_compat; lra]. rewrite Rinv_r by lra. unfold Rdiv in H. rewrite Rmult_1_l in *. lra. } rewrite <- Z in Q. lra.
Qed.

Lemma C143_values_refuted_proof : ~ (forall svd value u f e, IsSvd 2 2 (fun t j => value [t; j]) (svd (rows 2 2 (fun t j => value [t; j]))) ->
  eof_comp svd [2; 2]%nat value 2 true 0 = Ok (u, f, e) -> f = map Some (snd (fst (svd (rows 2 2 (fun t j => value [t; j])))))).
Proof.
  intro H. assert (forall t j, (t < 2)%nat -> (j < 2)%nat -> small t j = two_by_two [t; j]) as E. { intros t j T J. destruct t as [|[|t]]; [| |lia]; (destruct j as [|[|j]]; [| |lia]); reflexivity. }
  assert (IsSvd 2 2 (fun t j => two_by_two [t; j]) (easy_svd (rows 2 2 (fun t j => two_by_two [t; j])))) as S.
  { destruct (easy_ok (rows 2 2 (fun t j => two_by_two [t; j]))) as [A B C D P]. constructor; assumption. }
  specialize (H easy_svd two_by_two _ _ _ S C143_whole_case_proof). cbn in H. injection H as H _. lra.
Qed.

Lemma C143_refused_proof : forall svd shape value neof covariance dim,
  ((length shape <= dim)%nat -> eof_comp svd shape value neof covariance dim = Err IndexError) /\
  (Forall (lt 0) shape -> (dim < length shape)%nat ->
    ((Nat.min (nth dim shape 0) (Size (Others dim shape)) < neof)%nat -> eof_comp svd shape value neof true dim = Err ValueError) /\
    ((neof <= 1)%nat -> length shape = 1%nat -> eof_comp svd shape value neof true dim = Err IndexError) /\
    (forall x j, DataRows shape value dim x -> (j < Size (Others dim shape))%nat -> Deviation (nth dim shape 0%nat) (fun t => x t j) = 0 ->
      eof_comp svd shape value neof false dim = Err ValueError)).
Proof.
  intros svd shape value neof cov dim. split.
  - intro H. unfold eof_comp. assert (Nat.ltb dim (length shape) = false) as -> by (apply Nat.ltb_ge; exact H). reflexivity.
  - intros F H. split; [|split].
    + intro M. rewrite (eof_comp_eq _ _ _ _ _ _ _ H F (canonical_rows _ _ _)). cbn [bind]. unfold answer. destruct (svd _) as [[u s] v]. apply Nat.ltb_lt in M. rewrite M. reflexivity.
    + intros M L. rewrite (eof_comp_eq _ _ _ _ _ _ _ H F (canonical_rows _ _ _)). cbn [bind]. unfold answer. destruct (svd _) as [[u s] v]. destruct shape as [|n [|m shape]]; try discriminate. cbn in H. assert (dim = 0)%nat as -> by lia.
      inversion F; subst. change (Size (Others 0 [n])) with 1%nat. change (nth 0 [n] 0%nat) with n. destruct (Nat.ltb_spec (Nat.min n 1) neof) as [X|X]; [lia|reflexivity].
    + intros x j D J Z. rewrite (eof_comp_eq _ _ _ _ _ _ x H F D). rewrite (standardise_err _ _ x j J Z). reflexivity.
Qed.

Lemma C143_refused_case_proof : (Nat.min (nth 0 [2; 2] 0) (Size (Others 0 [2; 2])) < 3)%nat /\ Deviation 2 (fun _ => 5) = 0.
Proof.
  split; [cbn; lia|]. unfold Deviation. transitivity (sqrt 0); [f_equal|apply sqrt_0]. unfold Mean. cbn. field.
Qed.

Lemma C144_anomalies_proof : forall svd numpcs eofin nd np eof pc f x, Calc_EOF svd numpcs eofin nd np = Ok (eof, pc, f, x) ->
  length x = length eofin /\ Years x nd np /\
  forall d j, (d < nd)%nat -> (j < np)%nat ->
    MjoSpec.Detrended (map (fun y => record_ eofin y d j) (seq 0 (length eofin))) (map (fun y => record_ x y d j) (seq 0 (length eofin))).
Proof.
  intros svd numpcs e nd np eof pc f x A. destruct (calc_facts _ _ _ _ _ _ _ _ _ A) as (-> & _). split; [apply anomalies_length|]. split.
  - unfold Years, anomalies. apply Forall_forall. intros year I. apply in_map_iff in I. destruct I as (y & <- & _). split; [rewrite map_length, seq_length; reflexivity|].
    apply Forall_forall. intros row I. apply in_map_iff in I. destruct I as (d & <- & _). rewrite map_length, seq_length. reflexivity.
  - intros d j D J. rewrite series_anomalies by assumption. rewrite <- series_records. apply detrend_is.
Qed.

Lemma C144_anomalies_case_proof : exists eof pc f, Calc_EOF (fun _ => hump_svd) 1 hump 1 1 = Ok (eof, pc, f, hump).
Proof.
  unfold Calc_EOF. cbv zeta. rewrite hump_same. do 3 eexists. reflexivity.
Qed.

Lemma C144_again_proof : forall svd numpcs eofin nd np eof pc f x, Calc_EOF svd numpcs eofin nd np = Ok (eof, pc, f, x) ->
  Calc_EOF svd numpcs x nd np = Ok (eof, pc, f, x).
Proof.
  intros svd numpcs e nd np eof pc f x A. pose proof A as B. destruct (calc_facts _ _ _ _ _ _ _ _ _ A) as (-> & _). rewrite <- B. unfold Calc_EOF. cbv zeta. rewrite anomalies_again, anomalies_length. reflexivity.
Qed.

Lemma C144_reconstruct_proof : forall svd numpcs eofin nd np eof pc f x, Calc_EOF svd numpcs eofin nd np = Ok (eof, pc, f, x) ->
  let n := (length eofin * nd)%nat in let z := fun t j => record_ x (t / nd) (t mod nd) j in let s := snd (fst (svd (concat x))) in
  IsSvd n np z (svd (concat x)) -> (forall k, (k < numpcs)%nat -> 0 < nth k s 0) ->
  exists c a g m, Present pc n numpcs c /\
    (forall k, (k < numpcs)%nat -> Mean n (fun t => c t k) = 0) /\
    (forall k l, (k < numpcs)%nat -> (l < numpcs)%nat -> Sum n (fun t => c t k * c t l) / (INR n - 1) = if Nat.eqb k l then 1 else 0) /\
    f = map Some g /\ reconstruct_heights numpcs np eof pc = Ok m /\ Present m n np a /\
    Energy n np (fun t j => z t j - a t j) = (1 - Sum numpcs (fun k => nth k g 0) / 100) * Energy n np z /\
    ((forall k, (numpcs <= k < Nat.min n np)%nat -> nth k s 0 = 0) -> forall t j, (t < n)%nat -> (j < np)%nat -> a t j = z t j).
Proof.
  intros svd numpcs e nd np eof pc f x A n z s HS P. destruct (calc_facts _ _ _ _ _ _ _ _ _ A) as (X & CX & N2 & NP & ND & NM & PC & EO & FF). fold n in CX, N2, NM, PC, EO, FF.
  unfold s in *. clear s. rewrite CX in HS, P |- *. change (flatrec x nd) with z in *. set (data := rows n np z) in *. set (dd := svd data) in *. set (s := fun k => nth k (snd (fst dd)) 0) in *. change (forall k, (k < numpcs)%nat -> 0 < s k) in P.
  set (u := elem (fst (fst dd))). set (v := elem (snd dd)). set (K := sqrt (INR n - 1)).
  assert (2 <= INR n) as RN by (apply le_INR in N2; cbn in N2; lra). assert (0 < K) as KP by (apply sqrt_lt_R0; lra). assert (K * K = INR n - 1) as KK by (apply sqrt_sqrt; lra).
  assert (forall j, (j < np)%nat -> Sum n (fun t => z t j) = 0) as ZC. { intros j J. unfold z, n. rewrite X. apply (flat_column_zero e nd np j ND J). }
  destruct (svd_left _ _ _ _ HS) as [_ U3]. destruct (svd_right _ _ _ _ HS) as [_ V3].
  assert (pc = map (fun t => map (fun k => Some (u t k * K)) (seq 0 numpcs)) (seq 0 n)) as PCE.
  { rewrite PC. unfold pcs. apply map_ext. intro t. apply map_ext_in. intros k I. apply in_seq in I. cbv zeta. apply (scaled_pc (u t k) (s k) n RN). apply P. lia. }
  assert (eof = map (fun k => map (fun j => Some (s k * v k j / K)) (seq 0 np)) (seq 0 numpcs)) as EOE.
  { rewrite EO. unfold eofs_cov. apply map_ext_in. intros k I. apply in_seq in I. apply map_ext_in. intros j J. apply in_seq in J.
    assert (map (fun row => nth k row None) pc = map (fun t => Some (u t k * K)) (seq 0 n)) as E0. { rewrite PCE, map_map. apply map_ext. intro t. rewrite nth_map_seq by lia. reflexivity. }
    rewrite E0. rewrite (oall_some (fun t => u t k * K)). f_equal. unfold data. rewrite column_rows by lia. rewrite (covariance_centered (fun t => u t k * K) (fun t => z t j)); [|lia|apply ZC; lia].
    rewrite (sum_ext n _ (fun t => K * (u t k * z t j))) by (intros; ring). rewrite sum_scale. assert (Sum n (fun t => u t k * z t j) = s k * v k j) as -> by (apply (svd_pattern n np z dd HS k j); lia). rewrite <- KK. field. lra. }
  assert (numpcs = 0%nat \/ 0 < Energy n np z) as EP.
  { destruct numpcs as [|q]; [left; reflexivity|right]. rewrite (svd_energy n np z dd HS). apply (Rlt_le_trans _ (s 0%nat * s 0%nat)); [assert (0 < s 0%nat) by (apply P; lia); nra|]. apply (sum_le_part _ (fun k => s k * s k)); [intros; apply Rle_0_sqr|lia]. }
  assert (f = map Some (map (fun k => s k * s k / Energy n np z * 100) (seq 0 numpcs))) as FE.
  { rewrite FF. assert (rsum (map (fun v => v * v / (INR n - 1)) (snd (fst dd))) = Energy n np z / (INR n - 1)) as ->.
    { rewrite (svd_energy n np z dd HS), <- (svd_length _ _ _ _ HS). rewrite (list_nths 0 (snd (fst dd))) at 1. rewrite map_map, rsum_map.
      transitivity (/ (INR n - 1) * Sum (length (snd (fst dd))) (fun k => nth k (snd (fst dd)) 0 * nth k (snd (fst dd)) 0)); [rewrite <- sum_scale; apply sum_ext; intros k _; unfold Rdiv; ring|unfold Rdiv; apply Rmult_comm]. }
    rewrite (list_nths 0 (snd (fst dd))), map_map. assert (length (snd (fst dd)) = Nat.min n np) as SL by (apply (svd_length _ _ _ _ HS)). rewrite SL. rewrite firstn_map. replace (firstn numpcs (seq 0 (Nat.min n np))) with (seq 0 numpcs).
    - rewrite !map_map. apply map_ext_in. intros k I. apply in_seq in I. destruct EP as [->|EP]; [lia|]. rewrite over_ok by (apply Rgt_not_eq, Rdiv_lt_0_compat; lra). f_equal. unfold s. field. split; lra.
    - replace (Nat.min n np) with (numpcs + (Nat.min n np - numpcs))%nat by lia. rewrite seq_app, firstn_app, seq_length, Nat.sub_diag, firstn_O, app_nil_r. symmetry. apply firstn_all2. rewrite seq_length. lia. }
  pose proof (reconstruct_ok numpcs n np eof pc (fun t k => Some (u t k * K)) (eq_trans (f_equal (@length _) EOE) (eq_trans (map_length _ _) (seq_length _ _))) PCE) as RE.
  exists (fun t k => u t k * K), (combo numpcs u v s), (map (fun k => s k * s k / Energy n np z * 100) (seq 0 numpcs)). eexists.
  split; [exact PCE|]. split; [|split; [|split; [exact FE|split; [exact RE|split; [|split]]]]].
  - intros k I. rewrite (mean_ext n _ (fun t => K * u t k)) by (intros; ring). rewrite mean_scale. unfold Mean. assert (Sum n (fun t => u t k) = 0) as -> by (apply (left_mean n np z dd k HS ZC); [lia|apply Rgt_not_eq, P; exact I]). unfold Rdiv. ring.
  - intros k l I J. rewrite (sum_ext n _ (fun t => (K * K) * (u t k * u t l))) by (intros; ring). rewrite sum_scale, KK. assert (Sum n (fun t => u t k * u t l) = if Nat.eqb k l then 1 else 0) as -> by (apply U3; lia). destruct (Nat.eqb k l); field; lra.
  - unfold Present. apply map_ext. intro t. apply map_ext_in. intros j J. apply in_seq in J. unfold combo, Sum. rewrite <- osum_some. f_equal. apply map_ext_in. intros k I. apply in_seq in I.
    rewrite EOE, nth_map_seq by lia. rewrite nth_map_seq by lia. cbn [omul]. f_equal. field. lra.
  - etransitivity; [apply (svd_residual n np z dd HS numpcs NM)|]. change (fun k => nth k (snd (fst dd)) 0 * nth k (snd (fst dd)) 0) with (fun k => s k * s k). destruct EP as [E0|EP].
    + clear - E0. subst numpcs. cbn. lra.
    + rewrite (sum_ext numpcs (fun k => nth k _ 0) (fun k => (100 / Energy n np z) * (s k * s k))); [rewrite sum_scale; field; lra|]. intros k I. rewrite nth_map_seq by exact I. unfold Rdiv. ring.
  - intros R0 t j T J. assert (z t j - combo numpcs u v s t j = 0) as Z; [|lra]. apply (energy_zero n np (fun t j => z t j - combo numpcs u v s t j)); [|exact T|exact J].
    etransitivity; [apply (svd_residual n np z dd HS numpcs NM)|]. rewrite (svd_energy n np z dd HS). replace (Nat.min n np) with (numpcs + (Nat.min n np - numpcs))%nat by lia. rewrite sum_app.
    rewrite (sum_zero (Nat.min n np - numpcs)); [lra|]. intros k I. assert (nth (numpcs + k) (snd (fst dd)) 0 = 0) as R1 by (apply R0; lia). transitivity (0 * 0); [apply f_equal2; exact R1|ring].
Qed.

Lemma C144_reconstruct_case_proof : IsSvd 3 1 (fun t j => record_ hump (t / 1) (t mod 1) j) hump_svd /\ 0 < nth 0 (snd (fst hump_svd)) 0.
Proof.
  split; [exact hump_ok|]. cbn. apply root6.
Qed.

Lemma C144_all_proof : forall svd eofin nd np eof pc f x, let n := (length eofin * nd)%nat in (n <= np)%nat ->
  Calc_EOF svd n eofin nd np = Ok (eof, pc, f, x) -> IsSvd n np (fun t j => record_ x (t / nd) (t mod nd) j) (svd (concat x)) ->
  reconstruct_heights n np eof pc = Ok (repeat (repeat None np) n).
Proof.
  intros svd e nd np eof pc f x n LE A HS. destruct (calc_facts _ _ _ _ _ _ _ _ _ A) as (X & CX & N2 & NP & ND & NM & PC & EO & FF). fold n in CX, N2, NM, PC, EO, FF.
  rewrite CX in HS. set (z := fun t j => record_ x (t / nd) (t mod nd) j) in *. change (flatrec x nd) with z in *. set (data := rows n np z) in *. set (dd := svd data) in *.
  assert (forall j, (j < np)%nat -> Sum n (fun t => z t j) = 0) as ZC. { intros j J. unfold z, n. rewrite X. apply (flat_column_zero e nd np j ND J). }
  assert (Nat.min n np = n) as MN by lia. destruct (svd_left _ _ _ _ HS) as [_ U3]. rewrite MN in U3.
  assert (exists k, (k < n)%nat /\ nth k (snd (fst dd)) 0 = 0) as (k & K & S0).
  { destruct (decide_all (fun k => nth k (snd (fst dd)) 0 <> 0) n (decide_zero (fun k => nth k (snd (fst dd)) 0))) as [Y|(k & K & N)]; [|exists k; split; [exact K|apply real_back; exact N]].
    exfalso. assert (1 = 0) as W; [|lra]. apply (complete n (elem (fst (fst dd))) (fun _ => 1) U3) with (t := 0%nat); [|lia].
    intros k K. rewrite (sum_ext n _ (fun t => elem (fst (fst dd)) t k)) by (intros; ring). apply (left_mean n np z dd k HS ZC); [lia|apply Y; exact K]. }
  rewrite (reconstruct_ok n n np eof pc (fun t k => over (entry (fst (fst dd)) t k * nth k (snd (fst dd)) 0) (sqrt (nth k (snd (fst dd)) 0 * nth k (snd (fst dd)) 0 / (INR n - 1))))).
  - f_equal. apply map_repeat_all. intro t. apply map_repeat_all. intro j. apply osum_none. apply in_map_iff. exists k. split; [|apply in_seq; lia].
    rewrite missing_pc by exact S0. reflexivity.
  - rewrite EO. unfold eofs_cov. rewrite map_length, seq_length. reflexivity.
  - exact PC.
Qed.

Lemma C144_all_case_proof : exists eof pc f, Calc_EOF (fun _ => flat_svd) 2 flat 1 2 = Ok (eof, pc, f, flat) /\
  IsSvd 2 2 (fun t j => record_ flat (t / 1) (t mod 1) j) flat_svd.
Proof.
  unfold Calc_EOF. cbv zeta. rewrite flat_same. do 3 eexists. split; [reflexivity|exact flat_ok].
Qed.

Lemma C144_all_refuted_proof : ~ (forall svd eofin nd np eof pc f x m, let n := (length eofin * nd)%nat in (n <= np)%nat ->
  Calc_EOF svd n eofin nd np = Ok (eof, pc, f, x) -> IsSvd n np (fun t j => record_ x (t / nd) (t mod nd) j) (svd (concat x)) ->
  reconstruct_heights n np eof pc = Ok m -> Present m n np (fun t j => record_ x (t / nd) (t mod nd) j)).
Proof.
  intro H. destruct C144_all_case_proof as (eof & pc & f & A & S). pose proof (C144_all_proof (fun _ => flat_svd) flat 1 2 eof pc f flat (Nat.le_refl _) A S) as B.
  specialize (H (fun _ => flat_svd) flat 1%nat 2%nat eof pc f flat _ (Nat.le_refl _) A S B). discriminate.
Qed.

Lemma C144_refused_proof : forall svd numpcs eofin nd np,
  ((2 <= length eofin * nd)%nat -> (0 < np)%nat -> (Nat.min (length eofin * nd) np < numpcs)%nat -> Calc_EOF svd numpcs eofin nd np = Err ValueError) /\
  (forall eof pc, length eof <> numpcs \/ Exists (fun row => length row <> numpcs) pc -> reconstruct_heights numpcs np eof pc = Err ValueError).
Proof.
  intros svd numpcs e nd np. split.
  - intros H P M. unfold Calc_EOF. cbv zeta. assert (Nat.ltb (length e * nd) 2 = false) as -> by (apply Nat.ltb_ge; exact H). assert (Nat.eqb np 0 = false) as -> by (apply Nat.eqb_neq; lia). cbn [orb].
    destruct (svd _) as [[u s] v]. apply Nat.ltb_lt in M. rewrite M. reflexivity.
  - intros eof pc [N|N]; unfold reconstruct_heights.
    + apply Nat.eqb_neq in N. rewrite N. reflexivity.
    + assert (existsb (fun row : list (option R) => negb (Nat.eqb (length row) numpcs)) pc = true) as ->; [|rewrite Bool.orb_true_r; reflexivity]. apply Exists_exists in N. destruct N as (row & I & N). apply existsb_exists. exists row. split; [exact I|]. apply Nat.eqb_neq in N. rewrite N. reflexivity.
Qed.

Lemma C144_refused_case_proof : (Nat.min (length hump * 1) 1 < 2)%nat.
Proof.
  cbn. lia.
Qed.

