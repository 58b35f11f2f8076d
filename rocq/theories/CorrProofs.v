(** Proofs about correlations. *)
From Coq Require Import Reals String Sorting.Sorted Sorting.Permutation.
From Verif Require Import PyBase BlockProofs ActivityModel ActivitySpec ActivityProofs CorrModel CorrSpec.
From Coq Require Import Lia List Lra.
Import ListNotations.
Open Scope nat_scope.

(** ** Comparisons *)
Lemma real_eqb_iff a b : real_eqb a b = true <-> a = b.
Proof. unfold real_eqb. destruct (Req_EM_T a b); split; congruence. Qed.
Lemma real_ltb_iff a b : real_ltb a b = true <-> (a < b)%R.
Proof. unfold real_ltb. destruct (Rlt_dec a b); split; congruence || tauto. Qed.
Lemma bool_iff (a b : bool) : (a = true <-> b = true) -> a = b.
Proof. destruct a, b; intuition congruence. Qed.
Lemma real_ltb_false a b : real_ltb a b = false <-> (b <= a)%R.
Proof. unfold real_ltb. destruct (Rlt_dec a b); split; try congruence; intros; lra. Qed.

(** ** Sorting *)
Lemma insert_perm v l : Permutation (v :: l) (insert_r v l).
Proof. induction l as [|w l IH]; cbn; [reflexivity|]. destruct (Rle_dec v w); [reflexivity|]. rewrite perm_swap. constructor. exact IH. Qed.
Lemma sort_perm l : Permutation l (sort_r l).
Proof. induction l as [|v l IH]; cbn; [reflexivity|]. rewrite <- insert_perm. constructor. exact IH. Qed.
Lemma insert_sorted v l : StronglySorted Rle l -> StronglySorted Rle (insert_r v l).
Proof.
  induction 1 as [|w l H IH F]; cbn; [repeat constructor|]. destruct (Rle_dec v w) as [L|L].
  - constructor; [constructor; assumption|]. constructor; [exact L|]. rewrite Forall_forall in *. intros u I. specialize (F u I). lra.
  - constructor; [exact IH|]. apply Forall_forall. intros u I. apply (Permutation_in u (Permutation_sym (insert_perm v l))) in I. destruct I as [<-|I]; [lra|]. rewrite Forall_forall in F. apply F. exact I.
Qed.
Lemma sort_sorted l : StronglySorted Rle (sort_r l).
Proof. induction l; cbn; [constructor|]. apply insert_sorted. assumption. Qed.
Lemma sorted_unique l : StronglySorted Rle l -> forall m, StronglySorted Rle m -> Permutation l m -> l = m.
Proof.
  induction 1 as [|a l H IH F]; intros m HM P.
  - apply Permutation_nil in P. congruence.
  - destruct m as [|b m]; [apply Permutation_sym, Permutation_nil in P; discriminate|]. inversion HM as [|? ? HM' FM]; subst. rewrite Forall_forall in F, FM.
    assert (a = b).
    { assert (A : In a (b :: m)) by (apply (Permutation_in _ P); left; reflexivity). assert (B : In b (a :: l)) by (apply (Permutation_in _ (Permutation_sym P)); left; reflexivity).
      destruct A as [|A]; [congruence|]. destruct B as [|B]; [congruence|]. specialize (F _ B). specialize (FM _ A). lra. }
    subst b. f_equal. apply IH; [exact HM'|]. apply Permutation_cons_inv in P. exact P.
Qed.
Lemma sort_is l s : Permutation l s -> StronglySorted Rle s -> sort_r l = s.
Proof. intros P H. apply sorted_unique; [apply sort_sorted|exact H|]. rewrite <- sort_perm. exact P. Qed.
Lemma sort_len l : length (sort_r l) = length l.
Proof. apply Permutation_length, Permutation_sym, sort_perm. Qed.
Lemma sorted_map f l : (forall u v, (u <= v -> f u <= f v)%R) -> StronglySorted Rle l -> StronglySorted Rle (map f l).
Proof.
  intros M. induction 1 as [|a l H IH F]; cbn; [constructor|]. constructor; [exact IH|]. apply Forall_forall. intros u I. apply in_map_iff in I. destruct I as (v & <- & I). apply M. rewrite Forall_forall in F. auto.
Qed.
Lemma sorted_app l m : StronglySorted Rle l -> StronglySorted Rle m -> (forall u v, In u l -> In v m -> (u <= v)%R) -> StronglySorted Rle (l ++ m).
Proof.
  induction 1 as [|a l H IH F]; intros HM B; [exact HM|]. cbn. constructor.
  - apply IH; [exact HM|]. intros; apply B; [right; assumption|assumption].
  - apply Forall_app. split; [exact F|]. apply Forall_forall. intros v I. apply B; [left; reflexivity|exact I].
Qed.
Lemma sorted_rev_opp l : StronglySorted Rle l -> StronglySorted Rle (rev (map Ropp l)).
Proof.
  induction 1 as [|a l H IH F]; cbn; [constructor|]. apply sorted_app; [exact IH|repeat constructor|]. intros u v I [<-|[]].
  apply in_rev in I. apply in_map_iff in I. destruct I as (w & <- & I). rewrite Forall_forall in F. specialize (F w I). lra.
Qed.
Lemma sorted_nth l i j a b : StronglySorted Rle l -> nth_error l i = Some a -> nth_error l j = Some b -> i <= j -> (a <= b)%R.
Proof.
  intros H. revert i j. induction H as [|c l H IH F]; intros i j A B L; [destruct i; discriminate|]. destruct i as [|i].
  - cbn in A. injection A as ->. destruct j as [|j]; cbn in B; [injection B as ->; lra|]. rewrite Forall_forall in F. apply F. apply nth_error_In in B. exact B.
  - destruct j as [|j]; [lia|]. cbn in A, B. apply (IH i j); auto. lia.
Qed.

(** ** Medians *)
Lemma half_odd n : Nat.odd n = true -> (n - 1) / 2 = n / 2.
Proof. intros O. apply Nat.odd_spec in O. destruct O as [k ->]. replace (2 * k + 1 - 1) with (k * 2) by lia. replace (2 * k + 1) with (1 + k * 2) by lia. rewrite Nat.div_add by lia. rewrite Nat.div_mul by lia. reflexivity. Qed.
Lemma half_even n : 0 < n -> Nat.odd n = false -> (n - 1) / 2 = n / 2 - 1.
Proof.
  intros P O. rewrite <- Nat.negb_even in O. apply Bool.negb_false_iff, Nat.even_spec in O. destruct O as [k ->]. replace (2 * k - 1) with (1 + (k - 1) * 2) by lia. rewrite Nat.div_add by lia. replace (2 * k) with (k * 2) by lia. rewrite Nat.div_mul by lia. cbn. lia.
Qed.
Lemma nth_there {A} (l : list A) i : i < length l -> exists a, nth_error l i = Some a.
Proof. intros L. destruct (nth_error l i) eqn:E; [eauto|]. apply nth_error_None in E. lia. Qed.
Lemma median_iff l m : median l = Some m <-> Median l m.
Proof.
  unfold median. rewrite sort_len. split.
  - destruct (Nat.eqb_spec (length l) 0) as [|N]; [discriminate|]. intros E. exists (sort_r l).
    assert (B1 : length l / 2 < length (sort_r l)) by (rewrite sort_len; apply Nat.div_lt; lia).
    assert (B0 : (length l - 1) / 2 < length (sort_r l)) by (rewrite sort_len; apply Nat.div_lt_upper_bound; lia).
    destruct (nth_there _ _ B0) as [a A]. destruct (nth_there _ _ B1) as [b B]. exists a, b. rewrite sort_len.
    split; [apply sort_perm|]. split; [apply sort_sorted|]. split; [exact A|]. split; [exact B|].
    destruct (Nat.odd (length l)) eqn:O.
    + rewrite (half_odd _ O) in A. rewrite B in A, E. injection A as ->. injection E as ->. lra.
    + rewrite (half_even (length l)) in A by (auto; lia). rewrite A, B in E. injection E as <-. lra.
  - intros (s & a & b & P & H & A & B & M). rewrite (sort_is l s P H). rewrite <- (Permutation_length P) in A, B.
    destruct (Nat.eqb_spec (length l) 0) as [Z|N].
    { exfalso. rewrite (Permutation_length P) in Z. destruct s; [|discriminate]. destruct (length l / 2); discriminate. }
    destruct (Nat.odd (length l)) eqn:O.
    + rewrite (half_odd _ O) in A. rewrite A in B. injection B as ->. rewrite A. f_equal. lra.
    + rewrite (half_even (length l)) in A by (auto; lia). rewrite A, B. f_equal. lra.
Qed.
Lemma median_there l : l <> [] -> exists m, median l = Some m.
Proof.
  intros N. unfold median. rewrite sort_len. destruct (Nat.eqb_spec (length l) 0) as [Z|NZ]; [destruct l; [contradiction|discriminate]|].
  destruct (nth_there (sort_r l) (length l / 2)) as [b B]. { rewrite sort_len. apply Nat.div_lt; lia. }
  destruct (nth_there (sort_r l) (length l / 2 - 1)) as [a A]. { rewrite sort_len. assert (length l / 2 < length l) by (apply Nat.div_lt; lia). lia. }
  rewrite A, B. destruct (Nat.odd (length l)); eauto.
Qed.
Lemma Median_affine l m a b : (0 < a)%R -> Median l m -> Median (map (fun v => a * v + b)%R l) (a * m + b)%R.
Proof.
  intros P (s & u & v & PE & H & U & V & E). exists (map (fun v => a * v + b)%R s), (a * u + b)%R, (a * v + b)%R. rewrite map_length, !nth_error_map, U, V.
  split; [apply Permutation_map; exact PE|]. split; [|split; [reflexivity|split; [reflexivity|]]].
  - apply sorted_map; [|exact H]. intros x y L. nra.
  - replace (2 * (a * m + b))%R with (a * (2 * m) + 2 * b)%R by ring. rewrite E. ring.
Qed.
Lemma rev_at {A} (l : list A) i : i < length l -> nth_error (rev l) i = nth_error l (length l - 1 - i).
Proof.
  intros L. destruct (nth_there l (length l - 1 - i) ltac:(lia)) as [a E]. rewrite E.
  rewrite (nth_error_nth' (rev l) a) by (rewrite rev_length; exact L). f_equal. rewrite rev_nth by exact L. apply nth_error_nth. replace (length l - S i) with (length l - 1 - i) by lia. exact E.
Qed.
Lemma Median_opp l m : Median l m -> Median (map Ropp l) (- m)%R.
Proof.
  intros (s & u & v & PE & H & U & V & E). exists (rev (map Ropp s)), (- v)%R, (- u)%R. rewrite rev_length, map_length.
  assert (N : 0 < length s) by (destruct s; [destruct (length (@nil R) / 2); discriminate|cbn; lia]).
  assert (H1 : length s / 2 < length s) by (apply Nat.div_lt; lia). assert (H0 : (length s - 1) / 2 < length s) by (apply Nat.div_lt_upper_bound; lia).
  assert (X1 : length s - 1 - (length s - 1) / 2 = length s / 2).
  { destruct (Nat.odd (length s)) eqn:O.
    - rewrite half_odd by exact O. apply Nat.odd_spec in O. destruct O as [k K]. rewrite K. replace (2 * k + 1) with (1 + k * 2) at 2 3 by lia. rewrite Nat.div_add by lia. change (1 / 2) with 0. lia.
    - rewrite half_even by auto. rewrite <- Nat.negb_even in O. apply Bool.negb_false_iff, Nat.even_spec in O. destruct O as [k K]. rewrite K. replace (2 * k / 2) with k by (replace (2 * k) with (k * 2) by lia; rewrite Nat.div_mul by lia; reflexivity). lia. }
  split; [rewrite <- Permutation_rev; apply Permutation_map; exact PE|]. split; [apply sorted_rev_opp; exact H|]. split; [|split; [|lra]].
  - rewrite rev_at by (rewrite map_length; exact H0). rewrite map_length, X1, nth_error_map, V. reflexivity.
  - rewrite rev_at by (rewrite map_length; exact H1). rewrite map_length. replace (length s - 1 - length s / 2) with ((length s - 1) / 2) by lia. rewrite nth_error_map, U. reflexivity.
Qed.
Lemma median_affine l a b : (0 < a)%R -> median (map (fun v => a * v + b)%R l) = option_map (fun v => a * v + b)%R (median l).
Proof.
  intros P. destruct l as [|x l]; [reflexivity|]. destruct (median_there (x :: l)) as [m M]; [discriminate|]. rewrite M. apply median_iff. apply Median_affine; [exact P|]. apply median_iff. exact M.
Qed.
Lemma median_opp l : median (map Ropp l) = option_map Ropp (median l).
Proof.
  destruct l as [|x l]; [reflexivity|]. destruct (median_there (x :: l)) as [m M]; [discriminate|]. rewrite M. apply median_iff. apply Median_opp. apply median_iff. exact M.
Qed.
Lemma Median_unique l m m' : Median l m -> Median l m' -> m = m'.
Proof. intros A B. apply median_iff in A, B. congruence. Qed.
Lemma center_iff x m d : center x = Some (m, d) <-> Center x m d.
Proof.
  unfold center, Center. split.
  - destruct (median x) as [m0|] eqn:E; [|discriminate]. destruct (median (map (fun v => Rabs (v - m0)) x)) as [d0|] eqn:F; [|discriminate]. intros [= -> ->]. apply median_iff in E, F. auto.
  - intros [A B]. apply median_iff in A, B. rewrite A, B. reflexivity.
Qed.
Lemma center_none x : center x = None <-> x = [].
Proof.
  split; [|intros ->; reflexivity]. intros E. destruct x as [|v x]; [reflexivity|]. exfalso. unfold center in E. destruct (median_there (v :: x)) as [m M]; [discriminate|]. rewrite M in E.
  destruct (median_there (map (fun w => Rabs (w - m)) (v :: x))) as [d D]; [discriminate|]. rewrite D in E. discriminate.
Qed.
Lemma center_affine x a b : (0 < a)%R -> center (map (fun v => a * v + b)%R x) = option_map (fun c => (a * fst c + b, a * snd c))%R (center x).
Proof.
  intros P. unfold center. rewrite median_affine by exact P. destruct (median x) as [m|]; [|reflexivity]. cbn [option_map]. rewrite map_map.
  replace (map (fun v => Rabs (a * v + b - (a * m + b))) x) with (map (fun v => a * v + 0)%R (map (fun v => Rabs (v - m)) x)).
  - rewrite median_affine by exact P. destruct (median _); [|reflexivity]. cbn. rewrite Rplus_0_r. reflexivity.
  - rewrite map_map. apply map_ext. intros v. replace (a * v + b - (a * m + b))%R with (a * (v - m))%R by ring. rewrite Rabs_mult, (Rabs_right a) by lra. ring.
Qed.
Lemma center_opp x : center (map Ropp x) = option_map (fun c => (- fst c, snd c))%R (center x).
Proof.
  unfold center. rewrite median_opp. destruct (median x) as [m|]; [|reflexivity]. cbn [option_map]. rewrite map_map.
  replace (map (fun v => Rabs (- v - - m)) x) with (map (fun v => Rabs (v - m)) x); [destruct (median _); reflexivity|].
  apply map_ext. intros v. replace (- v - - m)%R with (- (v - m))%R by ring. rewrite Rabs_Ropp. reflexivity.
Qed.
Lemma mad_nonneg x m d : Center x m d -> (0 <= d)%R.
Proof.
  intros [_ (s & a & b & P & _ & A & B & E)]. assert (F : forall v, In v s -> (0 <= v)%R). { intros v I. apply (Permutation_in _ (Permutation_sym P)) in I. apply in_map_iff in I. destruct I as (w & <- & _). apply Rabs_pos. }
  apply nth_error_In in A, B. apply F in A, B. lra.
Qed.

(** ** Sums *)
Lemma rsum_ext {A} (f g : A -> R) l : (forall a, In a l -> f a = g a) -> rsum (map f l) = rsum (map g l).
Proof. intros H. f_equal. apply map_ext_in. exact H. Qed.
Lemma rsum_scale {A} (k : R) (f : A -> R) l : rsum (map (fun v => k * f v)%R l) = (k * rsum (map f l))%R.
Proof. unfold rsum. induction l as [|a l IH]; cbn; [ring|]. rewrite IH. ring. Qed.
Lemma rsum_app l m : rsum (l ++ m) = (rsum l + rsum m)%R.
Proof. unfold rsum. induction l as [|a l IH]; cbn; [ring|]. rewrite IH. ring. Qed.
Lemma rsum_perm l m : Permutation l m -> rsum l = rsum m.
Proof. unfold rsum. induction 1; cbn; try lra. Qed.
Lemma prod_sq a : rsum (map (fun v => v * v)%R a) = Product a a.
Proof. unfold rsum, Product. induction a as [|v a IH]; [reflexivity|]. cbn. rewrite IH. reflexivity. Qed.
Lemma prod_eq a b : rsum (map (fun p => fst p * snd p)%R (combine a b)) = Product a b.
Proof. reflexivity. Qed.
Lemma prod_comm a b : Product a b = Product b a.
Proof. unfold Product. revert b. induction a as [|v a IH]; intros [|w b]; try reflexivity. cbn. rewrite IH. ring. Qed.
Lemma prod_scale k a b : Product (map (fun v => k * v)%R a) b = (k * Product a b)%R.
Proof. unfold Product. revert b. induction a as [|v a IH]; intros [|w b]; cbn; try ring. rewrite IH. ring. Qed.
Lemma prod_opp a b : Product (map Ropp a) b = (- Product a b)%R.
Proof. unfold Product. revert b. induction a as [|v a IH]; intros [|w b]; cbn; try ring. rewrite IH. ring. Qed.
Lemma prod_scale2 k a : Product (map (fun v => k * v)%R a) (map (fun v => k * v)%R a) = (k * k * Product a a)%R.
Proof. rewrite prod_scale, prod_comm, prod_scale. ring. Qed.
Lemma prod_opp2 a : Product (map Ropp a) (map Ropp a) = Product a a.
Proof. rewrite prod_opp, prod_comm, prod_opp. ring. Qed.
Lemma prod_zero a : Product a a = 0%R -> Forall (fun v => v = 0%R) a.
Proof.
  intros E. apply Forall_forall. intros v I. destruct (Req_dec v 0) as [|N]; [assumption|]. exfalso. assert (0 < Product a a)%R by (apply product_pos; eauto). lra.
Qed.
Lemma cosine_bound a b r : Cosine a b r -> (-1 <= r <= 1)%R.
Proof.
  intros (L & PA & PB & E). pose proof (cs_product a b L) as CS. set (A := Product a a) in *. set (B := Product b b) in *. set (D := Product a b) in *.
  assert (SAB : (0 < sqrt (A * B))%R) by (apply sqrt_lt_R0; nra). assert (SQ : (sqrt (A * B) * sqrt (A * B) = A * B)%R) by (apply sqrt_sqrt; nra).
  rewrite <- SQ, <- E in CS. set (q := sqrt (A * B)) in *.
  assert (Q2 : (0 < q * q)%R) by nra. assert (r * r <= 1)%R. { apply (Rmult_le_reg_r (q * q)); [exact Q2|]. replace (r * r * (q * q))%R with (r * q * (r * q))%R by ring. lra. } split; nra.
Qed.
Lemma cosine_self a r : Cosine a a r -> r = 1%R.
Proof. intros (_ & P & _ & E). rewrite sqrt_square in E by lra. apply (Rmult_eq_reg_r (Product a a)); lra. Qed.
Lemma cosine_make a b : length a = length b -> (0 < Product a a)%R -> (0 < Product b b)%R -> Cosine a b (Product a b / sqrt (Product a a * Product b b)).
Proof.
  intros L A B. split; [exact L|]. split; [exact A|]. split; [exact B|]. assert (0 < sqrt (Product a a * Product b b))%R by (apply sqrt_lt_R0; nra). field. lra.
Qed.

(** ** Pearson *)
Lemma constant_iff x : constant x = true <-> AllSame x.
Proof.
  destruct x as [|a x]; [split; [intros _ u v []|reflexivity]|]. unfold constant. rewrite forallb_forall. split.
  - intros H u v Iu Iv. apply H in Iu, Iv. apply real_eqb_iff in Iu, Iv. congruence.
  - intros H v I. apply real_eqb_iff. apply H; [exact I|left; reflexivity].
Qed.
Lemma not_constant x : constant x = false -> (0 < codev_r x x)%R.
Proof.
  intros H. apply varies_pos. destruct x as [|a x]; [discriminate|]. unfold constant in H.
  assert (X : exists v, In v (a :: x) /\ real_eqb v a = false).
  { clear - H. induction (a :: x) as [|v l IH]; [discriminate|]. cbn in H. apply Bool.andb_false_iff in H. destruct H as [H|H]; [exists v; split; [left; reflexivity|exact H]|]. destruct (IH H) as (w & I & E). exists w. split; [right; exact I|exact E]. }
  destruct X as (v & I & E). exists v, a. split; [exact I|]. split; [left; reflexivity|]. intros ->. assert (real_eqb a a = true) by (apply real_eqb_iff; reflexivity). congruence.
Qed.
Lemma pearson_val x y : length x = length y -> constant x = false -> constant y = false ->
  Rmax (Rmin (codev_r x y / (sqrt (codev_r x x) * sqrt (codev_r y y))) 1) (-1) = (Product (devs x) (devs y) / sqrt (Product (devs x) (devs x) * Product (devs y) (devs y)))%R /\
  Cosine (devs x) (devs y) (Product (devs x) (devs y) / sqrt (Product (devs x) (devs x) * Product (devs y) (devs y))).
Proof.
  intros L CX CY. apply not_constant in CX, CY. rewrite !codev_product in *. rewrite <- sqrt_mult_alt by lra.
  assert (C : Cosine (devs x) (devs y) (Product (devs x) (devs y) / sqrt (Product (devs x) (devs x) * Product (devs y) (devs y)))) by (apply cosine_make; [rewrite !devs_len; exact L|assumption|assumption]).
  pose proof (cosine_bound _ _ _ C) as B. split; [|exact C]. rewrite Rmin_left by lra. rewrite Rmax_left by lra. reflexivity.
Qed.
Lemma cosine_corr x y r : x <> [] -> y <> [] -> Cosine (devs x) (devs y) r -> Correlation x y r.
Proof.
  intros NX NY (_ & A & B & E). exists (devs x), (devs y). split; [apply deviation_ok; exact NX|]. split; [apply deviation_ok; exact NY|]. auto.
Qed.
Lemma mean_affine a b x : x <> [] -> mean_r (map (fun v => a * v + b)%R x) = (a * mean_r x + b)%R.
Proof.
  intros N. unfold mean_r. rewrite map_length. assert (NZ : INR (length x) <> 0%R) by (apply not_0_INR; destruct x; [contradiction|discriminate]).
  assert (E : fold_right Rplus 0%R (map (fun v => a * v + b)%R x) = (a * fold_right Rplus 0 x + INR (length x) * b)%R).
  { clear. induction x as [|v x IH]; [cbn; ring|]. cbn [map fold_right length]. rewrite IH, S_INR. ring. }
  rewrite E. field. exact NZ.
Qed.
Lemma devs_affine a b x : devs (map (fun v => a * v + b)%R x) = map (fun v => a * v)%R (devs x).
Proof.
  destruct x as [|v0 x]; [reflexivity|]. unfold devs. rewrite mean_affine by discriminate. rewrite !map_map. apply map_ext. intros v. ring.
Qed.
Lemma constant_map f x : (forall u v, f u = f v -> u = v) -> constant (map f x) = constant x.
Proof.
  intros I. apply bool_iff. rewrite !constant_iff. unfold AllSame. split.
  - intros H u v Iu Iv. apply I. apply H; apply in_map; assumption.
  - intros H u v Iu Iv. apply in_map_iff in Iu, Iv. destruct Iu as (u' & <- & Iu). destruct Iv as (v' & <- & Iv). f_equal. apply H; assumption.
Qed.

(** ** The middle of [corr] *)
Definition core (ppf : R -> R) (a b : list R) (method : string) : res table :=
    r <- (if String.eqb method "pearson" then pearsonr a b
          else if existsb (String.eqb method) ["spearman"; "kendall"]%string then Err NotModelled
          else if String.eqb method "bicor" then bicor a b
          else if String.eqb method "percbend" then percbend a b
          else if String.eqb method "shepherd" then Err NotModelled
          else Err ValueError) ;;
    match r with
    | None => Ok (Table (Z.of_nat (length a)) None None None (None, None))
    | Some r =>
        Ok (Table (Z.of_nat (length a)) (Some r) (Some (r * r)%R)
              (if (Z.of_nat (length a) =? 3)%Z then None else Some (1 - (1 - r * r) * IZR (Z.of_nat (length a) - 1) / IZR (Z.of_nat (length a) - 3))%R)
              (ci_r (Rabs (ppf ((1 - 95 / 100) / 2)%R)) r (Z.of_nat (length a))))
    end.
Lemma values_all l : forallb there l = true -> l = map Some (values l).
Proof. unfold values. induction l as [|[v|] l IH]; cbn; [reflexivity| |discriminate]. intros H. f_equal. apply IH. exact H. Qed.
Lemma pairs_full a b : length a = length b -> Pairs (map Some a) (map Some b) = combine a b.
Proof. unfold Pairs. revert b. induction a as [|v a IH]; intros [|w b] L; try discriminate L; [reflexivity|]. cbn. f_equal. apply IH. injection L as L. exact L. Qed.
Lemma combine_fst {A B} (a : list A) (b : list B) : length a = length b -> map fst (combine a b) = a.
Proof. revert b. induction a as [|v a IH]; intros [|w b] L; try discriminate L; [reflexivity|]. cbn. f_equal. apply IH. injection L as L. exact L. Qed.
Lemma combine_snd {A B} (a : list A) (b : list B) : length a = length b -> map snd (combine a b) = b.
Proof. revert b. induction a as [|v a IH]; intros [|w b] L; try discriminate L; [reflexivity|]. cbn. f_equal. apply IH. injection L as L. exact L. Qed.
Lemma values_pairs x y : let both := filter (fun p => there (fst p) && there (snd p)) (combine x y) in
  values (map fst both) = map fst (Pairs x y) /\ values (map snd both) = map snd (Pairs x y).
Proof.
  unfold Pairs, values. induction (combine x y) as [|[[a|] [b|]] l [IH1 IH2]]; cbn; [split; reflexivity| | | |]; try (split; assumption).
  rewrite IH1, IH2. split; reflexivity.
Qed.
Lemma remove_run x y : length x = length y -> 2 <= length x ->
  exists p, remove_na x y true "rows" = Ok p /\ values (fst p) = map fst (Pairs x y) /\ values (snd p) = map snd (Pairs x y).
Proof.
  intros L N. unfold remove_na. destruct (Nat.leb_spec (length x) 1); [lia|]. cbn [String.eqb orb negb]. change (String.eqb "rows" "rows") with true. cbn [orb negb].
  destruct (Nat.eqb_spec (length y) 1); [lia|]. destruct (forallb there x && forallb there y) eqn:F.
  - apply Bool.andb_true_iff in F. destruct F as [FX FY]. exists (x, y). split; [reflexivity|]. cbn [fst snd]. pose proof (values_all x FX) as EX. pose proof (values_all y FY) as EY.
    assert (LV : length (values x) = length (values y)) by (rewrite EX, EY, !map_length in L; exact L).
    assert (PE : Pairs x y = combine (values x) (values y)) by (rewrite EX, EY at 1; apply pairs_full; exact LV). rewrite PE.
    rewrite combine_fst, combine_snd by exact LV. split; reflexivity.
  - rewrite L, Nat.eqb_refl. cbn [negb]. pose proof (values_pairs x y) as [A B]. eexists. split; [reflexivity|]. cbn [fst snd]. split; [exact A|exact B].
Qed.
Lemma corr_core ppf x y tail method : corr ppf x y tail method =
  if negb (length x =? length y) || negb (String.eqb tail "two-sided" || String.eqb tail "one-sided") || (length x <=? 1) then Err AssertionError
  else core ppf (map fst (Pairs x y)) (map snd (Pairs x y)) method.
Proof.
  unfold corr. destruct (Nat.eqb_spec (length x) (length y)) as [L|L]; cbn [negb orb]; [|reflexivity].
  destruct (String.eqb tail "two-sided" || String.eqb tail "one-sided"); cbn [negb orb]; [|reflexivity].
  destruct (Nat.leb_spec (length x) 1) as [S|S].
  - unfold remove_na. destruct (Nat.leb_spec (length x) 1); [reflexivity|lia].
  - destruct (remove_run x y L) as (p & -> & A & B); [lia|]. cbn [bind]. rewrite A, B. reflexivity.
Qed.

(** ** Swapping the series *)
Lemma pairs_swap x y : Pairs y x = map (fun p => (snd p, fst p)) (Pairs x y).
Proof. unfold Pairs. revert y. induction x as [|[a|] x IH]; intros [|[b|] y]; cbn; try reflexivity; rewrite IH; reflexivity. Qed.
Lemma map_swap {A B} (l : list (A * B)) : map fst (map (fun p => (snd p, fst p)) l) = map snd l /\ map snd (map (fun p => (snd p, fst p)) l) = map fst l.
Proof. rewrite !map_map. split; reflexivity. Qed.
Lemma pearson_swap a b : pearsonr a b = pearsonr b a.
Proof.
  unfold pearsonr. rewrite (Nat.eqb_sym (length b)). destruct (Nat.eqb_spec (length a) (length b)) as [L|]; [|reflexivity]. rewrite L, Bool.orb_comm, !codev_product, (prod_comm (devs b) (devs a)), (Rmult_comm (sqrt (Product (devs b) (devs b)))). reflexivity.
Qed.
Lemma bicor_swap a b : bicor a b = bicor b a.
Proof.
  unfold bicor. rewrite (Nat.eqb_sym (length b)), Bool.orb_comm. destruct (_ || _); [reflexivity|]. destruct (Nat.eqb_spec (length a) (length b)) as [L|]; [|reflexivity]. cbn [negb].
  destruct (center a) as [[ma da]|] eqn:CA, (center b) as [[mb db]|] eqn:CB; try reflexivity.
  rewrite !prod_eq, (prod_comm (map (biweight mb db) b)). rewrite (Rmult_comm (sqrt (rsum (map (fun v => (v * v)%R) (map (biweight mb db) b))))). reflexivity.
Qed.
Lemma bend_len x l : bend x = Ok l -> length l = length x.
Proof.
  unfold bend. destruct (median x); [|discriminate]. destruct (nth_error _ _); [|discriminate]. destruct (Req_EM_T _ 0); intros [= <-]; apply map_length.
Qed.
Lemma bend_err x e : bend x = Err e -> e = IndexError /\ x = [].
Proof.
  unfold bend. destruct x as [|v x]; [intros [= <-]; auto|]. destruct (median_there (v :: x)) as [m M]; [discriminate|]. rewrite M.
  destruct (nth_there (sort_r (map (fun w => Rabs (w - m)) (v :: x))) (if 4 * length (v :: x) / 5 =? 0 then length (v :: x) - 1 else 4 * length (v :: x) / 5 - 1)) as [om OM].
  { rewrite sort_len, map_length. assert (4 * length (v :: x) / 5 <= length (v :: x)) by (apply Nat.div_le_upper_bound; lia). destruct (Nat.eqb_spec (4 * length (v :: x) / 5) 0); cbn [length] in *; lia. }
  rewrite OM. destruct (Req_EM_T _ 0); discriminate.
Qed.
Lemma bend_nil : bend [] = Err IndexError.
Proof. reflexivity. Qed.
Lemma percbend_swap a b : percbend a b = percbend b a.
Proof.
  unfold percbend. rewrite (Nat.eqb_sym (length b)). destruct (Nat.eqb_spec (length a) (length b)) as [L|]; [|reflexivity]. cbn [negb].
  destruct (bend a) as [u|e] eqn:EA.
  - destruct (bend b) as [v|e] eqn:EB; cbn [bind].
    + destruct (all_there u), (all_there v); try reflexivity. rewrite !prod_eq, !prod_sq, (prod_comm l0 l), (Rmult_comm (Product l0 l0)). reflexivity.
    + apply bend_err in EB. destruct EB as [_ ->]. destruct a; [|discriminate]. discriminate EA.
  - apply bend_err in EA. destruct EA as [-> ->]. destruct b; [|discriminate]. reflexivity.
Qed.
Lemma core_swap ppf a b method : length a = length b -> core ppf a b method = core ppf b a method.
Proof. intros L. unfold core. rewrite pearson_swap, bicor_swap, percbend_swap, L. reflexivity. Qed.
Lemma pairs_len x y : length (map fst (Pairs x y)) = length (Pairs x y) /\ length (map snd (Pairs x y)) = length (Pairs x y).
Proof. split; apply map_length. Qed.

(** ** Units *)
(** The result with the other sign. *)
Definition turned (c : res (option R)) : res (option R) := match c with Ok (Some r) => Ok (Some (- r)%R) | other => other end.
Lemma pairs_map f x y : Pairs (map (option_map f) x) y = map (fun p => (f (fst p), snd p)) (Pairs x y).
Proof. unfold Pairs. revert y. induction x as [|[a|] x IH]; intros [|[b|] y]; cbn; try reflexivity; rewrite IH; reflexivity. Qed.
Lemma pearson_affine a b x y : (0 < a)%R -> pearsonr (map (fun v => a * v + b)%R x) y = pearsonr x y.
Proof.
  intros P. unfold pearsonr. rewrite map_length. destruct (Nat.eqb_spec (length x) (length y)) as [L|]; [|reflexivity]. cbn [negb]. destruct (length x <? 2); [reflexivity|].
  rewrite constant_map by (intros u v E; nra). destruct (constant x) eqn:CX; [reflexivity|]. destruct (constant y) eqn:CY; [reflexivity|]. cbn [orb]. f_equal. f_equal. f_equal. f_equal.
  rewrite !codev_product, devs_affine, prod_scale2, prod_scale.
  apply not_constant in CX, CY. rewrite codev_product in CX, CY. rewrite sqrt_mult_alt by nra. rewrite sqrt_square by lra.
  assert (0 < sqrt (Product (devs x) (devs x)))%R by (apply sqrt_lt_R0; exact CX). assert (0 < sqrt (Product (devs y) (devs y)))%R by (apply sqrt_lt_R0; exact CY). field. lra.
Qed.
Lemma devs_opp x : devs (map Ropp x) = map Ropp (devs x).
Proof.
  rewrite (map_ext Ropp (fun v => -1 * v + 0)%R) by (intros; ring). rewrite devs_affine. apply map_ext. intros; ring.
Qed.
Lemma biweight_affine a b m d v : (0 < a)%R -> d <> 0%R -> biweight (a * m + b) (a * d) (a * v + b) = (a * biweight m d v)%R.
Proof.
  intros P D. unfold biweight. replace ((a * v + b - (a * m + b)) / (9 * (a * d)))%R with ((v - m) / (9 * d))%R by (field; lra). cbn zeta. ring.
Qed.
Lemma biweight_opp m d v : biweight (- m) d (- v) = (- biweight m d v)%R.
Proof.
  unfold biweight. replace ((- v - - m) / (9 * d))%R with (- ((v - m) / (9 * d)))%R by (unfold Rdiv; ring). cbn zeta. rewrite Rabs_Ropp. destruct (real_ltb _ _); ring.
Qed.
Lemma bicor_affine a b x y : (0 < a)%R -> bicor (map (fun v => a * v + b)%R x) y = bicor x y.
Proof.
  intros P. unfold bicor. rewrite map_length, center_affine by exact P. destruct (center x) as [[m d]|] eqn:CX; [|reflexivity]. cbn [option_map fst snd].
  replace (real_eqb (a * d) 0) with (real_eqb d 0) by (apply bool_iff; rewrite !real_eqb_iff; split; intros; nra).
  destruct (real_eqb d 0) eqn:D; [reflexivity|]. cbn [orb]. destruct (match center y with Some (_, d0) => real_eqb d0 0 | None => false end); [reflexivity|].
  destruct (length x =? length y); [|reflexivity]. cbn [negb]. destruct (center y) as [[my dy]|]; [|reflexivity].
  assert (ND : d <> 0%R) by (intros E; apply real_eqb_iff in E; congruence).
  assert (E : map (biweight (a * m + b) (a * d)) (map (fun v => a * v + b)%R x) = map (fun v => a * v)%R (map (biweight m d) x)).
  { rewrite !map_map. apply map_ext. intros v. apply biweight_affine; assumption. }
  rewrite E, !prod_eq, !prod_sq, prod_scale2, prod_scale. pose proof (product_nonneg (map (biweight m d) x)) as NN. rewrite sqrt_mult_alt by nra. rewrite sqrt_square by lra.
  set (u := sqrt (Product (map (biweight m d) x) (map (biweight m d) x))). set (w := sqrt (Product (map (biweight my dy) y) (map (biweight my dy) y))).
  destruct (Req_EM_T (a * u * w) 0) as [Z|Z], (Req_EM_T (u * w) 0) as [Z'|Z']; try reflexivity; try (exfalso; nra).
  f_equal. f_equal. assert (u <> 0%R) by (intros H; apply Z'; rewrite H; ring). assert (w <> 0%R) by (intros H'; apply Z'; rewrite H'; ring). field. repeat split; [assumption|assumption|lra].
Qed.
Lemma bicor_opp x y : bicor (map Ropp x) y = turned (bicor x y).
Proof.
  unfold bicor. rewrite map_length, center_opp. destruct (center x) as [[m d]|] eqn:CX; cbn [option_map fst snd].
  - destruct (real_eqb d 0 || match center y with Some (_, d0) => real_eqb d0 0 | None => false end); [reflexivity|].
    destruct (length x =? length y); [|reflexivity]. cbn [negb]. destruct (center y) as [[my dy]|]; [|reflexivity].
    assert (E : map (biweight (- m) d) (map Ropp x) = map Ropp (map (biweight m d) x)). { rewrite !map_map. apply map_ext. intros v. apply biweight_opp. }
    rewrite E, !prod_eq, !prod_sq, prod_opp2, prod_opp. destruct (Req_EM_T _ 0); [reflexivity|]. cbn [turned]. f_equal. f_equal. unfold Rdiv. ring.
  - destruct (_ || _); [reflexivity|]. destruct (negb _); reflexivity.
Qed.

(** ** The bend *)
Lemma filter_map_len {A B} (f : B -> bool) (g : A -> B) l : length (filter f (map g l)) = length (filter (fun a => f (g a)) l).
Proof. induction l as [|a l IH]; [reflexivity|]. cbn. destruct (f (g a)); cbn; rewrite IH; reflexivity. Qed.
Lemma filter_ext_len {A} (f g : A -> bool) l : (forall a, In a l -> f a = g a) -> filter f l = filter g l.
Proof. apply filter_ext_in. Qed.
Lemma perm_filter {A} (f : A -> bool) l m : Permutation l m -> Permutation (filter f l) (filter f m).
Proof.
  induction 1 as [|a l m P IH|a b l|l m n P IH Q IH']; cbn; [reflexivity| | |etransitivity; eassumption].
  - destruct (f a); [constructor; exact IH|exact IH].
  - destruct (f a), (f b); try reflexivity. constructor.
Qed.
(** At least [k + 1] values do not exceed the [k]-th of the sorted ones. *)
Lemma sorted_count l k w : StronglySorted Rle l -> nth_error l k = Some w -> k + 1 + length (filter (fun v => real_ltb w v) l) <= length l.
Proof.
  intros H. revert k. induction H as [|a l H IH F]; intros k E; [destruct k; discriminate|]. destruct k as [|k].
  - cbn in E. injection E as ->. cbn [filter]. assert (X : real_ltb w w = false) by (apply real_ltb_false; lra). rewrite X. cbn [length].
    assert (length (filter (fun v => real_ltb w v) l) <= length l); [|lia]. clear. induction l as [|v l IH]; cbn; [lia|]. destruct (real_ltb w v); cbn; lia.
  - cbn in E. cbn [filter]. rewrite Forall_forall in F. assert (X : real_ltb w a = false) by (apply real_ltb_false; apply F; apply nth_error_In in E; exact E). rewrite X. specialize (IH k E). cbn [length]. lia.
Qed.
Definition lowest (m w : R) (x : list R) := filter (fun v => real_ltb v (m - w)) x.
Definition highest (m w : R) (x : list R) := filter (fun v => real_ltb (m + w) v) x.
Definition middle (m w : R) (x : list R) := filter (fun v => negb (real_ltb v (m - w)) && negb (real_ltb (m + w) v)) x.
Lemma three_perm m w x : (0 <= w)%R -> Permutation x (lowest m w x ++ middle m w x ++ highest m w x).
Proof.
  intros W. unfold lowest, middle, highest. induction x as [|v x IH]; [reflexivity|]. cbn [filter].
  destruct (real_ltb v (m - w)) eqn:A, (real_ltb (m + w) v) eqn:B; cbn [negb andb].
  - exfalso. apply real_ltb_iff in A, B. lra.
  - cbn. constructor. exact IH.
  - rewrite app_assoc. rewrite <- Permutation_middle. rewrite <- app_assoc. constructor. exact IH.
  - cbn [app]. rewrite <- Permutation_middle. constructor. exact IH.
Qed.
Lemma three_len m w x : (0 <= w)%R -> length (lowest m w x) + length (middle m w x) + length (highest m w x) = length x.
Proof. intros W. rewrite (Permutation_length (three_perm m w x W)), !app_length. lia. Qed.
Lemma far_len m w x : (0 <= w)%R -> length (lowest m w x) + length (highest m w x) = length (filter (fun v => real_ltb w (Rabs (v - m))) x).
Proof.
  intros W. unfold lowest, highest. induction x as [|v x IH]; [reflexivity|]. cbn [filter].
  destruct (real_ltb v (m - w)) eqn:A, (real_ltb (m + w) v) eqn:B, (real_ltb w (Rabs (v - m))) eqn:D; cbn [length]; try lia; exfalso;
    rewrite ?real_ltb_iff, ?real_ltb_false in *; unfold Rabs in D; destruct (Rcase_abs (v - m)); lra.
Qed.
Definition place (n : nat) : nat := if 4 * n / 5 =? 0 then n - 1 else 4 * n / 5 - 1.
(** [w] is the value of the sorted distances at this place. *)
Definition Omega (x : list R) (m w : R) : Prop := median x = Some m /\ nth_error (sort_r (map (fun v => Rabs (v - m)) x)) (place (length x)) = Some w.
Lemma omega_there x : x <> [] -> exists m w, Omega x m w.
Proof.
  intros N. destruct (median_there x N) as [m M]. destruct (nth_there (sort_r (map (fun v => Rabs (v - m)) x)) (place (length x))) as [w W]; [|exists m, w; split; assumption].
  rewrite sort_len, map_length. unfold place. assert (0 < length x) by (destruct x; [contradiction|cbn; lia]). assert (4 * length x / 5 <= length x) by (apply Nat.div_le_upper_bound; lia). destruct (Nat.eqb_spec (4 * length x / 5) 0); lia.
Qed.
Lemma omega_nonneg x m w : Omega x m w -> (0 <= w)%R.
Proof.
  intros [_ E]. apply nth_error_In in E. apply (Permutation_in _ (Permutation_sym (sort_perm _))) in E. apply in_map_iff in E. destruct E as (v & <- & _). apply Rabs_pos.
Qed.
Lemma middle_some x m w : Omega x m w -> 0 < length (middle m w x).
Proof.
  intros O. pose proof (omega_nonneg _ _ _ O) as W. destruct O as [_ E]. pose proof (sorted_count _ _ _ (sort_sorted _) E) as C. rewrite sort_len, map_length in C.
  rewrite <- (Permutation_length (perm_filter (fun v => real_ltb w v) _ _ (sort_perm (map (fun v => Rabs (v - m)) x)))) in C. rewrite filter_map_len, <- far_len in C by exact W. pose proof (three_len m w x W). lia.
Qed.
Lemma sum_middle m w x : (0 <= w)%R -> rsum (map (fun v => if real_ltb v (m - w) || real_ltb (m + w) v then 0%R else v) x) = rsum (middle m w x).
Proof.
  intros W. unfold middle, rsum. induction x as [|v x IH]; [reflexivity|]. cbn [map filter fold_right]. rewrite IH. destruct (real_ltb v (m - w)), (real_ltb (m + w) v); cbn [orb negb andb fold_right]; try ring.
Qed.
Definition bent_mean (m w : R) (x : list R) : R :=
  ((rsum (middle m w x) + w * (INR (length (highest m w x)) - INR (length (lowest m w x)))) / INR (length (middle m w x)))%R.
Definition cut (a : R) : R := Rmax (-1) (Rmin 1 a).
Lemma cut_code a : (if Rle_dec a (-1) then -1 else if Rle_dec 1 a then 1 else a)%R = cut a.
Proof.
  unfold cut. destruct (Rle_dec a (-1)); [rewrite Rmin_right by lra; rewrite Rmax_left by lra; reflexivity|]. destruct (Rle_dec 1 a); [rewrite Rmin_left by lra; rewrite Rmax_right by lra; reflexivity|]. rewrite Rmin_right by lra. rewrite Rmax_right by lra. reflexivity.
Qed.
Lemma bend_pos x m w : Omega x m w -> (0 < w)%R -> bend x = Ok (map (fun v => Some (cut ((v - bent_mean m w x) / w))) x).
Proof.
  intros O W. pose proof (middle_some _ _ _ O) as K. destruct O as [M E]. unfold bend. rewrite M. unfold place in E. rewrite E. cbv beta zeta.
  destruct (Req_EM_T w 0) as [|NW]; [lra|].
  assert (B : filter (fun v => real_ltb ((v - m) / w) (-1)) x = lowest m w x).
  { apply filter_ext. intros v. apply bool_iff. rewrite !real_ltb_iff. split; intros H.
    - apply (Rmult_lt_compat_r w) in H; [|lra]. unfold Rdiv in H. rewrite Rmult_assoc, Rinv_l in H by lra. lra.
    - apply (Rmult_lt_reg_r w); [lra|]. unfold Rdiv. rewrite Rmult_assoc, Rinv_l by lra. lra. }
  assert (A : filter (fun v => real_ltb 1 ((v - m) / w)) x = highest m w x).
  { apply filter_ext. intros v. apply bool_iff. rewrite !real_ltb_iff. split; intros H.
    - apply (Rmult_lt_compat_r w) in H; [|lra]. unfold Rdiv in H. rewrite Rmult_assoc, Rinv_l in H by lra. lra.
    - apply (Rmult_lt_reg_r w); [lra|]. unfold Rdiv. rewrite Rmult_assoc, Rinv_l by lra. lra. }
  assert (S1 : map (fun v => if real_ltb ((v - m) / w) (-1) || real_ltb 1 ((v - m) / w) then 0%R else v) x = map (fun v => if real_ltb v (m - w) || real_ltb (m + w) v then 0%R else v) x).
  { apply map_ext. intros v. replace (real_ltb ((v - m) / w) (-1)) with (real_ltb v (m - w)); [replace (real_ltb 1 ((v - m) / w)) with (real_ltb (m + w) v); [reflexivity|]|].
    - apply bool_iff. rewrite !real_ltb_iff. split; intros H.
      + apply (Rmult_lt_reg_r w); [lra|]. unfold Rdiv. rewrite Rmult_assoc, Rinv_l by lra. lra.
      + apply (Rmult_lt_compat_r w) in H; [|lra]. unfold Rdiv in H. rewrite Rmult_assoc, Rinv_l in H by lra. lra.
    - apply bool_iff. rewrite !real_ltb_iff. split; intros H.
      + apply (Rmult_lt_reg_r w); [lra|]. unfold Rdiv. rewrite Rmult_assoc, Rinv_l by lra. lra.
      + apply (Rmult_lt_compat_r w) in H; [|lra]. unfold Rdiv in H. rewrite Rmult_assoc, Rinv_l in H by lra. lra. }
  rewrite B, A, S1, sum_middle by lra.
  assert (KE : (INR (length x) - INR (length (lowest m w x)) - INR (length (highest m w x)) = INR (length (middle m w x)))%R).
  { rewrite <- (three_len m w x) by lra. rewrite !plus_INR. ring. }
  rewrite KE. assert (KP : (0 < INR (length (middle m w x)))%R) by (apply lt_0_INR; exact K). destruct (Req_EM_T (INR (length (middle m w x))) 0) as [|_]; [lra|]. f_equal. apply map_ext. intros v. rewrite cut_code. reflexivity.
Qed.
Definition side (c v : R) : option R := if Rlt_dec v c then Some (-1)%R else if Rlt_dec c v then Some 1%R else None.
Lemma bend_flat x m : Omega x m 0 -> bend x = Ok (map (side (mean_r x)) x).
Proof.
  intros O. assert (N : x <> []) by (intros ->; destruct O as [M _]; discriminate M). destruct O as [M E]. unfold bend. rewrite M. unfold place in E. rewrite E. cbv beta zeta. destruct (Req_EM_T 0 0) as [_|]; [|contradiction].
  assert (X1 : real_ltb 0 (-1) = false) by (apply real_ltb_false; lra). assert (X2 : real_ltb 1 0 = false) by (apply real_ltb_false; lra). rewrite X1, X2. cbn [orb].
  assert (F : forall l : list R, filter (fun _ => false) l = []) by (induction l; [reflexivity|assumption]). rewrite !F. cbn [length INR]. rewrite map_id.
  assert (NZ : INR (length x) <> 0%R) by (apply not_0_INR; destruct x; [contradiction|discriminate]). destruct (Req_EM_T _ 0) as [Z|_]; [lra|]. f_equal. apply map_ext. intros v. unfold side.
  replace ((rsum x + 0 * (0 - 0)) / (INR (length x) - 0 - 0))%R with (mean_r x); [reflexivity|]. unfold mean_r, rsum. field. exact NZ.
Qed.
Lemma Omega_affine x m w a b : (0 < a)%R -> Omega x m w -> Omega (map (fun v => a * v + b)%R x) (a * m + b) (a * w).
Proof.
  intros P [M E]. split; [rewrite median_affine, M by exact P; reflexivity|]. rewrite map_length, map_map.
  rewrite (map_ext _ (fun v => a * Rabs (v - m))%R).
  - rewrite <- (map_map (fun v => Rabs (v - m)) (fun v => a * v)%R). rewrite (sort_is _ (map (fun v => a * v)%R (sort_r (map (fun v => Rabs (v - m)) x)))).
    + rewrite nth_error_map, E. reflexivity.
    + apply Permutation_map, sort_perm.
    + apply sorted_map; [intros; nra|apply sort_sorted].
  - intros v. replace (a * v + b - (a * m + b))%R with (a * (v - m))%R by ring. rewrite Rabs_mult, (Rabs_right a) by lra. reflexivity.
Qed.
Lemma Omega_opp x m w : Omega x m w -> Omega (map Ropp x) (- m) w.
Proof.
  intros [M E]. split; [rewrite median_opp, M; reflexivity|]. rewrite map_length, map_map. rewrite (map_ext _ (fun v => Rabs (v - m))); [exact E|].
  intros v. replace (- v - - m)%R with (- (v - m))%R by ring. apply Rabs_Ropp.
Qed.
Lemma filter_map {A B} (f : B -> bool) (g : A -> B) l : filter f (map g l) = map g (filter (fun a => f (g a)) l).
Proof. induction l as [|a l IH]; [reflexivity|]. cbn. destruct (f (g a)); cbn; rewrite IH; reflexivity. Qed.
Lemma sum_affine a b l : rsum (map (fun v => a * v + b)%R l) = (a * rsum l + b * INR (length l))%R.
Proof. unfold rsum. induction l as [|v l IH]; [cbn; ring|]. cbn [map fold_right length]. rewrite IH, S_INR. ring. Qed.
Lemma ltb_same a b c d : ((a < b)%R <-> (c < d)%R) -> real_ltb a b = real_ltb c d.
Proof. intros H. apply bool_iff. rewrite !real_ltb_iff. exact H. Qed.
Lemma bent_mean_affine x m w a b : (0 < a)%R -> 0 < length (middle m w x) ->
  bent_mean (a * m + b) (a * w) (map (fun v => a * v + b)%R x) = (a * bent_mean m w x + b)%R.
Proof.
  intros P K. unfold bent_mean.
  assert (L : lowest (a * m + b) (a * w) (map (fun v => a * v + b)%R x) = map (fun v => a * v + b)%R (lowest m w x)).
  { unfold lowest. rewrite filter_map. f_equal. apply filter_ext. intros v. apply ltb_same. split; intros; nra. }
  assert (H : highest (a * m + b) (a * w) (map (fun v => a * v + b)%R x) = map (fun v => a * v + b)%R (highest m w x)).
  { unfold highest. rewrite filter_map. f_equal. apply filter_ext. intros v. apply ltb_same. split; intros; nra. }
  assert (M : middle (a * m + b) (a * w) (map (fun v => a * v + b)%R x) = map (fun v => a * v + b)%R (middle m w x)).
  { unfold middle. rewrite filter_map. f_equal. apply filter_ext. intros v. f_equal; f_equal; apply ltb_same; split; intros; nra. }
  rewrite L, H, M, !map_length, sum_affine. assert (0 < INR (length (middle m w x)))%R by (apply lt_0_INR; exact K). field. lra.
Qed.
Lemma bent_mean_opp x m w : bent_mean (- m) w (map Ropp x) = (- bent_mean m w x)%R.
Proof.
  unfold bent_mean.
  assert (L : lowest (- m) w (map Ropp x) = map Ropp (highest m w x)).
  { unfold lowest, highest. rewrite filter_map. f_equal. apply filter_ext. intros v. apply ltb_same. split; intros; lra. }
  assert (H : highest (- m) w (map Ropp x) = map Ropp (lowest m w x)).
  { unfold lowest, highest. rewrite filter_map. f_equal. apply filter_ext. intros v. apply ltb_same. split; intros; lra. }
  assert (M : middle (- m) w (map Ropp x) = map Ropp (middle m w x)).
  { unfold middle. rewrite filter_map. f_equal. apply filter_ext. intros v. rewrite Bool.andb_comm. f_equal; f_equal; apply ltb_same; split; intros; lra. }
  rewrite L, H, M, !map_length. rewrite (map_ext Ropp (fun v => -1 * v + 0)%R) by (intros; ring). rewrite sum_affine. unfold Rdiv. ring.
Qed.
Lemma mean_opp x : mean_r (map Ropp x) = (- mean_r x)%R.
Proof.
  unfold mean_r. rewrite map_length. replace (fold_right Rplus 0%R (map Ropp x)) with (- fold_right Rplus 0 x)%R; [unfold Rdiv; ring|]. induction x as [|v x IH]; cbn; [ring|]. rewrite <- IH. ring.
Qed.
Lemma bend_affine a b x : (0 < a)%R -> bend (map (fun v => a * v + b)%R x) = bend x.
Proof.
  intros P. destruct (list_eq_dec Req_EM_T x []) as [->|N]; [reflexivity|]. destruct (omega_there x N) as (m & w & O). pose proof (omega_nonneg _ _ _ O) as W. pose proof (Omega_affine x m w a b P O) as O'.
  destruct (Req_dec w 0) as [->|NW].
  - rewrite Rmult_0_r in O'. rewrite (bend_flat _ _ O), (bend_flat _ _ O'). f_equal. rewrite map_map. apply map_ext. intros v. rewrite mean_affine by exact N. unfold side.
    destruct (Rlt_dec (a * v + b) (a * mean_r x + b)), (Rlt_dec v (mean_r x)); try reflexivity; try (exfalso; nra).
    destruct (Rlt_dec (a * mean_r x + b) (a * v + b)), (Rlt_dec (mean_r x) v); try reflexivity; exfalso; nra.
  - rewrite (bend_pos _ _ _ O) by lra. rewrite (bend_pos _ _ _ O') by nra. f_equal. rewrite map_map. apply map_ext. intros v. f_equal. f_equal. rewrite bent_mean_affine by (auto; eapply middle_some; exact O). field. lra.
Qed.
Lemma cut_opp a : cut (- a) = (- cut a)%R.
Proof. unfold cut, Rmin, Rmax. repeat destruct Rle_dec; lra. Qed.
Lemma bend_opp x : bend (map Ropp x) = match bend x with Ok l => Ok (map (option_map Ropp) l) | Err e => Err e end.
Proof.
  destruct (list_eq_dec Req_EM_T x []) as [->|N]; [reflexivity|]. destruct (omega_there x N) as (m & w & O). pose proof (omega_nonneg _ _ _ O) as W. pose proof (Omega_opp x m w O) as O'.
  destruct (Req_dec w 0) as [->|NW].
  - rewrite (bend_flat _ _ O), (bend_flat _ _ O'). f_equal. rewrite !map_map. apply map_ext. intros v. rewrite mean_opp. unfold side.
    destruct (Rlt_dec (- v) (- mean_r x)), (Rlt_dec v (mean_r x)); try (exfalso; lra); destruct (Rlt_dec (- mean_r x) (- v)), (Rlt_dec (mean_r x) v); try (exfalso; lra); cbn; try reflexivity; f_equal; lra.
  - rewrite (bend_pos _ _ _ O) by lra. rewrite (bend_pos _ _ _ O') by lra. f_equal. rewrite !map_map. apply map_ext. intros v. cbn. f_equal. rewrite <- cut_opp. f_equal. rewrite bent_mean_opp. field. lra.
Qed.
Lemma there_opp l : all_there (map (option_map Ropp) l) = option_map (map Ropp) (all_there l).
Proof. induction l as [|[v|] l IH]; cbn; [reflexivity| |reflexivity]. rewrite IH. destruct (all_there l); reflexivity. Qed.
Lemma percbend_affine a b x y : (0 < a)%R -> percbend (map (fun v => a * v + b)%R x) y = percbend x y.
Proof. intros P. unfold percbend. rewrite map_length, bend_affine by exact P. reflexivity. Qed.
Lemma percbend_opp x y : percbend (map Ropp x) y = turned (percbend x y).
Proof.
  unfold percbend. rewrite map_length. destruct (length x =? length y); [|reflexivity]. cbn [negb]. rewrite bend_opp. destruct (bend x) as [a|e]; [|reflexivity]. cbn [bind]. destruct (bend y) as [b|e]; [|reflexivity]. cbn [bind].
  rewrite there_opp. destruct (all_there a) as [u|]; [|reflexivity]. cbn [option_map]. destruct (all_there b) as [v|]; [|reflexivity].
  rewrite !prod_eq, !prod_sq, prod_opp2, prod_opp. destruct (Req_EM_T _ 0); [reflexivity|]. cbn [turned]. f_equal. f_equal. unfold Rdiv. ring.
Qed.
Lemma pearson_opp x y : pearsonr (map Ropp x) y = turned (pearsonr x y).
Proof.
  unfold pearsonr. rewrite map_length. destruct (Nat.eqb_spec (length x) (length y)) as [L|]; [|reflexivity]. cbn [negb]. destruct (length x <? 2); [reflexivity|].
  rewrite constant_map by (intros u v E; lra). destruct (constant x) eqn:CX; [reflexivity|]. destruct (constant y) eqn:CY; [reflexivity|]. cbn [orb turned]. f_equal. f_equal.
  destruct (pearson_val x y L CX CY) as [V C]. rewrite V.
  assert (CX' : constant (map Ropp x) = false) by (rewrite constant_map; [exact CX|intros u v E; lra]).
  destruct (pearson_val (map Ropp x) y) as [V' C']; [rewrite map_length; exact L|exact CX'|exact CY|]. rewrite V'. rewrite devs_opp, prod_opp2, prod_opp. unfold Rdiv. ring.
Qed.
Lemma percbend_some x y r : percbend x y = Ok (Some r) -> exists a b, bend x = Ok (map Some a) /\ bend y = Ok (map Some b) /\ Cosine a b r.
Proof.
  unfold percbend. destruct (Nat.eqb_spec (length x) (length y)) as [L|]; [|discriminate]. cbn [negb]. destruct (bend x) as [a|] eqn:EA; [|discriminate]. destruct (bend y) as [b|] eqn:EB; [|discriminate]. cbn [bind].
  destruct (all_there a) as [u|] eqn:TA; [|discriminate]. destruct (all_there b) as [v|] eqn:TB; [|discriminate]. rewrite !prod_sq, prod_eq. destruct (Req_EM_T _ 0) as [|NZ]; [discriminate|]. intros [= <-].
  apply all_there_iff in TA, TB. subst a b. exists u, v. split; [reflexivity|]. split; [reflexivity|]. apply bend_len in EA, EB. rewrite map_length in EA, EB. pose proof (product_nonneg u). pose proof (product_nonneg v). apply cosine_make; [congruence| |]; nra.
Qed.
Lemma bicor_some x y r : bicor x y = Ok (Some r) -> exists m d m' d', center x = Some (m, d) /\ center y = Some (m', d') /\ d <> 0%R /\ d' <> 0%R /\ Cosine (map (biweight m d) x) (map (biweight m' d') y) r.
Proof.
  unfold bicor. destruct (center x) as [[m d]|] eqn:CX, (center y) as [[m' d']|] eqn:CY; try (destruct (_ || _); [discriminate|]; destruct (negb _); discriminate).
  destruct (real_eqb d 0) eqn:D; [discriminate|]. destruct (real_eqb d' 0) eqn:D'; [discriminate|]. cbn [orb]. destruct (Nat.eqb_spec (length x) (length y)) as [L|]; [|discriminate]. cbn [negb].
  rewrite !prod_sq, prod_eq. destruct (Req_EM_T _ 0) as [|NZ]; [discriminate|]. intros [= <-]. exists m, d, m', d'. split; [reflexivity|]. split; [reflexivity|].
  split; [intros E; apply real_eqb_iff in E; congruence|]. split; [intros E; apply real_eqb_iff in E; congruence|].
  pose proof (product_nonneg (map (biweight m d) x)) as PX. pose proof (product_nonneg (map (biweight m' d') y)) as PY. rewrite <- sqrt_mult_alt by exact PX.
  assert (X : Product (map (biweight m d) x) (map (biweight m d) x) <> 0%R) by (intros E; rewrite E, sqrt_0 in NZ; apply NZ; ring).
  assert (Y : Product (map (biweight m' d') y) (map (biweight m' d') y) <> 0%R) by (intros E; rewrite E, sqrt_0 in NZ; apply NZ; ring).
  apply cosine_make; [rewrite !map_length; exact L|lra|lra].
Qed.
Lemma pearson_some x y r : pearsonr x y = Ok (Some r) -> length x = length y /\ 2 <= length x /\ Cosine (devs x) (devs y) r.
Proof.
  unfold pearsonr. destruct (Nat.eqb_spec (length x) (length y)) as [L|]; [|discriminate]. cbn [negb]. destruct (Nat.ltb_spec (length x) 2); [discriminate|]. destruct (constant x) eqn:CX; [discriminate|]. destruct (constant y) eqn:CY; [discriminate|]. cbn [orb].
  destruct (pearson_val x y L CX CY) as [V C]. rewrite V. intros [= <-]. auto.
Qed.
(** What the methods have in common. *)
Lemma core_cases ppf a b method t : core ppf a b method = Ok t ->
  exists c, (method = "pearson"%string /\ pearsonr a b = Ok c \/ method = "bicor"%string /\ bicor a b = Ok c \/ method = "percbend"%string /\ percbend a b = Ok c) /\
    t_n t = Z.of_nat (length a) /\ t_r t = c /\
    match c with
    | None => t_r2 t = None /\ t_adj t = None /\ t_ci t = (None, None)
    | Some r => t_r2 t = Some (r * r)%R /\
        t_adj t = (if (Z.of_nat (length a) =? 3)%Z then None else Some (1 - (1 - r * r) * IZR (Z.of_nat (length a) - 1) / IZR (Z.of_nat (length a) - 3))%R) /\
        t_ci t = ci_r (Rabs (ppf ((1 - 95 / 100) / 2)%R)) r (Z.of_nat (length a))
    end.
Proof.
  unfold core. intros E. 
  match type of E with bind ?x _ = _ => destruct x as [c|] eqn:R; [|discriminate] end. cbn [bind] in E. exists c. split.
  - destruct (String.eqb_spec method "pearson") as [->|N1]; [auto|]. destruct (existsb _ _); [discriminate|]. destruct (String.eqb_spec method "bicor") as [->|N2]; [auto|]. destruct (String.eqb_spec method "percbend") as [->|N3]; [auto|]. destruct (String.eqb method "shepherd"); discriminate.
  - destruct c as [r|]; injection E as <-; cbn; auto.
Qed.
Lemma any_cosine a b c r : (pearsonr a b = Ok c \/ bicor a b = Ok c \/ percbend a b = Ok c) -> c = Some r -> exists u v, Cosine u v r.
Proof.
  intros D ->. destruct D as [D|[D|D]].
  - apply pearson_some in D. eexists. eexists. apply D.
  - apply bicor_some in D. destruct D as (m & d & m' & d' & _ & _ & _ & _ & D). eauto.
  - apply percbend_some in D. destruct D as (u & v & _ & _ & D). eauto.
Qed.

(** ** Outliers *)
Lemma sort_app_split l lo hi : Permutation l (lo ++ hi) -> (forall u v, In u lo -> In v hi -> (u <= v)%R) -> sort_r l = sort_r lo ++ sort_r hi.
Proof.
  intros P B. apply sort_is.
  - rewrite P. apply Permutation_app; apply sort_perm.
  - apply sorted_app; [apply sort_sorted|apply sort_sorted|]. intros u v Iu Iv. apply B; [apply (Permutation_in _ (Permutation_sym (sort_perm lo))); exact Iu|apply (Permutation_in _ (Permutation_sym (sort_perm hi))); exact Iv].
Qed.
Lemma part_perm {A} (f : A -> bool) l : Permutation l (filter f l ++ filter (fun a => negb (f a)) l).
Proof. induction l as [|a l IH]; [reflexivity|]. cbn [filter]. destruct (f a); cbn [negb]; [cbn; constructor; exact IH|]. rewrite <- Permutation_middle. constructor. exact IH. Qed.
(** If the values below [h] are the same, so are sorted values below [h]. *)
Lemma sorted_below h l l' i a : filter (fun v => real_ltb v h) l' = filter (fun v => real_ltb v h) l -> nth_error (sort_r l) i = Some a -> (a < h)%R -> nth_error (sort_r l') i = Some a.
Proof.
  intros F E A. set (f := fun v => real_ltb v h) in *.
  assert (S : forall k, sort_r k = sort_r (filter f k) ++ sort_r (filter (fun v => negb (f v)) k)).
  { intros k. apply sort_app_split; [apply part_perm|]. intros u v Iu Iv. apply filter_In in Iu, Iv. destruct Iu as [_ Iu]. destruct Iv as [_ Iv]. unfold f in *. apply real_ltb_iff in Iu. apply Bool.negb_true_iff, real_ltb_false in Iv. lra. }
  rewrite (S l) in E. rewrite (S l'), F. destruct (Nat.lt_ge_cases i (length (sort_r (filter f l)))) as [L|L].
  - rewrite nth_error_app1 in * by exact L. exact E.
  - exfalso. rewrite nth_error_app2 in E by exact L. apply nth_error_In in E. apply (Permutation_in _ (Permutation_sym (sort_perm _))) in E. apply filter_In in E. destruct E as [_ E]. apply Bool.negb_true_iff in E. unfold f in E. apply real_ltb_false in E. lra.
Qed.
Lemma median_below h l l' m : length l' = length l -> filter (fun v => real_ltb v h) l' = filter (fun v => real_ltb v h) l -> Median l m ->
  (forall b, nth_error (sort_r l) (length l / 2) = Some b -> (b < h)%R) -> Median l' m.
Proof.
  intros LE F (s & a & b & P & H & A & B & E) U. rewrite <- (Permutation_length P) in A, B. rewrite <- (sort_is l s P H) in A, B. specialize (U b B).
  assert (AB : (a <= b)%R). { apply (sorted_nth (sort_r l) ((length l - 1) / 2) (length l / 2)); auto using sort_sorted. apply Nat.div_le_mono; lia. }
  exists (sort_r l'), a, b. rewrite sort_len, LE. split; [apply sort_perm|]. split; [apply sort_sorted|]. split; [apply (sorted_below h l l'); auto; lra|]. split; [apply (sorted_below h l l'); auto|exact E].
Qed.

(** ** Intervals *)
Section Fisher.
Open Scope R_scope.
Lemma tanh_exp x : tanh x = 1 - 2 / (exp (2 * x) + 1).
Proof.
  unfold tanh, sinh, cosh. rewrite exp_Ropp. replace (2 * x) with (x + x) by ring. rewrite exp_plus. pose proof (exp_pos x). field. split; [nra|lra].
Qed.
Lemma tanh_lt x y : x < y -> tanh x < tanh y.
Proof.
  intros L. rewrite !tanh_exp. assert (E : exp (2 * x) < exp (2 * y)) by (apply exp_increasing; lra). pose proof (exp_pos (2 * x)). 
  assert (2 / (exp (2 * y) + 1) < 2 / (exp (2 * x) + 1)); [|lra]. unfold Rdiv. apply Rmult_lt_compat_l; [lra|]. apply Rinv_lt_contravar; nra.
Qed.
Lemma tanh_range x : -1 < tanh x < 1.
Proof.
  rewrite tanh_exp. pose proof (exp_pos (2 * x)) as P. assert (0 < 2 / (exp (2 * x) + 1)) by (apply Rdiv_lt_0_compat; lra).
  assert (2 / (exp (2 * x) + 1) < 2); [|lra]. apply (Rmult_lt_reg_r (exp (2 * x) + 1)); [lra|]. unfold Rdiv. rewrite Rmult_assoc, Rinv_l by lra. lra.
Qed.
Lemma tanh_opp x : tanh (- x) = - tanh x.
Proof.
  rewrite !tanh_exp. replace (2 * - x) with (- (2 * x)) by ring. rewrite exp_Ropp. pose proof (exp_pos (2 * x)). field. split; lra.
Qed.
Lemma tanh_arctanh r : -1 < r < 1 -> tanh (arctanh r) = r.
Proof.
  intros B. rewrite tanh_exp. unfold arctanh. replace (2 * (ln ((1 + r) / (1 - r)) / 2)) with (ln ((1 + r) / (1 - r))) by field. rewrite exp_ln by (apply Rdiv_lt_0_compat; lra). field. lra.
Qed.
Lemma arctanh_opp r : -1 < r < 1 -> arctanh (- r) = - arctanh r.
Proof.
  intros B. unfold arctanh. replace ((1 + - r) / (1 - - r)) with (/ ((1 + r) / (1 - r))) by (field; lra). rewrite ln_Rinv by (apply Rdiv_lt_0_compat; lra). field.
Qed.
Lemma ci_inside crit r n : -1 < r < 1 -> (3 < n)%Z -> ci_r crit r n = (Some (tanh (arctanh r - crit * (1 / sqrt (IZR (n - 3))))), Some (tanh (arctanh r + crit * (1 / sqrt (IZR (n - 3)))))).
Proof.
  intros B N. unfold ci_r. assert (A : Rabs r < 1) by (apply Rabs_def1; lra).
  assert (E1 : real_ltb 1 (Rabs r) = false) by (apply real_ltb_false; lra). assert (E2 : real_eqb (Rabs r) 1 = false) by (destruct (real_eqb (Rabs r) 1) eqn:E; [apply real_eqb_iff in E; lra|reflexivity]).
  rewrite E1, E2. destruct (Z.ltb_spec n 3); [lia|]. cbn [orb]. destruct (Z.eqb_spec n 3); [lia|]. reflexivity.
Qed.
Lemma opposite_refl v : Opposite (Some v) (Some (- v)).
Proof. reflexivity. Qed.
Lemma ci_opp crit r n : Opposite (fst (ci_r crit r n)) (snd (ci_r crit (- r) n)) /\ Opposite (snd (ci_r crit r n)) (fst (ci_r crit (- r) n)).
Proof.
  unfold ci_r. rewrite Rabs_Ropp. destruct (real_ltb 1 (Rabs r)) eqn:E1; [cbn; auto|]. destruct (n <? 3)%Z; [cbn; auto|]. cbn [orb]. apply real_ltb_false in E1.
  destruct (real_eqb (Rabs r) 1) eqn:E2.
  - apply real_eqb_iff in E2. destruct (n =? 3)%Z; [|cbn; auto]. destruct (real_ltb 0 r) eqn:P, (real_ltb 0 (- r)) eqn:Q; rewrite ?real_ltb_iff, ?real_ltb_false in *; cbn [fst snd Opposite].
    + exfalso. lra.
    + split; [exact I|lra].
    + split; [lra|exact I].
    + exfalso. assert (r = 0) by lra. subst r. rewrite Rabs_R0 in E2. lra.
  - destruct (n =? 3)%Z; [cbn; split; lra|]. assert (B : -1 < r < 1). { assert (Rabs r < 1). { destruct E1 as [|E1]; [assumption|]. exfalso. apply real_eqb_iff in E1. congruence. } apply Rabs_def2 in H. lra. }
    rewrite arctanh_opp by exact B. cbn [fst snd Opposite]. rewrite <- !tanh_opp. split; f_equal; ring.
Qed.
End Fisher.

(** ** Outcomes *)
Lemma pearson_none a b c : pearsonr a b = Ok c -> (c = None <-> AllSame a \/ AllSame b).
Proof.
  unfold pearsonr. destruct (negb _); [discriminate|]. destruct (_ <? 2); [discriminate|]. rewrite <- !constant_iff. destruct (constant a), (constant b); cbn [orb]; intros [= <-]; split; auto; try discriminate. intros [H|H]; discriminate.
Qed.
Lemma bicor_total a b : length a = length b -> exists c, bicor a b = Ok c.
Proof.
  intros L. unfold bicor. rewrite L, Nat.eqb_refl. cbn [negb]. destruct (_ || _); [eauto|]. destruct (center a) as [[? ?]|]; [|eauto]. destruct (center b) as [[? ?]|]; [|eauto]. destruct (Req_EM_T _ 0); eauto.
Qed.
Lemma percbend_total a b : length a = length b -> a <> [] -> exists c, percbend a b = Ok c.
Proof.
  intros L N. unfold percbend. rewrite L, Nat.eqb_refl. cbn [negb]. destruct (bend a) as [u|e] eqn:EA; [|apply bend_err in EA; destruct EA; contradiction].
  destruct (bend b) as [v|e] eqn:EB; [|apply bend_err in EB; destruct EB as [_ ->]; destruct a; [contradiction|discriminate]]. cbn [bind]. destruct (all_there u), (all_there v); eauto. destruct (Req_EM_T _ 0); eauto.
Qed.
Lemma finish_total (ppf : R -> R) n (c : option R) : exists t, match c with
    | None => Ok (Table n None None None (None, None))
    | Some r => Ok (Table n (Some r) (Some (r * r)%R) (if (n =? 3)%Z then None else Some (1 - (1 - r * r) * IZR (n - 1) / IZR (n - 3))%R) (ci_r (Rabs (ppf ((1 - 95 / 100) / 2)%R)) r n))
    end = Ok t.
Proof. destruct c; eauto. Qed.
Lemma core_outcomes ppf a b method : length a = length b ->
  (method = "pearson"%string /\ length a < 2 /\ core ppf a b method = Err ValueError) \/
  (method = "percbend"%string /\ length a = 0 /\ core ppf a b method = Err IndexError) \/
  (In method ["spearman"; "kendall"; "shepherd"]%string /\ core ppf a b method = Err NotModelled) \/
  (~ In method ["pearson"; "spearman"; "kendall"; "bicor"; "percbend"; "shepherd"]%string /\ core ppf a b method = Err ValueError) \/
  (In method ["pearson"; "bicor"; "percbend"]%string /\ (method = "pearson"%string -> 2 <= length a) /\ (method = "percbend"%string -> length a <> 0) /\ exists t, core ppf a b method = Ok t).
Proof.
  intros L. unfold core. destruct (String.eqb_spec method "pearson") as [->|N1].
  { unfold pearsonr. rewrite L, Nat.eqb_refl. cbn [negb]. destruct (Nat.ltb_spec (length b) 2) as [S|S]; [left; auto|]. do 4 right. split; [cbn; auto|]. split; [intros _; lia|]. split; [discriminate|].
    destruct (_ || _); cbn [bind]; eauto. }
  cbn [existsb]. destruct (String.eqb_spec method "spearman") as [->|N2]; [right; right; left; split; [cbn; auto|reflexivity]|]. cbn [orb]. destruct (String.eqb_spec method "kendall") as [->|N3]; [right; right; left; split; [cbn; auto|reflexivity]|]. cbn [orb].
  destruct (String.eqb_spec method "bicor") as [->|N4].
  { do 4 right. split; [cbn; auto|]. split; [discriminate|]. split; [discriminate|]. destruct (bicor_total a b L) as [c ->]. cbn [bind]. apply finish_total. }
  destruct (String.eqb_spec method "percbend") as [->|N5].
  { destruct a as [|v a].
    - right. left. destruct b; [|discriminate]. split; [reflexivity|]. split; reflexivity.
    - do 4 right. split; [cbn; auto|]. split; [discriminate|]. split; [discriminate|]. destruct (percbend_total (v :: a) b L) as [c ->]; [discriminate|]. cbn [bind]. apply finish_total. }
  destruct (String.eqb_spec method "shepherd") as [->|N6]; [right; right; left; split; [cbn; auto|reflexivity]|].
  right. right. right. left. split; [|reflexivity]. cbn. intuition congruence.
Qed.
Lemma core_opp ppf a b method :
  match core ppf a b method, core ppf (map Ropp a) b method with
  | Ok t, Ok t' => t_n t' = t_n t /\ Opposite (t_r t) (t_r t') /\ t_r2 t' = t_r2 t /\ t_adj t' = t_adj t /\
      Opposite (fst (t_ci t)) (snd (t_ci t')) /\ Opposite (snd (t_ci t)) (fst (t_ci t'))
  | Err e, Err e' => e' = e
  | _, _ => False
  end.
Proof.
  unfold core. rewrite pearson_opp, bicor_opp, percbend_opp, map_length.
  assert (F : forall c : res (option R), match (r <- c ;; match r with
      | None => Ok (Table (Z.of_nat (length a)) None None None (None, None))
      | Some r => Ok (Table (Z.of_nat (length a)) (Some r) (Some (r * r)%R) (if (Z.of_nat (length a) =? 3)%Z then None else Some (1 - (1 - r * r) * IZR (Z.of_nat (length a) - 1) / IZR (Z.of_nat (length a) - 3))%R) (ci_r (Rabs (ppf ((1 - 95 / 100) / 2)%R)) r (Z.of_nat (length a))))
      end), (r <- turned c ;; match r with
      | None => Ok (Table (Z.of_nat (length a)) None None None (None, None))
      | Some r => Ok (Table (Z.of_nat (length a)) (Some r) (Some (r * r)%R) (if (Z.of_nat (length a) =? 3)%Z then None else Some (1 - (1 - r * r) * IZR (Z.of_nat (length a) - 1) / IZR (Z.of_nat (length a) - 3))%R) (ci_r (Rabs (ppf ((1 - 95 / 100) / 2)%R)) r (Z.of_nat (length a))))
      end) with
      | Ok t, Ok t' => t_n t' = t_n t /\ Opposite (t_r t) (t_r t') /\ t_r2 t' = t_r2 t /\ t_adj t' = t_adj t /\ Opposite (fst (t_ci t)) (snd (t_ci t')) /\ Opposite (snd (t_ci t)) (fst (t_ci t'))
      | Err e, Err e' => e' = e
      | _, _ => False
      end).
  { intros [[r|]|e]; cbn [turned bind]; [| |reflexivity].
    - cbn [t_n t_r t_r2 t_adj t_ci]. replace (- r * - r)%R with (r * r)%R by ring. split; [reflexivity|]. split; [reflexivity|]. split; [reflexivity|]. split; [reflexivity|]. apply ci_opp.
    - cbn. repeat split. }
  destruct (String.eqb method "pearson"); [exact (F (pearsonr a b))|]. destruct (existsb _ _); [reflexivity|]. destruct (String.eqb method "bicor"); [exact (F (bicor a b))|]. destruct (String.eqb method "percbend"); [exact (F (percbend a b))|]. destruct (String.eqb method "shepherd"); reflexivity.
Qed.
Lemma pairs_self x : map fst (Pairs x x) = map snd (Pairs x x).
Proof. unfold Pairs. induction x as [|[a|] x IH]; cbn; [reflexivity| |exact IH]. f_equal. exact IH. Qed.
Lemma pairs_missing x1 x2 y1 y2 a b : a = None \/ b = None -> length x1 = length y1 -> Pairs (x1 ++ a :: x2) (y1 ++ b :: y2) = Pairs (x1 ++ x2) (y1 ++ y2).
Proof.
  intros N. revert y1. induction x1 as [|u x1 IH]; intros [|v y1] L; try discriminate L.
  - unfold Pairs. cbn. destruct a, b; try reflexivity. destruct N; discriminate.
  - unfold Pairs in *. cbn [app combine flat_map]. f_equal. apply IH. injection L as L. exact L.
Qed.

(** ** Weights *)
Lemma biweighted_map x m d : Center x m d -> (0 < d)%R -> Biweighted x (map (biweight m d) x).
Proof.
  intros C D. exists m, d. split; [exact C|]. split; [exact D|]. clear C. induction x as [|v x IH]; cbn; constructor; [|exact IH].
  assert (A : Rabs ((v - m) / (9 * d)) = (Rabs (v - m) / (9 * d))%R). { unfold Rdiv. rewrite Rabs_mult. f_equal. apply Rabs_right. apply Rle_ge. left. apply Rinv_0_lt_compat. lra. }
  unfold biweight. cbn zeta. rewrite A. split; intros H.
  - assert (X : (Rabs (v - m) / (9 * d) < 1)%R). { apply (Rmult_lt_reg_r (9 * d)); [lra|]. unfold Rdiv. rewrite Rmult_assoc, Rinv_l by lra. lra. }
    assert (E : real_ltb 0 (1 - Rabs (v - m) / (9 * d)) = true) by (apply real_ltb_iff; lra). rewrite E. ring.
  - assert (X : (1 <= Rabs (v - m) / (9 * d))%R). { apply (Rmult_le_reg_r (9 * d)); [lra|]. unfold Rdiv. rewrite Rmult_assoc, Rinv_l by lra. lra. }
    assert (E : real_ltb 0 (1 - Rabs (v - m) / (9 * d)) = false) by (apply real_ltb_false; lra). rewrite E. ring.
Qed.
Lemma biweight_far m d v : (0 < d)%R -> (9 * d <= Rabs (v - m))%R -> biweight m d v = 0%R.
Proof.
  intros D H. assert (A : Rabs ((v - m) / (9 * d)) = (Rabs (v - m) / (9 * d))%R). { unfold Rdiv. rewrite Rabs_mult. f_equal. apply Rabs_right. apply Rle_ge. left. apply Rinv_0_lt_compat. lra. }
  unfold biweight. cbn zeta. rewrite A. assert (X : (1 <= Rabs (v - m) / (9 * d))%R). { apply (Rmult_le_reg_r (9 * d)); [lra|]. unfold Rdiv. rewrite Rmult_assoc, Rinv_l by lra. lra. }
  assert (E : real_ltb 0 (1 - Rabs (v - m) / (9 * d)) = false) by (apply real_ltb_false; lra). rewrite E. ring.
Qed.
Lemma biweight_near m d v : (0 < d)%R -> (0 < Rabs (v - m) < 9 * d)%R -> biweight m d v <> 0%R.
Proof.
  intros D H. assert (A : Rabs ((v - m) / (9 * d)) = (Rabs (v - m) / (9 * d))%R). { unfold Rdiv. rewrite Rabs_mult. f_equal. apply Rabs_right. apply Rle_ge. left. apply Rinv_0_lt_compat. lra. }
  unfold biweight. cbn zeta. rewrite A. assert (X : (Rabs (v - m) / (9 * d) < 1)%R). { apply (Rmult_lt_reg_r (9 * d)); [lra|]. unfold Rdiv. rewrite Rmult_assoc, Rinv_l by lra. lra. }
  assert (E : real_ltb 0 (1 - Rabs (v - m) / (9 * d)) = true) by (apply real_ltb_iff; lra). rewrite E. rewrite <- A in X. set (u := ((v - m) / (9 * d))%R) in *. apply Rabs_def2 in X.
  assert (0 < 1 - u * u)%R by nra. assert (0 < (1 - u * u) * (1 - u * u))%R by nra. assert (v - m <> 0)%R by (intros Z; rewrite Z, Rabs_R0 in H; lra). apply Rmult_integral_contrapositive. split; [assumption|lra].
Qed.
(** The two middle values. *)
Lemma median_middle l m : Median l m -> exists a b, nth_error (sort_r l) ((length l - 1) / 2) = Some a /\ nth_error (sort_r l) (length l / 2) = Some b /\ (a <= b)%R /\ (2 * m = a + b)%R.
Proof.
  intros (s & a & b & P & H & A & B & E). rewrite <- (Permutation_length P) in A, B. rewrite <- (sort_is l s P H) in A, B. exists a, b. split; [exact A|]. split; [exact B|]. split; [|exact E].
  apply (sorted_nth (sort_r l) ((length l - 1) / 2) (length l / 2)); auto using sort_sorted. apply Nat.div_le_mono; lia.
Qed.
Lemma sort_in l i a : nth_error (sort_r l) i = Some a -> In a l.
Proof. intros E. apply nth_error_In in E. apply (Permutation_in _ (Permutation_sym (sort_perm l))). exact E. Qed.
Lemma weights_pos x m d : Center x m d -> (0 < d)%R -> (0 < Product (map (biweight m d) x) (map (biweight m d) x))%R.
Proof.
  intros [_ M] D. destruct (median_middle _ _ M) as (a & b & A & B & AB & E). apply sort_in in A, B. apply in_map_iff in A, B. destruct A as (va & <- & _). destruct B as (vb & <- & IB). pose proof (Rabs_pos (va - m)).
  apply product_pos. exists (biweight m d vb). split; [apply in_map; exact IB|]. apply biweight_near; [exact D|lra].
Qed.
(** No value in the middle is farther from the median than the median distance. *)
Lemma middle_close x m d a b : Center x m d -> nth_error (sort_r x) ((length x - 1) / 2) = Some a -> nth_error (sort_r x) (length x / 2) = Some b -> (m - d <= a <= m /\ m <= b <= m + d)%R.
Proof.
  intros [M DV] A B. destruct (median_middle _ _ M) as (a0 & b0 & A0 & B0 & AB & E). rewrite A in A0. injection A0 as <-. rewrite B in B0. injection B0 as <-.
  assert (F : forall v, In v x -> (b - m <= Rabs (v - m))%R).
  { intros v I. apply (Permutation_in _ (sort_perm x)) in I. apply In_nth_error in I. destruct I as [i I].
    destruct (Nat.le_gt_cases (length x / 2) i) as [L|L].
    - pose proof (sorted_nth _ _ _ _ _ (sort_sorted x) B I L). unfold Rabs. destruct (Rcase_abs (v - m)); lra.
    - assert (L' : i <= (length x - 1) / 2). { destruct (Nat.odd (length x)) eqn:O; [rewrite half_odd by exact O; lia|]. rewrite half_even; [lia| |exact O]. destruct (length x); [cbn in L; lia|lia]. }
      pose proof (sorted_nth _ _ _ _ _ (sort_sorted x) I A L'). unfold Rabs. destruct (Rcase_abs (v - m)); lra. }
  destruct (median_middle _ _ DV) as (u & w & U & W & UW & E2). apply sort_in in U. apply in_map_iff in U. destruct U as (vu & <- & IU). specialize (F vu IU). lra.
Qed.
Lemma sorted_between lo hi l l' i a : (lo < hi)%R -> length (filter (fun v => negb (real_ltb lo v)) l') = length (filter (fun v => negb (real_ltb lo v)) l) ->
  filter (fun v => real_ltb lo v && real_ltb v hi) l' = filter (fun v => real_ltb lo v && real_ltb v hi) l ->
  nth_error (sort_r l) i = Some a -> (lo < a < hi)%R -> nth_error (sort_r l') i = Some a.
Proof.
  intros LH LO MID E AB. set (f := fun v => negb (real_ltb lo v)) in *.
  assert (T : forall k, sort_r k = sort_r (filter f k) ++ sort_r (filter (fun v => negb (f v)) k)).
  { intros k. apply sort_app_split; [apply part_perm|]. intros u v Iu Iv. apply filter_In in Iu, Iv. destruct Iu as [_ Iu]. destruct Iv as [_ Iv]. unfold f in *. rewrite Bool.negb_involutive in Iv. apply Bool.negb_true_iff, real_ltb_false in Iu. apply real_ltb_iff in Iv. lra. }
  rewrite (T l) in E. rewrite (T l'). destruct (Nat.lt_ge_cases i (length (sort_r (filter f l)))) as [L|L].
  - exfalso. rewrite nth_error_app1 in E by exact L. apply sort_in in E. apply filter_In in E. destruct E as [_ E]. unfold f in E. apply Bool.negb_true_iff, real_ltb_false in E. lra.
  - rewrite nth_error_app2 in E by exact L. rewrite nth_error_app2 by (rewrite sort_len, LO, <- sort_len; exact L). rewrite (sort_len (filter f l')), LO, <- sort_len.
    apply (sorted_below hi (filter (fun v => negb (f v)) l)); [|exact E|lra].
    assert (FF : forall k, filter (fun v => real_ltb v hi) (filter (fun v => negb (f v)) k) = filter (fun v => real_ltb lo v && real_ltb v hi) k).
    { clear. intros k. unfold f. induction k as [|v k IH]; [reflexivity|]. cbn [filter]. rewrite Bool.negb_involutive. destruct (real_ltb lo v); cbn [andb]; [cbn [filter]; destruct (real_ltb v hi); rewrite IH; reflexivity|exact IH]. }
    rewrite !FF. exact MID.
Qed.
Lemma center_outliers x x' m d : Center x m d -> (0 < d)%R ->
  Forall2 (fun v v' => v' = v \/ (m + 9 * d <= v /\ m + 9 * d <= v')%R \/ (v <= m - 9 * d /\ v' <= m - 9 * d)%R) x x' -> Center x' m d.
Proof.
  intros C D F. assert (L : length x' = length x) by (clear C; induction F; cbn; congruence). 
  assert (LO : length (filter (fun v => negb (real_ltb (m - 9 * d) v)) x') = length (filter (fun v => negb (real_ltb (m - 9 * d) v)) x)).
  { clear C L. induction F as [|v v' x x' H F IH]; [reflexivity|]. cbn [filter]. replace (real_ltb (m - 9 * d) v') with (real_ltb (m - 9 * d) v); [destruct (negb _); cbn; congruence|]. destruct H as [->|H]; [reflexivity|]. apply ltb_same. split; intros; lra. }
  assert (MID : filter (fun v => real_ltb (m - 9 * d) v && real_ltb v (m + 9 * d)) x' = filter (fun v => real_ltb (m - 9 * d) v && real_ltb v (m + 9 * d)) x).
  { clear C L LO. induction F as [|v v' x x' H F IH]; [reflexivity|]. cbn [filter]. destruct H as [->|H]; [rewrite IH; reflexivity|].
    replace (real_ltb (m - 9 * d) v && real_ltb v (m + 9 * d)) with false; [replace (real_ltb (m - 9 * d) v' && real_ltb v' (m + 9 * d)) with false; [exact IH|]|]; symmetry; apply Bool.andb_false_iff; rewrite !real_ltb_false; lra. }
  split.
  - destruct C as [M DV]. destruct (median_middle _ _ M) as (a & b & A & B & AB & E). destruct (middle_close x m d a b (conj M DV) A B) as [CA CB].
    exists (sort_r x'), a, b. rewrite sort_len, L. split; [apply sort_perm|]. split; [apply sort_sorted|].
    split; [apply (sorted_between (m - 9 * d) (m + 9 * d) x x'); auto; lra|]. split; [apply (sorted_between (m - 9 * d) (m + 9 * d) x x'); auto; lra|exact E].
  - destruct C as [M DV]. apply (median_below (9 * d) (map (fun v => Rabs (v - m)) x)); [rewrite !map_length; exact L| |exact DV|].
    + clear - F D. induction F as [|v v' x x' H F IH]; [reflexivity|]. cbn [map filter]. destruct H as [->|H]; [rewrite IH; reflexivity|].
      replace (real_ltb (Rabs (v - m)) (9 * d)) with false; [replace (real_ltb (Rabs (v' - m)) (9 * d)) with false; [exact IH|]|]; symmetry; apply real_ltb_false; unfold Rabs; destruct (Rcase_abs _); lra.
    + intros b B. destruct (median_middle _ _ DV) as (a & b0 & A & B0 & AB & E). rewrite B in B0. injection B0 as <-. apply sort_in in A. apply in_map_iff in A. destruct A as (v & <- & _). pose proof (Rabs_pos (v - m)). lra.
Qed.

(** ** Bent deviations *)
Lemma reach_omega x m w : 2 <= length x -> (Reach x m w <-> Omega x m w).
Proof.
  intros L. assert (P : place (length x) = 4 * length x / 5 - 1). { unfold place. assert (1 <= 4 * length x / 5) by (apply Nat.div_le_lower_bound; lia). destruct (Nat.eqb_spec (4 * length x / 5) 0); lia. }
  unfold Reach, Omega. rewrite P. split.
  - intros (M & s & PE & H & E). split; [apply median_iff; exact M|]. rewrite (sort_is _ s PE H). exact E.
  - intros (M & E). split; [apply median_iff; exact M|]. exists (sort_r (map (fun v => Rabs (v - m)) x)). split; [apply sort_perm|]. split; [apply sort_sorted|exact E].
Qed.
Lemma bend_bent x m w : 2 <= length x -> Reach x m w -> (0 < w)%R -> exists a, bend x = Ok (map Some a) /\ Bent x a /\ a = map (fun v => cut ((v - bent_mean m w x) / w)) x.
Proof.
  intros L RX W. pose proof (proj1 (reach_omega x m w L) RX) as O. exists (map (fun v => cut ((v - bent_mean m w x) / w)) x). split; [rewrite (bend_pos _ _ _ O W), map_map; reflexivity|]. split; [|reflexivity].
  exists m, w, (bent_mean m w x). split; [exact RX|]. split; [exact W|]. split; [|reflexivity]. pose proof (middle_some _ _ _ O) as K.
  exists (lowest m w x), (middle m w x), (highest m w x). split; [apply three_perm; lra|].
  split; [apply Forall_forall; intros v I; apply filter_In in I; apply real_ltb_iff; apply I|].
  split. { apply Forall_forall. intros v I. apply filter_In in I. destruct I as [_ I]. apply Bool.andb_true_iff in I. destruct I as [I J]. apply Bool.negb_true_iff, real_ltb_false in I. apply Bool.negb_true_iff, real_ltb_false in J. lra. }
  split; [apply Forall_forall; intros v I; apply filter_In in I; apply real_ltb_iff; apply I|]. split; [destruct (middle m w x); [cbn in K; lia|discriminate]|].
  unfold bent_mean. fold (rsum (middle m w x)). apply lt_0_INR in K. cbn in K. field. lra.
Qed.
Lemma some_map_inj {A} (a b : list A) : map Some a = map Some b -> a = b.
Proof. revert b. induction a as [|v a IH]; intros [|w b] E; try discriminate E; [reflexivity|]. injection E as -> E. f_equal. apply IH. exact E. Qed.

(** ** Intervals of both kinds *)
Lemma esci_r ppf tppf r n ny paired eftype conf : In eftype ["r"; "pearson"; "spearman"]%string -> (0 < conf < 1)%R ->
  compute_esci ppf tppf r n ny paired eftype conf = Ok (ci_r (Rabs (ppf ((1 - conf) / 2)%R)) r n).
Proof.
  intros I B. unfold compute_esci. assert (E1 : real_ltb 0 conf = true) by (apply real_ltb_iff; lra). assert (E2 : real_ltb conf 1 = true) by (apply real_ltb_iff; lra). rewrite E1, E2.
  destruct I as [<-|[<-|[<-|[]]]]; reflexivity.
Qed.
Lemma crit_pos (ppf : R -> R) conf : (0 < conf < 1)%R -> (forall q, 0 < q < 1 / 2 -> ppf q < 0)%R -> (0 < Rabs (ppf ((1 - conf) / 2)))%R.
Proof. intros B H. assert (ppf ((1 - conf) / 2) < 0)%R by (apply H; lra). apply Rabs_pos_lt. lra. Qed.
Lemma se_pos n : (3 < n)%Z -> (0 < 1 / sqrt (IZR (n - 3)))%R.
Proof. intros L. apply Rdiv_lt_0_compat; [lra|]. apply sqrt_lt_R0. apply IZR_lt. lia. Qed.
Lemma se_less n n' : (3 < n)%Z -> (n < n')%Z -> (1 / sqrt (IZR (n' - 3)) < 1 / sqrt (IZR (n - 3)))%R.
Proof.
  intros L L'. assert (A : (0 < IZR (n - 3))%R) by (apply IZR_lt; lia). assert (B : (IZR (n - 3) < IZR (n' - 3))%R) by (apply IZR_lt; lia).
  pose proof (sqrt_lt_R0 _ A). assert (sqrt (IZR (n - 3)) < sqrt (IZR (n' - 3)))%R by (apply sqrt_lt_1; lra). unfold Rdiv. rewrite !Rmult_1_l. apply Rinv_lt_contravar; nra.
Qed.
Lemma esci_d ppf tppf d n ny paired eftype conf : In eftype ["cohen"; "d"; "g"; "hedges"]%string -> (0 < conf < 1)%R ->
  compute_esci ppf tppf d n ny paired eftype conf =
    let one := match ny with Some 1%Z => true | _ => paired end in
    if (n <? 1)%Z then Err NotModelled
    else if one then
      if (n <? 2)%Z then Err NotModelled
      else Ok (Some (d - Rabs (tppf ((1 - conf) / 2)%R (n - 1)%Z) * sqrt (1 / IZR n + d * d / (2 * IZR n)))%R, Some (d + Rabs (tppf ((1 - conf) / 2)%R (n - 1)%Z) * sqrt (1 / IZR n + d * d / (2 * IZR n)))%R)
    else match ny with
         | None => Err TypeError
         | Some m => if (m <? 1)%Z then Err NotModelled
             else Ok (Some (d - Rabs (tppf ((1 - conf) / 2)%R (n + m - 2)%Z) * sqrt (IZR (n + m) / IZR (n * m) + d * d / (2 * IZR (n + m))))%R, Some (d + Rabs (tppf ((1 - conf) / 2)%R (n + m - 2)%Z) * sqrt (IZR (n + m) / IZR (n * m) + d * d / (2 * IZR (n + m))))%R)
         end.
Proof.
  intros I B. unfold compute_esci. assert (E1 : real_ltb 0 conf = true) by (apply real_ltb_iff; lra). assert (E2 : real_ltb conf 1 = true) by (apply real_ltb_iff; lra). rewrite E1, E2.
  destruct I as [<-|[<-|[<-|[<-|[]]]]]; reflexivity.
Qed.
Lemma one_case ny (paired : bool) : match ny with Some 1%Z => true | _ => paired end = true <-> ny = Some 1%Z \/ paired = true.
Proof. destruct ny as [[|[p|p|]|p]|]; split; intros H; auto; destruct H as [H|H]; congruence. Qed.
Lemma half_square t e : (0 <= e)%R -> ((Rabs t * sqrt e) ^ 2 = t ^ 2 * e)%R.
Proof. intros E. replace ((Rabs t * sqrt e) ^ 2)%R with ((Rabs t) ^ 2 * (sqrt e * sqrt e))%R by ring. rewrite sqrt_sqrt by exact E. rewrite pow2_abs. reflexivity. Qed.

(** The statements of PropertiesCorr.v. *)
Lemma C87_pearson_proof : forall ppf x y tail t, corr ppf x y tail "pearson" = Ok t ->
  let a := map fst (Pairs x y) in let b := map snd (Pairs x y) in
  t_n t = Z.of_nat (List.length (Pairs x y)) /\
  (t_r t = None <-> AllSame a \/ AllSame b) /\
  (forall r, t_r t = Some r -> Correlation a b r /\ (-1 <= r <= 1)%R).
Proof.
  intros ppf x y tail t E. cbv zeta. rewrite corr_core in E. destruct (_ || _); [discriminate|]. apply core_cases in E. destruct E as (c & D & TN & TR & REST). rewrite map_length in TN. split; [exact TN|]. destruct D as [[_ D]|[[D _]|[D _]]]; [|discriminate D|discriminate D].
  subst c. split; [exact (pearson_none _ _ _ D)|]. intros r ER. rewrite ER in D. apply pearson_some in D. destruct D as (L & N & C). split; [|exact (cosine_bound _ _ _ C)].
  apply cosine_corr; [| |exact C]; intros Z; rewrite Z in *; cbn in *; lia.
Qed.

Lemma C87_pearson_case_proof : exists t, corr (fun _ => (-2)%R) [Some 1; Some 2; None; Some 4]%R [Some 3; Some 5; Some 7; Some 1]%R "two-sided" "pearson" = Ok t.
Proof.
  rewrite corr_core. cbn [length Nat.eqb negb orb Nat.leb]. change (String.eqb "two-sided" "two-sided") with true. cbn [orb negb]. unfold Pairs. cbn [combine flat_map app map fst snd].
  destruct (core_outcomes (fun _ => (-2)%R) [1; 2; 4]%R [3; 5; 1]%R "pearson" eq_refl) as [(_ & H & _)|[(H & _)|[(H & _)|[(H & _)|(_ & _ & _ & H)]]]]; [cbn in H; lia|discriminate|cbn in H; intuition discriminate|cbn in H; intuition discriminate|exact H].
Qed.

Lemma C87_symmetric_proof : forall ppf x y tail method, corr ppf x y tail method = corr ppf y x tail method.
Proof.
  intros ppf x y tail method. rewrite !corr_core, (Nat.eqb_sym (length y)). destruct (Nat.eqb_spec (length x) (length y)) as [L|]; [|reflexivity]. rewrite L. destruct (_ || _); [reflexivity|].
  rewrite (pairs_swap x y). destruct (map_swap (Pairs x y)) as [-> ->]. apply core_swap. rewrite !map_length. reflexivity.
Qed.

Lemma C87_units_proof : forall ppf x y tail method a b, (0 < a)%R ->
  corr ppf (map (option_map (fun v => a * v + b)%R) x) y tail method = corr ppf x y tail method.
Proof.
  intros ppf x y tail method a b P. rewrite !corr_core, map_length. destruct (_ || _); [reflexivity|]. rewrite pairs_map, !map_map. cbn [fst snd]. rewrite <- (map_map fst (fun v => a * v + b)%R). change (map (fun p : R * R => snd p) (Pairs x y)) with (map snd (Pairs x y)).
  unfold core. rewrite pearson_affine, bicor_affine, percbend_affine, map_length by exact P. reflexivity.
Qed.

Lemma C87_sign_proof : forall ppf x y tail method,
  match corr ppf x y tail method, corr ppf (map (option_map Ropp) x) y tail method with
  | Ok t, Ok t' => t_n t' = t_n t /\ Opposite (t_r t) (t_r t') /\ t_r2 t' = t_r2 t /\ t_adj t' = t_adj t /\
      Opposite (fst (t_ci t)) (snd (t_ci t')) /\ Opposite (snd (t_ci t)) (fst (t_ci t'))
  | Err e, Err e' => e' = e
  | _, _ => False
  end.
Proof.
  intros ppf x y tail method. rewrite !corr_core, map_length. destruct (_ || _); [reflexivity|]. rewrite pairs_map, !map_map. cbn [fst snd]. rewrite <- (map_map fst Ropp). change (map (fun p : R * R => snd p) (Pairs x y)) with (map snd (Pairs x y)). apply core_opp.
Qed.

Lemma C87_self_proof : forall ppf x tail method t r, corr ppf x x tail method = Ok t -> t_r t = Some r -> r = 1%R.
Proof.
  intros ppf x tail method t r E ER. rewrite corr_core in E. destruct (_ || _); [discriminate|]. apply core_cases in E. destruct E as (c & D & TN & TR & REST). rewrite ER in TR. subst c. rewrite <- pairs_self in D. destruct D as [[_ D]|[[_ D]|[_ D]]].
  - apply pearson_some in D. destruct D as (_ & _ & C). exact (cosine_self _ _ C).
  - apply bicor_some in D. destruct D as (m & d & m' & d' & A & B & _ & _ & C). rewrite A in B. injection B as <- <-. exact (cosine_self _ _ C).
  - apply percbend_some in D. destruct D as (a & b & A & B & C). rewrite A in B. injection B as B. apply some_map_inj in B. subst b. exact (cosine_self _ _ C).
Qed.

Lemma C87_self_case_proof : exists t r, corr (fun _ => (-2)%R) [Some 1; Some 2; Some 4]%R [Some 1; Some 2; Some 4]%R "two-sided" "pearson" = Ok t /\ t_r t = Some r.
Proof.
  assert (X : exists t, corr (fun _ => (-2)%R) [Some 1; Some 2; Some 4]%R [Some 1; Some 2; Some 4]%R "two-sided" "pearson" = Ok t).
  { rewrite corr_core. cbn [length Nat.eqb negb orb Nat.leb]. change (String.eqb "two-sided" "two-sided") with true. cbn [orb negb]. unfold Pairs. cbn [combine flat_map app map fst snd].
    destruct (core_outcomes (fun _ => (-2)%R) [1; 2; 4]%R [1; 2; 4]%R "pearson" eq_refl) as [(_ & H & _)|[(H & _)|[(H & _)|[(H & _)|(_ & _ & _ & H)]]]]; [cbn in H; lia|discriminate|cbn in H; intuition discriminate|cbn in H; intuition discriminate|exact H]. }
  destruct X as [t E]. exists t. pose proof (C87_pearson_proof _ _ _ _ _ E) as (_ & N & _). destruct (t_r t) as [r|]; [exists r; split; [exact E|reflexivity]|]. exfalso.
  destruct (proj1 N eq_refl) as [H|H]; specialize (H 1%R 2%R); cbn in H; specialize (H ltac:(auto) ltac:(auto)); lra.
Qed.

Lemma C87_missing_proof : forall ppf x1 x2 y1 y2 a b tail method, a = None \/ b = None ->
  List.length x1 = List.length y1 -> 2 <= List.length (x1 ++ x2) ->
  corr ppf (x1 ++ a :: x2) (y1 ++ b :: y2) tail method = corr ppf (x1 ++ x2) (y1 ++ y2) tail method.
Proof.
  intros ppf x1 x2 y1 y2 a b tail method N L S. rewrite !corr_core. rewrite (pairs_missing x1 x2 y1 y2 a b N L).
  assert (E1 : (length (x1 ++ a :: x2) =? length (y1 ++ b :: y2)) = (length (x1 ++ x2) =? length (y1 ++ y2))).
  { rewrite !app_length. cbn [length]. destruct (Nat.eqb_spec (length x1 + length x2) (length y1 + length y2)); [apply Nat.eqb_eq|apply Nat.eqb_neq]; lia. }
  assert (E2 : (length (x1 ++ a :: x2) <=? 1) = (length (x1 ++ x2) <=? 1)).
  { rewrite (proj2 (Nat.leb_gt (length (x1 ++ x2)) 1)) by lia. apply Nat.leb_gt. rewrite app_length in *. cbn [length]. lia. }
  rewrite E1, E2. reflexivity.
Qed.

Lemma C87_squares_proof : forall ppf x y tail method t, corr ppf x y tail method = Ok t ->
  match t_r t with
  | None => t_r2 t = None /\ t_adj t = None
  | Some r => t_r2 t = Some (r ^ 2)%R /\ (-1 <= r <= 1)%R /\ (t_adj t = None <-> t_n t = 3%Z) /\
      ((3 < t_n t)%Z -> exists adj, t_adj t = Some adj /\ (adj <= r ^ 2)%R /\ (adj = r ^ 2 <-> r ^ 2 = 1)%R)
  end.
Proof.
  intros ppf x y tail method t E. rewrite corr_core in E. destruct (_ || _); [discriminate|]. apply core_cases in E. destruct E as (c & D & TN & TR & REST). rewrite TR. destruct c as [r|]; [|destruct REST as (A & B & _); auto]. destruct REST as (R2 & ADJ & _).
  assert (B : (-1 <= r <= 1)%R). { destruct (any_cosine (map fst (Pairs x y)) (map snd (Pairs x y)) (Some r) r) as (u & v & C); [tauto|reflexivity|]. exact (cosine_bound _ _ _ C). }
  split; [rewrite R2; f_equal; ring|]. split; [exact B|]. rewrite ADJ, TN. set (n := Z.of_nat (length (map fst (Pairs x y)))) in *. split.
  - destruct (Z.eqb_spec n 3); split; intros; congruence || lia.
  - intros N3. destruct (Z.eqb_spec n 3); [lia|]. eexists. split; [reflexivity|]. assert (P : (0 < IZR (n - 3))%R) by (apply IZR_lt; lia).
    assert (X : (1 - (1 - r * r) * IZR (n - 1) / IZR (n - 3) = r ^ 2 - (1 - r ^ 2) * (2 / IZR (n - 3)))%R).
    { replace (IZR (n - 1)) with (IZR (n - 3) + 2)%R by (rewrite <- plus_IZR; f_equal; lia). field. lra. }
    rewrite X. assert (Q : (0 < 2 / IZR (n - 3))%R) by (apply Rdiv_lt_0_compat; lra). set (q := (2 / IZR (n - 3))%R) in *. assert (r ^ 2 <= 1)%R by nra. set (k := (r ^ 2)%R) in *. split; [nra|]. split; intros; nra.
Qed.

Lemma C87_exceptions_proof : forall ppf x y tail method, let n := List.length (Pairs x y) in
  (corr ppf x y tail method = Err AssertionError <->
     List.length x <> List.length y \/ ~ In tail ["two-sided"; "one-sided"]%string \/ List.length x <= 1) /\
  (List.length x = List.length y -> In tail ["two-sided"; "one-sided"]%string -> 2 <= List.length x ->
     (corr ppf x y tail method = Err ValueError <->
        (method = "pearson"%string /\ n < 2) \/ ~ In method ["pearson"; "spearman"; "kendall"; "bicor"; "percbend"; "shepherd"]%string) /\
     (corr ppf x y tail method = Err IndexError <-> method = "percbend"%string /\ n = 0) /\
     (In method ["pearson"; "bicor"; "percbend"]%string -> 2 <= n -> exists t, corr ppf x y tail method = Ok t)) /\
  (forall e, corr ppf x y tail method = Err e ->
     In e [AssertionError; ValueError; IndexError] \/ (e = NotModelled /\ In method ["spearman"; "kendall"; "shepherd"]%string)).
Proof.
  intros ppf x y tail method n. rewrite !corr_core. set (a := map fst (Pairs x y)). set (b := map snd (Pairs x y)).
  assert (LA : length a = n) by apply map_length. assert (LAB : length a = length b) by (unfold a, b; rewrite !map_length; reflexivity).
  assert (T : (String.eqb tail "two-sided" || String.eqb tail "one-sided") = true <-> In tail ["two-sided"; "one-sided"]%string).
  { cbn. rewrite Bool.orb_true_iff, !String.eqb_eq. intuition congruence. }
  assert (COND : (negb (length x =? length y) || negb (String.eqb tail "two-sided" || String.eqb tail "one-sided") || (length x <=? 1)) = true <->
                 length x <> length y \/ ~ In tail ["two-sided"; "one-sided"]%string \/ length x <= 1).
  { rewrite !Bool.orb_true_iff, !Bool.negb_true_iff, Nat.eqb_neq, Nat.leb_le, <- T. destruct (String.eqb tail "two-sided" || String.eqb tail "one-sided"); intuition congruence. }
  pose proof (core_outcomes ppf a b method LAB) as CO. rewrite LA in CO. split; [|split].
  - destruct (negb (length x =? length y) || _ || _).
    + split; [intros _; apply COND; reflexivity|reflexivity].
    + split; [|intros H; apply COND in H; discriminate]. intros H. exfalso. rewrite H in CO. destruct CO as [(_ & _ & K)|[(_ & _ & K)|[(_ & K)|[(_ & K)|(_ & _ & _ & t & K)]]]]; discriminate.
  - intros L1 L2 L3. destruct (negb (length x =? length y) || _ || _); [exfalso; destruct (proj1 COND eq_refl) as [K|[K|K]]; [contradiction|contradiction|lia]|].
    destruct CO as [(M & S & K)|[(M & S & K)|[(M & K)|[(M & K)|(M & P1 & P2 & t & K)]]]]; rewrite K.
    + subst method. split; [split; auto|]. split; [split; [discriminate|intros [H _]; discriminate]|]. intros _ H. lia.
    + subst method. split; [split; [discriminate|]|split; [split; auto|]].
      * intros [[H _]|H]; [discriminate|]. exfalso. apply H. cbn. auto 10.
      * intros _ H. lia.
    + split; [split; [discriminate|]|split; [split; [discriminate|]|]].
      * intros [[-> _]|H]; [cbn in M; intuition discriminate|]. exfalso. apply H. cbn in M |- *. tauto.
      * intros [-> _]. cbn in M. intuition discriminate.
      * intros H. exfalso. cbn in M, H. destruct M as [<-|[<-|[<-|[]]]]; intuition discriminate.
    + split; [split; auto|]. split; [split; [discriminate|]|].
      * intros [-> _]. exfalso. apply M. cbn. auto 10.
      * intros H. exfalso. apply M. cbn in H |- *. tauto.
    + split; [split; [discriminate|]|split; [split; [discriminate|]|eauto]].
      * intros [[H1 H2]|H]; [apply P1 in H1; lia|]. exfalso. apply H. cbn in M |- *. tauto.
      * intros [H1 H2]. apply P2 in H1. contradiction.
  - intros e. destruct (negb (length x =? length y) || _ || _); [intros [= <-]; left; cbn; auto|]. intros H. rewrite H in CO.
    destruct CO as [(_ & _ & K)|[(_ & _ & K)|[(M & K)|[(_ & K)|(_ & _ & _ & t & K)]]]]; [injection K as ->; left; cbn; auto|injection K as ->; left; cbn; auto|injection K as ->; right; auto|injection K as ->; left; cbn; auto|discriminate].
Qed.

Lemma C88_bicor_proof : forall x y, List.length x = List.length y -> exists c, bicor x y = Ok c /\
  (forall r, c = Some r -> exists xn yn, Biweighted x xn /\ Biweighted y yn /\ Cosine xn yn r /\ (-1 <= r <= 1)%R) /\
  (c <> None <-> (exists m d, Center x m d /\ (0 < d)%R) /\ (exists m d, Center y m d /\ (0 < d)%R)).
Proof.
  intros x y L. destruct (bicor_total x y L) as [c E]. exists c. split; [exact E|]. split.
  - intros r ->. apply bicor_some in E. destruct E as (m & d & m' & d' & CX & CY & ND & ND' & C). apply center_iff in CX, CY. pose proof (mad_nonneg _ _ _ CX). pose proof (mad_nonneg _ _ _ CY).
    exists (map (biweight m d) x), (map (biweight m' d') y). split; [apply biweighted_map; [exact CX|lra]|]. split; [apply biweighted_map; [exact CY|lra]|]. split; [exact C|exact (cosine_bound _ _ _ C)].
  - split.
    + destruct c as [r|]; [|congruence]. intros _. apply bicor_some in E. destruct E as (m & d & m' & d' & CX & CY & ND & ND' & C). apply center_iff in CX, CY. pose proof (mad_nonneg _ _ _ CX). pose proof (mad_nonneg _ _ _ CY).
      split; [exists m, d|exists m', d']; (split; [assumption|lra]).
    + intros [(m & d & CX & D) (m' & d' & CY & D')] ->. pose proof (weights_pos _ _ _ CX D) as PX. pose proof (weights_pos _ _ _ CY D') as PY. apply center_iff in CX, CY. unfold bicor in E. rewrite CX, CY, L, Nat.eqb_refl in E.
      assert (E1 : real_eqb d 0 = false) by (destruct (real_eqb d 0) eqn:Z; [apply real_eqb_iff in Z; lra|reflexivity]). assert (E2 : real_eqb d' 0 = false) by (destruct (real_eqb d' 0) eqn:Z; [apply real_eqb_iff in Z; lra|reflexivity]).
      rewrite E1, E2 in E. cbn [orb negb] in E. rewrite !prod_sq in E. apply sqrt_lt_R0 in PX, PY. destruct (Req_EM_T _ 0) as [Z|_]; [nra|discriminate].
Qed.

Lemma C88_bicor_case_proof : Center [1; 2; 4]%R 2 1 /\ (0 < 1)%R.
Proof.
  split; [|lra]. split.
  - exists [1; 2; 4]%R, 2%R, 2%R. split; [reflexivity|]. split; [repeat constructor; lra|]. split; [reflexivity|]. split; [reflexivity|lra].
  - cbn [map]. rewrite (Rabs_left (1 - 2)), (Rabs_right (2 - 2)), (Rabs_right (4 - 2)) by lra. replace (- (1 - 2))%R with 1%R by ring. replace (2 - 2)%R with 0%R by ring. replace (4 - 2)%R with 2%R by ring.
    exists [0; 1; 2]%R, 1%R, 1%R. split; [apply perm_swap|]. split; [repeat constructor; lra|]. split; [reflexivity|]. split; [reflexivity|lra].
Qed.

Lemma C88_outliers_proof : forall x x' y m d, Center x m d -> (0 < d)%R ->
  Forall2 (fun v v' => v' = v \/ (m + 9 * d <= v /\ m + 9 * d <= v')%R \/ (v <= m - 9 * d /\ v' <= m - 9 * d)%R) x x' ->
  bicor x' y = bicor x y.
Proof.
  intros x x' y m d C D F. pose proof (center_outliers x x' m d C D F) as C'. apply center_iff in C, C'. assert (L : length x' = length x) by (clear C C'; induction F; cbn; congruence).
  unfold bicor. rewrite C, C', L. assert (E : map (biweight m d) x' = map (biweight m d) x); [|rewrite E; reflexivity].
  clear C C' L. induction F as [|v v' x x' H F IH]; [reflexivity|]. cbn [map]. f_equal; [|exact IH]. destruct H as [->|H]; [reflexivity|].
  rewrite !biweight_far; [reflexivity|exact D| |exact D|]; unfold Rabs; destruct (Rcase_abs _); lra.
Qed.

Lemma C88_outliers_case_proof : Center [1; 2; 4; 3; 50]%R 3 1 /\
  Forall2 (fun v v' => v' = v \/ (3 + 9 * 1 <= v /\ 3 + 9 * 1 <= v')%R \/ (v <= 3 - 9 * 1 /\ v' <= 3 - 9 * 1)%R) [1; 2; 4; 3; 50]%R [1; 2; 4; 3; 5000]%R.
Proof.
  split.
  - split.
    + exists [1; 2; 3; 4; 50]%R, 3%R, 3%R. split; [repeat constructor|]. split; [repeat constructor; lra|]. split; [reflexivity|]. split; [reflexivity|lra].
    + cbn [map]. rewrite (Rabs_left (1 - 3)), (Rabs_left (2 - 3)), (Rabs_right (4 - 3)), (Rabs_right (3 - 3)), (Rabs_right (50 - 3)) by lra. replace (- (1 - 3))%R with 2%R by ring. replace (- (2 - 3))%R with 1%R by ring. replace (4 - 3)%R with 1%R by ring. replace (3 - 3)%R with 0%R by ring. replace (50 - 3)%R with 47%R by ring.
      exists [0; 1; 1; 2; 47]%R, 1%R, 1%R. split; [|split; [repeat constructor; lra|split; [reflexivity|split; [reflexivity|lra]]]].
      change [2; 1; 1; 0; 47]%R with ([2; 1; 1; 0] ++ [47])%R. change [0; 1; 1; 2; 47]%R with ([0; 1; 1; 2] ++ [47])%R. apply Permutation_app_tail. exact (Permutation_rev [2; 1; 1; 0]%R).
  - constructor; [left; reflexivity|]. constructor; [left; reflexivity|]. constructor; [left; reflexivity|]. constructor; [left; reflexivity|]. constructor; [right; left; lra|constructor].
Qed.

Lemma C89_percbend_proof : forall x y r, 2 <= List.length x -> percbend x y = Ok (Some r) ->
  (-1 <= r <= 1)%R /\
  forall m w m' w', Reach x m w -> Reach y m' w' -> (0 < w)%R -> (0 < w')%R ->
    exists a b, Bent x a /\ Bent y b /\ Cosine a b r.
Proof.
  intros x y r L E. pose proof E as E0. apply percbend_some in E. destruct E as (a & b & A & B & C). split; [exact (cosine_bound _ _ _ C)|]. intros m w m' w' RX RY W W'.
  assert (LY : 2 <= length y). { unfold percbend in E0. destruct (Nat.eqb_spec (length x) (length y)); [lia|discriminate]. }
  destruct (bend_bent x m w L RX W) as (a' & A' & BA & _). destruct (bend_bent y m' w' LY RY W') as (b' & B' & BB & _). rewrite A in A'. rewrite B in B'. injection A' as A'. injection B' as B'. apply some_map_inj in A', B'. subst a' b'. exists a, b. auto.
Qed.

Lemma C89_percbend_case_proof : Reach [1; 2; 4; 8; 16]%R 4 4 /\ exists r, percbend [1; 2; 4; 8; 16]%R [1; 2; 4; 8; 16]%R = Ok (Some r).
Proof.
  assert (RX : Reach [1; 2; 4; 8; 16]%R 4 4).
  { split.
    - exists [1; 2; 4; 8; 16]%R, 4%R, 4%R. split; [reflexivity|]. split; [repeat constructor; lra|]. split; [reflexivity|]. split; [reflexivity|lra].
    - cbn [map]. rewrite (Rabs_left (1 - 4)), (Rabs_left (2 - 4)), (Rabs_right (4 - 4)), (Rabs_right (8 - 4)), (Rabs_right (16 - 4)) by lra. replace (- (1 - 4))%R with 3%R by ring. replace (- (2 - 4))%R with 2%R by ring. replace (4 - 4)%R with 0%R by ring. replace (8 - 4)%R with 4%R by ring. replace (16 - 4)%R with 12%R by ring.
      exists [0; 2; 3; 4; 12]%R. split; [|split; [repeat constructor; lra|reflexivity]].
      change [3; 2; 0; 4; 12]%R with ([3; 2; 0] ++ [4; 12])%R. change [0; 2; 3; 4; 12]%R with ([0; 2; 3] ++ [4; 12])%R. apply Permutation_app_tail. exact (Permutation_rev [3; 2; 0]%R). }
  split; [exact RX|]. destruct (bend_bent [1; 2; 4; 8; 16]%R 4 4) as (a & A & _ & EA); [cbn; lia|exact RX|lra|].
  set (c := bent_mean 4 4 [1; 2; 4; 8; 16]%R) in EA. unfold percbend. rewrite Nat.eqb_refl, A. cbn [negb bind]. rewrite (proj2 (all_there_iff (map Some a) a) eq_refl). rewrite !prod_sq. destruct (Req_EM_T _ 0) as [Z|]; [|eauto]. exfalso.
  assert (Z' : Product a a = 0%R) by nra. apply prod_zero in Z'. rewrite EA in Z'. cbn [map] in Z'. inversion Z' as [|? ? Z1 Z2]; subst. inversion Z2 as [|? ? Z3 _]; subst.
  assert (K : forall u, cut u = 0%R -> u = 0%R). { clear. intros u. unfold cut, Rmax, Rmin. repeat destruct (Rle_dec _ _); lra. }
  apply K in Z1, Z3. lra.
Qed.

Lemma C89_equal_refuted_proof : ~ forall x y r m w, List.length x = List.length y -> 2 <= List.length x -> Reach x m w ->
  percbend x y = Ok (Some r) -> (0 < w)%R.
Proof.
  intros K. assert (RX : Reach [0; 0; 0; 0; 1]%R 0 0).
  { split.
    - exists [0; 0; 0; 0; 1]%R, 0%R, 0%R. split; [reflexivity|]. split; [repeat constructor; lra|]. split; [reflexivity|]. split; [reflexivity|lra].
    - cbn [map]. rewrite !Rminus_0_r, Rabs_R0, Rabs_R1. exists [0; 0; 0; 0; 1]%R. split; [reflexivity|]. split; [repeat constructor; lra|reflexivity]. }
  assert (O : Omega [0; 0; 0; 0; 1]%R 0 0) by (apply reach_omega; [cbn; lia|exact RX]). pose proof (bend_flat _ _ O) as B.
  assert (M : mean_r [0; 0; 0; 0; 1]%R = (1 / 5)%R) by (unfold mean_r; cbn; field). rewrite M in B. cbn [map] in B.
  assert (S0 : side (1 / 5) 0 = Some (-1)%R) by (unfold side; destruct (Rlt_dec 0 (1 / 5)); [reflexivity|lra]).
  assert (S1 : side (1 / 5) 1 = Some 1%R) by (unfold side; destruct (Rlt_dec 1 (1 / 5)); [lra|]; destruct (Rlt_dec (1 / 5) 1); [reflexivity|lra]). rewrite S0, S1 in B.
  assert (P : exists r, percbend [0; 0; 0; 0; 1]%R [0; 0; 0; 0; 1]%R = Ok (Some r)).
  { unfold percbend. rewrite Nat.eqb_refl, B. cbn [negb bind all_there]. destruct (Req_EM_T _ 0) as [Z|]; [|eauto]. exfalso. unfold rsum in Z. cbn in Z. lra. }
  destruct P as [r P]. assert (L2 : 2 <= length [0; 0; 0; 0; 1]%R) by (cbn; lia). specialize (K _ _ r 0%R 0%R eq_refl L2 RX P). lra.
Qed.

Lemma C90_correlation_proof : forall ppf tppf r n ny paired eftype conf, In eftype ["r"; "pearson"; "spearman"]%string ->
  (0 < conf < 1)%R -> (forall q, 0 < q < 1 / 2 -> ppf q < 0)%R -> (-1 < r < 1)%R -> (3 < n)%Z ->
  exists lo hi, compute_esci ppf tppf r n ny paired eftype conf = Ok (Some lo, Some hi) /\
    (-1 < lo < r)%R /\ (r < hi < 1)%R /\
    compute_esci ppf tppf (- r) n ny paired eftype conf = Ok (Some (- hi), Some (- lo))%R /\
    (forall n', (n < n')%Z -> exists lo' hi', compute_esci ppf tppf r n' ny paired eftype conf = Ok (Some lo', Some hi') /\ (lo < lo')%R /\ (hi' < hi)%R).
Proof.
  intros ppf tppf r n ny paired eftype conf I B H BR N. pose proof (crit_pos ppf conf B H) as CP. set (crit := Rabs (ppf ((1 - conf) / 2)%R)) in *. pose proof (se_pos n N) as SP.
  rewrite !(esci_r ppf tppf _ n ny paired eftype conf I B). fold crit. rewrite !ci_inside by (auto; lra). rewrite arctanh_opp by exact BR.
  set (z := arctanh r). set (se := (1 / sqrt (IZR (n - 3)))%R) in *. assert (TZ : tanh z = r) by (apply tanh_arctanh; exact BR).
  exists (tanh (z - crit * se)), (tanh (z + crit * se)). split; [reflexivity|]. assert (0 < crit * se)%R by nra.
  split; [split; [apply tanh_range|rewrite <- TZ; apply tanh_lt; lra]|]. split; [split; [rewrite <- TZ at 1; apply tanh_lt; lra|apply tanh_range]|].
  split. { rewrite <- !tanh_opp. f_equal. f_equal; f_equal; f_equal; ring. }
  intros n' L. rewrite (esci_r ppf tppf _ n' ny paired eftype conf I B). fold crit. rewrite ci_inside by (auto; lia). fold z. pose proof (se_less n n' N L) as LS. fold se in LS. set (se' := (1 / sqrt (IZR (n' - 3)))%R) in *.
  exists (tanh (z - crit * se')), (tanh (z + crit * se')). split; [reflexivity|]. assert (crit * se' < crit * se)%R by nra. split; apply tanh_lt; lra.
Qed.

Lemma C90_correlation_case_proof : (forall q, 0 < q < 1 / 2 -> (fun q => q - 1 / 2)%R q < 0)%R.
Proof.
  intros q H. lra.
Qed.

Lemma C90_fisher_proof : forall ppf tppf r n ny paired conf, (0 < conf < 1)%R -> (-1 < r < 1)%R -> (3 < n)%Z ->
  exists lo hi, compute_esci ppf tppf r n ny paired "r" conf = Ok (Some lo, Some hi) /\
    let half := (Rabs (ppf ((1 - conf) / 2)) / sqrt (IZR (n - 3)))%R in
    exists z, r = tanh z /\ lo = tanh (z - half) /\ hi = tanh (z + half).
Proof.
  intros ppf tppf r n ny paired conf B BR N. rewrite (esci_r ppf tppf _ n ny paired "r" conf) by (auto; cbn; auto). rewrite ci_inside by assumption. eexists. eexists. split; [reflexivity|]. cbv zeta.
  exists (arctanh r). split; [symmetry; apply tanh_arctanh; exact BR|]. replace (Rabs (ppf ((1 - conf) / 2)) / sqrt (IZR (n - 3)))%R with (Rabs (ppf ((1 - conf) / 2)) * (1 / sqrt (IZR (n - 3))))%R by (unfold Rdiv; ring). split; reflexivity.
Qed.

Lemma C90_cohen_proof : forall ppf tppf d n ny paired eftype conf ci, In eftype ["cohen"; "d"; "g"; "hedges"]%string ->
  (0 < conf < 1)%R -> compute_esci ppf tppf d n ny paired eftype conf = Ok ci ->
  exists half, ci = (Some (d - half), Some (d + half))%R /\ (0 <= half)%R /\
    (ny = Some 1%Z \/ paired = true -> (half ^ 2 = (tppf ((1 - conf) / 2) (n - 1)%Z) ^ 2 * (1 / IZR n + d ^ 2 / (2 * IZR n)))%R) /\
    (forall m, ny = Some m -> m <> 1%Z -> paired = false ->
       (half ^ 2 = (tppf ((1 - conf) / 2) (n + m - 2)%Z) ^ 2 * (1 / IZR n + 1 / IZR m + d ^ 2 / (2 * IZR (n + m))))%R).
Proof.
  intros ppf tppf d n ny paired eftype conf ci I B E. rewrite (esci_d ppf tppf d n ny paired eftype conf I B) in E. cbv zeta in E. destruct (Z.ltb_spec n 1) as [|N]; [discriminate|].
  assert (NP : (0 < IZR n)%R) by (apply IZR_lt; lia). pose proof (one_case ny paired) as OC. destruct (match ny with Some 1%Z => true | _ => paired end).
  - destruct (n <? 2)%Z; [discriminate|]. injection E as <-. exists (Rabs (tppf ((1 - conf) / 2)%R (n - 1)%Z) * sqrt (1 / IZR n + d * d / (2 * IZR n)))%R. split; [reflexivity|].
    split; [apply Rmult_le_pos; [apply Rabs_pos|apply sqrt_pos]|]. split.
    + intros _. rewrite half_square; [simpl pow; rewrite !Rmult_1_r; reflexivity|]. assert (0 < 1 / IZR n)%R by (apply Rdiv_lt_0_compat; lra). assert (0 <= d * d / (2 * IZR n))%R; [|lra]. apply Rmult_le_pos; [nra|]. left. apply Rinv_0_lt_compat. lra.
    + intros m -> M P. exfalso. destruct (proj1 OC eq_refl); congruence.
  - destruct ny as [m|]; [|discriminate]. destruct (Z.ltb_spec m 1) as [|NM]; [discriminate|]. injection E as <-. assert (MP : (0 < IZR m)%R) by (apply IZR_lt; lia).
    exists (Rabs (tppf ((1 - conf) / 2)%R (n + m - 2)%Z) * sqrt (IZR (n + m) / IZR (n * m) + d * d / (2 * IZR (n + m))))%R. split; [reflexivity|].
    split; [apply Rmult_le_pos; [apply Rabs_pos|apply sqrt_pos]|]. split; [intros H; apply OC in H; discriminate|]. intros m0 [= <-] _ _.
    rewrite plus_IZR, mult_IZR. rewrite half_square.
    + simpl pow. rewrite !Rmult_1_r. f_equal. field. repeat split; lra.
    + assert (0 < (IZR n + IZR m) / (IZR n * IZR m))%R by (apply Rdiv_lt_0_compat; nra). assert (0 <= d * d / (2 * (IZR n + IZR m)))%R; [|lra]. apply Rmult_le_pos; [nra|]. left. apply Rinv_0_lt_compat. lra.
Qed.

Lemma C90_cohen_case_proof : exists ci, compute_esci (fun _ => 0%R) (fun _ _ => 2%R) 1 20 (Some 20%Z) false "cohen" (1 / 2) = Ok ci.
Proof.
  rewrite esci_d; [|cbn; auto|lra]. eexists. cbv zeta. cbn [Z.ltb Z.compare Pos.compare Pos.compare_cont]. reflexivity.
Qed.

Lemma C90_exceptions_proof : forall ppf tppf d n ny paired eftype conf,
  (compute_esci ppf tppf d n ny paired eftype conf = Err AssertionError <->
     ~ In eftype ["r"; "pearson"; "spearman"; "cohen"; "d"; "g"; "hedges"]%string \/ ~ (0 < conf < 1)%R) /\
  (In eftype ["cohen"; "d"; "g"; "hedges"]%string -> (0 < conf < 1)%R -> (0 < n)%Z ->
     (compute_esci ppf tppf d n ny paired eftype conf = Err TypeError <-> ny = None /\ paired = false)).
Proof.
  intros ppf tppf d n ny paired eftype conf. split.
  - assert (BI : real_ltb 0 conf && real_ltb conf 1 = true <-> (0 < conf < 1)%R) by (rewrite Bool.andb_true_iff, !real_ltb_iff; tauto).
    assert (EI : existsb (String.eqb eftype) ["r"; "pearson"; "spearman"; "cohen"; "d"; "g"; "hedges"]%string = true <-> In eftype ["r"; "pearson"; "spearman"; "cohen"; "d"; "g"; "hedges"]%string).
    { rewrite existsb_exists. split; [intros (s & J & E); apply String.eqb_eq in E; subst; exact J|intros J; exists eftype; split; [exact J|apply String.eqb_refl]]. }
    unfold compute_esci. destruct (existsb (String.eqb eftype) ["r"; "pearson"; "spearman"; "cohen"; "d"; "g"; "hedges"]%string); cbn [negb].
    + destruct (real_ltb 0 conf && real_ltb conf 1); cbn [negb].
      * split; [|intros [H|H]; exfalso; [apply H; apply EI; reflexivity|apply H; apply BI; reflexivity]]. intros H. exfalso. destruct (existsb _ _); [discriminate|]. destruct (n <? 1)%Z; [discriminate|]. destruct (match ny with Some 1%Z => true | _ => paired end); [destruct (n <? 2)%Z; discriminate|]. destruct ny; [destruct (_ <? 1)%Z; discriminate|discriminate].
      * split; [intros _; right; intros H; apply BI in H; discriminate|reflexivity].
    + split; [intros _; left; intros H; apply EI in H; discriminate|reflexivity].
  - intros I B N. rewrite (esci_d ppf tppf d n ny paired eftype conf I B). cbv zeta. destruct (Z.ltb_spec n 1); [lia|]. pose proof (one_case ny paired) as OC. destruct (match ny with Some 1%Z => true | _ => paired end).
    + split; [destruct (n <? 2)%Z; discriminate|]. intros [-> ->]. destruct (proj1 OC eq_refl); discriminate.
    + destruct ny as [m|]; [split; [destruct (m <? 1)%Z; discriminate|intros [X _]; discriminate]|]. split; [intros _; split; [reflexivity|]|reflexivity]. destruct paired; [|reflexivity]. exfalso. assert (false = true) by (apply OC; auto). discriminate.
Qed.

