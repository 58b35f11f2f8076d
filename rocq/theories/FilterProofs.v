From Coq Require Import Permutation.
From Verif Require Import PyBase ColumnModel BaseSpec BaseProofs.

Definition row_matches (i : nat) (v : fvalue) (r : row) : bool := mask_of v (nth_error r i).

Lemma column_mask data i v :
  (forall r, In r data -> nth_error r i <> None) ->
  (forall z, v = FInt z -> forall r, In r data -> exists p k, nth_error r i = Some (CNum p) /\ p == inject_Z k) ->
  (cs <- column_at data i ;; mapM (cell_matches v) cs) = Ok (map (row_matches i v) data).
Proof.
  induction data as [|r rest IH]; simpl; intros H1 H2; [reflexivity|].
  unfold column_at in *. simpl. unfold cell_at at 1, row_matches at 1.
  destruct (nth_error r i) as [c|] eqn:E; [|exfalso; apply (H1 r); auto].
  simpl.
  assert (IH' := IH (fun r h => H1 r (or_intror h)) (fun z Hz r h => H2 z Hz r (or_intror h))).
  destruct (mapM (cell_at i) rest) as [cs|e] eqn:Em; simpl in *; [|discriminate].
  rewrite IH'. destruct v as [q|s], c as [p| |t]; simpl; try reflexivity.
  all: destruct (H2 q eq_refl r (or_introl eq_refl)) as (p & k & K & _); congruence.
Qed.

Lemma mask_filter {A} (p : A -> bool) (l : list A) : mask (map p l) l = filter p l.
Proof. induction l as [|x l IH]; simpl; [reflexivity|]. destruct (p x); rewrite IH; reflexivity. Qed.

(** Conjunction of the conditions as a boolean. *)
Fixpoint conds_bool (columns : list string) (conds : list (string * fvalue)) (r : row) : bool :=
  match conds with
  | [] => true
  | (k, v) :: rest =>
      match index_of k columns with
      | Some i => row_matches i v r && conds_bool columns rest r
      | None => false
      end
  end.

Lemma filter_filter {A} (p q : A -> bool) l : filter q (filter p l) = filter (fun x => p x && q x) l.
Proof.
  induction l as [|x l IH]; simpl; [reflexivity|]. destruct (p x); simpl; [|exact IH].
  destruct (q x); rewrite IH; reflexivity.
Qed.

Lemma filter_loop_spec data columns conds :
  Rectangular data columns -> ConditionsTyped data columns conds ->
  (forall k v, In (k, v) conds -> In k columns) ->
  filter_loop data columns conds = Ok (FRows (filter (conds_bool columns conds) data)).
Proof.
  revert data; induction conds as [|[k v] rest IH]; intros data HR HC HI; simpl.
  - do 2 f_equal. induction data as [|r d IHd]; simpl; [reflexivity|]. f_equal. apply IHd.
    + intros x Hx; apply HR; simpl; auto.
    + intros key q H. destruct H.
  - destruct (index_of k columns) as [i|] eqn:Ei.
    2:{ exfalso. apply index_of_None in Ei. apply Ei. apply (HI k v); simpl; auto. }
    pose proof (proj1 (index_of_ColumnAt _ _ _) Ei) as HA.
    assert (E : (cs <- column_at data i ;; mapM (cell_matches v) cs) = Ok (map (row_matches i v) data)).
    { apply column_mask.
      - intros r Hr. apply nth_error_Some. rewrite (HR r Hr). eapply index_of_lt; eassumption.
      - intros z -> r Hr. apply (HC k z); simpl; auto. }
    destruct (column_at data i) as [cs|e]; simpl in E; [|discriminate]. simpl. rewrite E. simpl.
    rewrite mask_filter. rewrite IH.
    + rewrite filter_filter. reflexivity.
    + intros r Hr. apply filter_In in Hr. apply HR; tauto.
    + intros key z Hz j r Hj Hr. apply filter_In in Hr. apply (HC key z); simpl; auto; tauto.
    + intros k' v' H. apply (HI k' v'); simpl; auto.
Qed.

Lemma trunc_int p z : p == inject_Z z -> trunc p = z.
Proof.
  unfold trunc, inject_Z, Qeq. simpl. rewrite Z.mul_1_r. intros ->.
  apply Z.quot_mul. discriminate.
Qed.

Lemma conds_bool_iff columns conds r :
  length r = length columns -> (forall k v, In (k, v) conds -> In k columns) ->
  ConditionsTyped [r] columns conds ->
  (conds_bool columns conds r = true <-> Satisfies columns conds r).
Proof.
  intro Hlen. induction conds as [|[k v] rest IH]; simpl; intros HI HT.
  - split; [intros _ key v H; destruct H|reflexivity].
  - destruct (index_of k columns) as [i|] eqn:Ei.
    2:{ exfalso. apply index_of_None in Ei. apply Ei. apply (HI k v); auto. }
    pose proof (proj1 (index_of_ColumnAt _ _ _) Ei) as HA.
    rewrite andb_true_iff, IH by (first [intros k' v' H; apply (HI k' v'); auto | intros k' z H; apply (HT k' z); simpl; auto]).
    assert (K : row_matches i v r = true <-> exists c, nth_error r i = Some c /\ CellIs v c).
    { unfold row_matches. destruct (nth_error r i) as [c|] eqn:Ec; simpl.
      - destruct v as [q|s], c as [p| |t]; simpl;
          try (split; [discriminate|intros [c [H F]]; injection H as <-; simpl in F; contradiction]).
        + destruct (HT k q (or_introl eq_refl) i r HA (or_introl eq_refl)) as (p' & z & Hp & Hz).
          rewrite Ec in Hp. injection Hp as <-. rewrite Z.eqb_eq, (trunc_int p z Hz).
          split; [intros <-; eauto|intros [c [H F]]; injection H as <-; simpl in F].
          rewrite Hz in F. exact (proj1 (inject_Z_injective z q) F).
        + rewrite String.eqb_eq. split; [intro H; eauto|intros [c [H F]]; injection H as <-; exact F].
      - destruct v; split; try discriminate; intros [c [H F]]; discriminate. }
    rewrite K. split.
    + intros [[c [Hc Hm]] Hrest] key w [H|H].
      * injection H as <- <-. exists i, c. auto.
      * apply Hrest; assumption.
    + intro H. split.
      * destruct (H k v (or_introl eq_refl)) as [j [c [Hj [Hc Hm]]]].
        apply index_of_ColumnAt in Hj. rewrite Ei in Hj. injection Hj as <-. eauto.
      * intros key w Hw. apply H. simpl; auto.
Qed.

Lemma filter_spec data columns conds :
  Rectangular data columns -> ConditionsTyped data columns conds ->
  (forall k v, In (k, v) conds -> In k columns) ->
  exists p, (forall r, In r data -> (p r = true <-> Satisfies columns conds r)) /\
    column_data_by_name_value data columns conds = Ok (FRows (filter p data)) /\
    nrow_column_data_by_name_value data columns conds
      = Ok (inject_Z (Z.of_nat (length (filter p data)))).
Proof.
  intros HR HC HI. exists (conds_bool columns conds). split; [|split].
  - intros r Hr. apply conds_bool_iff; [apply HR; assumption|assumption|].
    intros k z H i r' Hi [<-|[]]. apply (HC k z H i); assumption.
  - unfold column_data_by_name_value. rewrite filter_loop_spec by assumption. reflexivity.
  - unfold nrow_column_data_by_name_value, column_data_by_name_value.
    rewrite filter_loop_spec by assumption. reflexivity.
Qed.

(** The first absent column is reached after the earlier conditions filtered without error. *)
Lemma filter_absent data columns pre k v post :
  Rectangular data columns -> ConditionsTyped data columns pre ->
  (forall k' v', In (k', v') pre -> In k' columns) -> ~ In k columns ->
  column_data_by_name_value data columns (pre ++ (k, v) :: post) = Ok FZero /\
  nrow_column_data_by_name_value data columns (pre ++ (k, v) :: post) = Err AttributeError.
Proof.
  intros HR HC HI Hk.
  assert (E : filter_loop data columns (pre ++ (k, v) :: post) = Ok FZero).
  { revert data HR HC HI. induction pre as [|[k' v'] pre IH]; intros data HR HC HI; simpl.
    - apply index_of_None in Hk. rewrite Hk. reflexivity.
    - destruct (index_of k' columns) as [i|] eqn:Ei; [|reflexivity].
      pose proof (proj1 (index_of_ColumnAt _ _ _) Ei) as HA.
      assert (E : (cs <- column_at data i ;; mapM (cell_matches v') cs) = Ok (map (row_matches i v') data)).
      { apply column_mask.
        - intros r Hr. apply nth_error_Some. rewrite (HR r Hr). eapply index_of_lt; eassumption.
        - intros z -> r Hr. apply (HC k' z); simpl; auto. }
      destruct (column_at data i) as [cs|e]; simpl in E; [|discriminate]. simpl. rewrite E. simpl.
      rewrite mask_filter. apply IH.
      + intros r Hr. apply filter_In in Hr. apply HR; tauto.
      + intros key z Hz j r Hj Hr. apply filter_In in Hr. apply (HC key z); simpl; auto; tauto.
      + intros k'' v'' H. apply (HI k'' v''); simpl; auto. }
  unfold nrow_column_data_by_name_value, column_data_by_name_value. rewrite E. auto.
Qed.

Lemma Satisfies_perm columns conds conds' r :
  Permutation conds conds' -> (Satisfies columns conds r <-> Satisfies columns conds' r).
Proof.
  intro HP. split; intros H k v Hkv; apply H; eapply Permutation_in; try eassumption. symmetry; assumption.
Qed.

Lemma filter_order data columns conds conds' :
  Rectangular data columns -> ConditionsTyped data columns conds ->
  (forall k v, In (k, v) conds -> In k columns) -> Permutation conds conds' ->
  column_data_by_name_value data columns conds = column_data_by_name_value data columns conds'.
Proof.
  intros HR HC HI HP.
  assert (HC' : ConditionsTyped data columns conds').
  { intros k z Hk. apply (HC k z). eapply Permutation_in; [symmetry; eassumption|assumption]. }
  assert (HI' : forall k v, In (k, v) conds' -> In k columns).
  { intros k v Hk. apply (HI k v). eapply Permutation_in; [symmetry; eassumption|assumption]. }
  destruct (filter_spec _ _ _ HR HC HI) as [p [Hp [-> _]]].
  destruct (filter_spec _ _ _ HR HC' HI') as [p' [Hp' [-> _]]].
  do 2 f_equal. apply filter_ext_in. intros r Hr.
  specialize (Hp r Hr). specialize (Hp' r Hr).
  rewrite (Satisfies_perm _ _ _ r HP) in Hp.
  destruct (p r), (p' r); try reflexivity; exfalso; intuition.
Qed.
