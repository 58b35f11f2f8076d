(** Lemmas about rounding, columns and filters. *)
From Coq Require Import Permutation Morphisms Setoid.
From Verif Require Import PyBase ColumnModel BaseSpec.

(* ---------- powers of ten ---------- *)
Lemma pow10_Z d : Zpos (pow10 d) = (10 ^ Z.of_nat d)%Z.
Proof.
  unfold pow10. rewrite Z2Pos.id; [reflexivity|].
  apply Z.pow_pos_nonneg; lia.
Qed.

Lemma pow10_pos d : 0 < inject_Z (10 ^ Z.of_nat d).
Proof.
  rewrite <- pow10_Z. unfold Qlt, inject_Z; simpl. lia.
Qed.

Lemma Qmake_div n p : n # p == inject_Z n / inject_Z (Zpos p).
Proof. rewrite Qmake_Qdiv. reflexivity. Qed.

Definition floor_arg (v : Q) (d : nat) : Z :=
  Qfloor (v * (Zpos (pow10 d) # 1) + (1 # 2)).

Lemma rhu_eq v d : round_half_up v d == inject_Z (floor_arg v d) / inject_Z (10 ^ Z.of_nat d).
Proof.
  unfold round_half_up, floor_arg. rewrite Qmake_div, pow10_Z. reflexivity.
Qed.

Lemma rhu_scaled v d :
  round_half_up v d * inject_Z (10 ^ Z.of_nat d) == inject_Z (floor_arg v d).
Proof.
  rewrite rhu_eq. field. pose proof (pow10_pos d). lra.
Qed.

Lemma floor_arg_bounds v d :
  inject_Z (floor_arg v d) <= v * inject_Z (10 ^ Z.of_nat d) + (1#2) /\
  v * inject_Z (10 ^ Z.of_nat d) + (1#2) < inject_Z (floor_arg v d) + 1.
Proof.
  unfold floor_arg. rewrite <- pow10_Z.
  change (inject_Z (Zpos (pow10 d))) with (Zpos (pow10 d) # 1).
  split; [apply Qfloor_le|].
  pose proof (Qlt_floor (v * (Zpos (pow10 d) # 1) + (1#2))) as H.
  rewrite inject_Z_plus in H. exact H.
Qed.

Lemma mult_le_reg x y m : 0 < m -> x * m <= y * m -> x <= y.
Proof. intros Hm H. apply Qmult_le_r with (z := m); assumption. Qed.
Lemma mult_lt_reg x y m : 0 < m -> x * m < y * m -> x < y.
Proof. intros Hm H. apply Qmult_lt_r with (z := m); assumption. Qed.

Lemma half_unit_scaled d : half_unit d * inject_Z (10 ^ Z.of_nat d) == 1 # 2.
Proof. unfold half_unit. field. pose proof (pow10_pos d). lra. Qed.

Lemma rhu_nearest v d : Nearest d v (round_half_up v d).
Proof.
  pose proof (pow10_pos d) as Hm. pose proof (floor_arg_bounds v d) as [H1 H2].
  pose proof (half_unit_scaled d) as Hh.
  split; [exists (floor_arg v d); apply rhu_scaled|split].
  - apply mult_le_reg with (m := inject_Z (10 ^ Z.of_nat d)); [assumption|].
    rewrite rhu_scaled. setoid_replace ((v + half_unit d) * inject_Z (10 ^ Z.of_nat d))
      with (v * inject_Z (10 ^ Z.of_nat d) + half_unit d * inject_Z (10 ^ Z.of_nat d)) by ring.
    rewrite Hh. lra.
  - apply mult_lt_reg with (m := inject_Z (10 ^ Z.of_nat d)); [assumption|].
    rewrite rhu_scaled. setoid_replace ((v - half_unit d) * inject_Z (10 ^ Z.of_nat d))
      with (v * inject_Z (10 ^ Z.of_nat d) - half_unit d * inject_Z (10 ^ Z.of_nat d)) by ring.
    rewrite Hh. lra.
Qed.

Lemma nearest_unique d v w w' : Nearest d v w -> Nearest d v w' -> w == w'.
Proof.
  intros [[k Hk] [H1 H2]] [[k' Hk'] [H1' H2']].
  pose proof (pow10_pos d) as Hm. pose proof (half_unit_scaled d) as Hh.
  set (m := inject_Z (10 ^ Z.of_nat d)) in *.
  assert (E : k = k').
  { assert (A : inject_Z k < inject_Z k' + 1).
    { rewrite <- Hk, <- Hk'.
      apply Qmult_lt_r with (z := m) in H2'; [|assumption].
      apply Qmult_le_r with (z := m) in H1; [|assumption].
      setoid_replace ((v + half_unit d) * m) with (v * m + half_unit d * m) in H1 by ring.
      setoid_replace ((v - half_unit d) * m) with (v * m - half_unit d * m) in H2' by ring.
      rewrite Hh in H1, H2'. lra. }
    assert (B : inject_Z k' < inject_Z k + 1).
    { rewrite <- Hk, <- Hk'.
      apply Qmult_lt_r with (z := m) in H2; [|assumption].
      apply Qmult_le_r with (z := m) in H1'; [|assumption].
      setoid_replace ((v + half_unit d) * m) with (v * m + half_unit d * m) in H1' by ring.
      setoid_replace ((v - half_unit d) * m) with (v * m - half_unit d * m) in H2 by ring.
      rewrite Hh in H1', H2. lra. }
    change 1 with (inject_Z 1) in A, B. rewrite <- inject_Z_plus in A, B.
    rewrite <- Zlt_Qlt in A, B. lia. }
  subst k'. assert (w * m == w' * m) by (rewrite Hk, Hk'; reflexivity).
  assert (Hn : ~ m == 0) by (intro; lra).
  apply Qmult_inj_r with (z := m); assumption.
Qed.

Lemma rhu_compat v v' d : v == v' -> round_half_up v d = round_half_up v' d.
Proof.
  intro H. unfold round_half_up. f_equal. apply Qfloor_comp. rewrite H. reflexivity.
Qed.

Lemma rhu_mono v v' d : v <= v' -> round_half_up v d <= round_half_up v' d.
Proof.
  intro H. unfold round_half_up. unfold Qle; cbn [Qnum Qden].
  apply Z.mul_le_mono_nonneg_r; [lia|].
  apply Qfloor_resp_le.
  pose proof (pow10_pos d) as Hm. rewrite <- pow10_Z in Hm.
  change (inject_Z (Zpos (pow10 d))) with (Zpos (pow10 d) # 1) in Hm.
  apply Qplus_le_compat; [|apply Qle_refl].
  apply Qmult_le_compat_r; [assumption|]. apply Qlt_le_weak; assumption.
Qed.

Lemma half_unit_pos d : 0 < half_unit d.
Proof.
  pose proof (half_unit_scaled d) as Hh. pose proof (pow10_pos d) as Hm.
  destruct (Qlt_le_dec 0 (half_unit d)) as [|C]; [assumption|].
  apply Qmult_le_compat_r with (z := inject_Z (10 ^ Z.of_nat d)) in C; lra.
Qed.

Lemma rhu_fix w d : MultipleOf d w -> round_half_up w d == w.
Proof.
  intro Hw. apply nearest_unique with (d := d) (v := w).
  - apply rhu_nearest.
  - pose proof (half_unit_pos d). split; [assumption|]. lra.
Qed.

Lemma rhu_idem v d : round_half_up (round_half_up v d) d == round_half_up v d.
Proof. apply rhu_fix. apply rhu_nearest. Qed.

Lemma rhu_interval lo hi v d :
  MultipleOf d lo -> MultipleOf d hi -> lo <= v <= hi -> lo <= round_half_up v d <= hi.
Proof.
  intros Hl Hh [H1 H2].
  apply (rhu_mono _ _ d) in H1. apply (rhu_mono _ _ d) in H2.
  rewrite (rhu_fix lo d Hl) in H1. rewrite (rhu_fix hi d Hh) in H2. split; assumption.
Qed.

Lemma multiple_int z d : MultipleOf d (inject_Z z).
Proof. exists (z * 10 ^ Z.of_nat d)%Z. rewrite inject_Z_mult. reflexivity. Qed.

Lemma multiple_0 d : MultipleOf d 0.
Proof. apply (multiple_int 0). Qed.
Lemma multiple_1 d : MultipleOf d 1.
Proof. apply (multiple_int 1). Qed.
Lemma multiple_m1 d : MultipleOf d (-1).
Proof. apply (multiple_int (-1)). Qed.

Lemma published_round v : Published (Some v) (Some (round_half_up v PRECISION)).
Proof. apply rhu_nearest. Qed.

Lemma Qsq_nonneg x : 0 <= x * x.
Proof.
  destruct (Qlt_le_dec x 0) as [H|H].
  - setoid_replace (x * x) with ((-x) * (-x)) by ring. apply Qmult_le_0_compat; lra.
  - apply Qmult_le_0_compat; assumption.
Qed.

(* ---------- option equality ---------- *)
#[export] Instance oeq_equiv : Equivalence oeq.
Proof.
  split.
  - intros [x|]; simpl; [reflexivity|exact I].
  - intros [x|] [y|]; simpl; auto. intro H; symmetry; exact H.
  - intros [x|] [y|] [z|]; simpl; intuition. rewrite H; assumption.
Qed.
#[export] Instance oadd_proper : Proper (oeq ==> oeq ==> oeq) oadd.
Proof. intros [?|] [?|] H [?|] [?|] H'; simpl in *; try tauto. rewrite H, H'; reflexivity. Qed.
#[export] Instance osub_proper : Proper (oeq ==> oeq ==> oeq) osub.
Proof. intros [?|] [?|] H [?|] [?|] H'; simpl in *; try tauto. rewrite H, H'; reflexivity. Qed.
#[export] Instance omul_proper : Proper (oeq ==> oeq ==> oeq) omul.
Proof. intros [?|] [?|] H [?|] [?|] H'; simpl in *; try tauto. rewrite H, H'; reflexivity. Qed.
#[export] Instance oratio_proper : Proper (oeq ==> oeq ==> oeq) oratio.
Proof.
  intros [x|] [x'|] H [y|] [y'|] H'; simpl in *; try tauto.
  - destruct (Qeq_dec y 0) as [E|E], (Qeq_dec y' 0) as [E'|E']; simpl; auto.
    + apply E'. rewrite <- H'. exact E.
    + apply E. rewrite H'. exact E'.
    + rewrite H, H'. reflexivity.
Qed.

Lemma nearest_compat d v v' w : v == v' -> Nearest d v w -> Nearest d v' w.
Proof. intros H [A [B C]]. split; [assumption|]. split; rewrite <- H; assumption. Qed.

#[export] Instance published_proper : Proper (oeq ==> eq ==> iff) Published.
Proof.
  intros [x|] [y|] H r r' Hr; subst r'; simpl in *; try tauto.
  - destruct r as [w|]; [|tauto]. split; apply nearest_compat; [|symmetry]; assumption.
Qed.

(* ---------- qsum ---------- *)
Lemma qsum_app l l' : qsum (l ++ l') == qsum l + qsum l'.
Proof. induction l as [|x l IH]; simpl; [ring|]. rewrite IH. ring. Qed.

Lemma qsum_perm l l' : Permutation l l' -> qsum l == qsum l'.
Proof.
  induction 1; simpl; try lra.
Qed.

Lemma qsum_nonneg l : (forall x, In x l -> 0 <= x) -> 0 <= qsum l.
Proof.
  induction l as [|x l IH]; simpl; intro H; [lra|].
  assert (0 <= x) by (apply H; auto). assert (0 <= qsum l) by (apply IH; auto). lra.
Qed.

(* ---------- columns ---------- *)
Lemma index_of_ColumnAt columns name i :
  index_of name columns = Some i <-> ColumnAt columns name i.
Proof.
  revert i; induction columns as [|c cs IH]; intro i; simpl.
  - split; [discriminate|]. intros [H _]. destruct i; discriminate.
  - destruct (String.eqb_spec c name) as [E|E].
    + split.
      * intros H; injection H as <-. subst. split; [reflexivity|]. intros j Hj; lia.
      * intros [H1 H2]. destruct i as [|i]; [reflexivity|]. exfalso.
        apply (H2 O); [lia|]. simpl. congruence.
    + destruct (index_of name cs) as [j|] eqn:Ej.
      * split.
        -- intros H; injection H as <-. destruct (proj1 (IH j) eq_refl) as [A B].
           split; [exact A|]. intros [|k] Hk; simpl; [congruence|]. apply B; lia.
        -- intros [A B]. destruct i as [|i]; [simpl in A; congruence|].
           simpl in A. f_equal. f_equal.
           assert (K : Some j = Some i); [|congruence].
           apply IH. split; [exact A|]. intros k Hk. apply (B (S k)). lia.
      * split; [discriminate|]. intros [A B].
        destruct i as [|i]; [simpl in A; congruence|].
        assert (K : None = Some i); [|discriminate].
        apply IH. split; [exact A|]. intros k Hk. apply (B (S k)). lia.
Qed.

Lemma index_of_None columns name : index_of name columns = None <-> ~ In name columns.
Proof.
  induction columns as [|c cs IH]; simpl; [tauto|].
  destruct (String.eqb_spec c name) as [E|E].
  - split; [discriminate|]. intro H; exfalso; apply H; auto.
  - destruct (index_of name cs); [split; [discriminate|]|tauto].
    intro H. exfalso. destruct IH as [_ IH]. discriminate IH. tauto.
Qed.

Lemma index_of_lt columns name i : index_of name columns = Some i -> (i < length columns)%nat.
Proof.
  intro H. apply index_of_ColumnAt in H. destruct H as [H _].
  apply nth_error_Some. congruence.
Qed.

(** Cells of a numeric column as optional numbers. *)
Definition cell_num (c : option cell) : option Q :=
  match c with Some (CNum q) => Some q | _ => None end.

Definition col_values (i : nat) (data : tdata) : list (option Q) :=
  map (fun r : row => cell_num (nth_error r i)) data.

Lemma column_floats data i :
  (forall r, In r data -> nth_error r i <> None) ->
  (forall r s, In r data -> nth_error r i <> Some (CStr s)) ->
  (cs <- column_at data i ;; mapM to_float cs) = Ok (col_values i data).
Proof.
  induction data as [|r rest IH]; simpl; intros H1 H2; [reflexivity|].
  unfold column_at in *. simpl. unfold cell_at at 1.
  destruct (nth_error r i) as [c|] eqn:E; [|exfalso; apply (H1 r); auto].
  simpl.
  assert (IH' := IH (fun r h => H1 r (or_intror h)) (fun r s h => H2 r s (or_intror h))).
  destruct (mapM (cell_at i) rest) as [cs|e] eqn:Em; simpl in *; [|discriminate].
  destruct c as [q| |s]; simpl.
  - rewrite IH'. reflexivity.
  - rewrite IH'. reflexivity.
  - exfalso. apply (H2 r s); auto.
Qed.

Lemma present_nil i data : present_at i data = [] <-> forallb is_nan (col_values i data) = true.
Proof.
  induction data as [|r rest IH]; simpl; [tauto|].
  destruct (nth_error r i) as [[q| |s]|]; simpl; try exact IH.
  split; discriminate.
Qed.

Lemma nansum_present i data : nansum (col_values i data) == qsum (present_at i data).
Proof.
  induction data as [|r rest IH]; simpl; [reflexivity|].
  destruct (nth_error r i) as [[q| |s]|]; simpl; try exact IH. rewrite IH. reflexivity.
Qed.

(** Characterisation of the column total for well-formed tables. *)
Lemma sum_column_value data columns name :
  Rectangular data columns -> NumericColumn data columns name ->
  sum_column_data_by_name data columns name true =
  Ok (match index_of name columns with
      | None => None
      | Some i => if forallb is_nan (col_values i data) then None
                  else Some (nansum (col_values i data))
      end).
Proof.
  intros HR HN. unfold sum_column_data_by_name, column_data_by_name.
  destruct (index_of name columns) as [i|] eqn:Ei; [|reflexivity].
  assert (E : (cs <- column_at data i ;; mapM to_float cs) = Ok (col_values i data)).
  { apply column_floats.
    - intros r Hr. apply nth_error_Some. rewrite (HR r Hr). eapply index_of_lt; eassumption.
    - intros r s Hr. apply HN; [apply index_of_ColumnAt; assumption|assumption]. }
  destruct (column_at data i) as [cs|e]; simpl in E; [|discriminate]. simpl.
  rewrite E. simpl.
  destruct (forallb is_nan (col_values i data)); reflexivity.
Qed.

Lemma sum_column_total data columns name o :
  Rectangular data columns -> NumericColumn data columns name ->
  ColumnTotal data columns name o ->
  exists s, sum_column_data_by_name data columns name true = Ok s /\ oeq s o.
Proof.
  intros HR HN [HT1 HT2]. rewrite (sum_column_value _ _ _ HR HN).
  eexists; split; [reflexivity|].
  destruct (index_of name columns) as [i|] eqn:Ei.
  - apply index_of_ColumnAt in Ei. destruct (HT2 i Ei) as [A B].
    destruct (forallb is_nan (col_values i data)) eqn:En.
    + apply present_nil in En. rewrite (A En). exact I.
    + destruct B as [q [-> Hq]].
      * intro C. apply present_nil in C. congruence.
      * simpl. rewrite Hq. apply nansum_present.
  - apply index_of_None in Ei. rewrite (HT1 Ei). exact I.
Qed.

Lemma sum_column_is_total data columns name :
  Rectangular data columns -> NumericColumn data columns name ->
  exists s, sum_column_data_by_name data columns name true = Ok s /\
            ColumnTotal data columns name s.
Proof.
  intros HR HN. rewrite (sum_column_value _ _ _ HR HN).
  eexists; split; [reflexivity|]. split.
  - intro H. apply index_of_None in H. rewrite H. reflexivity.
  - intros i Hi. apply index_of_ColumnAt in Hi. rewrite Hi. split.
    + intro H. apply present_nil in H. rewrite H. reflexivity.
    + intro H. destruct (forallb is_nan (col_values i data)) eqn:En.
      * apply present_nil in En. contradiction.
      * eexists; split; [reflexivity|]. apply nansum_present.
Qed.

Lemma present_perm i data data' :
  Permutation data data' -> Permutation (present_at i data) (present_at i data').
Proof.
  induction 1; simpl.
  - constructor.
  - destruct (nth_error x i) as [[q| |s]|]; auto.
  - destruct (nth_error x i) as [[q| |s]|], (nth_error y i) as [[q'| |s']|]; auto. apply perm_swap.
  - eapply perm_trans; eassumption.
Qed.

Lemma present_app i d1 d2 : present_at i (d1 ++ d2) = present_at i d1 ++ present_at i d2.
Proof.
  induction d1 as [|r rest IH]; simpl; [reflexivity|].
  destruct (nth_error r i) as [[q| |s]|]; rewrite IH; reflexivity.
Qed.

Lemma ColumnTotal_perm data data' columns name o :
  Permutation data data' -> ColumnTotal data columns name o ->
  ColumnTotal data' columns name o.
Proof.
  intros HP [H1 H2]. split; [exact H1|].
  intros i Hi. destruct (H2 i Hi) as [A B].
  pose proof (present_perm i _ _ HP) as HPi. split.
  - intro E. apply A. rewrite E in HPi. apply Permutation_nil. symmetry; assumption.
  - intro E. destruct B as [q [-> Hq]].
    + intro E'. apply E. rewrite E' in HPi. apply Permutation_nil. assumption.
    + exists q; split; [reflexivity|]. rewrite Hq. apply qsum_perm; assumption.
Qed.

Lemma ColumnTotal_fun data columns name o o' :
  ColumnTotal data columns name o -> ColumnTotal data columns name o' -> oeq o o'.
Proof.
  intros [H1 H2] [H1' H2'].
  destruct (index_of name columns) as [i|] eqn:Ei.
  - apply index_of_ColumnAt in Ei. destruct (H2 i Ei) as [A B], (H2' i Ei) as [A' B'].
    destruct (present_at i data) as [|q l] eqn:Ep.
    + rewrite (A eq_refl), (A' eq_refl). exact I.
    + destruct B as [x [-> Hx]]; [discriminate|]. destruct B' as [y [-> Hy]]; [discriminate|].
      simpl. rewrite Hx, Hy. reflexivity.
  - apply index_of_None in Ei. rewrite (H1 Ei), (H1' Ei). exact I.
Qed.

Lemma Rectangular_perm data data' columns :
  Permutation data data' -> Rectangular data columns -> Rectangular data' columns.
Proof. intros HP H r Hr. apply H. eapply Permutation_in; [symmetry|]; eassumption. Qed.

Lemma NumericColumn_perm data data' columns name :
  Permutation data data' -> NumericColumn data columns name -> NumericColumn data' columns name.
Proof. intros HP H i r s Hi Hr. apply H; [assumption|]. eapply Permutation_in; [symmetry|]; eassumption. Qed.

(** Sum of totals over two parts; an undefined part contributes nothing. *)
Definition ototal (a b : option Q) : option Q :=
  match a, b with
  | Some x, Some y => Some (x + y)
  | Some x, None => Some x
  | None, b => b
  end.

Lemma ColumnTotal_app d1 d2 columns name a b :
  ColumnTotal d1 columns name a -> ColumnTotal d2 columns name b ->
  ColumnTotal (d1 ++ d2) columns name (ototal a b).
Proof.
  intros [H1 H2] [G1 G2]. split.
  - intro H. rewrite (H1 H), (G1 H). reflexivity.
  - intros i Hi. destruct (H2 i Hi) as [A B], (G2 i Hi) as [C D].
    rewrite present_app.
    destruct (present_at i d1) as [|x l1] eqn:E1, (present_at i d2) as [|y l2] eqn:E2.
    + rewrite (A eq_refl), (C eq_refl). simpl. split; [reflexivity|congruence].
    + rewrite (A eq_refl). destruct D as [q [-> Hq]]; [discriminate|].
      split; [discriminate|]. intros _. exists q; split; [reflexivity|exact Hq].
    + rewrite (C eq_refl). destruct B as [q [-> Hq]]; [discriminate|].
      split; [simpl; discriminate|]. intros _. exists q; split; [reflexivity|].
      rewrite app_nil_r. exact Hq.
    + destruct B as [p [-> Hp]]; [discriminate|]. destruct D as [q [-> Hq]]; [discriminate|].
      split; [simpl; discriminate|]. intros _. exists (p + q); split; [reflexivity|].
      rewrite qsum_app, Hp, Hq. reflexivity.
Qed.

(* ---------- filters ---------- *)
(** A cell satisfies a filter value. *)
Definition mask_of (v : fvalue) (c : option cell) : bool :=
  match v, c with
  | FInt z, Some (CNum p) => Z.eqb (trunc p) z
  | FStr s, Some (CStr t) => String.eqb t s
  | _, _ => false
  end.

Lemma sum_column_keep_missing data columns name :
  Rectangular data columns -> NumericColumn data columns name ->
  (exists i r, ColumnAt columns name i /\ In r data /\ nth_error r i = Some CMiss) ->
  sum_column_data_by_name data columns name false = Ok None.
Proof.
  intros HR HN [i [r [Hi [Hr Hm]]]].
  unfold sum_column_data_by_name, column_data_by_name.
  pose proof (proj2 (index_of_ColumnAt _ _ _) Hi) as Ei. rewrite Ei.
  assert (E : (cs <- column_at data i ;; mapM to_float cs) = Ok (col_values i data)).
  { apply column_floats.
    - intros r' Hr'. apply nth_error_Some. rewrite (HR r' Hr'). eapply index_of_lt; eassumption.
    - intros r' s Hr'. apply HN; assumption. }
  destruct (column_at data i) as [cs|e]; simpl in E; [|discriminate]. simpl.
  rewrite E. simpl.
  destruct (forallb is_nan (col_values i data)); [reflexivity|].
  assert (X : existsb is_nan (col_values i data) = true).
  { apply existsb_exists. exists None. split; [|reflexivity].
    apply in_map_iff. exists r. rewrite Hm. split; [reflexivity|assumption]. }
  rewrite X. reflexivity.
Qed.
