(** Proofs about the driver of aggregated statistics. *)
From Coq Require Import Ascii Permutation Sorted Qabs.
From Verif Require Import PyBase ColumnModel BaseSpec BaseProofs EventModel EventSpec EventProofs UtilModel UtilSpec UtilProofs.
From Verif Require Import RocProofs EqzProofs BootModel DriveModel DriveSpec.
From Verif Require RocModel SumModel AggModel.
From Coq Require Import List Lia.
Open Scope string_scope.

(* ---------- texts ---------- *)
Lemma has_char_iff c s : has_char c s = true <-> Has c s.
Proof.
  unfold Has. induction s as [|a s IH]; cbn [has_char list_ascii_of_string In]; [split; [discriminate|tauto]|].
  rewrite orb_true_iff, IH, Ascii.eqb_eq. reflexivity.
Qed.
Lemma has_char_false c s : has_char c s = false <-> ~ Has c s.
Proof. rewrite <- has_char_iff. destruct (has_char c s); split; congruence. Qed.
Lemma cut_dot_iff s a b : cut_dot s = Some (a, b) <-> s = a ++ "." ++ b /\ ~ Has "." a.
Proof.
  unfold Has. revert a b. induction s as [|c s IH]; intros a b; cbn [cut_dot].
  - split; [discriminate|]. intros [H _]. destruct a; discriminate H.
  - destruct (Ascii.eqb_spec c ".") as [->|N].
    + split.
      * intros [= <- <-]. split; [reflexivity|]. cbn. tauto.
      * intros [H F]. destruct a as [|x a]; cbn in H; [injection H as ->; reflexivity|]. injection H as <- _. exfalso. apply F. left. reflexivity.
    + destruct (cut_dot s) as [[a' b']|] eqn:E.
      * destruct (proj1 (IH a' b') eq_refl) as [H F]. split.
        -- intros [= <- <-]. split; [cbn; rewrite H; reflexivity|]. cbn. intros [C|C]; [contradiction|auto].
        -- intros [H' F']. destruct a as [|x a]; cbn in H'; [injection H' as C _; contradiction|]. injection H' as -> H2.
           assert (Some (a', b') = Some (a, b)) as Q. { apply IH. split; [exact H2|]. intro C. apply F'. right. exact C. }
           injection Q as <- <-. reflexivity.
      * split; [discriminate|]. intros [H F]. destruct a as [|x a]; cbn in H; [injection H as C _; contradiction|]. injection H as -> H2.
        assert (None = Some (a, b)) as Q. { apply IH. split; [exact H2|]. intro C. apply F. right. exact C. } discriminate Q.
Qed.
Lemma digit_no_dot s : Forall Digit (list_ascii_of_string s) -> ~ Has "." s.
Proof.
  intros F H. rewrite Forall_forall in F. apply F in H. unfold Digit in H. cbn in H.
  repeat (destruct H as [H|H]; [discriminate H|]). exact H.
Qed.
Lemma digits_app a b : Digits (String.length a) a -> Digits (String.length b) b -> Forall Digit (list_ascii_of_string (a ++ b)).
Proof. intros [_ A] [_ B]. rewrite la_app. apply Forall_app. auto. Qed.
Lemma unsigned_float_iff s q : (exists p, unsigned_float s = Some p /\ p == q) <->
  exists a b, Digits (String.length a) a /\ Digits (String.length b) b /\ a ++ b <> "" /\ s = a ++ "." ++ b /\
    q == inject_Z (decimal (a ++ b)) / inject_Z (10 ^ Z.of_nat (String.length b)).
Proof.
  assert (forall z b, (z # pow10 (String.length b)) == inject_Z z / inject_Z (10 ^ Z.of_nat (String.length b))) as Q.
  { intros z b. rewrite Qmake_div, pow10_Z. reflexivity. }
  unfold unsigned_float. split.
  - intros (p & H & E). destruct (cut_dot s) as [[a b]|] eqn:C; [|discriminate H].
    apply cut_dot_iff in C. destruct C as [-> N]. destruct (unsigned_value (a ++ b)) as [z|] eqn:U; [|discriminate H].
    injection H as <-. apply unsigned_iff in U. destruct U as (n & [L F] & ->). rewrite la_app in F. apply Forall_app in F.
    exists a, b. split; [split; [reflexivity|apply F]|]. split; [split; [reflexivity|apply F]|].
    split; [destruct (a ++ b); [discriminate L|discriminate]|]. split; [reflexivity|]. rewrite <- E. apply Q.
  - intros (a & b & A & B & NE & -> & E).
    assert (cut_dot (a ++ "." ++ b) = Some (a, b)) as ->. { apply cut_dot_iff. split; [reflexivity|]. apply digit_no_dot. apply A. }
    assert (unsigned_value (a ++ b) = Some (decimal (a ++ b))) as ->.
    { apply unsigned_iff. exists (String.length (a ++ b) - 1)%nat. split; [|reflexivity]. split; [|apply digits_app; assumption].
      destruct (a ++ b); [contradiction|]. cbn. lia. }
    eexists. split; [reflexivity|]. rewrite E. apply Q.
Qed.
Lemma strict_float_iff v q : (exists p, strict_float v = Some p /\ p == q) <-> Decimal v q.
Proof.
  assert (forall s, (exists p, unsigned_float s = Some p /\ p == q) -> strict_float s = unsigned_float s \/ exists t, s = String "-" t) as G.
  { intros s _. destruct s as [|c t]; [left; reflexivity|]. destruct (ascii_dec c "-") as [->|N]; [right; eauto|].
    left. unfold strict_float. destruct c as [[] [] [] [] [] [] [] []]; try reflexivity. contradiction N; reflexivity. }
  unfold Decimal. split.
  - intros (p & H & E). destruct v as [|c t]; [discriminate H|]. destruct (ascii_dec c "-") as [->|N].
    + cbn [strict_float] in H. destruct (unsigned_float t) as [p'|] eqn:U; [|discriminate H]. injection H as <-.
      destruct (proj1 (unsigned_float_iff t p')) as (a & b & A & B & NE & -> & E'); [exists p'; split; [exact U|reflexivity]|].
      exists a, b. repeat (split; [assumption|]). cbn zeta. right. split; [reflexivity|]. rewrite <- E, E'. reflexivity.
    + assert (strict_float (String c t) = unsigned_float (String c t)) as S.
      { unfold strict_float. destruct c as [[] [] [] [] [] [] [] []]; try reflexivity. contradiction N; reflexivity. }
      rewrite S in H. destruct (proj1 (unsigned_float_iff (String c t) q)) as (a & b & A & B & NE & Ev & E'); [eauto|].
      exists a, b. repeat (split; [assumption|]). cbn zeta. left. split; [exact Ev|]. exact E'.
  - intros (a & b & A & B & NE & [[-> E]|[-> E]]).
    + destruct (proj2 (unsigned_float_iff (a ++ "." ++ b) q)) as (p & U & P); [exists a, b; auto 10|].
      destruct (G _ (ex_intro _ p (conj U P))) as [S|[t S]]; [rewrite S; eauto|].
      exfalso. destruct a as [|x a]; cbn in S; [discriminate S|]. injection S as -> _. destruct A as [_ A]. inversion A as [|? ? D _]; subst.
      apply is_digit_iff in D. discriminate D.
    + change ("-" ++ a ++ "." ++ b) with (String "-" (a ++ "." ++ b)). cbn [strict_float].
      destruct (proj2 (unsigned_float_iff (a ++ "." ++ b) (- q))) as (p & U & P).
      { exists a, b. repeat (split; [assumption|]). split; [reflexivity|]. rewrite E. apply Qopp_opp. }
      rewrite U. eexists. split; [reflexivity|]. rewrite P. apply Qopp_opp.
Qed.
Lemma whole_no_dot v z : WholeNumber v z -> ~ Has "." v.
Proof.
  intros (n & s & [_ D] & [[-> _]|[[-> _]|[-> _]]]); [apply digit_no_dot; exact D| |];
    (intro H; unfold Has in H; cbn in H; destruct H as [H|H]; [discriminate H|]; exact (digit_no_dot _ D H)).
Qed.
Lemma decimal_dot v q : Decimal v q -> Has "." v.
Proof.
  assert (forall a b, Has "." (a ++ "." ++ b)) as G by (intros a b; unfold Has; rewrite la_app; apply in_or_app; right; left; reflexivity).
  intros (a & b & _ & _ & _ & [[-> _]|[-> _]]); [apply G|]. unfold Has. change ("-" ++ a ++ "." ++ b) with (String "-" (a ++ "." ++ b)).
  right. apply G.
Qed.
Lemma wanted_iff v c : wanted_is c (want v) = true <-> HasValue v c.
Proof.
  unfold want, HasValue. destruct (parse_int v) as [z|] eqn:P.
  - apply parse_int_iff in P. assert (forall q, ~ Decimal v q) as ND by (intros q D; exact (whole_no_dot _ _ P (decimal_dot _ _ D))).
    split.
    + destruct c as [q| |s]; cbn [wanted_is]; try discriminate. intro E. apply Qeq_bool_iff in E. left. eauto.
    + intros [(z' & q & W & -> & E)|[(p & q & D & _)|(N & _)]]; [|exfalso; exact (ND _ D)|exfalso; exact (N _ P)].
      cbn [wanted_is]. apply Qeq_bool_iff. apply parse_int_iff in P, W. rewrite P in W. injection W as <-. exact E.
  - assert (forall z, ~ WholeNumber v z) as NW by (intros z W; apply parse_int_iff in W; congruence).
    destruct (strict_float v) as [p|] eqn:F.
    + assert (Decimal v p) as D by (apply strict_float_iff; exists p; split; [exact F|reflexivity]). split.
      * destruct c as [q| |s]; cbn [wanted_is]; try discriminate. intro E. apply Qeq_bool_iff in E. right. left. eauto.
      * intros [(z & _ & W & _)|[(p' & q & D' & -> & E)|(_ & N & _)]]; [exfalso; exact (NW _ W)| |exfalso; exact (N _ D)].
        cbn [wanted_is]. apply Qeq_bool_iff. apply strict_float_iff in D'. destruct D' as (p2 & F' & E').
        rewrite F in F'. injection F' as <-. rewrite E. symmetry. exact E'.
    + assert (forall q, ~ Decimal v q) as ND by (intros q D; apply strict_float_iff in D; destruct D as (p & F' & _); congruence). split.
      * destruct c as [q| |s]; cbn [wanted_is]; try discriminate. intro E. apply String.eqb_eq in E. subst. auto.
      * intros [(z & _ & W & _)|[(p & _ & D & _)|(_ & _ & ->)]]; [exfalso; exact (NW _ W)|exfalso; exact (ND _ D)|].
        cbn [wanted_is]. apply String.eqb_refl.
Qed.
Lemma split_joined sep l : l <> [] -> Forall (fun m => ~ Has sep m) l -> split_on sep (String.concat (String sep "") l) = l.
Proof.
  induction l as [|w l IH]; intros N F; [now destruct N|]. inversion F as [|? ? Hw Hl]; subst. destruct l as [|w' l].
  - cbn [String.concat]. now apply split_on_last.
  - change (String.concat (String sep "") (w :: w' :: l)) with (w ++ String sep (String.concat (String sep "") (w' :: l))).
    rewrite split_on_word by exact Hw. rewrite IH; [reflexivity|discriminate|exact Hl].
Qed.
Lemma members_value v l : MembersOf v l -> filter_list v = map want l.
Proof.
  unfold filter_list. intros [[H G]|[(N & H & NE & E & F)|(N & N' & ->)]].
  - apply has_char_iff in H. rewrite H. rewrite (ungroup_group _ _ G). reflexivity.
  - apply has_char_false in N. apply has_char_iff in H. rewrite N, H, E. f_equal. apply (split_joined ";"); assumption.
  - apply has_char_false in N, N'. rewrite N, N'. reflexivity.
Qed.
Lemma members_fun v l l' : MembersOf v l -> MembersOf v l' -> l = l'.
Proof.
  intros [[H G]|[(N & H & NE & E & F)|(N & N' & ->)]] [[H2 G2]|[(N2 & H2 & NE2 & E2 & F2)|(N2 & N2' & ->)]]; try contradiction; try reflexivity.
  - rewrite <- (ungroup_group _ _ G). apply ungroup_group. exact G2.
  - rewrite <- (split_joined ";" l NE F), <- (split_joined ";" l' NE2 F2). rewrite <- E, <- E2. reflexivity.
Qed.
Lemma isin_member v c : (exists l, MembersOf v l) -> (isin (filter_list v) c = true <-> HasMember v c).
Proof.
  intros [l M]. rewrite (members_value _ _ M). unfold isin, HasMember. rewrite existsb_exists. split.
  - intros (w & I & E). apply in_map_iff in I. destruct I as (m & <- & I). exists l, m. split; [exact M|]. split; [exact I|]. apply wanted_iff. exact E.
  - intros (l' & m & M' & I & E). rewrite (members_fun _ _ _ M' M) in I. exists (want m). split; [apply in_map; exact I|]. apply wanted_iff. exact E.
Qed.

(* ---------- order of cells ---------- *)
Lemma cell_cmp_sym a b : cell_cmp a b = CompOpp (cell_cmp b a).
Proof. destruct a, b; simpl; try reflexivity; [symmetry; apply Qcompare_antisym|apply str_sym]. Qed.
Lemma cell_cmp_refl a : cell_cmp a a = Eq.
Proof. destruct a; simpl; [apply Qeq_alt; reflexivity|reflexivity|apply str_refl]. Qed.
Lemma cell_cmp_eq a b : cell_cmp a b = Eq <-> CellSame a b.
Proof.
  split.
  - destruct a as [q| |s], b as [p| |t]; simpl; try discriminate.
    + intro H. constructor. apply Qeq_alt. exact H.
    + intros _. constructor.
    + intro H. apply str_eq in H. subst. constructor.
  - intros [x y H|s|]; simpl; [apply Qeq_alt; exact H|apply str_refl|reflexivity].
Qed.
Lemma cell_cmp_lt a b : same_kind a b = true -> (cell_cmp a b = Lt <-> CellBefore a b).
Proof.
  intro K. split.
  - destruct a as [q| |s], b as [p| |t]; simpl in *; try discriminate; intro H; try (constructor; discriminate).
    + constructor. apply Qlt_alt. exact H.
    + constructor. unfold String.ltb. rewrite H. reflexivity.
  - intros [x y H|s t H|c H]; simpl.
    + apply Qlt_alt. exact H.
    + unfold String.ltb in H. destruct (String.compare s t); try discriminate; reflexivity.
    + destruct c; try reflexivity. contradiction.
Qed.
Lemma cell_cmp_comp a b c : cell_cmp a b = Eq -> cell_cmp a c = cell_cmp b c.
Proof.
  intro H. apply cell_cmp_eq in H. destruct H as [x y H|s|]; [|reflexivity|reflexivity].
  destruct c as [z| |t]; simpl; [|reflexivity|reflexivity]. apply Qcompare_comp; [exact H|reflexivity].
Qed.
Lemma cell_cmp_comp_r a b c : cell_cmp a b = Eq -> cell_cmp c a = cell_cmp c b.
Proof. intro H. rewrite (cell_cmp_sym c a), (cell_cmp_sym c b). rewrite (cell_cmp_comp _ _ _ H). reflexivity. Qed.
Lemma cell_cmp_trans a b c : cell_cmp a b = Lt -> cell_cmp b c = Lt -> cell_cmp a c = Lt.
Proof.
  destruct a as [x| |s], b as [y| |t], c as [z| |u]; simpl; try discriminate; try reflexivity.
  - intros H K. apply Qlt_alt in H, K. apply Qlt_alt. eapply Qlt_trans; eassumption.
  - apply str_lt_trans.
Qed.
Lemma keys_cmp_sym a : forall b, keys_cmp a b = CompOpp (keys_cmp b a).
Proof.
  induction a as [|x a IH]; intros [|y b]; simpl; try reflexivity.
  rewrite (cell_cmp_sym x y). destruct (cell_cmp y x); simpl; auto.
Qed.
Lemma keys_cmp_refl a : keys_cmp a a = Eq.
Proof. induction a as [|x a IH]; simpl; [reflexivity|]. rewrite cell_cmp_refl. exact IH. Qed.
Lemma keys_le_total a b : keys_le a b = false -> keys_le b a = true.
Proof. unfold keys_le. rewrite (keys_cmp_sym b a). destruct (keys_cmp a b); simpl; congruence. Qed.
Lemma keys_cmp_eq a : forall b, length a = length b -> (keys_cmp a b = Eq <-> Forall2 CellSame a b).
Proof.
  induction a as [|x a IH]; intros [|y b] L; simpl in *; try discriminate L; [split; [constructor|reflexivity]|].
  injection L as L. destruct (cell_cmp x y) eqn:E.
  - rewrite IH by exact L. apply cell_cmp_eq in E. split; [constructor; assumption|inversion 1; assumption].
  - split; [discriminate|]. inversion 1 as [|? ? ? ? S _]; subst. apply cell_cmp_eq in S. congruence.
  - split; [discriminate|]. inversion 1 as [|? ? ? ? S _]; subst. apply cell_cmp_eq in S. congruence.
Qed.
Lemma keys_le_trans a : forall b c, length a = length b -> length b = length c -> keys_le a b = true -> keys_le b c = true -> keys_le a c = true.
Proof.
  unfold keys_le. induction a as [|x a IH]; intros [|y b] [|z c] L1 L2; simpl in *; try discriminate; [reflexivity|].
  injection L1 as L1. injection L2 as L2.
  destruct (cell_cmp x y) eqn:E1.
  - rewrite (cell_cmp_comp _ _ _ E1). destruct (cell_cmp y z); [apply IH; assumption|reflexivity|discriminate].
  - destruct (cell_cmp y z) eqn:E2.
    + rewrite <- (cell_cmp_comp_r _ _ x E2), E1. reflexivity.
    + rewrite (cell_cmp_trans _ _ _ E1 E2). reflexivity.
    + discriminate.
  - discriminate.
Qed.
Definition kind_of (a b : list cell) : bool := forallb (fun xy => same_kind (fst xy) (snd xy)) (combine a b).
Lemma keys_le_iff a : forall b, length a = length b -> kind_of a b = true -> (keys_le a b = true <-> NotAfter a b).
Proof.
  unfold keys_le, kind_of. induction a as [|x a IH]; intros [|y b] L K; simpl in *; try discriminate L; [split; [constructor|reflexivity]|].
  injection L as L. apply andb_prop in K. destruct K as [K1 K2]. specialize (IH b L K2).
  destruct (cell_cmp x y) eqn:E.
  - rewrite IH. pose proof (proj1 (cell_cmp_eq _ _) E) as S. split; [intro H; apply notafter_eq; assumption|].
    inversion 1; subst; [|assumption]. exfalso.
    match goal with B : CellBefore x y |- _ => apply (cell_cmp_lt _ _ K1) in B; congruence end.
  - split; [|reflexivity]. intros _. apply notafter_lt. apply cell_cmp_lt; assumption.
  - split; [discriminate|]. inversion 1; subst.
    + match goal with B : CellBefore x y |- _ => apply (cell_cmp_lt _ _ K1) in B; congruence end.
    + match goal with B : CellSame x y |- _ => apply cell_cmp_eq in B; congruence end.
Qed.

(* ---------- a stable order is unique ---------- *)
Lemma stable_unique {A} (R : A -> A -> Prop) (e : A -> A -> bool) : (forall a, e a a = true) -> (forall a b, R a b -> R b a -> e a b = true) ->
  forall l1 l2, StronglySorted R l1 -> StronglySorted R l2 -> Permutation l1 l2 ->
  (forall x, In x l1 -> filter (e x) l1 = filter (e x) l2) -> l1 = l2.
Proof.
  intros Er Ea l1. induction l1 as [|x1 t1 IH]; intros l2 S1 S2 P F.
  - apply Permutation_nil in P. congruence.
  - destruct l2 as [|x2 t2]; [apply Permutation_sym, Permutation_nil in P; discriminate P|].
    inversion S1 as [|? ? S1' F1]; subst. inversion S2 as [|? ? S2' F2]; subst. rewrite Forall_forall in F1, F2.
    assert (x1 = x2) as ->.
    { assert (In x1 (x2 :: t2)) as I1 by (apply (Permutation_in _ P); left; reflexivity).
      assert (In x2 (x1 :: t1)) as I2 by (apply (Permutation_in _ (Permutation_sym P)); left; reflexivity).
      destruct I1 as [E|I1]; [congruence|]. destruct I2 as [E|I2]; [congruence|].
      specialize (F x1 (or_introl eq_refl)). cbn [filter] in F. rewrite Er in F. rewrite (Ea x1 x2 (F1 _ I2) (F2 _ I1)) in F. congruence. }
    f_equal. apply IH; [assumption|assumption|eapply Permutation_cons_inv; exact P|].
    intros x Hx. specialize (F x (or_intror Hx)). cbn [filter] in F. destruct (e x x2); [injection F as F|]; exact F.
Qed.

(* ---------- sorting the rows ---------- *)
Lemma time_field columns t : TimeField columns t <-> t = time_column columns /\ (t = "fcst_init" \/ In t columns).
Proof.
  unfold TimeField, time_column.
  destruct (mem "fcst_valid_beg" columns) eqn:E1; [apply mem_iff in E1|apply mem_false in E1].
  { split; [intros [(-> & _)|[(-> & _ & C)|[(-> & _ & C & _)|(-> & C & _)]]]; auto; contradiction|]. intros [-> _]. auto. }
  destruct (mem "fcst_valid" columns) eqn:E2; [apply mem_iff in E2|apply mem_false in E2].
  { split; [intros [(-> & C)|[(-> & _ & _)|[(-> & _ & _ & C)|(-> & _ & C & _)]]]; auto; contradiction|]. intros [-> _]. auto. }
  destruct (mem "fcst_init_beg" columns) eqn:E3; [apply mem_iff in E3|apply mem_false in E3].
  { split; [intros [(-> & C)|[(-> & C & _)|[(-> & _)|(-> & _ & _ & C)]]]; auto; contradiction|]. intros [-> _]. auto 8. }
  split; [intros [(-> & C)|[(-> & C & _)|[(-> & C & _)|(-> & _)]]]; auto; contradiction|]. intros [-> _]. right. right. right. auto.
Qed.
Lemma sort_fields_iff columns fs : SortFields columns fs <-> fs = sort_fields columns.
Proof.
  unfold SortFields, sort_fields. split.
  - intros (t & T & H). apply time_field in T. destruct T as [-> _]. destruct H as [[I ->]|[I ->]].
    + apply mem_iff in I. rewrite I. reflexivity.
    + apply mem_false in I. rewrite I. reflexivity.
  - intros ->. exists (time_column columns). split.
    + apply time_field. split; [reflexivity|]. unfold time_column.
      destruct (mem "fcst_valid_beg" columns) eqn:E1; [apply mem_iff in E1; auto|].
      destruct (mem "fcst_valid" columns) eqn:E2; [apply mem_iff in E2; auto|].
      destruct (mem "fcst_init_beg" columns) eqn:E3; [apply mem_iff in E3; auto|]. auto.
    + destruct (mem "stat_name" columns) eqn:E; [apply mem_iff in E|apply mem_false in E]; auto.
Qed.
Lemma get_sound columns r n c : get columns r n = Ok c <-> CellOf columns r n c.
Proof.
  unfold get. split.
  - destruct (index_of n columns) as [i|] eqn:E; [|discriminate]. unfold cell_at. destruct (nth_error r i) as [c'|] eqn:N; [|discriminate].
    intros [= <-]. eapply nth_cellof; eassumption.
  - intro C. pose proof C as (i & H & _). apply index_of_ColumnAt in H. rewrite H. unfold cell_at. rewrite (cellof_nth _ _ _ _ _ H C). reflexivity.
Qed.
Lemma mapM_iff {A B} (f : A -> res B) l r : mapM f l = Ok r <-> Forall2 (fun x y => f x = Ok y) l r.
Proof.
  split; [apply mapM_inv|]. induction 1 as [|x y l r E F IH]; [reflexivity|]. simpl. rewrite E. cbn [bind]. rewrite IH. reflexivity.
Qed.
Lemma forall2_iff {A B} (P Q : A -> B -> Prop) l m : (forall a b, P a b <-> Q a b) -> (Forall2 P l m <-> Forall2 Q l m).
Proof. intro H. split; induction 1; constructor; try apply H; assumption. Qed.
Lemma cells_sound columns fs r k : mapM (get columns r) fs = Ok k <-> CellsOf columns fs r k.
Proof. rewrite mapM_iff. unfold CellsOf. apply forall2_iff. intros. apply get_sound. Qed.
Lemma sortkey_iff columns r k : SortKey columns r k <-> mapM (get columns r) (sort_fields columns) = Ok k.
Proof.
  unfold SortKey. rewrite cells_sound. split; [intros (fs & F & C); apply sort_fields_iff in F; subst; exact C|].
  intro C. exists (sort_fields columns). split; [apply sort_fields_iff; reflexivity|exact C].
Qed.
Lemma sortkey_fun columns r k k' : SortKey columns r k -> SortKey columns r k' -> k = k'.
Proof. rewrite !sortkey_iff. congruence. Qed.
Lemma sortkey_length columns r k : SortKey columns r k -> length k = length (sort_fields columns).
Proof. intros (fs & F & C). apply sort_fields_iff in F. subst. unfold CellsOf in C. symmetry. eapply forall2_len. exact C. Qed.
Lemma one_kind_iff keys : one_kind keys = true <-> forall a b, In a keys -> In b keys -> kind_of a b = true.
Proof.
  unfold one_kind. rewrite forallb_forall. split.
  - intros H a b A B. specialize (H a A). rewrite forallb_forall in H. apply H. exact B.
  - intros H a A. apply forallb_forall. intros b B. apply H; assumption.
Qed.
Definition keyf (columns : list string) (r : row) : list cell :=
  match mapM (get columns r) (sort_fields columns) with Ok k => k | Err _ => [] end.
Lemma keyf_key columns r k : SortKey columns r k -> keyf columns r = k.
Proof. rewrite sortkey_iff. unfold keyf. intros ->. reflexivity. Qed.
Lemma combine_map {A B} (f : A -> B) l : combine (map f l) l = map (fun x => (f x, x)) l.
Proof. induction l as [|x l IH]; simpl; [reflexivity|]. rewrite IH. reflexivity. Qed.
Definition row_le (columns : list string) (a b : row) : bool := keys_le (keyf columns a) (keyf columns b).
Definition has_key (columns : list string) (r : row) : Prop := exists k, SortKey columns r k.
Lemma sort_data_eq columns rows : (forall r, In r rows -> has_key columns r) ->
  sort_data columns rows = if one_kind (map (keyf columns) rows) then Ok (RocModel.sort_by (row_le columns) rows) else Err NotModelled.
Proof.
  intro H. unfold sort_data. rewrite (mapM_map _ (keyf columns)).
  - cbn [bind]. destruct (one_kind (map (keyf columns) rows)); [|reflexivity]. f_equal.
    rewrite combine_map, sort_map, map_map. cbn [fst snd]. rewrite map_id. reflexivity.
  - intros r Hr. destruct (H r Hr) as [k K]. rewrite (keyf_key _ _ _ K). apply sortkey_iff. exact K.
Qed.
Lemma sort_data_inv columns rows sorted : sort_data columns rows = Ok sorted ->
  (forall r, In r rows -> has_key columns r) /\ one_kind (map (keyf columns) rows) = true /\ sorted = RocModel.sort_by (row_le columns) rows.
Proof.
  intro H. assert (forall r, In r rows -> has_key columns r) as K.
  { unfold sort_data in H. destruct (mapM _ rows) as [keys|] eqn:M; [|discriminate H]. apply mapM_inv in M.
    intros r Hr. clear H. induction M as [|x k l ks E M IH]; [destruct Hr|]. destruct Hr as [<-|Hr]; [|auto].
    exists k. apply sortkey_iff. exact E. }
  split; [exact K|]. rewrite (sort_data_eq _ _ K) in H. destruct (one_kind (map (keyf columns) rows)); [|discriminate H].
  split; [reflexivity|]. injection H as <-. reflexivity.
Qed.
Lemma keyf_len columns r : has_key columns r -> length (keyf columns r) = length (sort_fields columns).
Proof. intros [k K]. rewrite (keyf_key _ _ _ K). eapply sortkey_length. exact K. Qed.
Definition key_class (columns : list string) (key : list cell) (r : row) : Prop := exists k, SortKey columns r k /\ Forall2 CellSame key k.
Lemma sort_in_order columns rows : (forall r, In r rows -> has_key columns r) -> one_kind (map (keyf columns) rows) = true ->
  InOrder columns rows (RocModel.sort_by (row_le columns) rows).
Proof.
  intros H K. pose proof (proj1 (one_kind_iff _) K) as K'.
  assert (Permutation rows (RocModel.sort_by (row_le columns) rows)) as P by apply sort_perm.
  split; [exact P|]. split; [exact H|]. split.
  - assert (StronglySorted (fun a b => row_le columns a b = true) (RocModel.sort_by (row_le columns) rows)) as S.
    { apply (sort_sorted _ (has_key columns)); [| |apply Forall_forall; exact H].
      - intros a b _ _. apply keys_le_total.
      - intros a b c A B C. apply keys_le_trans; rewrite !keyf_len by assumption; reflexivity. }
    eapply sorted_weaken; [exact S|]. intros a b Ia Ib L.
    apply (Permutation_in _ (Permutation_sym P)) in Ia, Ib. destruct (H a Ia) as [ka Ka]. destruct (H b Ib) as [kb Kb].
    exists ka, kb. split; [exact Ka|]. split; [exact Kb|]. unfold row_le in L. rewrite (keyf_key _ _ _ Ka), (keyf_key _ _ _ Kb) in L.
    apply keys_le_iff; [rewrite (sortkey_length _ _ _ Ka), (sortkey_length _ _ _ Kb); reflexivity| |exact L].
    apply K'; apply in_map_iff; [exists a|exists b]; auto using keyf_key.
  - intros key same S. destruct (PeanoNat.Nat.eq_dec (length key) (length (sort_fields columns))) as [L|L].
    + assert (forall l, (forall r, In r l -> In r rows) ->
        Selection (key_class columns key) l (filter (fun r => same_keys key (keyf columns r)) l)) as G.
      { intros l Hl. apply selection_filter. intros r Hr. destruct (H r (Hl r Hr)) as [k Hk]. rewrite (keyf_key _ _ _ Hk).
        unfold same_keys. assert (length key = length k) as L' by (rewrite (sortkey_length _ _ _ Hk); exact L).
        pose proof (keys_cmp_eq key k L') as E. split.
        - destruct (keys_cmp key k); try discriminate. intros _. exists k. split; [exact Hk|]. apply E. reflexivity.
        - intros (k2 & Hk2 & F). rewrite (sortkey_fun _ _ _ _ Hk2 Hk) in F. apply E in F. rewrite F. reflexivity. }
      assert (same = filter (fun r => same_keys key (keyf columns r)) rows) as ->.
      { eapply selection_unique; [exact S|apply G; auto|]. intros; reflexivity. }
      rewrite <- (sort_stable (row_le columns) _ rows).
      * apply G. intros r Hr. apply (Permutation_in _ (Permutation_sym P)). exact Hr.
      * intros a b Ia Ib Pa Pb. unfold row_le, keys_le. destruct (H a Ia) as [ka Ka]. destruct (H b Ib) as [kb Kb].
        rewrite (keyf_key _ _ _ Ka) in *. rewrite (keyf_key _ _ _ Kb) in *. unfold same_keys in Pa, Pb.
        pose proof (sortkey_length _ _ _ Ka). pose proof (sortkey_length _ _ _ Kb).
        destruct (keys_cmp key ka) eqn:Ea; try discriminate Pa. destruct (keys_cmp key kb) eqn:Eb; try discriminate Pb.
        assert (keys_le ka kb = true) as X; [|exact X]. apply (keys_le_trans ka key kb); [congruence|congruence| |].
        -- unfold keys_le. rewrite keys_cmp_sym, Ea. reflexivity.
        -- unfold keys_le. rewrite Eb. reflexivity.
    + assert (forall l o, Selection (key_class columns key) l o -> o = []) as G.
      { intros l o So. apply (selection_none _ _ _ So). intros r _ (k & Hk & F). apply L. rewrite <- (sortkey_length _ _ _ Hk). eapply forall2_len. exact F. }
      rewrite (G _ _ S).
      assert (forall l, Selection (key_class columns key) l []) as N.
      { induction l as [|r l IH]; constructor; [|exact IH]. intros (k & Hk & F). apply L. rewrite <- (sortkey_length _ _ _ Hk). eapply forall2_len. exact F. }
      apply N.
Qed.
Lemma notafter_le a b : NotAfter a b -> keys_le a b = true.
Proof.
  unfold keys_le. induction 1 as [|x y a b B|x y a b Sm N IH]; simpl; [reflexivity| |].
  - destruct B as [p q L|s t L|c L]; simpl.
    + pose proof (proj1 (Qlt_alt _ _) L) as L'. fold (Qcompare p q). rewrite L'. reflexivity.
    + unfold String.ltb in L. destruct (String.compare s t); try discriminate; reflexivity.
    + destruct c; try reflexivity. contradiction.
  - apply cell_cmp_eq in Sm. rewrite Sm. exact IH.
Qed.
Lemma in_order_unique columns rows s1 s2 : InOrder columns rows s1 -> InOrder columns rows s2 -> s1 = s2.
Proof.
  intros (P1 & H & S1 & T1) (P2 & _ & S2 & T2).
  assert (forall r, In r s1 -> has_key columns r) as H1 by (intros r Hr; apply H; apply (Permutation_in _ (Permutation_sym P1)); exact Hr).
  eapply (stable_unique _ (fun a b => same_keys (keyf columns a) (keyf columns b))); [| |exact S1|exact S2| |].
  - intro a. unfold same_keys. rewrite keys_cmp_refl. reflexivity.
  - intros a b (ka & kb & Ka & Kb & L1) (kb' & ka' & Kb' & Ka' & L2).
    rewrite (sortkey_fun _ _ _ _ Ka' Ka) in L2. rewrite (sortkey_fun _ _ _ _ Kb' Kb) in L2.
    rewrite (keyf_key _ _ _ Ka), (keyf_key _ _ _ Kb). apply notafter_le in L1, L2. unfold keys_le, same_keys in *.
    rewrite (keys_cmp_sym kb ka) in L2. destruct (keys_cmp ka kb); simpl in L2; congruence.
  - rewrite <- P1. exact P2.
  - intros x Hx. destruct (H1 x Hx) as [k K].
    assert (forall l, (forall r, In r l -> has_key columns r) -> Selection (key_class columns k) l (filter (fun b => same_keys (keyf columns x) (keyf columns b)) l)) as G.
    { intros l Hl. apply selection_filter. intros r Hr. destruct (Hl r Hr) as [k' K']. rewrite (keyf_key _ _ _ K), (keyf_key _ _ _ K').
      unfold same_keys. assert (length k = length k') as L by (rewrite (sortkey_length _ _ _ K), (sortkey_length _ _ _ K'); reflexivity).
      pose proof (keys_cmp_eq k k' L) as E. split.
      - destruct (keys_cmp k k'); try discriminate. intros _. exists k'. split; [exact K'|]. apply E. reflexivity.
      - intros (k2 & Hk2 & F). rewrite (sortkey_fun _ _ _ _ Hk2 K') in F. apply E in F. rewrite F. reflexivity. }
    assert (forall r, In r s2 -> has_key columns r) as H2 by (intros r Hr; apply H; apply (Permutation_in _ (Permutation_sym P2)); exact Hr).
    pose proof (T1 _ _ (G rows H)) as A1. pose proof (T2 _ _ (G rows H)) as A2.
    rewrite <- (selection_unique _ _ _ _ _ A1 (G s1 H1) (fun _ _ => iff_refl _)).
    apply (selection_unique _ _ _ _ _ A2 (G s2 H2) (fun _ _ => iff_refl _)).
Qed.
Definition all_one_kind (columns : list string) (rows : tdata) : Prop :=
  forall fs n, SortFields columns fs -> In n fs -> OneKind columns rows n.
Lemma kinds_ok columns rows : (forall r, In r rows -> has_key columns r) -> all_one_kind columns rows -> one_kind (map (keyf columns) rows) = true.
Proof.
  intros H K. apply one_kind_iff. intros a b Ia Ib. apply in_map_iff in Ia, Ib. destruct Ia as (ra & <- & Ia). destruct Ib as (rb & <- & Ib).
  destruct (H ra Ia) as [ka Ka]. destruct (H rb Ib) as [kb Kb]. rewrite (keyf_key _ _ _ Ka), (keyf_key _ _ _ Kb).
  destruct Ka as (fs & F & Ca). destruct Kb as (fs' & F' & Cb). apply sort_fields_iff in F, F'. subst fs fs'.
  assert (forall n, In n (sort_fields columns) -> OneKind columns rows n) as K' by (intros n Hn; eapply K; [apply sort_fields_iff; reflexivity|exact Hn]).
  revert Ca Cb K'. generalize (sort_fields columns) as fs. unfold CellsOf, kind_of.
  intros fs Ca. revert kb. induction Ca as [|n x fs ka X Ca IH]; intros kb Cb K'; inversion Cb as [|? y ? kb' Y Cb']; subst; [reflexivity|].
  cbn [combine forallb]. rewrite (IH kb' Cb') by (intros m Hm; apply K'; right; exact Hm). rewrite andb_true_r. cbn [fst snd].
  destruct (K' n (or_introl eq_refl)) as [O|O]; destruct (O _ _ Ia X) as [->|[? ->]]; destruct (O _ _ Ib Y) as [->|[? ->]]; reflexivity.
Qed.

(* ---------- the result of a point ---------- *)
Lemma gbs_sound e single hd columns st rows pr : get_bootstrapped_stats e single hd columns st rows = Ok pr ->
  ResultOf e single columns st rows (outcome pr) /\
  (saved pr = None \/ hd = true /\ rows <> [] /\ exists sorted prepared, InOrder columns rows sorted /\ prep e st sorted = Ok prepared /\ saved pr = Some prepared).
Proof.
  unfold get_bootstrapped_stats. destruct rows as [|r0 rows]; [intros [= <-]; split; [constructor|left; reflexivity]|].
  intro H. destruct (sort_data columns (r0 :: rows)) as [sorted|] eqn:S; [|discriminate H]. cbn [bind] in H.
  destruct (sort_data_inv _ _ _ S) as (HK & OK1 & ->). pose proof (sort_in_order _ _ HK OK1) as O. clear S.
  set (sorted := RocModel.sort_by (row_le columns) (r0 :: rows)) in *. clearbody sorted.
  destruct (prep e st sorted) as [data|] eqn:P; [|discriminate H]. cbn [bind] in H.
  assert (forall x, x = (if hd then Some data else None) -> x = None \/ hd = true /\ r0 :: rows <> [] /\
    exists sorted prepared, InOrder columns (r0 :: rows) sorted /\ prep e st sorted = Ok prepared /\ x = Some prepared) as G.
  { intros x E. destruct hd; [right|left; exact E]. split; [reflexivity|]. split; [discriminate|]. exists sorted, data. auto. }
  destruct single.
  - destruct (calc e st data) as [v|] eqn:C; [|discriminate H]. injection H as <-. cbn [outcome saved]. split; [|apply G; reflexivity].
    change (BootstrapResults None v None) with (Results None v None). eapply result_single; try eassumption; [discriminate|reflexivity].
  - destruct (boot e st data) as [r|x] eqn:B.
    + injection H as <-. cbn [outcome]. split; [|apply G; reflexivity]. eapply result_boot; try eassumption; [discriminate|reflexivity].
    + destruct x; try discriminate H. injection H as <-. cbn [outcome saved]. split; [|left; reflexivity].
      eapply result_failed; try eassumption; [discriminate|reflexivity].
Qed.
Lemma gbs_complete e single hd columns st rows r : all_one_kind columns rows -> ResultOf e single columns st rows r ->
  exists pr, get_bootstrapped_stats e single hd columns st rows = Ok pr /\ outcome pr = r.
Proof.
  intros K R. unfold get_bootstrapped_stats.
  assert (forall sorted, InOrder columns rows sorted -> sort_data columns rows = Ok sorted) as G.
  { intros sorted O. assert (forall r, In r rows -> has_key columns r) as H by apply O.
    rewrite (sort_data_eq _ _ H). rewrite (kinds_ok _ _ H K). f_equal. eapply in_order_unique; [|exact O]. apply sort_in_order; [exact H|apply kinds_ok; assumption]. }
  destruct R as [|rows sorted data v N -> O P C|rows sorted data r N -> O P C|rows sorted data N -> O P C].
  - eexists. split; reflexivity.
  - destruct rows as [|r0 rows]; [contradiction|]. rewrite (G _ O). cbn [bind]. rewrite P. cbn [bind]. rewrite C. cbn [bind]. eexists. split; reflexivity.
  - destruct rows as [|r0 rows]; [contradiction|]. rewrite (G _ O). cbn [bind]. rewrite P. cbn [bind]. rewrite C. eexists. split; reflexivity.
  - destruct rows as [|r0 rows]; [contradiction|]. rewrite (G _ O). cbn [bind]. rewrite P. cbn [bind]. rewrite C. eexists. split; reflexivity.
Qed.

(* ---------- the rows of a point ---------- *)
Lemma passes_value columns filters r : length r = length columns -> (forall f, In f filters -> In (fst f) columns) ->
  passes columns filters r = Ok (forallb (fun fw => ptest columns (fst fw) (isin (snd fw)) r) filters).
Proof.
  intros L H. unfold passes.
  rewrite (mapM_map _ (fun fw => ptest columns (fst fw) (isin (snd fw)) r)).
  - cbn [bind]. f_equal. clear. induction filters as [|x l IH]; [reflexivity|]. cbn [map forallb]. rewrite IH. reflexivity.
  - intros [n ws] Hf. cbn [fst snd]. unfold get, ptest, testat. destruct (in_index _ _ (H _ Hf)) as [i E]. cbn [fst] in E. rewrite E. unfold cell_at.
    destruct (nth_error r i) eqn:N; [reflexivity|]. exfalso. apply nth_error_None in N. pose proof (index_of_lt _ _ _ E). lia.
Qed.
Definition ftests (columns names point vars : list string) (r : row) : bool :=
  forallb (fun nv => ptest columns (fst nv) (isin (filter_list (snd nv))) r) (combine names point) &&
  match vars with v :: _ => ptest columns "fcst_var" (isin [WText v]) r | [] => true end.
Lemma ptest_absent columns n t r : mem n columns = false -> ptest columns n t r = true.
Proof. intro M. apply mem_false in M. unfold ptest. rewrite (not_in_index _ _ M). reflexivity. Qed.
Lemma filters_value columns names point vars r :
  forallb (fun fw => ptest columns (fst fw) (isin (snd fw)) r) (point_filters columns names point vars) = ftests columns names point vars r.
Proof.
  unfold point_filters, ftests. rewrite forallb_app. f_equal.
  - induction (combine names point) as [|[n v] l IH]; [reflexivity|]. cbn [flat_map fst snd]. rewrite forallb_app, IH. cbn [forallb fst snd].
    destruct (mem n columns) eqn:M; cbn [forallb fst snd]; [rewrite andb_true_r; reflexivity|]. rewrite (ptest_absent _ _ _ _ M). reflexivity.
  - destruct vars as [|v vars]; [reflexivity|]. destruct (mem "fcst_var" columns) eqn:M; cbn [forallb fst snd]; [apply andb_true_r|].
    rewrite (ptest_absent _ _ _ _ M). reflexivity.
Qed.
Lemma filters_columns columns names point vars f : In f (point_filters columns names point vars) -> In (fst f) columns.
Proof.
  unfold point_filters. intro H. apply in_app_or in H. destruct H as [H|H].
  - apply in_flat_map in H. destruct H as ([n v] & _ & H). cbn [fst snd] in H. destruct (mem n columns) eqn:M; [|destruct H].
    destruct H as [<-|[]]. apply mem_iff. exact M.
  - destruct vars as [|v vars]; [destruct H|]. destruct (mem "fcst_var" columns) eqn:M; [|destruct H]. destruct H as [<-|[]]. apply mem_iff. exact M.
Qed.
Lemma map_snd_filter {A} (b : A -> bool) (l : list A) : forall k, map snd (filter (fun ix => b (snd ix)) (combine (seq k (length l)) l)) = filter b l.
Proof. induction l as [|x l IH]; intro k; [reflexivity|]. cbn [length seq combine filter snd]. destruct (b x); cbn [map snd]; rewrite IH; reflexivity. Qed.
Lemma mask_labels {A} (b : A -> bool) (l : list A) : forall k, mask (map b l) (combine (seq k (length l)) l) = filter (fun ix => b (snd ix)) (combine (seq k (length l)) l).
Proof. induction l as [|x l IH]; intro k; [reflexivity|]. cbn [map length seq combine mask filter snd]. destruct (b x); rewrite IH; reflexivity. Qed.
Lemma point_data_value columns names point vars data : Rectangular data columns -> point_filters columns names point vars <> [] ->
  point_data columns (point_filters columns names point vars) data
    = Ok (filter (fun ix => ftests columns names point vars (snd ix)) (combine (seq 0 (length data)) data)).
Proof.
  intros R N. unfold point_data. destruct (point_filters columns names point vars) as [|f fs] eqn:E; [contradiction|].
  rewrite <- E. rewrite (mapM_map _ (ftests columns names point vars)).
  - cbn [bind]. rewrite mask_labels. reflexivity.
  - intros r Hr. rewrite passes_value; [rewrite filters_value; reflexivity|apply R; exact Hr|]. intros g Hg. eapply filters_columns. exact Hg.
Qed.
Lemma ftests_iff columns fields vars p r : length r = length columns ->
  Forall2 (fun nv v => exists l, MembersOf v l) fields p ->
  (ftests columns (map fst fields) p vars r = true <-> OfPoint columns fields vars p r).
Proof.
  intros L M. unfold ftests, OfPoint. rewrite andb_true_iff. apply Morphisms_Prop.and_iff_morphism.
  - induction M as [|[n vals] v fields p Mv M IH]; cbn [map combine forallb fst snd].
    + split; [constructor|reflexivity].
    + rewrite andb_true_iff, IH. rewrite (ptest_iff _ _ _ (HasMember v) _ L (fun c => isin_member v c Mv)).
      split; [intros [A B]; constructor; assumption|]. intro F. inversion F; subst. split; assumption.
  - destruct vars as [|v vars]; [split; [intros _ v rest c H; discriminate|reflexivity]|].
    assert (forall c, isin [WText v] c = true <-> c = CStr v) as W.
    { intro c. unfold isin. cbn [existsb]. rewrite orb_false_r. destruct c as [q| |s]; cbn [wanted_is]; [split; discriminate|split; discriminate|].
      rewrite String.eqb_eq. split; [intros ->; reflexivity|intros [= ->]; reflexivity]. }
    rewrite (ptest_iff _ _ _ _ _ L W). split; [intros H v' rest c [= <- <-]; apply H|]. intros H c. apply (H v vars c eq_refl).
Qed.
Lemma assoc_combine fields p v n : Combination fields p -> AggModel.assoc n (combine (map fst fields) p) = Some v ->
  exists vals, In (n, vals) fields /\ In v vals.
Proof.
  induction 1 as [|[m vals] w fields p H C IH]; cbn [map combine AggModel.assoc fst]; [discriminate|].
  destruct (String.eqb_spec m n) as [->|N].
  - intros [= ->]. exists vals. split; [left; reflexivity|exact H].
  - intro E. destruct (IH E) as (vals' & I & J). exists vals'. split; [right; exact I|exact J].
Qed.
Lemma fields_value rq fields : Fields rq fields -> all_fields_values rq = fields.
Proof.
  intros (N & [(I & ->)|(I & ->)]); unfold all_fields_values.
  - destruct (indy_vals rq) as [|v vs]; [contradiction|]. clear I. rewrite map_app in N. cbn [map fst] in N.
    rewrite (dict_set_new (indy_var rq)).
    + rewrite dict_set_new; [rewrite <- app_assoc; reflexivity|]. intro H. rewrite map_app in H. cbn [map fst] in H.
      change [indy_var rq; "stat_name"] with ([indy_var rq] ++ ["stat_name"])%list in N. rewrite app_assoc in N.
      apply NoDup_remove_2 in N. rewrite app_nil_r in N. contradiction.
    + intro H. apply NoDup_remove_2 in N. apply N. apply in_or_app. left. exact H.
  - rewrite I. rewrite dict_set_new; [reflexivity|]. rewrite map_app in N. cbn [map fst] in N. intro H. apply NoDup_remove_2 in N. rewrite app_nil_r in N. contradiction.
Qed.
Lemma combinations_product ls : combinations ls = product ls.
Proof. induction ls as [|l ls IH]; [reflexivity|]. cbn [combinations product]. rewrite IH, flat_map_concat_map. reflexivity. Qed.
Lemma small_char c : Small c (lower_char c).
Proof.
  unfold Small, lower_char. destruct (Nat.leb_spec 65 (nat_of_ascii c)); destruct (Nat.leb_spec (nat_of_ascii c) 90); cbn [andb]; split; intro H1; try lia; try reflexivity.
  rewrite Ascii.nat_ascii_embedding by lia. reflexivity.
Qed.
Lemma small_lower s : InSmallLetters s (lower s).
Proof. unfold InSmallLetters. induction s as [|c s IH]; cbn; constructor; [apply small_char|exact IH]. Qed.
Lemma small_fun s t : InSmallLetters s t -> t = lower s.
Proof.
  assert (forall c d, Small c d -> d = lower_char c) as G.
  { intros c d (A & B). pose proof (small_char c) as (A' & B'). destruct (Nat.le_gt_cases 65 (nat_of_ascii c)) as [X|X]; [destruct (Nat.le_gt_cases (nat_of_ascii c) 90) as [Y|Y]|].
    - rewrite <- (ascii_nat_embedding d), <- (ascii_nat_embedding (lower_char c)). rewrite A, A' by lia. reflexivity.
    - rewrite B, B' by lia. reflexivity.
    - rewrite B, B' by lia. reflexivity. }
  revert t. unfold InSmallLetters. induction s as [|c s IH]; intros [|d t] H; inversion H; subst; [reflexivity|]. cbn. rewrite <- (G c d) by assumption. f_equal. apply IH. assumption.
Qed.
Lemma point_split rq fields p : Fields rq fields -> Combination fields p -> exists before stat, p = (before ++ [stat])%list /\ In stat (list_stat rq).
Proof.
  intros (_ & F) C.
  assert (exists pre, fields = pre ++ [("stat_name", list_stat rq)])%list as [pre ->].
  { destruct F as [(_ & ->)|(_ & ->)]; [|eexists; reflexivity]. exists (series_val rq ++ [(indy_var rq, indy_vals rq)])%list. rewrite <- app_assoc. reflexivity. }
  unfold Combination in C. apply Forall2_app_inv_l in C. destruct C as (b & s & _ & S & ->). inversion S as [|? x ? ? X S']; subst. inversion S'; subst.
  exists b, x. split; [reflexivity|exact X].
Qed.
Lemma statistic_last stats before stat st : In stat stats -> statistic_of stats (before ++ [stat])%list st = lower stat.
Proof. intro H. unfold statistic_of. rewrite rev_app_distr. cbn [rev app find]. apply mem_iff in H. rewrite H. reflexivity. Qed.

Section Points.
Variables (e : engine) (single : bool) (line_type : string) (groups : list (string * string)) (columns : list string) (data : tdata) (rq : request) (fields : list (string * list string)).
Hypothesis HR : Rectangular data columns.
Hypothesis HF : Fields rq fields.
Hypothesis HP : Plain rq fields.
Let has_derived := match derived_series rq with [] => false | _ => true end.
Definition prows (p : list string) : tdata := filter (ftests columns (map fst fields) p (fcst_vars rq)) data.
Definition pfilters (p : list string) := point_filters columns (map fst fields) p (fcst_vars rq).
Definition pok (p : list string) : bool :=
  forallb (fun n => mem n columns) (map fst (series_val rq)) && match pfilters p with [] => false | _ => true end.
Lemma prows_selection p : Combination fields p -> Selection (OfPoint columns fields (fcst_vars rq) p) data (prows p).
Proof.
  intro C. apply selection_filter. intros r Hr. apply ftests_iff; [apply HR; exact Hr|].
  destruct HP as (M & _). clear - C M. induction C as [|[n vals] v fields p H C IH]; constructor.
  - apply (M n vals v); [left; reflexivity|exact H].
  - apply IH. intros n' vals' v' I J. apply (M n' vals' v'); [right; exact I|exact J].
Qed.
Lemma plain_value st p : Combination fields p -> pok p = true ->
  plain_point e single line_type columns data rq st p =
  (r <- get_bootstrapped_stats e single has_derived columns st (prows p) ;; Ok (r, length (prows p), hd_error (fcst_vars rq))).
Proof.
  intros C N. unfold pok in N. apply andb_prop in N. destruct N as [NS N]. unfold plain_point. rewrite (fields_value _ _ HF). rewrite NS. cbn [bind].
  assert (pfilters p <> []) as N' by (intro E; rewrite E in N; discriminate N). clear N. rename N' into N. rewrite (point_data_value _ _ _ _ _ HR N). cbn [bind].
  unfold join_values. destruct HP as (_ & SN & IN).
  assert (existsb (has_char ";") (map fst (series_val rq)) = false) as ->.
  { apply Bool.not_true_is_false. intro H. apply existsb_exists in H. destruct H as (n & Hn & H). apply has_char_iff in H. exact (SN n Hn H). }
  assert (forall l, match (if mem (indy_var rq) columns then AggModel.assoc (indy_var rq) (combine (map fst fields) p) else None) with
    | Some v => if has_char ";" v then SumModel.aggregate_field_values (dict_set (indy_var rq) [v] (series_val rq)) columns l line_type else Ok l
    | None => Ok l end = Ok l) as ->.
  { intro l. destruct (mem (indy_var rq) columns); [|reflexivity].
    destruct (AggModel.assoc (indy_var rq) (combine (map fst fields) p)) as [v|] eqn:E; [|reflexivity].
    destruct (assoc_combine _ _ _ _ C E) as (vals & I & J). pose proof (IN _ _ I J) as S. apply has_char_false in S. rewrite S. reflexivity. }
  cbn [bind]. rewrite map_snd_filter. fold (prows p). rewrite <- (map_length snd), map_snd_filter. fold (prows p). reflexivity.
Qed.
Lemma plain_keyerror st p : pok p = false -> plain_point e single line_type columns data rq st p = Err KeyError.
Proof.
  intro N. unfold plain_point. rewrite (fields_value _ _ HF). unfold pok, pfilters in N.
  destruct (forallb (fun n => mem n columns) (map fst (series_val rq))); [|reflexivity]. cbn [andb bind] in *.
  destruct (point_filters columns (map fst fields) p (fcst_vars rq)); [reflexivity|discriminate N].
Qed.
Lemma not_derived p : Combination fields p -> is_derived_point (Some p) = false.
Proof.
  intro C. apply Bool.not_true_is_false. intro H. apply derived_point_iff in H. destruct H as (c & Hc & D).
  destruct HP as (M & _). revert Hc. clear - C M D. induction C as [|[n vals] v fields p H C IH]; intros []; subst.
  - destruct (M n vals c (or_introl eq_refl) H) as (_ & X). contradiction.
  - apply IH; [|assumption]. intros n' vals' v' I J. apply (M n' vals' v'); [right; exact I|exact J].
Qed.
Definition plain_row (p : list string) (pr : point_result) : out_row :=
  OutRow (combine (map fst fields) p) (hd_error (fcst_vars rq)) (outcome pr) (length (prows p)).
(** The loop over points that are not derived. *)
Lemma loop_plain known rest : forall points st fv dist,
  Forall (fun p => Combination fields p) points ->
  points_loop e single line_type groups columns data rq known (points ++ rest) st fv dist =
  (prs <- mapM (fun p => if pok p then get_bootstrapped_stats e single has_derived columns (lower (last p "")) (prows p) else Err KeyError) points ;;
   out <- points_loop e single line_type groups columns data rq known rest (match points with [] => st | _ => lower (last (last points []) "") end)
            (match points with [] => fv | _ => Some (hd_error (fcst_vars rq)) end)
            (fold_left (fun d pr => dist_set (fst pr) (snd pr) d) (combine points prs) dist) ;;
   Ok (fst out, (map (fun pr => plain_row (fst pr) (snd pr)) (combine points prs) ++ snd out)%list)).
Proof.
  induction points as [|p points IH]; intros st fv dist HC.
  - cbn [app mapM bind combine fold_left map]. destruct (points_loop _ _ _ _ _ _ _ _ rest st fv dist) as [[a b]|]; reflexivity.
  - inversion HC as [|? ? Cp HC']; subst. cbn [app points_loop mapM]. rewrite (not_derived _ Cp).
    destruct (point_split _ _ _ HF Cp) as (before & stat & -> & Hs). rewrite (statistic_last _ before stat _ Hs). rewrite last_last.
    destruct (pok (before ++ [stat])) eqn:Ef; [|rewrite (plain_keyerror _ _ Ef); reflexivity].
    rewrite plain_value; [|exact Cp|exact Ef].
    destruct (get_bootstrapped_stats _ _ _ _ _ _) as [r|]; [|reflexivity]. cbn [bind]. rewrite (IH _ _ _ HC'). clear IH.
    destruct (mapM _ points) as [prs|] eqn:Em; [|reflexivity]. cbn [bind combine fold_left fst snd map app].
    assert ((match points with [] => lower stat | _ => lower (last (last points []) "") end) = lower (last (last ((before ++ [stat])%list :: points) []) "")) as <-.
    { destruct points; [cbn [last]; rewrite last_last; reflexivity|reflexivity]. }
    assert ((match points with [] => Some (hd_error (fcst_vars rq)) | _ => Some (hd_error (fcst_vars rq)) end) = Some (hd_error (fcst_vars rq))) as -> by (destruct points; reflexivity).
    destruct (points_loop _ _ _ _ _ _ _ _ rest _ _ _) as [[a b]|]; [|reflexivity]. cbn [bind fst snd]. rewrite (fields_value _ _ HF). reflexivity.
Qed.
Lemma row_of_point p pr : Combination fields p -> get_bootstrapped_stats e single has_derived columns (lower (last p "")) (prows p) = Ok pr ->
  RowOfPoint e single columns data rq fields p (plain_row p pr).
Proof.
  intros C G. split; [reflexivity|]. split.
  - cbn [plain_row fcst_var_of]. destruct (fcst_vars rq) as [|v vs]; [left; split; reflexivity|]. right. exists v, vs. split; reflexivity.
  - destruct (point_split _ _ _ HF C) as (before & stat & -> & Hs). rewrite last_last in G. exists before, stat, (lower stat), (prows (before ++ [stat])).
    split; [reflexivity|]. split; [apply small_lower|]. split; [apply prows_selection; exact C|]. split; [reflexivity|]. apply (gbs_sound _ _ _ _ _ _ _ G).
Qed.
End Points.

(* ---------- the whole axis without derived curves ---------- *)
Lemma combos_in fields : Forall (fun p => Combination fields p) (product (map snd fields)).
Proof. apply Forall_forall. intros p H. apply product_combination. exact H. Qed.
Lemma axis_plain e single line_type groups columns data rq fields st known :
  Rectangular data columns -> Fields rq fields -> Plain rq fields -> data <> [] -> derived_series rq = [] ->
  proceed_with_axis e single line_type groups columns data rq st known =
  (prs <- mapM (fun p => if pok columns rq fields p then get_bootstrapped_stats e single false columns (lower (last p "")) (prows columns data rq fields p) else Err KeyError)
            (product (map snd fields)) ;;
   Ok (match product (map snd fields) with [] => st | _ => lower (last (last (product (map snd fields)) []) "") end, known,
       map (fun pr => plain_row columns data rq fields (fst pr) (snd pr)) (combine (product (map snd fields)) prs))).
Proof.
  intros HR HF HP N D. unfold proceed_with_axis. destruct data as [|r0 data]; [contradiction|]. rewrite D. cbn [bind fst snd].
  rewrite (fields_value _ _ HF). rewrite (loop_plain _ _ _ _ _ _ _ _ HR HF HP _ []); [|apply combos_in]. rewrite D.
  destruct (mapM _ (product (map snd fields))) as [prs|]; [|reflexivity]. cbn [bind points_loop fst snd]. rewrite app_nil_r. reflexivity.
Qed.
Lemma forall2_combine {A B C} (R : A -> B -> Prop) (f : A -> B -> C) (T : A -> C -> Prop) l m : Forall2 R l m -> (forall a b, In a l -> R a b -> T a (f a b)) ->
  Forall2 T l (map (fun ab => f (fst ab) (snd ab)) (combine l m)).
Proof.
  induction 1 as [|a b l m H F IH]; intro G; cbn [combine map]; constructor.
  - apply G; [left; reflexivity|exact H].
  - apply IH. intros x y Hx. apply G. right. exact Hx.
Qed.

(* ---------- counting ---------- *)
Lemma sum_swap {A B} (f : A -> B -> bool) (la : list A) (lb : list B) :
  list_sum (map (fun a => length (filter (f a) lb)) la) = list_sum (map (fun b => length (filter (fun a => f a b) la)) lb).
Proof.
  induction lb as [|b lb IH].
  - cbn [filter length map list_sum fold_right]. induction la as [|a la IHa]; [reflexivity|]. cbn. exact IHa.
  - cbn [map list_sum fold_right]. change (fold_right Nat.add 0%nat) with list_sum. rewrite <- IH. clear IH. induction la as [|a la IHa]; [reflexivity|].
    cbn [map filter] in *. unfold list_sum in *. cbn [fold_right]. destruct (f a b); cbn [length]; lia.
Qed.
Lemma filter_map_len {A B} (f : B -> bool) (g : A -> B) l : length (filter f (map g l)) = length (filter (fun a => f (g a)) l).
Proof. induction l as [|a l IH]; [reflexivity|]. cbn [map filter]. destruct (f (g a)); cbn [length]; rewrite IH; reflexivity. Qed.
Lemma filter_flat_len {A B} (f : B -> bool) (g : A -> list B) l : length (filter f (flat_map g l)) = list_sum (map (fun a => length (filter f (g a))) l).
Proof. induction l as [|a l IH]; [reflexivity|]. cbn [flat_map map]. rewrite filter_app, app_length, IH. reflexivity. Qed.
Lemma count_product columns fields r :
  (forall n vals, In (n, vals) fields -> length (filter (fun v => ptest columns n (isin (filter_list v)) r) vals) =
                  if existsb (fun v => ptest columns n (isin (filter_list v)) r) vals then 1%nat else 0%nat) ->
  length (filter (fun p => forallb (fun nv => ptest columns (fst nv) (isin (filter_list (snd nv))) r) (combine (map fst fields) p)) (product (map snd fields)))
  = if forallb (fun nv => existsb (fun v => ptest columns (fst nv) (isin (filter_list v)) r) (snd nv)) fields then 1%nat else 0%nat.
Proof.
  induction fields as [|[n vals] fields IH]; intro H; [reflexivity|]. cbn [map product fst snd].
  rewrite filter_flat_len. pose proof (H n vals (or_introl eq_refl)) as Hn. specialize (IH (fun n' v' I => H n' v' (or_intror I))).
  set (c := length (filter (fun p => forallb (fun nv => ptest columns (fst nv) (isin (filter_list (snd nv))) r) (combine (map fst fields) p)) (product (map snd fields)))) in *.
  assert (forall l, list_sum (map (fun a => length (filter (fun p => forallb (fun nv => ptest columns (fst nv) (isin (filter_list (snd nv))) r) (combine (n :: map fst fields) p))
     (map (cons a) (product (map snd fields))))) l) = (length (filter (fun v => ptest columns n (isin (filter_list v)) r) l) * c)%nat) as E.
  { induction l as [|v l IHl]; [reflexivity|]. cbn [map list_sum fold_right filter]. change (fold_right Nat.add 0%nat) with list_sum. rewrite IHl, filter_map_len.
    cbn [combine forallb fst snd]. destruct (ptest columns n (isin (filter_list v)) r); cbn [andb length].
    - unfold c. lia.
    - replace (length (filter (fun _ => false) (product (map snd fields)))) with 0%nat; [lia|]. generalize (product (map snd fields)). intro q. induction q; [reflexivity|assumption]. }
  rewrite E, Hn, IH. cbn [forallb fst snd].
  destruct (existsb _ vals); destruct (forallb _ fields); reflexivity.
Qed.
Lemma count_one {A} (f : A -> bool) (l : list A) : NoDup l -> (forall a b, In a l -> In b l -> f a = true -> f b = true -> a = b) ->
  length (filter f l) = if existsb f l then 1%nat else 0%nat.
Proof.
  induction l as [|x l IH]; intros N U; [reflexivity|]. inversion N as [|? ? Nx Nl]; subst. cbn [filter existsb].
  destruct (f x) eqn:E; cbn [orb length].
  - f_equal. destruct (filter f l) as [|y m] eqn:F; [reflexivity|]. exfalso. assert (In y (filter f l)) as I by (rewrite F; left; reflexivity).
    apply filter_In in I. destruct I as [I J]. apply Nx. rewrite (U x y); [exact I|left; reflexivity|right; exact I|exact E|exact J].
  - apply IH; [exact Nl|]. intros a b Ia Ib. apply U; right; assumption.
Qed.
Lemma sum_indicator {A} (f : A -> bool) l : list_sum (map (fun a => if f a then 1%nat else 0%nat) l) = length (filter f l).
Proof. induction l as [|x l IH]; [reflexivity|]. cbn [map filter]. unfold list_sum in *. cbn [fold_right]. rewrite IH. destruct (f x); reflexivity. Qed.
Definition wtest (columns : list string) (fields : list (string * list string)) (vars : list string) (r : row) : bool :=
  forallb (fun nv => existsb (fun v => ptest columns (fst nv) (isin (filter_list v)) r) (snd nv)) fields &&
  match vars with v :: _ => ptest columns "fcst_var" (isin [WText v]) r | [] => true end.
Definition members_ok (fields : list (string * list string)) : Prop :=
  forall n vals v, In (n, vals) fields -> In v vals -> (exists l, MembersOf v l) /\ ~ DerivedName v.
Lemma cell_there columns n r : length r = length columns -> In n columns -> exists c, CellOf columns r n c.
Proof.
  intros L H. destruct (in_index _ _ H) as [i E]. destruct (nth_error r i) as [c|] eqn:N.
  - exists c. apply get_sound. unfold get. rewrite E. unfold cell_at. rewrite N. reflexivity.
  - exfalso. apply nth_error_None in N. pose proof (index_of_lt _ _ _ E). lia.
Qed.
Lemma cell_fun columns n r c c' : CellOf columns r n c -> CellOf columns r n c' -> c = c'.
Proof. intros A B. apply get_sound in A, B. congruence. Qed.
Lemma wtest_iff columns fields vars r : length r = length columns -> (forall n, In n (map fst fields) -> In n columns) -> members_ok fields ->
  (wtest columns fields vars r = true <-> Wanted columns fields vars r).
Proof.
  intros L HC M. unfold wtest, Wanted. rewrite andb_true_iff. apply Morphisms_Prop.and_iff_morphism.
  - rewrite forallb_forall, Forall_forall.
    assert (forall nv, In nv fields -> (existsb (fun v => ptest columns (fst nv) (isin (filter_list v)) r) (snd nv) = true <->
       (forall c, CellOf columns r (fst nv) c -> exists v, In v (snd nv) /\ HasMember v c))) as G.
    { intros [n vals] Hnv. cbn [fst snd]. rewrite existsb_exists. split.
      - intros (v & Hv & T) c Hc. exists v. split; [exact Hv|]. destruct (M n vals v Hnv Hv) as [Mv _].
        apply (proj1 (ptest_iff _ _ _ (HasMember v) _ L (fun c => isin_member v c Mv)) T). exact Hc.
      - intro H. destruct (cell_there columns n r L) as [c Hc]; [apply HC; apply in_map_iff; exists (n, vals); auto|].
        destruct (H c Hc) as (v & Hv & T). exists v. split; [exact Hv|]. destruct (M n vals v Hnv Hv) as [Mv _].
        apply (ptest_iff _ _ _ (HasMember v) _ L (fun c => isin_member v c Mv)). intros c' Hc'. rewrite (cell_fun _ _ _ _ _ Hc' Hc). exact T. }
    split; intros H nv Hnv; apply G; auto.
  - destruct vars as [|v vars]; [split; [intros _ v rest c H; discriminate|reflexivity]|].
    assert (forall c, isin [WText v] c = true <-> c = CStr v) as W.
    { intro c. unfold isin. cbn [existsb]. rewrite orb_false_r. destruct c as [q| |s]; cbn [wanted_is]; [split; discriminate|split; discriminate|].
      rewrite String.eqb_eq. split; [intros ->; reflexivity|intros [= ->]; reflexivity]. }
    rewrite (ptest_iff _ _ _ _ _ L W). split; [intros H v' rest c [= <- <-]; apply H|]. intros H c. apply (H v vars c eq_refl).
Qed.
Lemma wtest_count columns fields vars r : length r = length columns -> (forall n, In n (map fst fields) -> In n columns) -> Apart fields -> members_ok fields ->
  length (filter (fun p => ftests columns (map fst fields) p vars r) (product (map snd fields))) = if wtest columns fields vars r then 1%nat else 0%nat.
Proof.
  intros L HC HA M. unfold ftests, wtest.
  destruct (match vars with v :: _ => ptest columns "fcst_var" (isin [WText v]) r | [] => true end).
  - rewrite andb_true_r. rewrite <- count_product.
    + f_equal. apply filter_ext. intro p. apply andb_true_r.
    + intros n vals Hn. destruct (HA n vals Hn) as [ND U]. apply count_one; [exact ND|]. intros a b Ia Ib Ta Tb.
      destruct (cell_there columns n r L) as [c Hc]; [apply HC; apply in_map_iff; exists (n, vals); auto|].
      destruct (M n vals a Hn Ia) as [Ma _]. destruct (M n vals b Hn Ib) as [Mb _]. apply (U a b c Ia Ib).
      * apply (proj1 (ptest_iff _ _ _ (HasMember a) _ L (fun c => isin_member a c Ma)) Ta). exact Hc.
      * apply (proj1 (ptest_iff _ _ _ (HasMember b) _ L (fun c => isin_member b c Mb)) Tb). exact Hc.
  - rewrite andb_false_r. rewrite (filter_ext _ (fun _ => false)) by (intro; apply andb_false_r).
    generalize (product (map snd fields)). intro q. induction q; [reflexivity|assumption].
Qed.
Lemma pfilters_some columns rq fields p : Combination fields p ->
  ((exists n, In n (map fst fields) /\ In n columns) \/ (fcst_vars rq <> [] /\ In "fcst_var" columns)) ->
  match pfilters columns rq fields p with [] => false | _ => true end = true.
Proof.
  intros C H. assert (exists f, In f (pfilters columns rq fields p)) as [f Hf].
  { unfold pfilters, point_filters. destruct H as [(n & Hn & Hc)|(V & Hc)].
    - assert (exists v, In (n, v) (combine (map fst fields) p)) as [v Hv].
      { clear Hc. induction C as [|[m vals] w fields p H C IH]; [destruct Hn|]. cbn [map combine fst] in *.
        destruct Hn as [->|Hn]; [exists w; left; reflexivity|]. destruct (IH Hn) as [v Hv]. exists v. right. exact Hv. }
      exists (n, filter_list v). apply in_or_app. left. apply in_flat_map. exists (n, v). split; [exact Hv|]. cbn [fst snd]. apply mem_iff in Hc. rewrite Hc. left. reflexivity.
    - destruct (fcst_vars rq) as [|v vs]; [contradiction|]. eexists. apply in_or_app. right. apply mem_iff in Hc. rewrite Hc. left. reflexivity. }
  destruct (pfilters columns rq fields p); [destruct Hf|reflexivity].
Qed.
Lemma mapM_total {A B} (f : A -> res B) l : (forall x, In x l -> exists y, f x = Ok y) -> exists ys, mapM f l = Ok ys.
Proof.
  induction l as [|x l IH]; intro H; [exists []; reflexivity|]. destruct (H x (or_introl eq_refl)) as [y E]. destruct IH as [ys Es]; [intros z Hz; apply H; right; exact Hz|].
  exists (y :: ys). cbn [mapM]. rewrite E. cbn [bind]. rewrite Es. reflexivity.
Qed.
(* ---------- characters of numbers, checks for examples ---------- *)
Lemma whole_char v z : WholeNumber v z -> forall a, Has a v -> Digit a \/ a = "+"%char \/ a = "-"%char \/ a = "."%char.
Proof.
  intros (n & s & [_ D] & H) a Ha. rewrite Forall_forall in D. destruct H as [[-> _]|[[-> _]|[-> _]]].
  - left. apply D. exact Ha.
  - destruct Ha as [<-|Ha]; [right; left; reflexivity|left; apply D; exact Ha].
  - destruct Ha as [<-|Ha]; [right; right; left; reflexivity|left; apply D; exact Ha].
Qed.
Lemma decimal_char v q : Decimal v q -> forall a, Has a v -> Digit a \/ a = "+"%char \/ a = "-"%char \/ a = "."%char.
Proof.
  intros (x & y & [_ Dx] & [_ Dy] & _ & H) a Ha. rewrite Forall_forall in Dx, Dy.
  assert (Has a (x ++ "." ++ y) -> Digit a \/ a = "+"%char \/ a = "-"%char \/ a = "."%char) as G.
  { unfold Has. rewrite la_app. intro I. apply in_app_or in I. destruct I as [I|[<-|I]]; [left; apply Dx; exact I|tauto|left; apply Dy; exact I]. }
  destruct H as [[-> _]|[-> _]]; [exact (G Ha)|]. destruct Ha as [<-|Ha]; [tauto|exact (G Ha)].
Qed.
Definition plain_ok (rq : request) (fields : list (string * list string)) : bool :=
  forallb (fun nv => forallb (fun v => negb (has_char ":" v) && negb (has_char ";" v) && negb (is_derived_point (Some [v]))) (snd nv)) fields &&
  forallb (fun n => negb (has_char ";" n)) (map fst (series_val rq)).
Lemma plain_check rq fields : plain_ok rq fields = true -> Plain rq fields.
Proof.
  unfold plain_ok. rewrite andb_true_iff, !forallb_forall. intros [A B].
  assert (forall n vals v, In (n, vals) fields -> In v vals -> ~ Has ":" v /\ ~ Has ";" v /\ ~ DerivedName v) as G.
  { intros n vals v Hn Hv. specialize (A _ Hn). cbn [snd] in A. rewrite forallb_forall in A. specialize (A _ Hv).
    apply andb_prop in A. destruct A as [A D]. apply andb_prop in A. destruct A as [C S].
    apply negb_true_iff in C, S, D. apply has_char_false in C, S. split; [exact C|]. split; [exact S|]. intro N.
    assert (is_derived_point (Some [v]) = true) as X by (apply derived_point_iff; exists v; split; [left; reflexivity|exact N]). congruence. }
  split; [|split].
  - intros n vals v Hn Hv. destruct (G _ _ _ Hn Hv) as (C & S & D). split; [|exact D]. exists [v]. right. right. split; [exact C|]. split; [exact S|reflexivity].
  - intros n Hn. specialize (B _ Hn). apply negb_true_iff in B. apply has_char_false. exact B.
  - intros vals v Hn Hv. apply (G _ _ _ Hn Hv).
Qed.
Definition same_wanted (a b : wanted) : bool :=
  match a, b with WNum x, WNum y => Qeq_bool x y | WText x, WText y => String.eqb x y | _, _ => false end.
Fixpoint nodup_text (l : list string) : bool := match l with [] => true | x :: t => negb (mem x t) && nodup_text t end.
Lemma nodup_text_iff l : nodup_text l = true -> NoDup l.
Proof.
  induction l as [|x l IH]; intro H; constructor; cbn in H; apply andb_prop in H; destruct H as [A B]; [|auto].
  apply negb_true_iff, mem_false in A. exact A.
Qed.
Definition apart_ok (fields : list (string * list string)) : bool :=
  forallb (fun nv => nodup_text (snd nv) && forallb (fun v => negb (has_char ":" v) && negb (has_char ";" v) &&
    forallb (fun w => String.eqb v w || negb (same_wanted (want v) (want w))) (snd nv)) (snd nv)) fields.
Lemma apart_check fields : apart_ok fields = true -> Apart fields.
Proof.
  unfold apart_ok. rewrite forallb_forall. intros A n vals Hn. specialize (A _ Hn). cbn [snd] in A. apply andb_prop in A. destruct A as [ND A].
  split; [apply nodup_text_iff; exact ND|]. rewrite forallb_forall in A.
  assert (forall v, In v vals -> exists l, MembersOf v l) as M.
  { intros v Hv. specialize (A v Hv). apply andb_prop in A. destruct A as [A _]. apply andb_prop in A. destruct A as [C S].
    apply negb_true_iff in C, S. apply has_char_false in C, S. exists [v]. right. right. auto. }
  assert (forall v, In v vals -> filter_list v = [want v]) as FL.
  { intros v Hv. specialize (A v Hv). apply andb_prop in A. destruct A as [A _]. apply andb_prop in A. destruct A as [C S].
    apply negb_true_iff in C, S. unfold filter_list. rewrite C, S. reflexivity. }
  intros v w c Hv Hw Cv Cw. apply (isin_member v c (M v Hv)) in Cv. apply (isin_member w c (M w Hw)) in Cw.
  rewrite (FL v Hv) in Cv. rewrite (FL w Hw) in Cw. unfold isin in Cv, Cw. cbn [existsb] in Cv, Cw. rewrite orb_false_r in Cv, Cw.
  pose proof (A v Hv) as Av. apply andb_prop in Av. destruct Av as [_ Av]. rewrite forallb_forall in Av. specialize (Av w Hw).
  destruct (String.eqb_spec v w) as [->|D]; [reflexivity|]. cbn [orb] in Av. apply negb_true_iff in Av. exfalso.
  assert (same_wanted (want v) (want w) = true); [|congruence]. destruct (want v), (want w), c; cbn [wanted_is same_wanted] in *; try discriminate.
  - apply Qeq_bool_iff in Cv, Cw. apply Qeq_bool_iff. rewrite <- Cv. exact Cw.
  - apply String.eqb_eq in Cv, Cw. apply String.eqb_eq. congruence.
Qed.
Definition kind_ok (columns : list string) (rows : tdata) (n : string) : bool :=
  forallb (fun r => match get columns r n with Ok (CStr _) => false | _ => true end) rows ||
  forallb (fun r => match get columns r n with Ok (CNum _) => false | _ => true end) rows.
Lemma kind_check columns rows n : kind_ok columns rows n = true -> OneKind columns rows n.
Proof.
  unfold kind_ok. rewrite orb_true_iff, !forallb_forall. intros [H|H]; [left|right]; intros r c Hr Hc; apply get_sound in Hc; specialize (H r Hr); rewrite Hc in H;
    destruct c; try discriminate H; eauto.
Qed.

(* ---------- derived series ---------- *)
Lemma words_split a w : Words a w -> split_on " " a = w.
Proof. intros (N & -> & F). apply split_joined; assumption. Qed.
Lemma first_difference_value w1 w2 x y : FirstDifference w1 w2 x y -> first_difference w1 w2 = Ok (Some (x, y)).
Proof.
  intros (before & r1 & r2 & (-> & ->) & D). induction before as [|z before IH]; cbn [app first_difference].
  - destruct (String.eqb_spec x y); [contradiction|reflexivity].
  - rewrite String.eqb_refl. exact IH.
Qed.
Lemma operation_variable_value series w1 w2 var : OperationVariable series w1 w2 var ->
  exists differ, first_difference w1 w2 = Ok differ /\ operation_variable series differ = Ok var.
Proof.
  intros (x & y & before & vals & after & F & -> & B & H). exists (Some (x, y)). split; [apply first_difference_value; exact F|].
  unfold operation_variable. destruct (rev (before ++ (var, vals) :: after)) as [|[l lv] rs] eqn:E.
  { exfalso. apply (f_equal (@length _)) in E. rewrite rev_length, app_length in E. cbn in E. lia. }
  f_equal. cbn [snd] in H. destruct H as [(Hx & Hy)|(N & ->)].
  - assert (find (fun nv => mem x (snd nv) && mem y (snd nv)) (before ++ (var, vals) :: after) = Some (var, vals)) as ->; [|reflexivity].
    clear E. induction B as [|nv before N B IH]; cbn [app find].
    + cbn [snd]. apply mem_iff in Hx, Hy. rewrite Hx, Hy. reflexivity.
    + destruct (mem x (snd nv) && mem y (snd nv)) eqn:E; [|exact IH]. exfalso. apply N. apply andb_prop in E. rewrite <- !mem_iff. exact E.
  - rewrite rev_app_distr in E. cbn in E. injection E as <- <- _.
    assert (find (fun nv => mem x (snd nv) && mem y (snd nv)) (before ++ [(var, vals)]) = None) as ->; [|reflexivity].
    induction B as [|nv before Nv B IH]; cbn [app find].
    + cbn [snd]. destruct (mem x vals && mem y vals) eqn:E; [|reflexivity]. exfalso. apply N. apply andb_prop in E. rewrite <- !mem_iff. exact E.
    + destruct (mem x (snd nv) && mem y (snd nv)) eqn:E; [|exact IH]. exfalso. apply Nv. apply andb_prop in E. rewrite <- !mem_iff. exact E.
Qed.
Lemma curve_name_value a b op name : CurveName a b op name -> get_derived_curve_name [a; b; op] = Ok name.
Proof.
  intros (sign & H & ->). cbn [In] in H. unfold get_derived_curve_name.
  repeat (destruct H as [H|H]; [injection H as <- <-; reflexivity|]). destruct H.
Qed.
Lemma curve_name_derived a b op name : CurveName a b op name -> In op operations -> DerivedName name.
Proof. intros (sign & _ & ->) H. exists op. eexists. split; [exact H|]. left. reflexivity. Qed.
Lemma derived_points_value rq d op w1 w2 name var fields : Fields rq fields -> DerivedSeries rq d op w1 w2 name var ->
  exists lists, DerivedFields rq w1 w2 name var lists /\
    derived_points_of (series_val rq) (indy_var rq) (indy_vals rq) d = Ok (name, DerivedComponent w1 w2 op, product lists).
Proof.
  intros (ND & FC) (a & b & -> & Hop & W1 & W2 & CN & OV & NW).
  unfold derived_points_of. rewrite (words_split _ _ W1), (words_split _ _ W2).
  destruct (operation_variable_value _ _ _ _ OV) as (differ & -> & E). cbn [bind]. rewrite E. cbn [bind]. rewrite (curve_name_value _ _ _ _ CN). cbn [bind].
  set (red := map (fun nv : string * list string => if (fst nv =? var)%string then (fst nv, [name]) else (fst nv, filter (fun v => mem v w1) (snd nv))) (series_val rq)).
  assert (map fst red = map fst (series_val rq)) as Fst.
  { unfold red. rewrite map_map. apply map_ext. intro nv. destruct (fst nv =? var)%string; reflexivity. }
  assert (Forall2 (fun nv l => (fst nv = var /\ l = [name]) \/ (fst nv <> var /\ Selection (fun v => In v w1) (snd nv) l)) (series_val rq) (map snd red)) as Sel.
  { unfold red. rewrite map_map. clear. induction (series_val rq) as [|nv l IH]; cbn [map]; constructor; [|exact IH].
    destruct (String.eqb_spec (fst nv) var) as [->|N]; cbn [snd]; [left; auto|right]. split; [exact N|]. apply selection_filter. intros v _. apply mem_iff. }
  set (stat := if (last w1 "" =? last w2 "")%string then last w1 "" else last w1 "" ++ "," ++ last w2 "").
  assert (DerivedStatistic w1 w2 stat) as St.
  { unfold stat. destruct (String.eqb_spec (last w1 "") (last w2 "")); [left|right]; auto. }
  change (last [a; b; op] "") with op.
  destruct FC as [(I & Ef)|(I & Ef)].
  - destruct (indy_vals rq) as [|v vs] eqn:Ei; [contradiction|]. rewrite Ef in ND. rewrite map_app in ND. cbn [map fst] in ND.
    rewrite (dict_set_new (indy_var rq)).
    + rewrite dict_set_new.
      * exists (map snd red ++ [(v :: vs); [stat]])%list. split.
        -- exists (map snd red), stat. split; [exact Sel|]. split; [exact St|]. right. split; [rewrite Ei; discriminate|rewrite Ei; reflexivity].
        -- rewrite !map_app, <- app_assoc. reflexivity.
      * rewrite map_app, Fst. cbn [map fst]. change [indy_var rq; "stat_name"] with ([indy_var rq] ++ ["stat_name"])%list in ND. rewrite app_assoc in ND.
        apply NoDup_remove_2 in ND. rewrite app_nil_r in ND. exact ND.
    + rewrite Fst. intro H. apply NoDup_remove_2 in ND. apply ND. apply in_or_app. left. exact H.
  - rewrite I. rewrite Ef in ND. rewrite map_app in ND. cbn [map fst] in ND. rewrite dict_set_new.
    + exists (map snd red ++ [[stat]])%list. split.
      * exists (map snd red), stat. split; [exact Sel|]. split; [exact St|]. left. auto.
      * rewrite !map_app. reflexivity.
    + rewrite Fst. intro H. apply NoDup_remove_2 in ND. rewrite app_nil_r in ND. contradiction.
Qed.
Notation dresult := (string * derived_component * list (list string))%type.
Definition remember (known : list (string * derived_component)) (x : dresult) : list (string * derived_component) :=
  dict_set (fst (fst x)) (snd (fst x)) known.
Lemma get_derived_value series indy ivals ds : forall known xs, Forall2 (fun d x => derived_points_of series indy ivals d = Ok x) ds xs ->
  get_derived_points series indy ivals ds known = Ok (fold_left remember xs known, concat (map snd xs)).
Proof.
  induction ds as [|d ds IH]; intros known xs F; inversion F as [|? x ? xs' E F']; subst; [reflexivity|].
  cbn [get_derived_points]. rewrite E. cbn [bind]. rewrite (IH _ _ F'). reflexivity.
Qed.
Lemma lookup_set_same {A} k (v : A) d : lookup k (dict_set k v d) = Ok v.
Proof.
  induction d as [|[k' w] d IH]; cbn [dict_set lookup]; [rewrite String.eqb_refl; reflexivity|].
  destruct (String.eqb_spec k' k) as [->|N]; cbn [lookup]; [rewrite String.eqb_refl; reflexivity|].
  destruct (String.eqb_spec k' k); [contradiction|exact IH].
Qed.
Lemma lookup_set_other {A} k k' (v : A) d : k' <> k -> lookup k (dict_set k' v d) = lookup k d.
Proof.
  intro N. induction d as [|[j w] d IH]; cbn [dict_set lookup].
  - destruct (String.eqb_spec k' k); [contradiction|reflexivity].
  - destruct (String.eqb_spec j k') as [->|M]; cbn [lookup].
    + destruct (String.eqb_spec k' k); [contradiction|reflexivity].
    + destruct (String.eqb_spec j k); [reflexivity|exact IH].
Qed.
Lemma lookup_remember xs : forall known (x : dresult), (In x xs \/ lookup (fst (fst x)) known = Ok (snd (fst x))) ->
  (forall y, In y xs -> fst (fst y) = fst (fst x) -> snd (fst y) = snd (fst x)) ->
  lookup (fst (fst x)) (fold_left remember xs known) = Ok (snd (fst x)).
Proof.
  induction xs as [|y xs IH]; intros known x H U; cbn [fold_left].
  - destruct H as [[]|H]. exact H.
  - apply IH; [|intros z Hz; apply U; right; exact Hz].
    destruct (string_dec (fst (fst y)) (fst (fst x))) as [E|E].
    + right. unfold remember. rewrite E. rewrite (U y (or_introl eq_refl) E). apply lookup_set_same.
    + destruct H as [[->|H]|H]; [contradiction|left; exact H|right]. unfold remember. rewrite lookup_set_other by exact E. exact H.
Qed.

(** The name of the curve is found among the components. *)
Lemma starts_derived op c : In op (map fst OPERATION_TO_SIGN) -> starts_with (op ++ "(") c || starts_with (op ++ " (") c = true -> DerivedName c.
Proof.
  intros Hop H. assert (is_derived_point (Some [c]) = true) as X.
  { unfold is_derived_point. apply existsb_exists. exists op. split; [exact Hop|]. cbn [existsb]. rewrite H. reflexivity. }
  apply derived_point_iff in X. destruct X as (c' & [<-|[]] & D). exact D.
Qed.
Lemma derived_name_value series name : In name series -> DerivedName name -> (forall c, In c series -> DerivedName c -> c = name) ->
  derived_name series = name.
Proof.
  intros Hn HD HU. unfold derived_name.
  assert (exists op, In op (map fst OPERATION_TO_SIGN) /\ starts_with (op ++ "(") name || starts_with (op ++ " (") name = true) as (op & Hop & Hs).
  { assert (is_derived_point (Some [name]) = true) as X by (apply derived_point_iff; exists name; split; [left; reflexivity|exact HD]).
    unfold is_derived_point in X. apply existsb_exists in X. destruct X as (op & Hop & X). cbn [existsb] in X. rewrite orb_false_r in X. exists op. auto. }
  assert (forall ops acc, incl ops (map fst OPERATION_TO_SIGN) -> (In op ops \/ acc = name) ->
    fold_left (fun acc op => match find (fun c => starts_with (op ++ "(") c || starts_with (op ++ " (") c) series with Some c => c | None => acc end) ops acc = name) as G.
  { induction ops as [|o ops IH]; intros acc I H; cbn [fold_left]; [destruct H as [[]|H]; exact H|].
    apply IH; [intros z Hz; apply I; right; exact Hz|].
    destruct (find (fun c => starts_with (o ++ "(") c || starts_with (o ++ " (") c) series) as [c|] eqn:E.
    - right. apply find_some in E. destruct E as [Ec E]. apply HU; [exact Ec|]. eapply starts_derived; [|exact E]. apply I. left. reflexivity.
    - destruct H as [[->|H]|H]; [|left; exact H|right; exact H]. exfalso. pose proof (find_none _ _ E name Hn) as X. cbv beta in X. congruence. }
  apply G; [apply incl_refl|left; exact Hop].
Qed.
Lemma comma_derived s t : ~ DerivedName s -> ~ DerivedName (s ++ "," ++ t).
Proof.
  intros N (op & rest & Hop & H).
  assert (forall pre : string, ~ Has "," pre -> (exists r, s ++ "," ++ t = pre ++ r) -> exists r, s = pre ++ r) as G.
  { clear. intros pre. revert s. induction pre as [|c pre IH]; intros s NP [r E]; [exists s; reflexivity|].
    destruct s as [|d s]; cbn in E.
    - injection E as <- _. exfalso. apply NP. left. reflexivity.
    - injection E as <- E. destruct (IH s) as [r' ->]; [intro X; apply NP; right; exact X|exists r; exact E|]. exists r'. reflexivity. }
  apply N. exists op.
  assert (forall x : string, x = "(" \/ x = " (" -> ~ Has "," (op ++ x)) as NC.
  { intros x Hx. cbn [operations In] in Hop. unfold operations in Hop. cbn [In] in Hop.
    repeat (destruct Hop as [<-|Hop]; [destruct Hx as [->| ->]; unfold Has; cbn; intuition discriminate|]). destruct Hop. }
  destruct H as [H|H].
  - destruct (G (op ++ "(")) as [r ->]; [apply NC; auto|exists rest; rewrite H, str_app_assoc; reflexivity|]. exists r. split; [exact Hop|]. left. rewrite str_app_assoc. reflexivity.
  - destruct (G (op ++ " (")) as [r ->]; [apply NC; auto|exists rest; rewrite H, str_app_assoc; reflexivity|]. exists r. split; [exact Hop|]. right. rewrite str_app_assoc. reflexivity.
Qed.
Lemma derived_fields_name rq fields d op w1 w2 name var lists dp : Fields rq fields -> Plain rq fields -> DerivedSeries rq d op w1 w2 name var ->
  DerivedFields rq w1 w2 name var lists -> In dp (product lists) ->
  In name dp /\ (forall c, In c dp -> DerivedName c -> c = name) /\ exists before stat, dp = (before ++ [stat])%list /\ DerivedStatistic w1 w2 stat.
Proof.
  intros HF HP (a & b & _ & Hop & (W1 & _) & (W2 & _) & CN & OV & NW) (ser & stat & Sel & St & L) Hdp.
  apply product_iff in Hdp.
  assert (exists mid, lists = ser ++ mid ++ [[stat]] /\ (mid = [] \/ mid = [indy_vals rq] /\ indy_vals rq <> []))%list as (mid & -> & Hmid).
  { destruct L as [(I & ->)|(I & ->)]; [exists []; auto|exists [indy_vals rq]; auto]. }
  apply Forall2_app_inv_l in Hdp. destruct Hdp as (ps & q & Fs & Fq & ->).
  apply Forall2_app_inv_l in Fq. destruct Fq as (pm & q' & Fm & Fq & ->). inversion Fq as [|? st ? rest Hst Fn]; subst. destruct Hst as [<-|[]]. inversion Fn; subst.
  assert (forall n vals v, In (n, vals) (series_val rq) -> In v vals -> ~ DerivedName v) as PS.
  { intros n vals v I J. destruct HP as (M & _). refine (proj2 (M n vals v _ J)). destruct HF as (_ & [(_ & ->)|(_ & ->)]); apply in_or_app; left; exact I. }
  assert (forall v, indy_vals rq <> [] -> In v (indy_vals rq) -> ~ DerivedName v) as PI.
  { intros v I J. destruct HP as (M & _). refine (proj2 (M (indy_var rq) (indy_vals rq) v _ J)). destruct HF as (_ & [(_ & ->)|(I' & _)]); [apply in_or_app; right; left; reflexivity|contradiction]. }
  assert (forall x w, w <> [] -> Forall (fun z => ~ DerivedName z) w -> x = last w "" -> ~ DerivedName x) as LastN.
  { intros x w Nw F ->. rewrite Forall_forall in F. apply F. destruct w as [|z w] using rev_ind; [contradiction|]. rewrite last_last. apply in_or_app. right. left. reflexivity. }
  apply Forall_app in NW. destruct NW as [NW1 NW2].
  assert (~ DerivedName stat) as NS.
  { destruct St as [(_ & ->)|(_ & ->)]; [eapply LastN; [exact W1|exact NW1|reflexivity]|]. apply comma_derived. eapply LastN; [exact W1|exact NW1|reflexivity]. }
  assert (forall c, In c ps -> DerivedName c -> c = name) as U1.
  { intros c Hc D. clear - Sel Fs Hc D PS. revert ps Fs Hc. induction Sel as [|[n vals] l series ser [(E & ->)|(E & S)] Sel IH]; intros ps Fs Hc; inversion Fs as [|? v ? ps' Hv Fs']; subst; [destruct Hc| |].
    - destruct Hc as [<-|Hc]; [destruct Hv as [<-|[]]; reflexivity|]. eapply IH; [|exact Fs'|exact Hc]. intros n' v' w I J. apply (PS n' v' w); [right; exact I|exact J].
    - destruct Hc as [<-|Hc].
      + exfalso. cbn [snd] in S. apply (PS n vals v); [left; reflexivity| |exact D]. eapply selection_in in Hv; [|exact S]. apply Hv.
      + eapply IH; [|exact Fs'|exact Hc]. intros n' v' w I J. apply (PS n' v' w); [right; exact I|exact J]. }
  assert (In name ps) as I1.
  { destruct OV as (x & y & bf & vals & af & _ & Es & _). rewrite Es in Sel. apply Forall2_app_inv_l in Sel. destruct Sel as (s1 & s2 & _ & Sel & ->).
    inversion Sel as [|? l ? s3 Hl Sel']; subst. cbn [fst] in Hl. destruct Hl as [(_ & ->)|(N & _)]; [|contradiction].
    apply Forall2_app_inv_l in Fs. destruct Fs as (q1 & q2 & _ & Fs & ->). inversion Fs as [|? v ? ? Hv]; subst. destruct Hv as [<-|[]]. apply in_or_app. right. left. reflexivity. }
  split; [apply in_or_app; left; exact I1|]. split.
  - intros c Hc D. apply in_app_or in Hc. destruct Hc as [Hc|Hc]; [apply U1; assumption|]. exfalso. apply in_app_or in Hc. destruct Hc as [Hc|[<-|[]]]; [|contradiction].
    destruct Hmid as [->|(-> & N)]; inversion Fm as [|? v ? ? Hv Fm']; subst; [destruct Hc|]. inversion Fm'; subst. destruct Hc as [<-|[]]. exact (PI v N Hv D).
  - exists (ps ++ pm)%list, stat. rewrite app_assoc. auto.
Qed.

Lemma loop_derived e single line_type groups columns data rq known : forall dps st fv dist st' out,
  Forall (fun dp => is_derived_point (Some dp) = true) dps ->
  points_loop e single line_type groups columns data rq known dps st fv dist = Ok (st', out) ->
  Forall2 (fun dp o => exists st r f, fv = Some f /\
      get_bootstrapped_stats_for_derived e single columns groups known st dp dist = Ok r /\
      o = OutRow (combine (map fst (all_fields_values rq)) dp) f r 0 /\
      (In (last dp "") (list_stat rq) -> st = lower (last dp ""))) dps out.
Proof.
  induction dps as [|dp dps IH]; intros st fv dist st' out D H; cbn [points_loop] in H.
  - injection H as <- <-. constructor.
  - inversion D as [|? ? D1 D2]; subst. rewrite D1 in H.
    destruct (get_bootstrapped_stats_for_derived e single columns groups known (statistic_of (list_stat rq) dp st) dp dist) as [r|] eqn:G; [|discriminate H].
    cbn [bind] in H. destruct fv as [f|]; [|discriminate H].
    destruct (points_loop e single line_type groups columns data rq known dps (statistic_of (list_stat rq) dp st) (Some f) dist) as [[s' o']|] eqn:L; [|discriminate H].
    cbn [bind fst snd] in H. injection H as <- <-. constructor; [|eapply IH; eassumption].
    exists (statistic_of (list_stat rq) dp st), r, f. split; [reflexivity|]. split; [exact G|]. split; [reflexivity|].
    intro I. destruct dp as [|c dp _] using rev_ind; [discriminate D1|]. rewrite last_last in *. apply statistic_last. exact I.
Qed.

(** The results that are remembered for the points. *)
Lemma dist_set_in {A} p (r : A) d k x : (forall k x, In (k, x) d -> k = p -> x = r) ->
  (In (k, x) (dist_set p r d) <-> In (k, x) d \/ (k = p /\ x = r)).
Proof.
  induction d as [|[j y] d IH]; intro U; cbn [dist_set].
  - split; [intros [[= <- <-]|[]]; auto|intros [[]|[-> ->]]; left; reflexivity].
  - destruct (list_eq_dec string_dec j p) as [->|N].
    + rewrite (U p y (or_introl eq_refl) eq_refl). split; [intro H; left; exact H|]. intros [H|[-> ->]]; [exact H|left; reflexivity].
    + cbn [In]. rewrite IH; [tauto|]. intros k' x' H. apply U. right. exact H.
Qed.
Lemma dist_entries {A} (f : list string -> res A) : forall pts prs d, Forall2 (fun p pr => f p = Ok pr) pts prs ->
  (forall k x, In (k, x) d -> f k = Ok x) ->
  forall k x, In (k, x) (fold_left (fun d pr => dist_set (fst pr) (snd pr) d) (combine pts prs) d) <-> In (k, x) d \/ (In k pts /\ f k = Ok x).
Proof.
  induction pts as [|p pts IH]; intros prs d F U k x; inversion F as [|? pr ? prs' E F']; subst; cbn [combine fold_left fst snd].
  - cbn [In]. tauto.
  - assert (forall k x, In (k, x) d -> k = p -> x = pr) as U' by (intros k' x' H ->; apply U in H; congruence).
    rewrite (IH _ _ F').
    + rewrite (dist_set_in _ _ _ _ _ U'). cbn [In]. split.
      * intros [[H|[-> ->]]|[H G]]; [left; exact H|right; auto|right; auto].
      * intros [H|[[->|H] G]]; [auto| |auto]. left. right. split; [reflexivity|congruence].
    + intros k' x' H. apply (dist_set_in _ _ _ _ _ U') in H. destruct H as [H|[-> ->]]; [apply U; exact H|exact E].
Qed.
Lemma find_pair_value {A} perm1 perm2 (r1 r2 : A) : forall dist d1 d2,
  (forall k x, In (k, x) dist -> forallb (fun c => mem c perm1) k = true -> x = r1) ->
  (forall k x, In (k, x) dist -> forallb (fun c => mem c perm2) k = true -> x = r2) ->
  ((d1 = None /\ exists k, In (k, r1) dist /\ forallb (fun c => mem c perm1) k = true) \/ d1 = Some r1) ->
  ((d2 = None /\ exists k, In (k, r2) dist /\ forallb (fun c => mem c perm2) k = true) \/ d2 = Some r2) ->
  (d1 = None \/ d2 = None \/ dist = []) ->
  find_pair dist perm1 perm2 d1 d2 = (Some r1, Some r2).
Proof.
  induction dist as [|[k x] dist IH]; intros d1 d2 U1 U2 E1 E2 N; cbn [find_pair].
  - destruct E1 as [(_ & k & [] & _)| ->]. destruct E2 as [(_ & k & [] & _)| ->]. reflexivity.
  - assert (forall perm r d, (forall k' x', In (k', x') ((k, x) :: dist) -> forallb (fun c => mem c perm) k' = true -> x' = r) ->
      ((d = None /\ exists k', In (k', r) ((k, x) :: dist) /\ forallb (fun c => mem c perm) k' = true) \/ d = Some r) ->
      let d' := if forallb (fun c => mem c perm) k then Some x else d in
      (d' = None /\ exists k', In (k', r) dist /\ forallb (fun c => mem c perm) k' = true) \/ d' = Some r) as G.
    { clear. intros perm r d U E. cbv zeta. destruct (forallb (fun c => mem c perm) k) eqn:M.
      - right. f_equal. apply (U k x); [left; reflexivity|exact M].
      - destruct E as [(-> & k' & [[= -> ->]|I] & M')| ->]; [congruence|left|right; reflexivity]. split; [reflexivity|]. exists k'. auto. }
    pose proof (G perm1 r1 d1 U1 E1) as G1. pose proof (G perm2 r2 d2 U2 E2) as G2. cbv zeta in G1, G2.
    destruct (if forallb (fun c => mem c perm1) k then Some x else d1) as [y1|]; destruct (if forallb (fun c => mem c perm2) k then Some x else d2) as [y2|].
    + destruct G1 as [(X & _)|[= ->]]; [discriminate X|]. destruct G2 as [(X & _)|[= ->]]; [discriminate X|]. reflexivity.
    + apply IH; [intros k' x' I; apply (U1 k' x'); right; exact I|intros k' x' I; apply (U2 k' x'); right; exact I|exact G1|exact G2|auto].
    + apply IH; [intros k' x' I; apply (U1 k' x'); right; exact I|intros k' x' I; apply (U2 k' x'); right; exact I|exact G1|exact G2|auto].
    + apply IH; [intros k' x' I; apply (U1 k' x'); right; exact I|intros k' x' I; apply (U2 k' x'); right; exact I|exact G1|exact G2|auto].
Qed.
Lemma assoc_in {A} (l : list (string * A)) w v : NoDup (map fst l) -> (AggModel.assoc w l = Some v <-> In (w, v) l).
Proof.
  induction l as [|[k x] l IH]; cbn [AggModel.assoc map fst In]; [intros _; split; [discriminate|intros []]|]. intro ND. inversion ND as [|? ? N ND']; subst.
  destruct (String.eqb_spec k w) as [->|D].
  - split; [intros [= ->]; auto|]. intros [[= ->]|H]; [reflexivity|]. exfalso. apply N. apply in_map_iff. exists (w, v). auto.
  - rewrite (IH ND'). split; [auto|]. intros [[= -> ->]|H]; [contradiction|exact H].
Qed.
Lemma assoc_none {A} (l : list (string * A)) w : AggModel.assoc w l = None <-> ~ In w (map fst l).
Proof.
  induction l as [|[k x] l IH]; cbn [AggModel.assoc map fst In]; [tauto|].
  destruct (String.eqb_spec k w) as [->|D]; [split; [discriminate|intro H; exfalso; apply H; auto]|]. rewrite IH. tauto.
Qed.
Lemma added_in l : forall acc w, In w (fold_left (fun acc c => if mem c acc then acc else (acc ++ [c])%list) l acc) <-> In w acc \/ In w l.
Proof.
  induction l as [|c l IH]; intros acc w; cbn [fold_left In]; [tauto|]. rewrite IH. destruct (mem c acc) eqn:M.
  - apply mem_iff in M. split; [tauto|]. intros [H|[<-|H]]; auto.
  - rewrite in_app_iff. cbn [In]. tauto.
Qed.
Lemma permuted_named groups comp series x : NoDup (map fst groups) -> (mem x (permuted groups comp series) = true <-> Named groups comp series x).
Proof.
  intro ND. rewrite mem_iff. unfold permuted. rewrite in_map_iff. unfold Named. split.
  - intros (w & E & H). apply added_in in H. exists w. split; [exact H|]. destruct (AggModel.assoc w groups) as [v|] eqn:A.
    + left. subst v. apply assoc_in; assumption.
    + right. split; [apply assoc_none; exact A|auto].
  - intros (w & H & [I|[N ->]]); exists w; (split; [|apply added_in; exact H]).
    + apply (assoc_in _ _ _ ND) in I. rewrite I. reflexivity.
    + apply assoc_none in N. rewrite N. reflexivity.
Qed.
Lemma all_named groups comp series k : NoDup (map fst groups) ->
  (forallb (fun c => mem c (permuted groups comp series)) k = true <-> Forall (Named groups comp series) k).
Proof.
  intro ND. rewrite forallb_forall, Forall_forall. split; intros H x Hx; apply (permuted_named groups comp series x ND); apply H; exact Hx.
Qed.
Lemma combine_inj {A B} (ns : list A) : forall (p q : list B), length p = length ns -> length q = length ns -> combine ns p = combine ns q -> p = q.
Proof.
  induction ns as [|n ns IH]; intros [|a p] [|b q] L1 L2 E; cbn in *; try discriminate; try reflexivity.
  injection E as -> E. f_equal. apply IH; try lia. exact E.
Qed.
Lemma combination_length fields p : Combination fields p -> length p = length (map fst fields).
Proof. intro C. unfold Combination in C. rewrite map_length. symmetry. eapply forall2_len. exact C. Qed.

(* ---------- the whole axis with derived curves ---------- *)
Lemma forall2_in_r {A B} (P : A -> B -> Prop) l m y : Forall2 P l m -> In y m -> exists x, In x l /\ P x y.
Proof.
  induction 1 as [|a b l m H F IH]; intros []; [subst; exists a; split; [left; reflexivity|exact H]|].
  destruct IH as (x & Hx & Px); [assumption|]. exists x. split; [right; exact Hx|exact Px].
Qed.
Lemma axis_derived e single line_type groups columns data rq fields st known st' known' out :
  Rectangular data columns -> data <> [] -> Fields rq fields -> Plain rq fields -> DerivedRequest rq ->
  proceed_with_axis e single line_type groups columns data rq st known = Ok (st', known', out) ->
  exists prs outs,
    let res p := get_bootstrapped_stats e single true columns (lower (last p "")) (prows columns data rq fields p) in
    let pts := product (map snd fields) in
    let dist := fold_left (fun d pr => dist_set (fst pr) (snd pr) d) (combine pts prs) [] in
    Forall2 (fun p pr => res p = Ok pr) pts prs /\
    out = (map (fun pr => plain_row columns data rq fields (fst pr) (snd pr)) (combine pts prs) ++ concat outs)%list /\
    Forall2 (fun d rows => exists op w1 w2 name var lists,
      DerivedSeries rq d op w1 w2 name var /\ DerivedFields rq w1 w2 name var lists /\
      lookup name known' = Ok (DerivedComponent w1 w2 op) /\
      Forall2 (fun dp o => exists st r, derived_name dp = name /\
          get_bootstrapped_stats_for_derived e single columns groups known' st dp dist = Ok r /\
          o = OutRow (combine (map fst fields) dp) (hd_error (fcst_vars rq)) r 0 /\
          (In (last dp "") (list_stat rq) -> st = lower (last dp ""))) (product lists) rows) (derived_series rq) outs.
Proof.
  intros HR N HF HP (ND & HD & HU) H. unfold proceed_with_axis in H. destruct data as [|r0 data0] eqn:Ed; [contradiction|]. rewrite <- Ed in *. clear N Ed.
  assert (exists xs, Forall2 (fun d x => derived_points_of (series_val rq) (indy_var rq) (indy_vals rq) d = Ok x /\
     exists op w1 w2 name var lists, DerivedSeries rq d op w1 w2 name var /\ DerivedFields rq w1 w2 name var lists /\ x = (name, DerivedComponent w1 w2 op, product lists)) (derived_series rq) xs) as (xs & FX).
  { clear - HD HF. induction (derived_series rq) as [|d ds IH]; [exists []; constructor|].
    destruct IH as (xs & F); [intros d' I; apply HD; right; exact I|].
    destruct (HD d (or_introl eq_refl)) as (op & w1 & w2 & name & var & DS). destruct (derived_points_value _ _ _ _ _ _ _ _ HF DS) as (lists & DF & E).
    exists ((name, DerivedComponent w1 w2 op, product lists) :: xs). constructor; [|exact F]. split; [exact E|]. exists op, w1, w2, name, var, lists. auto. }
  assert (get_derived_points (series_val rq) (indy_var rq) (indy_vals rq) (derived_series rq) known = Ok (fold_left remember xs known, concat (map snd xs))) as G.
  { apply get_derived_value. clear - FX. induction FX as [|d x l m [E _] F IH]; constructor; assumption. }
  assert ((match derived_series rq with [] => false | _ => true end) = true) as HDer by (destruct (derived_series rq); [contradiction|reflexivity]).
  rewrite HDer in H. rewrite G in H. cbn [bind fst snd] in H. rewrite (fields_value _ _ HF) in H.
  rewrite (loop_plain _ _ _ _ _ _ _ _ HR HF HP _ (concat (map snd xs))) in H by apply combos_in. rewrite HDer in H.
  set (pts := product (map snd fields)) in *.
  destruct (mapM _ pts) as [prs|] eqn:Em; [|discriminate H]. cbn [bind] in H.
  destruct (points_loop _ _ _ _ _ _ _ _ (concat (map snd xs)) _ _ _) as [[s1 douts]|] eqn:L; [|discriminate H]. cbn [bind fst snd] in H. injection H as <- <- <-.
  assert (forall d x, In d (derived_series rq) -> In x xs -> True) as _ by auto.
  assert (Forall (fun dp => is_derived_point (Some dp) = true) (concat (map snd xs))) as Der.
  { apply Forall_forall. intros dp Hdp. apply in_concat in Hdp. destruct Hdp as (l & Hl & Hdp). apply in_map_iff in Hl. destruct Hl as (x & <- & Hx).
    destruct (forall2_in_r _ _ _ _ FX Hx) as (d & Hd & _ & op & w1 & w2 & name & var & lists & DS & DF & ->). cbn [snd] in Hdp.
    destruct (derived_fields_name _ _ _ _ _ _ _ _ _ _ HF HP DS DF Hdp) as (I & _). apply derived_point_iff. exists name. split; [exact I|].
    destruct DS as (a & b & _ & Hop & _ & _ & CN & _). eapply curve_name_derived; eassumption. }
  apply loop_derived in L; [|exact Der].
  exists prs. rewrite mapM_iff in Em.
  assert (Forall2 (fun p pr => get_bootstrapped_stats e single true columns (lower (last p "")) (prows columns data rq fields p) = Ok pr) pts prs) as FP.
  { clear - Em. induction Em as [|p pr l m E F IH]; constructor; [|exact IH]. cbv beta in E. destruct (pok columns rq fields p); [exact E|discriminate E]. }
  clear Em.
  set (dist := fold_left (fun d pr => dist_set (fst pr) (snd pr) d) (combine pts prs) []) in *. cbv zeta.
  assert (forall y x, In x xs -> In y xs -> fst (fst y) = fst (fst x) -> snd (fst y) = snd (fst x)) as U.
  { intros y x Hx Hy E. destruct (forall2_in_r _ _ _ _ FX Hx) as (d & Hd & E1 & op & w1 & w2 & name & var & lists & DS & DF & ->).
    destruct (forall2_in_r _ _ _ _ FX Hy) as (d' & Hd' & E2 & op' & w1' & w2' & name' & var' & lists' & DS' & DF' & ->). cbn [fst snd] in *. subst name'.
    rewrite (HU d d' _ _ _ _ _ _ _ _ _ Hd Hd' DS DS') in E1. rewrite E1 in E2. injection E2 as -> -> -> _. reflexivity. }
  assert (forall sub seg, incl sub xs -> Forall2 (fun dp o => exists st r f, match pts with [] => None | _ :: _ => Some (hd_error (fcst_vars rq)) end = Some f /\
      get_bootstrapped_stats_for_derived e single columns groups (fold_left remember xs known) st dp dist = Ok r /\
      o = OutRow (combine (map fst (all_fields_values rq)) dp) f r 0 /\
      (In (last dp "") (list_stat rq) -> st = lower (last dp ""))) (concat (map snd sub)) seg ->
    forall ds, Forall2 (fun d x => derived_points_of (series_val rq) (indy_var rq) (indy_vals rq) d = Ok x /\
     exists op w1 w2 name var lists, DerivedSeries rq d op w1 w2 name var /\ DerivedFields rq w1 w2 name var lists /\ x = (name, DerivedComponent w1 w2 op, product lists)) ds sub ->
    exists outs, seg = concat outs /\ Forall2 (fun d rows => exists op w1 w2 name var lists,
      DerivedSeries rq d op w1 w2 name var /\ DerivedFields rq w1 w2 name var lists /\
      lookup name (fold_left remember xs known) = Ok (DerivedComponent w1 w2 op) /\
      Forall2 (fun dp o => exists st r, derived_name dp = name /\
          get_bootstrapped_stats_for_derived e single columns groups (fold_left remember xs known) st dp dist = Ok r /\
          o = OutRow (combine (map fst fields) dp) (hd_error (fcst_vars rq)) r 0 /\
          (In (last dp "") (list_stat rq) -> st = lower (last dp ""))) (product lists) rows) ds outs) as K.
  { induction sub as [|x sub IH]; intros seg I F ds FD; inversion FD as [|d ? ds' ? HX FD']; subst; cbn [map concat] in F.
    - inversion F; subst. exists []. split; [reflexivity|constructor].
    - apply Forall2_app_inv_l in F. destruct F as (s2 & s3 & F1 & F2 & ->).
      destruct (IH s3) with (ds := ds') as (outs & -> & Fo); [intros z Hz; apply I; right; exact Hz|exact F2|exact FD'|].
      exists (s2 :: outs). split; [reflexivity|]. constructor; [|exact Fo].
      destruct HX as (E & op & w1 & w2 & name & var & lists & DS & DF & ->). exists op, w1, w2, name, var, lists.
      split; [exact DS|]. split; [exact DF|]. split.
      + apply (lookup_remember xs known (name, DerivedComponent w1 w2 op, product lists)); [left; apply I; left; reflexivity|].
        intros y Hy. apply U; [apply I; left; reflexivity|exact Hy].
      + cbn [snd] in F1. clear - F1 DS DF HF HP.
        assert (Forall (fun dp => In dp (product lists)) (product lists)) as A by (apply Forall_forall; auto). revert A F1. generalize (product lists) at 2 3 4.
        intros l A F1. induction F1 as [|dp o l m (st0 & r & f & Ef & Gd & -> & Hst) F1 IH]; constructor.
        * inversion A as [|? ? A1 A2]; subst. exists st0, r. split.
          { destruct (derived_fields_name _ _ _ _ _ _ _ _ _ _ HF HP DS DF A1) as (I & V & _). apply derived_name_value; [exact I| |exact V].
            destruct DS as (a & b & _ & Hop & _ & _ & CN & _). eapply curve_name_derived; eassumption. }
          split; [exact Gd|]. split; [|exact Hst]. rewrite (fields_value _ _ HF). destruct pts; [discriminate Ef|]. injection Ef as <-. reflexivity.
        * apply IH. inversion A; assumption. }
  destruct (K xs douts (incl_refl _) L (derived_series rq) FX) as (outs & -> & Fo). exists outs. split; [exact FP|]. split; [reflexivity|exact Fo].
Qed.

(** What the result of a derived point is made from. *)
Definition derived_from (e : engine) (single : bool) (columns : list string) (groups : list (string * string)) (w1 w2 dp : list string) (op st : string)
  (r1 r2 : point_result) (r : results) : Prop :=
  ((saved r1 = None \/ saved r2 = None \/ saved r1 = Some [] \/ saved r2 = Some []) /\ r = nothing) \/
  exists v1 v2, saved r1 = Some v1 /\ saved r2 = Some v2 /\ v1 <> [] /\ v2 <> [] /\
    (op <> "SINGLE" -> validate columns v1 (num_diff_vals (permuted groups w1 dp)) = Ok tt /\ validate columns v2 (num_diff_vals (permuted groups w2 dp)) = Ok tt) /\
    exists out, (if single || String.eqb op "ETB" then v <- derived_one e columns st op r1 r2 v1 v2 ;; Ok (BootstrapResults None v None, Some [v])
                 else derived_boot e st op v1 v2) = Ok out /\
      (if String.eqb op "DIFF_SIG" then
         v <- significance (value (outcome r1)) (value (outcome r2)) st (value (fst out)) (snd out) ;;
         Ok (Results (lower_bound (fst out)) v (upper_bound (fst out)))
       else Ok (fst out)) = Ok r.
Lemma gbsd_pair e single columns groups known st dp dist fields w1 w2 op (f : list string -> res point_result) p1 p2 r1 r2 r :
  lookup (derived_name dp) known = Ok (DerivedComponent w1 w2 op) -> NoDup (map fst groups) ->
  (forall k x, In (k, x) dist <-> Combination fields k /\ f k = Ok x) ->
  OnlyPoint fields (Named groups w1 dp) p1 -> OnlyPoint fields (Named groups w2 dp) p2 -> f p1 = Ok r1 -> f p2 = Ok r2 ->
  get_bootstrapped_stats_for_derived e single columns groups known st dp dist = Ok r ->
  derived_from e single columns groups w1 w2 dp op st r1 r2 r.
Proof.
  intros L ND HD (C1 & N1 & U1) (C2 & N2 & U2) F1 F2 H. unfold get_bootstrapped_stats_for_derived in H. rewrite L in H. cbn [bind first_component second_component derived_operation] in H.
  rewrite (find_pair_value _ _ r1 r2) in H.
  - unfold derived_from. destruct (saved r1) as [v1|]; [|injection H as <-; left; auto].
    destruct (saved r2) as [v2|]; [|injection H as <-; left; auto].
    destruct v1 as [|a v1]; [injection H as <-; left; auto|]. destruct v2 as [|b v2]; [injection H as <-; left; auto|].
    right. exists (a :: v1), (b :: v2). split; [reflexivity|]. split; [reflexivity|]. split; [discriminate|]. split; [discriminate|].
    destruct (String.eqb_spec op "SINGLE") as [E|E].
    + cbn [bind] in H. split; [intro X; contradiction|]. match type of H with bind ?x _ = _ => destruct x as [out|] eqn:Eo end; [|discriminate H].
      exists out. split; [reflexivity|exact H].
    + destruct (validate columns (a :: v1) _) as [[]|] eqn:V1; [|discriminate H]. cbn [bind] in H.
      destruct (validate columns (b :: v2) _) as [[]|] eqn:V2; [|discriminate H]. cbn [bind] in H.
      split; [intros _; split; reflexivity|]. match type of H with bind ?x _ = _ => destruct x as [out|] eqn:Eo end; [|discriminate H].
      exists out. split; [reflexivity|exact H].
  - intros k x I M. apply HD in I. destruct I as [Ck Fk]. apply (all_named _ _ _ _ ND) in M. rewrite (U1 k Ck M) in Fk. congruence.
  - intros k x I M. apply HD in I. destruct I as [Ck Fk]. apply (all_named _ _ _ _ ND) in M. rewrite (U2 k Ck M) in Fk. congruence.
  - left. split; [reflexivity|]. exists p1. split; [apply HD; auto|]. apply (all_named _ _ _ _ ND). exact N1.
  - left. split; [reflexivity|]. exists p2. split; [apply HD; auto|]. apply (all_named _ _ _ _ ND). exact N2.
  - auto.
Qed.
(** The general statement from which those about derived curves follow. *)
Lemma derived_rows e single line_type groups columns data rq fields st known st' known' out
  (V : list string -> list string -> string -> list string -> list string -> list string -> out_row -> out_row -> results -> Prop) :
  Rectangular data columns -> data <> [] -> Fields rq fields -> Plain rq fields -> DerivedRequest rq -> NoDup (map fst groups) ->
  proceed_with_axis e single line_type groups columns data rq st known = Ok (st', known', out) ->
  let res p := get_bootstrapped_stats e single true columns (lower (last p "")) (prows columns data rq fields p) in
  (forall w1 w2 op dp p1 p2 r1 r2 r st, Combination fields p1 -> Combination fields p2 -> res p1 = Ok r1 -> res p2 = Ok r2 -> In op operations ->
     (In (last dp "") (list_stat rq) -> st = lower (last dp "")) ->
     derived_from e single columns groups w1 w2 dp op st r1 r2 r ->
     V w1 w2 op dp p1 p2 (plain_row columns data rq fields p1 r1) (plain_row columns data rq fields p2 r2) r) ->
  exists plain derived, out = (plain ++ concat derived)%list /\
    Forall2 (RowOfPoint e single columns data rq fields) (combinations (map snd fields)) plain /\
    DerivedRows rq fields groups plain V derived.
Proof.
  intros HR N HF HP HD ND H res HV.
  destruct (axis_derived _ _ _ _ _ _ _ _ _ _ _ _ _ HR N HF HP HD H) as (prs & outs & A). cbv zeta in A. destruct A as (FP & -> & FO).
  set (pts := product (map snd fields)) in *. set (dist := fold_left (fun d pr => dist_set (fst pr) (snd pr) d) (combine pts prs) []) in *.
  set (plain := map (fun pr => plain_row columns data rq fields (fst pr) (snd pr)) (combine pts prs)) in *.
  assert (Forall (fun p => Combination fields p) pts) as HC by apply combos_in.
  exists plain, outs. split; [reflexivity|]. split.
  - rewrite combinations_product. unfold plain. eapply forall2_combine with (f := plain_row columns data rq fields); [exact FP|].
    intros p pr Ip E. rewrite Forall_forall in HC. apply row_of_point; [exact HR|exact HF|exact HP|apply HC; exact Ip|].
    destruct HD as (Nd & _). destruct (derived_series rq); [contradiction|exact E].
  - assert (forall k x, In (k, x) dist <-> Combination fields k /\ res k = Ok x) as HDist.
    { intros k x. unfold dist. rewrite (dist_entries res pts prs [] FP) by (intros ? ? []). cbn [In]. unfold pts. rewrite product_combination. tauto. }
    assert (forall o p, In o plain -> Combination fields p -> point_of o = combine (map fst fields) p -> exists pr, res p = Ok pr /\ o = plain_row columns data rq fields p pr) as HPl.
    { intros o p Io Cp E. unfold plain in Io. apply in_map_iff in Io. destruct Io as ([q pr] & <- & Iq). cbn [fst snd] in *.
      pose proof (in_combine_l _ _ _ _ Iq) as Iq1. assert (q = p) as ->.
      { rewrite Forall_forall in HC. apply (combine_inj (map fst fields)); [apply combination_length; apply HC; exact Iq1|apply combination_length; exact Cp|exact E]. }
      exists pr. split; [|reflexivity]. clear - FP Iq. revert Iq. induction FP as [|a b l m E F IH]; intro I; [destruct I|]. destruct I as [[= -> ->]|I]; [exact E|apply IH; exact I]. }
    unfold DerivedRows. clear H. induction FO as [|d rows ds outs (op & w1 & w2 & name & var & lists & DS & DF & L & FR) FO IH]; constructor; [|exact IH].
    exists op, w1, w2, name, var, lists. split; [exact DS|]. split; [exact DF|]. rewrite combinations_product.
    clear - FR L ND HDist HPl HV DS. induction FR as [|dp o l m (st0 & r & En & G & -> & Hst) FR IH]; constructor; [|exact IH].
    split; [reflexivity|]. split; [reflexivity|]. split.
    { cbn [fcst_var_of]. destruct (fcst_vars rq) as [|v vs]; [left; split; reflexivity|]. right. exists v, vs. split; reflexivity. }
    intros p1 p2 o1 o2 O1 O2 I1 E1 I2 E2. cbn [stat_of].
    destruct (HPl o1 p1 I1 (proj1 O1) E1) as (r1 & R1 & ->). destruct (HPl o2 p2 I2 (proj1 O2) E2) as (r2 & R2 & ->).
    apply (HV _ _ _ _ _ _ _ _ _ st0); [apply O1|apply O2|exact R1|exact R2|destruct DS as (a & b & _ & Hop & _); exact Hop|exact Hst|].
    rewrite <- En in L. eapply gbsd_pair; eassumption.
Qed.
Lemma saved_single e columns st rows pr : get_bootstrapped_stats e true true columns st rows = Ok pr ->
  (rows = [] /\ saved pr = None /\ outcome pr = nothing) \/
  (rows <> [] /\ exists sorted prepared v, InOrder columns rows sorted /\ prep e st sorted = Ok prepared /\ saved pr = Some prepared /\ outcome pr = Results None v None).
Proof.
  unfold get_bootstrapped_stats. destruct rows as [|r0 rows]; [intros [= <-]; left; auto|]. intro H. right. split; [discriminate|].
  destruct (sort_data columns (r0 :: rows)) as [sorted|] eqn:S; [|discriminate H]. cbn [bind] in H.
  destruct (sort_data_inv _ _ _ S) as (HK & OK1 & ->). pose proof (sort_in_order _ _ HK OK1) as O.
  destruct (prep e st (RocModel.sort_by (row_le columns) (r0 :: rows))) as [data|] eqn:P; [|discriminate H]. cbn [bind] in H.
  destruct (calc e st data) as [v|]; [|discriminate H]. injection H as <-. eexists _, data, v. split; [exact O|]. split; [exact P|]. split; reflexivity.
Qed.
Lemma in_order_nil columns rows sorted : InOrder columns rows sorted -> rows <> [] -> sorted <> [].
Proof. intros (P & _) N ->. apply N. apply Permutation_nil. apply Permutation_sym. exact P. Qed.
Lemma derived_one_value e columns st op r1 r2 v1 v2 v : In op operations -> ~ In op ["DIFF_SIG"; "ETB"] -> derived_one e columns st op r1 r2 v1 v2 = Ok v ->
  DerivedValue op (value (outcome r1)) (value (outcome r2)) v.
Proof.
  intros Hop N H. unfold derived_one in H. destruct (String.eqb_spec op "ETB") as [->|_]; [exfalso; apply N; right; left; reflexivity|]. cbn [bind fst snd] in H.
  destruct (value (outcome r1)) as [a|]; [|cbn in H; injection H as <-; constructor].
  destruct (value (outcome r2)) as [b|]; [|cbn in H; injection H as <-; constructor].
  unfold calc_derived_curve_value in H. cbn [all_present length Nat.eqb] in H.
  unfold operations in Hop. cbn [In] in Hop.
  destruct Hop as [<-|[<-|[<-|[<-|[<-|[<-|[]]]]]]]; cbn [String.eqb Ascii.eqb Bool.eqb orb] in H; try (exfalso; apply N; cbn [In]; tauto).
  all: unfold zip_with, has_zero in H; cbn [combine map fst snd existsb orb] in H.
  all: try (destruct (Qeq_bool _ 0) eqn:Z in H; cbn [orb bind] in H; [apply Qeq_bool_iff in Z|apply Qeq_bool_neq in Z]).
  all: try (cbn [bind] in H); injection H as <-.
  all: first [eapply derived_difference; [reflexivity|apply rhu_nearest] | eapply derived_ratio_zero; [reflexivity|assumption]
   | eapply derived_ratio; [reflexivity|assumption|apply rhu_nearest] | eapply derived_skill_zero; [reflexivity|assumption]
   | eapply derived_skill; [reflexivity|assumption|apply rhu_nearest] | eapply derived_first; [reflexivity|apply rhu_nearest]].
Qed.

(** The statements of PropertiesDrive.v. *)
Lemma C55_rows_proof : forall e single line_type groups columns data rq fields statistic known statistic' known' out,
  Rectangular data columns -> data <> [] -> Fields rq fields -> Plain rq fields -> derived_series rq = [] ->
  proceed_with_axis e single line_type groups columns data rq statistic known = Ok (statistic', known', out) ->
  known' = known /\ Forall2 (RowOfPoint e single columns data rq fields) (combinations (map snd fields)) out.
Proof.
  intros e single lt groups columns data rq fields st known st' known' out HR N HF HP D H.
  rewrite (axis_plain _ _ _ _ _ _ _ _ _ _ HR HF HP N D) in H.
  destruct (mapM _ (product (map snd fields))) as [prs|] eqn:M; [|discriminate H]. cbn [bind] in H.
  injection H as _ <- <-. split; [reflexivity|]. rewrite combinations_product. apply mapM_iff in M.
  eapply forall2_combine; [exact M|]. intros p pr Hp E. apply product_combination in Hp.
  cbv beta in E. destruct (pok columns rq fields p); [|discriminate E]. cbv beta. apply row_of_point; try assumption. rewrite D. exact E.
Qed.

Lemma C55_rows_case_proof :
  Rectangular drive_data drive_columns /\ Fields drive_request drive_fields /\ Plain drive_request drive_fields /\
  proceed_with_axis sum_engine true "ctc" [] drive_columns drive_data drive_request "None" [] =
  Ok ("total", [], map (fun x => OutRow [("model", fst (fst (fst x))); ("fcst_lead", snd (fst (fst x))); ("stat_name", "TOTAL")]
                              (Some "TMP") (Results None (Some (snd (fst x))) None) (snd x))
                   [(("A", "12"), 12, 2%nat); (("A", "24"), 3, 1%nat); (("B", "12"), 2, 2%nat); (("B", "24"), 4, 1%nat)]).
Proof.
  split; [intros r Hr; simpl in Hr; repeat (destruct Hr as [<-|Hr]; [reflexivity|]); destruct Hr|].
  split; [split; [repeat constructor; simpl; intuition discriminate|]; left; split; [discriminate|reflexivity]|].
  split; [|vm_compute; reflexivity].
  apply plain_check. vm_compute. reflexivity.
Qed.

Lemma C55_total_proof : forall e single line_type groups columns data rq fields statistic known,
  Rectangular data columns -> Fields rq fields -> Plain rq fields -> derived_series rq = [] ->
  (forall n, In n (map fst (series_val rq)) -> In n columns) ->
  ((exists n, In n (map fst fields) /\ In n columns) \/ (fcst_vars rq <> [] /\ In "fcst_var" columns)) ->
  (forall fs n, SortFields columns fs -> In n fs -> OneKind columns data n) ->
  (forall before stat st rows, Combination fields (before ++ [stat])%list -> InSmallLetters stat st ->
     Selection (OfPoint columns fields (fcst_vars rq) (before ++ [stat])%list) data rows ->
     exists r, ResultOf e single columns st rows r) ->
  exists statistic' out,
    proceed_with_axis e single line_type groups columns data rq statistic known = Ok (statistic', known, out).
Proof.
  intros e single lt groups columns data rq fields st known HR HF HP D HS HC HK HE.
  destruct data as [|r0 data'] eqn:Ed; [exists st, []; reflexivity|]. rewrite <- Ed in *. assert (data <> []) as N by (rewrite Ed; discriminate).
  rewrite (axis_plain _ _ _ _ _ _ _ _ _ _ HR HF HP N D).
  assert (exists prs, mapM (fun p => if pok columns rq fields p then get_bootstrapped_stats e single false columns (lower (last p "")) (prows columns data rq fields p) else Err KeyError)
            (product (map snd fields)) = Ok prs) as [prs ->].
  { apply mapM_total. intros p Hp. apply product_combination in Hp.
    assert (pok columns rq fields p = true) as ->.
    { unfold pok. apply andb_true_iff. split; [apply forallb_forall; intros n Hn; apply mem_iff; apply HS; exact Hn|].
      apply pfilters_some; assumption. }
    destruct (point_split _ _ _ HF Hp) as (before & stat & -> & Hs). rewrite last_last.
    destruct (HE before stat (lower stat) (prows columns data rq fields (before ++ [stat])) Hp (small_lower _)) as [r R].
    { apply prows_selection; assumption. }
    edestruct (gbs_complete e single false columns (lower stat)) as (pr & E & _); [|exact R|exists pr; exact E].
    intros fs n F I. destruct (HK fs n F I) as [K|K]; [left|right]; intros r1 c Hr; apply K; unfold prows in Hr; apply filter_In in Hr; apply Hr. }
  cbn [bind]. eexists. eexists. reflexivity.
Qed.

Lemma C55_counted_proof : forall e single line_type groups columns data rq fields statistic known statistic' known' out wanted,
  Rectangular data columns -> data <> [] -> Fields rq fields -> Plain rq fields -> derived_series rq = [] ->
  (forall n, In n (map fst fields) -> In n columns) -> Apart fields ->
  proceed_with_axis e single line_type groups columns data rq statistic known = Ok (statistic', known', out) ->
  Selection (Wanted columns fields (fcst_vars rq)) data wanted ->
  list_sum (map nstats out) = length wanted.
Proof.
  intros e single lt groups columns data rq fields st known st' known' out wanted HR N HF HP D HC HA H W.
  rewrite (axis_plain _ _ _ _ _ _ _ _ _ _ HR HF HP N D) in H.
  destruct (mapM _ (product (map snd fields))) as [prs|] eqn:M; [|discriminate H]. cbn [bind] in H.
  injection H as _ _ <-. apply mapM_inv, forall2_len in M. rewrite map_map.
  assert (map (fun x : list string * point_result => nstats (plain_row columns data rq fields (fst x) (snd x))) (combine (product (map snd fields)) prs)
          = map (fun p => length (prows columns data rq fields p)) (product (map snd fields))) as ->.
  { clear - M. revert prs M. generalize (product (map snd fields)) as ps. induction ps as [|p ps IH]; intros [|pr prs] M; try discriminate; [reflexivity|].
    cbn [combine map fst snd]. rewrite IH by (injection M as M; exact M). reflexivity. }
  unfold prows. rewrite (sum_swap (fun p r => ftests columns (map fst fields) p (fcst_vars rq) r)).
  assert (forall r, In r data -> length (filter (fun p => ftests columns (map fst fields) p (fcst_vars rq) r) (product (map snd fields))) =
     if wtest columns fields (fcst_vars rq) r then 1%nat else 0%nat) as E.
  { intros r Hr. apply wtest_count; [apply HR; exact Hr|exact HC|exact HA|]. exact (proj1 HP). }
  rewrite (map_ext_in _ _ _ E), sum_indicator. f_equal. symmetry.
  apply (selection_unique (Wanted columns fields (fcst_vars rq)) (Wanted columns fields (fcst_vars rq)) data); [exact W| |intros; reflexivity].
  apply selection_filter. intros r Hr. apply wtest_iff; [apply HR; exact Hr|exact HC|exact (proj1 HP)].
Qed.

Lemma C55_counted_case_proof :
  (forall n, In n (map fst drive_fields) -> In n drive_columns) /\ Apart drive_fields /\
  Selection (Wanted drive_columns drive_fields ["TMP"]) drive_data (firstn 6 drive_data).
Proof.
  split; [intros n Hn; simpl in Hn; repeat (destruct Hn as [<-|Hn]; [simpl; tauto|]); destruct Hn|]. split.
  - apply apart_check. vm_compute. reflexivity.
  - assert (firstn 6 drive_data = filter (wtest drive_columns drive_fields ["TMP"]) drive_data) as -> by (vm_compute; reflexivity).
    apply selection_filter. intros r Hr. apply wtest_iff.
    + simpl in Hr. repeat (destruct Hr as [<-|Hr]; [reflexivity|]). destruct Hr.
    + intros n Hn; simpl in Hn; repeat (destruct Hn as [<-|Hn]; [simpl; tauto|]); destruct Hn.
    + assert (Plain drive_request drive_fields) as (P & _) by (apply plain_check; vm_compute; reflexivity). exact P.
Qed.

Lemma C55_empty_proof : forall e single line_type groups columns rq statistic known,
  proceed_with_axis e single line_type groups columns [] rq statistic known = Ok (statistic, known, []).
Proof.
  reflexivity.
Qed.

Lemma C55_total_case_proof :
  (forall fs n, SortFields drive_columns fs -> In n fs -> OneKind drive_columns drive_data n) /\
  forall st rows, exists r, incl rows drive_data -> ResultOf sum_engine true drive_columns st rows r.
Proof.
  assert (forall fs n, SortFields drive_columns fs -> In n fs -> OneKind drive_columns drive_data n) as K.
  { intros fs n F I. apply sort_fields_iff in F. subst fs. apply kind_check. vm_compute in I; repeat (destruct I as [<-|I]; [vm_compute; reflexivity|]); destruct I. }
  split; [exact K|]. intros st rows. destruct rows as [|r0 rows]; [exists NoResult; intros _; constructor|].
  exists (Results None (sum_of st (RocModel.sort_by (row_le drive_columns) (r0 :: rows))) None). intro I.
  assert (forall r, In r (r0 :: rows) -> has_key drive_columns r) as HK.
  { intros r Hr. apply I in Hr. exists (keyf drive_columns r). apply sortkey_iff.
    simpl in Hr. repeat (destruct Hr as [<-|Hr]; [vm_compute; reflexivity|]). destruct Hr. }
  eapply result_single with (sorted := RocModel.sort_by (row_le drive_columns) (r0 :: rows)); [discriminate|reflexivity| |reflexivity|reflexivity].
  apply sort_in_order; [exact HK|]. apply kinds_ok; [exact HK|]. intros fs n F J. destruct (K fs n F J) as [A|A]; [left|right]; intros r c Hr; apply A; apply I; exact Hr.
Qed.

Lemma C56_texts_refuted_proof : forall e single line_type groups columns data rq fields statistic known statistic' known' out n v o,
  Rectangular data columns -> data <> [] -> Fields rq fields -> Plain rq fields -> derived_series rq = [] ->
  proceed_with_axis e single line_type groups columns data rq statistic known = Ok (statistic', known', out) ->
  In n columns -> (forall r c, In r data -> CellOf columns r n c -> exists s, c = CStr s) ->
  ((exists z, WholeNumber v z) \/ (exists q, Decimal v q)) ->
  In o out -> In (n, v) (point_of o) ->
  nstats o = 0%nat /\ stat_of o = NoResult.
Proof.
  intros e single lt groups columns data rq fields st known st' known' out n v o HR N HF HP D H Hn HT HV Ho Hv.
  destruct (C55_rows_proof _ _ _ _ _ _ _ _ _ _ _ _ _ HR N HF HP D H) as [_ F].
  assert (exists p, Combination fields p /\ RowOfPoint e single columns data rq fields p o) as (p & C & P & _ & before & stat & s & rows & _ & _ & S & -> & R).
  { rewrite combinations_product in F. assert (forall p, In p (product (map snd fields)) -> Combination fields p) as G by (intros; apply product_combination; assumption).
    clear - F Ho G. induction F as [|p o' ps os X F IH]; [destruct Ho|]. destruct Ho as [->|Ho]; [exists p; split; [apply G; left; reflexivity|exact X]|].
    apply IH; [exact Ho|]. intros q Hq. apply G. right. exact Hq. }
  assert (rows = []) as ->.
  { apply (selection_none _ _ _ S). intros r Hr (O & _). rewrite P in Hv.
    assert (forall c, CellOf columns r n c -> HasMember v c) as X.
    { clear - O Hv. induction O as [|[m vals] w fields p A O IH]; [destruct Hv|]. cbn [map combine fst] in Hv. destruct Hv as [E|Hv]; [injection E as -> ->; exact A|auto]. }
    destruct (in_index _ _ Hn) as [i Ei]. destruct (nth_error r i) as [c|] eqn:Ec.
    2:{ apply nth_error_None in Ec. rewrite (HR r Hr) in Ec. pose proof (index_of_lt _ _ _ Ei). lia. }
    assert (CellOf columns r n c) as Cc. { apply get_sound. unfold get. rewrite Ei. unfold cell_at. rewrite Ec. reflexivity. }
    destruct (HT r c Hr Cc) as [s' ->]. destruct (X _ Cc) as (l & m & Ml & Hm & HVm).
    assert (~ Has ":" v /\ ~ Has ";" v) as (NC & NSc).
    { split; intro A; (destruct HV as [[z Z]|[q Z]]; [pose proof (whole_char _ _ Z) as Z'|pose proof (decimal_char _ _ Z) as Z']); destruct (Z' _ A) as [B|[B|[B|B]]]; try discriminate B; unfold Digit in B; cbn in B; repeat (destruct B as [B|B]; [discriminate B|]); destruct B. }
    destruct Ml as [(A & _)|[(_ & A & _)|(_ & _ & ->)]]; [contradiction|contradiction|]. destruct Hm as [<-|[]].
    destruct HVm as [(z & q & _ & E & _)|[(p' & q & _ & E & _)|(A & B & _)]]; [discriminate E|discriminate E|].
    destruct HV as [[z Z]|[q Z]]; [exact (A z Z)|exact (B q Z)]. }
  split; [reflexivity|]. inversion R as [E0 E1|rows0 sorted pd v0 NN|rows0 sorted pd r0 NN|rows0 sorted pd NN]; subst; try (exfalso; apply NN; reflexivity). reflexivity.
Qed.

Lemma C56_texts_case_proof :
  proceed_with_axis sum_engine true "ctc" [] drive_columns [drive_row "d1" 12 "3" "TMP" 5]
    (Request [("model", ["3"])] "fcst_lead" [] ["TOTAL"] [] []) "None" [] =
  Ok ("total", [], [OutRow [("model", "3"); ("stat_name", "TOTAL")] None (Results None None None) 0]).
Proof.
  vm_compute. reflexivity.
Qed.

Lemma C56_variables_refuted_proof : forall e single line_type groups columns data series indy vals stats derived v rest statistic known,
  proceed_with_axis e single line_type groups columns data (Request series indy vals stats derived (v :: rest)) statistic known =
  proceed_with_axis e single line_type groups columns data (Request series indy vals stats derived [v]) statistic known.
Proof.
  intros e single lt groups columns data series indy vals stats derived v rest st known.
  assert (forall s p, plain_point e single lt columns data (Request series indy vals stats derived (v :: rest)) s p
    = plain_point e single lt columns data (Request series indy vals stats derived [v]) s p) as E by reflexivity.
  unfold proceed_with_axis. cbn [derived_series series_val indy_var indy_vals list_stat].
  change (all_fields_values (Request series indy vals stats derived (v :: rest))) with (all_fields_values (Request series indy vals stats derived [v])).
  assert (forall known points s fv d, points_loop e single lt groups columns data (Request series indy vals stats derived (v :: rest)) known points s fv d
    = points_loop e single lt groups columns data (Request series indy vals stats derived [v]) known points s fv d) as L.
  { intros kn points. induction points as [|p points IH]; intros s fv d; [reflexivity|]. cbn [points_loop].
    change (all_fields_values (Request series indy vals stats derived (v :: rest))) with (all_fields_values (Request series indy vals stats derived [v])).
    cbn [list_stat]. destruct (is_derived_point (Some p)).
    - destruct (get_bootstrapped_stats_for_derived _ _ _ _ _ _ _ _); [|reflexivity]. cbn [bind]. destruct fv; [|reflexivity]. rewrite IH. reflexivity.
    - rewrite E. destruct (plain_point _ _ _ _ _ _ _ _) as [[[r n] fv']|]; [|reflexivity]. cbn [bind]. rewrite IH. reflexivity. }
  destruct data; [reflexivity|]. destruct derived.
  - cbn [bind]. rewrite L. reflexivity.
  - destruct (get_derived_points _ _ _ _ _); [|reflexivity]. cbn [bind]. rewrite L. reflexivity.
Qed.

Lemma C56_missing_proof : forall e single line_type groups columns data rq fields statistic known,
  Rectangular data columns -> data <> [] -> Fields rq fields -> Plain rq fields -> derived_series rq = [] ->
  (forall n vals, In (n, vals) fields -> vals <> []) ->
  ((exists n, In n (map fst (series_val rq)) /\ ~ In n columns) \/
   ((forall n, In n (map fst fields) -> ~ In n columns) /\ (fcst_vars rq = [] \/ ~ In "fcst_var" columns))) ->
  proceed_with_axis e single line_type groups columns data rq statistic known = Err KeyError.
Proof.
  intros e single lt groups columns data rq fields st known HR N HF HP D HV HM.
  rewrite (axis_plain _ _ _ _ _ _ _ _ _ _ HR HF HP N D).
  assert (product (map snd fields) <> []) as NP.
  { clear - HV. induction fields as [|[n vals] fields IH]; [discriminate|]. cbn [map product snd].
    destruct vals as [|v vals]; [destruct (HV n [] (or_introl eq_refl) eq_refl)|]. cbn [flat_map].
    destruct (product (map snd fields)) as [|p ps]; [destruct IH; [intros n' v' I; apply (HV n' v'); right; exact I|reflexivity]|]. discriminate. }
  destruct (product (map snd fields)) as [|p ps] eqn:E; [contradiction|]. cbn [mapM].
  assert (Combination fields p) as C by (apply product_combination; rewrite E; left; reflexivity).
  assert (pok columns rq fields p = false) as ->; [|reflexivity].
  unfold pok. apply andb_false_iff. destruct HM as [(n & Hn & A)|(A & B)].
  - left. apply Bool.not_true_is_false. intro F. rewrite forallb_forall in F. apply A. apply mem_iff. apply F. exact Hn.
  - right. unfold pfilters, point_filters.
    assert (flat_map (fun fv : string * string => if mem (fst fv) columns then [(fst fv, filter_list (snd fv))] else []) (combine (map fst fields) p) = []) as ->.
    { clear - A. revert p. induction fields as [|[n vals] fields IH]; intros [|v p]; try reflexivity. cbn [map combine flat_map fst].
      assert (mem n columns = false) as -> by (apply mem_false; apply A; left; reflexivity). cbn [app]. apply IH. intros m Hm. apply A. right. exact Hm. }
    destruct (fcst_vars rq) as [|v vs]; [reflexivity|]. destruct B as [B|B]; [discriminate B|]. apply mem_false in B. rewrite B. reflexivity.
Qed.

Lemma C56_missing_case_proof :
  let rq := Request [("thresh", [">0"])] "fcst_lead" ["12"] ["TOTAL"] [] [] in
  Fields rq [("thresh", [">0"]); ("fcst_lead", ["12"]); ("stat_name", ["TOTAL"])] /\ ~ In "thresh" drive_columns /\
  proceed_with_axis sum_engine true "ctc" [] drive_columns drive_data rq "None" [] = Err KeyError.
Proof.
  cbv zeta. split; [split; [repeat constructor; simpl; intuition discriminate|]; left; split; [discriminate|reflexivity]|].
  split; [intro H; simpl in H; repeat (destruct H as [H|H]; [discriminate H|]); exact H|]. vm_compute. reflexivity.
Qed.

Lemma C56_joined_refuted_proof :
  let data := [mask_row "EAST" 1 4; mask_row "WEST" 3 8] in
  proceed_with_axis sum_engine true "sl1l2" [] mask_columns data (Request [] "vx_mask" ["EAST;WEST"] ["TOTAL"] [] []) "None" [] =
    Ok ("total", [], [OutRow [("vx_mask", "EAST;WEST"); ("stat_name", "TOTAL")] None (Results None (Some 7) None) 1]) /\
  proceed_with_axis sum_engine true "sl1l2" [] mask_columns data (Request [("vx_mask", ["EAST;WEST"])] "fcst_lead" [] ["TOTAL"] [] []) "None" [] =
    Ok ("total", [], [OutRow [("vx_mask", "EAST;WEST"); ("stat_name", "TOTAL")] None (Results None (Some 12) None) 2]).
Proof.
  vm_compute. split; reflexivity.
Qed.

