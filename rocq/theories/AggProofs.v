From Coq Require Import Permutation.
From Verif Require Import PyBase ColumnModel BaseSpec BaseProofs AggModel AggSpec.

(** The column's computed total is a number equal to [q]. *)
Definition SumIs (data : tdata) (columns : list string) (name : string) (q : Q) : Prop :=
  exists s, sum_column_data_by_name data columns name true = Ok (Some s) /\ s == q.

Lemma columnat_inj columns n1 n2 i : ColumnAt columns n1 i -> ColumnAt columns n2 i -> n1 = n2.
Proof. intros [A _] [B _]. congruence. Qed.
Lemma columnat_fun columns n i j : ColumnAt columns n i -> ColumnAt columns n j -> i = j.
Proof.
  intros A B. apply index_of_ColumnAt in A, B. congruence.
Qed.

Lemma set_nth_length i c r : length (set_nth i c r) = length r.
Proof. revert i; induction r as [|x t IH]; intros [|i]; simpl; auto. Qed.
Lemma set_nth_same i c r : (i < length r)%nat -> nth_error (set_nth i c r) i = Some c.
Proof.
  revert i; induction r as [|x t IH]; intros [|i]; simpl; intro H; try lia; auto.
  apply IH. lia.
Qed.
Lemma set_nth_other i j c r : i <> j -> nth_error (set_nth i c r) j = nth_error r j.
Proof.
  revert i j; induction r as [|x t IH]; intros [|i] [|j] H; simpl; auto; congruence.
Qed.

Lemma count_pos {A} (l : list A) : l <> [] -> 0 < count l.
Proof.
  destruct l; [congruence|]. intros _. unfold count. simpl length.
  rewrite Nat2Z.inj_succ. unfold Qlt, inject_Z. simpl. lia.
Qed.

Lemma mean_times_count {A} (g : A -> Q) b : b <> [] -> mean_of g b * count b == total_of g b.
Proof.
  intro H. pose proof (count_pos b H). unfold mean_of. field. lra.
Qed.

Lemma scale_row_ok columns col i t r v n :
  ColumnAt columns col i -> ColumnAt columns "total" t -> col <> "total"%string ->
  length r = length columns ->
  CellHolds columns r col v -> CellHolds columns r "total" n ->
  exists r', scale_row i t r = Ok r' /\ length r' = length columns /\
    CellHolds columns r' col (v * n) /\
    (forall name w, name <> col -> CellHolds columns r name w -> CellHolds columns r' name w).
Proof.
  intros Hi Ht Hne HL (i' & q & Hi' & Hq & Eq) (t' & m & Ht' & Hm & Em).
  rewrite <- (columnat_fun _ _ _ _ Hi Hi') in Hq. rewrite <- (columnat_fun _ _ _ _ Ht Ht') in Hm.
  clear i' t' Hi' Ht'.
  exists (set_nth i (CNum (q * m)) r). unfold scale_row, cell_at. rewrite Hq, Hm. simpl.
  split; [reflexivity|]. split; [rewrite set_nth_length; exact HL|].
  assert (L : (i < length r)%nat) by (apply nth_error_Some; rewrite Hq; discriminate).
  split.
  - exists i, (q * m). split; [exact Hi|]. split; [apply set_nth_same; exact L|]. rewrite Eq, Em. reflexivity.
  - intros name w Hn (j & x & Hj & Hx & Ex). exists j, x. split; [exact Hj|]. split; [|exact Ex].
    rewrite set_nth_other; [exact Hx|]. intro K. subst j. apply Hn. eapply columnat_inj; eassumption.
Qed.

(** Row invariant while the loop runs: [done] columns hold group totals. *)
Section Prep.
Context {A : Type} (fields : list (string * (A -> Q))) (columns : list string).
Hypothesis Hnd : NoDup (map fst fields).
Hypothesis Htot : ~ In "total"%string (map fst fields).

Definition RowState (done : list string) (b : list A) (r : row) : Prop :=
  length r = length columns /\ b <> [] /\ CellHolds columns r "total" (count b) /\
  forall name g, In (name, g) fields ->
    (In name done -> CellHolds columns r name (total_of g b)) /\
    (~ In name done -> CellHolds columns r name (mean_of g b)).

Lemma fields_fun name g g' : In (name, g) fields -> In (name, g') fields -> g = g'.
Proof.
  revert Hnd. clear. induction fields as [|[n h] t IH]; simpl; intros N; [contradiction|].
  inversion N; subst. intros [E|E] [E'|E'].
  - congruence.
  - injection E as -> ->. exfalso. apply H1. apply (in_map fst) in E'. exact E'.
  - injection E' as -> ->. exfalso. apply H1. apply (in_map fst) in E. exact E.
  - apply IH; assumption.
Qed.

Lemma RowState_step done col g i t b r :
  In (col, g) fields -> ~ In col done ->
  ColumnAt columns col i -> ColumnAt columns "total" t ->
  RowState done b r ->
  exists r', scale_row i t r = Ok r' /\ RowState (col :: done) b r'.
Proof.
  intros Hin Hd Hi Ht (HL & HB & HT & HF).
  assert (Hne : col <> "total"%string).
  { intros ->. apply Htot. apply (in_map fst) in Hin. exact Hin. }
  destruct (scale_row_ok columns col i t r (mean_of g b) (count b)) as (r' & E & L & C & O); auto.
  { apply (proj2 (HF col g Hin)). exact Hd. }
  exists r'. split; [exact E|]. split; [exact L|]. split; [exact HB|]. split.
  - apply O; [congruence|exact HT].
  - intros name g' Hg'. destruct (string_dec name col) as [->|Hn].
    + split; [|intro K; exfalso; apply K; left; reflexivity].
      intros _. rewrite (fields_fun _ _ _ Hg' Hin).
      destruct C as (j & q & Hj & Hq & Eq). exists j, q. split; [exact Hj|]. split; [exact Hq|].
      rewrite Eq. apply mean_times_count; exact HB.
    + split.
      * intros [K|K]; [congruence|]. apply O; [exact Hn|]. apply (proj1 (HF name g' Hg')). exact K.
      * intro K. apply O; [exact Hn|]. apply (proj2 (HF name g' Hg')). intro; apply K; right; assumption.
Qed.

Lemma mapM_Forall2 {X Y Z} (P : X -> Y -> Prop) (Q : X -> Z -> Prop) (f : Y -> res Z) xs ys :
  (forall x y, P x y -> exists z, f y = Ok z /\ Q x z) ->
  Forall2 P xs ys -> exists zs, mapM f ys = Ok zs /\ Forall2 Q xs zs.
Proof.
  intros H F. induction F as [|x y xs ys Hxy F IH]; simpl; [exists []; split; constructor|].
  destruct (H x y Hxy) as [z [-> Hz]]. destruct IH as [zs [-> Hzs]]. simpl.
  exists (z :: zs). split; [reflexivity|]. constructor; assumption.
Qed.

Lemma scale_columns_state cols done groups data :
  (forall c, In c cols -> In c (map fst fields)) -> NoDup cols -> (forall c, In c cols -> ~ In c done) ->
  groups <> [] ->
  Forall2 (RowState done) groups data ->
  exists d, scale_columns data columns cols = Ok d /\ Forall2 (RowState (rev cols ++ done)) groups d.
Proof.
  revert done data. induction cols as [|c cols IH]; intros done data Hc Hn Hd Hg HF; simpl.
  - exists data. split; [reflexivity|exact HF].
  - assert (Hin : exists g, In (c, g) fields).
    { specialize (Hc c (or_introl eq_refl)). apply in_map_iff in Hc.
      destruct Hc as [[n g] [<- H]]. exists g. exact H. }
    destruct Hin as [g Hin].
    destruct groups as [|b0 groups0]; [congruence|]. destruct data as [|r0 data0]; [inversion HF|].
    assert (R0 : RowState done b0 r0) by (inversion HF; assumption).
    destruct R0 as (_ & _ & (t & _ & Ht & _) & HF0).
    destruct (proj2 (HF0 c g Hin) (Hd c (or_introl eq_refl))) as (i & _ & Hi & _).
    destruct (mapM_Forall2 (RowState done) (RowState (c :: done)) (scale_row i t) _ _
       (fun b r => RowState_step done c g i t b r Hin (Hd c (or_introl eq_refl)) Hi Ht) HF) as [d [E HF']].
    destruct (IH (c :: done) d) as [d' [E' HF'']]; auto.
    { intros x Hx. apply Hc. right; exact Hx. }
    { inversion Hn; assumption. }
    { intros x Hx [->|K]; [inversion Hn; contradiction|]. apply (Hd x); [right; exact Hx|exact K]. }
    exists d'. split.
    + unfold scale_column, scale_column_by. apply index_of_ColumnAt in Hi, Ht. rewrite Hi, Ht.
      change (mapM (scale_row i t) (r0 :: data0)) with (mapM (scale_row i t) (r0 :: data0)) in E.
      rewrite E. simpl. exact E'.
    + rewrite <- app_assoc. exact HF''.
Qed.

Lemma state_sum done name G groups data :
  groups <> [] -> Forall2 (RowState done) groups data ->
  (forall b r, RowState done b r -> CellHolds columns r name (G b)) ->
  SumIs data columns name (qsum (map G groups)).
Proof.
  intros Hg HF HC.
  assert (exists i, ColumnAt columns name i) as [i Hi].
  { destruct HF as [|b r ? ? H]; [congruence|]. destruct (HC _ _ H) as (i & _ & Hi & _). eauto. }
  assert (K : Forall2 (fun b r => exists q, nth_error r i = Some (CNum q) /\ q == G b) groups data).
  { clear Hg. induction HF as [|b r ? ? H]; constructor; auto.
    destruct (HC _ _ H) as (j & q & Hj & Hq & Eq). rewrite (columnat_fun _ _ _ _ Hj Hi) in Hq. eauto. }
  assert (V : exists l, column_data_by_name data columns name = Ok (Some l) /\ nansum l == qsum (map G groups) /\
              (groups <> [] -> forallb is_nan l = false)).
  { unfold column_data_by_name. apply index_of_ColumnAt in Hi. rewrite Hi. unfold column_at.
    clear Hg HF HC Hi.
    assert (X : exists cs l, mapM (cell_at i) data = Ok cs /\ mapM to_float cs = Ok l /\
        nansum l == qsum (map G groups) /\ (groups <> [] -> forallb is_nan l = false)).
    { induction K as [|b r bs rs [q [Hq Eq]] K IH]; simpl.
      - exists [], []. repeat split; try reflexivity. congruence.
      - destruct IH as (cs & l & -> & El & Es & _). unfold cell_at at 1. rewrite Hq. simpl.
        exists (CNum q :: cs), (Some q :: l). split; [reflexivity|]. simpl. rewrite El. simpl.
        split; [reflexivity|]. split; [rewrite Es, Eq; reflexivity|]. reflexivity. }
    destruct X as (cs & l & -> & El & Es & Hn). simpl. rewrite El. simpl. exists l. auto. }
  destruct V as (l & El & Es & Hn). unfold SumIs, sum_column_data_by_name. rewrite El. simpl.
  rewrite (Hn Hg). exists (nansum l). split; [reflexivity|exact Es].
Qed.
End Prep.

Lemma qsum_concat {A} (g : A -> Q) groups : qsum (map (total_of g) groups) == total_of g (concat groups).
Proof.
  induction groups as [|b t IH]; simpl; [reflexivity|].
  unfold total_of in *. rewrite map_app, qsum_app, IH. reflexivity.
Qed.
Lemma count_concat {A} (groups : list (list A)) : qsum (map count groups) == count (concat groups).
Proof.
  induction groups as [|b t IH]; simpl; [reflexivity|].
  rewrite IH. unfold count. rewrite app_length, Nat2Z.inj_add, inject_Z_plus. reflexivity.
Qed.

(** Main facts about prepared data. *)
Lemma prepared {A} (fields : list (string * (A -> Q))) columns groups data cols :
  NoDup (map fst fields) -> ~ In "total"%string (map fst fields) ->
  (forall c, In c cols -> In c (map fst fields)) -> NoDup cols ->
  Summaries fields columns groups data ->
  exists d, scale_columns data columns cols = Ok d /\
    SumIs d columns "total" (count (concat groups)) /\
    (forall name g, In (name, g) fields -> In name cols -> SumIs d columns name (total_of g (concat groups))) /\
    (forall name g, In (name, g) fields -> ~ In name cols -> SumIs d columns name (qsum (map (mean_of g) groups))).
Proof.
  intros H1 H2 H3 H4 [Hg HF].
  assert (HF0 : Forall2 (RowState fields columns []) groups data).
  { clear Hg. induction HF as [|b r ? ? [L N T F] HF IH]; constructor; auto.
    split; [exact L|]. split; [exact N|]. split; [exact T|]. intros name g Hin. split; [intros []|auto]. }
  destruct (scale_columns_state fields columns H1 H2 cols [] groups data H3 H4 ltac:(auto) Hg HF0) as [d [E HF1]].
  exists d. split; [exact E|]. split; [|split].
  - destruct (state_sum fields columns (rev cols ++ []) "total" count groups d Hg HF1) as (s & Es & Eq).
    { intros b r (_ & _ & T & _). exact T. }
    exists s. split; [exact Es|]. rewrite Eq. apply count_concat.
  - intros name g Hin Hc. destruct (state_sum fields columns (rev cols ++ []) name (total_of g) groups d Hg HF1) as (s & Es & Eq).
    { intros b r (_ & _ & _ & F). apply (proj1 (F name g Hin)). rewrite app_nil_r. rewrite <- in_rev. exact Hc. }
    exists s. split; [exact Es|]. rewrite Eq. apply qsum_concat.
  - intros name g Hin Hc. apply (state_sum fields columns (rev cols ++ []) name (mean_of g) groups d Hg HF1).
    intros b r (_ & _ & _ & F). apply (proj2 (F name g Hin)). rewrite app_nil_r. rewrite <- in_rev. exact Hc.
Qed.

Lemma Summaries_count {A} (fields : list (string * (A -> Q))) columns groups data :
  Summaries fields columns groups data -> 0 < count (concat groups).
Proof.
  intros [Hg HF]. apply count_pos. destruct HF as [|b r ? ? [_ Hb _ _] _]; [congruence|].
  destruct b; [congruence|]. simpl. discriminate.
Qed.

(** Every list of non-empty groups has summaries. *)
Lemma nodup_columnat names i n : NoDup names -> nth_error names i = Some n -> ColumnAt names n i.
Proof.
  intros N H. split; [exact H|]. intros j Hj K.
  rewrite NoDup_nth_error in N. assert (j = i).
  { apply N; [apply nth_error_Some; rewrite K; discriminate|congruence]. }
  lia.
Qed.

Lemma line_of_summary {A} (fields : list (string * (A -> Q))) b :
  NoDup (line_columns fields) -> b <> [] -> SummaryRow fields (line_columns fields) b (line_of fields b).
Proof.
  intros N Hb. constructor.
  - unfold line_of, line_columns. simpl. rewrite !map_length. reflexivity.
  - exact Hb.
  - exists O, (count b). split; [apply nodup_columnat; [exact N|reflexivity]|]. split; reflexivity.
  - intros name g Hin. apply In_nth_error in Hin. destruct Hin as [i Hi].
    exists (S i), (mean_of g b). split; [apply nodup_columnat; [exact N|]|].
    + simpl. rewrite nth_error_map, Hi. reflexivity.
    + split; [|reflexivity]. simpl. rewrite nth_error_map, Hi. reflexivity.
Qed.

Lemma lines_summaries {A} (fields : list (string * (A -> Q))) groups :
  NoDup (line_columns fields) -> groups <> [] -> (forall b, In b groups -> b <> []) ->
  Summaries fields (line_columns fields) groups (map (line_of fields) groups).
Proof.
  intros N Hg Hb. split; [exact Hg|]. clear Hg.
  induction groups as [|b t IH]; simpl; constructor.
  - apply line_of_summary; [exact N|apply Hb; left; reflexivity].
  - apply IH. intros; apply Hb; right; assumption.
Qed.

(** Decidable duplicate-freeness of literal name lists. *)
Fixpoint nodupb (l : list string) : bool :=
  match l with [] => true | x :: t => negb (existsb (String.eqb x) t) && nodupb t end.
Lemma nodupb_ok l : nodupb l = true -> NoDup l.
Proof.
  induction l as [|x t IH]; simpl; intro H; constructor.
  - apply andb_prop in H. destruct H as [H _]. intro K.
    assert (existsb (String.eqb x) t = true) by (apply existsb_exists; exists x; split; [exact K|apply String.eqb_refl]).
    rewrite H0 in H. discriminate.
  - apply IH. apply andb_prop in H. tauto.
Qed.
