(** Proofs about multi-category contingency tables. *)
From Verif Require Import PyBase ColumnModel BaseSpec BaseProofs MctsModel MctsSpec.
From Coq Require Import Permutation Lqa.
From Verif Require Import CtcProofs.
From Coq Require Import List.
Open Scope string_scope.
Open Scope Q_scope.

Lemma columnAt_fun columns name i j : ColumnAt columns name i -> ColumnAt columns name j -> i = j.
Proof.
  intros [A B] [C D]. destruct (Nat.lt_trichotomy i j) as [H|[H|H]]; [|assumption|].
  - exfalso. exact (D i H A).
  - exfalso. exact (B j H C).
Qed.
Lemma columnAt_name columns name name' i : ColumnAt columns name i -> ColumnAt columns name' i -> name = name'.
Proof. intros [A _] [B _]. congruence. Qed.
Lemma columnAt_in columns name : In name columns -> exists i, ColumnAt columns name i.
Proof.
  intro H. destruct (index_of name columns) as [i|] eqn:E.
  - exists i. apply index_of_ColumnAt. assumption.
  - apply index_of_None in E. contradiction.
Qed.
Lemma numberIn_in columns r name q : NumberIn columns r name q -> In name columns.
Proof. intros [i [[H _] _]]. apply nth_error_In in H. assumption. Qed.

Lemma col_index_ok columns name i : ColumnAt columns name i -> col_index columns name = Ok i.
Proof. intro H. unfold col_index. apply index_of_ColumnAt in H. rewrite H. reflexivity. Qed.
Lemma row_value_ok columns r name i c :
  ColumnAt columns name i -> nth_error r i = Some c -> row_value r columns name = Ok c.
Proof.
  intros H E. unfold row_value. rewrite (col_index_ok _ _ _ H). cbn [bind]. unfold cell_at. rewrite E. reflexivity.
Qed.
Lemma as_int_inject z : as_int (CNum (inject_Z z)) = Ok z.
Proof. unfold as_int, inject_Z. cbn [Qnum Qden]. rewrite Z.mod_1_r, Z.div_1_r. reflexivity. Qed.

Lemma set_nth_length {A : Type} i (v : A) l : length (set_nth i v l) = length l.
Proof. revert i; induction l as [|x l IH]; intros [|i]; simpl; congruence. Qed.
Lemma set_nth_same {A : Type} i (v : A) l : (i < length l)%nat -> nth_error (set_nth i v l) i = Some v.
Proof.
  revert i; induction l as [|x l IH]; intros [|i] H; simpl in *; try lia; [reflexivity|]. apply IH. lia.
Qed.
Lemma set_nth_other {A : Type} i j (v : A) l : i <> j -> nth_error (set_nth i v l) j = nth_error l j.
Proof.
  revert i j; induction l as [|x l IH]; intros [|i] [|j] H; simpl; try reflexivity; [congruence|].
  apply IH. congruence.
Qed.

(* ---------- the summed row ---------- *)
Definition total_cell (t : option Q) : cell := match t with Some q => CNum q | None => CMiss end.
Lemma sum_counts_ok data columns (T : nat -> option Q) ks r :
  length r = length columns ->
  (forall k, In k ks -> In (numbered "fi_oj_" k) columns /\
     sum_column_data_by_name data columns (numbered "fi_oj_" k) true = Ok (T k)) ->
  exists r', sum_counts data columns ks r = Ok r' /\ length r' = length columns /\
    (forall k i, In k ks -> ColumnAt columns (numbered "fi_oj_" k) i ->
       exists k', numbered "fi_oj_" k' = numbered "fi_oj_" k /\ In k' ks /\ nth_error r' i = Some (total_cell (T k'))) /\
    (forall name i, ColumnAt columns name i -> (forall k, In k ks -> name <> numbered "fi_oj_" k) ->
       nth_error r' i = nth_error r i).
Proof.
  revert r. induction ks as [|k ks IH]; intros r HL H.
  - exists r. repeat split; try assumption. intros k i [].
  - destruct (H k (or_introl eq_refl)) as [Hin Hs]. destruct (columnAt_in _ _ Hin) as [i Hi].
    cbn [sum_counts]. change ("fi_oj_" ++ str k) with (numbered "fi_oj_" k). rewrite Hs. cbn [bind].
    rewrite (col_index_ok _ _ _ Hi). cbn [bind].
    set (r1 := set_nth i (match T k with Some q => CNum q | None => CMiss end) r).
    destruct (IH r1) as [r' [E [L [A B]]]].
    + unfold r1. rewrite set_nth_length. assumption.
    + intros k' Hk'. apply H. right. assumption.
    + exists r'. split; [exact E|]. split; [exact L|]. split.
      * intros k' i' Hk' Hi'.
        destruct (in_dec string_dec (numbered "fi_oj_" k') (map (numbered "fi_oj_") ks)) as [Hm|Hm].
        -- apply in_map_iff in Hm. destruct Hm as [k2 [E2 Hk2]].
           rewrite <- E2 in Hi'. destruct (A k2 i' Hk2 Hi') as [k3 [E3 [I3 N3]]].
           exists k3. split; [congruence|]. split; [right; assumption|assumption].
        -- destruct Hk' as [->|Hk']; [|exfalso; apply Hm; apply in_map; assumption].
           exists k'. split; [reflexivity|]. split; [left; reflexivity|].
           rewrite (B _ _ Hi'). 2:{ intros k2 Hk2 E2. apply Hm. rewrite E2. apply in_map. assumption. }
           rewrite (columnAt_fun _ _ _ _ Hi' Hi). unfold r1, total_cell. apply set_nth_same.
           rewrite HL. destruct Hi as [Hi _]. apply nth_error_Some. congruence.
      * intros name i' Hi' Hn. rewrite (B name i' Hi') by (intros; apply Hn; right; assumption).
        unfold r1. apply set_nth_other. intro E2. subst i'.
        apply (Hn k (or_introl eq_refl)). exact (columnAt_name _ _ _ _ Hi' Hi).
Qed.

(* ---------- the filled table ---------- *)
Definition num (c : cell) : Q := match c with CNum q => q | _ => 0 end.
Definition is_num (c : cell) : bool := match c with CNum _ => true | _ => false end.
Lemma sum_cells_num l : forallb is_num l = true -> exists s, sum_cells l = Ok s /\ s == qsum (map num l).
Proof.
  induction l as [|c l IH]; simpl; intro H.
  - exists 0. split; reflexivity.
  - destruct c as [q| |s]; simpl in H; try discriminate H. destruct (IH H) as [s [E V]].
    rewrite E. cbn [bind]. eexists. split; [reflexivity|]. simpl. rewrite V. reflexivity.
Qed.
Lemma sum_cells_miss l : forallb is_num l = false -> sum_cells l = Err TypeError.
Proof.
  induction l as [|c l IH]; simpl; intro H; [discriminate H|].
  destruct c as [q| |s]; simpl in H; try reflexivity. rewrite (IH H). reflexivity.
Qed.

Definition at_pos (table : list (list cell)) (p : nat * nat) : option cell :=
  match nth_error table (fst p) with Some l => nth_error l (snd p) | None => None end.
Definition square (n : nat) (table : list (list cell)) : Prop :=
  length table = n /\ forall l, In l table -> length l = n.
Definition put (p : nat * nat) (c : cell) (table : list (list cell)) : list (list cell) :=
  set_nth (fst p) (set_nth (snd p) c (nth (fst p) table [])) table.

Lemma set_nth_In {A : Type} i (v : A) l x : In x (set_nth i v l) -> x = v \/ In x l.
Proof.
  revert i; induction l as [|y l IH]; intros [|i] H; simpl in *; try tauto.
  - destruct H as [->|H]; tauto.
  - destruct H as [->|H]; [tauto|]. destruct (IH _ H); tauto.
Qed.
Lemma square_put n p c table : square n table -> (fst p < n)%nat -> square n (put p c table).
Proof.
  intros [A B] H. unfold put. split; [rewrite set_nth_length; assumption|].
  intros l Hl. apply set_nth_In in Hl. destruct Hl as [->|Hl]; [|auto].
  rewrite set_nth_length. apply B. apply nth_In. lia.
Qed.
Lemma nth_error_nth' {A : Type} i (l : list A) d : (i < length l)%nat -> nth_error l i = Some (nth i l d).
Proof. intro H. apply nth_error_nth'. assumption. Qed.
Lemma at_put n p c table : square n table -> (fst p < n)%nat -> (snd p < n)%nat -> at_pos (put p c table) p = Some c.
Proof.
  intros [A B] H1 H2. unfold at_pos, put. rewrite set_nth_same by lia. apply set_nth_same.
  rewrite B; [assumption|]. apply nth_In. lia.
Qed.
Lemma at_put_other n p q c table : square n table -> (fst p < n)%nat -> p <> q ->
  at_pos (put p c table) q = at_pos table q.
Proof.
  intros [A B] H1 Hne. unfold at_pos, put. destruct (Nat.eq_dec (fst p) (fst q)) as [E|E].
  - rewrite <- E. rewrite set_nth_same by lia. rewrite (nth_error_nth' (fst p) table []) by lia.
    apply set_nth_other. intro E2. apply Hne. destruct p, q; simpl in *; congruence.
  - rewrite set_nth_other by assumption. reflexivity.
Qed.

(** Sum of the numbers of a table and of its diagonal. *)
Definition tsum (table : list (list cell)) : Q := qsum (map num (concat table)).
Definition dsum (n : nat) (table : list (list cell)) : Q := qsum (map num (diagonal n table)).
Lemma set_sum i c l d : nth_error l i = Some d ->
  qsum (map num (set_nth i c l)) == qsum (map num l) - num d + num c.
Proof.
  revert i; induction l as [|x l IH]; intros [|i] H; simpl in *; try discriminate H.
  - injection H as ->. lra.
  - rewrite (IH _ H). lra.
Qed.
Lemma concat_set i l' l table : nth_error table i = Some l ->
  qsum (map num (concat (set_nth i l' table))) == qsum (map num (concat table)) - qsum (map num l) + qsum (map num l').
Proof.
  revert i; induction table as [|x t IH]; intros [|i] H; simpl in *; try discriminate H.
  - injection H as ->. rewrite !map_app, !qsum_app. lra.
  - rewrite !map_app, !qsum_app. rewrite (IH _ H). lra.
Qed.
Lemma tsum_put n p c d table : square n table -> at_pos table p = Some d -> (fst p < n)%nat ->
  tsum (put p c table) == tsum table - num d + num c.
Proof.
  intros [A B] H1 Hf. unfold at_pos in H1. unfold tsum, put.
  destruct (nth_error table (fst p)) as [l|] eqn:E; [|discriminate H1].
  rewrite (concat_set _ _ _ _ E), (nth_error_nth _ _ [] E), (set_sum _ _ _ _ H1). lra.
Qed.
Lemma diag_at n table i : square n table -> (i < n)%nat -> nth i (nth i table []) CMiss = nth i (nth i table []) CMiss.
Proof. reflexivity. Qed.
Lemma qsum_map_ext {A : Type} (f g : A -> Q) l : (forall x, In x l -> f x == g x) -> qsum (map f l) == qsum (map g l).
Proof.
  induction l as [|x l IH]; simpl; intro H; [reflexivity|].
  rewrite (H x (or_introl eq_refl)), IH; [reflexivity|]. intros; apply H; auto.
Qed.
Definition cell_or (o : option cell) : Q := match o with Some c => num c | None => 0 end.
Lemma dsum_at n table : square n table -> dsum n table == qsum (map (fun i => cell_or (at_pos table (i, i))) (seq 0 n)).
Proof.
  intros [A B]. unfold dsum, diagonal. rewrite map_map. apply qsum_map_ext.
  intros i Hi. apply in_seq in Hi. unfold at_pos. cbn [fst snd].
  rewrite (nth_error_nth' i table []) by lia.
  rewrite (nth_error_nth' i (nth i table []) CMiss); [reflexivity|].
  rewrite B; [lia|]. apply nth_In. lia.
Qed.
Lemma qsum_one {A : Type} (f g : A -> Q) l a d : NoDup l -> In a l -> (forall x, In x l -> x <> a -> f x == g x) ->
  f a == g a + d -> qsum (map f l) == qsum (map g l) + d.
Proof.
  induction l as [|x l IH]; intros ND Hin He Ha; [destruct Hin|].
  inversion ND as [|x' l' Hx Hl]; subst. simpl. destruct Hin as [->|Hin].
  - rewrite Ha. rewrite (qsum_map_ext f g); [lra|]. intros y Hy. apply He; [right; assumption|].
    intro; subst. contradiction.
  - rewrite (He x); [|left; reflexivity|intro; subst; contradiction].
    rewrite IH; [lra|assumption|assumption| |assumption]. intros; apply He; [right|]; assumption.
Qed.
Lemma dsum_put n p c d table : square n table -> at_pos table p = Some d -> (fst p < n)%nat -> (snd p < n)%nat ->
  dsum n (put p c table) == dsum n table + (if (fst p =? snd p)%nat then num c - num d else 0).
Proof.
  intros HS Ha H1 H2. rewrite !dsum_at by (try apply square_put; assumption).
  destruct p as [i j]. cbn [fst snd] in *. destruct (Nat.eqb_spec i j) as [E|E].
  - subst j. apply (qsum_one _ _ _ i).
    + apply seq_NoDup.
    + apply in_seq. lia.
    + intros x _ Hx. rewrite (at_put_other n) by (try assumption; congruence). reflexivity.
    + rewrite (at_put n) by assumption. rewrite Ha. simpl. lra.
  - rewrite Qplus_0_r. apply qsum_map_ext. intros x _.
    rewrite (at_put_other n) by (try assumption; congruence). reflexivity.
Qed.
Lemma all_num_put n p c table : square n table -> (fst p < n)%nat ->
  forallb is_num (concat table) = true -> is_num c = true -> forallb is_num (concat (put p c table)) = true.
Proof.
  intros [A B] H H1 H2. rewrite forallb_forall in *. intros x Hx. apply in_concat in Hx.
  destruct Hx as [l [Hl Hx]]. unfold put in Hl. apply set_nth_In in Hl. destruct Hl as [->|Hl].
  - apply set_nth_In in Hx. destruct Hx as [->|Hx]; [assumption|]. apply H1. apply in_concat.
    exists (nth (fst p) table []). split; [apply nth_In; lia|assumption].
  - apply H1. apply in_concat. eauto.
Qed.
Lemma py_index_ok n z : (1 <= z <= Z.of_nat n)%Z -> py_index n (z - 1) = Ok (Z.to_nat (z - 1)).
Proof.
  intro H. unfold py_index.
  replace ((0 <=? z - 1)%Z && (z - 1 <? Z.of_nat n)%Z) with true; [reflexivity|]. symmetry.
  apply andb_true_iff. split; [apply Z.leb_le|apply Z.ltb_lt]; lia.
Qed.

Definition pos_of (p : Z * Z) : nat * nat := (Z.to_nat (fst p - 1), Z.to_nat (snd p - 1)).
Lemma pos_of_inj n p q : (1 <= fst p <= n /\ 1 <= snd p <= n)%Z -> (1 <= fst q <= n /\ 1 <= snd q <= n)%Z ->
  pos_of p = pos_of q -> p = q.
Proof.
  unfold pos_of. destruct p as [a b], q as [c d]. cbn [fst snd]. intros H1 H2 E.
  assert (E1 := f_equal fst E). assert (E2 := f_equal snd E). cbn [fst snd] in E1, E2.
  f_equal; lia.
Qed.

Lemma fill_ok columns r n (layout : list (Z * Z)) : forall (cells : list cell) start table,
  square n table -> length cells = length layout -> NoDup layout ->
  (forall p, In p layout -> (1 <= fst p <= Z.of_nat n /\ 1 <= snd p <= Z.of_nat n)%Z) ->
  (forall k i j, nth_error layout k = Some (i, j) ->
     row_value r columns (numbered "i_value_" (start + k)) = Ok (CNum (inject_Z i)) /\
     row_value r columns (numbered "j_value_" (start + k)) = Ok (CNum (inject_Z j))) ->
  (forall k c, nth_error cells k = Some c -> row_value r columns (numbered "fi_oj_" (start + k)) = Ok c) ->
  (forall p, In p layout -> at_pos table (pos_of p) = Some (CNum 0)) ->
  exists table', fill_table columns r (seq start (length layout)) table = Ok table' /\ square n table' /\
    (forallb is_num (concat table) = true -> forallb is_num cells = true ->
       forallb is_num (concat table') = true) /\
    (forallb is_num cells = false -> forallb is_num (concat table') = false) /\
    (forall p q, (fst q < n)%nat -> at_pos table q = Some p -> ~ In q (map pos_of layout) -> at_pos table' q = Some p) /\
    tsum table' == tsum table + qsum (map num cells) /\
    dsum n table' == dsum n table + diagonal_count layout (map num cells).
Proof.
  induction layout as [|[i j] layout IH]; intros cells start table HS HL ND HR HC HF HZ.
  - destruct cells; [|discriminate HL]. exists table. simpl.
    split; [reflexivity|]. split; [assumption|]. split; [auto|]. split; [intro H; discriminate H|].
    split; [auto|]. split; lra.
  - destruct cells as [|c cells]; [discriminate HL|].
    inversion ND as [|x y Hx Hl]; subst.
    destruct (HC 0%nat i j eq_refl) as [Ri Rj]. pose proof (HF 0%nat c eq_refl) as Rc.
    rewrite Nat.add_0_r in Ri, Rj, Rc.
    pose proof (HR _ (or_introl eq_refl)) as [Bi Bj]. cbn [fst snd] in Bi, Bj.
    cbn [length seq fill_table].
    change ("i_value_" ++ str start) with (numbered "i_value_" start).
    change ("j_value_" ++ str start) with (numbered "j_value_" start).
    change ("fi_oj_" ++ str start) with (numbered "fi_oj_" start).
    rewrite Ri, Rj, Rc. cbn [bind]. rewrite as_int_inject. cbn [bind].
    destruct HS as [S1 S2]. rewrite S1. rewrite (py_index_ok _ _ Bi). cbn [bind].
    rewrite as_int_inject. cbn [bind].
    rewrite (S2 (nth (Z.to_nat (i - 1)) table [])) by (apply nth_In; lia).
    rewrite (py_index_ok _ _ Bj). cbn [bind].
    change (set_nth (Z.to_nat (i - 1)) _ table) with (put (pos_of (i, j)) c table).
    assert (HS : square n table) by (split; assumption).
    assert (F1 : (fst (pos_of (i, j)) < n)%nat) by (unfold pos_of; cbn [fst snd]; lia).
    assert (F2 : (snd (pos_of (i, j)) < n)%nat) by (unfold pos_of; cbn [fst snd]; lia).
    assert (Z0 : at_pos table (pos_of (i, j)) = Some (CNum 0)) by (apply HZ; left; reflexivity).
    assert (Hnot : ~ In (pos_of (i, j)) (map pos_of layout)).
    { intro H. apply in_map_iff in H. destruct H as [q [E Hq]]. apply Hx.
      rewrite <- (pos_of_inj (Z.of_nat n) q (i, j)); [assumption| | |assumption]; apply HR; [right|left]; auto. }
    destruct (IH cells (S start) (put (pos_of (i, j)) c table)) as [t' [E [Sq [N1 [N2 [K [T D]]]]]]].
    + apply square_put; assumption.
    + simpl in HL. lia.
    + assumption.
    + intros p Hp. apply HR. right. assumption.
    + intros k i' j' Hk. replace (S start + k)%nat with (start + S k)%nat by lia. apply HC. exact Hk.
    + intros k c' Hk. replace (S start + k)%nat with (start + S k)%nat by lia. apply HF. exact Hk.
    + intros p Hp. rewrite (at_put_other n); [apply HZ; right; assumption|assumption|assumption|].
      intro E. apply Hnot. rewrite E. apply in_map. assumption.
    + exists t'. split; [exact E|]. split; [exact Sq|]. split; [|split; [|split; [|split]]].
      * intros Ht Hc. simpl in Hc. apply andb_true_iff in Hc. destruct Hc as [Hc1 Hc2].
        apply N1; [|assumption]. apply (all_num_put n); assumption.
      * intro Hc. simpl in Hc. destruct (forallb is_num cells) eqn:Ec; [|apply N2; reflexivity].
        rewrite andb_true_r in Hc.
        pose proof (K c (pos_of (i, j)) F1 (at_put n _ _ _ HS F1 F2) Hnot) as Kc.
        apply not_true_iff_false. intro Ha. rewrite forallb_forall in Ha.
        unfold at_pos in Kc. destruct (nth_error t' _) as [l|] eqn:El; [|discriminate Kc].
        apply nth_error_In in El. apply nth_error_In in Kc. rewrite Ha in Hc; [discriminate Hc|].
        apply in_concat. eauto.
      * intros p q Hq Hp Hn. simpl in Hn. apply K; [assumption| |tauto].
        rewrite (at_put_other n); [assumption|assumption|assumption|tauto].
      * rewrite T, (tsum_put n _ _ _ _ HS Z0 F1). simpl. lra.
      * rewrite D, (dsum_put n _ _ _ _ HS Z0 F1 F2). cbn [map diagonal_count].
        unfold pos_of at 1 2. cbn [fst snd].
        replace (Z.to_nat (i - 1) =? Z.to_nat (j - 1))%nat with (i =? j)%Z.
        2:{ destruct (Z.eqb_spec i j) as [->|Hij]; symmetry; [apply Nat.eqb_refl|apply Nat.eqb_neq; lia]. }
        destruct (i =? j)%Z; simpl; lra.
Qed.

(* ---------- the score ---------- *)
Lemma prefix_differs a b k k' x y : a <> b -> numbered (String a x) k <> numbered (String b y) k'.
Proof. unfold numbered. simpl. intros H E. injection E as E _. contradiction. Qed.

Lemma square_zero n : square n (repeat (repeat (CNum 0) n) n).
Proof. split; [apply repeat_length|]. intros l H. apply repeat_spec in H. subst. apply repeat_length. Qed.
Lemma nth_error_repeat' {A : Type} (x : A) n i : (i < n)%nat -> nth_error (repeat x n) i = Some x.
Proof. revert i; induction n as [|n IH]; intros [|i] H; simpl; try lia; [reflexivity|]. apply IH. lia. Qed.
Lemma at_zero n p : (fst p < n)%nat -> (snd p < n)%nat -> at_pos (repeat (repeat (CNum 0) n) n) p = Some (CNum 0).
Proof. intros H1 H2. unfold at_pos. rewrite nth_error_repeat' by assumption. apply nth_error_repeat'. assumption. Qed.
Lemma zero_num n : forallb is_num (concat (repeat (repeat (CNum 0) n) n)) = true.
Proof.
  apply forallb_forall. intros x H. apply in_concat in H. destruct H as [l [Hl Hx]].
  apply repeat_spec in Hl. subst. apply repeat_spec in Hx. subst. reflexivity.
Qed.
Lemma qsum_zeros l : (forall x, In x l -> x = CNum 0) -> qsum (map num l) == 0.
Proof.
  induction l as [|x l IH]; simpl; intro H; [reflexivity|].
  rewrite (H x (or_introl eq_refl)). rewrite IH by (intros; apply H; auto). reflexivity.
Qed.
Lemma zero_tsum n : tsum (repeat (repeat (CNum 0) n) n) == 0.
Proof.
  unfold tsum. apply qsum_zeros. intros x H. apply in_concat in H. destruct H as [l [Hl Hx]].
  apply repeat_spec in Hl. subst. apply repeat_spec in Hx. assumption.
Qed.
Lemma zero_dsum n : dsum n (repeat (repeat (CNum 0) n) n) == 0.
Proof.
  rewrite (dsum_at n _ (square_zero n)).
  rewrite (qsum_map_ext _ (fun _ => 0)).
  - induction (seq 0 n); simpl; [reflexivity|]. rewrite IHl. reflexivity.
  - intros i H. apply in_seq in H. rewrite at_zero by (cbn [fst snd]; lia). reflexivity.
Qed.
Lemma diag_num n table : square n table -> forallb is_num (concat table) = true ->
  forallb is_num (diagonal n table) = true.
Proof.
  intros [A B] H. rewrite forallb_forall in *. intros x Hx. unfold diagonal in Hx.
  apply in_map_iff in Hx. destruct Hx as [i [E Hi]]. apply in_seq in Hi. apply H. apply in_concat.
  exists (nth i table []). split; [apply nth_In; lia|]. rewrite <- E. apply nth_In. rewrite B; [lia|].
  apply nth_In. lia.
Qed.

Lemma all_defined_cells ts :
  match all_defined ts with
  | Some l => forallb is_num (map total_cell ts) = true /\ map num (map total_cell ts) = l
  | None => forallb is_num (map total_cell ts) = false
  end.
Proof.
  induction ts as [|[q|] ts IH]; simpl; [split; reflexivity| |reflexivity].
  destruct (all_defined ts) as [l|]; simpl.
  - destruct IH as [A B]. split; [assumption|]. f_equal. assumption.
  - assumption.
Qed.

Lemma hss_round e d a d' a' :
  d == d' -> a == a' ->
  exists r, catch std_exns (pyround (pydiv (pylit (d - e * a)) (pylit (a - e * a)))) None = Ok r /\
    Published (hss_ec e d' a') r.
Proof.
  intros E1 E2. unfold hss_ec, oratio, pylit, pydiv. cbn [bind].
  destruct (Qeq_bool (a - e * a) 0) eqn:E.
  - apply Qeq_bool_iff in E. eexists. split; [reflexivity|].
    destruct (Qeq_dec (a' - e * a') 0) as [_|C]; [exact I|].
    exfalso. apply C. rewrite <- E2. assumption.
  - apply Qeq_bool_neq in E. cbn [pyround bind catch]. eexists. split; [reflexivity|].
    destruct (Qeq_dec (a' - e * a') 0) as [C|C].
    + exfalso. apply E. rewrite E2. assumption.
    + apply nearest_compat with (v := (d - e * a) / (a - e * a)); [|apply rhu_nearest].
      rewrite E1, E2. reflexivity.
Qed.

Lemma catch_type {A : Type} (d : A) : catch std_exns (Err TypeError) d = Ok d.
Proof. reflexivity. Qed.
Lemma value_raw columns first rest n ec layout (T : nat -> option Q) :
  let data := first :: rest in
  Rectangular data columns -> Layout n layout -> LineHeader columns n ec layout first ->
  (forall k, (k < length layout)%nat -> In (numbered "fi_oj_" k) columns /\
     sum_column_data_by_name data columns (numbered "fi_oj_" k) true = Ok (T k)) ->
  exists r, calculate_mcts_hss_ec data columns = Ok r /\
    Published (match all_defined (map T (seq 0 (length layout))) with
               | Some ts => hss_ec ec (diagonal_count layout ts) (qsum ts)
               | None => None
               end) r.
Proof.
  intros data HR [Hn [HL [ND HB]]] [Hcat [Hec Hij]] HT.
  assert (HL' : Z.to_nat (n * n) = length layout) by lia.
  destruct Hcat as [ic [Aic Nic]]. destruct Hec as [ie [Aie Nie]].
  unfold calculate_mcts_hss_ec, data. fold data.
  rewrite (row_value_ok _ _ _ _ _ Aic Nic), (row_value_ok _ _ _ _ _ Aie Nie). cbn [bind].
  rewrite as_int_inject. cbn [bind]. rewrite HL'.
  destruct (sum_counts_ok data columns T (seq 0 (length layout)) first) as [r' [Es [Lr [Rf Ro]]]].
  - apply HR. left. reflexivity.
  - intros k Hk. apply in_seq in Hk. apply HT. lia.
  - rewrite Es. cbn [bind].
    assert (Hout : forall name i c, ColumnAt columns name i -> (forall k, name <> numbered "fi_oj_" k) ->
              nth_error first i = Some c -> row_value r' columns name = Ok c).
    { intros name i c Hi Hne E. apply (row_value_ok _ _ _ i); [assumption|].
      rewrite (Ro name i Hi); [assumption|]. intros; apply Hne. }
    destruct (fill_ok columns r' (Z.to_nat n) layout (map total_cell (map T (seq 0 (length layout)))) 0
                (repeat (repeat (CNum 0) (Z.to_nat n)) (Z.to_nat n))) as [t [Ef [Sq [N1 [N2 [_ [TS DS]]]]]]].
    + apply square_zero.
    + rewrite !map_length, seq_length. reflexivity.
    + assumption.
    + intros [i j] Hp. destruct (HB i j Hp). cbn [fst snd]. lia.
    + intros k i j Hk. cbn [Nat.add]. destruct (Hij k i j Hk) as [[a [Ha Na]] [b [Hb Nb]]]. split.
      * apply (Hout _ a); [assumption| |assumption]. intro k'. apply prefix_differs. discriminate.
      * apply (Hout _ b); [assumption| |assumption]. intro k'. apply prefix_differs. discriminate.
    + intros k c Hk. cbn [Nat.add].
      assert (Hlt : (k < length layout)%nat).
      { apply nth_error_Some_length in Hk || (assert (H : nth_error (map total_cell (map T (seq 0 (length layout)))) k <> None) by congruence; apply nth_error_Some in H; rewrite !map_length, seq_length in H; exact H). }
      destruct (HT k Hlt) as [Hin Hsum]. destruct (columnAt_in _ _ Hin) as [i Hi].
      destruct (Rf k i) as [k' [E' [Ik' Nk']]]; [apply in_seq; lia|assumption|].
      rewrite (row_value_ok _ _ _ _ _ Hi Nk'). f_equal.
      assert (ET : T k' = T k).
      { apply in_seq in Ik'. destruct (HT k') as [_ Hs']; [lia|]. rewrite E' in Hs'. congruence. }
      rewrite ET. rewrite map_map, nth_error_map in Hk.
      rewrite (nth_error_nth' k (seq 0 (length layout)) 0%nat) in Hk by (rewrite seq_length; assumption).
      rewrite seq_nth in Hk by assumption. cbn [option_map Nat.add] in Hk. congruence.
    + intros [i j] Hp. destruct (HB i j Hp). apply at_zero; unfold pos_of; cbn [fst snd]; lia.
    + rewrite Ef. cbn [bind]. pose proof (all_defined_cells (map T (seq 0 (length layout)))) as AD.
      destruct (all_defined (map T (seq 0 (length layout)))) as [ts|].
      * destruct AD as [AD1 AD2]. pose proof (N1 (zero_num _) AD1) as HN.
        destruct (sum_cells_num _ (diag_num _ _ Sq HN)) as [d [Ed Vd]].
        destruct (sum_cells_num _ HN) as [a [Ea Va]].
        rewrite Ed, Ea. cbn [bind]. apply hss_round.
        -- rewrite Vd. fold (dsum (Z.to_nat n) t). rewrite DS, zero_dsum, AD2. lra.
        -- rewrite Va. fold (tsum t). rewrite TS, zero_tsum, AD2. lra.
      * pose proof (N2 AD) as HN.
        destruct (forallb is_num (diagonal (Z.to_nat n) t)) eqn:Ed.
        -- destruct (sum_cells_num _ Ed) as [d [Ed' _]]. rewrite Ed'. cbn [bind].
           rewrite (sum_cells_miss _ HN). cbn [bind]. eexists. split; [reflexivity|exact I].
        -- rewrite (sum_cells_miss _ Ed). cbn [bind]. eexists. split; [reflexivity|exact I].
Qed.

(* ---------- totals up to equality ---------- *)
Lemma all_defined_eq l l' : Forall2 oeq l l' ->
  match all_defined l, all_defined l' with
  | Some a, Some b => Forall2 Qeq a b
  | None, None => True
  | _, _ => False
  end.
Proof.
  induction 1 as [|x y l l' H HF IH]; simpl; [constructor|].
  destruct x as [x|], y as [y|]; simpl in H; try contradiction; [|exact I].
  destruct (all_defined l), (all_defined l'); try contradiction; [|exact I].
  constructor; assumption.
Qed.
Lemma qsum_eq a b : Forall2 Qeq a b -> qsum a == qsum b.
Proof. induction 1; simpl; [reflexivity|]. rewrite H, IHForall2. reflexivity. Qed.
Lemma diagonal_eq layout a b : Forall2 Qeq a b -> diagonal_count layout a == diagonal_count layout b.
Proof.
  intro H. revert layout. induction H; intros [|[i j] layout]; simpl; try reflexivity.
  rewrite IHForall2. destruct (i =? j)%Z; rewrite ?H; reflexivity.
Qed.
Lemma hss_ec_eq e d d' a a' : d == d' -> a == a' -> oeq (hss_ec e d a) (hss_ec e d' a').
Proof.
  intros E1 E2. unfold hss_ec, oratio.
  destruct (Qeq_dec (a - e * a) 0) as [H|H], (Qeq_dec (a' - e * a') 0) as [H'|H']; simpl.
  - exact I.
  - apply H'. rewrite <- E2. assumption.
  - apply H. rewrite E2. assumption.
  - rewrite E1, E2. reflexivity.
Qed.
Lemma forall2_seq {A B : Type} (P : A -> B -> Prop) (f : nat -> A) (l : list B) :
  (forall k t, nth_error l k = Some t -> P (f k) t) -> Forall2 P (map f (seq 0 (length l))) l.
Proof.
  revert f. induction l as [|x l IH]; intros f H; simpl; [constructor|].
  constructor; [apply (H 0%nat); reflexivity|]. rewrite <- seq_shift, map_map. apply IH.
  intros k t Hk. apply (H (S k)). exact Hk.
Qed.

Lemma C41_value' columns first rest n ec layout totals :
  Rectangular (first :: rest) columns ->
  Layout n layout -> LineHeader columns n ec layout first ->
  length totals = length layout ->
  (forall k t, nth_error totals k = Some t ->
     In (numbered "fi_oj_" k) columns /\
     NumericColumn (first :: rest) columns (numbered "fi_oj_" k) /\
     ColumnTotal (first :: rest) columns (numbered "fi_oj_" k) t) ->
  exists r, calculate_mcts_hss_ec (first :: rest) columns = Ok r /\
    Published (match all_defined totals with
               | Some ts => hss_ec ec (diagonal_count layout ts) (qsum ts)
               | None => None
               end) r.
Proof.
  intros HR HL HH Hlen HT.
  set (T := fun k => match sum_column_data_by_name (first :: rest) columns (numbered "fi_oj_" k) true with
                     | Ok t => t | Err _ => None end).
  destruct (value_raw columns first rest n ec layout T HR HL HH) as [r [E P]].
  - intros k Hk. destruct (nth_error totals k) as [t|] eqn:Ek.
    + destruct (HT k t Ek) as [A [B C]]. split; [assumption|].
      destruct (sum_column_total _ _ _ _ HR B C) as [s [Es _]]. unfold T. rewrite Es. reflexivity.
    + apply nth_error_None in Ek. lia.
  - exists r. split; [exact E|].
    assert (F : Forall2 oeq (map T (seq 0 (length layout))) totals).
    { rewrite <- Hlen. apply forall2_seq. intros k t Hk. destruct (HT k t Hk) as [A [B C]].
      destruct (sum_column_total _ _ _ _ HR B C) as [s [Es Eo]]. unfold T. rewrite Es. assumption. }
    pose proof (all_defined_eq _ _ F) as G.
    destruct (all_defined (map T (seq 0 (length layout)))) as [a|], (all_defined totals) as [b|]; try contradiction.
    + rewrite <- (hss_ec_eq ec _ _ _ _ (diagonal_eq layout _ _ G) (qsum_eq _ _ G)). exact P.
    + exact P.
Qed.

(* ---------- lines with one layout ---------- *)
Lemma diagonal_plus layout (f g : nat -> Q) ks :
  diagonal_count layout (map (fun k => f k + g k) ks) ==
  diagonal_count layout (map f ks) + diagonal_count layout (map g ks).
Proof.
  revert ks; induction layout as [|[i j] layout IH]; intros [|k ks]; simpl; try lra.
  rewrite IH. destruct (i =? j)%Z; lra.
Qed.
Lemma diagonal_zero layout (ks : list nat) : diagonal_count layout (map (fun _ => 0) ks) == 0.
Proof.
  revert ks; induction layout as [|[i j] layout IH]; intros [|k ks]; simpl; try reflexivity.
  rewrite IH. destruct (i =? j)%Z; reflexivity.
Qed.
Lemma qsum_plus (f g : nat -> Q) ks : qsum (map (fun k => f k + g k) ks) == qsum (map f ks) + qsum (map g ks).
Proof. induction ks as [|k ks IH]; simpl; [lra|]. rewrite IH. lra. Qed.
Lemma qsum_zero (ks : list nat) : qsum (map (fun _ => 0) ks) == 0.
Proof. induction ks as [|k ks IH]; simpl; [lra|]. rewrite IH. lra. Qed.
Lemma map_nth_seq (l : list Q) : map (fun k => nth k l 0) (seq 0 (length l)) = l.
Proof.
  induction l as [|x l IH]; simpl; [reflexivity|]. f_equal. rewrite <- seq_shift, map_map. exact IH.
Qed.
Definition sums_at (counts : list (list Q)) (k : nat) : Q := qsum (map (fun cs => nth k cs 0) counts).
Lemma sums_total counts m : (forall cs, In cs counts -> length cs = m) ->
  qsum (map (sums_at counts) (seq 0 m)) == qsum (map qsum counts).
Proof.
  induction counts as [|c counts IH]; intro H; unfold sums_at; simpl.
  - apply qsum_zero.
  - fold (sums_at counts). change (fun k => _ + qsum _) with (fun k => nth k c 0 + sums_at counts k).
    rewrite (qsum_plus (fun k => nth k c 0)). rewrite IH by (intros; apply H; right; assumption).
    rewrite <- (H c (or_introl eq_refl)), map_nth_seq. reflexivity.
Qed.
Lemma sums_diagonal layout counts m : (forall cs, In cs counts -> length cs = m) ->
  diagonal_count layout (map (sums_at counts) (seq 0 m)) == qsum (map (diagonal_count layout) counts).
Proof.
  induction counts as [|c counts IH]; intro H; unfold sums_at; simpl.
  - apply diagonal_zero.
  - change (fun k => _ + qsum _) with (fun k => nth k c 0 + sums_at counts k).
    rewrite (diagonal_plus layout (fun k => nth k c 0)). rewrite IH by (intros; apply H; right; assumption).
    rewrite <- (H c (or_introl eq_refl)), map_nth_seq. reflexivity.
Qed.
Lemma all_defined_some l : all_defined (map Some l) = Some l.
Proof. induction l as [|x l IH]; simpl; [reflexivity|]. rewrite IH. reflexivity. Qed.

Lemma present_lines columns n ec layout counts data k i :
  Forall2 (Line columns n ec layout) counts data -> (k < length layout)%nat ->
  ColumnAt columns (numbered "fi_oj_" k) i -> present_at i data = map (fun cs => nth k cs 0) counts.
Proof.
  intros H Hk Hi. induction H as [|cs r counts data [_ [HL HC]] HF IH]; simpl; [reflexivity|].
  destruct (HC k (nth k cs 0)) as [i' [Hi' N]]; [apply nth_error_nth'; lia|].
  rewrite (columnAt_fun _ _ _ _ Hi Hi'), N. f_equal. rewrite <- (columnAt_fun _ _ _ _ Hi Hi'). exact IH.
Qed.
Lemma numeric_lines columns n ec layout counts data k :
  Forall2 (Line columns n ec layout) counts data -> (k < length layout)%nat ->
  NumericColumn data columns (numbered "fi_oj_" k).
Proof.
  intros H Hk i r s Hi Hr. induction H as [|cs r' counts data [_ [HL HC]] HF IH]; [destruct Hr|].
  destruct Hr as [->|Hr]; [|apply IH; assumption].
  destruct (HC k (nth k cs 0)) as [i' [Hi' N]]; [apply nth_error_nth'; lia|].
  rewrite (columnAt_fun _ _ _ _ Hi Hi'), N. discriminate.
Qed.
Lemma lines_length columns n ec layout counts data :
  Forall2 (Line columns n ec layout) counts data -> forall cs, In cs counts -> length cs = length layout.
Proof.
  intro H. induction H as [|cs r counts data [_ [HL _]] HF IH]; intros c Hc; [destruct Hc|].
  destruct Hc as [->|Hc]; auto.
Qed.

Lemma C41_pooled' columns n ec layout counts data :
  Rectangular data columns -> Layout n layout -> data <> [] ->
  Forall2 (Line columns n ec layout) counts data ->
  exists r, calculate_mcts_hss_ec data columns = Ok r /\
    Published (hss_ec ec (qsum (map (diagonal_count layout) counts)) (qsum (map qsum counts))) r.
Proof.
  intros HR HL Hne HF. destruct data as [|first rest]; [contradiction|].
  assert (Hc : exists c0 cs0, counts = c0 :: cs0 /\ Line columns n ec layout c0 first).
  { inversion HF; subst. eauto. }
  destruct Hc as [c0 [cs0 [Ec Hc0]]]. pose proof (proj1 Hc0) as HH.
  destruct (C41_value' columns first rest n ec layout (map Some (map (sums_at counts) (seq 0 (length layout)))) HR HL HH) as [r [E P]].
  - rewrite !map_length, seq_length. reflexivity.
  - intros k t Hk.
    assert (Hlt : (k < length layout)%nat).
    { assert (H : nth_error (map Some (map (sums_at counts) (seq 0 (length layout)))) k <> None) by congruence.
      apply nth_error_Some in H. rewrite !map_length, seq_length in H. exact H. }
    rewrite map_map, nth_error_map in Hk.
    rewrite (nth_error_nth' k (seq 0 (length layout)) 0%nat) in Hk by (rewrite seq_length; assumption).
    rewrite seq_nth in Hk by assumption. cbn [option_map Nat.add] in Hk. injection Hk as <-.
    assert (Hin : In (numbered "fi_oj_" k) columns).
    { destruct Hc0 as [_ [Hl0 Hcc]]. apply (numberIn_in columns first _ (nth k c0 0)). apply Hcc.
      apply nth_error_nth'. lia. }
    split; [assumption|]. split; [exact (numeric_lines _ _ _ _ _ _ _ HF Hlt)|].
    split; [intro C; contradiction|]. intros i Hi. rewrite (present_lines _ _ _ _ _ _ _ _ HF Hlt Hi).
    split.
    + intro C. rewrite Ec in C. discriminate C.
    + intros _. eexists. split; [reflexivity|]. reflexivity.
  - exists r. split; [exact E|]. rewrite all_defined_some in P.
    pose proof (lines_length _ _ _ _ _ _ HF) as Hlen.
    rewrite <- (hss_ec_eq ec _ _ _ _ (sums_diagonal layout counts _ Hlen) (sums_total counts _ Hlen)). exact P.
Qed.

Lemma forall2_perm {A B : Type} (P : A -> B -> Prop) la lb lb' :
  Forall2 P la lb -> Permutation lb lb' -> exists la', Permutation la la' /\ Forall2 P la' lb'.
Proof.
  intros HF HP. revert la HF. induction HP; intros la HF.
  - exists la. split; [reflexivity|assumption].
  - inversion HF; subst. destruct (IHHP _ H3) as [la' [A1 A2]]. exists (x0 :: la'). split; [constructor|constructor]; assumption.
  - inversion HF as [|a1 b1 l1 m1 H1 H2]; subst. inversion H2 as [|a2 b2 l2 m2 H3 H4]; subst.
    exists (a2 :: a1 :: l2). split; [apply perm_swap|]. repeat constructor; assumption.
  - destruct (IHHP1 _ HF) as [l1 [A1 A2]]. destruct (IHHP2 _ A2) as [l2 [B1 B2]].
    exists l2. split; [etransitivity; eassumption|assumption].
Qed.
Lemma published_same x r r' : Published x r -> Published x r' -> oeq r r'.
Proof.
  destruct x as [v|], r as [w|], r' as [w'|]; simpl; try tauto.
  intros H1 H2. exact (nearest_unique _ _ _ _ H1 H2).
Qed.

Lemma diagonal_bounds layout l : length l = length layout -> (forall c, In c l -> 0 <= c) ->
  0 <= diagonal_count layout l <= qsum l.
Proof.
  revert layout; induction l as [|c l IH]; intros [|[i j] layout] HL H; simpl in *; try lia; [lra|].
  assert (0 <= c) by auto. destruct (IH layout); [lia|auto|]. destruct (i =? j)%Z; lra.
Qed.
Lemma qsum_bounds {A : Type} (f g : A -> Q) l : (forall x, In x l -> 0 <= f x <= g x) ->
  0 <= qsum (map f l) <= qsum (map g l).
Proof.
  induction l as [|x l IH]; simpl; intro H; [lra|].
  destruct (H x (or_introl eq_refl)). destruct IH; [auto|]. lra.
Qed.

(* ---------- which exceptions can occur ---------- *)
Definition Raises {A : Type} (m : res A) : Prop :=
  match m with Ok _ => True | Err e => In e [TypeError; ZeroDivisionError; ValueError; IndexError] end.
Lemma raises_bind {A B : Type} (m : res A) (f : A -> res B) :
  Raises m -> (forall a, Raises (f a)) -> Raises (bind m f).
Proof. destruct m as [a|e]; simpl; intros H1 H2; [apply H2|assumption]. Qed.
Lemma raises_mapM {A B : Type} (f : A -> res B) l : (forall a, Raises (f a)) -> Raises (mapM f l).
Proof.
  intro H. induction l as [|x l IH]; cbn [mapM]; [exact I|].
  apply raises_bind; [apply H|]. intro b. apply raises_bind; [exact IH|]. intro; exact I.
Qed.
Lemma raises_cell i r : Raises (cell_at i r).
Proof. unfold cell_at. destruct (nth_error r i); simpl; tauto. Qed.
Lemma raises_col columns name : Raises (col_index columns name).
Proof. unfold col_index. destruct (index_of name columns); simpl; tauto. Qed.
Lemma raises_row r columns name : Raises (row_value r columns name).
Proof. apply raises_bind; [apply raises_col|]. intro. apply raises_cell. Qed.
Lemma raises_sum data columns name : Raises (sum_column_data_by_name data columns name true).
Proof.
  unfold sum_column_data_by_name. apply raises_bind.
  - unfold column_data_by_name. destruct (index_of name columns) as [i|]; [|exact I].
    assert (H : Raises (cs <- column_at data i;; fs <- mapM to_float cs;; Ok (Some fs))).
    { apply raises_bind; [apply raises_mapM; intro; apply raises_cell|]. intro.
      apply raises_bind; [|intro; exact I]. apply raises_mapM. intros [q| |t]; simpl; tauto. }
    destruct (cs <- column_at data i;; fs <- mapM to_float cs;; Ok (Some fs)) as [v|e]; [exact I|].
    unfold catch. destruct (existsb (exn_eqb e) [IndexError]); [exact I|exact H].
  - intros [l|]; [|exact I]. destruct (forallb is_nan l); exact I.
Qed.
Lemma raises_int c : Raises (as_int c).
Proof. destruct c as [q| |t]; simpl; try tauto. destruct (_ =? 0)%Z; simpl; tauto. Qed.
Lemma raises_index n z : Raises (py_index n z).
Proof. unfold py_index. destruct (_ && _); [exact I|]. destruct (_ && _); simpl; tauto. Qed.
Lemma raises_counts data columns ks r : Raises (sum_counts data columns ks r).
Proof.
  revert r; induction ks as [|k ks IH]; intro r; [exact I|]. cbn [sum_counts].
  apply raises_bind; [apply raises_sum|]. intro t. apply raises_bind; [apply raises_col|]. intro i. apply IH.
Qed.
Lemma raises_fill columns r ks table : Raises (fill_table columns r ks table).
Proof.
  revert table; induction ks as [|k ks IH]; intro t; [exact I|]. cbn [fill_table].
  apply raises_bind; [apply raises_row|]. intro ic. apply raises_bind; [apply raises_row|]. intro jc.
  apply raises_bind; [apply raises_row|]. intro f. apply raises_bind; [apply raises_int|]. intro i.
  apply raises_bind; [apply raises_index|]. intro i'. cbv zeta. apply raises_bind; [apply raises_int|]. intro j.
  apply raises_bind; [apply raises_index|]. intro j'. apply IH.
Qed.
Lemma raises_cells l : Raises (sum_cells l).
Proof.
  induction l as [|c l IH]; [exact I|]. destruct c as [q| |t]; simpl; try tauto.
  apply raises_bind; [exact IH|]. intro; exact I.
Qed.
Lemma raises_catch {A : Type} (m : res A) d : Raises m -> (exists r, catch std_exns m d = Ok r) \/ catch std_exns m d = Err IndexError.
Proof.
  destruct m as [a|e]; simpl; intro H; [left; eauto|].
  destruct H as [<-|[<-|[<-|[<-|[]]]]]; simpl; eauto.
Qed.
Lemma raises_pyround_div a b : Raises (pyround (pydiv (pylit a) (pylit b))).
Proof. unfold pydiv, pylit. cbn [bind]. destruct (Qeq_bool b 0); simpl; tauto. Qed.

(* ---------- numbers in example rows ---------- *)
Lemma numberIn_dec columns r name q :
  (match index_of name columns with
   | Some i => match nth_error r i with Some (CNum p) => p = q | _ => False end
   | None => False
   end) -> NumberIn columns r name q.
Proof.
  destruct (index_of name columns) as [i|] eqn:E; [|tauto].
  destruct (nth_error r i) as [[p| |t]|] eqn:N; try tauto. intros ->.
  exists i. split; [apply index_of_ColumnAt; assumption|assumption].
Qed.
Lemma ex_layout : Layout 2 mcts_ex_layout.
Proof.
  split; [lia|]. split; [reflexivity|]. split.
  - repeat constructor; simpl; intuition congruence.
  - intros i j H. simpl in H. repeat destruct H as [H|H]; try (injection H as <- <-; lia). destruct H.
Qed.
Lemma ex_layout2 : Layout 2 mcts_ex_layout2.
Proof.
  split; [lia|]. split; [reflexivity|]. split.
  - repeat constructor; simpl; intuition congruence.
  - intros i j H. simpl in H. repeat destruct H as [H|H]; try (injection H as <- <-; lia). destruct H.
Qed.
Lemma ex_line layout a b c d :
  length layout = 4%nat -> Line mcts_ex_columns 2 (1 # 2) layout [a; b; c; d] (mcts_ex_row layout [a; b; c; d]).
Proof.
  intro H. destruct layout as [|[i0 j0] [|[i1 j1] [|[i2 j2] [|[i3 j3] [|]]]]]; try discriminate H.
  split; [split; [|split]|split; [reflexivity|]].
  - apply numberIn_dec. reflexivity.
  - apply numberIn_dec. reflexivity.
  - intros [|[|[|[|k]]]] i j E; simpl in E; try (injection E as <- <-; split; apply numberIn_dec; reflexivity).
    destruct k; discriminate E.
  - intros [|[|[|[|k]]]] x E; simpl in E; try (injection E as <-; apply numberIn_dec; reflexivity).
    destruct k; discriminate E.
Qed.
Lemma ex_rect layout counts : (forall cs, In cs counts -> length cs = 4%nat) -> length layout = 4%nat ->
  Rectangular (map (mcts_ex_row layout) counts) mcts_ex_columns.
Proof.
  intros H HL r Hr. apply in_map_iff in Hr. destruct Hr as [cs [<- Hc]]. apply H in Hc.
  destruct layout as [|[i0 j0] [|[i1 j1] [|[i2 j2] [|[i3 j3] [|]]]]]; try discriminate HL.
  destruct cs as [|? [|? [|? [|? [|]]]]]; try discriminate Hc. reflexivity.
Qed.
Lemma ex_rect0 : Rectangular mcts_ex_data mcts_ex_columns.
Proof. apply ex_rect; [|reflexivity]. intros cs [<-|[<-|[]]]; reflexivity. Qed.

(** The statements of PropertiesMcts.v. *)
Lemma C41_value_proof : forall columns first rest n ec layout totals,
  Rectangular (first :: rest) columns ->
  Layout n layout -> LineHeader columns n ec layout first ->
  length totals = length layout ->
  (forall k t, nth_error totals k = Some t ->
     In (numbered "fi_oj_" k) columns /\
     NumericColumn (first :: rest) columns (numbered "fi_oj_" k) /\
     ColumnTotal (first :: rest) columns (numbered "fi_oj_" k) t) ->
  exists r, calculate_mcts_hss_ec (first :: rest) columns = Ok r /\
    Published (match all_defined totals with
               | Some ts => hss_ec ec (diagonal_count layout ts) (qsum ts)
               | None => None
               end) r.
Proof.
  intros. apply (C41_value' columns first rest n); assumption.
Qed.

Lemma C41_value_case_proof :
  Rectangular mcts_ex_data mcts_ex_columns /\ Layout 2 mcts_ex_layout /\
  LineHeader mcts_ex_columns 2 (1 # 2) mcts_ex_layout (hd [] mcts_ex_data) /\
  (forall k t, nth_error mcts_ex_totals k = Some t ->
     In (numbered "fi_oj_" k) mcts_ex_columns /\
     NumericColumn mcts_ex_data mcts_ex_columns (numbered "fi_oj_" k) /\
     ColumnTotal mcts_ex_data mcts_ex_columns (numbered "fi_oj_" k) t) /\
  calculate_mcts_hss_ec mcts_ex_data mcts_ex_columns = Ok (Some (7142857 # 10000000)).
Proof.
  split; [exact ex_rect0|]. split; [exact ex_layout|]. split; [exact (proj1 (ex_line mcts_ex_layout 3 1 0 2 eq_refl))|].
  split; [|vm_compute; reflexivity].
  assert (HF : Forall2 (Line mcts_ex_columns 2 (1 # 2) mcts_ex_layout) mcts_ex_counts mcts_ex_data).
  { constructor; [apply ex_line; reflexivity|]. constructor; [apply ex_line; reflexivity|constructor]. }
  intros k t Hk.
  assert (Hlt : (k < 4)%nat) by (assert (H : nth_error mcts_ex_totals k <> None) by congruence; apply nth_error_Some in H; exact H).
  assert (Hin : In (numbered "fi_oj_" k) mcts_ex_columns).
  { destruct k as [|[|[|[|k]]]]; try lia; unfold mcts_ex_columns; simpl; tauto. }
  split; [exact Hin|]. split; [exact (numeric_lines _ _ _ _ _ _ _ HF Hlt)|].
  split; [intro C; contradiction|]. intros i Hi. rewrite (present_lines _ _ _ _ _ _ _ _ HF Hlt Hi).
  split; [intro C; discriminate C|]. intros _.
  destruct k as [|[|[|[|k]]]]; try lia; injection Hk as <-; eexists; (split; [reflexivity|]); vm_compute; reflexivity.
Qed.

Lemma C41_pooled_proof : forall columns n ec layout counts data,
  Rectangular data columns -> Layout n layout -> data <> [] ->
  Forall2 (Line columns n ec layout) counts data ->
  exists r, calculate_mcts_hss_ec data columns = Ok r /\
    Published (hss_ec ec (qsum (map (diagonal_count layout) counts)) (qsum (map qsum counts))) r.
Proof.
  intros columns n ec layout counts data. apply C41_pooled'.
Qed.

Lemma C41_pooled_case_proof :
  Rectangular mcts_ex_data mcts_ex_columns /\ Layout 2 mcts_ex_layout /\
  Forall2 (Line mcts_ex_columns 2 (1 # 2) mcts_ex_layout) mcts_ex_counts mcts_ex_data.
Proof.
  split; [exact ex_rect0|]. split; [exact ex_layout|].
  constructor; [apply ex_line; reflexivity|]. constructor; [apply ex_line; reflexivity|constructor].
Qed.

Lemma C41_order_proof : forall columns n ec layout counts data data',
  Rectangular data columns -> Layout n layout -> data <> [] ->
  Forall2 (Line columns n ec layout) counts data -> Permutation data data' ->
  exists r r', calculate_mcts_hss_ec data columns = Ok r /\
    calculate_mcts_hss_ec data' columns = Ok r' /\ oeq r r'.
Proof.
  intros columns n ec layout counts data data' HR HL Hne HF HP.
  destruct (forall2_perm _ _ _ _ HF HP) as [counts' [HC HF']].
  destruct (C41_pooled' _ _ _ _ _ _ HR HL Hne HF) as [r [E P]].
  destruct (C41_pooled' columns n ec layout counts' data') as [r' [E' P']]; try assumption.
  { apply (Rectangular_perm data); assumption. }
  { intro C. subst. apply Permutation_sym, Permutation_nil in HP. contradiction. }
  exists r, r'. split; [exact E|]. split; [exact E'|].
  apply (published_same _ _ _ P).
  rewrite (hss_ec_eq ec _ _ _ _ (qsum_perm _ _ (Permutation_map _ HC)) (qsum_perm _ _ (Permutation_map _ HC))). exact P'.
Qed.

Lemma C41_range_proof : forall columns n ec layout counts data,
  Rectangular data columns -> Layout n layout -> data <> [] ->
  Forall2 (Line columns n ec layout) counts data ->
  0 <= ec -> ec < 1 -> (forall l c, In l counts -> In c l -> 0 <= c) ->
  exists r, calculate_mcts_hss_ec data columns = Ok r /\
    (r = None <-> qsum (map qsum counts) == 0) /\
    (forall x, r = Some x -> x <= 1 /\ forall w, Nearest 7 (- (ec / (1 - ec))) w -> w <= x) /\
    (forall x, r = Some x -> qsum (map (diagonal_count layout) counts) == qsum (map qsum counts) -> x == 1).
Proof.
  intros columns n ec layout counts data HR HL Hne HF He0 He1 Hnn.
  destruct (C41_pooled' _ _ _ _ _ _ HR HL Hne HF) as [r [E P]]. exists r. split; [exact E|].
  pose proof (lines_length _ _ _ _ _ _ HF) as Hlen.
  assert (B : 0 <= qsum (map (diagonal_count layout) counts) <= qsum (map qsum counts)).
  { apply qsum_bounds. intros l Hl. apply diagonal_bounds; [auto|]. intros c Hc. exact (Hnn l c Hl Hc). }
  set (d := qsum (map (diagonal_count layout) counts)) in *. set (a := qsum (map qsum counts)) in *.
  unfold hss_ec, oratio in P. destruct (Qeq_dec (a - ec * a) 0) as [Z|Z].
  - destruct r as [x|]; [destruct P|].
    assert (Za : a == 0).
    { setoid_replace (a - ec * a) with ((1 - ec) * a) in Z by ring. apply Qmult_integral in Z. destruct Z; lra. }
    split; [split; [intros _; exact Za|reflexivity]|]. split; intros x Hx; discriminate Hx.
  - destruct r as [x|]; [|destruct P]. simpl in P.
    assert (Za : ~ a == 0). { intro C. apply Z. rewrite C. ring. }
    assert (Pa : 0 < a) by (destruct (Qlt_le_dec 0 a); [assumption|exfalso; apply Za; lra]).
    assert (Pd : 0 < a - ec * a).
    { setoid_replace (a - ec * a) with ((1 - ec) * a) by ring. apply Qmult_lt_0_compat; lra. }
    split; [split; [intro C; discriminate C|intro C; contradiction]|].
    assert (U : (d - ec * a) / (a - ec * a) <= 1) by (apply Qle_shift_div_r; lra).
    assert (L : - (ec / (1 - ec)) <= (d - ec * a) / (a - ec * a)).
    { apply Qle_shift_div_l; [assumption|].
      setoid_replace (- (ec / (1 - ec)) * (a - ec * a)) with (- (ec * a)) by (field; lra). lra. }
    split.
    + intros y Hy. injection Hy as <-. split.
      * rewrite (nearest_unique _ _ _ _ P (rhu_nearest _ 7)).
        apply (rhu_mono _ _ 7) in U. rewrite (rhu_fix 1 7 (multiple_1 7)) in U. exact U.
      * intros w Hw. rewrite (nearest_unique _ _ _ _ P (rhu_nearest _ 7)), (nearest_unique _ _ _ _ Hw (rhu_nearest _ 7)).
        apply rhu_mono. exact L.
    + intros y Hy Ed. injection Hy as <-. rewrite (nearest_unique _ _ _ _ P (rhu_nearest _ 7)).
      rewrite (rhu_compat _ 1); [apply (rhu_fix 1 7 (multiple_1 7))|]. rewrite Ed. field. assumption.
Qed.

Lemma C41_range_case_proof :
  forall l c, In l mcts_ex_counts -> In c l -> 0 <= c.
Proof.
  intros l c [<-|[<-|[]]] Hc; repeat (destruct Hc as [<-|Hc]; [discriminate|]); destruct Hc.
Qed.

Lemma C41_layouts_refuted_proof :
  exists columns n ec layout1 layout2 counts1 counts2 r1 r2 x y,
    Layout n layout1 /\ Layout n layout2 /\ Rectangular [r1; r2] columns /\
    Line columns n ec layout1 counts1 r1 /\ Line columns n ec layout2 counts2 r2 /\
    calculate_mcts_hss_ec [r1; r2] columns = Ok (Some x) /\
    calculate_mcts_hss_ec [r2; r1] columns = Ok (Some y) /\ ~ x == y.
Proof.
  exists mcts_ex_columns, 2%Z, (1 # 2), mcts_ex_layout, mcts_ex_layout2, [3; 0; 0; 0], [0; 1; 0; 0],
    (mcts_ex_row mcts_ex_layout [3; 0; 0; 0]), (mcts_ex_row mcts_ex_layout2 [0; 1; 0; 0]).
  eexists. eexists. split; [exact ex_layout|]. split; [exact ex_layout2|]. split.
  { intros r [<-|[<-|[]]]; reflexivity. }
  split; [apply ex_line; reflexivity|]. split; [apply ex_line; reflexivity|].
  split; [vm_compute; reflexivity|]. split; [vm_compute; reflexivity|]. intro C. vm_compute in C. discriminate C.
Qed.

Lemma C41_errors_proof : forall data columns,
  (exists r, calculate_mcts_hss_ec data columns = Ok r) \/
  calculate_mcts_hss_ec data columns = Err IndexError.
Proof.
  intros data columns. apply raises_catch. destruct data as [|first rest]; [simpl; tauto|].
  apply raises_bind; [apply raises_row|]. intro nc. apply raises_bind; [apply raises_row|]. intro ec.
  apply raises_bind; [apply raises_int|]. intro n. cbv zeta. apply raises_bind; [apply raises_counts|]. intro r.
  apply raises_bind; [apply raises_fill|]. intro t. apply raises_bind; [apply raises_cells|]. intro d.
  apply raises_bind; [apply raises_cells|]. intro a. destruct ec as [e| |s]; [apply raises_pyround_div|simpl; tauto|simpl; tauto].
Qed.

Lemma C41_missing_column_proof : forall data columns,
  data = [] \/ ~ In "n_cat" columns \/ ~ In "ec_value" columns ->
  calculate_mcts_hss_ec data columns = Err IndexError.
Proof.
  intros data columns H. destruct data as [|first rest]; [reflexivity|].
  destruct H as [H|[H|H]]; [discriminate H| |].
  - apply index_of_None in H. unfold calculate_mcts_hss_ec, row_value, col_index. rewrite H. reflexivity.
  - apply index_of_None in H. unfold calculate_mcts_hss_ec, row_value, col_index. rewrite H.
    destruct (index_of "n_cat" columns) as [i|]; [|reflexivity]. cbn [bind]. unfold cell_at.
    destruct (nth_error first i); reflexivity.
Qed.

Lemma C41_missing_column_case_proof :
  ~ In "ec_value" ["n_cat"].
Proof.
  simpl; intuition discriminate.
Qed.

Lemma C41_no_expected_proof : forall first rest columns i c q,
  ColumnAt columns "ec_value" i -> nth_error first i = Some c -> (forall e, c <> CNum e) ->
  calculate_mcts_hss_ec (first :: rest) columns <> Ok (Some q).
Proof.
  intros first rest columns i c q Hi Hc Hn. apply index_of_ColumnAt in Hi.
  assert (E : row_value first columns "ec_value" = Ok c) by (unfold row_value, col_index; rewrite Hi; cbn [bind]; unfold cell_at; rewrite Hc; reflexivity).
  unfold calculate_mcts_hss_ec. rewrite E.
  assert (C : forall m, m <> Ok (Some q) -> catch std_exns m None <> Ok (Some q)).
  { intros [a|e] H; cbn [catch]; [exact H|]. destruct (existsb (exn_eqb e) std_exns); discriminate. }
  apply C.
  repeat match goal with |- bind ?m _ <> _ => destruct m; cbn [bind]; [|discriminate] end.
  cbv zeta. repeat match goal with |- bind ?m _ <> _ => destruct m; cbn [bind]; [|discriminate] end.
  destruct c as [e| |s]; [destruct (Hn e eq_refl)|discriminate|discriminate].
Qed.

Lemma C41_no_expected_case_proof : exists r,
  nth_error r 1 = Some CMiss /\ nth_error mcts_ex_columns 1 = Some "ec_value" /\
  calculate_mcts_hss_ec [r] mcts_ex_columns = Ok None.
Proof.
  exists (match mcts_ex_row mcts_ex_layout [3; 1; 0; 2] with n :: _ :: t => n :: CMiss :: t | l => l end).
  split; [reflexivity|]. split; [reflexivity|]. vm_compute. reflexivity.
Qed.

