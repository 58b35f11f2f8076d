From Coq Require Import Ascii Sorted Permutation.
From Verif Require Import PyBase ColumnModel BaseSpec BaseProofs CtcModel CtcSpec CtcProofs AggModel AggProofs.
From Verif Require Import EventSpec EventProofs RocModel RocSpec.
From Coq Require Import List Lia Lqa.
Open Scope string_scope.

(* ---------- texts ---------- *)
Definition opchar (c : ascii) : Prop := In c (list_ascii_of_string "<=>").
Definition Quiet (s : string) : Prop := forall c rest, s = String c rest -> ~ opchar c.

Lemma after_quiet op s : In op alternatives -> Quiet s -> after op s = None.
Proof.
  intros H Q. simpl in H.
  destruct s as [|c s]; [repeat (destruct H as [<-|H]; [reflexivity|]); destruct H|].
  assert (forall a t, opchar a -> op = String a t -> after op (String c s) = None) as K.
  { intros a t Ha ->. simpl. destruct (Ascii.eqb_spec a c) as [->|]; [|reflexivity]. exfalso. exact (Q c s eq_refl Ha). }
  repeat (destruct H as [<-|H]; [eapply K; [|reflexivity]; unfold opchar; simpl; tauto|]). destruct H.
Qed.
Lemma flat_none {A B} (f : A -> list B) l : (forall x, In x l -> f x = []) -> flat_map f l = [].
Proof. induction l as [|x l IH]; intro H; [reflexivity|]. simpl. rewrite H by (left; reflexivity). apply IH. intros; apply H; right; assumption. Qed.
Lemma star_quiet n last s : Quiet s -> star n last s = [(last, s)].
Proof.
  intro Q. destruct n as [|n]; [reflexivity|]. cbn [star]. rewrite flat_none; [reflexivity|].
  intros op H. rewrite after_quiet by assumption. reflexivity.
Qed.
Lemma after_other a op c s : a <> c -> after (String a op) (String c s) = None.
Proof. intro H. simpl. destruct (Ascii.eqb_spec a c); [contradiction|reflexivity]. Qed.
Lemma quiet_cons s : Quiet s -> forall c, opchar c -> match s with String d _ => Ascii.eqb c d = false | EmptyString => True end.
Proof.
  intros Q c Hc. destruct s as [|d s]; [exact I|]. destruct (Ascii.eqb_spec c d) as [->|]; [|reflexivity].
  exfalso. exact (Q d s eq_refl Hc).
Qed.

(** The ways of matching an operator followed by a quiet text. *)
Definition op_of (op : string) : option string := if String.eqb op "" then None else Some op.
Lemma star_op op k rest : In (op, k) op_ranks -> Quiet rest ->
  star (String.length (op ++ rest)) None (op ++ rest) =
    ((if String.eqb op "<=" then [(Some "<", ("=" ++ rest)%string)] else [])
     ++ [(op_of op, rest)] ++ (if String.eqb op ">=" then [(Some ">", ("=" ++ rest)%string)] else [])
     ++ (if String.eqb op "" then [] else [(None, (op ++ rest)%string)]))%list.
Proof.
  intros H Q.
  assert (E1 : after "=" rest = None).
  { destruct rest as [|d r]; [reflexivity|]. apply after_other. intro E. apply (Q d r eq_refl). subst d. unfold opchar. simpl. tauto. }
  assert (Q2 : forall n last, star n last (String "=" rest) = [(last, String "=" rest)]).
  { intros n last. destruct n as [|n]; [reflexivity|]. cbn [star]. rewrite flat_none; [reflexivity|].
    intros x Hx. simpl in Hx. destruct Hx as [<-|[<-|[<-|[<-|[<-|[]]]]]]; try reflexivity.
    change (after "==" (String "=" rest)) with (after "=" rest). rewrite E1. reflexivity. }
  assert (F : forall a op c s, after (String a op) (String c s) = if Ascii.eqb a c then after op s else None) by reflexivity.
  assert (E0 : forall s, after "" s = Some s) by reflexivity.
  simpl in H.
  destruct H as [E|[E|[E|[E|[E|[E|[]]]]]]]; injection E as <- _; cbn [append String.length];
    [| | |rewrite (star_quiet _ _ rest Q); reflexivity| |];
    cbn [star flat_map alternatives]; rewrite !F; cbn [Ascii.eqb Bool.eqb]; rewrite ?E0, ?F; cbn [Ascii.eqb Bool.eqb];
    rewrite ?E1, ?E0; rewrite ?Q2, ?(star_quiet _ _ rest Q);
    rewrite ?(after_quiet "<" rest), ?(after_quiet "<=" rest), ?(after_quiet "==" rest), ?(after_quiet ">=" rest), ?(after_quiet ">" rest)
      by (assumption || (simpl; tauto)); reflexivity.
Qed.

Lemma digit_is c : Digit c -> is_digit c = true.
Proof. unfold Digit. simpl. intro H. repeat (destruct H as [<-|H]; [reflexivity|]). destruct H. Qed.
Lemma is_digit_in c : is_digit c = true -> Digit c.
Proof.
  unfold Digit. destruct c as [b0 b1 b2 b3 b4 b5 b6 b7].
  destruct b0, b1, b2, b3, b4, b5, b6, b7; intro H; vm_compute in H; try discriminate H; simpl; tauto.
Qed.
Lemma line_all s : NoNewline s -> line s = s.
Proof.
  unfold NoNewline. induction s as [|c s IH]; intro H; [reflexivity|]. simpl in *.
  destruct (Ascii.eqb_spec c newline) as [->|N]; [exfalso; apply H; left; reflexivity|].
  rewrite IH; [reflexivity|]. intro K. apply H. right. exact K.
Qed.
Lemma number_quiet s : NumberText s -> Quiet s /\ starts_number s = true /\ line s = s.
Proof.
  intros (N & sign & d & rest & Hs & D & ->). split; [|split; [|apply line_all; exact N]].
  - intros c r E Hc. simpl in Hs. destruct Hs as [<-|[<-|[]]].
    + simpl in E. injection E as -> _. unfold Digit in D. unfold opchar in Hc. simpl in D, Hc.
      destruct Hc as [<-|[<-|[<-|[]]]]; repeat (destruct D as [D|D]; [discriminate D|]); destruct D.
    + simpl in E. injection E as <- _. unfold opchar in Hc. simpl in Hc.
      destruct Hc as [H|[H|[H|[]]]]; discriminate H.
  - apply digit_is in D. simpl in Hs.
    assert (Ascii.eqb d "-"%char = false) as E by (destruct (Ascii.eqb_spec d "-"%char) as [->|]; [discriminate D|reflexivity]).
    destruct Hs as [<-|[<-|[]]]; simpl; rewrite E; exact D.
Qed.
Lemma plain_quiet s : PlainText s -> Quiet s /\ starts_number s = false /\ line s = s.
Proof.
  intros [N H]. split; [|split; [|apply line_all; exact N]].
  - intros c r E Hc. apply (H c r E). unfold opchar in Hc. simpl in *. tauto.
  - destruct s as [|c s]; [reflexivity|]. specialize (H c s eq_refl). simpl.
    destruct (Ascii.eqb_spec c "-"%char) as [->|_]; [exfalso; apply H; simpl; tauto|].
    destruct (is_digit c) eqn:D; [|reflexivity]. exfalso. apply H. apply is_digit_in in D. unfold Digit in D. simpl in *. tauto.
Qed.

Lemma number_op op k num : In (op, k) op_ranks -> NumberText num ->
  match_number (op ++ num) = Some (op_of op, num).
Proof.
  intros H N. destruct (number_quiet _ N) as (Q & S & L). unfold match_number. rewrite (star_op op k num H Q).
  destruct (String.eqb op "<="); cbn [app filter snd starts_number append Ascii.eqb Bool.eqb is_digit].
  - change (is_digit "="%char) with false. cbn iota. rewrite S. rewrite L. reflexivity.
  - rewrite S, L. reflexivity.
Qed.
Lemma starts_op op k t : In (op, k) op_ranks -> starts_number t = false -> starts_number (op ++ t) = false.
Proof. intros H S. simpl in H. destruct H as [E|[E|[E|[E|[E|[E|[]]]]]]]; injection E as <- _; try reflexivity. exact S. Qed.
Lemma text_no_number op k t : In (op, k) op_ranks -> PlainText t -> match_number (op ++ t) = None.
Proof.
  intros H P. destruct (plain_quiet _ P) as (Q & S & L). unfold match_number. rewrite (star_op op k t H Q).
  pose proof (starts_op op k t H S) as S2.
  assert (S3 : starts_number ("=" ++ t) = false) by reflexivity.
  destruct (String.eqb op "<="), (String.eqb op ">="), (String.eqb op ""); cbn [app filter snd]; rewrite ?S, ?S2, ?S3; cbn [snd]; rewrite ?S, ?S2, ?S3; cbn [snd]; rewrite ?S, ?S2, ?S3; reflexivity.
Qed.
Lemma text_op op k t : In (op, k) op_ranks -> PlainText t ->
  match_text (op ++ t) = Some (if String.eqb op "<=" then (Some "<", "=" ++ t) else (op_of op, t)).
Proof.
  intros H P. destruct (plain_quiet _ P) as (Q & S & L). unfold match_text. rewrite (star_op op k t H Q).
  destruct (String.eqb op "<="); cbn [app]; [|rewrite L; reflexivity].
  do 2 f_equal. cbn [append line]. rewrite L. reflexivity.
Qed.
Lemma op_wt op k : In (op, k) op_ranks -> operator_wt (op_of op) = Ok k.
Proof. intro H. simpl in H. destruct H as [E|[E|[E|[E|[E|[E|[]]]]]]]; injection E as <- <-; reflexivity. Qed.

Section Read.
Variable float_of : string -> option Q.
Lemma parse_number s v k : NumberThreshold float_of s v k ->
  exists op, parse_thresh float_of (CStr s) = Ok (op, VNum v) /\ operator_wt op = Ok k.
Proof.
  intros (op & num & H & -> & N & F). exists (op_of op). split; [|apply op_wt; exact H].
  unfold parse_thresh. rewrite (number_op op k num H N), F. reflexivity.
Qed.
Lemma parse_bad op num k : In (op, k) op_ranks -> NumberText num -> float_of num = None ->
  parse_thresh float_of (CStr (op ++ num)) = Err ValueError.
Proof. intros H N F. unfold parse_thresh. rewrite (number_op op k num H N), F. reflexivity. Qed.
Lemma parse_text s t k : TextThreshold s t k -> ~ k == 2 ->
  exists op, parse_thresh float_of (CStr s) = Ok (op, VText t) /\ operator_wt op = Ok k.
Proof.
  intros (op & H & -> & P) N. exists (op_of op). split; [|apply op_wt; exact H].
  unfold parse_thresh. rewrite (text_no_number op k t H P), (text_op op k t H P).
  destruct (String.eqb_spec op "<=") as [->|_]; [|reflexivity].
  exfalso. simpl in H. destruct H as [E|[E|[E|[E|[E|[E|[]]]]]]]; try discriminate E. injection E as <-. apply N. reflexivity.
Qed.
Lemma parse_text_any s t k : TextThreshold s t k ->
  exists op t' k', parse_thresh float_of (CStr s) = Ok (op, VText t') /\ operator_wt op = Ok k'.
Proof.
  intros (op & H & -> & P). unfold parse_thresh. rewrite (text_no_number op k t H P), (text_op op k t H P).
  destruct (String.eqb op "<=").
  - exists (Some "<"), ("=" ++ t), 1. split; reflexivity.
  - exists (op_of op), t, k. split; [reflexivity|apply op_wt; exact H].
Qed.
End Read.

(* ---------- sorting ---------- *)
Section By.
Context {A : Type} (le : A -> A -> bool).
Lemma insert_perm x l : Permutation (x :: l) (insert_by le x l).
Proof.
  induction l as [|y l IH]; simpl; [reflexivity|]. destruct (le x y); [reflexivity|].
  rewrite perm_swap. apply perm_skip. exact IH.
Qed.
Lemma sort_perm l : Permutation l (sort_by le l).
Proof. induction l as [|x l IH]; simpl; [reflexivity|]. rewrite <- insert_perm. apply perm_skip. exact IH. Qed.
Section Ordered.
Variable dom : A -> Prop.
Hypothesis total : forall a b, dom a -> dom b -> le a b = false -> le b a = true.
Hypothesis trans : forall a b c, dom a -> dom b -> dom c -> le a b = true -> le b c = true -> le a c = true.
Lemma insert_sorted x l : dom x -> Forall dom l ->
  StronglySorted (fun a b => le a b = true) l -> StronglySorted (fun a b => le a b = true) (insert_by le x l).
Proof.
  intros Hx HD HS. induction HS as [|y l HS IH HF]; simpl; [repeat constructor|].
  inversion HD as [|? ? Hy HD']; subst. destruct (le x y) eqn:E.
  - constructor; [constructor; assumption|]. constructor; [exact E|].
    rewrite Forall_forall in *. intros z Hz. apply (trans x y z); auto.
  - constructor; [apply IH; exact HD'|]. rewrite Forall_forall in *. intros z Hz.
    apply (Permutation_in _ (Permutation_sym (insert_perm x l))) in Hz. destruct Hz as [<-|Hz]; [|auto].
    apply total; assumption.
Qed.
Lemma sort_sorted l : Forall dom l -> StronglySorted (fun a b => le a b = true) (sort_by le l).
Proof.
  induction l as [|x l IH]; intro HD; simpl; [constructor|]. inversion HD as [|? ? Hx HD']; subst.
  apply insert_sorted; [exact Hx| |apply IH; exact HD'].
  rewrite Forall_forall in *. intros z Hz. apply HD'. apply (Permutation_in _ (Permutation_sym (sort_perm l))). exact Hz.
Qed.
End Ordered.
Lemma sort_stable p l : (forall a b, In a l -> In b l -> p a = true -> p b = true -> le a b = true) ->
  filter p (sort_by le l) = filter p l.
Proof.
  induction l as [|x l IH]; intro H; [reflexivity|]. cbn [sort_by filter].
  rewrite <- IH by (intros; apply H; try (right; assumption); assumption).
  assert (forall y, In y (sort_by le l) -> In y l) as M by (intros y Hy; apply (Permutation_in _ (Permutation_sym (sort_perm l))); exact Hy).
  revert M. generalize (sort_by le l) as s. induction s as [|y s IHs]; intro M; [reflexivity|]. cbn [insert_by].
  destruct (le x y) eqn:E; [reflexivity|]. cbn [filter]. rewrite IHs by (intros; apply M; right; assumption).
  destruct (p y) eqn:Y; [|reflexivity]. destruct (p x) eqn:X; [|reflexivity].
  rewrite (H x y) in E; [discriminate E|left; reflexivity|right; apply M; left; reflexivity|exact X|exact Y].
Qed.
Lemma sort_fixed l : StronglySorted (fun a b => le a b = true) l -> sort_by le l = l.
Proof.
  induction 1 as [|x l HS IH HF]; [reflexivity|]. simpl. rewrite IH. destruct l as [|y l]; [reflexivity|].
  simpl. inversion HF as [|? ? E _]; subst. rewrite E. reflexivity.
Qed.
End By.
Lemma sort_map {A B} (g : A -> B) le l :
  sort_by le (map g l) = map g (sort_by (fun a b => le (g a) (g b)) l).
Proof.
  assert (forall x s, insert_by le (g x) (map g s) = map g (insert_by (fun a b => le (g a) (g b)) x s)) as I.
  { intros x s. induction s as [|y s IH]; [reflexivity|]. simpl. destruct (le (g x) (g y)); [reflexivity|]. simpl. rewrite IH. reflexivity. }
  induction l as [|x l IH]; [reflexivity|]. simpl. rewrite IH, I. reflexivity.
Qed.
Lemma sort_ext {A} (le le' : A -> A -> bool) l : (forall a b, In a l -> In b l -> le a b = le' a b) -> sort_by le l = sort_by le' l.
Proof.
  induction l as [|x l IH]; intro H; [reflexivity|]. simpl. rewrite IH by (intros; apply H; right; assumption).
  assert (forall y, In y (sort_by le' l) -> In y l) as M by (intros y Hy; apply (Permutation_in _ (Permutation_sym (sort_perm le' l))); exact Hy).
  revert M. generalize (sort_by le' l) as s. induction s as [|y s IHs]; intro M; [reflexivity|]. simpl.
  rewrite (H x y) by (simpl; auto using in_eq). rewrite IHs by (intros; apply M; right; assumption). reflexivity.
Qed.
Lemma sorted_map {A B} (g : A -> B) R l : StronglySorted (fun a b => R (g a) (g b)) l -> StronglySorted R (map g l).
Proof.
  induction 1 as [|x l HS IH HF]; simpl; constructor; [exact IH|].
  rewrite Forall_forall in *. intros z Hz. apply in_map_iff in Hz. destruct Hz as (y & <- & Hy). auto.
Qed.
Lemma sorted_weaken {A} (R R' : A -> A -> Prop) l : StronglySorted R l ->
  (forall a b, In a l -> In b l -> R a b -> R' a b) -> StronglySorted R' l.
Proof.
  induction 1 as [|x l HS IH HF]; intro H; constructor.
  - apply IH. intros a b Ha Hb. apply H; right; assumption.
  - rewrite Forall_forall in *. intros z Hz. apply H; [left; reflexivity|right; exact Hz|auto].
Qed.

(* ---------- order of keys ---------- *)
Lemma ascii_cmp a b : Ascii.compare a b = N.compare (N_of_ascii a) (N_of_ascii b).
Proof. reflexivity. Qed.
Lemma str_lt_trans a b c : String.compare a b = Lt -> String.compare b c = Lt -> String.compare a c = Lt.
Proof.
  revert b c. induction a as [|x a IH]; intros [|y b] [|z c]; simpl; try discriminate; try reflexivity.
  rewrite !ascii_cmp.
  destruct (N.compare_spec (N_of_ascii x) (N_of_ascii y)) as [E1|E1|E1]; try discriminate;
  destruct (N.compare_spec (N_of_ascii y) (N_of_ascii z)) as [E2|E2|E2]; try discriminate; intros H K.
  - rewrite E1, E2, N.compare_refl. eapply IH; eassumption.
  - rewrite E1. rewrite (proj2 (N.compare_lt_iff _ _) E2). reflexivity.
  - rewrite <- E2. rewrite (proj2 (N.compare_lt_iff _ _) E1). reflexivity.
  - rewrite (proj2 (N.compare_lt_iff _ _)) by lia. reflexivity.
Qed.
Lemma str_eq a b : String.compare a b = Eq -> a = b.
Proof. apply String.compare_eq_iff. Qed.
Lemma str_refl a : String.compare a a = Eq.
Proof. induction a as [|c a IH]; simpl; [reflexivity|]. rewrite ascii_cmp, N.compare_refl. exact IH. Qed.
Lemma str_sym a b : String.compare a b = CompOpp (String.compare b a).
Proof. apply String.compare_antisym. Qed.

Lemma value_cmp_sym a b : value_cmp a b = CompOpp (value_cmp b a).
Proof. destruct a, b; simpl; [symmetry; apply Qcompare_antisym|..]; try reflexivity. apply str_sym. Qed.

Definition kle (a b : value * Q) : Prop :=
  value_cmp (fst a) (fst b) = Lt \/ (value_cmp (fst a) (fst b) = Eq /\ snd a <= snd b).
Lemma key_le_iff a b : key_le a b = true <-> kle a b.
Proof.
  unfold key_le, kle. destruct (value_cmp (fst a) (fst b)); split; intro H; try tauto; try discriminate.
  - right. split; [reflexivity|]. apply Qle_bool_iff. exact H.
  - destruct H as [H|[_ H]]; [discriminate|]. apply Qle_bool_iff. exact H.
  - destruct H as [H|[H _]]; discriminate.
Qed.
Lemma value_lt_trans a b c : value_cmp a b = Lt -> value_cmp b c = Lt -> value_cmp a c = Lt.
Proof.
  destruct a, b, c; simpl; try discriminate; try reflexivity; [|apply str_lt_trans].
  intros H K. apply (proj2 (Qlt_alt _ _)) in H. apply (proj2 (Qlt_alt _ _)) in K. apply (proj1 (Qlt_alt _ _)). lra.
Qed.
Lemma value_eq_l a b c : value_cmp a b = Eq -> value_cmp a c = value_cmp b c.
Proof.
  destruct a, b, c; simpl; try discriminate; try reflexivity.
  - intro H. apply (proj2 (Qeq_alt _ _)) in H. apply Qcompare_comp; [exact H|reflexivity].
  - intro H. apply str_eq in H. subst. reflexivity.
Qed.
Lemma value_eq_r a b c : value_cmp b c = Eq -> value_cmp a b = value_cmp a c.
Proof. intro H. rewrite (value_cmp_sym a b), (value_cmp_sym a c). f_equal. apply value_eq_l. exact H. Qed.
Lemma kle_trans a b c : kle a b -> kle b c -> kle a c.
Proof.
  unfold kle. intros [H|[H Hw]] [K|[K Kw]].
  - left. eapply value_lt_trans; eassumption.
  - left. rewrite <- (value_eq_r _ _ _ K). exact H.
  - left. rewrite (value_eq_l _ _ _ H). exact K.
  - right. split; [rewrite (value_eq_l _ _ _ H); exact K|lra].
Qed.
Lemma kle_total a b : key_le a b = false -> key_le b a = true.
Proof.
  intro H. apply key_le_iff. unfold key_le in H. unfold kle. rewrite (value_cmp_sym (fst b)).
  destruct (value_cmp (fst a) (fst b)); simpl; [|discriminate|tauto].
  right. split; [reflexivity|]. destruct (Qlt_le_dec (snd b) (snd a)) as [L|L]; [lra|].
  apply Qle_bool_iff in L. congruence.
Qed.
Definition dle (asc : bool) (a b : value * Q) : bool := if asc then key_le a b else key_le b a.
Lemma dle_total asc a b : dle asc a b = false -> dle asc b a = true.
Proof. destruct asc; apply kle_total. Qed.
Lemma dle_trans asc a b c : dle asc a b = true -> dle asc b c = true -> dle asc a c = true.
Proof. unfold dle. destruct asc; rewrite !key_le_iff; intros H K; eapply kle_trans; eassumption. Qed.

(* ---------- frames ---------- *)
Lemma index_add columns name x i : index_of x columns = Some i -> index_of x (add_column columns name) = Some i.
Proof.
  unfold add_column. intro H. destruct (index_of name columns); [exact H|]. revert i H.
  induction columns as [|c cs IH]; intros i H; simpl in *; [discriminate|].
  destruct (String.eqb c x); [exact H|]. destruct (index_of x cs) as [j|]; [|discriminate].
  rewrite (IH j eq_refl). exact H.
Qed.
Lemma index_app columns name x : index_of x columns = None -> index_of x (columns ++ [name]) =
  if String.eqb name x then Some (length columns) else None.
Proof.
  induction columns as [|c cs IH]; simpl; intro H; [reflexivity|].
  destruct (String.eqb c x); [discriminate|]. destruct (index_of x cs); [discriminate|].
  rewrite IH by reflexivity. destruct (String.eqb name x); reflexivity.
Qed.
Lemma index_new columns name x : index_of x columns = None -> x <> name -> index_of x (add_column columns name) = None.
Proof.
  unfold add_column. intros H N. destruct (index_of name columns); [exact H|]. rewrite index_app by exact H.
  destruct (String.eqb_spec name x); [congruence|reflexivity].
Qed.
Lemma index_self columns name : exists j, index_of name (add_column columns name) = Some j.
Proof.
  unfold add_column. destruct (index_of name columns) as [i|] eqn:E; [exists i; exact E|].
  rewrite index_app by exact E. rewrite String.eqb_refl. eauto.
Qed.
Lemma add_again columns name i : index_of name columns = Some i -> add_column columns name = columns.
Proof. unfold add_column. intros ->. reflexivity. Qed.
Lemma set_cell_length columns name c (r : row) : length r = length columns ->
  length (set_cell columns name c r) = length (add_column columns name).
Proof.
  unfold set_cell, add_column. intro L. destruct (index_of name columns); [rewrite set_nth_length; exact L|].
  rewrite !app_length. simpl. lia.
Qed.
Lemma set_cell_same columns name c (r : row) j : length r = length columns ->
  index_of name (add_column columns name) = Some j -> nth_error (set_cell columns name c r) j = Some c.
Proof.
  unfold set_cell, add_column. intros L. destruct (index_of name columns) as [i|] eqn:E; intro H.
  - rewrite E in H. injection H as <-. apply set_nth_same. rewrite L. eapply index_of_lt. exact E.
  - rewrite index_app, String.eqb_refl in H by exact E. injection H as <-. rewrite <- L.
    rewrite nth_error_app2 by lia. rewrite Nat.sub_diag. reflexivity.
Qed.
Lemma set_cell_other columns name c (r : row) x i : length r = length columns -> x <> name ->
  index_of x columns = Some i -> nth_error (set_cell columns name c r) i = nth_error r i.
Proof.
  unfold set_cell. intros L N H. destruct (index_of name columns) as [j|] eqn:E.
  - apply set_nth_other. intro K. subst j. apply N. apply index_of_ColumnAt in H. apply index_of_ColumnAt in E.
    eapply columnat_inj; eassumption.
  - apply nth_error_app1. rewrite L. eapply index_of_lt. exact H.
Qed.
Lemma set_nth_id i c (r : row) : nth_error r i = Some c -> set_nth i c r = r.
Proof. revert i. induction r as [|x r IH]; intros [|i] H; simpl in *; try discriminate; [injection H as ->; reflexivity|rewrite IH by exact H; reflexivity]. Qed.

Lemma mapM_map {A B} (f : A -> res B) (g : A -> B) l : (forall x, In x l -> f x = Ok (g x)) -> mapM f l = Ok (map g l).
Proof.
  induction l as [|x l IH]; intro H; [reflexivity|]. simpl. rewrite (H x) by (left; reflexivity). cbn [bind].
  rewrite IH by (intros; apply H; right; assumption). reflexivity.
Qed.
Lemma mapM_inv {A B} (f : A -> res B) l r : mapM f l = Ok r -> Forall2 (fun x y => f x = Ok y) l r.
Proof.
  revert r. induction l as [|x l IH]; intros r H; simpl in H; [injection H as <-; constructor|].
  destruct (f x) as [y|] eqn:E; [|discriminate]. cbn [bind] in H. destruct (mapM f l) as [ys|]; [|discriminate].
  cbn [bind] in H. injection H as <-. constructor; [exact E|]. apply IH. reflexivity.
Qed.
Lemma combine_map_r {A B} (f : A -> B) l : combine l (map f l) = map (fun x => (x, f x)) l.
Proof. induction l as [|x l IH]; simpl; [reflexivity|]. rewrite IH. reflexivity. Qed.
Lemma combine_maps {A B D} (f : A -> B) (g : A -> D) l : combine (map f l) (map g l) = map (fun x => (f x, g x)) l.
Proof. induction l as [|x l IH]; simpl; [reflexivity|]. rewrite IH. reflexivity. Qed.

Section Frame.
Variables (float_of : string -> option Q) (columns : list string) (name : string) (i : nat).
Hypothesis HI : index_of name columns = Some i.

(** The row has a readable threshold with this key. *)
Definition Reads (r : row) (key : value * Q) : Prop :=
  exists c op, nth_error r i = Some c /\ parse_thresh float_of c = Ok (op, fst key) /\ operator_wt op = Ok (snd key).
Definition keyf (r : row) : value * Q :=
  match nth_error r i with
  | Some c =>
      match parse_thresh float_of c with
      | Ok (op, v) => match operator_wt op with Ok w => (v, w) | Err _ => (v, 0) end
      | Err _ => (VNum 0, 0)
      end
  | None => (VNum 0, 0)
  end.
Lemma reads_key r key : Reads r key -> keyf r = key.
Proof. intros (c & op & E & P & W). unfold keyf. rewrite E, P, W. destruct key; reflexivity. Qed.
Let columns1 := add_column columns "op_wts".
Let columns2 := add_column columns1 "thresh_values".
Definition ext (r : row) : row :=
  set_cell columns1 "thresh_values" (value_cell (fst (keyf r))) (set_cell columns "op_wts" (CNum (snd (keyf r))) r).

Lemma sort_eq data ascending : (forall r, In r data -> exists key, Reads r key) ->
  sort_by_thresh float_of columns data name ascending =
  (vals <- thresh_values (map (fun r => fst (keyf r)) data) ;;
   Ok (columns2, map ext data, map ext (sort_by (fun a b => dle ascending (keyf a) (keyf b)) data))).
Proof.
  intro HR. unfold sort_by_thresh. rewrite HI.
  set (cf := fun r : row => match nth_error r i with Some c => c | None => CMiss end).
  set (pf := fun r : row => match parse_thresh float_of (cf r) with Ok p => p | Err _ => (None, VNum 0) end).
  assert (column_at data i = Ok (map cf data)) as ->.
  { apply mapM_map. intros r Hr. destruct (HR r Hr) as (key & c & op & E & _). unfold cell_at, cf. rewrite E. reflexivity. }
  cbn [bind].
  assert (mapM (parse_thresh float_of) (map cf data) = Ok (map pf data)) as ->.
  { clear - HR. induction data as [|r data IH]; [reflexivity|]. simpl.
    destruct (HR r (or_introl eq_refl)) as (key & c & op & E & P & W). unfold pf at 1.
    assert (cf r = c) as -> by (unfold cf; rewrite E; reflexivity). rewrite P. cbn [bind].
    rewrite IH by (intros; apply HR; right; assumption). reflexivity. }
  cbn [bind].
  assert (mapM (fun p => operator_wt (fst p)) (map pf data) = Ok (map (fun r => snd (keyf r)) data)) as ->.
  { clear - HR. induction data as [|r data IH]; [reflexivity|]. simpl.
    destruct (HR r (or_introl eq_refl)) as (key & c & op & E & P & W).
    assert (pf r = (op, fst key)) as -> by (unfold pf, cf; rewrite E, P; reflexivity). cbn [fst]. rewrite W. cbn [bind].
    rewrite IH by (intros; apply HR; right; assumption). cbn [bind].
    rewrite (reads_key r key) by (exists c, op; auto). reflexivity. }
  cbn [bind]. rewrite map_map.
  assert (map (fun r => snd (pf r)) data = map (fun r => fst (keyf r)) data) as ->.
  { apply map_ext_in. intros r Hr. destruct (HR r Hr) as (key & c & op & E & P & W).
    rewrite (reads_key r key) by (exists c, op; auto). unfold pf, cf. rewrite E, P. reflexivity. }
  destruct (thresh_values (map (fun r => fst (keyf r)) data)) as [vals|e] eqn:T; [|reflexivity]. cbn [bind].
  assert (vals = map (fun r => fst (keyf r)) data) as ->.
  { unfold thresh_values in T. destruct (rev _); [discriminate|]. destruct (forallb _ _); [|discriminate]. injection T as <-. reflexivity. }
  cbv zeta. fold columns1. fold columns2.
  rewrite combine_map_r, map_map. cbn [fst snd].
  rewrite combine_maps, map_map. cbn [fst snd].
  rewrite combine_maps, combine_maps. rewrite sort_map, map_map.
  reflexivity.
Qed.

Lemma sort_inv data ascending out : sort_by_thresh float_of columns data name ascending = Ok out ->
  (forall r, In r data -> exists key, Reads r key).
Proof.
  unfold sort_by_thresh. rewrite HI. intro H.
  destruct (column_at data i) as [cells|] eqn:E1; [|discriminate]. cbn [bind] in H.
  destruct (mapM (parse_thresh float_of) cells) as [parsed|] eqn:E2; [|discriminate]. cbn [bind] in H.
  destruct (mapM (fun p => operator_wt (fst p)) parsed) as [wts|] eqn:E3; [|discriminate]. clear H.
  apply mapM_inv in E1. apply mapM_inv in E2. apply mapM_inv in E3.
  revert parsed wts E2 E3. induction E1 as [|r c data cells Hc F IH]; intros parsed wts E2 E3 x Hx; [destruct Hx|].
  inversion E2 as [|? p ? parsed' Hp F2]; subst. inversion E3 as [|? w ? wts' Hw F3]; subst.
  destruct Hx as [<-|Hx]; [|eapply IH; eassumption].
  destruct p as [op v]. exists (v, w), c, op. unfold cell_at in Hc. destruct (nth_error r i); [|discriminate]. injection Hc as ->.
  repeat split; assumption.
Qed.

Hypotheses (N1 : name <> "op_wts") (N2 : name <> "thresh_values").
Lemma ext_length r : length r = length columns -> length (ext r) = length columns2.
Proof. intro L. apply set_cell_length, set_cell_length, L. Qed.
Lemma ext_cell r x j : length r = length columns -> index_of x columns = Some j -> x <> "op_wts" -> x <> "thresh_values" ->
  nth_error (ext r) j = nth_error r j.
Proof.
  intros L H A B. unfold ext. rewrite (set_cell_other columns1 _ _ _ x); [|apply set_cell_length; exact L|exact B|apply index_add; exact H].
  apply (set_cell_other columns _ _ _ x); assumption.
Qed.
Lemma ext_key r : length r = length columns -> keyf (ext r) = keyf r.
Proof. intro L. unfold keyf at 1. rewrite (ext_cell r name i L HI N1 N2). reflexivity. Qed.
Lemma ext_reads r key : length r = length columns -> Reads r key -> Reads (ext r) key.
Proof. intros L (c & op & E & P & W). exists c, op. rewrite (ext_cell r name i L HI N1 N2). auto. Qed.
End Frame.
Lemma index2 columns name x i : index_of x columns = Some i -> index_of x (add_column (add_column columns "op_wts") name) = Some i.
Proof. intro H. apply index_add, index_add, H. Qed.

Lemma values_ok (vs : list value) b : vs <> [] -> (forall v, In v vs -> is_num v = b) -> thresh_values vs = Ok vs.
Proof.
  intros N H. unfold thresh_values. destruct (rev vs) as [|v l] eqn:E.
  - exfalso. apply N. rewrite <- (rev_involutive vs), E. reflexivity.
  - assert (In v vs) as Hv by (apply in_rev; rewrite E; left; reflexivity).
    rewrite (proj2 (forallb_forall _ _)); [reflexivity|]. intros x Hx. rewrite (H x Hx), (H v Hv). apply Bool.eqb_reflx.
Qed.
Lemma values_inv (vs out : list value) : thresh_values vs = Ok out -> out = vs /\ vs <> [] /\ exists b, forall v, In v vs -> is_num v = b.
Proof.
  unfold thresh_values. destruct (rev vs) as [|v l] eqn:E; [discriminate|].
  destruct (forallb _ vs) eqn:F; [|discriminate]. intro H. injection H as <-. split; [reflexivity|]. split.
  - intro K. subst vs. discriminate E.
  - exists (is_num v). intros x Hx. rewrite forallb_forall in F. specialize (F x Hx). apply Bool.eqb_prop in F. exact F.
Qed.
Lemma values_mixed (vs : list value) a b : In a vs -> In b vs -> is_num a <> is_num b -> thresh_values vs = Err ValueError.
Proof.
  intros Ha Hb N. unfold thresh_values. destruct (rev vs) as [|v l] eqn:E.
  - apply in_rev in Ha. rewrite E in Ha. destruct Ha.
  - destruct (forallb _ vs) eqn:F; [|reflexivity]. exfalso. rewrite forallb_forall in F.
    pose proof (F a Ha) as A. pose proof (F b Hb) as B. apply Bool.eqb_prop in A. apply Bool.eqb_prop in B. congruence.
Qed.

Section Result.
Variables (float_of : string -> option Q) (columns : list string) (name : string) (i : nat).
Hypothesis HI : index_of name columns = Some i.
Hypotheses (N1 : name <> "op_wts") (N2 : name <> "thresh_values").
Notation KEY := (keyf float_of i).
Notation EXT := (ext float_of columns i).
Notation READS := (Reads float_of i).
Variable T : row -> value * Q -> Prop.
Hypothesis T_reads : forall r key, T r key -> READS r key.
Hypothesis T_ext : forall r key, length r = length columns -> T r key -> T (EXT r) key.
Variables (data : tdata) (ascending : bool) (kind : bool).
Hypothesis HR : Rectangular data columns.
Hypothesis HN : data <> [].
Hypothesis HT : forall r, In r data -> exists key, T r key /\ is_num (fst key) = kind.
Let le (a b : row) := dle ascending (KEY a) (KEY b).
Let sorted := map EXT (sort_by le data).

Lemma t_key r key : T r key -> KEY r = key.
Proof. intro H. apply reads_key, T_reads, H. Qed.
Lemma result_eq : sort_by_thresh float_of columns data name ascending
  = Ok (add_column (add_column columns "op_wts") "thresh_values", map EXT data, sorted).
Proof.
  rewrite (sort_eq _ _ _ _ HI) by (intros r Hr; destruct (HT r Hr) as (key & K & _); exists key; apply T_reads, K).
  rewrite (values_ok _ kind); [reflexivity| |].
  - destruct data; [contradiction|discriminate].
  - intros v Hv. apply in_map_iff in Hv. destruct Hv as (r & <- & Hr). destruct (HT r Hr) as (key & K & B).
    rewrite (t_key _ _ K). exact B.
Qed.
Lemma result_perm : Permutation (map EXT data) sorted.
Proof. apply Permutation_map, sort_perm. Qed.
Lemma in_sort r : In r (sort_by le data) -> In r data.
Proof. intro H. apply (Permutation_in _ (Permutation_sym (sort_perm le data))). exact H. Qed.
Lemma result_sorted : StronglySorted (fun a b => forall ka kb, T a ka -> T b kb -> dle ascending ka kb = true) sorted.
Proof.
  apply sorted_map.
  eapply sorted_weaken; [apply (sort_sorted le (fun _ => True))| ].
  - intros a b _ _. apply dle_total.
  - intros a b c _ _ _. apply dle_trans.
  - apply Forall_forall. intros; exact I.
  - intros a b Ha Hb L ka kb Ka Kb. apply in_sort in Ha. apply in_sort in Hb.
    pose proof (ext_key float_of columns name i HI N1 N2 a (HR a Ha)) as Ea. rewrite (t_key _ _ Ka) in Ea.
    pose proof (ext_key float_of columns name i HI N1 N2 b (HR b Hb)) as Eb. rewrite (t_key _ _ Kb) in Eb.
    unfold le in L. rewrite <- Ea, <- Eb in L. exact L.
Qed.
Lemma result_stable (q : value * Q -> bool) (P : row -> Prop) rows :
  (forall x y, q x = true -> q y = true -> dle ascending x y = true) ->
  (forall r, In r (map EXT data) -> P r <-> exists key, T r key /\ q key = true) ->
  Selection P (map EXT data) rows -> Selection P sorted rows.
Proof.
  intros HQ HP HS. set (p := fun r => q (KEY r)).
  assert (SE : sorted = sort_by (fun a b => dle ascending (KEY a) (KEY b)) (map EXT data)).
  { rewrite sort_map. unfold sorted. f_equal. apply sort_ext. intros a b Ha Hb. unfold le.
    rewrite !(ext_key float_of columns name i HI N1 N2) by auto. reflexivity. }
  assert (forall r, In r (map EXT data) -> p r = true <-> P r) as HPp.
  { intros r Hr. apply in_map_iff in Hr. destruct Hr as (r0 & <- & Hr0). rewrite HP by (apply in_map; exact Hr0). unfold p.
    destruct (HT r0 Hr0) as (key & K & _). pose proof (T_ext _ _ (HR r0 Hr0) K) as K'. split.
    - intro E. exists key. split; [exact K'|]. rewrite (t_key _ _ K') in E. exact E.
    - intros (key' & K2 & E). rewrite (t_key _ _ K2). exact E. }
  assert (rows = filter p (map EXT data)) as ->.
  { eapply selection_unique; [exact HS|apply (selection_filter P); exact HPp|]. intros; reflexivity. }
  assert (filter p (map EXT data) = filter p sorted) as ->.
  { rewrite SE. symmetry. apply sort_stable. intros a b _ _ A B. apply HQ; assumption. }
  apply selection_filter. intros r Hr. apply HPp. apply (Permutation_in _ (Permutation_sym result_perm)). exact Hr.
Qed.
End Result.

Lemma not_in_index (columns : list string) x : ~ In x columns -> index_of x columns = None.
Proof. intro H. destruct (index_of x columns) as [j|] eqn:E; [|reflexivity]. exfalso. apply H. apply index_of_ColumnAt in E. destruct E as [E _]. eapply nth_error_In, E. Qed.
Lemma in_index (columns : list string) x : In x columns -> exists j, index_of x columns = Some j.
Proof.
  intro H. destruct (index_of x columns) as [j|] eqn:E; [eauto|]. exfalso. revert E H.
  induction columns as [|c cs IH]; simpl; [tauto|]. destruct (String.eqb_spec c x) as [->|N]; [discriminate|].
  destruct (index_of x cs); [discriminate|]. intros _ [H|H]; [contradiction|]. apply IH; [reflexivity|exact H].
Qed.
Section Plain.
Variables (float_of : string -> option Q) (columns : list string) (name : string) (i : nat).
Hypothesis HI : index_of name columns = Some i.
Hypotheses (H1 : ~ In "op_wts" columns) (H2 : ~ In "thresh_values" columns).
Lemma columns_plain : add_column (add_column columns "op_wts") "thresh_values" = (columns ++ ["op_wts"; "thresh_values"])%list.
Proof.
  pose proof (not_in_index _ _ H1) as A. pose proof (not_in_index _ _ H2) as B.
  unfold add_column. rewrite A. rewrite index_app by exact B. cbn. rewrite <- app_assoc. reflexivity.
Qed.
Lemma ext_plain r : ext float_of columns i r = (r ++ [CNum (snd (keyf float_of i r)); value_cell (fst (keyf float_of i r))])%list.
Proof.
  pose proof (not_in_index _ _ H1) as A. pose proof (not_in_index _ _ H2) as B.
  unfold ext, set_cell, add_column. rewrite A. rewrite index_app by exact B. cbn. rewrite <- app_assoc. reflexivity.
Qed.
Lemma name_new : name <> "op_wts" /\ name <> "thresh_values".
Proof. split; intros ->; [apply H1|apply H2]; apply index_of_ColumnAt in HI; destruct HI as [E _]; eapply nth_error_In, E. Qed.
End Plain.
Lemma cellof_nth columns name i (r : row) c : index_of name columns = Some i -> CellOf columns r name c -> nth_error r i = Some c.
Proof. intros H (j & J & E). apply index_of_ColumnAt in H. rewrite (columnat_fun _ _ _ _ H J). exact E. Qed.
Lemma nth_cellof columns name i (r : row) c : index_of name columns = Some i -> nth_error r i = Some c -> CellOf columns r name c.
Proof. intros H E. exists i. split; [apply index_of_ColumnAt; exact H|exact E]. Qed.
Lemma row_number_reads float_of columns name i r v k : index_of name columns = Some i ->
  RowNumber float_of columns name r v k -> Reads float_of i r (VNum v, k).
Proof.
  intros H (s & C & N). destruct (parse_number _ _ _ _ N) as (op & P & W). exists (CStr s), op.
  split; [eapply cellof_nth; eassumption|]. split; assumption.
Qed.
Lemma row_text_reads float_of columns name i r t k : index_of name columns = Some i ->
  RowText columns name r t k -> ~ k == 2 -> Reads float_of i r (VText t, k).
Proof.
  intros H (s & C & N) K. destruct (parse_text float_of _ _ _ N K) as (op & P & W). exists (CStr s), op.
  split; [eapply cellof_nth; eassumption|]. split; assumption.
Qed.
Lemma row_text_any float_of columns name i r t k : index_of name columns = Some i ->
  RowText columns name r t k -> exists t' k', Reads float_of i r (VText t', k').
Proof.
  intros H (s & C & N). destruct (parse_text_any float_of _ _ _ N) as (op & t' & k' & P & W). exists t', k', (CStr s), op.
  split; [eapply cellof_nth; eassumption|]. split; assumption.
Qed.
(** A text threshold is read in one way only. *)
Lemma text_rank s t t' k k' : TextThreshold s t k -> TextThreshold s t' k' -> k == 2 -> k' == 2.
Proof.
  intros (op & H & -> & P) (op' & H' & E & P') K.
  assert (op = "<=") as ->.
  { simpl in H. destruct H as [X|[X|[X|[X|[X|[X|[]]]]]]]; injection X as <- <-; try reflexivity; exfalso; lra. }
  destruct (plain_quiet _ P) as (Q & _). destruct (plain_quiet _ P') as (Q' & _).
  simpl in H'. destruct H' as [X|[X|[X|[X|[X|[X|[]]]]]]]; injection X as <- <-; try reflexivity; exfalso; simpl in E; try discriminate E.
  - injection E as E. apply (Q' _ _ (eq_sym E)). unfold opchar. simpl. tauto.
  - apply (Q' _ _ (eq_sym E)). unfold opchar. simpl. tauto.
Qed.
Definition qid (a b : Q) : bool := Z.eqb (Qnum a) (Qnum b) && Pos.eqb (Qden a) (Qden b).
Lemma qid_iff a b : qid a b = true <-> a = b.
Proof.
  unfold qid. rewrite andb_true_iff, Z.eqb_eq, Pos.eqb_eq. destruct a, b; simpl. split; [intros [-> ->]; reflexivity|intro H; injection H as -> ->; auto].
Qed.

(* ---------- the ROC table ---------- *)
Lemma text_le_total a b : text_le a b = false -> text_le b a = true.
Proof. unfold text_le. rewrite (str_sym b a). destruct (String.compare a b); simpl; try discriminate; reflexivity. Qed.
Lemma text_le_trans a b c : text_le a b = true -> text_le b c = true -> text_le a c = true.
Proof.
  unfold text_le. destruct (String.compare a b) eqn:E1; try discriminate; destruct (String.compare b c) eqn:E2; try discriminate; intros _ _.
  - apply str_eq in E1. subst b. rewrite E2. reflexivity.
  - apply str_eq in E1. subst b. rewrite E2. reflexivity.
  - apply str_eq in E2. subst c. rewrite E1. reflexivity.
  - rewrite (str_lt_trans _ _ _ E1 E2). reflexivity.
Qed.
Lemma uniq_in l x : In x (uniq_text l) <-> In x l.
Proof.
  induction l as [|a l IH]; [reflexivity|]. destruct l as [|b t]; [reflexivity|].
  change (uniq_text (a :: b :: t)) with (if String.eqb a b then uniq_text (b :: t) else a :: uniq_text (b :: t)).
  destruct (String.eqb_spec a b) as [->|N].
  - rewrite IH. simpl. tauto.
  - simpl In at 1. rewrite IH. simpl. tauto.
Qed.
Lemma uniq_strict l : StronglySorted (fun a b => text_le a b = true) l ->
  StronglySorted (fun a b => String.compare a b = Lt) (uniq_text l).
Proof.
  induction 1 as [|a l HS IH HF]; [constructor|]. destruct l as [|b t]; [repeat constructor|].
  change (uniq_text (a :: b :: t)) with (if String.eqb a b then uniq_text (b :: t) else a :: uniq_text (b :: t)).
  destruct (String.eqb_spec a b) as [->|N]; [exact IH|]. constructor; [exact IH|].
  apply Forall_forall. intros x Hx. apply (proj1 (uniq_in _ _)) in Hx.
  inversion HF as [|? ? Hab _]; subst. inversion HS as [|? ? _ HF']; subst.
  assert (String.compare a b = Lt) as L.
  { unfold text_le in Hab. destruct (String.compare a b) eqn:E; try discriminate; [apply str_eq in E; contradiction|reflexivity]. }
  destruct Hx as [<-|Hx]; [exact L|]. rewrite Forall_forall in HF'. specialize (HF' x Hx). unfold text_le in HF'.
  destruct (String.compare b x) eqn:E; try discriminate.
  - apply str_eq in E. subst x. exact L.
  - eapply str_lt_trans; eassumption.
Qed.
Lemma unique_strict l : StronglySorted (fun a b => String.compare a b = Lt) (np_unique l).
Proof.
  apply uniq_strict. apply (sort_sorted text_le (fun _ => True)).
  - intros a b _ _. apply text_le_total.
  - intros a b c _ _ _. apply text_le_trans.
  - apply Forall_forall. intros; exact I.
Qed.
Lemma unique_in l x : In x (np_unique l) <-> In x l.
Proof.
  unfold np_unique. rewrite uniq_in. split; intro H.
  - apply (Permutation_in _ (Permutation_sym (sort_perm text_le l))). exact H.
  - apply (Permutation_in _ (sort_perm text_le l)). exact H.
Qed.
Lemma sorted_app {A} (R : A -> A -> Prop) l x : StronglySorted R l -> Forall (fun y => R y x) l -> StronglySorted R (l ++ [x]).
Proof.
  induction 1 as [|y l HS IH HF]; intro H; simpl; [repeat constructor|]. inversion H as [|? ? Hy H']; subst.
  constructor; [apply IH; exact H'|]. apply Forall_app. split; [exact HF|]. constructor; [exact Hy|constructor].
Qed.
Lemma sorted_rev {A} (R : A -> A -> Prop) l : StronglySorted R l -> StronglySorted (fun a b => R b a) (rev l).
Proof.
  induction 1 as [|x l HS IH HF]; simpl; [constructor|]. apply sorted_app; [exact IH|].
  rewrite Forall_forall in *. intros y Hy. apply HF. apply in_rev. exact Hy.
Qed.

Lemma strict_unique (l l' : list string) :
  StronglySorted (fun a b => String.compare a b = Lt) l -> StronglySorted (fun a b => String.compare a b = Lt) l' ->
  (forall x, In x l <-> In x l') -> l = l'.
Proof.
  intro H. revert l'. induction H as [|a l HS IH HF]; intros l' H' M.
  - destruct l' as [|b l']; [reflexivity|]. exfalso. apply (proj2 (M b)). left; reflexivity.
  - destruct H' as [|b l' HS' HF']; [exfalso; apply (proj1 (M a)); left; reflexivity|].
    rewrite Forall_forall in *.
    assert (a = b) as ->.
    { destruct (proj1 (M a) (or_introl eq_refl)) as [E|K]; [congruence|].
      destruct (proj2 (M b) (or_introl eq_refl)) as [E|K']; [congruence|].
      specialize (HF b K'). specialize (HF' a K). rewrite str_sym, HF' in HF. discriminate HF. }
    f_equal. apply IH; [exact HS'|]. intro x. specialize (M x). simpl in M. split; intro K.
    + destruct (proj1 M (or_intror K)) as [<-|K']; [|exact K']. specialize (HF b K). rewrite str_refl in HF. discriminate HF.
    + destruct (proj2 M (or_intror K)) as [<-|K']; [|exact K']. specialize (HF' b K). rewrite str_refl in HF'. discriminate HF'.
Qed.

Section Totals.
Variables (float_of : string -> option Q) (columns : list string) (i : nat).
Notation EXT := (ext float_of columns i).
Notation C2 := (add_column (add_column columns "op_wts") "thresh_values").
Lemma present_ext j x lines : Rectangular lines columns -> index_of x columns = Some j -> x <> "op_wts" -> x <> "thresh_values" ->
  present_at j (map EXT lines) = present_at j lines.
Proof.
  intros HR H A B. induction lines as [|r lines IH]; [reflexivity|]. cbn [map present_at].
  rewrite (ext_cell float_of columns i r x j) by (auto; apply HR; left; reflexivity).
  rewrite IH by (intros r' Hr'; apply HR; right; exact Hr'). reflexivity.
Qed.
Lemma index_c2 x j : x <> "op_wts" -> x <> "thresh_values" -> index_of x C2 = Some j -> index_of x columns = Some j.
Proof.
  intros A B H. destruct (index_of x columns) as [j'|] eqn:E.
  - rewrite (index2 columns "thresh_values" x j' E) in H. exact H.
  - rewrite (index_new (add_column columns "op_wts")) in H; [discriminate|apply index_new; assumption|exact B].
Qed.
Lemma total_ext x o lines sub : x <> "op_wts" -> x <> "thresh_values" -> Rectangular lines columns ->
  Permutation (map EXT lines) sub -> ColumnTotal lines columns x o -> ColumnTotal sub C2 x o.
Proof.
  intros A B HR HP [T1 T2]. split.
  - intro N. apply T1. intro K. apply N. destruct (in_index _ _ K) as [j J].
    apply (index2 columns "thresh_values") in J. apply index_of_ColumnAt in J. destruct J as [J _]. eapply nth_error_In, J.
  - intros j J. apply index_of_ColumnAt in J. apply index_c2 in J; try assumption.
    pose proof (present_perm j _ _ HP) as P. rewrite (present_ext j x lines HR J A B) in P.
    apply index_of_ColumnAt in J. destruct (T2 j J) as [U V]. split.
    + intro E. rewrite E in P. apply Permutation_sym, Permutation_nil in P. apply U, P.
    + intro E. destruct V as (q & Eq & Hq).
      * intro K. rewrite K in P. apply Permutation_nil in P. contradiction.
      * exists q. split; [exact Eq|]. rewrite Hq. apply qsum_perm, P.
Qed.
Lemma totals_ext lines sub h fa m c t : Permutation (map EXT lines) sub ->
  CtcTotals lines columns h fa m c t -> CtcTotals sub C2 h fa m c t.
Proof.
  intros HP [R N T1 T2 T3 T4 T5].
  assert (forall r, In r sub -> exists r0, In r0 lines /\ EXT r0 = r) as M.
  { intros r Hr. apply (Permutation_in _ (Permutation_sym HP)) in Hr. apply in_map_iff in Hr. destruct Hr as (r0 & E & H). eauto. }
  constructor; try (eapply total_ext; [discriminate|discriminate|exact R|exact HP|eassumption]).
  - intros r Hr. destruct (M r Hr) as (r0 & H0 & <-). apply ext_length. apply R, H0.
  - intros x Hx j r s J Hr. destruct (M r Hr) as (r0 & H0 & <-).
    assert (x <> "op_wts" /\ x <> "thresh_values") as [A B].
    { simpl in Hx. split; intros ->; repeat (destruct Hx as [Hx|Hx]; [discriminate Hx|]); destruct Hx. }
    apply index_of_ColumnAt in J. apply index_c2 in J; try assumption.
    rewrite (ext_cell float_of columns i r0 x j) by (auto; apply R, H0).
    apply (N x Hx); [apply index_of_ColumnAt; exact J|exact H0].
Qed.
End Totals.

Section Roc.
Variables (float_of : string -> option Q) (columns : list string) (data : tdata) (ascending : bool) (i : nat).
Hypothesis HI : index_of "fcst_thresh" columns = Some i.
Hypothesis HR : Rectangular data columns.
Notation EXT := (ext float_of columns i).
Notation C2 := (add_column (add_column columns "op_wts") "thresh_values").
Hypothesis HD : forall r, In r data -> exists key, Reads float_of i r key.
Definition textf (r : row) : string := match nth_error r i with Some (CStr s) => s | _ => "" end.
Let sd := sort_by (fun a b => dle ascending (keyf float_of i a) (keyf float_of i b)) data.
Let sel th (r : row) := match nth_error r i with Some (CStr s) => String.eqb s th | _ => false end.

Lemma reads_text r : In r data -> nth_error r i = Some (CStr (textf r)).
Proof.
  intro H. destruct (HD r H) as (key & c & op & E & P & _). unfold textf. rewrite E.
  destruct c; simpl in P; try discriminate P. reflexivity.
Qed.
Lemma in_sd r : In r sd <-> In r data.
Proof.
  pose proof (sort_perm (fun a b => dle ascending (keyf float_of i a) (keyf float_of i b)) data) as P. fold sd in P.
  split; intro H; [apply (Permutation_in _ (Permutation_sym P))|apply (Permutation_in _ P)]; exact H.
Qed.
Lemma roc_eq vals : thresh_values (map (fun r => fst (keyf float_of i r)) data) = Ok vals ->
  calculate_ctc_roc float_of columns data ascending =
  mapM (fun th =>
        p <- calculate_pody (filter (sel th) (map EXT sd)) C2 ;;
        f <- calculate_pofd (filter (sel th) (map EXT sd)) C2 ;;
        Ok (RocRow th p f))
    (let l := np_unique (map textf sd) in if ascending then l else rev l).
Proof.
  intro V. unfold calculate_ctc_roc. rewrite (sort_eq _ _ _ _ HI data ascending HD), V. cbn [bind].
  rewrite (index2 columns "thresh_values" _ i HI). fold sd.
  assert (column_at (map EXT sd) i = Ok (map (fun r => CStr (textf r)) sd)) as ->.
  { unfold column_at. clear V. assert (forall r, In r sd -> In r data) as M by (intros; apply in_sd; assumption).
    revert M. generalize sd as l. induction l as [|r l IH]; intro M; [reflexivity|]. cbn [map mapM].
    unfold cell_at at 1. rewrite (ext_cell float_of columns i r "fcst_thresh" i); [|apply HR, M; left; reflexivity|exact HI|discriminate|discriminate].
    rewrite (reads_text r) by (apply M; left; reflexivity). cbn [bind]. rewrite IH by (intros; apply M; right; assumption). reflexivity. }
  cbn [bind].
  assert (mapM text_of (map (fun r => CStr (textf r)) sd) = Ok (map textf sd)) as ->.
  { generalize sd as l. induction l as [|r l IH]; [reflexivity|]. cbn [map mapM text_of bind]. rewrite IH. reflexivity. }
  cbn [bind]. reflexivity.
Qed.
Lemma roc_ok vals : thresh_values (map (fun r => fst (keyf float_of i r)) data) = Ok vals ->
  exists roc, calculate_ctc_roc float_of columns data ascending = Ok roc.
Proof.
  intro V. rewrite (roc_eq vals V). generalize (let l := np_unique (map textf sd) in if ascending then l else rev l) as l.
  induction l as [|th l [roc IH]]; [exists []; reflexivity|]. cbn [mapM].
  destruct (pody_ok (filter (sel th) (map EXT sd)) C2) as [p ->]. destruct (pofd_ok (filter (sel th) (map EXT sd)) C2) as [f ->].
  cbn [bind]. rewrite IH. cbn [bind]. eauto.
Qed.
Lemma roc_rows vals roc : thresh_values (map (fun r => fst (keyf float_of i r)) data) = Ok vals ->
  calculate_ctc_roc float_of columns data ascending = Ok roc ->
  map thresh roc = (let l := np_unique (map textf data) in if ascending then l else rev l) /\
  (forall row, In row roc -> calculate_pody (filter (sel (thresh row)) (map EXT sd)) C2 = Ok (pody row) /\
     calculate_pofd (filter (sel (thresh row)) (map EXT sd)) C2 = Ok (pofd row)).
Proof.
  intros V H. rewrite (roc_eq vals V) in H.
  assert (np_unique (map textf sd) = np_unique (map textf data)) as ES.
  { apply (strict_unique _ _ (unique_strict _) (unique_strict _)). intro x. rewrite !unique_in. split; intro K;
      apply in_map_iff in K; destruct K as (r & <- & Hr); apply in_map; apply in_sd; exact Hr. }
  rewrite ES in H. apply mapM_inv in H. split.
  - revert H. generalize (let l := np_unique (map textf data) in if ascending then l else rev l) as l. intros l F.
    induction F as [|th row l roc E F IH]; [reflexivity|]. cbn [map]. rewrite IH. f_equal.
    destruct (pody_ok (filter (sel th) (map EXT sd)) C2) as [p E1]. destruct (pofd_ok (filter (sel th) (map EXT sd)) C2) as [f E2].
    rewrite E1, E2 in E. cbn [bind] in E. injection E as <-. reflexivity.
  - revert H. generalize (let l := np_unique (map textf data) in if ascending then l else rev l) as l. intros l F.
    induction F as [|th row l roc E F IH]; intros x Hx; [destruct Hx|]. destruct Hx as [<-|Hx]; [|auto].
    destruct (pody_ok (filter (sel th) (map EXT sd)) C2) as [p E1]. destruct (pofd_ok (filter (sel th) (map EXT sd)) C2) as [f E2].
    rewrite E1, E2 in E. cbn [bind] in E. injection E as <-. cbn [thresh pody pofd]. split; assumption.
Qed.
Lemma roc_lines th lines : Selection (fun r => CellOf columns r "fcst_thresh" (CStr th)) data lines ->
  Permutation (map EXT lines) (filter (sel th) (map EXT sd)).
Proof.
  intro S.
  assert (lines = filter (sel th) data) as ->.
  { eapply selection_unique; [exact S|apply (selection_filter (fun r => CellOf columns r "fcst_thresh" (CStr th)))|intros; reflexivity].
    intros r Hr. unfold sel. rewrite (reads_text r Hr). rewrite String.eqb_eq. split.
    - intro E. apply (nth_cellof columns _ i); [exact HI|]. rewrite (reads_text r Hr), E. reflexivity.
    - intro C. apply (cellof_nth _ _ i) in C; [|exact HI]. rewrite (reads_text r Hr) in C. injection C as ->. reflexivity. }
  assert (forall l, (forall r, In r l -> In r data) -> filter (sel th) (map EXT l) = map EXT (filter (sel th) l)) as FM.
  { induction l as [|r l IH]; intro M; [reflexivity|]. cbn [map filter]. rewrite IH by (intros; apply M; right; assumption).
    assert (sel th (EXT r) = sel th r) as ->.
    { unfold sel. rewrite (ext_cell float_of columns i r "fcst_thresh" i); [reflexivity|apply HR, M; left; reflexivity|exact HI|discriminate|discriminate]. }
    destruct (sel th r); reflexivity. }
  rewrite FM by (intros; apply in_sd; assumption). apply Permutation_map.
  pose proof (sort_perm (fun a b => dle ascending (keyf float_of i a) (keyf float_of i b)) data) as P. fold sd in P.
  clear - P. induction P as [|x l l' P IH|x y l|l l' l'' P IH P' IH']; cbn [filter].
  - constructor.
  - destruct (sel th x); [apply perm_skip|]; exact IH.
  - destruct (sel th x), (sel th y); try reflexivity. apply perm_swap.
  - rewrite IH. exact IH'.
Qed.
End Roc.

(* ---------- numbers and texts ---------- *)
Section Kinds.
Variables (float_of : string -> option Q) (columns : list string) (name : string) (i : nat).
Hypothesis HI : index_of name columns = Some i.
Hypotheses (N1 : name <> "op_wts") (N2 : name <> "thresh_values").
Notation EXT := (ext float_of columns i).
Definition TNum (r : row) (key : value * Q) : Prop :=
  match fst key with VNum v => RowNumber float_of columns name r v (snd key) | VText _ => False end.
Definition TText (r : row) (key : value * Q) : Prop :=
  match fst key with VText t => RowText columns name r t (snd key) /\ ~ snd key == 2 | VNum _ => False end.
Lemma tnum_reads r key : TNum r key -> Reads float_of i r key.
Proof. destruct key as [[v|t] k]; unfold TNum; simpl; [|tauto]. apply row_number_reads. exact HI. Qed.
Lemma ttext_reads r key : TText r key -> Reads float_of i r key.
Proof. destruct key as [[v|t] k]; unfold TText; simpl; [tauto|]. intros [A B]. eapply row_text_reads; eassumption. Qed.
Lemma cellof_ext r c : length r = length columns -> CellOf columns r name c <-> CellOf columns (EXT r) name c.
Proof.
  intro L. split; intro H.
  - apply (nth_cellof _ _ i); [exact HI|]. rewrite (ext_cell float_of columns i r name i L HI N1 N2). apply (cellof_nth _ _ _ _ _ HI H).
  - apply (nth_cellof _ _ i); [exact HI|]. rewrite <- (ext_cell float_of columns i r name i L HI N1 N2). apply (cellof_nth _ _ _ _ _ HI H).
Qed.
Lemma tnum_ext r key : length r = length columns -> TNum r key -> TNum (EXT r) key.
Proof.
  destruct key as [[v|t] k]; unfold TNum; simpl; [|tauto]. intros L (s & H & N). exists s. split; [apply (proj1 (cellof_ext r (CStr s) L)); exact H|exact N].
Qed.
Lemma ttext_ext r key : length r = length columns -> TText r key -> TText (EXT r) key.
Proof.
  destruct key as [[v|t] k]; unfold TText; simpl; [tauto|]. intros L ((s & H & N) & K). split; [|exact K].
  exists s. split; [apply (proj1 (cellof_ext r (CStr s) L)); exact H|exact N].
Qed.
Lemma ttext_all r key t k : TText r key -> RowText columns name r t k -> TText r (VText t, k).
Proof.
  destruct key as [[v|t'] k']; unfold TText; simpl; [tauto|]. intros ((s & C & H) & N) (s' & C' & H'). split; [exists s'; auto|].
  apply (cellof_nth _ _ i) in C; [|exact HI]. apply (cellof_nth _ _ i) in C'; [|exact HI]. rewrite C in C'. injection C' as <-.
  intro K. apply N. eapply text_rank; [exact H'|exact H|exact K].
Qed.
End Kinds.
Lemma dle_refl_num asc v v' k : v == v' -> dle asc (VNum v, k) (VNum v', k) = true.
Proof.
  intro H. unfold dle. destruct asc; apply key_le_iff; right; simpl; (split; [apply (proj1 (Qeq_alt _ _))|apply Qle_refl]); [exact H|symmetry; exact H].
Qed.
Lemma dle_refl_text asc t k : dle asc (VText t, k) (VText t, k) = true.
Proof. unfold dle. destruct asc; apply key_le_iff; right; simpl; (split; [apply str_refl|apply Qle_refl]). Qed.
Lemma dle_num asc v k v' k' : dle asc (VNum v, k) (VNum v', k') = true ->
  if asc then NumbersBefore v k v' k' else NumbersBefore v' k' v k.
Proof.
  unfold dle. destruct asc; intro H; apply key_le_iff in H; unfold kle in H; simpl in H; (destruct H as [H|[H K]];
    [left; apply (proj2 (Qlt_alt _ _)); exact H|right; split; [apply (proj2 (Qeq_alt _ _)); exact H|exact K]]).
Qed.
Lemma dle_text asc v k v' k' : dle asc (VText v, k) (VText v', k') = true ->
  if asc then TextsBefore v k v' k' else TextsBefore v' k' v k.
Proof.
  unfold dle. destruct asc; intro H; apply key_le_iff in H; unfold kle in H; simpl in H; (destruct H as [H|[H K]];
    [left; exact H|right; split; [apply str_eq; exact H|exact K]]).
Qed.
Lemma forall2_map_r {A B} (P : A -> B -> Prop) f l : (forall x, In x l -> P x (f x)) -> Forall2 P l (map f l).
Proof. induction l as [|x l IH]; intro H; simpl; constructor; [apply H; left; reflexivity|apply IH; intros; apply H; right; assumption]. Qed.

(* ---------- once more ---------- *)
Lemma set_cell_again columns name c (r : row) j : index_of name columns = Some j -> nth_error r j = Some c ->
  set_cell columns name c r = r.
Proof. unfold set_cell. intros -> H. apply set_nth_id. exact H. Qed.
Lemma ext_twice float_of columns name i r : index_of name columns = Some i -> name <> "op_wts" -> name <> "thresh_values" ->
  length r = length columns ->
  ext float_of (add_column (add_column columns "op_wts") "thresh_values") i (ext float_of columns i r) = ext float_of columns i r.
Proof.
  intros HI N1 N2 L. set (c1 := add_column columns "op_wts"). set (c2 := add_column c1 "thresh_values").
  destruct (index_self columns "op_wts") as [a A]. fold c1 in A. pose proof (index_add c1 "thresh_values" _ _ A) as A2. fold c2 in A2.
  destruct (index_self c1 "thresh_values") as [b B]. fold c2 in B.
  pose proof (ext_key float_of columns name i HI N1 N2 r L) as K.
  unfold ext at 1. rewrite K. rewrite (add_again c2 "op_wts" a A2).
  assert (nth_error (ext float_of columns i r) a = Some (CNum (snd (keyf float_of i r)))) as EA.
  { unfold ext. fold c1. rewrite (set_cell_other c1 _ _ _ "op_wts" a); [|apply set_cell_length; exact L|discriminate|exact A].
    apply set_cell_same; assumption. }
  assert (nth_error (ext float_of columns i r) b = Some (value_cell (fst (keyf float_of i r)))) as EB.
  { unfold ext. fold c1. apply set_cell_same; [apply set_cell_length; exact L|exact B]. }
  rewrite (set_cell_again c2 "op_wts" _ _ a A2 EA). apply (set_cell_again c2 _ _ _ b B EB).
Qed.

(* ---------- unreadable ---------- *)
Lemma bad_row float_of columns before r rest name i c e : index_of name columns = Some i ->
  (forall x, In x (before ++ r :: rest) -> length x = length columns) ->
  (forall x, In x before -> exists key, Reads float_of i x key) -> nth_error r i = Some c -> parse_thresh float_of c = Err e ->
  forall ascending, sort_by_thresh float_of columns (before ++ r :: rest)%list name ascending = Err e.
Proof.
  intros HI L HB E P asc. unfold sort_by_thresh. rewrite HI.
  set (cf := fun r : row => match nth_error r i with Some c => c | None => CMiss end).
  assert (column_at (before ++ r :: rest) i = Ok (map cf (before ++ r :: rest))) as ->.
  { apply mapM_map. intros x Hx. unfold cell_at, cf. destruct (nth_error x i) eqn:Ex; [reflexivity|].
    exfalso. apply nth_error_None in Ex. rewrite (L x Hx) in Ex. pose proof (index_of_lt _ _ _ HI). lia. }
  cbn [bind].
  assert (mapM (parse_thresh float_of) (map cf (before ++ r :: rest)) = Err e) as ->; [|reflexivity].
  clear L. induction before as [|x before IH].
  - cbn [app map mapM]. unfold cf at 1. rewrite E, P. reflexivity.
  - cbn [app map mapM]. destruct (HB x (or_introl eq_refl)) as (key & c' & op & E' & P' & _). unfold cf at 1. rewrite E', P'. cbn [bind].
    rewrite IH by (intros; apply HB; right; assumption). reflexivity.
Qed.

(* ---------- concrete rows ---------- *)
Ltac cell_of := exists 0%nat; split; [split; [reflexivity|intros j ? ?; lia]|reflexivity].
Lemma not_in_list {A} (eqb : A -> A -> bool) x l : (forall y, eqb x y = false -> x <> y) ->
  forallb (fun y => negb (eqb x y)) l = true -> ~ In x l.
Proof.
  intros H F K. rewrite forallb_forall in F. specialize (F x K). apply negb_true_iff in F. exact (H x F eq_refl).
Qed.
Lemma ascii_neq x y : Ascii.eqb x y = false -> x <> y.
Proof. intros H ->. rewrite Ascii.eqb_refl in H. discriminate H. Qed.
Ltac no_newline := apply (not_in_list Ascii.eqb _ _ (ascii_neq _)); reflexivity.
Ltac number_text :=
  split; [no_newline|]; first
  [ exists "", "1"%char; eexists; split; [simpl; tauto|split; [exact (is_digit_in "1"%char eq_refl)|reflexivity]]
  | exists "", "2"%char; eexists; split; [simpl; tauto|split; [exact (is_digit_in "2"%char eq_refl)|reflexivity]]
  | exists "", "5"%char; eexists; split; [simpl; tauto|split; [exact (is_digit_in "5"%char eq_refl)|reflexivity]]
  | exists "-", "2"%char; eexists; split; [simpl; tauto|split; [exact (is_digit_in "2"%char eq_refl)|reflexivity]] ].
Ltac plain_text :=
  split; [no_newline|]; intros ? ? E; injection E as <- <-; apply (not_in_list Ascii.eqb _ _ (ascii_neq _)); reflexivity.
Ltac row_number :=
  match goal with |- exists v k, RowNumber _ _ _ (CStr ?s :: _) v k =>
    let go op num v k := (exists v, k, s; split; [cell_of|]; exists op, num; split; [simpl; tauto|]; split; [reflexivity|]; split; [number_text|reflexivity]) in
    match eval cbv in s with
    | ">=10" => go ">=" "10" 10 4
    | "<=2" => go "<=" "2" 2 2
    | "2" => go "" "2" 2 3
    | "<2" => go "<" "2" 2 1
    | ">-2" => go ">" "-2" (-2) 5
    | "==2" => go "==" "2" 2 3
    | ">=2" => go ">=" "2" 2 4
    | ">=1" => go ">=" "1" 1 4
    end
  end.
Ltac row_text :=
  match goal with |- exists t k, RowText _ _ (CStr ?s :: _) t k /\ _ =>
    let go op t k := (exists t, k; split; [exists s; split; [cell_of|]; exists op; split; [simpl; tauto|]; split; [reflexivity|plain_text]|discriminate]) in
    match eval cbv in s with
    | ">SFP30" => go ">" "SFP30" 5
    | "==SFP25" => go "==" "SFP25" 3
    | ">=SFP30" => go ">=" "SFP30" 4
    end
  end.

(** The statements of PropertiesRoc.v. *)
Lemma C49_numbers_proof : forall float_of columns data name ascending,
  Rectangular data columns -> In name columns -> ~ In "op_wts" columns -> ~ In "thresh_values" columns ->
  data <> [] -> (forall r, In r data -> exists v k, RowNumber float_of columns name r v k) ->
  exists keyed sorted,
    sort_by_thresh float_of columns data name ascending
      = Ok ((columns ++ ["op_wts"; "thresh_values"])%list, keyed, sorted) /\
    Forall2 (fun r r' => exists v k, RowNumber float_of columns name r v k /\ r' = (r ++ [CNum k; CNum v])%list) data keyed /\
    Permutation keyed sorted /\
    StronglySorted (Directed ascending (fun a b => forall v k v' k',
      RowNumber float_of columns name a v k -> RowNumber float_of columns name b v' k' -> NumbersBefore v k v' k')) sorted /\
    (forall v k rows, let same r := exists v', RowNumber float_of columns name r v' k /\ v' == v in
       Selection same keyed rows -> Selection same sorted rows).
Proof.
  intros float_of columns data name ascending HR HN H1 H2 ND HT.
  destruct (in_index _ _ HN) as [i HI]. destruct (name_new _ _ _ HI H1 H2) as [N1 N2].
  assert (forall r, In r data -> exists key, TNum float_of columns name r key /\ is_num (fst key) = true) as HT'.
  { intros r Hr. destruct (HT r Hr) as (v & k & H). exists (VNum v, k). split; [exact H|reflexivity]. }
  exists (map (ext float_of columns i) data), (map (ext float_of columns i)
    (sort_by (fun a b => dle ascending (keyf float_of i a) (keyf float_of i b)) data)). split; [|split; [|split; [|split]]].
  - rewrite <- (columns_plain columns H1 H2).
    apply (result_eq float_of columns name i HI (TNum float_of columns name) (tnum_reads _ _ _ _ HI) data ascending true HR ND HT').
  - apply forall2_map_r. intros r Hr. destruct (HT r Hr) as (v & k & H). exists v, k. split; [exact H|].
    rewrite (ext_plain float_of columns i H1 H2). rewrite (reads_key _ _ _ _ (row_number_reads _ _ _ _ _ _ _ HI H)). reflexivity.
  - apply result_perm.
  - eapply sorted_weaken; [apply (result_sorted float_of columns name i HI N1 N2 (TNum float_of columns name) (tnum_reads _ _ _ _ HI) data ascending HR)|].
    intros a b _ _ H. unfold Directed. destruct ascending.
    + intros v k v' k' A B. exact (dle_num true _ _ _ _ (H (VNum v, k) (VNum v', k') A B)).
    + intros v k v' k' A B. exact (dle_num false _ _ _ _ (H (VNum v', k') (VNum v, k) B A)).
  - intros v k rows same S.
    apply (result_stable float_of columns name i HI N1 N2 (TNum float_of columns name) (tnum_reads _ _ _ _ HI)
             (tnum_ext _ _ _ _ HI N1 N2) data ascending true HR HT'
             (fun key => match fst key with VNum x => Qeq_bool x v && qid (snd key) k | VText _ => false end)).
    + intros [[x|x] kx] [[y|y] ky]; simpl; try discriminate. rewrite !andb_true_iff, !Qeq_bool_iff, !qid_iff. intros [A ->] [B ->].
      apply dle_refl_num. rewrite A, B. reflexivity.
    + intros r _. unfold same. split.
      * intros (v' & A & B). exists (VNum v', k). split; [exact A|]. simpl. rewrite (proj2 (Qeq_bool_iff _ _) B), (proj2 (qid_iff _ _) eq_refl). reflexivity.
      * intros ([[x|x] kx] & A & B); simpl in B; [|discriminate B]. rewrite andb_true_iff, Qeq_bool_iff, qid_iff in B. destruct B as [B ->].
        exists x. split; [exact A|exact B].
    + exact S.
Qed.

Lemma C49_texts_proof : forall float_of columns data name ascending,
  Rectangular data columns -> In name columns -> ~ In "op_wts" columns -> ~ In "thresh_values" columns ->
  data <> [] -> (forall r, In r data -> exists t k, RowText columns name r t k /\ ~ k == 2) ->
  exists keyed sorted,
    sort_by_thresh float_of columns data name ascending
      = Ok ((columns ++ ["op_wts"; "thresh_values"])%list, keyed, sorted) /\
    Forall2 (fun r r' => exists t k, RowText columns name r t k /\ r' = (r ++ [CNum k; CStr t])%list) data keyed /\
    Permutation keyed sorted /\
    StronglySorted (Directed ascending (fun a b => forall t k t' k',
      RowText columns name a t k -> RowText columns name b t' k' -> TextsBefore t k t' k')) sorted /\
    (forall t k rows, let same r := RowText columns name r t k in
       Selection same keyed rows -> Selection same sorted rows).
Proof.
  intros float_of columns data name ascending HR HN H1 H2 ND HT.
  destruct (in_index _ _ HN) as [i HI]. destruct (name_new _ _ _ HI H1 H2) as [N1 N2].
  assert (forall r, In r data -> exists key, TText columns name r key /\ is_num (fst key) = false) as HT'.
  { intros r Hr. destruct (HT r Hr) as (v & k & H & K). exists (VText v, k). split; [split; [exact H|exact K]|reflexivity]. }
  assert (forall r, In r (map (ext float_of columns i) data) -> exists key, TText columns name r key) as HE.
  { intros r Hr. apply in_map_iff in Hr. destruct Hr as (r0 & <- & Hr). destruct (HT' r0 Hr) as (key & K & _). exists key.
    apply (ttext_ext float_of columns name i HI N1 N2); [apply HR; exact Hr|exact K]. }
  exists (map (ext float_of columns i) data), (map (ext float_of columns i)
    (sort_by (fun a b => dle ascending (keyf float_of i a) (keyf float_of i b)) data)).
  assert (Permutation (map (ext float_of columns i) data) (map (ext float_of columns i)
    (sort_by (fun a b => dle ascending (keyf float_of i a) (keyf float_of i b)) data))) as HP by apply result_perm.
  split; [|split; [|split; [exact HP|split]]].
  - rewrite <- (columns_plain columns H1 H2).
    apply (result_eq float_of columns name i HI (TText columns name) (ttext_reads _ _ _ _ HI) data ascending false HR ND HT').
  - apply forall2_map_r. intros r Hr. destruct (HT r Hr) as (v & k & H & K). exists v, k. split; [exact H|].
    rewrite (ext_plain float_of columns i H1 H2). rewrite (reads_key _ _ _ _ (row_text_reads float_of _ _ _ _ _ _ HI H K)). reflexivity.
  - eapply sorted_weaken; [apply (result_sorted float_of columns name i HI N1 N2 (TText columns name) (ttext_reads _ _ _ _ HI) data ascending HR)|].
    intros a b Ha Hb H. apply (Permutation_in _ (Permutation_sym HP)) in Ha. apply (Permutation_in _ (Permutation_sym HP)) in Hb.
    destruct (HE a Ha) as (ka & Ka). destruct (HE b Hb) as (kb & Kb). unfold Directed. destruct ascending.
    + intros v k v' k' A B. apply (ttext_all float_of _ _ _ HI _ _ _ _ Ka) in A. apply (ttext_all float_of _ _ _ HI _ _ _ _ Kb) in B.
      exact (dle_text true _ _ _ _ (H (VText v, k) (VText v', k') A B)).
    + intros v k v' k' A B. apply (ttext_all float_of _ _ _ HI _ _ _ _ Kb) in A. apply (ttext_all float_of _ _ _ HI _ _ _ _ Ka) in B.
      exact (dle_text false _ _ _ _ (H (VText v', k') (VText v, k) B A)).
  - intros t k rows same S.
    apply (result_stable float_of columns name i HI N1 N2 (TText columns name) (ttext_reads _ _ _ _ HI)
             (ttext_ext _ _ _ _ HI N1 N2) data ascending false HR HT'
             (fun key => match fst key with VText x => String.eqb x t && qid (snd key) k | VNum _ => false end)).
    + intros [[x|x] kx] [[y|y] ky]; simpl; try discriminate. rewrite !andb_true_iff, !String.eqb_eq, !qid_iff. intros [-> ->] [-> ->].
      apply dle_refl_text.
    + intros r Hr. unfold same. destruct (HE r Hr) as (kr & Kr). split.
      * intro A. exists (VText t, k). split; [exact (ttext_all float_of _ _ _ HI _ _ _ _ Kr A)|]. simpl. rewrite String.eqb_refl, (proj2 (qid_iff _ _) eq_refl). reflexivity.
      * intros ([[x|x] kx] & A & B); simpl in B; [discriminate B|]. rewrite andb_true_iff, String.eqb_eq, qid_iff in B. destruct B as [-> ->].
        exact (proj1 A).
    + exact S.
Qed.

Lemma C49_less_equal_refuted_proof : forall float_of t, PlainText t ->
  sort_by_thresh float_of ["fcst_thresh"] [[CStr ("<=" ++ t)]] "fcst_thresh" true =
    Ok (["fcst_thresh"; "op_wts"; "thresh_values"],
        [[CStr ("<=" ++ t); CNum 1; CStr ("=" ++ t)]], [[CStr ("<=" ++ t); CNum 1; CStr ("=" ++ t)]]) /\
  exists keyed sorted,
    sort_by_thresh float_of ["fcst_thresh"] [[CStr ">SFP30"]; [CStr "<=SFP50"]] "fcst_thresh" true
      = Ok (["fcst_thresh"; "op_wts"; "thresh_values"], keyed, sorted) /\
    map (fun r => nth_error r 0) sorted = [Some (CStr "<=SFP50"); Some (CStr ">SFP30")] /\
    String.compare "SFP30" "SFP50" = Lt.
Proof.
  intros float_of t HP. split.
  - assert (TextThreshold ("<=" ++ t) t 2) as HT by (exists "<="; repeat split; [simpl; tauto|exact (proj1 HP)|exact (proj2 HP)]).
    destruct HT as (op & H & E & P).
    assert (In ("<=", 2) op_ranks) as IN by (simpl; tauto).
    unfold sort_by_thresh. cbn [index_of String.eqb Ascii.eqb Bool.eqb andb]. unfold column_at. cbn [mapM cell_at nth_error bind].
    assert (parse_thresh float_of (CStr ("<=" ++ t)) = Ok (Some "<", VText ("=" ++ t))) as ->.
    { unfold parse_thresh. rewrite (text_no_number "<=" 2 t IN HP), (text_op "<=" 2 t IN HP). reflexivity. }
    reflexivity.
  - eexists _, _. split; [vm_compute; reflexivity|]. split; reflexivity.
Qed.

Lemma C49_again_proof : forall float_of columns data name ascending columns' keyed sorted,
  Rectangular data columns -> name <> "op_wts" -> name <> "thresh_values" ->
  sort_by_thresh float_of columns data name ascending = Ok (columns', keyed, sorted) ->
  sort_by_thresh float_of columns' sorted name ascending = Ok (columns', sorted, sorted).
Proof.
  intros float_of columns data name ascending columns' keyed sorted HR N1 N2 H.
  destruct (index_of name columns) as [i|] eqn:HI; [|unfold sort_by_thresh in H; rewrite HI in H; discriminate H].
  pose proof (sort_inv _ _ _ _ HI _ _ _ H) as HD. rewrite (sort_eq _ _ _ _ HI data ascending HD) in H.
  destruct (thresh_values (map (fun r => fst (keyf float_of i r)) data)) as [vals|] eqn:V; [|discriminate H]. cbn [bind] in H.
  injection H as <- <- <-.
  set (sd := sort_by (fun a b => dle ascending (keyf float_of i a) (keyf float_of i b)) data).
  assert (Permutation data sd) as HP by apply sort_perm.
  assert (forall r, In r sd -> In r data) as M by (intros r; apply (Permutation_in _ (Permutation_sym HP))).
  destruct (values_inv _ _ V) as (-> & NE & b & HB).
  rewrite (sort_eq float_of _ name i (index2 columns "thresh_values" _ _ HI) (map (ext float_of columns i) sd) ascending).
  2: { intros r Hr. apply in_map_iff in Hr. destruct Hr as (r0 & <- & Hr). destruct (HD r0 (M r0 Hr)) as (key & K). exists key.
       apply (ext_reads float_of columns name i HI N1 N2); [apply HR, M, Hr|exact K]. }
  assert (map (fun r => fst (keyf float_of i r)) (map (ext float_of columns i) sd) = map (fun r => fst (keyf float_of i r)) sd) as ->.
  { rewrite map_map. apply map_ext_in. intros r Hr. rewrite (ext_key float_of columns name i HI N1 N2 r (HR r (M r Hr))). reflexivity. }
  rewrite (values_ok _ b).
  2: { intro E. apply NE. apply map_eq_nil in E. rewrite E in HP. apply Permutation_sym, Permutation_nil in HP. rewrite HP. reflexivity. }
  2: { intros v Hv. apply HB. apply in_map_iff in Hv. destruct Hv as (r & <- & Hr). apply (in_map (fun r => fst (keyf float_of i r))). apply M, Hr. }
  cbn [bind]. destruct (index_self columns "op_wts") as [a A]. destruct (index_self (add_column columns "op_wts") "thresh_values") as [b' B'].
  rewrite (add_again _ "op_wts" a (index_add _ "thresh_values" _ _ A)).
  rewrite (add_again _ _ b' B').
  assert (map (ext float_of (add_column (add_column columns "op_wts") "thresh_values") i) (map (ext float_of columns i) sd)
          = map (ext float_of columns i) sd) as ES.
  { rewrite map_map. apply map_ext_in. intros r Hr. apply (ext_twice float_of columns name i r HI N1 N2). apply HR, M, Hr. }
  rewrite (sort_fixed (fun a b => dle ascending (keyf float_of i a) (keyf float_of i b))).
  - rewrite ES. reflexivity.
  - apply sorted_map. eapply sorted_weaken.
    + apply (sort_sorted (fun a b => dle ascending (keyf float_of i a) (keyf float_of i b)) (fun _ => True)).
      * intros x y _ _. apply dle_total.
      * intros x y z _ _ _. apply dle_trans.
      * apply Forall_forall. intros; exact I.
    + intros x y Hx Hy L. rewrite !(ext_key float_of columns name i HI N1 N2); [exact L|apply HR, M, Hy|apply HR, M, Hx].
Qed.

Lemma C49_empty_proof : forall float_of columns name ascending,
  (In name columns -> sort_by_thresh float_of columns [] name ascending = Err UnboundLocalError) /\
  (forall data, ~ In name columns -> sort_by_thresh float_of columns data name ascending = Err KeyError).
Proof.
  intros float_of columns name ascending. split.
  - intro H. destruct (in_index _ _ H) as [i HI]. unfold sort_by_thresh. rewrite HI. reflexivity.
  - intros data H. unfold sort_by_thresh. rewrite (not_in_index _ _ H). reflexivity.
Qed.

Lemma C49_mixed_proof : forall float_of columns data name ascending,
  Rectangular data columns -> In name columns ->
  (forall r, In r data -> (exists v k, RowNumber float_of columns name r v k) \/ (exists t k, RowText columns name r t k)) ->
  (exists r v k, In r data /\ RowNumber float_of columns name r v k) ->
  (exists r t k, In r data /\ RowText columns name r t k) ->
  sort_by_thresh float_of columns data name ascending = Err ValueError.
Proof.
  intros float_of columns data name ascending HR HN HT (r1 & v1 & k1 & I1 & R1) (r2 & t2 & k2 & I2 & R2).
  destruct (in_index _ _ HN) as [i HI].
  pose proof (row_number_reads _ _ _ _ _ _ _ HI R1) as D1. destruct (row_text_any float_of _ _ _ _ _ _ HI R2) as (t' & k' & D2).
  rewrite (sort_eq _ _ _ _ HI).
  - rewrite (values_mixed _ (VNum v1) (VText t')); [reflexivity| | |discriminate].
    + apply in_map_iff. exists r1. rewrite (reads_key _ _ _ _ D1). split; [reflexivity|exact I1].
    + apply in_map_iff. exists r2. rewrite (reads_key _ _ _ _ D2). split; [reflexivity|exact I2].
  - intros r Hr. destruct (HT r Hr) as [(v & k & H)|(t & k & H)].
    + exists (VNum v, k). eapply row_number_reads; eassumption.
    + destruct (row_text_any float_of _ _ _ _ _ _ HI H) as (t0 & k0 & D). eauto.
Qed.

Lemma C49_unreadable_proof : forall float_of columns before r rest name ascending c,
  Rectangular (before ++ r :: rest)%list columns ->
  (forall x, In x before -> exists v k, RowNumber float_of columns name x v k) ->
  CellOf columns r name c ->
  ((forall s, c <> CStr s) -> sort_by_thresh float_of columns (before ++ r :: rest)%list name ascending = Err TypeError) /\
  (forall op num k, c = CStr (op ++ num) -> In (op, k) op_ranks -> NumberText num -> float_of num = None ->
     sort_by_thresh float_of columns (before ++ r :: rest)%list name ascending = Err ValueError).
Proof.
  intros float_of columns before r rest name ascending c HR HB HC.
  assert (In name columns) as IN by (destruct HC as (j & [J _] & _); eapply nth_error_In, J).
  destruct (in_index _ _ IN) as [i HI]. pose proof (cellof_nth _ _ _ _ _ HI HC) as E.
  assert (forall x, In x before -> exists key, Reads float_of i x key) as HK.
  { intros x Hx. destruct (HB x Hx) as (v & k & H). exists (VNum v, k). eapply row_number_reads; eassumption. }
  split.
  - intro N. apply (bad_row float_of columns before r rest name i c TypeError HI HR HK E).
    destruct c as [q| |s]; try reflexivity. exfalso. apply (N s). reflexivity.
  - intros op num k -> IO NT F. apply (bad_row float_of columns before r rest name i _ ValueError HI HR HK E).
    eapply parse_bad; eassumption.
Qed.

Lemma C50_table_proof : forall float_of columns data ascending roc,
  Rectangular data columns ->
  calculate_ctc_roc float_of columns data ascending = Ok roc ->
  StronglySorted (Directed ascending (fun a b => String.compare a b = Lt)) (map thresh roc) /\
  (forall s, In s (map thresh roc) <-> exists r, In r data /\ CellOf columns r "fcst_thresh" (CStr s)) /\
  (forall row lines h fa m c t,
     In row roc -> Selection (fun r => CellOf columns r "fcst_thresh" (CStr (thresh row))) data lines ->
     CtcTotals lines columns h fa m c t ->
     Published (tb_pody h fa m c t) (pody row) /\ Published (tb_pofd h fa m c t) (pofd row)).
Proof.
  intros float_of columns data ascending roc HR H.
  destruct (index_of "fcst_thresh" columns) as [i|] eqn:HI.
  2: { unfold calculate_ctc_roc, sort_by_thresh in H. rewrite HI in H. discriminate H. }
  assert (exists out, sort_by_thresh float_of columns data "fcst_thresh" ascending = Ok out) as [out HO].
  { unfold calculate_ctc_roc in H. destruct (sort_by_thresh float_of columns data "fcst_thresh" ascending); [eauto|discriminate H]. }
  pose proof (sort_inv _ _ _ _ HI _ _ _ HO) as HD. rewrite (sort_eq _ _ _ _ HI data ascending HD) in HO.
  destruct (thresh_values (map (fun r => fst (keyf float_of i r)) data)) as [vals|] eqn:V; [|discriminate HO].
  destruct (roc_rows float_of columns data ascending i HI HR HD vals roc V H) as [ET EV]. cbv zeta in ET.
  split; [|split].
  - rewrite ET. destruct ascending; unfold Directed; [apply unique_strict|apply (sorted_rev (fun a b => String.compare a b = Lt)), unique_strict].
  - intro s. rewrite ET. assert (In s (if ascending then np_unique (map (textf i) data) else rev (np_unique (map (textf i) data)))
      <-> In s (map (textf i) data)) as -> by (destruct ascending; [|rewrite <- in_rev]; apply unique_in).
    split; intro K.
    + apply in_map_iff in K. destruct K as (r & <- & Hr). exists r. split; [exact Hr|].
      apply (nth_cellof _ _ i); [exact HI|]. apply (reads_text float_of data i HD r Hr).
    + destruct K as (r & Hr & C). apply in_map_iff. exists r. split; [|exact Hr].
      apply (cellof_nth _ _ i) in C; [|exact HI]. unfold textf. rewrite C. reflexivity.
  - intros row lines h fa m c t HIn HS HC. destruct (EV row HIn) as [E1 E2].
    pose proof (roc_lines float_of columns data ascending i HI HR HD (thresh row) lines HS) as P.
    pose proof (totals_ext float_of columns i _ _ _ _ _ _ _ P HC) as HC'.
    destruct (pody_value _ _ _ _ _ _ _ HC') as (p & F1 & P1). destruct (pofd_value _ _ _ _ _ _ _ HC') as (f & F2 & P2).
    rewrite E1 in F1. rewrite E2 in F2. injection F1 as ->. injection F2 as ->. split; assumption.
Qed.

Lemma C50_defined_proof : forall float_of columns data ascending,
  Rectangular data columns -> In "fcst_thresh" columns -> data <> [] ->
  (forall r, In r data -> exists v k, RowNumber float_of columns "fcst_thresh" r v k) \/
  (forall r, In r data -> exists t k, RowText columns "fcst_thresh" r t k) ->
  exists roc, calculate_ctc_roc float_of columns data ascending = Ok roc.
Proof.
  intros float_of columns data ascending HR HN ND HT. destruct (in_index _ _ HN) as [i HI].
  assert (exists b, forall r, In r data -> exists key, Reads float_of i r key /\ is_num (fst key) = b) as [b HB].
  { destruct HT as [HT|HT].
    - exists true. intros r Hr. destruct (HT r Hr) as (v & k & H). exists (VNum v, k). split; [eapply row_number_reads; eassumption|reflexivity].
    - exists false. intros r Hr. destruct (HT r Hr) as (t & k & H). destruct (row_text_any float_of _ _ _ _ _ _ HI H) as (t' & k' & D).
      exists (VText t', k'). split; [exact D|reflexivity]. }
  assert (forall r, In r data -> exists key, Reads float_of i r key) as HD.
  { intros r Hr. destruct (HB r Hr) as (key & K & _). eauto. }
  apply (roc_ok float_of columns data ascending i HI HR HD (map (fun r => fst (keyf float_of i r)) data)).
  apply (values_ok _ b).
  - destruct data; [contradiction|discriminate].
  - intros v Hv. apply in_map_iff in Hv. destruct Hv as (r & <- & Hr). destruct (HB r Hr) as (key & K & E).
    rewrite (reads_key _ _ _ _ K). exact E.
Qed.

Lemma C50_order_refuted_proof : forall float_of columns data roc i j,
  calculate_ctc_roc float_of columns data true = Ok roc -> Rectangular data columns ->
  nth_error (map thresh roc) i = Some ">=10" -> nth_error (map thresh roc) j = Some ">=2" -> (i < j)%nat.
Proof.
  intros float_of columns data roc i j H HR Hi Hj.
  destruct (C50_table_proof float_of columns data true roc HR H) as [HS _]. unfold Directed in HS.
  assert (forall (l : list string) i j a b, StronglySorted (fun a b => String.compare a b = Lt) l -> nth_error l i = Some a -> nth_error l j = Some b ->
    String.compare a b = Lt -> (i < j)%nat) as X.
  { clear. induction l as [|x l IH]; intros i j a b HS Hi Hj E; [destruct i; discriminate Hi|].
    inversion HS as [|? ? HS' HF]; subst. rewrite Forall_forall in HF. destruct i as [|i], j as [|j]; simpl in Hi, Hj.
    - injection Hi as ->. injection Hj as ->. rewrite str_refl in E. discriminate E.
    - lia.
    - injection Hj as ->. specialize (HF a (nth_error_In _ _ Hi)). rewrite str_sym, HF in E. discriminate E.
    - specialize (IH i j a b HS' Hi Hj E). lia. }
  apply (X _ i j ">=10" ">=2" HS Hi Hj). reflexivity.
Qed.

Lemma C49_numbers_case_proof :
  let data := [[CStr ">=10"; CNum 1]; [CStr "<=2"; CNum 2]; [CStr "2"; CNum 3]; [CStr "<2"; CNum 4]; [CStr ">-2"; CNum 5]; [CStr "==2"; CNum 6]] in
  Rectangular data ["fcst_thresh"; "x"] /\
  (forall r, In r data -> exists v k, RowNumber read_digit ["fcst_thresh"; "x"] "fcst_thresh" r v k) /\
  exists keyed, sort_by_thresh read_digit ["fcst_thresh"; "x"] data "fcst_thresh" true = Ok
    (["fcst_thresh"; "x"; "op_wts"; "thresh_values"], keyed,
     [ [CStr ">-2"; CNum 5; CNum 5; CNum (-2)]; [CStr "<2"; CNum 4; CNum 1; CNum 2]; [CStr "<=2"; CNum 2; CNum 2; CNum 2];
       [CStr "2"; CNum 3; CNum 3; CNum 2]; [CStr "==2"; CNum 6; CNum 3; CNum 2]; [CStr ">=10"; CNum 1; CNum 4; CNum 10] ]).
Proof.
  intro data. split; [intros r Hr; repeat (destruct Hr as [<-|Hr]; [reflexivity|]); destruct Hr|]. split.
  - intros r Hr. repeat (destruct Hr as [<-|Hr]; [row_number|]); destruct Hr.
  - eexists. vm_compute. reflexivity.
Qed.

Lemma C49_texts_case_proof :
  let data := [[CStr ">SFP30"]; [CStr "==SFP25"]; [CStr ">=SFP30"]] in
  (forall r, In r data -> exists t k, RowText ["fcst_thresh"] "fcst_thresh" r t k /\ ~ k == 2) /\
  exists keyed, sort_by_thresh read_digit ["fcst_thresh"] data "fcst_thresh" true = Ok
    (["fcst_thresh"; "op_wts"; "thresh_values"], keyed,
     [ [CStr "==SFP25"; CNum 3; CStr "SFP25"]; [CStr ">=SFP30"; CNum 4; CStr "SFP30"]; [CStr ">SFP30"; CNum 5; CStr "SFP30"] ]).
Proof.
  intro data. split.
  - intros r Hr. repeat (destruct Hr as [<-|Hr]; [row_text|]); destruct Hr.
  - eexists. vm_compute. reflexivity.
Qed.

Lemma C49_mixed_case_proof :
  let data := [[CStr ">5"]; [CStr "<=SFP50"]] in
  Rectangular data ["fcst_thresh"] /\
  RowNumber read_digit ["fcst_thresh"] "fcst_thresh" [CStr ">5"] 5 5 /\ RowText ["fcst_thresh"] "fcst_thresh" [CStr "<=SFP50"] "SFP50" 2.
Proof.
  intro data. split; [intros r Hr; repeat (destruct Hr as [<-|Hr]; [reflexivity|]); destruct Hr|]. split.
  - exists ">5". split; [cell_of|]. exists ">", "5". split; [simpl; tauto|]. split; [reflexivity|]. split; [number_text|reflexivity].
  - exists "<=SFP50". split; [cell_of|]. exists "<=". split; [simpl; tauto|]. split; [reflexivity|]. plain_text.
Qed.

Lemma C49_unreadable_case_proof :
  CellOf ["fcst_thresh"] [CNum 5] "fcst_thresh" (CNum 5) /\
  In (">", 5) op_ranks /\ NumberText "5mm" /\ read_digit "5mm" = None.
Proof.
  split; [cell_of|]. split; [simpl; tauto|]. split; [number_text|reflexivity].
Qed.

Lemma C50_case_proof :
  let columns := ["fcst_thresh"; "total"; "fy_oy"; "fy_on"; "fn_oy"; "fn_on"] in
  let data := [ [CStr ">=2"; CNum 8; CNum 3; CNum 1; CNum 1; CNum 3]; [CStr ">=1"; CNum 8; CNum 4; CNum 2; CNum 0; CNum 2];
                [CStr ">=2"; CNum 8; CNum 2; CNum 0; CNum 2; CNum 4] ] in
  Rectangular data columns /\
  (forall r, In r data -> exists v k, RowNumber read_digit columns "fcst_thresh" r v k) /\
  calculate_ctc_roc read_digit columns data false = Ok
    [RocRow ">=2" (Some (6250000 # 10000000)) (Some (1250000 # 10000000)); RocRow ">=1" (Some (10000000 # 10000000)) (Some (5000000 # 10000000))].
Proof.
  intros columns data. split; [intros r Hr; repeat (destruct Hr as [<-|Hr]; [reflexivity|]); destruct Hr|]. split.
  - intros r Hr. repeat (destruct Hr as [<-|Hr]; [row_number|]); destruct Hr.
  - vm_compute. reflexivity.
Qed.

Lemma C50_order_case_proof : exists roc,
  calculate_ctc_roc read_digit ["fcst_thresh"] [[CStr ">=2"]; [CStr ">=10"]] true = Ok roc /\
  map thresh roc = [">=10"; ">=2"].
Proof.
  eexists. split; [vm_compute; reflexivity|reflexivity].
Qed.

Lemma C50_spelling_refuted_proof : exists roc,
  calculate_ctc_roc read_digit ["fcst_thresh"] [[CStr "==2"]; [CStr "2"]; [CStr "2"]] true = Ok roc /\
  map thresh roc = ["2"; "==2"].
Proof.
  eexists. split; [vm_compute; reflexivity|reflexivity].
Qed.

