(** Proofs for PropertiesLookup.v. *)
From Verif Require Import PyBase LookupModel LookupSpec.
From Coq Require Import String List Lia.
Open Scope nat_scope.
Open Scope list_scope.

Lemma where_first columns name : forall i,
  match where_equal columns name i with
  | [] => ~ In name columns
  | k :: _ => exists j, k = i + j /\ nth_error columns j = Some name /\ forall j', j' < j -> nth_error columns j' <> Some name
  end.
Proof.
  induction columns as [|c rest IH]; intro i; cbn; [tauto|]. destruct (String.eqb c name) eqn:E.
  - apply String.eqb_eq in E. subst. exists 0. split; [lia|]. split; [reflexivity|]. intros j' L. lia.
  - apply String.eqb_neq in E. specialize (IH (S i)). destruct (where_equal rest name (S i)) as [|k ks].
    + intros [H|H]; contradiction.
    + destruct IH as (j & -> & A & B). exists (S j). split; [lia|]. split; [exact A|].
      intros [|j'] L; cbn; [congruence|apply B; lia].
Qed.

Fixpoint nested_ind (P : item -> Prop) (HN : forall q, P (Number q)) (HT : forall s, P (Text s))
  (HL : forall l, Forall P l -> P (Items l)) (x : item) {struct x} : P x :=
  match x with
  | Number q => HN q
  | Text s => HT s
  | Items l => HL l ((fix go (l : list item) : Forall P l :=
                        match l with [] => Forall_nil P | y :: t => Forall_cons y (nested_ind P HN HT HL y) (go t) end) l)
  end.
Lemma nested_cons x l : flatten_item (Items (x :: l)) =
  match flatten_item x with
  | (ys, false) => (ys, false)
  | (ys, true) => let (zs, ended) := flatten_item (Items l) in (ys ++ zs, ended)
  end.
Proof. reflexivity. Qed.
Lemma nested_app l m : flatten_item (Items (l ++ m)) =
  match flatten_item (Items l) with
  | (ys, false) => (ys, false)
  | (ys, true) => let (zs, ended) := flatten_item (Items m) in (ys ++ zs, ended)
  end.
Proof.
  induction l as [|x l IH].
  - cbn [app]. change (flatten_item (Items [])) with (@nil Q, true). cbv beta iota. destruct (flatten_item (Items m)). reflexivity.
  - cbn [app]. rewrite !nested_cons, IH. destruct (flatten_item x) as [ys [|]]; [|reflexivity].
    destruct (flatten_item (Items l)) as [zs [|]]; [|reflexivity].
    destruct (flatten_item (Items m)) as [us e]. rewrite app_assoc. reflexivity.
Qed.
Lemma flatten_leaves x : forall ys, flatten_item x = (ys, true) -> Leaves x ys.
Proof.
  induction x as [q|s|l F] using nested_ind; intros ys H.
  - injection H as <-. constructor.
  - destruct s; [|discriminate H]. injection H as <-. constructor.
  - revert ys H. induction F as [|x l P F IH]; intros ys H; [injection H as <-; constructor|].
    rewrite nested_cons in H. destruct (flatten_item x) as [a [|]] eqn:E; [|discriminate H].
    destruct (flatten_item (Items l)) as [b e] eqn:E2. injection H as <- ->. constructor; [apply P; reflexivity|apply IH; reflexivity].
Qed.
Lemma leaves_flatten x ys : Leaves x ys -> flatten_item x = (ys, true).
Proof.
  induction 1 as [q| | |x l a b A IA B IB]; try reflexivity. rewrite nested_cons, IA, IB. reflexivity.
Qed.
Lemma flatten_text x : forall ys, flatten_item x = (ys, false) -> HasText x.
Proof.
  induction x as [q|s|l F] using nested_ind; intros ys H.
  - discriminate H.
  - destruct s; [discriminate H|]. apply text_here. discriminate.
  - revert ys H. induction F as [|x l P F IH]; intros ys H; [discriminate H|].
    rewrite nested_cons in H. destruct (flatten_item x) as [a [|]] eqn:E.
    + destruct (flatten_item (Items l)) as [b e] eqn:E2. injection H as <- ->. specialize (IH b eq_refl).
      inversion IH as [|y l' I T]; subst. apply text_inside with (x := y); [right; exact I|exact T].
    + apply text_inside with (x := x); [left; reflexivity|]. exact (P a eq_refl).
Qed.
Lemma text_flatten x : HasText x -> exists ys, flatten_item x = (ys, false).
Proof.
  induction 1 as [s N|x l I T (ys & IH)]; [destruct s; [contradiction|eexists; reflexivity]|].
  destruct (in_split _ _ I) as (l1 & l2 & ->). rewrite nested_app. destruct (flatten_item (Items l1)) as [a [|]]; [|eexists; reflexivity].
  rewrite nested_cons, IH. eexists. reflexivity.
Qed.

Lemma until_flatten x ys : Until x ys -> flatten_item x = (ys, false).
Proof.
  induction 1 as [s N|before x after a b L U IH]; [destruct s; [contradiction|reflexivity]|].
  rewrite nested_app, (leaves_flatten _ _ L), nested_cons, IH. reflexivity.
Qed.
Lemma flatten_until x : forall ys, flatten_item x = (ys, false) -> Until x ys.
Proof.
  induction x as [q|s|l F] using nested_ind; intros ys H.
  - discriminate H.
  - destruct s; [discriminate H|]. injection H as <-. apply until_here. discriminate.
  - revert ys H. induction F as [|x l P F IH]; intros ys H; [discriminate H|].
    rewrite nested_cons in H. destruct (flatten_item x) as [a [|]] eqn:E.
    + destruct (flatten_item (Items l)) as [b e] eqn:E2. injection H as <- ->. specialize (IH b eq_refl).
      inversion IH as [|before y after c d L U]; subst. rewrite app_assoc.
      apply (until_inside (x :: before) y after (a ++ c) d); [|exact U]. constructor; [apply flatten_leaves; exact E|exact L].
    + injection H as <-. apply (until_inside [] x l [] a); [constructor|]. exact (P a eq_refl).
Qed.

(** The statements of PropertiesLookup.v. *)
Lemma C153_column_proof : forall (columns : list string) (name : string) (i : nat),
  get_column_index_by_name columns name = Some i <->
  nth_error columns i = Some name /\ forall j, j < i -> nth_error columns j <> Some name.
Proof.
  intros columns name i. unfold get_column_index_by_name. pose proof (where_first columns name 0) as W.
  destruct (where_equal columns name 0) as [|k ks].
  - split; [discriminate|]. intros [H _]. exfalso. exact (W (nth_error_In _ _ H)).
  - destruct W as (j & -> & A & B). cbn. split.
    + intros [= <-]. split; assumption.
    + intros [C D]. destruct (Nat.lt_trichotomy i j) as [L|[L|L]]; [exfalso; exact (B i L C)|subst; reflexivity|exfalso; exact (D j L A)].
Qed.
Lemma C153_column_case_proof : get_column_index_by_name ["thresh_i"; "oy_i"; "on_i"; "oy_i"]%string "oy_i" = Some 1.
Proof.
  reflexivity.
Qed.
Lemma C153_no_column_proof : forall (columns : list string) (name : string),
  get_column_index_by_name columns name = None <-> ~ In name columns.
Proof.
  intros columns name. unfold get_column_index_by_name. pose proof (where_first columns name 0) as W.
  destruct (where_equal columns name 0) as [|k ks].
  - split; [intros _; exact W|reflexivity].
  - destruct W as (j & -> & A & B). split; [discriminate|]. intro N. exfalso. exact (N (nth_error_In _ _ A)).
Qed.
Lemma C153_no_column_case_proof : ~ In "o_bar"%string ["thresh_i"; "oy_i"]%string.
Proof.
  intros [H|[H|[]]]; discriminate H.
Qed.
Lemma C153_flatten_proof : forall (l : list item) (ys : list Q),
  flatten l = (ys, true) <-> Leaves (Items l) ys.
Proof.
  intros l ys. split; [apply flatten_leaves|apply leaves_flatten].
Qed.
Lemma C153_flatten_case_proof : Leaves (Items [Number 1; Items [Items [Number 2]; Items []; Text ""]; Number 3]) [1; 2; 3]%Q.
Proof.
  apply C153_flatten_proof. reflexivity.
Qed.
Lemma C153_flatten_text_proof : forall l : list item,
  ((exists ys, flatten l = (ys, false)) <-> HasText (Items l)) /\
  (forall ys, flatten l = (ys, false) <-> Until (Items l) ys).
Proof.
  intro l. split.
  - split; [intros (ys & H); exact (flatten_text _ _ H)|apply text_flatten].
  - intro ys. split; [apply flatten_until|apply until_flatten].
Qed.
Lemma C153_flatten_text_case_proof : HasText (Items [Number 1; Items [Number 2; Text "a"]; Number 3]) /\
  Until (Items [Number 1; Items [Number 2; Text "a"]; Number 3]) [1; 2]%Q.
Proof.
  assert (F : flatten [Number 1; Items [Number 2; Text "a"]; Number 3] = ([1; 2]%Q, false)) by reflexivity.
  split; [exact (flatten_text _ _ F)|exact (flatten_until _ _ F)].
Qed.
Lemma C153_flatten_nesting_proof : forall (l m : list item) (ys zs : list Q),
  flatten l = (ys, true) -> flatten m = (zs, true) ->
  flatten (l ++ m) = (ys ++ zs, true) /\ flatten [Items l; Items m] = (ys ++ zs, true).
Proof.
  intros l m ys zs A B. unfold flatten in *. split.
  - rewrite nested_app, A, B. reflexivity.
  - rewrite (nested_cons (Items l)), A, (nested_cons (Items m)), B. cbn. rewrite app_nil_r. reflexivity.
Qed.
Lemma C153_flatten_nesting_case_proof : flatten [Items [Number 1]; Number 2] = ([1; 2]%Q, true) /\ flatten [] = ([], true).
Proof.
  split; reflexivity.
Qed.
