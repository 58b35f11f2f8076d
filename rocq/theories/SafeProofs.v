(** Which exceptions a computation can let escape. *)
From Verif Require Import PyBase ColumnModel BaseSpec BaseProofs RealBase RealProofs CtcProofs.
From Coq Require Import Reals.

Definition Safe {A} (l : list exn) (m : res A) : Prop := forall e, m = Err e -> In e l.

Lemma safe_ok {A} l (a : A) : Safe l (Ok a).
Proof. intros e K. discriminate. Qed.
Lemma safe_err {A} l e : In e l -> Safe l (@Err A e).
Proof. intros H e' K. congruence. Qed.
Lemma safe_bind {A B} l (m : res A) (f : A -> res B) : Safe l m -> (forall a, Safe l (f a)) -> Safe l (bind m f).
Proof. intros H K e. destruct m as [a|x]; simpl; [apply K|]. intro E. injection E as ->. apply H. reflexivity. Qed.
Lemma exn_eqb_refl e : exn_eqb e e = true.
Proof. destruct e; reflexivity. Qed.
Lemma exn_eqb_eq a b : exn_eqb a b = true -> a = b.
Proof. destruct a, b; simpl; congruence. Qed.
Lemma safe_catch {A} l l' (m : res A) d : Safe l m -> (forall e, In e l -> In e l' \/ In e (filter (fun e => negb (existsb (exn_eqb e) l')) l)) ->
  Safe (filter (fun e => negb (existsb (exn_eqb e) l')) l) (catch l' m d).
Proof.
  intros H _ e. destruct m as [a|x]; simpl; [discriminate|].
  destruct (existsb (exn_eqb x) l') eqn:E; [discriminate|]. intro K. injection K as ->.
  apply filter_In. split; [apply H; reflexivity|]. rewrite E. reflexivity.
Qed.
Lemma safe_catch' {A} l l' l2 (m : res A) d : Safe l m -> filter (fun e => negb (existsb (exn_eqb e) l')) l = l2 ->
  Safe l2 (catch l' m d).
Proof.
  intros H <-. apply safe_catch; [exact H|]. intros e He.
  destruct (existsb (exn_eqb e) l') eqn:E.
  - left. apply existsb_exists in E. destruct E as (x & Hx & Ex). apply exn_eqb_eq in Ex. congruence.
  - right. apply filter_In. rewrite E. auto.
Qed.
Lemma safe_weaken {A} l l' (m : res A) : Safe l m -> (forall e, In e l -> In e l') -> Safe l' m.
Proof. intros H K e E. apply K, H, E. Qed.
Lemma safe_nil_ok {A} (m : res A) : Safe [] m -> exists r, m = Ok r.
Proof. intro H. destruct m as [a|e]; [eauto|]. destruct (H e eq_refl). Qed.
Lemma safe_if {A} l (b : bool) (x y : res A) : Safe l x -> Safe l y -> Safe l (if b then x else y).
Proof. destruct b; auto. Qed.
Lemma safe_sumbool {A P R} l (b : {P} + {R}) (x y : res A) : Safe l x -> Safe l y -> Safe l (if b then x else y).
Proof. destruct b; auto. Qed.
Lemma safe_opt {A B} l (o : option A) (f : A -> res B) y : (forall a, Safe l (f a)) -> Safe l y ->
  Safe l (match o with Some a => f a | None => y end).
Proof. destruct o; auto. Qed.

Lemma safe_sum data columns name b : Safe [ValueError] (sum_column_data_by_name data columns name b).
Proof. intros e E. left. symmetry. apply (sum_column_err _ _ _ _ _ E). Qed.
Lemma safe_sum_num data columns name : Rectangular data columns -> NumericColumn data columns name ->
  Safe [] (sum_column_data_by_name data columns name true).
Proof.
  intros H1 H2 e E. destruct (sum_column_is_total data columns name H1 H2) as (s & K & _). congruence.
Qed.

Ltac in_list := simpl; tauto.
(** One decomposition step. *)
Ltac safe1 := first
  [ apply safe_ok
  | apply safe_err; in_list
  | apply safe_bind; [|intro]
  | apply safe_if
  | apply safe_sumbool
  | apply safe_opt; [intro|]
  | match goal with |- Safe _ (match ?x with _ => _ end) => destruct x end ].
Ltac safe := repeat safe1.
