(** Looking up columns and reading nested lists. *)
From Coq Require Import QArith String List.
From Verif Require Import LookupModel LookupSpec LookupProofs.
Import ListNotations.
Open Scope nat_scope.

(** ** C153: columns by name and nested lists *)

(** The position is that of the first column with the name. *)
Theorem C153_column : forall (columns : list string) (name : string) (i : nat),
  get_column_index_by_name columns name = Some i <->
  nth_error columns i = Some name /\ forall j, j < i -> nth_error columns j <> Some name.
Proof. exact C153_column_proof. Qed.
Print Assumptions C153_column.

Example C153_column_case : get_column_index_by_name ["thresh_i"; "oy_i"; "on_i"; "oy_i"]%string "oy_i" = Some 1.
Proof. exact C153_column_case_proof. Qed.

(** None is returned exactly if there is no such column. *)
Theorem C153_no_column : forall (columns : list string) (name : string),
  get_column_index_by_name columns name = None <-> ~ In name columns.
Proof. exact C153_no_column_proof. Qed.
Print Assumptions C153_no_column.

Example C153_no_column_case : ~ In "o_bar"%string ["thresh_i"; "oy_i"]%string.
Proof. exact C153_no_column_case_proof. Qed.

(** Flattening a nested list without texts yields all its numbers from left to right. *)
Theorem C153_flatten : forall (l : list item) (ys : list Q),
  flatten l = (ys, true) <-> Leaves (Items l) ys.
Proof. exact C153_flatten_proof. Qed.
Print Assumptions C153_flatten.

Example C153_flatten_case : Leaves (Items [Number 1; Items [Items [Number 2]; Items []; Text ""]; Number 3]) [1; 2; 3]%Q.
Proof. exact C153_flatten_case_proof. Qed.

(** It ends with an error exactly if there is a text that is not empty; what stands before that text is yielded first. *)
Theorem C153_flatten_text : forall l : list item,
  ((exists ys, flatten l = (ys, false)) <-> HasText (Items l)) /\
  (forall ys, flatten l = (ys, false) <-> Until (Items l) ys).
Proof. exact C153_flatten_text_proof. Qed.
Print Assumptions C153_flatten_text.

Example C153_flatten_text_case : HasText (Items [Number 1; Items [Number 2; Text "a"]; Number 3]) /\
  Until (Items [Number 1; Items [Number 2; Text "a"]; Number 3]) [1; 2]%Q.
Proof. exact C153_flatten_text_case_proof. Qed.

(** Flattening is additive, and levels of nesting do not matter. *)
Theorem C153_flatten_nesting : forall (l m : list item) (ys zs : list Q),
  flatten l = (ys, true) -> flatten m = (zs, true) ->
  flatten (l ++ m) = (ys ++ zs, true) /\ flatten [Items l; Items m] = (ys ++ zs, true).
Proof. exact C153_flatten_nesting_proof. Qed.
Print Assumptions C153_flatten_nesting.

Example C153_flatten_nesting_case : flatten [Items [Number 1]; Number 2] = ([1; 2]%Q, true) /\ flatten [] = ([], true).
Proof. exact C153_flatten_nesting_case_proof. Qed.
