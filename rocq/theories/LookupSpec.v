(** What is found in nested lists. *)
From Coq Require Import QArith String List.
From Verif Require Import LookupModel.
Import ListNotations.

(** The numbers in a nested list from left to right; empty texts count as nothing, others have no numbers. *)
Inductive Leaves : item -> list Q -> Prop :=
| leaf_number q : Leaves (Number q) [q]
| leaf_empty : Leaves (Text "") []
| leaf_none : Leaves (Items []) []
| leaf_more x l a b : Leaves x a -> Leaves (Items l) b -> Leaves (Items (x :: l)) (a ++ b).
(** A text with at least one character is somewhere inside. *)
Inductive HasText : item -> Prop :=
| text_here s : s <> ""%string -> HasText (Text s)
| text_inside x l : In x l -> HasText x -> HasText (Items l).
(** The numbers before the first text that is not empty. *)
Inductive Until : item -> list Q -> Prop :=
| until_here s : s <> ""%string -> Until (Text s) []
| until_inside before x after a b : Leaves (Items before) a -> Until x b -> Until (Items (before ++ x :: after)) (a ++ b).
