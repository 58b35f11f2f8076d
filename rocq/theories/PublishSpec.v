(** Terms of the statement C146. *)
From Coq Require Import Reals String ZArith List.
From Verif Require Import PublishModel.
Import ListNotations.
Open Scope R_scope.

(** y is the hundredth nearest to x; of two as near, the even one. *)
Definition Hundredth (x y : R) : Prop := exists k, y = IZR k / 100 /\ Rabs (y - x) <= / 200 /\ (Rabs (y - x) = / 200 -> Z.even k = true).
Definition HundredthOf (a b : option R) : Prop := match a, b with None, None => True | Some x, Some y => Hundredth x y | _, _ => False end.
(** Numbers in a cell are rounded; all else stays. *)
Definition RoundedTo (c d : cell) : Prop :=
  match c, d with
  | Num a, Num b => HundredthOf a b
  | Floats l, Floats m => Forall2 HundredthOf l m
  | _, _ => c = d /\ (forall a, c <> Num a) /\ (forall l, c <> Floats l)
  end.
(** The text of a Bayes factor: with an exponent if it is 10000 or more, or 0.0001 or less. *)
Definition BayesText (scientific positional : option R -> string) (c d : cell) : Prop :=
  match c with
  | Num (Some v) => d = Text (if Rle_dec 10000 v then scientific (Some v) else if Rle_dec v (1 / 10000) then scientific (Some v) else positional (Some v))
  | Num None => d = Text (positional None)
  | _ => d = c
  end.
(** The plain text of a cell. *)
Definition PlainText (str : cell -> string) (c d : cell) : Prop := match c with Text _ => d = c | _ => d = Text (str c) end.
(** A table has one cell for each row in each column; rows and columns have different names; Bayes factors are numbers or texts. *)
Definition NumberOrText (c : cell) : Prop := match c with Num _ | Text _ => True | _ => False end.
Definition Proper (t : table) : Prop :=
  NoDup (labels t) /\ NoDup (map fst (cols t)) /\ Forall (fun p => List.length (snd p) = List.length (labels t)) (cols t) /\
  forall cells, In ("BF10"%string, cells) (cols t) -> Forall NumberOrText cells.
(** The columns of the table of a correlation. *)
Definition corr_columns (bayes : bool) : list string :=
  ["n"; "r"; "CI95%"; "r2"; "adj_r2"; "p-val"]%string ++ (if bayes then ["BF10"%string] else []) ++ ["power"%string].
