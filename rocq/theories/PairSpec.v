(** Words for the statements about the bootstrap of derived curves. *)
From Verif Require Import PyBase ColumnModel.
From Coq Require Import String List.
Import ListNotations.
Open Scope nat_scope.

(** The rows with these numbers. *)
Definition RowsAt (v : list (list cell)) (ids : list nat) : list (list cell) := map (fun i => nth i v []) ids.
(** The derived value; missing if one of the two is. *)
Definition Derive (operation : string) (a b : option Q) : option Q :=
  match a, b with
  | Some x, Some y =>
      if String.eqb operation "DIFF" || String.eqb operation "DIFF_SIG" then Some (x - y)%Q
      else if String.eqb operation "RATIO" then if Qeq_bool y 0 then None else Some (x / y)%Q
      else if String.eqb operation "SS" then if Qeq_bool x 0 then None else Some ((x - y) / x)%Q
      else if String.eqb operation "SINGLE" then Some x
      else None
  | _, _ => None
  end.
(** Rows with a cell for each column and [name] in the first column stat_name. *)
Definition Named (columns : list string) (name : string) (v : list (list cell)) : Prop :=
  exists k, nth_error columns k = Some "stat_name"%string /\ (forall j, j < k -> nth_error columns j <> Some "stat_name"%string) /\
    Forall (fun r => length r = length columns /\ nth_error r k = Some (CStr name)) v.
(** [f] is [F] on all tables made of rows of [v]. *)
Definition OnRows (v : list (list cell)) (f : list (list cell) -> res (option Q)) (F : list (list cell) -> option Q) : Prop :=
  forall d, incl d v -> f d = Ok (F d).
(** Equal numbers, or both missing. *)
Definition SameValue (a b : option Q) : Prop := match a, b with Some x, Some y => (x == y)%Q | None, None => True | _, _ => False end.
Definition Negative (a : option Q) : option Q := option_map Qopp a.
