(** Terms of the statement C145. *)
From Coq Require Import Reals String ZArith List.
Import ListNotations.
Open Scope R_scope.

(** The names of the columns of a table. *)
Definition mode_names (he : string) (n : list string) : list string :=
  ["Kelvin(he=" ++ he ++ "m)"; "MRG(he=" ++ he ++ "m)"; "EIG(n=0,he=" ++ he ++ "m)"]%string ++
  flat_map (fun k => ["ER(n=" ++ k ++ ",he=" ++ he ++ "m)"; "EIG(n=" ++ k ++ ",he=" ++ he ++ "m)"; "WIG(n=" ++ k ++ ",he=" ++ he ++ "m)"]%string) n.
(** The i-th of N wavenumbers from -m to m. *)
Definition wave (m : R) (N i : nat) : R := if Nat.eqb N 1 then - m else - m + 2 * m * INR i / INR (N - 1).
(** The tables hold a number. *)
Definition present (v : option R) : bool := match v with Some _ => true | None => false end.
(** Which columns have a value: those of waves to the west, to the east, or none. *)
Definition west (n : nat) : list bool := [false; true; false] ++ concat (repeat [true; false; true] n).
Definition east (n : nat) : list bool := [true; false; true] ++ concat (repeat [false; true; false] n).
