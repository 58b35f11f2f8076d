(** Multi-category contingency tables: the Heidke skill score relative to a fixed expected accuracy. *)
From Coq Require Import DecimalString.
From Verif Require Import PyBase ColumnModel BaseSpec.
Open Scope string_scope.
Open Scope Q_scope.

(** Column names with a decimal number at the end. *)
Definition numbered (prefix : string) (k : nat) : string := prefix ++ NilEmpty.string_of_uint (Nat.to_uint k).

(** The row has the number [q] in the named column. *)
Definition NumberIn (columns : list string) (r : list cell) (name : string) (q : Q) : Prop :=
  exists i, ColumnAt columns name i /\ nth_error r i = Some (CNum q).

(** Positions of the counts of a table with [n] categories: the [k]-th count belongs to forecast
    category [fst] and observed category [snd]; every pair of categories occurs once. *)
Definition Layout (n : Z) (layout : list (Z * Z)) : Prop :=
  (0 <= n)%Z /\ Z.of_nat (length layout) = (n * n)%Z /\ NoDup layout /\
  forall i j, In (i, j) layout -> (1 <= i <= n /\ 1 <= j <= n)%Z.

(** A line with [n] categories, expected accuracy [ec] and the given layout. *)
Definition LineHeader (columns : list string) (n : Z) (ec : Q) (layout : list (Z * Z)) (r : list cell) : Prop :=
  NumberIn columns r "n_cat" (inject_Z n) /\
  NumberIn columns r "ec_value" ec /\
  forall k i j, nth_error layout k = Some (i, j) ->
    NumberIn columns r (numbered "i_value_" k) (inject_Z i) /\
    NumberIn columns r (numbered "j_value_" k) (inject_Z j).

(** The line also holds these counts. *)
Definition Line (columns : list string) (n : Z) (ec : Q) (layout : list (Z * Z)) (counts : list Q)
  (r : list cell) : Prop :=
  LineHeader columns n ec layout r /\ length counts = length layout /\
  forall k c, nth_error counts k = Some c -> NumberIn columns r (numbered "fi_oj_" k) c.

(** Sum of the counts on the diagonal (forecast category = observed category). *)
Fixpoint diagonal_count (layout : list (Z * Z)) (counts : list Q) : Q :=
  match layout, counts with
  | (i, j) :: layout', c :: counts' =>
      (if (i =? j)%Z then c else 0) + diagonal_count layout' counts'
  | _, _ => 0
  end.

(** The score of a table with [all] cases, [diag] of them on the diagonal; undefined if there are no
    cases or the expected accuracy is 1. *)
Definition hss_ec (ec diag all : Q) : option Q := oratio (Some (diag - ec * all)) (Some (all - ec * all)).

(** All totals, if none is undefined. *)
Fixpoint all_defined (l : list (option Q)) : option (list Q) :=
  match l with
  | [] => Some []
  | Some q :: t => match all_defined t with Some t' => Some (q :: t') | None => None end
  | None :: _ => None
  end.

(** Example tables. *)
Definition mcts_ex_columns : list string :=
  ["n_cat"; "ec_value"; "fi_oj_0"; "i_value_0"; "j_value_0"; "fi_oj_1"; "i_value_1"; "j_value_1";
   "fi_oj_2"; "i_value_2"; "j_value_2"; "fi_oj_3"; "i_value_3"; "j_value_3"].
Definition mcts_ex_layout : list (Z * Z) := [(1, 1); (1, 2); (2, 1); (2, 2)]%Z.
Definition mcts_ex_layout2 : list (Z * Z) := [(1, 2); (1, 1); (2, 2); (2, 1)]%Z.
Definition mcts_ex_row (layout : list (Z * Z)) (counts : list Q) : list cell :=
  (CNum (inject_Z 2) :: CNum (1 # 2) ::
  concat (map (fun '((i, j), c) => [CNum c; CNum (inject_Z i); CNum (inject_Z j)]) (combine layout counts)))%list.
Definition mcts_ex_counts : list (list Q) := [[3; 1; 0; 2]; [4; 0; 1; 3]].
Definition mcts_ex_data : list (list cell) := map (mcts_ex_row mcts_ex_layout) mcts_ex_counts.
Definition mcts_ex_totals : list (option Q) := [Some (7#1); Some (1#1); Some (1#1); Some (5#1)].
