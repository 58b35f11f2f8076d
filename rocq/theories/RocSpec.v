(** Specification of threshold sorting and of the ROC table. *)
From Coq Require Import Ascii Sorted Permutation.
From Verif Require Import PyBase ColumnModel BaseSpec CtcSpec EventSpec.
From Coq Require Import List.
Open Scope string_scope.

(** Operators of thresholds with their documented rank; no operator means equality. *)
Definition op_ranks : list (string * Q) :=
  [("<", 1); ("<=", 2); ("==", 3); ("", 3); (">=", 4); (">", 5)]%Q.

Definition NoNewline (s : string) : Prop := ~ In (ascii_of_nat 10) (list_ascii_of_string s).

(** A text that begins like a number: an optional minus sign and a digit. *)
Definition NumberText (s : string) : Prop :=
  NoNewline s /\ exists sign d rest, In sign [""; "-"] /\ Digit d /\ s = sign ++ String d rest.

(** A text that begins neither like an operator nor like a number. *)
Definition PlainText (s : string) : Prop :=
  NoNewline s /\ forall c rest, s = String c rest -> ~ In c (list_ascii_of_string "<=>-0123456789").

(** The threshold [s] is an operator with a number of the value [v]; [float_of] reads numbers. *)
Definition NumberThreshold (float_of : string -> option Q) (s : string) (v : Q) (rank : Q) : Prop :=
  exists op num, In (op, rank) op_ranks /\ s = op ++ num /\ NumberText num /\ float_of num = Some v.

(** The threshold [s] is an operator with a plain text. *)
Definition TextThreshold (s : string) (t : string) (rank : Q) : Prop :=
  exists op, In (op, rank) op_ranks /\ s = op ++ t /\ PlainText t.

(** Orders by value, then by operator. *)
Definition NumbersBefore (v k v' k' : Q) : Prop := v < v' \/ (v == v' /\ k <= k').
Definition TextsBefore (t : string) (k : Q) (t' : string) (k' : Q) : Prop :=
  String.compare t t' = Lt \/ (t = t' /\ k <= k').

(** The row's threshold, in the column [name], is a number [v] with an operator of rank [k]; is a text. *)
Definition RowNumber (float_of : string -> option Q) columns name (r : row) (v k : Q) : Prop :=
  exists s, CellOf columns r name (CStr s) /\ NumberThreshold float_of s v k.
Definition RowText columns name (r : row) (t : string) (k : Q) : Prop :=
  exists s, CellOf columns r name (CStr s) /\ TextThreshold s t k.

(** In either direction. *)
Definition Directed {A : Type} (ascending : bool) (P : A -> A -> Prop) (a b : A) : Prop :=
  if ascending then P a b else P b a.

(** Reading of plain integers, for examples. *)
Definition read_digit (s : string) : option Q :=
  match s with
  | "1" => Some 1 | "2" => Some 2 | "5" => Some 5 | "10" => Some 10 | "-2" => Some (-2) | _ => None
  end%Q.
