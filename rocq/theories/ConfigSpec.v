(** Words for the statements about environment variables in configuration files. *)
From Coq Require Import Ascii String List.
Import ListNotations.
Open Scope list_scope.

(** A letter, a digit or an underscore. *)
Definition Word (c : ascii) : Prop :=
  In c (list_ascii_of_string "ABCDEFGHIJKLMNOPQRSTUVWXYZabcdefghijklmnopqrstuvwxyz0123456789_").
(** A name of a variable, and how it is written in the file. *)
Definition Name (w : list ascii) : Prop := w <> [] /\ Forall Word w.
Definition written (w : list ascii) : list ascii := "$"%char :: "{"%char :: w ++ ["}"%char].
(** The text mentions a variable. *)
Definition Mentions (t w : list ascii) : Prop := Name w /\ exists a b, t = a ++ written w ++ b.
(** The value of a variable; its own name if it is not set. *)
Definition meaning (environ : list ascii -> option (list ascii)) (w : list ascii) : list ascii :=
  match environ w with Some v => v | None => w end.
(** [Filled environ t r]: every variable of [t] is exchanged for its value in [r], all at once, and nothing else is
    changed.  A [$] that does not belong to a variable must not be followed by [$] or an opening brace. *)
Inductive Filled (environ : list ascii -> option (list ascii)) : list ascii -> list ascii -> Prop :=
| filled_end : Filled environ [] []
| filled_variable : forall w t r, Name w -> Filled environ t r -> Filled environ (written w ++ t) (meaning environ w ++ r)
| filled_other : forall c t r, c <> "$"%char -> Filled environ t r -> Filled environ (c :: t) (c :: r)
| filled_dollar : forall c t r, c <> "$"%char -> c <> "{"%char -> Filled environ t r -> Filled environ ("$"%char :: c :: t) ("$"%char :: c :: r)
| filled_last : Filled environ ["$"%char] ["$"%char].
