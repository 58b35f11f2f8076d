(** Environment variables in configuration files. *)
From Coq Require Import Ascii String List.
From Verif Require Import PyBase ConfigModel ConfigSpec ConfigProofs.
From Coq Require Import List.
Import ListNotations.
Open Scope list_scope.

(** ** C92: texts *)

(** A text without variables is not changed, whatever the environment. *)
Theorem C92_unchanged : forall environ t, (forall w, ~ Mentions t w) -> constructor_env_variables environ t = t.
Proof. exact C92_unchanged_proof. Qed.
Print Assumptions C92_unchanged.

Example C92_unchanged_case : forall w, ~ Mentions (list_ascii_of_string "cost: $5 {x} ${} ${a b}") w.
Proof. exact C92_unchanged_case_proof. Qed.

(** If no value has a [$], every variable is exchanged for its value and nothing else is changed.  A variable that is not
    set leaves its name without [$] and braces. *)
Theorem C92_filled : forall environ t r,
  (forall w v, Mentions t w -> environ w = Some v -> ~ In "$"%char v) -> Filled environ t r -> constructor_env_variables environ t = r.
Proof. exact C92_filled_proof. Qed.
Print Assumptions C92_filled.

Example C92_filled_case :
  Filled case_environ (list_ascii_of_string "/var/${LOG}/$1/${NONE}${LOG}") (list_ascii_of_string "/var/a{b}/$1/NONEa{b}") /\
  (forall w v, Mentions (list_ascii_of_string "/var/${LOG}/$1/${NONE}${LOG}") w -> case_environ w = Some v -> ~ In "$"%char v).
Proof. exact C92_filled_case_proof. Qed.

(** The result is then final: it has no variables. *)
Theorem C92_final : forall environ environ' t r,
  (forall w v, Mentions t w -> environ w = Some v -> ~ In "$"%char v) -> Filled environ t r ->
  constructor_env_variables environ' (constructor_env_variables environ t) = r.
Proof. exact C92_final_proof. Qed.
Print Assumptions C92_final.

(** Only the variables a text mentions matter. *)
Theorem C92_mentioned : forall environ environ' t, (forall w, Mentions t w -> environ w = environ' w) ->
  constructor_env_variables environ t = constructor_env_variables environ' t.
Proof. exact C92_mentioned_proof. Qed.
Print Assumptions C92_mentioned.

(** The variables are not exchanged all at once: a value that mentions a variable of the same text is filled in again. *)
Theorem C92_filled_refuted : exists environ t r, Filled environ t r /\ constructor_env_variables environ t <> r.
Proof. exact C92_filled_refuted_proof. Qed.
Print Assumptions C92_filled_refuted.

(** ** C93: which texts are changed *)

(** A text after the tag is filled in; one in quotes is not. *)
Theorem C93_tagged : forall environ st tag v, In tag st ->
  load_scalar environ st (Tagged tag v) = Ok (Text (constructor_env_variables environ v)) /\
  load_scalar environ st (QuotedScalar v) = Ok (Text v).
Proof. exact C93_tagged_proof. Qed.
Print Assumptions C93_tagged.

Example C93_tagged_case : In "!ENV"%string ["!ENV"%string].
Proof. exact C93_tagged_case_proof. Qed.

(** A plain text without variables is left to YAML. *)
Theorem C93_plain : forall environ st v, (forall w, ~ Mentions v w) -> load_scalar environ st (PlainScalar v) = Ok (ByYaml v).
Proof. exact C93_plain_proof. Qed.
Print Assumptions C93_plain.

(** Plain texts of one line that mention a variable are filled in too, with no tag before them. *)
Theorem C93_tag_refuted : forall environ st v w, st <> [] -> ~ In (ascii_of_nat 10) v -> Mentions v w ->
  load_scalar environ st (PlainScalar v) = Ok (Text (constructor_env_variables environ v)).
Proof. exact C93_tag_refuted_proof. Qed.
Print Assumptions C93_tag_refuted.

Example C93_tag_refuted_case : ~ In (ascii_of_nat 10) (list_ascii_of_string "x${A}") /\ Mentions (list_ascii_of_string "x${A}") (list_ascii_of_string "A").
Proof. exact C93_tag_refuted_case_proof. Qed.

(** The path is read if there is one, otherwise the data, and with neither ValueError is raised. *)
Theorem C93_source : forall doc open_file load st path data tag,
  let given (o : option string) := match o with Some s => s <> ""%string | None => False end in
  let result := snd (@parse_config doc open_file load st path data tag) in
  (forall p, path = Some p -> p <> ""%string -> (forall c, open_file p = Ok c -> result = load (st ++ [tag]) c) /\ (forall e, open_file p = Err e -> result = Err e)) /\
  (forall d, ~ given path -> data = Some d -> d <> ""%string -> result = load (st ++ [tag]) d) /\
  (~ given path -> ~ given data -> result = Err ValueError).
Proof. exact C93_source_proof. Qed.
Print Assumptions C93_source.

(** The loader of the whole process is changed, even by a call that raises ValueError: afterwards texts that were left
    alone before are filled in. *)
Theorem C93_loader_refuted : forall environ v w doc open_file load tag, ~ In (ascii_of_nat 10) v -> Mentions v w ->
  load_scalar environ [] (PlainScalar v) = Ok (ByYaml v) /\
  let '(st, result) := @parse_config doc open_file load [] None None tag in
  result = Err ValueError /\ load_scalar environ st (PlainScalar v) = Ok (Text (constructor_env_variables environ v)).
Proof. exact C93_loader_refuted_proof. Qed.
Print Assumptions C93_loader_refuted.
