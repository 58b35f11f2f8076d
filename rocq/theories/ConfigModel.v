(** Environment variables in configuration files: metcalcpy/util/read_env_vars_in_config.py.  Texts are lists of ASCII
    characters; other letters, which [\w] accepts too, are not modelled. *)
From Coq Require Import Ascii String.
From Verif Require Import PyBase.
From Coq Require Import List.
Import ListNotations.
Open Scope nat_scope.
Open Scope list_scope.

Definition text := list ascii.
(** [\w] for ASCII characters. *)
Definition is_word (c : ascii) : bool :=
  let n := nat_of_ascii c in
  ((48 <=? n) && (n <=? 57)) || ((65 <=? n) && (n <=? 90)) || ((97 <=? n) && (n <=? 122)) || (n =? 95).
(** [\w+]: the longest run of word characters and what follows. *)
Fixpoint span_word (l : text) : text * text :=
  match l with
  | c :: t => if is_word c then let '(w, r) := span_word t in (c :: w, r) else ([], l)
  | [] => ([], [])
  end.
(** The name, if the text starts with [${name}]. *)
Definition variable_at (l : text) : option text :=
  match l with
  | d :: b :: t =>
      if Ascii.eqb d "$"%char && Ascii.eqb b "{"%char then
        match span_word t with
        | (c :: w, e :: _) => if Ascii.eqb e "}"%char then Some (c :: w) else None
        | _ => None
        end
      else None
  | _ => None
  end.
(** read_env_vars_in_config.py 35, 53: [pattern.findall(value)]; the text before a variable is skipped, whatever it is, and
    two variables cannot overlap. *)
Fixpoint findall (l : text) : list text :=
  match l with
  | [] => []
  | _ :: t => match variable_at l with Some w => w :: findall t | None => findall t end
  end.
(** Does the text [l] start with [p]? *)
Fixpoint starts (p l : text) : bool :=
  match p, l with
  | [], _ => true
  | a :: p', b :: l' => Ascii.eqb a b && starts p' l'
  | _ :: _, [] => false
  end.
(** Python's [str.replace(old, new)] for [old] that is not empty; [skip] characters of a found [old] are still to be left
    out. *)
Fixpoint replace_from (old new : text) (skip : nat) (l : text) : text :=
  match l with
  | [] => []
  | c :: t =>
      match skip with
      | S k => replace_from old new k t
      | O => if starts old l then new ++ replace_from old new (length old - 1) t else c :: replace_from old new 0 t
      end
  end.
Definition replace (old new l : text) : text := replace_from old new 0 l.
(** [os.environ]. *)
Definition environment := text -> option text.
(** read_env_vars_in_config.py 56-58: one turn of the loop over the names. *)
Definition put_variable (environ : environment) (full : text) (g : text) : text :=
  replace ("$"%char :: "{"%char :: g ++ ["}"%char]) (match environ g with Some v => v | None => g end) full.
(** read_env_vars_in_config.py 43-60, [constructor_env_variables], on the text of the node. *)
Definition constructor_env_variables (environ : environment) (value : text) : text :=
  fold_left (put_variable environ) (findall value) value.

(** A scalar of a YAML file: with a tag, plain, or in quotes. *)
Inductive scalar := Tagged (tag : string) (v : text) | PlainScalar (v : text) | QuotedScalar (v : text).
(** What becomes of it: a text, or whatever YAML makes of the plain text (a number, a date, a text). *)
Inductive loaded := Text (v : text) | ByYaml (v : text).
(** [yaml.SafeLoader]: the tags that were registered in this process, first to last.  The class itself is changed
    (read_env_vars_in_config.py 36, 40, 62), so that every later use of it sees them. *)
Definition loader := list string.
(** The text up to the end of its first line. *)
Fixpoint first_line (l : text) : text :=
  match l with
  | [] => []
  | c :: t => if nat_of_ascii c =? 10 then [] else c :: first_line t
  end.
(** PyYAML's [resolve] and [construct_object] for a scalar: a plain scalar gets a registered tag if its pattern matches
    from the start, where [.] does not match the end of a line.  A tag that is not registered makes PyYAML raise
    ConstructorError. *)
Definition load_scalar (environ : environment) (st : loader) (s : scalar) : res loaded :=
  match s with
  | Tagged t v => if existsb (String.eqb t) st then Ok (Text (constructor_env_variables environ v)) else Err NotModelled
  | PlainScalar v =>
      match st, findall (first_line v) with
      | _ :: _, _ :: _ => Ok (Text (constructor_env_variables environ v))
      | _, _ => Ok (ByYaml v)
      end
  | QuotedScalar v => Ok (Text v)
  end.
(** read_env_vars_in_config.py 16-69, [parse_config]: the loader afterwards and the result.  [open_file] and [load] stand
    for opening a file and reading YAML with the loader.  None and the empty text are both false. *)
Definition parse_config {doc : Type} (open_file : string -> res string) (load : loader -> string -> res doc)
  (st : loader) (path data : option string) (tag : string) : loader * res doc :=
  let st := st ++ [tag] in
  (st, match path with
       | Some (String _ _ as p) => c <- open_file p ;; load st c
       | _ => match data with
              | Some (String _ _ as d) => load st d
              | _ => Err ValueError
              end
       end).
