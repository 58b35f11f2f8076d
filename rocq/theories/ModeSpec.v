(** MODE objects and the documented classes of objects. *)
From Coq Require Import Ascii.
From Verif Require Import PyBase ColumnModel BaseSpec.
Open Scope string_scope.

(** An object is a forecast or an observation, simple or a cluster, matched or not; it has an
    area (possibly missing) and a type such as "2d". *)
Record object : Type := Obj {
  forecast : bool;
  simple : bool;
  matched : bool;
  area : option Q;
  kind : string
}.

(** The three-letter names of MET: forecast/observation/all, simple/cluster/all,
    matched/unmatched/all.  "fsm" is the class of simple matched forecast objects. *)
Definition first_letter (c : ascii) (o : object) : bool :=
  if Ascii.eqb c "f" then forecast o else if Ascii.eqb c "o" then negb (forecast o) else true.
Definition second_letter (c : ascii) (o : object) : bool :=
  if Ascii.eqb c "s" then simple o else if Ascii.eqb c "c" then negb (simple o) else true.
Definition third_letter (c : ascii) (o : object) : bool :=
  if Ascii.eqb c "m" then matched o else if Ascii.eqb c "u" then negb (matched o) else true.

Definition in_class (name : string) (o : object) : bool :=
  match name with
  | String a (String b (String c EmptyString)) => first_letter a o && second_letter b o && third_letter c o
  | _ => false
  end.

(** How many objects are in a class. *)
Definition number (name : string) (objs : list object) : option Q :=
  Some (inject_Z (Z.of_nat (length (filter (in_class name) objs)))).

(** Known areas of the objects, and their sum: undefined when none is known. *)
Fixpoint areas (objs : list object) : list Q :=
  match objs with
  | [] => []
  | o :: rest => match area o with Some a => a :: areas rest | None => areas rest end
  end.
Definition total_area (name : string) (objs : list object) : option Q :=
  match areas (filter (in_class name) objs) with
  | [] => None
  | l => Some (qsum l)
  end.

(** A 0/1 cell. *)
Definition FlagCell (columns : list string) (name : string) (r : list cell) (b : bool) : Prop :=
  exists i p, ColumnAt columns name i /\ nth_error r i = Some (CNum p) /\ p == (if b then 1 else 0).

(** The flag columns of the table describe the objects, row by row. *)
Definition FlagTable (data : list (list cell)) (columns : list string) (objs : list object) : Prop :=
  Rectangular data columns /\
  In "fcst_flag" columns /\ In "simple_flag" columns /\ In "matched_flag" columns /\
  Forall2 (fun r o => FlagCell columns "fcst_flag" r (forecast o) /\
                      FlagCell columns "simple_flag" r (simple o) /\
                      FlagCell columns "matched_flag" r (matched o)) data objs.

(** The area column does. *)
Definition AreaTable (data : list (list cell)) (columns : list string) (objs : list object) : Prop :=
  In "area" columns /\
  Forall2 (fun r o => exists i, ColumnAt columns "area" i /\
             nth_error r i = Some (match area o with Some a => CNum a | None => CMiss end)) data objs.

(** The type column does. *)
Definition KindTable (data : list (list cell)) (columns : list string) (objs : list object) : Prop :=
  In "object_type" columns /\
  Forall2 (fun r o => exists i, ColumnAt columns "object_type" i /\ nth_error r i = Some (CStr (kind o))) data objs.

(** The objects of one type. *)
Definition of_kind (k : string) (objs : list object) : list object :=
  filter (fun o => String.eqb (kind o) k) objs.
