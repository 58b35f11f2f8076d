(** Tables of Matsuno modes: metcalcpy/contributed/spacetime/matsuno_plot.py.  The texts of numbers and scipy's solver are
    parameters. *)
From Coq Require Import Reals String.
From Verif Require Import PyBase ActivityModel CorrModel MatsunoModel.
From Coq Require Import List.
Import ListNotations.
Open Scope R_scope.

(** A table indexed by 'Wavenumber': the names of its columns, and for each row the wavenumber and the values (NaN is [None]). *)
Record frame : Type := Frame { names : list string; rows : list (R * list (option R)) }.
Definition has_name (s : string) (l : list string) : bool := existsb (String.eqb s) l.
Fixpoint distinct (l : list string) : bool := match l with [] => true | s :: rest => negb (has_name s rest) && distinct rest end.
(** [pd.merge(left, right, on='Wavenumber')] with one column on the right: inner, in the order of the left rows, with suffixes for a
    name on both sides.  If those give a name twice, which some versions of pandas refuse, the result is not modelled. *)
Definition merge (left : frame) (right : string * list (R * option R)) : res frame :=
  let '(name, column) := right in
  let twice := has_name name (names left) in
  let new := map (fun s => if String.eqb s name then (s ++ "_x")%string else s) (names left) ++ [if twice then (name ++ "_y")%string else name] in
  if distinct new
  then Ok {| names := new;
             rows := flat_map (fun l => map (fun r => (fst l, snd l ++ [snd r])) (filter (fun r => real_eqb (fst l) (fst r)) column)) (rows left) |}
  else Err NotModelled.
Fixpoint merges (left : frame) (l : list (string * list (R * option R))) : res frame :=
  match l with [] => Ok left | c :: rest => f <- merge left c ;; merges f rest end.
Definition alone (c : string * list (R * option R)) : frame := {| names := [fst c]; rows := map (fun p => (fst p, [snd p])) (snd c) |}.

Section Modes.
(** [str] of a depth and of a mode number; scipy's [fsolve]. *)
Variable str_he : R -> string.
Variable str_n : Z -> string.
Variable fsolve : (R -> R) -> R -> R.

(** The curves with the names of their columns; matsuno_plot.py 149, 184, 217, 257, 297, 337. *)
Definition named (name : string) (c : res (list (R * option R))) : res (string * list (R * option R)) := t <- c ;; Ok (name, t).
Definition kelvin_df (he latitude max_wn : R) (n_wn : nat) := named ("Kelvin(he=" ++ str_he he ++ "m)")%string (kelvin_mode he latitude max_wn n_wn).
Definition mrg_df (he latitude max_wn : R) (n_wn : nat) := named ("MRG(he=" ++ str_he he ++ "m)")%string (mrg_mode he latitude max_wn n_wn).
Definition eig_0_df (he latitude max_wn : R) (n_wn : nat) := named ("EIG(n=0,he=" ++ str_he he ++ "m)")%string (eig_n_0 he latitude max_wn n_wn).
Definition er_df (he : R) (n : Z) (latitude max_wn : R) (n_wn : nat) :=
  named ("ER(n=" ++ str_n n ++ ",he=" ++ str_he he ++ "m)")%string (er_n fsolve he n latitude max_wn n_wn).
Definition eig_df (he : R) (n : Z) (latitude max_wn : R) (n_wn : nat) :=
  named ("EIG(n=" ++ str_n n ++ ",he=" ++ str_he he ++ "m)")%string (eig_n fsolve he n latitude max_wn n_wn).
Definition wig_df (he : R) (n : Z) (latitude max_wn : R) (n_wn : nat) :=
  named ("WIG(n=" ++ str_n n ++ ",he=" ++ str_he he ++ "m)")%string (wig_n fsolve he n latitude max_wn n_wn).
(** matsuno_plot.py 397-400: the curves of each mode number. *)
Fixpoint modes_of (he : R) (n : list Z) (latitude max_wn : R) (n_wn : nat) : res (list (string * list (R * option R))) :=
  match n with
  | [] => Ok []
  | nn :: rest =>
      a <- er_df he nn latitude max_wn n_wn ;;
      b <- eig_df he nn latitude max_wn n_wn ;;
      c <- wig_df he nn latitude max_wn n_wn ;;
      l <- modes_of he rest latitude max_wn n_wn ;; Ok (a :: b :: c :: l)
  end.
(** matsuno_plot.py 369-403, [matsuno_dataframe]. *)
Definition matsuno_dataframe (he : R) (n : list Z) (latitude max_wn : R) (n_wn : nat) : res frame :=
  a <- kelvin_df he latitude max_wn n_wn ;;
  b <- mrg_df he latitude max_wn n_wn ;;
  c <- eig_0_df he latitude max_wn n_wn ;;
  l <- modes_of he n latitude max_wn n_wn ;;
  merges (alone a) (b :: c :: l).
(** A dictionary with a new value for a key. *)
Fixpoint put (h : R) (f : frame) (d : list (R * frame)) : list (R * frame) :=
  match d with
  | [] => [(h, f)]
  | x :: rest => if real_eqb (fst x) h then (fst x, f) :: rest else x :: put h f rest
  end.
(** matsuno_plot.py 512-550, [matsuno_modes_wk]: the table of each depth, as above. *)
Fixpoint modes_wk (d : list (R * frame)) (he : list R) (n : list Z) (latitude max_wn : R) (n_wn : nat) : res (list (R * frame)) :=
  match he with
  | [] => Ok d
  | h :: rest => f <- matsuno_dataframe h n latitude max_wn n_wn ;; modes_wk (put h f d) rest n latitude max_wn n_wn
  end.
Definition matsuno_modes_wk (he : list R) (n : list Z) (latitude max_wn : R) (n_wn : nat) : res (list (R * frame)) :=
  modes_wk [] he n latitude max_wn n_wn.
End Modes.
