(** Specification of weighted pooling of lines, of fractions skill scores and of gradient scores. *)
From Coq Require Import Reals Qreals Qabs Qminmax.
From Verif Require Import PyBase ColumnModel BaseSpec RealSpec AggSpec.
Open Scope string_scope.
Open Scope Q_scope.

(** The numbers of one line by field name; [None] for a missing entry. *)
Definition line := string -> option Q.

(** Row [r] of the table shows the entries of [e] in the given fields. *)
Definition Shows (fields columns : list string) (e : line) (r : row) : Prop :=
  length r = length columns /\
  forall name, In name fields -> exists i, ColumnAt columns name i /\
    nth_error r i = Some (match e name with Some q => CNum q | None => CMiss end).

(** The table shows the lines, at least one. *)
Definition Table (fields columns : list string) (es : list line) (data : tdata) : Prop :=
  es <> [] /\ Forall2 (Shows fields columns) es data.

(** Sum of the numbers present; undefined if there is none. *)
Fixpoint sum_present (l : list (option Q)) : option Q :=
  match l with
  | [] => None
  | None :: t => sum_present t
  | Some q :: t => match sum_present t with Some s => Some (q + s) | None => Some q end
  end.

(** Sum over the lines of weight times value, and weighted mean. *)
Definition weighted_sum (weight value : line -> option Q) (es : list line) : option Q :=
  sum_present (map (fun e => omul (value e) (weight e)) es).
Definition weighted_mean (weight value : line -> option Q) (es : list line) : option Q :=
  oratio (weighted_sum weight value es) (sum_present (map weight es)).

(** Field of a line and its square. *)
Definition field (name : string) (e : line) : option Q := e name.
Definition square_of (name : string) (e : line) : option Q := omul (e name) (e name).
Definition by_total (value : line -> option Q) (es : list line) : option Q :=
  weighted_mean (field "total") value es.

(** Square root of a mean that was itself published first; undefined for a negative one. *)
Definition RootPublished (x : option Q) (r : option Q) : Prop :=
  match x with
  | None => r = None
  | Some v => exists m, Nearest 7 v m /\
      (m < 0 -> r = None) /\ (0 <= m -> PublishedR (Some (sqrt (Q2R m))) r)
  end.

(** Absolute value of a possibly undefined number. *)
Definition oabs (a : option Q) : option Q := match a with Some x => Some (Qabs x) | None => None end.

(** Fields of the ensemble lines. *)
Definition ecnt_fields : list string :=
  ["total"; "rmse"; "rmse_oerr"; "spread"; "spread_oerr"; "spread_plus_oerr"; "crps"; "crpscl"; "crps_emp";
   "crps_emp_fair"; "crpscl_emp"; "spread_md"; "ign"; "me"; "mae"; "mae_oerr"; "me_oerr";
   "n_ge_obs"; "n_lt_obs"; "me_ge_obs"; "me_lt_obs"].
Definition rps_fields : list string := ["total"; "rps"; "rpss"; "rps_comp"].
Definition nbr_fields : list string := ["total"; "fbs"; "fss"; "f_rate"; "o_rate"].

(** Score of the reference forecast, from a score and its skill; nothing can be said of a
    perfect score. *)
Definition reference (score skill : string) (e : line) : option Q :=
  oratio (e score) (osub (Some 1) (e skill)).
(** A skill of one occurs only with a score of zero. *)
Definition ConsistentSkill (score skill : string) (es : list line) : Prop :=
  forall e q s, In e es -> e skill = Some q -> e score = Some s -> q == 1 -> s == 0.

(** Neighbourhoods: the fractions of the forecast and of the observed field covered by the event. *)
Definition fractions := (Q * Q)%type.
Definition fbs_of (l : list fractions) : Q :=
  mean_of (fun p => (fst p - snd p) * (fst p - snd p)) l.
(** The largest Fractions Brier Score that the fields could have. *)
Definition fbs_worst (l : list fractions) : Q :=
  mean_of (fun p => fst p * fst p + snd p * snd p) l.
Definition fss_of (l : list fractions) : option Q :=
  osub (Some 1) (oratio (Some (fbs_of l)) (Some (fbs_worst l))).
Definition f_rate_of (l : list fractions) : Q := mean_of fst l.
Definition o_rate_of (l : list fractions) : Q := mean_of snd l.

(** The line of one group of neighbourhoods. *)
Definition NbrLine (l : list fractions) (e : line) : Prop :=
  l <> [] /\ oeq (e "total") (Some (count l)) /\ oeq (e "fbs") (Some (fbs_of l)) /\
  oeq (e "fss") (fss_of l) /\
  oeq (e "f_rate") (Some (f_rate_of l)) /\ oeq (e "o_rate") (Some (o_rate_of l)).

(** Fields of a gradient line for (forecast, observed) gradients. *)
Definition grad_fields : list (string * ((Q * Q) -> Q)) := [
  ("fgbar", fun p => Qabs (fst p)); ("ogbar", fun p => Qabs (snd p));
  ("mgbar", fun p => Qmax (Qabs (fst p)) (Qabs (snd p)));
  ("egbar", fun p => Qabs (fst p - snd p)) ].

(** Lines for the examples: constant lines, and the line written for a group of neighbourhoods. *)
Definition two_lines (a b : Q) : list line := [fun _ => Some a; fun n => if String.eqb n "ign" then None else Some b].
Definition nbr_line (l : list fractions) : line := fun n =>
  if String.eqb n "total" then Some (count l) else if String.eqb n "fbs" then Some (fbs_of l)
  else if String.eqb n "fss" then fss_of l else if String.eqb n "f_rate" then Some (f_rate_of l)
  else if String.eqb n "o_rate" then Some (o_rate_of l) else None.
Definition nbr_row (e : line) : list cell :=
  map (fun n => match e n with Some q => CNum q | None => CMiss end) nbr_fields.
