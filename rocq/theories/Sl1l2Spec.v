(** Textbook verification measures of a list of raw (forecast, observation) pairs. *)
From Coq Require Import Reals Qreals Qabs.
From Verif Require Import PyBase ColumnModel BaseSpec RealSpec AggSpec.
Open Scope string_scope.
Open Scope Q_scope.

Definition pair := (Q * Q)%type.
Definition fc (p : pair) : Q := fst p.
Definition ob (p : pair) : Q := snd p.

(** Fields of a partial-sums line: the means of f, o, f*o, f*f, o*o and |f-o|. *)
Definition sl1l2_fields : list (string * (pair -> Q)) := [
  ("fbar", fc); ("obar", ob);
  ("fobar", fun p => fc p * ob p);
  ("ffbar", fun p => fc p * fc p);
  ("oobar", fun p => ob p * ob p);
  ("mae", fun p => Qabs (fc p - ob p)) ].

(** Mean error, mean absolute and mean squared error of the pairs. *)
Definition mean_error (l : list pair) : Q := mean_of (fun p => fc p - ob p) l.
Definition mean_abs_error (l : list pair) : Q := mean_of (fun p => Qabs (fc p - ob p)) l.
Definition mean_sq_error (l : list pair) : Q := mean_of (fun p => (fc p - ob p) * (fc p - ob p)) l.

(** Sum of products of deviations from the means. *)
Definition codev {A : Type} (g h : A -> Q) (l : list A) : Q :=
  total_of (fun p => (g p - mean_of g l) * (h p - mean_of h l)) l.

(** Sample standard deviation; undefined for fewer than two cases. *)
Definition sample_stdev {A : Type} (g : A -> Q) (l : list A) : option R :=
  if Qlt_le_dec 1 (count l) then Some (sqrt (Q2R (codev g g l / (count l - 1)))) else None.

(** Pearson correlation; undefined if one of the two variables is constant. *)
Definition pearson {A : Type} (g h : A -> Q) (l : list A) : option R :=
  if Qeq_dec (codev g g l * codev h h l) 0 then None
  else Some (Q2R (codev g h l) / sqrt (Q2R (codev g g l * codev h h l)))%R.

(** Rounding applied in two stages: the intermediate published value, then the final one. *)
Definition Rounded2 (x : Q) (f : Q -> Q) (r : option Q) : Prop :=
  exists m, Nearest 7 x m /\ Published (Some (f m)) r.
Definition RootOfRounded (x : Q) (r : option Q) : Prop :=
  exists m, Nearest 7 x m /\ PublishedR (Some (sqrt (Q2R m))) r.

(** What is published for each measure of the pairs [l].  Measures that the package
    composes from already published values are described in the same two stages. *)
Definition FbarOf (l : list pair) r := Published (Some (mean_of fc l)) r.
Definition ObarOf (l : list pair) r := Published (Some (mean_of ob l)) r.
Definition FobarOf (l : list pair) r := Published (Some (mean_of (fun p => fc p * ob p) l)) r.
Definition FfbarOf (l : list pair) r := Published (Some (mean_of (fun p => fc p * fc p) l)) r.
Definition OobarOf (l : list pair) r := Published (Some (mean_of (fun p => ob p * ob p) l)) r.
Definition MaeOf (l : list pair) r := Published (Some (mean_abs_error l)) r.
Definition MbiasOf (l : list pair) r := Published (oratio (Some (mean_of fc l)) (Some (mean_of ob l))) r.
Definition FeOf (l : list pair) r := Published (oratio (Some (mean_error l)) (Some (mean_of fc l))) r.
Definition MeOf (l : list pair) r := Published (Some (mean_error l)) r.
Definition Me2Of (l : list pair) r := Rounded2 (mean_error l) (fun m => m * m) r.
Definition MseOf (l : list pair) r := Published (Some (mean_sq_error l)) r.
Definition RmseOf (l : list pair) r := RootOfRounded (mean_sq_error l) r.
Definition FstdevOf (l : list pair) r := PublishedR (sample_stdev fc l) r.
Definition OstdevOf (l : list pair) r := PublishedR (sample_stdev ob l) r.
Definition EstdevOf (l : list pair) r := PublishedR (sample_stdev (fun p => fc p - ob p) l) r.
Definition CorrOf (l : list pair) r := PublishedR (pearson fc ob l) r.
Definition BcmseOf (l : list pair) r :=
  exists m e, Nearest 7 (mean_sq_error l) m /\ Nearest 7 (mean_error l) e /\ Published (Some (m - e * e)) r.
Definition BcrmseOf (l : list pair) r :=
  exists b, BcmseOf l (Some b) /\ (b < 0 -> r = None) /\ (0 <= b -> PublishedR (Some (sqrt (Q2R b))) r).
Definition MsessOf (l : list pair) r :=
  exists m s, Nearest 7 (mean_sq_error l) m /\ OstdevOf l s /\
    Published (osub (Some 1) (oratio (Some m) (omul s s))) r.

(** The quantity takes the same value on all cases. *)
Definition Constant {A : Type} (g : A -> Q) (l : list A) : Prop :=
  forall x y, In x l -> In y l -> g x == g y.
