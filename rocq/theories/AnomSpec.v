(** Anomaly correlations of raw cases: scalar anomalies are pairs (forecast anomaly, observed
    anomaly), vector anomalies are given by their components. *)
From Coq Require Import Reals Qreals.
From Verif Require Import PyBase ColumnModel BaseSpec RealSpec AggSpec Sl1l2Spec.
Open Scope string_scope.
Open Scope Q_scope.

(** Fields of an anomaly partial-sums line. *)
Definition sal1l2_fields : list (string * (pair -> Q)) := [
  ("fabar", fc); ("oabar", ob);
  ("foabar", fun p => fc p * ob p);
  ("ffabar", fun p => fc p * fc p);
  ("ooabar", fun p => ob p * ob p) ].

(** Correlation about zero; undefined if one of the variables is identically zero. *)
Definition uncentred {A : Type} (g h : A -> Q) (l : list A) : option R :=
  let a := total_of (fun p => g p * g p) l in
  let b := total_of (fun p => h p * h p) l in
  let c := total_of (fun p => g p * h p) l in
  if Qeq_dec (a * b) 0 then None
  else Some (Q2R c / sqrt (Q2R (a * b)))%R.

(** A forecast and an observed vector with their recorded lengths. *)
Record vpair := VPair { uf : Q; vf : Q; uo : Q; vo : Q; f_speed : Q; o_speed : Q }.
Definition dot_fo (p : vpair) : Q := uf p * uo p + vf p * vo p.
Definition dot_ff (p : vpair) : Q := uf p * uf p + vf p * vf p.
Definition dot_oo (p : vpair) : Q := uo p * uo p + vo p * vo p.

Definition val1l2_fields : list (string * (vpair -> Q)) := [
  ("ufabar", uf); ("vfabar", vf); ("uoabar", uo); ("voabar", vo);
  ("uvfoabar", dot_fo); ("uvffabar", dot_ff); ("uvooabar", dot_oo) ].
Definition vcnt_anom_fields : list (string * (vpair -> Q)) := [
  ("fa_speed_bar", f_speed); ("oa_speed_bar", o_speed);
  ("uvfoabar", dot_fo); ("uvffabar", dot_ff); ("uvooabar", dot_oo) ].

(** Sums of scalar products of the deviations from the mean vectors. *)
Definition vcodev_fo (l : list vpair) : Q := codev uf uo l + codev vf vo l.
Definition vcodev_ff (l : list vpair) : Q := codev uf uf l + codev vf vf l.
Definition vcodev_oo (l : list vpair) : Q := codev uo uo l + codev vo vo l.

(** Vector correlation; undefined if all forecast or all observed vectors are equal. *)
Definition vector_corr (l : list vpair) : option R :=
  if Qeq_dec (vcodev_ff l * vcodev_oo l) 0 then None
  else Some (Q2R (vcodev_fo l) / sqrt (Q2R (vcodev_ff l * vcodev_oo l)))%R.

(** Vector correlation about zero. *)
Definition vector_uncentred (l : list vpair) : option R :=
  let a := total_of dot_ff l in
  let b := total_of dot_oo l in
  if Qeq_dec (a * b) 0 then None
  else Some (Q2R (total_of dot_fo l) / sqrt (Q2R (a * b)))%R.

Definition AnomCorrOf (l : list pair) r := PublishedR (pearson fc ob l) r.
Definition AnomCorrRawOf (l : list pair) r := PublishedR (uncentred fc ob l) r.
Definition RmsfaOf (l : list pair) r := PublishedR (Some (sqrt (Q2R (mean_of (fun p => fc p * fc p) l)))) r.
Definition RmsoaOf (l : list pair) r := PublishedR (Some (sqrt (Q2R (mean_of (fun p => ob p * ob p) l)))) r.

(** The columns of a spread/skill table, with "bin_n" in the role of the number of cases. *)
Definition counted_by_bin_n (columns : list string) : list string :=
  map (fun c => if String.eqb c "total" then "total_orig" else if String.eqb c "bin_n" then "total" else c)
    columns.
Definition ssvar_fields : list (string * (pair -> Q)) := [
  ("fbar", fc); ("obar", ob);
  ("fobar", fun p => fc p * ob p);
  ("ffbar", fun p => fc p * fc p);
  ("oobar", fun p => ob p * ob p) ].
Definition spread_fields : list (string * (Q -> Q)) := [("var_mean", fun v => v)].
(** Square root of the mean ensemble variance. *)
Definition SpreadOf (l : list Q) r := PublishedR (Some (sqrt (Q2R (mean_of (fun v => v) l)))) r.

(** Data of the examples and counterexamples. *)
Definition turned_cases : list vpair :=
  [VPair 3 4 (-4) 3 5 5; VPair (-6) (-8) 8 (-6) 10 10].
Definition anom_groups : list (list pair) := [[(1, 2); (3, 5)]; [(-2, 1)]].
Definition wind_groups : list (list vpair) :=
  [[VPair 3 4 4 3 5 5; VPair 0 2 0 1 2 1]; [VPair (-6) 8 (-8) 6 10 10]].
