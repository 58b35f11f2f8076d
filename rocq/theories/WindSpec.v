(** Wind scores of raw cases given by forecast and observed vectors ([vpair] of AnomSpec). *)
From Coq Require Import Reals Qreals.
From Verif Require Import PyBase ColumnModel BaseSpec RealSpec AggSpec Sl1l2Spec AnomSpec.
Open Scope string_scope.
Open Scope Q_scope.

(** Fields of a vector partial-sums line (VL1L2, VCNT). *)
Definition wind_fields : list (string * (vpair -> Q)) := [
  ("ufbar", uf); ("vfbar", vf); ("uobar", uo); ("vobar", vo);
  ("uvfobar", dot_fo); ("uvffbar", dot_ff); ("uvoobar", dot_oo);
  ("f_speed_bar", f_speed); ("o_speed_bar", o_speed) ].

(** Length of a vector. *)
Definition vlength (u v : Q) : R := sqrt (Q2R (u * u + v * v)).

(** [a] is the bearing of the vector with east component [u] and north component [v]: its angle
    from north, clockwise, in radians. *)
Definition BearingOf (u v : Q) (a : R) : Prop :=
  (- PI <= a <= PI)%R /\ (Q2R u = vlength u v * sin a)%R /\ (Q2R v = vlength u v * cos a)%R.

(** The direction in degrees, in [0,360), from which the wind with components [u], [v] blows. *)
Definition BlowsFrom (u v : Q) (d : R) : Prop :=
  (0 <= d < 360)%R /\
  (Q2R u = - vlength u v * sin (d * PI / 180))%R /\ (Q2R v = - vlength u v * cos (d * PI / 180))%R.

(** What the package reports for a bearing [a]: still in radians, negative values raised by 360. *)
Definition reported (a : R) : R := if Rlt_dec a 0 then (a + 360)%R else a.

(** Both components are below the threshold of 0.00001. *)
Definition Calm (u v : Q) : Prop := - (1 # 100000) < u < 1 # 100000 /\ - (1 # 100000) < v < 1 # 100000.

(** Mean vectors and mean squares of the cases. *)
Notation mean_uf := (mean_of uf). Notation mean_vf := (mean_of vf).
Notation mean_uo := (mean_of uo). Notation mean_vo := (mean_of vo).

(** Mean squared length of the vector error. *)
Definition mean_sq_verror (l : list vpair) : Q :=
  mean_of (fun p => (uf p - uo p) * (uf p - uo p) + (vf p - vo p) * (vf p - vo p)) l.

(** Measures of a list of cases, as published. *)
Definition BiasOf (l : list vpair) r :=
  PublishedR (Some (sqrt (Q2R (mean_of dot_ff l)) - sqrt (Q2R (mean_of dot_oo l)))%R) r.
Definition FvarOf (l : list vpair) r :=
  Published (Some (mean_of dot_ff l - mean_of f_speed l * mean_of f_speed l)) r.
Definition OvarOf (l : list vpair) r :=
  Published (Some (mean_of dot_oo l - mean_of o_speed l * mean_of o_speed l)) r.
Definition MsveOf (l : list vpair) r := Published (Some (mean_sq_verror l)) r.
Definition RmsveOf (l : list vpair) r := RootOfRounded (mean_sq_verror l) r.
Definition FspeedOf (l : list vpair) r := PublishedR (Some (vlength (mean_uf l) (mean_vf l))) r.
Definition OspeedOf (l : list vpair) r := PublishedR (Some (vlength (mean_uo l) (mean_vo l))) r.
(** The speed error is the difference of the two published speeds. *)
Definition SpeedErrOf (l : list vpair) r :=
  exists f o, FspeedOf l (Some f) /\ OspeedOf l (Some o) /\ Published (Some (f - o)) r.
Definition SpeedAbsErrOf (l : list vpair) r :=
  exists f o, FspeedOf l (Some f) /\ OspeedOf l (Some o) /\ Published (Some (Qabs.Qabs (f - o))) r.
Definition FsmeanOf (l : list vpair) r := Published (Some (mean_of f_speed l)) r.
Definition OsmeanOf (l : list vpair) r := Published (Some (mean_of o_speed l)) r.
Definition FsRmsOf (l : list vpair) r := PublishedR (Some (sqrt (Q2R (mean_of dot_ff l)))) r.
Definition OsRmsOf (l : list vpair) r := PublishedR (Some (sqrt (Q2R (mean_of dot_oo l)))) r.
(** Standard deviation of the speed: root of the published variance, undefined if that is negative. *)
Definition FsStdevOf (l : list vpair) r :=
  exists q, FvarOf l (Some q) /\ (q < 0 -> r = None) /\ (0 <= q -> PublishedR (Some (sqrt (Q2R q))) r).
Definition OsStdevOf (l : list vpair) r :=
  exists q, OvarOf l (Some q) /\ (q < 0 -> r = None) /\ (0 <= q -> PublishedR (Some (sqrt (Q2R q))) r).
Definition VdiffSpeedOf (l : list vpair) r :=
  PublishedR (Some (vlength (mean_uf l - mean_uo l) (mean_vf l - mean_vo l))) r.

(** Direction reported for a vector: none in calm, otherwise from the bearing of the opposite vector. *)
Definition DirectionOf (u v : Q) (r : option Q) : Prop :=
  (Calm u v -> r = None) /\
  (~ Calm u v -> exists a, BearingOf (- u) (- v) a /\ PublishedR (Some (reported a)) r).
Definition FdirOf (l : list vpair) r := DirectionOf (mean_uf l) (mean_vf l) r.
Definition OdirOf (l : list vpair) r := DirectionOf (mean_uo l) (mean_vo l) r.
Definition VdiffDirOf (l : list vpair) r := DirectionOf (mean_uf l - mean_uo l) (mean_vf l - mean_vo l) r.

(** The recorded speeds are the lengths of the vectors, or smaller. *)
Definition SpeedsBelow (l : list vpair) : Prop :=
  forall p, In p l -> 0 <= f_speed p /\ 0 <= o_speed p /\
    f_speed p * f_speed p <= dot_ff p /\ o_speed p * o_speed p <= dot_oo p.

(** One case repeated [n] times. *)
Definition many_cases (n : nat) : list vpair := repeat (VPair 3 4 4 3 5 5) n.
