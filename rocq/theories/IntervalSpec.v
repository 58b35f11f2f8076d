(** Words for the statements about arithmetic on results. *)
From Coq Require Import QArith.
From Verif Require Import BootModel.
Open Scope Q_scope.

(** The result [v] with the limits [l] and [u]. *)
Definition IsResult (r : results) (l v u : Q) : Prop :=
  exists l' v' u', r = Results (Some l') (Some v') (Some u') /\ l' == l /\ v' == v /\ u' == u.
(** One of the three numbers is missing. *)
Definition Incomplete (r : results) : Prop := lower_bound r = None \/ value r = None \/ upper_bound r = None.
