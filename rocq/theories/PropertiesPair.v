(** The bootstrap of derived curves. *)
From Verif Require Import PyBase ColumnModel BootModel BootSpec DriveModel PairModel PairSpec PairProofs.
From Coq Require Import String List.
Import ListNotations.
Open Scope nat_scope.

(** ** C107: the bootstrap of derived curves *)

(** The rows are drawn once for both curves: for all tables with [n] rows there are the same draws of row numbers, and each
    member of the distribution is the derived value of the statistics of these rows of both tables, each with the statistic
    named in its own rows. *)
Theorem C107_paired : forall (gen : Type) randint seed_gen, (forall (g : gen) n, 0 < n -> fst (randint g n) < n) ->
  forall n g N threads cpu seeds (is_cbb : bool), 0 < n -> (0 < N)%Z -> (threads <= Z.of_nat (length seeds) /\ cpu <= Z.of_nat (length seeds))%Z ->
  exists draws, Forall (BlockResample (if is_cbb then Nat.sqrt n else 1) (seq 0 n)) draws /\
    forall calculate equivalence columns alpha method operation v1 v2 x y f1 f2 F1 F2, length v1 = n -> length v2 = n ->
    Named columns x v1 -> Named columns y v2 -> calculate (lower x) = Some f1 -> calculate (lower y) = Some f2 ->
    OnRows v1 f1 F1 -> OnRows v2 f2 F2 -> operation <> "ETB"%string ->
    let dist := map (fun ids => Derive operation (F1 (RowsAt v1 ids)) (F2 (RowsAt v2 ids))) draws in
    derived_bootstrap gen randint seed_gen calculate equivalence columns alpha g N threads cpu seeds method is_cbb operation v1 v2 =
    (r <- get_confidence_interval_and_value dist (Derive operation (F1 v1) (F2 v2)) alpha method ;; Ok (r, dist)).
Proof. exact C107_paired_proof. Qed.
Print Assumptions C107_paired.
(** The result of the driver is the same; the distribution is kept for DIFF_SIG only. *)
Theorem C107_driver : forall (gen : Type) randint seed_gen, (forall (g : gen) n, 0 < n -> fst (randint g n) < n) ->
  forall n g N threads cpu seeds (is_cbb : bool), 0 < n -> (0 < N)%Z -> (threads <= Z.of_nat (length seeds) /\ cpu <= Z.of_nat (length seeds))%Z ->
  exists draws, Forall (BlockResample (if is_cbb then Nat.sqrt n else 1) (seq 0 n)) draws /\
    forall e calculate columns alpha method statistic operation v1 v2 x y f1 f2 F1 F2, length v1 = n -> length v2 = n ->
    Named columns x v1 -> Named columns y v2 -> calculate (lower x) = Some f1 -> calculate (lower y) = Some f2 ->
    OnRows v1 f1 F1 -> OnRows v2 f2 F2 -> operation <> "ETB"%string ->
    let dist := map (fun ids => Derive operation (F1 (RowsAt v1 ids)) (F2 (RowsAt v2 ids))) draws in
    derived_boot (with_bootstrap gen randint seed_gen e calculate columns alpha g N threads cpu seeds method is_cbb) statistic operation v1 v2 =
    (r <- get_confidence_interval_and_value dist (Derive operation (F1 v1) (F2 v2)) alpha method ;;
     Ok (r, if String.eqb operation "DIFF_SIG" then Some dist else None)).
Proof. exact C107_driver_proof. Qed.
Print Assumptions C107_driver.

Example C107_paired_case : Named ["stat_name"; "total"]%string "ME" [[CStr "ME"; CNum 3]; [CStr "ME"; CNum 4]] /\
  BlockResample 2 (seq 0 4) [3; 0; 1; 2].
Proof. exact C107_paired_case_proof. Qed.

(** The difference of a curve with itself: the value is 0 and there are no limits. *)
Theorem C107_same : forall (gen : Type) randint seed_gen, (forall (g : gen) n, 0 < n -> fst (randint g n) < n) ->
  forall g N threads cpu seeds is_cbb calculate equivalence columns alpha v x f F, v <> [] -> (0 < N)%Z ->
  (threads <= Z.of_nat (length seeds) /\ cpu <= Z.of_nat (length seeds))%Z ->
  Named columns x v -> calculate (lower x) = Some f -> OnRows v f F -> (forall d, incl d v -> F d <> None) ->
  exists z d, derived_bootstrap gen randint seed_gen calculate equivalence columns alpha g N threads cpu seeds Perc is_cbb "DIFF" v v =
    Ok (Results None (Some z) None, d) /\ (z == 0)%Q.
Proof. exact C107_same_proof. Qed.
Print Assumptions C107_same.

(** Curves exchanged: value, limits and all members of the distribution of the difference have the other sign, and the limits
    are exchanged. *)
Theorem C107_swap : forall (gen : Type) randint seed_gen, (forall (g : gen) n, 0 < n -> fst (randint g n) < n) ->
  forall g N threads cpu seeds is_cbb calculate equivalence columns alpha v1 v2 x y f1 f2 F1 F2 r d, v1 <> [] -> length v1 = length v2 -> (0 < N)%Z ->
  (threads <= Z.of_nat (length seeds) /\ cpu <= Z.of_nat (length seeds))%Z -> (0 <= alpha <= 1)%Q ->
  Named columns x v1 -> Named columns y v2 -> calculate (lower x) = Some f1 -> calculate (lower y) = Some f2 ->
  OnRows v1 f1 F1 -> OnRows v2 f2 F2 ->
  let run := derived_bootstrap gen randint seed_gen calculate equivalence columns alpha g N threads cpu seeds Perc is_cbb "DIFF" in
  run v1 v2 = Ok (r, d) ->
  exists r', run v2 v1 = Ok (r', map Negative d) /\ value r' = Negative (value r) /\
    SameValue (lower_bound r') (Negative (upper_bound r)) /\ SameValue (upper_bound r') (Negative (lower_bound r)).
Proof. exact C107_swap_proof. Qed.
Print Assumptions C107_swap.

(** The value should not depend on the number of iterations.  Without bootstrap it is rounded to five digits, with bootstrap
    it is not. *)
Theorem C107_rounding_refuted : forall e columns statistic operation r1 r2 v1 v2 q, operation <> "ETB"%string ->
  Derive operation (value (outcome r1)) (value (outcome r2)) = Some q ->
  derived_one e columns statistic operation r1 r2 v1 v2 = Ok (Some (round_half_up q 5)) /\
  forall (gen : Type) randint seed_gen, (forall (g : gen) n, 0 < n -> fst (randint g n) < n) ->
    forall g N threads cpu seeds is_cbb calculate equivalence alpha method x y f1 f2 F1 F2 r d, v1 <> [] -> length v1 = length v2 -> (0 < N)%Z ->
    (threads <= Z.of_nat (length seeds) /\ cpu <= Z.of_nat (length seeds))%Z -> method <> OtherMethod ->
    Named columns x v1 -> Named columns y v2 -> calculate (lower x) = Some f1 -> calculate (lower y) = Some f2 ->
    OnRows v1 f1 F1 -> OnRows v2 f2 F2 -> F1 v1 = value (outcome r1) -> F2 v2 = value (outcome r2) ->
    derived_bootstrap gen randint seed_gen calculate equivalence columns alpha g N threads cpu seeds method is_cbb operation v1 v2 = Ok (r, d) ->
    value r = Some q.
Proof. exact C107_rounding_refuted_proof. Qed.
Print Assumptions C107_rounding_refuted.

(** A difference of 0.000004 becomes 0. *)
Example C107_rounding_case : Derive "DIFF" (Some (500004 # 1000000)%Q) (Some (1 # 2)%Q) = Some (8 # 2000000)%Q /\
  (round_half_up (8 # 2000000) 5 == 0)%Q.
Proof. exact C107_rounding_case_proof. Qed.

(** Without a column stat_name the statistic of the curve should be used.  IndexError is raised. *)
Theorem C107_statistic_refuted : forall gen randint seed_gen e calculate columns alpha g N threads cpu seeds method is_cbb statistic operation v1 v2,
  length v1 = length v2 -> ~ In "stat_name"%string columns ->
  derived_boot (with_bootstrap gen randint seed_gen e calculate columns alpha g N threads cpu seeds method is_cbb) statistic operation v1 v2 = Err IndexError.
Proof. exact C107_statistic_refuted_proof. Qed.
Print Assumptions C107_statistic_refuted.

(** Tables with different numbers of rows raise ValueError; if a statistic is not known the result is empty. *)
Theorem C107_exceptions : forall gen randint seed_gen e calculate columns alpha g N threads cpu seeds method is_cbb statistic operation v1 v2,
  let run := derived_boot (with_bootstrap gen randint seed_gen e calculate columns alpha g N threads cpu seeds method is_cbb) statistic operation v1 v2 in
  (length v1 <> length v2 -> run = Err ValueError /\ forall equivalence,
     derived_bootstrap gen randint seed_gen calculate equivalence columns alpha g N threads cpu seeds method is_cbb operation v1 v2 = Err ValueError) /\
  (forall x y, v1 <> [] -> length v1 = length v2 -> Named columns x v1 -> Named columns y v2 -> calculate (lower x) = None \/ calculate (lower y) = None ->
     run = Ok (Results None None None, None)).
Proof. exact C107_exceptions_proof. Qed.
Print Assumptions C107_exceptions.
