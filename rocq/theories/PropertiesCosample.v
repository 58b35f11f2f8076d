(** C149: the bootstrap of several arrays at once (metcalcpy/bootstrap.py). *)
From Coq Require Import List ZArith QArith.
From Verif Require Import PyBase BootModel CosampleModel CosampleSpec CosampleProofs.
Import ListNotations.
Local Open Scope nat_scope.

(** C149: all arrays are resampled with the same indexes: one list of draws, each of as many indexes as there are records, gives the row of
    every array. *)
Theorem C149_same_draws : forall gen randint seed_gen A B (arrays : list (given A)) (funcs : list (array A -> res (list B)))
    g num_iterations batch num_threads cpu_count seeds block_length results,
  distribution A B gen randint seed_gen arrays funcs g num_iterations batch num_threads cpu_count seeds block_length = Ok results ->
  exists batches, forall k tail rows f row,
    nth_error arrays k = Some (Dense tail rows) -> nth_error funcs k = Some f -> nth_error results k = Some row ->
    Forall (Forall (Draw (List.length rows))) batches /\ OnBatches rows f batches row.
Proof. exact C149_same_draws_proof. Qed.
Print Assumptions C149_same_draws.

(** Two arrays of three numbers, two iterations. *)
Example C149_same_draws_case : exists results,
  distribution Q Q nat counter (fun _ => 0) [Dense [] [1%Q; 2%Q; 4%Q]; Dense [] [10%Q; 20%Q; 40%Q]] [sum_rows; sum_rows] 1 2 None 1 4 [] 1 = Ok results /\
  results = [[(2 + (4 + (1 + 0)))%Q; (2 + (4 + (1 + 0)))%Q]; [(20 + (40 + (10 + 0)))%Q; (20 + (40 + (10 + 0)))%Q]].
Proof. exact C149_same_draws_case_proof. Qed.

(** C149: the row of an array is the bootstrap of that array alone from the same state of the generator. *)
Theorem C149_alone : forall gen randint seed_gen A B (arrays : list (given A)) (funcs : list (array A -> res (list B)))
    g num_iterations batch num_threads cpu_count seeds block_length results k tail rows f,
  distribution A B gen randint seed_gen arrays funcs g num_iterations batch num_threads cpu_count seeds block_length = Ok results ->
  (num_threads <= Z.of_nat (List.length seeds) /\ cpu_count <= Z.of_nat (List.length seeds))%Z ->
  nth_error arrays k = Some (Dense tail rows) -> nth_error funcs k = Some f ->
  exists row, nth_error results k = Some row /\
    bootstrap_distribution_cbb gen randint seed_gen A B rows f g num_iterations batch num_threads cpu_count seeds block_length = Ok row.
Proof. exact C149_alone_proof. Qed.
Print Assumptions C149_alone.

(** C149: so totals of resampled arrays add up if the arrays do. *)
Theorem C149_totals_add : forall gen randint seed_gen a b c g num_iterations batch num_threads cpu_count seeds block_length ra rb rc,
  distribution Q Q gen randint seed_gen [Dense [] a; Dense [] b; Dense [] c] [sum_rows; sum_rows; sum_rows]
    g num_iterations batch num_threads cpu_count seeds block_length = Ok [ra; rb; rc] ->
  Adds a b c -> Forall2 Qeq rc (map (fun p => (fst p + snd p)%Q) (combine ra rb)).
Proof. exact C149_totals_add_proof. Qed.
Print Assumptions C149_totals_add.

Example C149_totals_add_case : Adds [1%Q; 2%Q] [3%Q; 4%Q] [(1 + 3)%Q; (2 + 4)%Q].
Proof. exact C149_totals_add_case_proof. Qed.

(** C149: numpy arrays are accepted if and only if they all have the shape of the first one; no array is an IndexError. *)
Theorem C149_shapes : forall gen randint seed_gen A B (funcs : list (array A -> res (list B))) g num_iterations batch num_threads cpu_count seeds block_length,
  let run l := distribution A B gen randint seed_gen l funcs g num_iterations batch num_threads cpu_count seeds block_length in
  run [] = Err IndexError /\ (forall rest, run (Otherwise :: rest) = Err ValueError) /\
  forall tail rows rest,
    (AllDense (List.length rows :: tail) rest -> validate_arrays A (Dense tail rows :: rest) = Ok tt) /\
    (~ AllDense (List.length rows :: tail) rest -> run (Dense tail rows :: rest) = Err ValueError).
Proof. exact C149_shapes_proof. Qed.
Print Assumptions C149_shapes.

Example C149_shapes_case : AllDense [2] [Dense [] [1%Q; 2%Q]] /\ ~ AllDense [2] [Dense [] [1%Q]].
Proof. exact C149_shapes_case_proof. Qed.

(** C149: sparse matrices pass the checks, but cannot be resampled. *)
Theorem C149_sparse_refuted : forall gen randint seed_gen A B r c s rest (funcs : list (array A -> res (list B)))
    g num_iterations batch num_threads cpu_count seeds block_length,
  (0 < num_iterations)%Z -> match batch with Some b => (0 < b)%Z | None => True end -> seeds <> [] ->
  exists e, (e = ValueError \/ e = IndexError) /\
    distribution A B gen randint seed_gen (Sparse r c s :: rest) funcs g num_iterations batch num_threads cpu_count seeds block_length = Err e.
Proof. exact C149_sparse_refuted_proof. Qed.
Print Assumptions C149_sparse_refuted.

Example C149_sparse_refuted_case : validate_arrays Q [Sparse 1 3 [((0, 1), 2%Q)]; Sparse 1 3 [((0, 1), 4%Q)]] = Ok tt.
Proof. exact C149_sparse_refuted_case_proof. Qed.

(** C149: a sparse matrix of several rows is refused, unless it is the only one. *)
Theorem C149_sparse_rows_refuted : forall A r c s,
  NoDup (map fst s) -> Forall (fun e => ~ (snd e == 0)%Q) s ->
  validate_arrays A [Sparse r c s] = Ok tt /\ (1 < r -> validate_arrays A [Sparse r c s; Sparse r c s] = Err ValueError).
Proof. exact C149_sparse_rows_refuted_proof. Qed.
Print Assumptions C149_sparse_rows_refuted.

Example C149_sparse_rows_refuted_case : NoDup (map fst [((0, 1), 2%Q); ((1, 1), 3%Q)]) /\ Forall (fun e : (nat * nat) * Q => ~ (snd e == 0)%Q) [((0, 1), 2%Q); ((1, 1), 3%Q)].
Proof. exact C149_sparse_rows_refuted_case_proof. Qed.

(** C149: entries stored at the same places are refused if one is zero, and entries at different places can be accepted. *)
Theorem C149_aligned_refuted :
  (exists v w : given Q, SamePlaces v w /\ validate_arrays Q [v; w] = Err ValueError) /\
  (exists v w : given Q, shape_of Q v = shape_of Q w /\ ~ SamePlaces v w /\ validate_arrays Q [v; w] = Ok tt).
Proof. exact C149_aligned_refuted_proof. Qed.
Print Assumptions C149_aligned_refuted.

(** C149: functions beyond the number of arrays are ignored; with fewer functions than arrays there are no values at all. *)
Theorem C149_functions : forall gen randint seed_gen A B (arrays : list (given A)) (funcs more : list (array A -> res (list B)))
    g num_iterations batch num_threads cpu_count seeds block_length,
  let run fs := distribution A B gen randint seed_gen arrays fs g num_iterations batch num_threads cpu_count seeds block_length in
  (List.length arrays <= List.length funcs -> run (funcs ++ more) = run funcs) /\
  (forall results, List.length funcs < List.length arrays -> run funcs = Ok results -> Forall (fun row => row = []) results).
Proof. exact C149_functions_proof. Qed.
Print Assumptions C149_functions.
