(** The bootstrap of several arrays at once, metcalcpy/bootstrap.py: which arrays are accepted, and the resampling of all of them.  The draws and
    blocks are those of BootModel.v.  numpy is 1.24, as required by the project. *)
From Coq Require Import List Arith.
From Verif Require Import PyBase EclvModel BootModel.
Import ListNotations.
Local Open Scope nat_scope.

Section Arrays.
(** Records of the arrays (numbers, or rows of numbers of one shape), and values of the statistics. *)
Variables A B : Type.

(** What can be given as an array: numpy's with the shape of its records, scipy's csr_matrix with its stored entries (each place once; a stored
    entry can be zero), or anything else. *)
Inductive given : Type :=
| Dense (tail : list nat) (rows : list A)
| Sparse (nrows ncols : nat) (stored : list ((nat * nat) * Q))
| Otherwise.
Definition shape_of (v : given) : list nat :=
  match v with Dense tail rows => List.length rows :: tail | Sparse r c _ => [r; c] | Otherwise => [] end.
Definition shape_eqb (a b : list nat) : bool := if list_eq_dec Nat.eq_dec a b then true else false.

(** bootstrap.py 553-566, [_needs_sparse_unification]: the size of the union of all places with numbers other than zero is compared with the
    number of stored entries of each matrix. *)
Definition pair_dec : forall a b : nat * nat, {a = b} + {a <> b}.
Proof. decide equality; apply Nat.eq_dec. Defined.
Definition nonzero_places (v : given) : list (nat * nat) :=
  match v with Sparse _ _ stored => map fst (filter (fun e => negb (Qeq_bool (snd e) 0)) stored) | _ => [] end.
Definition stored_size (v : given) : nat := match v with Sparse _ _ stored => List.length stored | _ => 0 end.
Definition needs_sparse_unification (l : list given) : bool :=
  let size := List.length (nodup pair_dec (flat_map nonzero_places l)) in
  existsb (fun v => negb (Nat.eqb size (stored_size v))) l.

(** bootstrap.py 528-550, [_validate_arrays]; [values_lists[0]] of no arrays is an IndexError. *)
Fixpoint validate_rest (t : given) (l : list given) : res unit :=
  match l with
  | [] => Ok tt
  | v :: rest =>
      match t, v with
      | Dense _ _, Dense _ _ => if shape_eqb (shape_of t) (shape_of v) then validate_rest t rest else Err ValueError
      | Sparse _ _ _, Sparse r _ _ =>
          if shape_eqb (shape_of t) (shape_of v) then if Nat.ltb 1 r then Err ValueError else validate_rest t rest else Err ValueError
      | _, _ => Err ValueError
      end
  end.
Definition validate_arrays (l : list given) : res unit :=
  match l with
  | [] => Err IndexError
  | Otherwise :: _ => Err ValueError
  | Dense tail rows :: rest => validate_rest (Dense tail rows) rest
  | Sparse r c stored :: rest =>
      _ <- validate_rest (Sparse r c stored) rest ;;
      if needs_sparse_unification l then Err ValueError else Ok tt
  end.

Section Draw.
Variable gen : Type.
Variable randint : gen -> nat -> nat * gen.
Variable seed_gen : Z -> gen.
Variable arrays : list given.
Variable funcs : list (array A -> res (list B)).

(** bootstrap.py 505: [values[ids]]; scipy refuses an index of two dimensions for a csr_matrix with an IndexError. *)
Definition pick (v : given) (ids : list (list nat)) : res (list (list A)) :=
  match v with
  | Dense _ rows => map_res (take A rows) ids
  | Sparse _ _ _ => Err IndexError
  | Otherwise => Err TypeError
  end.
(** bootstrap.py 469-506, [_generate_distributions_cbb]: one set of indexes for all arrays. *)
Definition generate (g : gen) (num_iterations block_length : Z) : res (list (list (list A)) * gen) :=
  match arrays with
  | [] => Err IndexError
  | first :: _ =>
      match shape_of first with
      | [] => Err IndexError
      | n :: _ =>
          if (num_iterations <? 0)%Z then Err ValueError
          else
            let '(ids, g) := draw_matrix gen randint g n (Z.to_nat num_iterations) in
            ids <- (if (1 <? block_length)%Z then map_res (apply_cbb (Z.to_nat block_length)) ids else Ok ids) ;;
            sims <- map_res (fun v => pick v ids) arrays ;;
            Ok (sims, g)
      end
  end.
(** bootstrap.py 462-464: results of the arrays that have a function. *)
Fixpoint extend (results : list (list B)) (sims : list (list (list A))) (fs : list (array A -> res (list B))) : res (list (list B)) :=
  match results, sims, fs with
  | r :: results, s :: sims, f :: fs => x <- f (Samples s) ;; t <- extend results sims fs ;; Ok ((r ++ x) :: t)
  | _, _, _ => Ok results
  end.
(** bootstrap.py 457-464. *)
Fixpoint loop (g : gen) (num_iterations batch block_length : Z) (rngs : list Z) (results : list (list B)) : res (list (list B)) :=
  match rngs with
  | [] => Ok results
  | rng :: rest =>
      d <- generate g (Z.min batch (num_iterations - rng)) block_length ;;
      let '(sims, g) := d in
      results <- extend results sims funcs ;;
      loop g num_iterations batch block_length rest results
  end.
(** bootstrap.py 423-466, [_bootstrap_sim_cbb]; [np.array] of lists of different lengths is a ValueError. *)
Definition same_lengths (l : list (list B)) : bool :=
  match l with [] => true | r :: rest => forallb (fun x => Nat.eqb (List.length x) (List.length r)) rest end.
Definition simulate (g : gen) (num_iterations batch block_length : Z) : res (list (list B)) :=
  rngs <- py_range num_iterations batch ;;
  results <- loop g num_iterations batch block_length rngs (map (fun _ => []) arrays) ;;
  if same_lengths results then Ok results else Err ValueError.
(** [np.hstack] of the results of the jobs, which all have as many rows. *)
Fixpoint append_rows (a b : list (list B)) : list (list B) :=
  match a, b with x :: a', y :: b' => (x ++ y) :: append_rows a' b' | _, _ => a end.
Definition hstack (l : list (list (list B))) : list (list B) :=
  match l with [] => [] | r :: rest => fold_left append_rows rest r end.
(** bootstrap.py 172-240, [_bootstrap_distribution_cbb]; jobs run one after the other, see BootModel.v. *)
Definition distribution (g : gen) (num_iterations : Z) (iteration_batch_size : option Z) (num_threads cpu_count : Z) (seeds : list Z)
  (block_length : Z) : res (list (list B)) :=
  _ <- validate_arrays arrays ;;
  let batch := match iteration_batch_size with Some b => b | None => num_iterations end in
  let num_threads := if (num_threads =? -1)%Z then cpu_count else num_threads in
  if (num_threads <=? 1)%Z then simulate g num_iterations batch block_length
  else
    let iter_per_job := (- ((- num_iterations) / num_threads))%Z in
    rs <- map_res (fun seed => simulate (seed_gen seed) iter_per_job batch block_length) (firstn (Z.to_nat num_threads) seeds) ;;
    Ok (hstack rs).
End Draw.
End Arrays.
Arguments Dense {A} tail rows.
Arguments Sparse {A} nrows ncols stored.
Arguments Otherwise {A}.

(** bootstrap.py 569-584, [mean] and [sum] of arrays of numbers: data are one row.  The mean of an empty row is NaN, which is not modelled. *)
Definition row_total (l : list Q) : Q := fold_right Qplus 0%Q l.
Definition sum_rows (a : array Q) : res (list Q) := match a with Data l => Ok [row_total l] | Samples l => Ok (map row_total l) end.
Definition row_mean (l : list Q) : res Q := match l with [] => Err NotModelled | _ => Ok (row_total l / inject_Z (Z.of_nat (List.length l)))%Q end.
Definition mean_rows (a : array Q) : res (list Q) := match a with Data l => x <- row_mean l ;; Ok [x] | Samples l => map_res row_mean l end.
