(** Model of the bootstrap, metcalcpy/bootstrap.py. *)
From Verif Require Import PyBase EclvModel.
Local Open Scope nat_scope.

(** metcalcpy/bootstrap.py 482-500, the loop of [apply_cbb]: [row] is overwritten position by
    position, so every [val] read is still the drawn one; [n] is [len(row)]. *)
Fixpoint cbb_loop (n block_length counter init_val : nat) (row : list nat) : list nat :=
  match row with
  | [] => []
  | val :: rest =>
      let init_val := if counter =? 0 then val else init_val in
      let here :=
        if counter =? 0 then val
        else let new_val := init_val + counter in
             if n - 1 <? new_val then new_val - n else new_val in
      let counter := counter + 1 in
      let counter := if counter =? block_length then 0 else counter in
      here :: cbb_loop n block_length counter init_val rest
  end.

(** metcalcpy/bootstrap.py 477-500, [apply_cbb]; [row[0]] of an empty row is an IndexError. *)
Definition apply_cbb (block_length : nat) (row : list nat) : res (list nat) :=
  match row with
  | [] => Err IndexError
  | first :: _ => Ok (cbb_loop (length row) block_length 0 first row)
  end.

Fixpoint map_res {A B} (f : A -> res B) (l : list A) : res (list B) :=
  match l with
  | [] => Ok []
  | x :: t => y <- f x ;; ys <- map_res f t ;; Ok (y :: ys)
  end.

(** Arrays given to a statistic: the data itself, or a stack of resamples. *)
Inductive array (A : Type) : Type :=
| Data (rows : list A)
| Samples (l : list (list A)).
Arguments Data {A} rows.
Arguments Samples {A} l.

Section Bootstrap.
(** The global random generator of numpy: [randint g n] draws a number below [n].
    [np.random.choice] fills its matrix row by row with consecutive draws. *)
Variable gen : Type.
Variable randint : gen -> nat -> nat * gen.
Variable seed_gen : Z -> gen.

Fixpoint draw_row (g : gen) (n k : nat) : list nat * gen :=
  match k with
  | 0 => ([], g)
  | S k' => let '(x, g) := randint g n in let '(l, g) := draw_row g n k' in (x :: l, g)
  end.
Fixpoint draw_matrix (g : gen) (n k : nat) : list (list nat) * gen :=
  match k with
  | 0 => ([], g)
  | S k' => let '(x, g) := draw_row g n n in let '(l, g) := draw_matrix g n k' in (x :: l, g)
  end.

Variables A S : Type.
Variable values : list A.
Variable stat_func : array A -> res (list S).

(** [values[ids]]; an index out of range is an IndexError. *)
Definition take (ids : list nat) : res (list A) :=
  map_res (fun i => match nth_error values i with Some r => Ok r | None => Err IndexError end) ids.

(** metcalcpy/bootstrap.py 469-506, [_generate_distributions_cbb] for one array.
    A negative number of iterations is a ValueError of [np.random.choice]. *)
Definition generate_distributions_cbb (g : gen) (num_iterations block_length : Z) : res (list (list A) * gen) :=
  if (num_iterations <? 0)%Z then Err ValueError
  else
    let '(ids, g) := draw_matrix g (length values) (Z.to_nat num_iterations) in
    ids <- (if (1 <? block_length)%Z then map_res (apply_cbb (Z.to_nat block_length)) ids else Ok ids) ;;
    sims <- map_res take ids ;;
    Ok (sims, g).

(** metcalcpy/bootstrap.py 455-464: one turn of the loop per element of [range(0, N, B)]. *)
Fixpoint sim_loop (g : gen) (num_iterations batch block_length : Z) (rngs : list Z) (results : list S)
  : res (list S * gen) :=
  match rngs with
  | [] => Ok (results, g)
  | rng :: rest =>
      let max_rng := Z.min batch (num_iterations - rng) in
      d <- generate_distributions_cbb g max_rng block_length ;;
      let '(sims, g) := d in
      r <- stat_func (Samples sims) ;;
      sim_loop g num_iterations batch block_length rest (results ++ r)
  end.

(** [range(0, stop, step)]. *)
Definition py_range (stop step : Z) : res (list Z) :=
  if (step =? 0)%Z then Err ValueError
  else
    let count := if (0 <? step)%Z then ((stop + step - 1) / step)%Z
                 else ((- stop + - step - 1) / - step)%Z in
    Ok (map (fun i => (Z.of_nat i * step)%Z) (seq 0 (Z.to_nat count))).

(** metcalcpy/bootstrap.py 423-466, [_bootstrap_sim_cbb]. *)
Definition bootstrap_sim_cbb (g : gen) (num_iterations batch block_length : Z) : res (list S * gen) :=
  rngs <- py_range num_iterations batch ;;
  sim_loop g num_iterations batch block_length rngs [].

(** metcalcpy/bootstrap.py 172-240, [_bootstrap_distribution_cbb].  The worker processes are
    seeded and independent, so they are run one after the other; [seeds] are the numbers drawn
    for them (one per thread).  [iter_per_job] is [np.ceil(N / T)]. *)
Definition bootstrap_distribution_cbb (g : gen) (num_iterations : Z) (iteration_batch_size : option Z)
  (num_threads cpu_count : Z) (seeds : list Z) (block_length : Z) : res (list S) :=
  let batch := match iteration_batch_size with Some b => b | None => num_iterations end in
  let num_threads := if (num_threads =? -1)%Z then cpu_count else num_threads in
  if (num_threads <=? 1)%Z then
    r <- bootstrap_sim_cbb g num_iterations batch block_length ;;
    Ok (fst r)
  else
    let iter_per_job := (- ((- num_iterations) / num_threads))%Z in
    rs <- map_res (fun seed => bootstrap_sim_cbb (seed_gen seed) iter_per_job batch block_length)
            (firstn (Z.to_nat num_threads) seeds) ;;
    Ok (concat (map fst rs)).
End Bootstrap.

Local Open Scope Q_scope.

(** numpy's [percentile(l, q, method='linear')] of a list without [None]: the value at position
    [(n-1) * q/100] of the sorted list, linearly interpolated.  Empty input is an IndexError. *)
Definition percentile (l : list Q) (q : Q) : res Q :=
  if negb (Qle_bool 0 q && Qle_bool q 100) then Err ValueError
  else
    let s := sortQ l in
    let n := Z.of_nat (length s) in
    let v := inject_Z (n - 1) * (q / 100) in
    let previous := Qfloor v in
    let next := Z.min (previous + 1) (n - 1) in
    let gamma := v - inject_Z previous in
    match nth_error s (Z.to_nat previous), nth_error s (Z.to_nat next) with
    | Some a, Some b => Ok (a + (b - a) * gamma)
    | _, _ => Err IndexError
    end.

(** [elements[elements != np.array([None])]]. *)
Fixpoint not_none {A : Type} (l : list (option A)) : list A :=
  match l with
  | [] => []
  | Some q :: t => q :: not_none t
  | None :: t => not_none t
  end.

(** [np.percentile] of an object array: a [None] cannot be ordered. *)
Definition percentile_any (l : list pyval) (q : Q) : res Q :=
  if negb (Qle_bool 0 q && Qle_bool q 100) then Err ValueError
  else if existsb (fun x => match x with None => true | _ => false end) l then Err TypeError
  else percentile (not_none l) q.

(** [len(np.unique(l)) == 1]. *)
Definition one_value (l : list Q) : bool :=
  match l with
  | [] => false
  | x :: t => forallb (Qeq_bool x) t
  end.

(** metcalcpy/bootstrap.py 509-525, [_all_the_same]. *)
Definition all_the_same (elements : list pyval) : bool :=
  match elements with
  | [] => true
  | _ => one_value (not_none elements)
  end.

(** metcalcpy/bootstrap.py 24-35: the two limits and the value. *)
Record results : Type := Results {
  lower_bound : pyval;
  value : pyval;
  upper_bound : pyval
}.

(** metcalcpy/bootstrap.py 25-33: limits in the wrong order are exchanged; comparing with [None]
    is a TypeError, which is ignored. *)
Definition BootstrapResults (low val high : pyval) : results :=
  match low, high with
  | Some l, Some h => if Qlt_bool h l then Results high val low else Results low val high
  | _, _ => Results low val high
  end.

(** metcalcpy/bootstrap.py 310-350, [_get_confidence_interval_and_value]. *)
Inductive ci_method : Type := Pivotal | Perc | OtherMethod.

Definition get_confidence_interval_and_value (bootstrap_dist : list pyval) (stat_val : pyval)
  (alpha : Q) (method : ci_method) : res results :=
  match stat_val with
  | None => Ok (BootstrapResults None None None)
  | Some v =>
      match method with
      | Pivotal =>
          p <- percentile_any bootstrap_dist (100 * (1 - alpha / 2)) ;;
          q <- percentile_any bootstrap_dist (100 * (alpha / 2)) ;;
          Ok (BootstrapResults (Some (2 * v - p)) (Some v) (Some (2 * v - q)))
      | Perc =>
          if all_the_same bootstrap_dist then Ok (BootstrapResults None (Some v) None)
          else
            let bd := not_none bootstrap_dist in
            low <- percentile bd (100 * (alpha / 2)) ;;
            high <- percentile bd (100 * (1 - alpha / 2)) ;;
            Ok (BootstrapResults (Some low) (Some v) (Some high))
      | OtherMethod => Ok (BootstrapResults None None None)
      end
  end.

(** metcalcpy/bootstrap.py 78-79, [is_significant], and 81-87, [get_result].  [np.sign(None)] is
    a TypeError. *)
Definition np_sign (x : pyval) : res Z :=
  match x with
  | None => Err TypeError
  | Some q => Ok (Z.sgn (Qnum q))
  end.
Definition is_significant (r : results) : res bool :=
  u <- np_sign (upper_bound r) ;;
  l <- np_sign (lower_bound r) ;;
  Ok (Z.eqb u l).
Definition get_result (r : results) : res Z :=
  s <- is_significant r ;;
  v <- np_sign (value r) ;;
  Ok ((if s then 1 else 0) * v)%Z.

(** metcalcpy/bootstrap.py 67-69, [error_width]. *)
Definition error_width (r : results) : res pyval := Ok (upper_bound r) [-] Ok (lower_bound r).

(** metcalcpy/bootstrap.py 353-411, [_get_confidence_interval_and_value_eclv].
    A statistic is [None] or the pair of its lists ['cl'] and ['V'].  [np.array] of lists of
    different lengths is a ValueError; of no list, one-dimensional (IndexError on [[:, ind]]). *)
Record eclv_results : Type := EclvResults {
  eclv_lower : option (list pyval);
  eclv_value : option (list Q * list pyval);
  eclv_upper : option (list pyval)
}.

Definition same_lengths {A} (l : list (list A)) : bool :=
  match l with
  | [] => true
  | x :: t => forallb (fun y => Nat.eqb (length x) (length y)) t
  end.

(** [all_values_np[:, ind]]. *)
Definition column_of (rows : list (list pyval)) (ind : nat) : res (list pyval) :=
  match rows with
  | [] => Err IndexError
  | _ => map_res (fun r => match nth_error r ind with Some c => Ok c | None => Err IndexError end) rows
  end.

(** bootstrap.py 382-402: the limits of one cost/loss point.  [2 * stat_val] of a dictionary is a
    TypeError, raised after the percentile. *)
Definition eclv_limits (column : list pyval) (none_in_values : bool) (alpha : Q) (method : ci_method)
  : res (pyval * pyval) :=
  match method with
  | Pivotal => Err TypeError
  | Perc =>
      if all_the_same column then Ok (None, None)
      else if none_in_values then
        low <- percentile_any column (100 * (alpha / 2)) ;;
        high <- percentile_any column (100 * (1 - alpha / 2)) ;;
        Ok (Some low, Some high)
      else Ok (None, None)
  | OtherMethod => Ok (None, None)
  end.

(** [low > high] of two Python lists: the first position where they differ decides; a number and
    [None] cannot be compared. *)
Fixpoint list_gt (a b : list pyval) : res bool :=
  match a, b with
  | [], _ => Ok false
  | _ :: _, [] => Ok true
  | x :: a', y :: b' =>
      match x, y with
      | None, None => list_gt a' b'
      | Some p, Some q => if Qeq_bool p q then list_gt a' b' else Ok (Qlt_bool q p)
      | _, _ => Err TypeError
      end
  end.

Definition get_confidence_interval_and_value_eclv (bootstrap_dist : list (option (list Q * list pyval)))
  (stat_val : option (list Q * list pyval)) (alpha : Q) (method : ci_method) : res eclv_results :=
  match stat_val with
  | None => Ok (EclvResults None None None)
  | Some (cl, v) =>
      let all_values := map snd (not_none bootstrap_dist) in
      if negb (same_lengths all_values) then Err ValueError
      else
        let none_in_values := existsb (fun x => match x with None => true | _ => false end) v in
        limits <- map_res (fun ind => column <- column_of all_values ind ;;
                                      eclv_limits column none_in_values alpha method)
                    (seq 0 (length cl)) ;;
        let low := map fst limits in
        let high := map snd limits in
        swap <- catch [TypeError] (list_gt low high) false ;;
        Ok (if swap then EclvResults (Some high) stat_val (Some low)
            else EclvResults (Some low) stat_val (Some high))
  end.
