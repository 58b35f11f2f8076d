(** C21, C22 and C23: bootstrap resampling and confidence limits. *)
From Coq Require Import Permutation.
From Verif Require Import PyBase EclvModel BootModel BootSpec BootProofs.
Open Scope Q_scope.

(** C21: for every random source whose draws are in range, every data set, block length, batch
    size and number of threads, the distribution is the statistic of that many block resamples. *)
Theorem C21_block_resamples :
  forall (gen : Type) (randint : gen -> nat -> nat * gen) (seed_gen : Z -> gen)
         (A S : Type) (values : list A) (stat_func : array A -> res (list S)) (f : list A -> S)
         (g : gen) (num_iterations : Z) (batch : option Z) (num_threads cpu_count : Z) (seeds : list Z)
         (block_length : Z),
  (forall g n, (0 < n)%nat -> (fst (randint g n) < n)%nat) ->
  (forall l, stat_func (Samples l) = Ok (map f l)) ->
  values <> [] -> (0 < num_iterations)%Z ->
  match batch with Some b => (0 < b)%Z | None => True end ->
  (num_threads <= Z.of_nat (length seeds) /\ cpu_count <= Z.of_nat (length seeds))%Z ->
  exists samples,
    bootstrap_distribution_cbb gen randint seed_gen A S values stat_func g num_iterations batch
      num_threads cpu_count seeds block_length = Ok (map f samples) /\
    Forall (BlockResample (Nat.max 1 (Z.to_nat block_length)) values) samples.
Proof.
  exact C21_block_resamples_proof.
Qed.
Print Assumptions C21_block_resamples.

(** C21: the rule inside one resample: position [p] holds the first draw of its block plus the
    distance from the start of the block, modulo the number of cases. *)
Theorem C21_block_rule : forall block_length row out,
  (1 < block_length)%nat -> (forall x, In x row -> (x < length row)%nat) ->
  apply_cbb block_length row = Ok out ->
  length out = length row /\
  forall p s, nth_error row (p - p mod block_length) = Some s -> (p < length row)%nat ->
    nth_error out p = Some ((s + p mod block_length) mod length row)%nat.
Proof.
  exact C21_block_rule_proof.
Qed.
Print Assumptions C21_block_rule.

(** C21: with blocks of length 1 or less the cases are the drawn ones, unchanged. *)
Theorem C21_independent_draws :
  forall (gen : Type) (randint : gen -> nat -> nat * gen) (A : Type) (values : list A) (g : gen) (k block_length : Z)
         (ids : list (list nat)) (g' : gen),
  (0 <= k)%Z -> (block_length <= 1)%Z ->
  length ids = Z.to_nat k -> (forall row, In row ids -> length row = length values) -> Drawn randint (length values) g (concat ids) g' ->
  (forall row x, In row ids -> In x row -> (x < length values)%nat) ->
  exists samples, generate_distributions_cbb gen randint A values g k block_length = Ok (samples, g') /\
    Forall2 (fun row sample => Forall2 (fun i c => nth_error values i = Some c) row sample) ids samples.
Proof.
  exact C21_independent_draws_proof.
Qed.
Print Assumptions C21_independent_draws.

(** Blocks of 3 in a row of 7 drawn positions. *)
Example C21_case :
  apply_cbb 3 [5; 0; 2; 6; 1; 1; 4]%nat = Ok [5; 6; 0; 6; 0; 1; 4]%nat /\
  (forall x, In x [5; 0; 2; 6; 1; 1; 4]%nat -> (x < 7)%nat).
Proof. exact C21_case_proof. Qed.

(** C23: with one thread there are exactly as many resamples as requested. *)
Theorem C23_exact_count :
  forall (gen : Type) (randint : gen -> nat -> nat * gen) (seed_gen : Z -> gen)
         (A S : Type) (values : list A) (stat_func : array A -> res (list S)) (f : list A -> S)
         (g : gen) (num_iterations : Z) (batch : option Z) (num_threads cpu_count : Z) (seeds : list Z)
         (block_length : Z) (dist : list S),
  (forall l, stat_func (Samples l) = Ok (map f l)) ->
  (0 <= num_iterations)%Z -> match batch with Some b => (0 < b)%Z | None => True end ->
  (num_threads <= 1 /\ num_threads <> -1)%Z ->
  bootstrap_distribution_cbb gen randint seed_gen A S values stat_func g num_iterations batch
    num_threads cpu_count seeds block_length = Ok dist ->
  Z.of_nat (length dist) = num_iterations.
Proof.
  exact C23_exact_count_proof.
Qed.
Print Assumptions C23_exact_count.

(** C23: and the batch size does not change the distribution at all. *)
Theorem C23_batch_size_irrelevant :
  forall (gen : Type) (randint : gen -> nat -> nat * gen) (seed_gen : Z -> gen)
         (A S : Type) (values : list A) (stat_func : array A -> res (list S)) (f : list A -> S)
         (g : gen) (num_iterations batch : Z) (cpu_count : Z) (seeds : list Z) (block_length : Z),
  (forall l, stat_func (Samples l) = Ok (map f l)) ->
  (0 < num_iterations)%Z -> (0 < batch)%Z ->
  bootstrap_distribution_cbb gen randint seed_gen A S values stat_func g num_iterations (Some batch)
    1 cpu_count seeds block_length =
  bootstrap_distribution_cbb gen randint seed_gen A S values stat_func g num_iterations None
    1 cpu_count seeds block_length.
Proof.
  exact C23_batch_size_irrelevant_proof.
Qed.
Print Assumptions C23_batch_size_irrelevant.

(** C23: with several threads the number of resamples is the number of threads times the share of
    one thread rounded up. *)
Theorem C23_threads_round_up :
  forall (gen : Type) (randint : gen -> nat -> nat * gen) (seed_gen : Z -> gen)
         (A S : Type) (values : list A) (stat_func : array A -> res (list S)) (f : list A -> S)
         (g : gen) (num_iterations : Z) (batch : option Z) (num_threads cpu_count : Z) (seeds : list Z)
         (block_length : Z) (dist : list S),
  (forall l, stat_func (Samples l) = Ok (map f l)) ->
  (0 <= num_iterations)%Z -> match batch with Some b => (0 < b)%Z | None => True end ->
  (1 < num_threads)%Z -> Z.of_nat (length seeds) = num_threads ->
  bootstrap_distribution_cbb gen randint seed_gen A S values stat_func g num_iterations batch
    num_threads cpu_count seeds block_length = Ok dist ->
  exists share, IsCeiling num_iterations num_threads share /\
                Z.of_nat (length dist) = (num_threads * share)%Z.
Proof.
  exact C23_threads_round_up_proof.
Qed.
Print Assumptions C23_threads_round_up.

(** Finding: so with several threads more resamples than requested can be made. *)
Theorem C23_threads_exact_refuted :
  ~ (forall (gen : Type) (randint : gen -> nat -> nat * gen) (seed_gen : Z -> gen)
            (A S : Type) (values : list A) (stat_func : array A -> res (list S)) (f : list A -> S)
            (g : gen) (num_iterations : Z) (num_threads cpu_count : Z) (seeds : list Z) (dist : list S),
     (forall l, stat_func (Samples l) = Ok (map f l)) ->
     (0 < num_iterations)%Z -> (0 < num_threads)%Z -> Z.of_nat (length seeds) = num_threads ->
     bootstrap_distribution_cbb gen randint seed_gen A S values stat_func g num_iterations None
       num_threads cpu_count seeds 1 = Ok dist ->
     Z.of_nat (length dist) = num_iterations).
Proof.
  exact C23_threads_exact_refuted_proof.
Qed.
Print Assumptions C23_threads_exact_refuted.

(** Finding: no iterations and no batch size fail with a ValueError. *)
Theorem C23_no_iterations_raises :
  forall (gen : Type) (randint : gen -> nat -> nat * gen) (seed_gen : Z -> gen)
         (A S : Type) (values : list A) (stat_func : array A -> res (list S)) (g : gen)
         (cpu_count : Z) (seeds : list Z) (block_length : Z),
  bootstrap_distribution_cbb gen randint seed_gen A S values stat_func g 0 None 1 cpu_count seeds block_length
  = Err ValueError.
Proof.
  exact C23_no_iterations_raises_proof.
Qed.
Print Assumptions C23_no_iterations_raises.

(** A simple source of numbers; 5 resamples of 4 cases in blocks of 3 and batches of 2. *)
Example C23_case :
  let randint := (fun g n => (g mod n, (7 * g + 3) mod 11))%nat in
  let f := fun l : list nat => fold_right plus 0%nat l in
  let stat := fun a => match a with Samples l => Ok (map f l) | Data r => Ok [f r] end in
  bootstrap_distribution_cbb nat randint (fun _ => 0%nat) nat nat [10; 20; 40; 80]%nat stat 1%nat 5 (Some 2%Z)
    1 4 [] 3
  = Ok [150; 150; 170; 130; 110]%nat.
Proof. exact C23_case_proof. Qed.

(** C22: the percentile limits are the quantiles of order alpha/2 and 1 - alpha/2 of the
    resampled statistics that are not missing. *)
Theorem C22_percentile_limits : forall dist stat_val alpha x y,
  In (Some x) dist -> In (Some y) dist -> ~ x == y -> 0 <= alpha <= 1 ->
  exists low high,
    get_confidence_interval_and_value dist (Some stat_val) alpha Perc =
      Ok (Results (Some low) (Some stat_val) (Some high)) /\
    Quantile (known dist) (alpha / 2) low /\ Quantile (known dist) (1 - alpha / 2) high.
Proof.
  exact C22_percentile_limits_proof.
Qed.
Print Assumptions C22_percentile_limits.

(** C22: the pivotal limits reflect the same quantiles around the statistic. *)
Theorem C22_pivotal_limits : forall l stat_val alpha,
  l <> [] -> 0 <= alpha <= 1 ->
  exists low high p q,
    get_confidence_interval_and_value (map Some l) (Some stat_val) alpha Pivotal =
      Ok (Results (Some low) (Some stat_val) (Some high)) /\
    Quantile l (alpha / 2) p /\ Quantile l (1 - alpha / 2) q /\
    low == 2 * stat_val - q /\ high == 2 * stat_val - p.
Proof.
  exact C22_pivotal_limits_proof.
Qed.
Print Assumptions C22_pivotal_limits.

(** Finding: one missing resample makes the pivotal limits fail. *)
Theorem C22_pivotal_missing_raises : forall dist stat_val alpha,
  In None dist -> 0 <= alpha <= 1 ->
  get_confidence_interval_and_value dist (Some stat_val) alpha Pivotal = Err TypeError.
Proof.
  exact C22_pivotal_missing_raises_proof.
Qed.
Print Assumptions C22_pivotal_missing_raises.

(** C22: quantiles are determined up to equality of numbers, grow with their order and stay
    between the smallest and the largest member. *)
Theorem C22_quantile_monotone : forall l f f' p p',
  Quantile l f p -> Quantile l f' p' -> f <= f' -> p <= p'.
Proof.
  exact C22_quantile_monotone_proof.
Qed.
Print Assumptions C22_quantile_monotone.

Theorem C22_quantile_bounded : forall l f p,
  Quantile l f p -> exists a b, In a l /\ In b l /\ a <= p <= b.
Proof.
  exact C22_quantile_bounded_proof.
Qed.
Print Assumptions C22_quantile_bounded.

(** C22: the limits of both methods are ordered, whatever the data and alpha. *)
Theorem C22_limits_ordered : forall dist stat_val alpha method low v high,
  get_confidence_interval_and_value dist stat_val alpha method = Ok (Results (Some low) v (Some high)) ->
  low <= high /\ v = stat_val.
Proof.
  exact C22_limits_ordered_proof.
Qed.
Print Assumptions C22_limits_ordered.

(** C22: percentile limits lie between resampled values. *)
Theorem C22_limits_in_range : forall dist stat_val alpha low v high,
  get_confidence_interval_and_value dist stat_val alpha Perc = Ok (Results (Some low) v (Some high)) ->
  exists a b, In (Some a) dist /\ In (Some b) dist /\ a <= low /\ high <= b.
Proof.
  exact C22_limits_in_range_proof.
Qed.
Print Assumptions C22_limits_in_range.

(** C22: a smaller alpha gives an interval that contains the one of a larger alpha. *)
Theorem C22_nested : forall dist stat_val alpha alpha' low v high low' v' high',
  0 <= alpha -> alpha <= alpha' -> alpha' <= 1 ->
  get_confidence_interval_and_value dist stat_val alpha Perc = Ok (Results (Some low) v (Some high)) ->
  get_confidence_interval_and_value dist stat_val alpha' Perc = Ok (Results (Some low') v' (Some high')) ->
  low <= low' /\ high' <= high.
Proof.
  exact C22_nested_proof.
Qed.
Print Assumptions C22_nested.

(** C22: neither the order of the resamples nor missing ones matter. *)
Theorem C22_order_irrelevant : forall dist dist' stat_val alpha r,
  Permutation (known dist) (known dist') -> known dist <> [] ->
  get_confidence_interval_and_value dist (Some stat_val) alpha Perc = Ok r ->
  exists r', get_confidence_interval_and_value dist' (Some stat_val) alpha Perc = Ok r' /\
    value r' = value r /\
    match lower_bound r, lower_bound r' with Some a, Some b => a == b | None, None => True | _, _ => False end /\
    match upper_bound r, upper_bound r' with Some a, Some b => a == b | None, None => True | _, _ => False end.
Proof.
  exact C22_order_irrelevant_proof.
Qed.
Print Assumptions C22_order_irrelevant.

(** C22: resamples that all agree give no limits, as documented. *)
Theorem C22_constant_no_limits : forall dist stat_val alpha x,
  In (Some x) dist -> (forall y, In (Some y) dist -> y == x) ->
  get_confidence_interval_and_value dist (Some stat_val) alpha Perc = Ok (Results None (Some stat_val) None).
Proof.
  exact C22_constant_no_limits_proof.
Qed.
Print Assumptions C22_constant_no_limits.

(** C22: an undefined statistic gives no limits. *)
Theorem C22_undefined_statistic : forall dist alpha method,
  get_confidence_interval_and_value dist None alpha method = Ok (Results None None None).
Proof.
  exact C22_undefined_statistic_proof.
Qed.
Print Assumptions C22_undefined_statistic.

(** Finding: a defined statistic all of whose resamples are undefined fails with an exception
    instead of having no limits. *)
Theorem C22_all_missing_raises : forall dist stat_val alpha,
  dist <> [] -> (forall x, In x dist -> x = None) ->
  exists e, get_confidence_interval_and_value dist (Some stat_val) alpha Perc = Err e.
Proof.
  exact C22_all_missing_raises_proof.
Qed.
Print Assumptions C22_all_missing_raises.

(** C22: alpha outside [0, 2] fails when there are limits to compute. *)
Theorem C22_bad_alpha : forall dist stat_val alpha x y,
  In (Some x) dist -> In (Some y) dist -> ~ x == y -> alpha < 0 \/ 2 < alpha ->
  get_confidence_interval_and_value dist (Some stat_val) alpha Perc = Err ValueError.
Proof.
  exact C22_bad_alpha_proof.
Qed.
Print Assumptions C22_bad_alpha.

(** C22: the reported sign is that of an interval around the statistic that excludes zero. *)
Theorem C22_significance : forall low v high,
  low <= v <= high -> ~ v == 0 ->
  exists s, get_result (Results (Some low) (Some v) (Some high)) = Ok s /\
    (s = 1%Z <-> 0 < low) /\ (s = (-1)%Z <-> high < 0) /\ (s = 0%Z <-> low <= 0 <= high).
Proof.
  exact C22_significance_proof.
Qed.
Print Assumptions C22_significance.

(** Finding: a statistic outside its interval can be reported as significantly negative although
    the whole interval is positive. *)
Theorem C22_significance_refuted :
  ~ (forall r s, get_result r = Ok s -> (s = -1)%Z ->
       forall low high, lower_bound r = Some low -> upper_bound r = Some high -> high < 0).
Proof.
  exact C22_significance_refuted_proof.
Qed.
Print Assumptions C22_significance_refuted.

(** Finding: when every value of the economic value curve is defined - the normal case - no limits
    are computed for it, whatever the resamples. *)
Theorem C22_eclv_no_limits : forall dist cl v alpha r,
  (forall x, In x v -> x <> None) ->
  get_confidence_interval_and_value_eclv dist (Some (cl, v)) alpha Perc = Ok r ->
  eclv_lower r = Some (map (fun _ => None) cl) /\ eclv_upper r = Some (map (fun _ => None) cl).
Proof.
  exact C22_eclv_no_limits_proof.
Qed.
Print Assumptions C22_eclv_no_limits.

(** Such a case: two different resampled curves of two points. *)
Example C22_eclv_case :
  get_confidence_interval_and_value_eclv
    [Some ([1 # 4; 1 # 2], [Some 0; Some (1 # 2)]); Some ([1 # 4; 1 # 2], [Some (1 # 5); Some (1 # 3)])]
    (Some ([1 # 4; 1 # 2], [Some (1 # 10); Some (2 # 5)])) (1 # 20) Perc
  = Ok (EclvResults (Some [None; None]) (Some ([1 # 4; 1 # 2], [Some (1 # 10); Some (2 # 5)])) (Some [None; None])).
Proof. exact C22_eclv_case_proof. Qed.

(** Limits of a small distribution with a missing member. *)
Example C22_case : exists low high,
  get_confidence_interval_and_value [Some 4; None; Some 1; Some 3; Some 2; Some 5] (Some 3) (1 # 5) Perc
    = Ok (Results (Some low) (Some 3) (Some high)) /\ low == 7 # 5 /\ high == 23 # 5.
Proof. exact C22_case_proof. Qed.
