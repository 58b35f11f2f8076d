(** C29 and C30: piecewise linear functions and the forecast decision difficulty index. *)
From Coq Require Import Qabs.
From Verif Require Import PyBase DiffModel DiffSpec DiffProofs.
Open Scope Q_scope.

(** C29: a function is built exactly from at least two nodes with as many values. *)
Theorem C29_construction : forall xs ys l r,
  ((2 <= length xs)%nat /\ length xs = length ys ->
     exists p, PiecewiseLinear xs ys l r = Ok p /\
       x_domain p = xs /\ y_range p = ys /\ left p = l /\ right p = r) /\
  ((length xs < 2)%nat \/ length xs <> length ys -> PiecewiseLinear xs ys l r = Err IncompatibleLengths).
Proof.
  exact C29_construction_proof.
Qed.
Print Assumptions C29_construction.

(** C29: between two neighbouring nodes the function is the straight line through them; in
    particular it reproduces the node values. *)
Theorem C29_line : forall xs ys l r p x0 y0 x1 y1 x,
  PiecewiseLinear xs ys l r = Ok p -> StrictlyAscending xs ->
  Neighbours xs ys x0 y0 x1 y1 -> x0 <= x <= x1 ->
  exists v, interp p (Some x) = Fin v /\ v == line x0 y0 x1 y1 x.
Proof.
  exact C29_line_proof.
Qed.
Print Assumptions C29_line.

Theorem C29_nodes : forall xs ys l r p k x y,
  PiecewiseLinear xs ys l r = Ok p -> StrictlyAscending xs ->
  nth_error xs k = Some x -> nth_error ys k = Some y ->
  exists v, interp p (Some x) = Fin v /\ v == y.
Proof.
  exact C29_nodes_proof.
Qed.
Print Assumptions C29_nodes.

(** C29: every argument of the domain lies between two neighbouring nodes. *)
Theorem C29_covered : forall xs ys l r p first x,
  PiecewiseLinear xs ys l r = Ok p -> StrictlyAscending xs ->
  hd_error xs = Some first -> first <= x -> (exists z, In z xs /\ x <= z) ->
  exists x0 y0 x1 y1, Neighbours xs ys x0 y0 x1 y1 /\ x0 <= x <= x1.
Proof.
  exact C29_covered_proof.
Qed.
Print Assumptions C29_covered.

(** C29: outside the domain the two outside values are returned; a missing argument gives NaN. *)
Theorem C29_outside : forall xs ys l r p x,
  PiecewiseLinear xs ys l r = Ok p ->
  ((forall z, In z xs -> x < z) -> interp p (Some x) = match l with Some q => Fin q | None => Nan end) /\
  ((forall z, In z xs -> z < x) -> interp p (Some x) = match r with Some q => Fin q | None => Nan end) /\
  interp p None = Nan.
Proof.
  exact C29_outside_proof.
Qed.
Print Assumptions C29_outside.

(** C29: values never leave the range of the node values and the two outside values. *)
Theorem C29_range : forall xs ys l r p x v,
  PiecewiseLinear xs ys l r = Ok p -> StrictlyAscending xs -> interp p (Some x) = Fin v ->
  l = Some v \/ r = Some v \/ exists a b, In a ys /\ In b ys /\ a <= v <= b.
Proof.
  exact C29_range_proof.
Qed.
Print Assumptions C29_range.

(** C29: the function is monotone wherever its nodes are. *)
Theorem C29_monotone : forall xs ys l r p x0 y0 x1 y1 x x' v v',
  PiecewiseLinear xs ys l r = Ok p -> StrictlyAscending xs ->
  Neighbours xs ys x0 y0 x1 y1 -> x0 <= x -> x <= x' -> x' <= x1 ->
  interp p (Some x) = Fin v -> interp p (Some x') = Fin v' ->
  (y0 <= y1 -> v <= v') /\ (y1 <= y0 -> v' <= v).
Proof.
  exact C29_monotone_proof.
Qed.
Print Assumptions C29_monotone.

(** C29: the reported maximum is the largest node value. *)
Theorem C29_ymax : forall xs ys l r p,
  PiecewiseLinear xs ys l r = Ok p -> exists m, get_ymax p = Ok m /\ Largest m ys.
Proof.
  exact C29_ymax_proof.
Qed.
Print Assumptions C29_ymax.

(** Finding: unsorted nodes are documented to be rejected, but never are. *)
Theorem C29_unsorted_rejected_refuted :
  ~ (forall xs ys l r p, PiecewiseLinear xs ys l r = Ok p ->
       forall i a b, nth_error xs i = Some a -> nth_error xs (S i) = Some b -> a <= b).
Proof.
  exact C29_unsorted_rejected_refuted_proof.
Qed.
Print Assumptions C29_unsorted_rejected_refuted.

(** Finding: and then the function does not reproduce its node values. *)
Theorem C29_nodes_unsorted_refuted :
  ~ (forall xs ys l r p k x y,
       PiecewiseLinear xs ys l r = Ok p -> nth_error xs k = Some x -> nth_error ys k = Some y ->
       exists v, interp p (Some x) = Fin v /\ v == y).
Proof.
  exact C29_nodes_unsorted_refuted_proof.
Qed.
Print Assumptions C29_nodes_unsorted_refuted.

(** The default envelope at 6 and at 15. *)
Example C29_case : exists p, default_envelope = Ok p /\ StrictlyAscending (x_domain p) /\
  Neighbours (x_domain p) (y_range p) 3 0 9 (3 # 2) /\
  (exists v, interp p (Some 6) = Fin v /\ v == 3 # 4) /\
  (exists v, interp p (Some 15) = Fin v /\ v == 1) /\ interp p (Some 30) = Fin 0.
Proof. exact C29_case_proof. Qed.

(** C30: for positive means and spreads the index of every grid point is the documented one. *)
Theorem C30_index : forall shape sig mu fields k tt threshold p ref ut u,
  Forall (fun s => 0 < s) sig -> Forall (fun m => 0 < m) mu ->
  length sig = length mu -> length sig = length fields -> sig <> [] ->
  Forall (fun f => length f = k) fields -> (0 < k)%nat ->
  ~ In tt [TInt64; TOther] -> ~ In ut [TInt64; TOther] -> single_precision <= ref -> 0 <= u <= 1 ->
  exists l largest,
    difficulty_index (Array2 shape (map Some sig)) (MArray (Array2 shape (map Some mu))) tt threshold
      (Array3 shape k (map (map Some) fields)) p ref ut u = Ok l /\
    Largest largest (ref :: map (fun x => fst x / snd x) (combine sig mu)) /\ length l = length sig /\
    forall i s m f, nth_error sig i = Some s -> nth_error mu i = Some m -> nth_error fields i = Some f ->
      (forall t, interp p (Some m) = Fin t ->
         exists d, nth_error l i = Some (Fin d) /\
                   d == index_formula t (s / m) largest u (fraction_below threshold f)) /\
      (interp p (Some m) = Nan -> nth_error l i = Some Nan).
Proof.
  exact C30_index_proof.
Qed.
Print Assumptions C30_index.

(** C30: the documented index lies between zero and the taper. *)
Theorem C30_formula_bounds : forall taper spread largest u threshold members,
  0 <= taper -> 0 < spread -> spread <= largest -> 0 <= u <= 1 -> members <> [] ->
  0 <= index_formula taper spread largest u (fraction_below threshold members) <= taper.
Proof.
  exact C30_formula_bounds_proof.
Qed.
Print Assumptions C30_formula_bounds.

(** C30: with the default envelope every index is a number between 0 and 1.5. *)
Theorem C30_default_range : forall shape sig mu fields k tt threshold ref,
  Forall (fun s => 0 < s) sig -> Forall (fun m => 0 < m) mu ->
  length sig = length mu -> length sig = length fields -> sig <> [] ->
  Forall (fun f => length f = k) fields -> (0 < k)%nat -> ~ In tt [TInt64; TOther] -> single_precision <= ref ->
  exists l,
    forecast_difficulty (Array2 shape (map Some sig)) (MArray (Array2 shape (map Some mu))) tt threshold
      (Array3 shape k (map (map Some) fields)) None ref = Ok l /\
    length l = length sig /\ Forall (fun x => exists d, x = Fin d /\ 0 <= d <= 3 # 2) l.
Proof.
  exact C30_default_range_proof.
Qed.
Print Assumptions C30_default_range.

(** C30: one mean for the whole field gives the same as a field of that mean. *)
Theorem C30_scalar_mean : forall shape sig m field tt threshold p ref ut u,
  difficulty_index (Array2 shape sig) (MScalar m) tt threshold field p ref ut u =
  difficulty_index (Array2 shape sig) (MArray (Array2 shape (map (fun _ => m) sig))) tt threshold field p ref ut u.
Proof.
  exact C30_scalar_mean_proof.
Qed.
Print Assumptions C30_scalar_mean.

(** C30: bad arguments fail the assertions. *)
Theorem C30_rejected : forall sigma mu tt threshold field p ref ut u,
  In tt [TInt64; TOther] \/ In (Some 0) (cells2 sigma) \/ ref < single_precision \/ shape2 sigma <> shape3 field \/
  (exists m, mu = MArray m /\ shape2 m <> shape2 sigma) \/ In ut [TInt64; TOther] \/ u < 0 \/ 1 < u ->
  difficulty_index sigma mu tt threshold field p ref ut u = Err AssertionError.
Proof.
  exact C30_rejected_proof.
Qed.
Print Assumptions C30_rejected.

(** Finding: spreads below EPS are documented to be rejected, but only zeros are; a negative
    spread makes the index negative. *)
Theorem C30_positive_spread_checked_refuted :
  ~ (forall sigma mu tt threshold field ref l,
       forecast_difficulty sigma mu tt threshold field None ref = Ok l ->
       forall s, In (Some s) (cells2 sigma) -> single_precision <= s).
Proof.
  exact C30_positive_spread_checked_refuted_proof.
Qed.
Print Assumptions C30_positive_spread_checked_refuted.

Theorem C30_range_without_check_refuted :
  ~ (forall sigma mu tt threshold field ref l d,
       forecast_difficulty sigma mu tt threshold field None ref = Ok l -> In (Fin d) l -> 0 <= d).
Proof.
  exact C30_range_without_check_refuted_proof.
Qed.
Print Assumptions C30_range_without_check_refuted.

(** Finding: a missing ensemble member counts as lying below the threshold. *)
Theorem C30_missing_members_below : forall sigma mu tt threshold shape k fields p ref ut u low,
  low < threshold ->
  difficulty_index sigma mu tt threshold (Array3 shape k fields) p ref ut u =
  difficulty_index sigma mu tt threshold
    (Array3 shape k (map (map (fun c => match c with Some q => Some q | None => Some low end)) fields)) p ref ut u.
Proof.
  exact C30_missing_members_below_proof.
Qed.
Print Assumptions C30_missing_members_below.

(** Finding: one grid point of mean zero removes the spread term everywhere: its own index is NaN
    and every other one is half the taper times the threshold term. *)
Theorem C30_zero_mean : forall shape sig mu fields k tt threshold p ref ut u,
  Forall (fun s => 0 < s) sig -> Forall (fun m => 0 <= m) mu -> (exists z, In z mu /\ z == 0) ->
  length sig = length mu -> length sig = length fields ->
  Forall (fun f => length f = k) fields -> (0 < k)%nat ->
  ~ In tt [TInt64; TOther] -> ~ In ut [TInt64; TOther] -> single_precision <= ref -> 0 <= u <= 1 ->
  exists l,
    difficulty_index (Array2 shape (map Some sig)) (MArray (Array2 shape (map Some mu))) tt threshold
      (Array3 shape k (map (map Some) fields)) p ref ut u = Ok l /\
    forall i m f t, nth_error mu i = Some m -> nth_error fields i = Some f -> interp p (Some m) = Fin t ->
      (m == 0 -> nth_error l i = Some Nan) /\
      (0 < m -> exists d, nth_error l i = Some (Fin d) /\
                  d == t * ((1 - Qabs (1 - u - fraction_below threshold f)) / 2)).
Proof.
  exact C30_zero_mean_proof.
Qed.
Print Assumptions C30_zero_mean.

(** Two grid points of three members. *)
Example C30_case : exists a b,
  forecast_difficulty (Array2 (1, 2)%nat [Some 1; Some 2]) (MArray (Array2 (1, 2)%nat [Some 10; Some 8]))
    TFloat 9 (Array3 (1, 2)%nat 3 [[Some 8; Some 9; Some 12]; [Some 6; Some 8; Some 10]]) None single_precision
  = Ok [Fin a; Fin b] /\ a == 37 # 40 /\ b == 55 # 48.
Proof. exact C30_case_proof. Qed.
