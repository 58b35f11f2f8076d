(** Models of metcalcpy/piecewise_linear.py and metcalcpy/calc_difficulty_index.py. *)
From Coq Require Import Qabs.
From Verif Require Import PyBase.
Open Scope Q_scope.

(** A numpy float: a finite number, an infinity or NaN (signed zeros are not modelled). *)
Inductive xnum : Type := Fin (q : Q) | PInf | NInf | Nan.

Definition of_option (o : option Q) : xnum := match o with Some q => Fin q | None => Nan end.

(** numpy's element-wise arithmetic; no exception is raised. *)
Definition xdiv (a b : xnum) : xnum :=
  match a, b with
  | Nan, _ | _, Nan => Nan
  | Fin p, Fin q =>
      if Qeq_bool q 0 then if Qeq_bool p 0 then Nan else if Qle_bool 0 p then PInf else NInf
      else Fin (p / q)
  | Fin _, _ => Fin 0
  | PInf, Fin q => if Qle_bool 0 q then PInf else NInf
  | NInf, Fin q => if Qle_bool 0 q then NInf else PInf
  | _, _ => Nan
  end.
Definition xadd (a b : xnum) : xnum :=
  match a, b with
  | Nan, _ | _, Nan => Nan
  | Fin p, Fin q => Fin (p + q)
  | Fin _, i => i
  | i, Fin _ => i
  | PInf, PInf => PInf
  | NInf, NInf => NInf
  | _, _ => Nan
  end.
Definition xmul (a b : xnum) : xnum :=
  match a, b with
  | Nan, _ | _, Nan => Nan
  | Fin p, Fin q => Fin (p * q)
  | Fin p, PInf | PInf, Fin p => if Qeq_bool p 0 then Nan else if Qle_bool 0 p then PInf else NInf
  | Fin p, NInf | NInf, Fin p => if Qeq_bool p 0 then Nan else if Qle_bool 0 p then NInf else PInf
  | PInf, PInf | NInf, NInf => PInf
  | _, _ => NInf
  end.
(** Larger of two, ignoring NaN ([np.nanmax]). *)
Definition xmax (a b : xnum) : xnum :=
  match a, b with
  | Nan, x | x, Nan => x
  | PInf, _ | _, PInf => PInf
  | NInf, x | x, NInf => x
  | Fin p, Fin q => if Qle_bool p q then Fin q else Fin p
  end.
(** [np.nanmax]: ValueError on an empty array, NaN (with a printed warning) when all are NaN. *)
Definition nanmax (l : list xnum) : res xnum :=
  match l with
  | [] => Err ValueError
  | _ => Ok (fold_right xmax Nan l)
  end.

(** ** metcalcpy/piecewise_linear.py *)

Record plin : Type := Plin {
  x_domain : list Q;
  y_range : list Q;
  left : option Q;      (* None is NaN *)
  right : option Q
}.

(** [np.diff]. *)
Fixpoint np_diff (l : list Q) : list Q :=
  match l with
  | a :: ((b :: _) as t) => (b - a) :: np_diff t
  | _ => []
  end.

(** metcalcpy/piecewise_linear.py 38-57, [__init__].  [np.any(d) < 0] compares a boolean, counted
    as 0 or 1, with zero.  The printed message, units and name are omitted. *)
Definition PiecewiseLinear (x_domain y_range : list Q) (left right : option Q) : res plin :=
  if (length x_domain <? 2)%nat then Err IncompatibleLengths
  else if Qlt_bool (if existsb (fun d => negb (Qeq_bool d 0)) (np_diff x_domain) then 1 else 0) 0
  then Err UnsortedArray
  else if negb (length x_domain =? length y_range)%nat then Err IncompatibleLengths
  else Ok (Plin x_domain y_range left right).

(** metcalcpy/piecewise_linear.py 58-60, [get_ymax]: [np.max] (ValueError when empty). *)
Definition get_ymax (p : plin) : res Q :=
  match y_range p with
  | [] => Err ValueError
  | y :: t => Ok (fold_left (fun m z => if Qle_bool m z then z else m) t y)
  end.

(** [np.interp], one argument at or after the node [(x0, y0)]: look for the last node not after
    the argument, then use the line to the next node.  numpy searches by bisection when there are
    more than four nodes; on ascending nodes that finds the same node. *)
Fixpoint interp_from (x0 y0 : Q) (xs ys : list Q) (key : Q) : Q :=
  match xs, ys with
  | x1 :: xs', y1 :: ys' =>
      if Qle_bool x1 key then interp_from x1 y1 xs' ys' key
      else if Qeq_bool x0 key then y0
      else (y1 - y0) / (x1 - x0) * (key - x0) + y0
  | _, _ => y0
  end.

(** [np.interp(x, xp, fp, left, right)] of one argument; NaN gives NaN.  [xp] is not empty (the
    constructor checks it). *)
Definition interp (p : plin) (x : option Q) : xnum :=
  match x, x_domain p, y_range p with
  | None, _, _ => Nan
  | Some key, x0 :: xs, y0 :: ys =>
      if Qlt_bool (last xs x0) key then of_option (right p)
      else if Qlt_bool key x0 then of_option (left p)
      else Fin (interp_from x0 y0 xs ys key)
  | _, _, _ => Nan
  end.

(** metcalcpy/piecewise_linear.py 62-78, [values], of the flattened input. *)
Definition values (p : plin) (xinput : list (option Q)) : list xnum := map (interp p) xinput.

(** ** metcalcpy/calc_difficulty_index.py *)

(** calc_difficulty_index.py 30: [np.finfo(np.float32).eps], 2^-23. *)
Definition EPS : Q := 1 # 8388608.

(** The Python type of a scalar argument; [isinstance(x, (int, float, np.int32, np.float32))]
    holds of the first five ([np.float64] is a [float]). *)
Inductive scalar_type : Type := TInt | TFloat | TInt32 | TFloat32 | TFloat64 | TInt64 | TOther.
Definition is_scalar (t : scalar_type) : bool :=
  match t with TInt64 | TOther => false | _ => true end.

(** Arrays: shape and flattened values.  [None] is NaN. *)
Record array2 : Type := Array2 { shape2 : nat * nat; cells2 : list (option Q) }.
Inductive mean_arg : Type := MScalar (q : option Q) | MArray (a : array2).
(** A three-dimensional field: for each grid point its members. *)
Record array3 : Type := Array3 { shape3 : nat * nat; members : nat; cells3 : list (list (option Q)) }.

Definition shape_eqb (a b : nat * nat) : bool :=
  ((fst a =? fst b) && (snd a =? snd b))%nat.

Definition py_assert (b : bool) : res unit := if b then Ok tt else Err AssertionError.

(** metcalcpy/calc_difficulty_index.py 34-70, [_input_check].  [sigmaij] is two-dimensional and
    [fieldijn] three-dimensional by type; [np.all(sigmaij)] is the boolean "no element is zero"
    (NaN is not zero), compared as 0 or 1 with EPS. *)
Definition input_check (sigmaij : array2) (muij : mean_arg) (threshold_type : scalar_type)
  (fieldijn : array3) (sigma_over_mu_ref : Q) (under_type : scalar_type) (under_factor : Q) : res unit :=
  _ <- py_assert (is_scalar threshold_type) ;;
  _ <- py_assert (Qle_bool EPS
         (if forallb (fun c => match c with Some q => negb (Qeq_bool q 0) | None => true end)
               (cells2 sigmaij) then 1 else 0)) ;;
  _ <- (match muij with
        | MArray m => py_assert (shape_eqb (shape2 m) (shape2 sigmaij))
        | MScalar _ => Ok tt
        end) ;;
  _ <- py_assert (Qle_bool EPS sigma_over_mu_ref) ;;
  _ <- py_assert (shape_eqb (shape2 sigmaij) (shape3 fieldijn)) ;;
  _ <- py_assert (is_scalar under_type) ;;
  py_assert (Qle_bool 0 under_factor && Qle_bool under_factor 1).

(** The mean of every grid point (broadcasting of a scalar). *)
Definition means (sigmaij : array2) (muij : mean_arg) : list (option Q) :=
  match muij with
  | MScalar q => map (fun _ => q) (cells2 sigmaij)
  | MArray m => cells2 m
  end.

(** calc_difficulty_index.py 116-119: members that are not [>= threshold] (a NaN is not), divided by their number. *)
Definition under_prob (threshold : Q) (nmembers : nat) (point : list (option Q)) : xnum :=
  let count := length (filter (fun c => match c with Some q => negb (Qle_bool threshold q) | None => true end)
                              point) in
  xdiv (Fin (inject_Z (Z.of_nat count))) (Fin (inject_Z (Z.of_nat nmembers))).

(** calc_difficulty_index.py 122: [1.0 - np.abs(1.0 - under_factor - under_prob)]. *)
Definition threshold_term (under_factor : Q) (prob : xnum) : xnum :=
  match prob with
  | Fin u => Fin (1 - Qabs (1 - under_factor - u))
  | Nan => Nan
  | PInf | NInf => NInf
  end.

Fixpoint zip_with {A B C : Type} (f : A -> B -> C) (l : list A) (l' : list B) : list C :=
  match l, l' with
  | a :: t, b :: t' => f a b :: zip_with f t t'
  | _, _ => []
  end.

(** metcalcpy/calc_difficulty_index.py 73-131, [_difficulty_index]. *)
Definition difficulty_index (sigmaij : array2) (muij : mean_arg) (threshold_type : scalar_type) (threshold : Q)
  (fieldijn : array3) (Aplin : plin) (sigma_over_mu_ref : Q) (under_type : scalar_type) (under_factor : Q)
  : res (list xnum) :=
  _ <- input_check sigmaij muij threshold_type fieldijn sigma_over_mu_ref under_type under_factor ;;
  let mu := means sigmaij muij in
  let sigma_over_mu := zip_with (fun s m => xdiv (of_option s) (of_option m)) (cells2 sigmaij) mu in
  sigma_over_mu_max <- nanmax sigma_over_mu ;;
  ref <- nanmax [Fin sigma_over_mu_ref; sigma_over_mu_max] ;;
  let variance_term := map (fun x => xdiv x ref) sigma_over_mu in
  let prob := map (under_prob threshold (members fieldijn)) (cells3 fieldijn) in
  let threshold_terms := map (threshold_term under_factor) prob in
  let taper_term := values Aplin mu in
  Ok (zip_with xmul (map (xmul (Fin (1 # 2))) taper_term) (zip_with xadd variance_term threshold_terms)).

(** metcalcpy/calc_difficulty_index.py 134-177, [forecast_difficulty], with its default envelope. *)
Definition default_envelope : res plin :=
  PiecewiseLinear [3; 9; 12; 21] [0; 3 # 2; 3 # 2; 0] (Some 0) (Some 0).
Definition forecast_difficulty (sigmaij : array2) (muij : mean_arg) (threshold_type : scalar_type) (threshold : Q)
  (fieldijn : array3) (Aplin : option plin) (sigma_over_mu_ref : Q) : res (list xnum) :=
  envelope <- (match Aplin with Some p => Ok p | None => default_envelope end) ;;
  difficulty_index sigmaij muij threshold_type threshold fieldijn envelope sigma_over_mu_ref TFloat (1 # 2).
