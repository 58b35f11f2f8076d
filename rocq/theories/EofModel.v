(** Empirical orthogonal functions: [Calc_EOF] and [reconstruct_heights] of
    metcalcpy/contributed/blocking_weather_regime/WeatherRegime.py and [eof_comp] of
    metcalcpy/contributed/tropical_diagnostics/ccew_activity.py.  Numbers are reals; NaN is [None].  The singular value decomposition
    of numpy is a parameter. *)
From Coq Require Import Reals.
From Verif Require Import PyBase ActivityModel CorrModel.
From Verif Require MjoModel.
From Coq Require Import List.
Import ListNotations.
Open Scope R_scope.

(** Rows of numbers; [m[i, j]] (both are there where it is used). *)
Definition matrix : Type := list (list R).
Definition entry (m : matrix) (i j : nat) : R := nth j (nth i m []) 0.
Section Eof.
(** [np.linalg.svd(a, full_matrices=False)]: columns, singular values, rows. *)
Variable svd : matrix -> matrix * list R * matrix.

(** ** ccew_activity.py *)
(** All indices of an array, in the order of its elements in memory. *)
Fixpoint indices (shape : list nat) : list (list nat) :=
  match shape with
  | [] => [[]]
  | n :: rest => flat_map (fun i => map (cons i) (indices rest)) (seq 0 n)
  end.
(** The index with the place [t] along the dimension [dim]. *)
Definition put_at (dim t : nat) (idx : list nat) : list nat := firstn dim idx ++ t :: skipn dim idx.
Definition without (dim : nat) (shape : list nat) : list nat := firstn dim shape ++ skipn (S dim) shape.
(** [np.mean] and [np.std] of the columns; ccew_activity.py 426-428.  Where a deviation is 0 there is a NaN, of which [svd] raises
    LinAlgError, a ValueError. *)
Definition column (m : matrix) (j : nat) : list R := map (fun row => nth j row 0) m.
Definition std_r (l : list R) : R := sqrt (mean_r (map (fun v => (v - mean_r l) * (v - mean_r l)) l)).
Definition standardise (a : matrix) (n : nat) : res matrix :=
  if existsb (fun j => real_eqb (std_r (column a j)) 0) (seq 0 n) then Err ValueError
  else Ok (map (fun row => map (fun j => (nth j row 0 - mean_r (column a j)) / std_r (column a j)) (seq 0 n)) a).
(** A quotient; 0 over 0 is NaN (a divisor is 0 only if the dividend is). *)
Definition over (a b : R) : option R := if real_eqb b 0 then None else Some (a / b).
(** ccew_activity.py 395-443, [eof_comp], for a number of functions that is not negative.  The data are given by their sizes and the
    value at each index; [dim] is a position, where a negative one is as wrong as one too large.  The last result is the sizes and, for each function, the values in the order of memory.
    Empty data are not modelled. *)
Definition eof_comp (shape : list nat) (value : list nat -> R) (neof : nat) (covariance : bool) (dim : nat)
  : res (matrix * list (option R) * (list nat * matrix)) :=
  if negb (Nat.ltb dim (length shape)) then Err IndexError
  else
    let rest := without dim shape in
    let nt := nth dim shape 0%nat in
    let diml := fold_right Nat.mul 1%nat rest in
    if Nat.eqb nt 0 || Nat.eqb diml 0 then Err NotModelled
    else
      let a := map (fun t => map (fun idx => value (put_at dim t idx)) (indices rest)) (seq 0 nt) in
      a <- (if covariance then Ok a else standardise a diml) ;;
      let '(eofts, s, eof) := svd a in
      let var := map (fun v => v * v) s in
      let varsum := rsum var in
      let var_exp := map (fun v => over v varsum) var in
      if Nat.ltb (Nat.min nt diml) neof then Err ValueError
      else if Nat.eqb (length shape) 1 then Err IndexError
      else Ok (map (firstn neof) eofts, firstn neof var_exp, (neof :: rest, firstn neof eof)).

(** ** WeatherRegime.py *)
(** Sums and products with NaN. *)
Definition oplus (a b : option R) : option R := match a, b with Some x, Some y => Some (x + y) | _, _ => None end.
Definition omul (a b : option R) : option R := match a, b with Some x, Some y => Some (x * y) | _, _ => None end.
Definition osum (l : list (option R)) : option R := fold_right oplus (Some 0) l.
Fixpoint oall {A : Type} (l : list (option A)) : option (list A) :=
  match l with [] => Some [] | Some x :: l' => match oall l' with Some t => Some (x :: t) | None => None end | None :: _ => None end.
(** The values of one day and grid point in all years. *)
Definition series (eofin : list matrix) (d j : nat) : list R := map (fun year => entry year d j) eofin.
(** WeatherRegime.py 109-110 for one of them. *)
Definition cleaned (y : list R) : list R := let z := MjoModel.detrend y in map (fun v => v - mean_r z) z.
(** WeatherRegime.py 108-110: all years, days and grid points (in the order of memory); this is also what the array that was given
    holds afterwards.  There are no missing values. *)
Definition anomalies (eofin : list matrix) (nd np : nat) : list matrix :=
  map (fun y => map (fun d => map (fun j => nth y (cleaned (series eofin d j)) 0) (seq 0 np)) (seq 0 nd)) (seq 0 (length eofin)).
(** [Eof(…, center=False)] of the package eofs. [solver.pcs(npcs, pcscaling=1)]: components divided by the root of their variance. *)
Definition pcs (u : matrix) (s : list R) (n num : nat) : list (list (option R)) :=
  map (fun t => map (fun k => let lam := nth k s 0 * nth k s 0 / (INR n - 1) in over (entry u t k * nth k s 0) (sqrt lam)) (seq 0 num)) (seq 0 n).
(** [solver.eofsAsCovariance(neofs, pcscaling=1)]: covariances of the components with the data; both are centered. *)
Definition covariance (c x : list R) : R :=
  rsum (map (fun p => (fst p - mean_r c) * (snd p - mean_r x)) (combine c x)) / (INR (length c) - 1).
Definition eofs_cov (pc : list (list (option R))) (x : matrix) (np num : nat) : list (list (option R)) :=
  map (fun k => map (fun j => match oall (map (fun row => nth k row None) pc) with Some c => Some (covariance c (column x j)) | None => None end)
                    (seq 0 np)) (seq 0 num).
(** WeatherRegime.py 105-127, [Calc_EOF], for an array with the sizes [length eofin], [nd] and [np] (the product of the last two):
    patterns, components and percentages, and the array afterwards.  One record or none is not modelled, nor is an array without grid
    points. *)
Definition Calc_EOF (numpcs : nat) (eofin : list matrix) (nd np : nat)
  : res (list (list (option R)) * list (list (option R)) * list (option R) * list matrix) :=
  let x := anomalies eofin nd np in
  let data := concat x in
  let n := (length eofin * nd)%nat in
  if Nat.ltb n 2 || Nat.eqb np 0 then Err NotModelled
  else
    let '(u, s, v) := svd data in
    if Nat.ltb (Nat.min n np) numpcs then Err ValueError
    else
      let pc := pcs u s n numpcs in
      let lams := map (fun v => v * v / (INR n - 1)) s in
      Ok (eofs_cov pc data np numpcs, pc, map (fun v => match over v (rsum lams) with Some q => Some (q * 100) | None => None end) (firstn numpcs lams), x).
(** WeatherRegime.py 130-140, [reconstruct_heights]: the patterns as rows of all grid points; the last argument has no effect. *)
Definition reconstruct_heights (numpcs np : nat) (eof pc : list (list (option R))) : res (list (list (option R))) :=
  if negb (Nat.eqb (length eof) numpcs) || existsb (fun row => negb (Nat.eqb (length row) numpcs)) pc then Err ValueError
  else Ok (map (fun row => map (fun j => osum (map (fun k => omul (nth k row None) (nth j (nth k eof []) None)) (seq 0 numpcs))) (seq 0 np)) pc).
End Eof.
