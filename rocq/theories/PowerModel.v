(** The parts of metcalcpy/util/correlation.py around a correlation: its power, its Bayes factor and Shepherd's pi.  Numbers are
    reals; NaN is [None].  Distributions, special functions, integrals, the finding of zeros and random draws are parameters. *)
From Coq Require Import Reals String.
From Verif Require Import PyBase ActivityModel CorrModel.
From Verif Require DriveModel.
From Coq Require Import List.
Import ListNotations.
Open Scope R_scope.

Definition rleb (a b : R) : bool := if Rle_dec a b then true else false.

(** ** Power *)
Section Power.
(** Quantiles of Student's distribution (probability between 0 and 1, degrees of freedom) and the normal distribution. *)
Variable t_ppf : R -> R -> R.
Variable norm_cdf : R -> R.
(** [scipy.optimize.brenth]. *)
Variable brenth : (R -> option R) -> R -> R -> res R.

(** correlation.py 917-925, 929-936, [func], for r between 0 and 1: the arc tangent of 1 is infinite, where the power is 1; the
    quantile of 0 is infinite, where the result is NaN. *)
Definition power_of (two : bool) (r n alpha : R) : option R :=
  let dof := n - 2 in
  let q := if two then 1 - alpha / 2 else 1 - alpha in
  if real_eqb q 0 then None
  else if real_eqb r 1 then Some 1
  else
    let ttt := t_ppf q dof in
    let rc := sqrt (ttt * ttt / (ttt * ttt + dof)) in
    let zr := arctanh r + r / (2 * (n - 1)) in
    let zrc := arctanh rc in
    let one := norm_cdf ((zr - zrc) * sqrt (n - 3)) in
    Some (if two then one + norm_cdf ((- zr - zrc) * sqrt (n - 3)) else one).
(** [func(…) - power]. *)
Definition minus (x : option R) (p : R) : option R := match x with Some v => Some (v - p) | None => None end.
(** The zero, or NaN if there is none between the ends. *)
Definition solved (x : res R) : res (option R) := match x with Ok v => Ok (Some v) | Err ValueError => Ok None | Err e => Err e end.
Definition tiny : R := / 10000000000.
Definition given {A : Type} (x : option A) : nat := match x with Some _ => 0%nat | None => 1%nat end.
Definition within (x : option R) (test : R -> bool) : bool := match x with Some v => test v | None => true end.
(** correlation.py 836-974, [power_corr]. *)
Definition power_corr (r n power alpha : option R) (tail : string) : res (option R) :=
  if negb (Nat.eqb (given r + given n + given power + given alpha) 1) then Err ValueError
  else if negb (within r (fun v => rleb (-1) v && rleb v 1)) then Err AssertionError
  else if negb (within alpha (fun v => real_ltb 0 v && rleb v 1)) then Err AssertionError
  else if negb (within power (fun v => real_ltb 0 v && rleb v 1)) then Err AssertionError
  else if negb (within n (fun v => real_ltb 4 v)) then Ok None
  else
    let two := String.eqb tail "two-sided" in
    match r, n, power, alpha with
    | Some r, Some n, None, Some alpha => Ok (power_of two (Rabs r) n alpha)
    | Some r, None, Some power, Some alpha =>
        solved (brenth (fun n => minus (power_of two (Rabs r) n alpha) power) (4 + tiny) 1000000000)
    | None, Some n, Some power, Some alpha => solved (brenth (fun r => minus (power_of two r n alpha) power) tiny (1 - tiny))
    | Some r, Some n, Some power, None => solved (brenth (fun alpha => minus (power_of two (Rabs r) n alpha) power) tiny (1 - tiny))
    | _, _, _, _ => Err ValueError
    end.
End Power.

(** ** Bayes factor *)
Section Bayes.
(** The logarithms of the gamma and beta functions, the hypergeometric function, the gamma function, an integral from 0 to infinity. *)
Variable lgamma : R -> R.
Variable betaln : R -> R -> R.
Variable hyp2f1 : R -> R -> R -> R -> R.
Variable gamma : R -> R.
Variable quad : (R -> R) -> R.
(** correlation.py 651-652 *)
Definition TAILS : list string := ["two-sided"; "one-sided"; "greater"; "less"; "g"; "l"; "positive"; "negative"; "pos"; "neg"]%string.
(** correlation.py 677-683.  A negative kappa and a correlation of one (where the series may be infinite) are not modelled. *)
Definition bayes_ly (r n kappa : R) : res (option R) :=
  if real_eqb kappa 0 then Err ZeroDivisionError
  else if real_ltb kappa 0 || real_eqb (r * r) 1 then Err NotModelled
  else
    let h := hyp2f1 ((n - 1) / 2) ((n - 1) / 2) ((n + 2 / kappa) / 2) (r * r) in
    if real_ltb 0 h
    then Ok (Some (exp ((1 - 2 / kappa) * ln 2 + / 2 * ln PI - betaln (1 / kappa) (1 / kappa)
                        + lgamma ((n + 2 / kappa - 1) / 2) - lgamma ((n + 2 / kappa) / 2) + ln h)))
    else Err ValueError.
(** correlation.py 667-673 *)
Definition bayes_wetzels (r n : R) : res (option R) :=
  Ok (Some (sqrt (n / 2) / gamma (1 / 2) *
    quad (fun g => exp ((n - 2) / 2 * ln (1 + g) + - (n - 1) / 2 * ln (1 + (1 - r * r) * g) + -3 / 2 * ln g + - n / (2 * g))))).
(** correlation.py 553-685, [bayesfactor_pearson].  [r = None] is NaN. *)
Definition bayesfactor_pearson (r : option R) (n : R) (tail method : string) (kappa : R) : res (option R) :=
  let method := DriveModel.lower method in
  let tail := DriveModel.lower tail in
  if negb (existsb (String.eqb method) ["ly"; "wetzels"]%string) then Err AssertionError
  else if negb (existsb (String.eqb tail) TAILS) then Err AssertionError
  else match r with
       | None => Ok None
       | Some r =>
           if real_ltb n 2 then Ok None
           else if negb (rleb (-1) r && rleb r 1) then Err AssertionError
           else if String.eqb method "wetzels" && String.eqb tail "two-sided" then bayes_wetzels r n
           else bayes_ly r n kappa
       end.
End Bayes.

(** ** Shepherd's pi *)
(** The resampled rows; an index that is not there cannot be drawn. *)
Fixpoint take (b : list (R * R)) (draw : list nat) : res (list (R * R)) :=
  match draw with
  | [] => Ok []
  | i :: rest => match nth_error b i with
                 | Some v => t <- take b rest ;; Ok (v :: t)
                 | None => Err IndexError
                 end
  end.
(** [R] of the QR decomposition of two columns, by Gram and Schmidt: (R11, R12, R22).  The library may give rows with the opposite
    sign, which changes no square.  Without a first direction R11 is zero. *)
Definition qr (c1 c2 : list R) : R * R * R :=
  let r11 := sqrt (rsum (map (fun u => u * u) c1)) in
  if real_eqb r11 0 then (0, 0, 0)
  else
    let q1 := map (fun u => u / r11) c1 in
    let r12 := rsum (map (fun p => fst p * snd p) (combine q1 c2)) in
    (r11, r12, sqrt (rsum (map (fun p => (snd p - r12 * fst p) * (snd p - r12 * fst p)) (combine q1 c2)))).
(** correlation.py 539-547: the distances of the rows of [a] from one resample.  A singular matrix is refused with LinAlgError, a
    ValueError; with one row the matrix is not square, with the same exception. *)
Definition mahal (a sample : list (R * R)) (n : nat) : res (list R) :=
  let mu1 := mean_r (map fst sample) in
  let mu2 := mean_r (map snd sample) in
  let '(r11, r12, r22) := qr (map (fun p => fst p - mu1) sample) (map (fun p => snd p - mu2) sample) in
  if Nat.ltb n 2 || real_eqb r11 0 || real_eqb r22 0 then Err ValueError
  else Ok (map (fun p =>
         let s1 := (fst p - mu1) / r11 in
         let s2 := (snd p - mu2 - r12 * s1) / r22 in
         (s1 * s1 + s2 * s2) * (INR n - 1)) a).
(** [mapM] for the resamples. *)
Fixpoint mahals (a b : list (R * R)) (draws : list (list nat)) : res (list (list R)) :=
  match draws with
  | [] => Ok []
  | d :: rest => s <- take b d ;; m <- mahal a s (length b) ;; ms <- mahals a b rest ;; Ok (m :: ms)
  end.
(** correlation.py 517-550, [bsmahal]: the mean over the resamples for each row; without resamples NaN.  The tables have as many
    rows as each other, as in the only call. *)
Definition bsmahal (a b : list (R * R)) (draws : list (list nat)) : res (list (option R)) :=
  ms <- mahals a b draws ;;
  Ok (map (fun i => match ms with [] => None | _ => Some (mean_r (map (fun m => nth i m 0) ms)) end) (seq 0 (length a))).
(** correlation.py 476-514, [shepherd]: the data without outliers, given to [spearmanr], and the outliers. *)
Definition outlier (m : option R) : bool := match m with Some v => rleb 6 v | None => false end.
Definition shepherd {A : Type} (spearmanr : list R -> list R -> A) (x y : list R) (draws : list (list nat)) : res (A * list bool) :=
  if negb (Nat.eqb (length x) (length y)) then Err ValueError
  else
    m <- bsmahal (combine x y) (combine x y) draws ;;
    let outliers := map outlier m in
    let kept := filter (fun p => negb (snd p)) (combine (combine x y) outliers) in
    Ok (spearmanr (map (fun p => fst (fst p)) kept) (map (fun p => snd (fst p)) kept), outliers).
