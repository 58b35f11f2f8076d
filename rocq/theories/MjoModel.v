(** The filter of the OMI index: metcalcpy/contributed/rmm_omi/compute_mjo_indices.py.  Transforms of numpy are modelled by
    their defining sums over the reals, limits are exact rationals. *)
From Coq Require Import Reals Qreals ZArith QArith.
From Verif Require Import PyBase ColumnModel TropicsModel SpectraModel WavesModel KfModel.
From Coq Require Import List.
Import ListNotations.
Open Scope nat_scope.
Open Scope list_scope.

(** scipy.signal [detrend(…, type='linear')] of one series: the line of least squares is subtracted.  (For one value the
    slope is 0 over 0, which is 0 here, and 0 remains as in scipy.) *)
Definition detrend (y : list R) : list R :=
  let n := INR (length y) in
  let pts := combine (map INR (seq 0 (length y))) y in
  let tm := (rsum (map fst pts) / n)%R in
  let ym := (rsum (map snd pts) / n)%R in
  let b := (rsum (map (fun p => (fst p - tm) * (snd p - ym)) pts) / rsum (map (fun p => (fst p - tm) * (fst p - tm)) pts))%R in
  map (fun p => (snd p - (ym + b * (fst p - tm)))%R) pts.

(** compute_mjo_indices.py 454-457: a quotient of which 0 over 0 is NaN ([None]); a divisor is 0 only if the dividend is. *)
Definition quotient (a b : Q) : option Q := if Qeq_bool b 0 then None else Some (a / b)%Q.
Definition at_least (x : Q) (y : option Q) : bool := match y with Some y => Qle_bool y x | None => false end.
Definition at_most (x : Q) (y : option Q) : bool := match y with Some y => Qle_bool x y | None => false end.
(** compute_mjo_indices.py 399-404: the frequency of place [i] of [nt]. *)
Definition freq_axis (nt : nat) (dataperday : Q) (i : nat) : Q :=
  if 2 * i <=? nt then (inject_Z (Z.of_nat i) * dataperday / inject_Z (Z.of_nat nt))%Q
  else (-1 * (inject_Z (Z.of_nat nt - Z.of_nat i)) * dataperday / inject_Z (Z.of_nat nt))%Q.
(** compute_mjo_indices.py 412-420: the wavenumber of place [i] of [nl]. *)
Definition wn_axis (nl i : nat) : Q :=
  if 2 * i <=? nl then (-1 * inject_Z (Z.of_nat i))%Q else inject_Z (Z.of_nat nl - Z.of_nat i).
(** compute_mjo_indices.py 430-437 and 452-457: the corners of the filter and the four conditions. *)
Definition passes (freq_min freq_max wn_min wn_max ff ss : Q) : bool :=
  let f1 := freq_min in let f2 := freq_min in let f3 := freq_max in let f4 := freq_max in
  let s1 := wn_min in let s2 := wn_max in let s3 := wn_min in let s4 := wn_max in
  at_least ff (quotient (ss * (f1 - f2) + f2 * s1 - f1 * s2) (s1 - s2)) &&
  at_most ff (quotient (ss * (f3 - f4) + f4 * s3 - f3 * s4) (s3 - s4)) &&
  at_least ss (quotient (ff * (s3 - s1) - f1 * s3 + f3 * s1) (f3 - f1)) &&
  at_most ss (quotient (ff * (s4 - s2) - f2 * s4 + f4 * s2) (f4 - f2)).

(** [array[p, q] = 0]. *)
Definition zero_cell (p q : nat) (M : list (list cplx)) : list (list cplx) :=
  map (fun r => let '(i, row) := r in
                if i =? p then map (fun c => let '(j, v) := c in if j =? q then (0, 0)%R else v) (combine (seq 0 (length row)) row)
                else row) (combine (seq 0 (length M)) M).
(** compute_mjo_indices.py 461-475: the other cell that becomes zero with a cell. *)
Definition zero_other (nt nl i_f i_wn : nat) (M : list (list cplx)) : list (list cplx) :=
  if (i_wn =? 0) && (i_f =? 0) then M
  else if i_wn =? 0 then let ind_f := nt - i_f in if ind_f <? nt then zero_cell ind_f i_wn M else M
  else if i_f =? 0 then let ind_wn := nl - i_wn in if ind_wn <? nl then zero_cell i_f ind_wn M else M
  else let ind_f := nt - i_f in let ind_wn := nl - i_wn in
       if (ind_f <? nt) && (ind_wn <? nl) then zero_cell ind_f ind_wn M else M.
(** compute_mjo_indices.py 450-475: the loops over frequencies and wavenumbers. *)
Definition mask_loop (nt nl : nat) (pass : nat -> nat -> bool) (M : list (list cplx)) : list (list cplx) :=
  fold_left (fun M c => let '(i_f, i_wn) := c in
                        if pass i_f i_wn then M else zero_other nt nl i_f i_wn (zero_cell i_f i_wn M))
            (list_prod (seq 0 (nt / 2 + 1)) (seq 0 nl)) M.
(** [np.roll(a, -k)]. *)
Definition unroll {A : Type} (k : nat) (l : list A) : list A := roll (length l - k mod length l) l.
(** [np.fft.fft2] of [nt] x [nl] values. *)
Definition fft2 (nt nl : nat) (v : nat -> nat -> R) : list (list cplx) :=
  tabulate nt nl (fun p q =>
    (rsum (map (fun t => rsum (map (fun x => v t x * cos (turn nt p t + turn nl q x))%R (seq 0 nl))) (seq 0 nt)),
     (- rsum (map (fun t => rsum (map (fun x => v t x * sin (turn nt p t + turn nl q x))%R (seq 0 nl))) (seq 0 nt)))%R)).
(** The real part of [np.fft.ifft2]. *)
Definition ifft2_real (nt nl : nat) (C : list (list cplx)) : list (list R) :=
  tabulate nt nl (fun t x =>
    (rsum (map (fun p => rsum (map (fun q =>
       let '(a, b) := entry (0, 0)%R C p q in (a * cos (turn nt p t + turn nl q x) - b * sin (turn nt p t + turn nl q x))%R)
       (seq 0 nl))) (seq 0 nt)) / (INR nt * INR nl))%R).
(** compute_mjo_indices.py 439-486: one turn of the loop over the latitudes, for an array of [nt] times and [nl]
    longitudes.  [np.squeeze] removes an axis of length 1, then there is no second axis to transform; there is no
    transform of no values. *)
Definition filter_field (nt nl : nat) (dataperday freq_min freq_max wn_min wn_max : Q) (v : list (list R)) : res (list (list R)) :=
  if nl =? 0 then Err ValueError
  else if nl =? 1 then Err IndexError
  else
    let C := fft2 nt nl (fun t x => entry 0%R v t x) in
    let C := map (roll (nl / 2)) (roll (nt / 2) C) in
    let C := roll (nt / 2) C in
    let C := map (roll (nl / 2)) C in
    let C := mask_loop nt nl (fun i_f i_wn => passes freq_min freq_max wn_min wn_max (freq_axis nt dataperday i_f) (wn_axis nl i_wn)) C in
    let C := unroll (nt / 2) C in
    let C := map (unroll (nl / 2)) C in
    let C := map (unroll (nl / 2)) (unroll (nt / 2) C) in
    Ok (ifft2_real nt nl C).
(** compute_mjo_indices.py 379: the number of zeros put at the end. *)
Definition pad : nat := Z.to_nat 1000.
(** compute_mjo_indices.py 331-489, [perform_3dim_spectral_filtering].  The data, of shape (orig_nt, number of latitudes,
    nl), are given latitude by latitude.  Tapering is done here before each transform instead of before all of them.
    Negative steps between times are not modelled. *)
Definition perform_3dim_spectral_filtering (orig_nt nl : nat) (data : list (list (list R)))
  (time_spacing period_min period_max wn_min wn_max : Q) : res (list (list (list R))) :=
  if Qeq_bool time_spacing 0 || Qeq_bool period_max 0 || Qeq_bool period_min 0 then Err ZeroDivisionError
  else
    let dataperday := (1 / time_spacing)%Q in
    let freq_min := (1 / period_max)%Q in
    let freq_max := (1 / period_min)%Q in
    if (131072 <? Z.of_nat orig_nt)%Z then Err ValueError
    else
      let nt := orig_nt + pad in
      let w := trunc (10 * dataperday) in
      if (w <? 0)%Z then Err NotModelled
      else
        mapM (fun field =>
          cols <- mapM (fun x => taper_vector_to_zero (detrend (map (fun t => entry 0%R field t x) (seq 0 orig_nt)) ++ repeat 0%R pad) (Z.to_nat w))
                       (seq 0 nl) ;;
          out <- filter_field nt nl dataperday freq_min freq_max wn_min wn_max (tabulate nt nl (fun t x => entry 0%R cols x t)) ;;
          Ok (firstn orig_nt out)) data.
