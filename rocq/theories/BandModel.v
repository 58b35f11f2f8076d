(** Filter of periods and variance: metcalcpy/contributed/rmm_omi/compute_mjo_indices.py.  Transforms are modelled by their
    defining sums over the reals, limits are exact rationals. *)
From Coq Require Import Reals Qreals ZArith QArith.
From Verif Require Import PyBase ColumnModel BlockModel TropicsModel SpectraModel WavesModel MjoModel.
From Coq Require Import List.
Import ListNotations.
Open Scope nat_scope.
Open Scope list_scope.

(** ** Filter of periods *)
(** [scipy.fftpack.rfft]: the sum, and then in turn the real and the imaginary part of the coefficients. *)
Definition rfft_packed (x : list R) : list R :=
  let n := length x in
  map (fun k =>
    if k =? 0 then rsum x
    else if Nat.odd k then rsum (map (fun p => snd p * cos (turn n ((k + 1) / 2) (fst p)))%R (combine (seq 0 n) x))
    else (- rsum (map (fun p => snd p * sin (turn n (k / 2) (fst p))) (combine (seq 0 n) x)))%R) (seq 0 n).
(** What entry [k] of such a list, if it is 1, adds at time [t], times the number of values. *)
Definition basis (n k t : nat) : R :=
  if k =? 0 then 1%R
  else if Nat.odd k then
    let m := (k + 1) / 2 in ((if (2 * m =? n)%nat then 1 else 2) * cos (turn n m t))%R
  else (- (2 * sin (turn n (k / 2) t)))%R.
(** [scipy.fftpack.irfft], the inverse of [rfft]. *)
Definition irfft_packed (c : list R) : list R :=
  let n := length c in
  map (fun t => (rsum (map (fun p => snd p * basis n (fst p) t) (combine (seq 0 n) c)) / INR n)%R) (seq 0 n).
(** [fftfreq(n, d)]: the numerator of entry [k]. *)
Definition fft_index (n k : nat) : Z := if 2 * k <? n then Z.of_nat k else (Z.of_nat k - Z.of_nat n)%Z.
(** compute_mjo_indices.py 260-263: [P = 1 / W], infinite ([None]) for entry 0. *)
Definition period (n : nat) (d : Q) (k : nat) : option Q :=
  if (fft_index n k =? 0)%Z then None else Some (inject_Z (Z.of_nat n) * d / inject_Z (fft_index n k))%Q.
(** compute_mjo_indices.py 268-269: [P < a] and [P > b]. *)
Definition dropped (n : nat) (d a b : Q) (k : nat) : bool :=
  match period n d k with
  | Some p => Qlt_bool p a || Qlt_bool b p
  | None => true
  end.
(** compute_mjo_indices.py 258-271 for one place. *)
Definition pass_periods (d a b : Q) (x : list R) : list R :=
  let c := rfft_packed x in
  let c := map (fun p => if dropped (length x) d a b (fst p) then 0%R else snd p) (combine (seq 0 (length x)) c) in
  irfft_packed c.
(** compute_mjo_indices.py 244: the number of values after zeros were put at the end. *)
Definition full_length : nat := Z.to_nat 131072.
(** [taper_vector_to_zero] with a window that may be negative: then no weights meet the [n + w] values of the slice
    [result[0:w]], which raises ValueError unless that is no value. *)
Definition taper_any (data : list R) (w : Z) : res (list R) :=
  if (w <? 0)%Z then if (- w <? Z.of_nat (length data))%Z then Err ValueError else Ok data
  else taper_vector_to_zero data (Z.to_nat w).
(** compute_mjo_indices.py 220-274, [bandpass_filter_3D].  The data, of shape (orig_nt, number of latitudes, number of
    longitudes), are given place by place, a series for each.  The second list is what the caller's array contains
    afterwards: [detrend(…, overwrite_data=True)] writes into it.  Times are whole seconds.  Data without any time are not modelled.  Tapering is done here
    before each transform instead of before all of them.  [data[:,0,0]] of no places raises IndexError; a step of 0 is an
    infinite window, of which [int] raises OverflowError. *)
Definition bandpass_filter_3D (orig_nt : nat) (places : list (list R)) (time : list Z) (a b : Q) : res (list (list R) * list (list R)) :=
  match time with
  | t0 :: t1 :: _ =>
      let dt := (inject_Z (t1 - t0) / 86400)%Q in
      let data := map detrend places in
      if (131072 <? Z.of_nat orig_nt)%Z then Err ValueError
      else
        match places with
        | [] => Err IndexError
        | _ =>
            if Qeq_bool dt 0 then Err OverflowError
            else
              out <- mapM (fun z =>
                       v <- taper_any (z ++ repeat 0%R (full_length - orig_nt)) (trunc (10 / dt)) ;;
                       Ok (firstn orig_nt (pass_periods dt a b v))) data ;;
              Ok (out, data)
        end
  | _ => Err IndexError
  end.

(** ** Variance *)
(** [np.nanvar] of one series: over the values that are not NaN; NaN if there are none. *)
Definition present (l : list (option Q)) : list Q := flat_map (fun o => match o with Some x => [x] | None => [] end) l.
Definition qmean (l : list Q) : Q := (fold_right Qplus 0 l / inject_Z (Z.of_nat (length l)))%Q.
Definition nanvar (l : list (option Q)) : option Q :=
  match present l with
  | [] => None
  | xs => let m := qmean xs in Some (qmean (map (fun x => (x - m) * (x - m)) xs))%Q
  end.
(** compute_mjo_indices.py 298-310, [zon_avg_variance], for rows of [nlon] values. *)
Definition zon_avg_variance (nlon : nat) (data : list (list (option Q))) : res (option Q) :=
  var <- mapM (fun j => c <- column j data ;; Ok (nanvar c)) (seq 0 nlon) ;;
  Ok (nanmean var).
