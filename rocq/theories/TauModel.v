(** Wind stress of the Madden-Julian oscillation: metcalcpy/contributed/mjo_enso/compute_mjo_enso.py 8-60.  Numbers are
    reals (the conversion to 32 bits is not modelled), NaN is [None]. *)
From Coq Require Import Reals ZArith QArith.
From Verif Require Import PyBase ColumnModel TropicsModel WavesModel RmmModel.
From Coq Require Import List.
Import ListNotations.
Open Scope nat_scope.
Open Scope list_scope.

(** One entry of the full convolution of [x] and [y]. *)
Definition full_at (x y : list R) (m : nat) : R :=
  rsum (map (fun p => snd p * (if fst p <=? m then nth (m - fst p) y 0 else 0))%R (combine (seq 0 (length x)) x)).
(** [np.convolve(a, v, mode='same')]: as many values as the longer of the two has, from the middle of all; ValueError if
    one is empty. *)
Definition convolve_same (a v : list R) : res (list R) :=
  match a, v with
  | [], _ | _, [] => Err ValueError
  | _, _ =>
      let '(x, y) := if length a <? length v then (v, a) else (a, v) in
      Ok (map (fun k => full_at x y (k + (length y - 1) / 2)) (seq 0 (length x)))
  end.
(** compute_mjo_enso.py 23-25: one series.  A filter longer than the series gives another length: ValueError from the
    difference or from the assignment. *)
Definition band_pass (s f1 : list R) (f2 : res (list R)) : res (list R) :=
  LowPass <- convolve_same s f1 ;;
  if negb (length LowPass =? length s) then Err ValueError
  else
    let HighPass := map (fun p => fst p - snd p)%R (combine s LowPass) in
    f2 <- f2 ;;
    out <- convolve_same HighPass f2 ;;
    if negb (length out =? length s) then Err ValueError else Ok out.
(** compute_mjo_enso.py 14: the points where there is a value at time 10. *)
Definition there (s : list (option R)) : bool := match nth_error s 10 with Some (Some _) => true | _ => false end.
(** The series of a point without NaN; others are not modelled (NaN would spread). *)
Definition whole (s : list (option R)) : res (list R) :=
  mapM (fun o => match o with Some x => Ok x | None => Err NotModelled end) s.
(** [np.std(…, ddof=1)] of a series. *)
Definition std1 (l : list R) : R :=
  let m := (rsum l / INR (length l))%R in
  sqrt (rsum (map (fun x => (x - m) * (x - m))%R l) / (INR (length l) - 1))%R.
(** The new values at the points that are there, the old ones elsewhere: [flx_MJO[indx,:] = flxMJO] (54-55). *)
Fixpoint fill (points : list (list (option R))) (new : list (list R)) : list (list (option R)) :=
  match points with
  | [] => []
  | s :: ps => if there s then match new with n :: new' => map Some n :: fill ps new' | [] => s :: fill ps [] end
               else s :: fill ps new
  end.
(** compute_mjo_enso.py 19-25: as many series as the first filter has columns are filtered, the others stay as they are. *)
Definition filtered (flx filt1 filt2 : list (list R)) : res (list (list R)) :=
  done <- mapM (fun i => s <- get i flx ;; f1 <- get i filt1 ;; band_pass s f1 (get i filt2)) (seq 0 (length filt1)) ;;
  Ok (done ++ skipn (length filt1) flx).
(** compute_mjo_enso.py 38-39: one row of [pct]: the projection of the series on a pattern. *)
Definition project (nt : nat) (flxi : list (list R)) (u : list R) : list R :=
  map (fun t => (rsum (map (fun p => fst p * nth t (snd p) 0) (combine u flxi)) / INR (length flxi))%R) (seq 0 nt).
(** compute_mjo_enso.py 45-50: what one coefficient adds to the series of a point. *)
Definition share (f pc : list R) : list R := map (fun y => dot f pc / std1 pc * y)%R pc.
(** compute_mjo_enso.py 8-60, [calc_tau_MJO].  The flux has [nt] times and is given point by point, a series of values or
    NaN for each (so the order of latitudes and longitudes does not matter); the patterns have one row for each, with a
    value for each point; the filters are given column by column.  With a single point [np.squeeze] leaves a number and
    not a list of indices, and the series that is left has one dimension only: [flx[:,i]] raises IndexError.  Not modelled:
    NaN in series that are used or in patterns at such points, no points, standard deviations of 0. *)
Definition calc_tau_MJO (nt : nat) (flxa : list (list (option R))) (flx_eof : list (list (option R))) (filt1 filt2 : list (list R))
  : res (list (list (option R))) :=
  if nt <=? 10 then Err IndexError
  else
    let indx := filter (fun i => there (nth i flxa [])) (seq 0 (length flxa)) in
    flx <- mapM (fun i => s <- get i flxa ;; whole s) indx ;;
    if (length indx =? 1) then match filt1 with [] => Err NotModelled | _ => Err IndexError end
    else
      flxi <- filtered flx filt1 filt2 ;;
      un <- mapM (fun row => mapM (fun i => o <- get i row ;; match o with Some x => Ok x | None => Err NotModelled end) indx) flx_eof ;;
      match flxi with
      | [] => Err NotModelled
      | _ =>
          let pct := map (project nt flxi) un in
          if length pct <? 4 then Err IndexError
          else
            if existsb (fun pc => if Req_EM_T (std1 pc) 0 then true else false) (firstn 4 pct) then Err NotModelled
            else
              let flxMJO := map (fun f => fold_left (fun acc pc => map (fun p => fst p + snd p)%R (combine acc (share f pc)))
                                            (firstn 4 pct) (repeat 0%R nt)) flxi in
              Ok (fill flxa flxMJO)
      end.
