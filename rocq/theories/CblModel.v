(** Central blocking latitudes: metcalcpy/contributed/blocking_weather_regime/Blocking.py 41-76.  Reading of files
    is not modelled.  Heights are exact rationals, NaN is [None]; standard deviations and weights are reals. *)
From Verif Require Import PyBase ColumnModel BlockModel.
From Coq Require Import Reals Qreals.
From Coq Require Import List.
Open Scope Z_scope.

(** [np.nanstd] of numbers: NaN if there is none. *)
Definition nanstd (l : list (option Q)) : option R :=
  match some_numbers l with
  | [] => None
  | qs =>
      let n := inject_Z (Z.of_nat (length qs)) in
      let m := (plus_all qs / n)%Q in
      Some (sqrt (Q2R (plus_all (map (fun q => (q - m) * (q - m)) qs) / n)))%Q
  end.
(** Blocking.py 52-55: the weight of a latitude; the square root of a negative number is NaN. *)
Definition way (lat : Q) : option R :=
  let c := cos (Q2R lat * PI / 180) in if Rlt_dec c 0 then None else Some (sqrt c).
Definition times (a b : option R) : option R := match a, b with Some x, Some y => Some (x * y)%R | _, _ => None end.
(** Blocking.py 60-61: [mhweight] of one year, by latitude and longitude.  The arrays are assumed to have the
    shape (day, latitude, longitude) with the latitudes and longitudes of the file. *)
Definition mhweight (lats : list Q) (nlon : nat) (days : list (list (list (option Q)))) : res (list (list (option R))) :=
  mapM (fun p => mapM (fun j => hs <- mapM (fun day => row <- item (Z.of_nat (fst p)) day ;; item (Z.of_nat j) row) days ;;
    Ok (times (nanstd hs) (way (snd p)))) (seq 0 nlon)) (combine (seq 0 (length lats)) lats).
(** [np.argmax]: the first NaN, or else the first greatest number. *)
Fixpoint first_nan (k : nat) (l : list (option R)) : option nat :=
  match l with [] => None | None :: _ => Some k | Some _ :: t => first_nan (S k) t end.
Fixpoint first_max (best : R) (place k : nat) (l : list (option R)) : nat :=
  match l with
  | [] => place
  | Some r :: t => if Rlt_dec best r then first_max r k (S k) t else first_max best place (S k) t
  | None :: t => first_max best place (S k) t
  end.
Definition argmax (l : list (option R)) : res nat :=
  match first_nan 0 l with
  | Some k => Ok k
  | None => match l with Some r :: t => Ok (first_max r 0 1 t) | _ => Err ValueError end
  end.
(** Blocking.py 62-65: the latitudes of one year. *)
Definition cbl_year (lats : list Q) (nlon : nat) (ws : list (list (option R))) : res (list Q) :=
  mapM (fun j => w <- column j ws ;; k <- argmax w ;; item (Z.of_nat k) lats) (seq 0 nlon).
(** Blocking.py 68-74: the moving average of one year; the mean of no values is NaN, whose conversion to a whole
    number is not modelled.  The code takes all years of a longitude together. *)
Definition moving (m : Z) (row : list Q) : res (list Q) :=
  let lt := Z.of_nat (length row) in
  mapM (fun i => qs <- mapM (fun x => item (if lt <=? x then x - lt else x) row) (arange (Z.of_nat i - m) (Z.of_nat i + m)) ;;
    match qs with
    | [] => Err NotModelled
    | _ => Ok (inject_Z (trunc (plus_all qs / inject_Z (Z.of_nat (length qs)))))
    end) (seq 0 (length row)).
(** Blocking.py 41-76, [run_CBL] of an object made with [smoothing_pts].  [exit()] is SystemExit.  The weights
    have 360 columns: another number of longitudes cannot be multiplied with them, or (for one longitude) not be
    stored. *)
Definition run_CBL (smoothing_pts : Z) (lats : list Q) (nlon : nat) (years : list (list (list (list (option Q)))))
  : res (list (list Q) * list (list (list (option R)))) :=
  if Z.even smoothing_pts then Err SystemExit
  else if negb ((Z.of_nat nlon =? 360) || (Z.of_nat nlon =? 1)) then Err ValueError
  else match lats, years with
       | [], _ => Err ValueError
       | _, [] => Err IndexError
       | _, _ =>
           if negb (Z.of_nat nlon =? 360) then Err ValueError
           else
             ws <- mapM (mhweight lats nlon) years ;;
             cbl <- mapM (cbl_year lats nlon) ws ;;
             cblf <- mapM (moving (Z.quot (smoothing_pts - 1) 2)) cbl ;;
             Ok (cblf, ws)
       end.
