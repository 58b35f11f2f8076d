(** Wind power of the Madden-Julian oscillation: metcalcpy/contributed/mjo_enso/compute_mjo_enso.py 62-117.  Numbers are
    reals; NaN is [None]. *)
From Coq Require Import Reals ZArith.
From Verif Require Import PyBase TropicsModel.
From Coq Require Import List.
Import ListNotations.
Open Scope nat_scope.
Open Scope list_scope.

(** compute_mjo_enso.py 70-77: the width of the Kelvin wave in degrees of latitude. *)
Definition hequiv : R := 90%R.
Definition beta : R := (228 / 10 ^ 13)%R.
Definition cwave : R := sqrt (981 / 10 ^ 4 * hequiv).
Definition eleq : R := (sqrt (cwave / beta) / 111000)%R.
(** [np.argmin]: the first of the least values. *)
Fixpoint argmin_from (i best : nat) (b : R) (l : list R) : nat :=
  match l with
  | [] => best
  | x :: l' => if Rlt_dec x b then argmin_from (S i) i x l' else argmin_from (S i) best b l'
  end.
Definition argmin (l : list R) : nat := match l with [] => 0 | x :: l' => argmin_from 1 0 x l' end.
(** compute_mjo_enso.py 98-99: the value at [jnot + m], from that at [jnot]. *)
Fixpoint up (d : R) (yy : nat -> R) (jnot : nat) (start : R) (m : nat) : R :=
  match m with
  | 0 => start
  | S m' => (up d yy jnot start m' * (d - yy (jnot + m')%nat) / (d + yy (jnot + m)%nat))%R
  end.
(** compute_mjo_enso.py 101-103: the value at [jnot - m], from that at [jnot + 1]; the value at [jnot] itself is computed
    again. *)
Fixpoint down (d : R) (yy : nat -> R) (jnot : nat) (next : R) (m : nat) : R :=
  match m with
  | 0 => (next * (d + yy (jnot + 1)%nat) / (d - yy jnot))%R
  | S m' => (down d yy jnot next m' * (d + yy (jnot - m')%nat) / (d - yy (jnot - m)%nat))%R
  end.
(** compute_mjo_enso.py 70-103: the structure of the Kelvin wave at the latitudes [lat], for an error function [erf].  [jnot]
    as the last index makes [phik[k+1]] raise IndexError; this is tested here before the numbers are computed, which raise
    nothing.  Not modelled: equal first and last latitudes, a norm that is not positive (its root is NaN or infinite), and
    divisors of 0. *)
Definition structure (erf : R -> R) (lat : list R) : res (list R) :=
  match lat with
  | [] => Err IndexError
  | ysd :: _ =>
      let n := length lat in
      let yn := (last lat ysd / eleq)%R in
      let ys := (ysd / eleq)%R in
      let dy := ((yn - ys) / INR n)%R in
      let dyinv := (2 / dy)%R in
      let yy j := (ys + (INR (j + 1) - 1 / 2) * dy)%R in
      let jnot := argmin (map (fun j => Rabs (yy j)) (seq 0 n)) in
      if jnot + 1 =? n then Err IndexError
      else
        let norm := (sqrt PI * (erf yn + erf (- ys)))%R in
        if Req_EM_T dy 0 then Err NotModelled
        else if Rle_dec norm 0 then Err NotModelled
        else
          let start := (/ sqrt norm * exp (- (1 / 2) * yy jnot * yy jnot))%R in
          if existsb (fun j => if Req_EM_T (if j <=? jnot then dyinv - yy j else dyinv + yy j) 0 then true else false) (seq 0 n)
          then Err NotModelled
          else
            let next := up dyinv yy jnot start 1 in
            Ok (map (fun j => if j <=? jnot then down dyinv yy jnot next (jnot - j) else up dyinv yy jnot start (j - jnot)) (seq 0 n))
  end.
(** A field: for each time rows of latitudes, each with its values or NaN.  [shape nt nlat nlon f]. *)
Definition shaped (nt nlat nlon : nat) (f : list (list (list (option R)))) : bool :=
  (length f =? nt) && forallb (fun g => (length g =? nlat) && forallb (fun r => length r =? nlon) g) f.
Definition at3 (f : list (list (list (option R)))) (t j i : nat) : option R := nth i (nth j (nth t f []) []) None.
Definition mul (a b : option R) : option R := match a, b with Some x, Some y => Some (x * y)%R | _, _ => None end.
Definition add (a b : option R) : option R := match a, b with Some x, Some y => Some (x + y)%R | _, _ => None end.
(** compute_mjo_enso.py 62-117, [calc_wpower_MJO].  All four fields have the coordinates of [u]; fields of other sizes raise
    ValueError (sizes that numpy can broadcast, and fields on other coordinates, are not modelled). *)
Definition calc_wpower_MJO (erf : R -> R) (nt : nat) (lat : list R) (nlon : nat) (u v uflx vflx : list (list (list (option R))))
  : res (list (list (list (option R)))) :=
  phik <- structure erf lat ;;
  if negb (shaped nt (length lat) nlon u && shaped nt (length lat) nlon v) then Err NotModelled
  else if negb (shaped nt (length lat) nlon uflx && shaped nt (length lat) nlon vflx) then Err ValueError
  else
    let k j := Some (nth j phik 0%R) in
    Ok (map (fun t => map (fun j => map (fun i =>
          add (mul (mul (at3 u t j i) (k j)) (at3 uflx t j i)) (mul (mul (at3 v t j i) (k j)) (at3 vflx t j i)))
        (seq 0 nlon)) (seq 0 (length lat))) (seq 0 nt)).
