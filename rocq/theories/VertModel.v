(** Vertical interpolation (metcalcpy/vertical_interp.py) of one column of a field.  The code works on
    whole arrays element by element, so every column is treated alike.  A value that is NaN is [None];
    floats are real numbers.  The numbers that label the levels are assumed to be distinct, and the
    coordinate surfaces to have the shape of the field. *)
From Coq Require Import Reals List.
From Verif Require Import PyBase TostModel MctsModel.
From Coq Require Import List.
Open Scope R_scope.

Notation nan := (option R).
Definition nan_map2 (f : R -> R -> R) (a b : nan) : nan :=
  match a, b with Some x, Some y => Some (f x y) | _, _ => None end.

Section Column.
Variables (surfaces : list nan) (length_convert eta : R).

(** vertical_interp.py 163-165: [distances], [above], [below]. *)
Definition distance (k : nat) : nan :=
  match nth k surfaces None with Some z => Some (eta - length_convert * z) | None => None end.
Definition above (k : nat) : bool := match distance k with Some d => Rltb d 0 | None => false end.
Definition below (k : nat) : bool := match distance k with Some d => Rltb 0 d | None => false end.

(** vertical_interp.py 182-185; used only where both levels are numbers. *)
Definition weight_above (k : nat) : R :=
  match distance (k - 1), nth k surfaces None, nth (k - 1) surfaces None with
  | Some d, Some z1, Some z0 => d / ((z1 - z0) * length_convert)
  | _, _, _ => 0
  end.

(** vertical_interp.py 175-194, the body of the loop. *)
Definition weight_step (weights : list R) (k : nat) : list R :=
  let mask := above k && below (k - 1) in
  let wa := weight_above k in
  let wb := 1 - wa in
  let weights := set_nth k (if mask then wa else nth k weights 0) weights in
  set_nth (k - 1) (if mask then wb else nth (k - 1) weights 0) weights.

(** vertical_interp.py 158-199. *)
Definition layer_weights : list R :=
  let nlev := length surfaces in
  let weights := repeat 0 nlev in
  let weights := set_nth 0 (if above 0 then 1 else 0) weights in
  let weights := fold_left weight_step (seq 1 (nlev - 1)) weights in
  set_nth (nlev - 1) (if below (nlev - 1) then 1 else 0) weights.

(** vertical_interp.py 216-224: sum over the levels with a positive weight, and their number. *)
Definition sum_step (weights : list R) (field : list nan) (acc : nan * nat) (k : nat) : nan * nat :=
  let weights_k := nth k weights 0 in
  if Rltb 0 weights_k then
    (nan_map2 Rplus (fst acc) (nan_map2 Rmult (Some weights_k) (nth k field None)), S (snd acc))
  else acc.

(** vertical_interp.py 156-227 for one target [eta]; no levels: [vertical_coord[0]] is an IndexError. *)
Definition interp_level (field : list nan) : res nan :=
  match surfaces with
  | [] => Err IndexError
  | _ =>
      let acc := fold_left (sum_step layer_weights field) (seq 0 (length surfaces)) (Some 0, O) in
      Ok (if Nat.ltb 0 (snd acc) then fst acc else None)
  end.
End Column.

(** vertical_interp.py 62-253, [vertical_interp]: one value per requested level. *)
Fixpoint vertical_interp (surfaces : list nan) (length_convert : R) (field : list nan) (levels : list R)
  : res (list nan) :=
  match levels with
  | [] => Ok []
  | eta :: rest =>
      v <- interp_level surfaces length_convert eta field ;;
      t <- vertical_interp surfaces length_convert field rest ;;
      Ok (v :: t)
  end.

(** ** Heights of pressure levels *)
Section Heights.
(** Ratio of the gas constant of dry air to gravity. *)
Variable ratio : R.
(** vertical_interp.py 340-355: thickness of a layer below level [k].  The virtual temperature comes
    from MetPy and is an argument; NaN becomes 0, as does a negative thickness.  Simplification: a
    logarithm of a number that is not positive counts as NaN (it is -inf for zero, also clipped to 0
    for a positive temperature). *)
Definition thickness (temperature : nan) (lower upper : R) : R :=
  match temperature with
  | Some t => if Rltb 0 (lower / upper) then Rmax (ratio * t * ln (lower / upper)) 0 else 0
  | None => 0
  end.

(** vertical_interp.py 362-385: heights above the lowest level; [prev] is the pressure of the level
    below and [height] its height, [surface] the surface pressure in the unit of the levels. *)
Fixpoint heights_above (surface_height surface : R) (prev : R) (height : nan) (levels : list (R * nan))
  : list nan :=
  match levels with
  | [] => []
  | (p, t) :: rest =>
      let mask := Rltb surface prev && Rltb p surface in
      let h :=
        if mask then Some (surface_height + thickness t prev p)
        else nan_map2 Rplus height (Some (thickness t prev p)) in
      h :: heights_above surface_height surface p h rest
  end.

(** vertical_interp.py 256-413, [height_from_pressure], for one column: levels are pairs of a pressure
    and a virtual temperature. *)
Definition height_from_pressure (gravity surface_geopotential pressure_convert surface_pressure : R)
  (levels : list (R * nan)) : res (list nan) :=
  let surface_height := surface_geopotential / gravity in
  let surface := pressure_convert * surface_pressure in
  match levels with
  | [] => Err IndexError
  | (p, t) :: rest =>
      let mask := Rltb p surface in
      let h := if mask then Some (surface_height + thickness t surface p) else None in
      Ok (h :: heights_above surface_height surface p h rest)
  end.
End Heights.
