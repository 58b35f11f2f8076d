(** Tools for tropical diagnostics: metcalcpy/contributed/spacetime/spacetime_utils.py and spacetime.py.  Writing of
    files is not modelled.  An array is a list of lists of equal lengths; NaN is [None]. *)
From Verif Require Import PyBase ColumnModel.
From Coq Require Import String List.
Open Scope nat_scope.

(** ** Longitudes from -180:180 to 0:360 and back *)
(** [np.roll(a, k)] along one axis: the last [k mod n] values move to the front. *)
Definition roll {A : Type} (k : nat) (l : list A) : list A :=
  match length l with
  | 0 => l
  | n => let s := Nat.modulo k n in (skipn (n - s) l ++ firstn (n - s) l)%list
  end.
(** [l[np.where(mask)[0]]]. *)
Definition select {A : Type} (mask : list bool) (l : list A) : list A := map snd (filter fst (combine mask l)).
(** spacetime_utils.py 64-104, [lonFlip]; contributed/tropical_diagnostics/utils.py 62-98 is the same function.  The
    array [lonnew = lon.values] (72) is the storage of [lon] itself if [lon] is stored as an array of its own type
    ([shared]), and a copy otherwise.  Longitudes are numbers.  The coordinates of time and latitude are carried
    over; the constructor of the array refuses longitudes that do not fit to the data (84, 99). *)
Definition lonFlip {A : Type} (shared : bool) (data : list (list (list A))) (lon : list Q)
  : res (list (list (list A)) * list Q) :=
  match lon with
  | [] => Err ValueError
  | _ =>
      let flip (first second : list bool) (up : Q -> Q) (up2 : Q -> Q) (k : nat) :=
        let head := map up (select first lon) in
        let storage := if shared then (head ++ skipn (length head) lon)%list else lon in
        let lonnew := (head ++ map up2 (select second storage))%list in
        if forallb (forallb (fun row => length row =? length lonnew)) data
        then Ok (map (map (roll k)) data, lonnew) else Err ValueError in
      if existsb (fun x => Qlt_bool x 0) lon
      then let neg := map (fun x => Qlt_bool x 0) lon in
           let pos := map (fun x => Qle_bool 0 x) lon in
           flip pos neg (fun x => x) (fun x => (x + 360)%Q) (length (select neg lon))
      else let neg := map (fun x => Qle_bool 180 x) lon in
           let pos := map (fun x => Qlt_bool x 180) lon in
           flip neg pos (fun x => (x - 360)%Q) (fun x => x) (length (select pos lon))
  end.

(** ** Smoothing with the weights 1-2-1 *)
(** Sums and products of numbers that may be NaN. *)
Definition lift2 (f : Q -> Q -> Q) (a b : option Q) : option Q :=
  match a, b with Some x, Some y => Some (f x y) | _, _ => None end.
(** [array_out[i] = v]. *)
Fixpoint put {A : Type} (i : nat) (v : A) (l : list A) : res (list A) :=
  match l, i with
  | [], _ => Err IndexError
  | _ :: t, 0 => Ok (v :: t)
  | x :: t, S i' => t' <- put i' v t ;; Ok (x :: t')
  end.
(** [temp[i]] for a position from the start. *)
Definition get {A : Type} (i : nat) (l : list A) : res A :=
  match nth_error l i with Some x => Ok x | None => Err IndexError end.
(** [np.isnan]. *)
Definition isnan (c : option Q) : bool := match c with None => true | Some _ => false end.
(** spacetime.py 331-338: one position.  The branch for NaN writes to position 0 (332). *)
Definition smooth_at (temp array_out : list (option Q)) (i : nat) : res (list (option Q)) :=
  x <- get i temp ;;
  if isnan x then put 0 None array_out
  else
    left <- (if i =? 0 then Ok true else l <- get (i - 1) temp ;; Ok (isnan l)) ;;
    if (left : bool) then
      r <- get (i + 1) temp ;; put i (lift2 (fun a b => (3 * a + b) / 4)%Q x r) array_out
    else
      right <- (if i =? length temp - 1 then Ok true else r <- get (i + 1) temp ;; Ok (isnan r)) ;;
      l <- get (i - 1) temp ;;
      if (right : bool) then put i (lift2 (fun a b => (3 * a + b) / 4)%Q x l) array_out
      else r <- get (i + 1) temp ;;
           put i (lift2 (fun ab c => (ab + c) / 4)%Q (lift2 (fun c a => c + 2 * a)%Q r x) l) array_out.
(** spacetime.py 330-338: the loop over the positions. *)
Fixpoint smooth_loop (temp array_out : list (option Q)) (is : list nat) : res (list (option Q)) :=
  match is with
  | [] => Ok array_out
  | i :: is' => array_out' <- smooth_at temp array_out i ;; smooth_loop temp array_out' is'
  end.
(** spacetime.py 312-340, [smooth121_1D]. *)
Definition smooth121_1D (temp : list (option Q)) : res (list (option Q)) :=
  smooth_loop temp (map (fun c => lift2 Qmult c (Some 0%Q)) temp) (seq 0 (length temp)).

(** ** Symmetric and antisymmetric parts *)
(** Arithmetic of two rows of an array. *)
Definition rows2 (f : Q -> Q -> Q) (r s : list (option Q)) : list (option Q) :=
  map (fun p => lift2 f (fst p) (snd p)) (combine r s).
(** spacetime.py 234-238, 243-247: the loop over the latitudes. *)
Fixpoint halves (f : Q -> Q -> Q) (X x : list (list (option Q))) (lls : list nat) : res (list (list (option Q))) :=
  match lls with
  | [] => Ok x
  | ll :: lls' =>
      a <- get ll X ;; b <- get (length X - ll - 1) X ;;
      x' <- put ll (rows2 f a b) x ;; halves f X x' lls'
  end.
(** spacetime.py 219-251, [get_symmasymm], for one time: all operations are done for every time alike.  [opt] is
    [None] for [False].  The mask of latitudes has to fit to the array (232, 241). *)
Definition get_symmasymm (X : list (list (option Q))) (lat : list Q) (opt : option string)
  : res (list (list (option Q))) :=
  let NM := length X in
  match opt with
  | None | Some ""%string => Err UnboundLocalError
  | Some o =>
      if String.eqb o "symm" then
        if length lat =? NM then
          let x := select (map (fun l => Qle_bool 0 l) lat) X in
          halves (fun a b => (1 # 2) * (a + b))%Q X x (seq 0 (if Nat.odd (length lat) then NM / 2 + 1 else NM / 2))
        else Err IndexError
      else if String.eqb o "asymm" || String.eqb o "anti-symm" then
        if length lat =? NM then
          let x := select (map (fun l => Qlt_bool 0 l) lat) X in
          halves (fun a b => (1 # 2) * (a - b))%Q X x (seq 0 (NM / 2))
        else Err IndexError
      else Err UnboundLocalError
  end.
