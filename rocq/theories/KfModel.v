(** The filter for equatorial waves: metcalcpy/contributed/spacetime/spacetime.py.  Numbers that depend on roots or on
    pi are reals; NaN is [None]. *)
From Coq Require Import Reals Qreals String.
From Verif Require Import PyBase ColumnModel WavesModel.
From Coq Require Import List.
Import ListNotations.
Open Scope nat_scope.
Open Scope list_scope.

(** spacetime.py 46-49: radius of the earth, gravity, rotation, and the change of the Coriolis parameter. *)
Definition re : R := 6371008%R.
Definition g : R := (980665 / 100000)%R.
Definition omega : R := (7292 / 100000000)%R.
Definition beta : R := (2 * omega / re)%R.

(** Python's [round] of a float: ties go to the even neighbour. *)
Definition round_py (q : Q) : Z :=
  let f := Qfloor q in
  let d := (q - inject_Z f)%Q in
  if Qlt_bool d (1 # 2) then f
  else if Qlt_bool (1 # 2) d then (f + 1)%Z
  else if Z.even f then f else (f + 1)%Z.
(** [int(np.floor(x))] and [int(np.ceil(x))]. *)
Definition floor_r (x : R) : Z := Int_part x.
Definition ceil_r (x : R) : Z := (- Int_part (- x))%Z.
(** A bound of a Python slice for [n] places. *)
Definition bound (n : nat) (z : Z) : Z :=
  let n := Z.of_nat n in if (z <? 0)%Z then Z.max 0 (z + n) else Z.min z n.
(** [column[a:b] = 0]. *)
Definition zero_slice (a b : Z) (col : list cplx) : list cplx :=
  let a := bound (length col) a in
  let b := bound (length col) b in
  map (fun p => let '(j, v) := p in if ((a <=? Z.of_nat j) && (Z.of_nat j <? b))%Z then (0%R, 0%R) else v)
      (combine (seq 0 (length col)) col).
(** [array[:, a:b] = 0]: all of these columns. *)
Definition zero_columns (a b : Z) (cols : list (list cplx)) : list (list cplx) :=
  let a := bound (length cols) a in
  let b := bound (length cols) b in
  map (fun p => let '(i, col) := p in
                if ((a <=? Z.of_nat i) && (Z.of_nat i <? b))%Z then map (fun _ => (0%R, 0%R)) col else col)
      (combine (seq 0 (length cols)) cols).
(** spacetime.py 484-496: the place of a limit of the wavenumbers. *)
Definition place (nk : Z) (k : Q) : Z :=
  if Qlt_bool k 0 then Z.max (round_py (inject_Z nk + k)) (nk / 2) else Z.min (round_py k) (nk / 2).
(** spacetime.py 524: [np.sqrt(g * h)]. *)
Definition root_depth (h : Q) : option R := if Qlt_bool h 0 then None else Some (sqrt (g * Q2R h)).
(** spacetime.py 515-524: the speeds for both depths.  If exactly one of them is -9999, one entry of the array made by
    [np.empty] is never written: [junk], whatever was in the memory. *)
Definition speeds (junk : option R) (hMin hMax : Q) : option R * option R :=
  if Qeq_bool hMin (-9999) then (None, if Qeq_bool hMax (-9999) then None else junk)
  else if Qeq_bool hMax (-9999) then (junk, None)
  else (root_depth hMin, root_depth hMax).
Definition is_name (waveName : string) (l : list string) : bool := existsb (String.eqb waveName) l.
(** spacetime.py 541-565: the frequency of a wave with wavenumber [k] and speed [c]; [None] is NaN.  Division by a speed
    of 0 gives infinity, whose inverse is 0 and which gives NaN times 0; the root of a negative number is NaN.  [other] is
    used if there is no such wave. *)
Definition wave_freq (waveName : string) (k : R) (other : R) (c : option R) : option R :=
  if is_name waveName ["Kelvin"; "kelvin"; "KELVIN"]%string then option_map (fun c => k * c)%R c
  else if is_name waveName ["ER"; "er"]%string then
    match c with
    | None => None
    | Some c => if Req_EM_T c 0 then Some 0%R
                else if Req_EM_T (k ^ 2 + 3 * beta / c) 0 then None
                else Some (- beta * k / (k ^ 2 + 3 * beta / c))%R
    end
  else if is_name waveName ["MRG"; "IG0"; "mrg"; "ig0"]%string then
    match c with
    | None => None
    | Some c =>
        if Req_EM_T k 0 then (if Rlt_dec (beta * c) 0 then None else Some (sqrt (beta * c)))
        else if Req_EM_T c 0 then None
        else let d := (1 + 4 * beta / (k ^ 2 * c))%R in
             if Rlt_dec d 0 then None
             else if Rlt_dec 0 k then Some (k * c * (1 / 2 + 1 / 2 * sqrt d))%R
             else Some (k * c * (1 / 2 - 1 / 2 * sqrt d))%R
    end
  else if is_name waveName ["IG1"; "ig1"]%string then
    match c with
    | None => None
    | Some c => let d := (3 * beta * c + k ^ 2 * c ^ 2)%R in if Rlt_dec d 0 then None else Some (sqrt d)
    end
  else if is_name waveName ["IG2"; "ig2"]%string then
    match c with
    | None => None
    | Some c => let d := (5 * beta * c + k ^ 2 * c ^ 2)%R in if Rlt_dec d 0 then None else Some (sqrt d)
    end
  else Some other.
(** spacetime.py 531-536: the wavenumber that is assumed for place [i]. *)
Definition wavenumber (nk i : nat) : R := if 2 * i <? nk then (INR i / re)%R else (- INR (nk - i) / re)%R.
(** spacetime.py 530-581: one turn of the loop: limits for place [i] and the column with zeros outside of them.  [int] of
    NaN raises ValueError. *)
Definition wave_column (junk : option R) (obsPerDay hMin hMax : Q) (waveName : string) (nk nf i : nat) (col : list cplx)
  : res (list cplx) :=
  let nt := ((Z.of_nat nf - 1) * 2)%Z in
  let spc := (24 * 3600 / (2 * PI * Q2R obsPerDay))%R in
  let k := wavenumber nk i in
  let '(c0, c1) := speeds junk hMin hMax in
  jMinWave <- (if Qeq_bool hMin (-9999) then Ok 0%Z
               else match wave_freq waveName k 0 c0 with
                    | None => Err ValueError
                    | Some f => Ok (floor_r (f * spc * IZR nt))
                    end) ;;
  jMaxWave <- (if Qeq_bool hMax (-9999) then Ok (Z.of_nat nf)
               else match wave_freq waveName k (INR nf / spc) c1 with
                    | None => Err ValueError
                    | Some f => Ok (ceil_r (f * spc * IZR nt))
                    end) ;;
  let jMaxWave := Z.max jMaxWave 0 in
  let jMinWave := Z.min jMinWave (Z.of_nat nf) in
  let col := if (0 <? jMinWave)%Z then zero_slice 0 jMinWave col else col in
  Ok (if (jMaxWave <? Z.of_nat nf)%Z then zero_slice (jMaxWave + 1) (Z.of_nat nf) col else col).
(** [nt / (t * obsPerDay)], rounded. *)
Definition step_of (nt : Z) (t obsPerDay : Q) : res Z :=
  if Qeq_bool (t * obsPerDay) 0 then Err ZeroDivisionError else Ok (round_py (inject_Z nt / (t * obsPerDay))).
(** spacetime.py 460-586, [kf_filter_mask].  The array (wavenumber x frequency) is a list of rows; after it was transposed
    and turned ([[:, ::-1]]) the rows in reverse order are the columns.  No rows: not modelled. *)
Definition kf_filter_mask (junk : option R) (fftIn : list (list cplx)) (obsPerDay tMin tMax kMin kMax hMin hMax : Q)
  (waveName : string) : res (list (list cplx)) :=
  match fftIn with
  | [] => Err NotModelled
  | row :: _ =>
      let cols := rev fftIn in
      let nk := length fftIn in
      let nf := length row in
      let nt := ((Z.of_nat nf - 1) * 2)%Z in
      jMin <- step_of nt tMax obsPerDay ;;
      jMax <- step_of nt tMin obsPerDay ;;
      let jMax := Z.min jMax (Z.of_nat nf) in
      let iMin := place (Z.of_nat nk) kMin in
      let iMax := place (Z.of_nat nk) kMax in
      let cols := if (0 <? jMin)%Z then map (zero_slice 0 jMin) cols else cols in
      let cols := if (jMax <? Z.of_nat nf)%Z then map (zero_slice (jMax + 1) (Z.of_nat nf)) cols else cols in
      let cols :=
        if (iMin <? iMax)%Z then
          let cols := if (0 <? iMin)%Z then zero_columns 0 iMin cols else cols in
          if (iMax <? Z.of_nat nk)%Z then zero_columns (iMax + 1) (Z.of_nat nk) cols else cols
        else zero_columns (iMax + 1) iMin cols in
      cols <- mapM (fun p => let '(i, col) := p in wave_column junk obsPerDay hMin hMax waveName nk nf i col)
                   (combine (seq 0 nk) cols) ;;
      Ok (rev cols)
  end.

(** An array made place by place. *)
Definition tabulate {A} (n m : nat) (f : nat -> nat -> A) : list (list A) :=
  map (fun i => map (f i) (seq 0 m)) (seq 0 n).
(** The entry at row [i] and column [j] of an array; used for places it has. *)
Definition entry {A} (d : A) (M : list (list A)) (i j : nat) : A := nth j (nth i M []) d.
(** [np.fft.rfft2] of an array (longitude x time) given by its entries, with [nk] longitudes and [nt] times. *)
Definition rfft2 (nk nt : nat) (v : nat -> nat -> R) : list (list cplx) :=
  tabulate nk (nt / 2 + 1) (fun r j =>
    (rsum (map (fun x => rsum (map (fun t => v x t * cos (turn nk r x + turn nt j t))%R (seq 0 nt))) (seq 0 nk)),
     (- rsum (map (fun x => rsum (map (fun t => v x t * sin (turn nk r x + turn nt j t))%R (seq 0 nt))) (seq 0 nk)))%R)).
(** [np.fft.irfft2]: [m] frequencies give [2 * (m - 1)] times; coefficients other than the first and the last count
    twice.  The result is (longitude x time). *)
Definition irfft2 (C : list (list cplx)) : res (list (list R)) :=
  let nk := length C in
  let m := match C with row :: _ => length row | [] => 0 end in
  let nt := 2 * (m - 1) in
  if nt =? 0 then Err ValueError
  else Ok (tabulate nk nt (fun x t =>
    rsum (map (fun r => rsum (map (fun j =>
      let '(a, b) := entry (0, 0)%R C r j in
      ((if (j =? 0) || (j =? m - 1) then 1 else 2) / (INR nk * INR nt) *
       (a * cos (turn nk r x + turn nt j t) - b * sin (turn nk r x + turn nt j t)))%R) (seq 0 m))) (seq 0 nk)))).
(** [np.transpose]. *)
Definition transpose (n m : nat) (M : list (list R)) : list (list R) := tabulate m n (fun j i => entry 0%R M i j).
(** spacetime.py 589-614, [kf_filter]: data (time x longitude).  No times or longitudes: ValueError of the transform; a
    ragged array has no second axis. *)
Definition kf_filter (junk : option R) (data : list (list R)) (obsPerDay tMin tMax kMin kMax hMin hMax : Q) (waveName : string)
  : res (list (list R)) :=
  let nt := length data in
  let nk := match data with row :: _ => length row | [] => 0 end in
  if negb (forallb (fun row => length row =? nk) data) then Err ValueError
  else if (nt =? 0) || (nk =? 0) then Err ValueError
  else
    fftfilt <- kf_filter_mask junk (rfft2 nk nt (fun x t => entry 0%R data t x)) obsPerDay tMin tMax kMin kMax hMin hMax waveName ;;
    datafilt <- irfft2 fftfilt ;;
    Ok (transpose nk (2 * (nt / 2)) datafilt).
