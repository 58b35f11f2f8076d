(** The indices RMM and OMI: metcalcpy/contributed/rmm_omi/compute_mjo_indices.py.  Least squares are exact: singular values
    that numpy treats as zero because they are small ([rcond]) are not. *)
From Coq Require Import Reals Qreals ZArith QArith.
From Verif Require Import PyBase ColumnModel TropicsModel SpectraModel WavesModel ActivityModel MjoModel.
From Coq Require Import List.
Import ListNotations.
Open Scope nat_scope.
Open Scope list_scope.

(** ** Projection onto two patterns *)
Definition dot (u v : list R) : R := rsum (map (fun p => fst p * snd p)%R (combine u v)).
(** [np.linalg.lstsq] of numpy for two columns: the solution of least squares that is itself least. *)
Definition lstsq (e1 e2 v : list R) : R * R :=
  let a := dot e1 e1 in let b := dot e1 e2 in let c := dot e2 e2 in
  let p := dot e1 v in let q := dot e2 v in
  let det := (a * c - b * b)%R in
  if Req_EM_T det 0 then
    if Req_EM_T (a + c) 0 then (0, 0)%R
    else (p / (a + c), q / (a + c))%R
  else ((c * p - b * q) / det, (a * q - b * p) / det)%R.
(** compute_mjo_indices.py 202-217, [regress_vector_onto_eofs].  A vector of another length raises numpy's LinAlgError, which
    is not modelled. *)
Definition regress_vector_onto_eofs (vector eof1 eof2 : list R) : res (R * R) :=
  if negb (length eof1 =? length eof2) then Err ValueError
  else if negb (length vector =? length eof1) then Err NotModelled
  else Ok (lstsq eof1 eof2 vector).
(** [np.reshape(v, n)] of one row. *)
Definition reshape (n : nat) (v : list R) : res (list R) := if length v =? n then Ok v else Err ValueError.
(** compute_mjo_indices.py 174-199, [regress_2dim_data_onto_eofs], for rows of [nlon] values and [ntime] times. *)
Definition regress_2dim_data_onto_eofs (nlon : nat) (data : list (list R)) (ntime : nat) (eof1 eof2 : list R) : res (list (R * R)) :=
  mapM (fun idx =>
    row <- get idx data ;;
    v <- reshape nlon row ;;
    e1 <- reshape nlon eof1 ;;
    e2 <- reshape nlon eof2 ;;
    regress_vector_onto_eofs v e1 e2) (seq 0 ntime).

(** ** RMM *)
(** A field with its longitudes: a row for each time. *)
Record field := Field { lon : list Q; rows : list (list (option Q)) }.
(** A pattern with its longitudes: a row for each variable. *)
Record pattern := Pattern { plon : list Q; prows : list (list R) }.
(** [np.all(a == b)] for two coordinates of xarray: before they are compared, both are reduced to the labels they share. *)
Definition all_equal (a b : list Q) : bool :=
  let a' := filter (fun l => existsb (Qeq_bool l) b) a in
  forallb (fun p => Qeq_bool (fst p) (snd p)) (combine a' a').
(** compute_mjo_indices.py 54-57: [values / norm[i]]; a norm of 0 is not modelled. *)
Definition normalize (i : nat) (norm : list Q) (values : list (list (option Q))) : res (list (list (option Q))) :=
  n <- get i norm ;;
  if Qeq_bool n 0 then Err NotModelled
  else Ok (map (map (option_map (fun x => x / n)%Q)) values).
(** The numbers of an array; NaN in the least squares is not modelled. *)
Definition numbers (row : list (option Q)) : res (list R) :=
  mapM (fun o => match o with Some x => Ok (Q2R x) | None => Err NotModelled end) row.
(** Assigning an array of [n'] x [w'] to a place of [n] x [w]; the repetition of one row or column is not modelled. *)
Definition fits (n w n' w' : nat) : res unit :=
  if (n =? n') && (w =? w') then Ok tt
  else if (n' =? 1) || (w' =? 1) then Err NotModelled
  else Err ValueError.
(** compute_mjo_indices.py 69-74: the three rows of both patterns. *)
Definition join_patterns (nlon : nat) (EOF1 EOF2 : pattern) : res (list R * list R) :=
  ps <- mapM (fun i =>
    e1 <- get i (prows EOF1) ;;
    _ <- fits 0 nlon 0 (length e1) ;;
    e2 <- get i (prows EOF2) ;;
    _ <- fits 0 nlon 0 (length e2) ;;
    Ok (e1, e2)) [0; 1; 2] ;;
  Ok (concat (map fst ps), concat (map snd ps)).
(** compute_mjo_indices.py 79-85: [pc * (1 / norm[i])]; a norm of 0 is not modelled. *)
Definition scaled (i : nat) (norm : list Q) (pc : list R) : res (list R) :=
  n <- get i norm ;;
  if Qeq_bool n 0 then Err NotModelled else Ok (map (fun x => x * (1 / Q2R n))%R pc).
(** compute_mjo_indices.py 19-90, [rmm].  The parameter [spd] is not used.  The arrays [np.empty] are written completely
    before they are read.  Times are whole seconds. *)
Definition rmm (olr u850 u200 : field) (time : list Z) (EOF1 EOF2 : pattern) (rmm_norm pc_norm : list Q) : res (list R * list R) :=
  let eoflon := plon EOF1 in
  if negb (all_equal (lon olr) eoflon) then Err ValueError
  else if negb (all_equal (lon u850) eoflon) then Err ValueError
  else if negb (all_equal (lon u200) eoflon) then Err ValueError
  else
    o <- rem_120day_mean (rows olr) time ;;
    a <- rem_120day_mean (rows u850) time ;;
    b <- rem_120day_mean (rows u200) time ;;
    o <- normalize 0 rmm_norm o ;;
    a <- normalize 1 rmm_norm a ;;
    b <- normalize 2 rmm_norm b ;;
    let ntim := length o in
    let nlon := length (lon olr) in
    _ <- fits ntim nlon (length a) (length (lon u850)) ;;
    _ <- fits ntim nlon (length b) (length (lon u200)) ;;
    data <- mapM (fun i => x <- get i o ;; y <- get i a ;; z <- get i b ;; numbers (x ++ y ++ z)) (seq 0 ntim) ;;
    es <- join_patterns nlon EOF1 EOF2 ;;
    pcs <- regress_2dim_data_onto_eofs (3 * nlon) data (length time) (fst es) (snd es) ;;
    pc1 <- scaled 0 pc_norm (map fst pcs) ;;
    pc2 <- scaled 1 pc_norm (map snd pcs) ;;
    Ok (pc1, pc2).

(** ** OMI *)
(** Patterns for the days of a year: latitudes, longitudes, and for each day a row for each latitude. *)
Record daily := Daily { dlat : list Q; dlon : list Q; days : list (list (list R)) }.
(** A time: seconds, and the date pandas makes of them. *)
Definition stamp := (Z * date)%type.
(** [data.sel(time=val)] for data at the times [times], latitude by latitude, as one row. *)
Definition select (times : list stamp) (data : list (list (list R))) (val : stamp) : res (list R) :=
  match filter (fun p => (fst (snd p) =? fst val)%Z) (combine (seq 0 (length times)) times) with
  | [] => Err KeyError
  | [(i, _)] => vs <- mapM (get i) data ;; Ok (concat vs)
  | _ => Err ValueError
  end.
(** compute_mjo_indices.py 139-171, [regress_3dim_data_onto_eofs], for data with the coordinates [lat], [lon] and the times
    [time].  [doy - 1] is never negative. *)
Definition regress_3dim_data_onto_eofs (lat lon : list Q) (data : list (list (list R))) (time : list stamp) (EOF1 EOF2 : daily)
  : res (list (R * R)) :=
  if negb (all_equal lat (dlat EOF1)) then Err ValueError
  else if negb (all_equal lon (dlon EOF1)) then Err ValueError
  else
    let n := length lat * length lon in
    mapM (fun val =>
      olr_singleday <- select time data val ;;
      let doy := dayofyear (snd val) in
      v <- reshape n olr_singleday ;;
      d1 <- get (Z.to_nat (doy - 1)) (days EOF1) ;;
      e1 <- reshape n (concat d1) ;;
      d2 <- get (Z.to_nat (doy - 1)) (days EOF2) ;;
      e2 <- reshape n (concat d2) ;;
      regress_vector_onto_eofs v e1 e2) time.
(** [np.nanstd] of numbers without NaN. *)
Definition nanstd (l : list R) : R :=
  let n := INR (length l) in
  let m := (rsum l / n)%R in
  sqrt (rsum (map (fun x => (x - m) * (x - m))%R l) / n)%R.
(** compute_mjo_indices.py 93-135, [omi], for OLR with the coordinates [lat], [lon] and the times [time], given latitude by
    latitude.  The parameter [spd] is not used.  A step of 0 between the first times is an infinite number of data per
    day, and [int] of it raises OverflowError (if there are latitudes and longitudes).  A standard deviation of 0 is not
    modelled. *)
Definition omi (lat lon : list Q) (olr : list (list (list R))) (time : list stamp) (EOF1 EOF2 : daily) : res (list R * list R) :=
  if negb (all_equal lat (dlat EOF1)) then Err ValueError
  else if negb (all_equal lon (dlon EOF1)) then Err ValueError
  else
    match time with
    | t0 :: t1 :: _ =>
        let time_spacing := (inject_Z (fst t1 - fst t0) / 86400)%Q in
        if Qeq_bool time_spacing 0 then Err OverflowError
        else
          filtered <- perform_3dim_spectral_filtering (length time) (length lon) olr time_spacing 20 96 (-720) 720 ;;
          pcs <- regress_3dim_data_onto_eofs lat lon filtered time EOF1 EOF2 ;;
          let s := nanstd (map fst pcs) in
          if Req_EM_T s 0 then Err NotModelled
          else Ok (map (fun p => fst p * (1 / s))%R pcs, map (fun p => snd p * (1 / s))%R pcs)
    | _ => Err IndexError
    end.
