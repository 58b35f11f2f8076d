(** Spectra of tropical waves: metcalcpy/contributed/spacetime/spacetime.py and
    metcalcpy/contributed/rmm_omi/compute_mjo_indices.py.  Fourier transforms and the removal of trends (numpy, scipy)
    are not modelled.  Numbers that depend on cosines and roots are reals; NaN is [None]. *)
From Coq Require Import Reals.
From Verif Require Import PyBase ColumnModel BlockModel TropicsModel.
From Coq Require Import List.
Open Scope nat_scope.

(** ** Tapering *)
(** spacetime.py 357: the weight for step [i] of [M]. *)
Definition bell (M i : nat) : R := (1 / 2 - 1 / 2 * cos (PI / INR M * (INR i - 1 / 2)))%R.
(** spacetime.py 356-359: the loop over [i]; [x[-i]] is place [N - i]. *)
Fixpoint cosbell_loop (M : nat) (x : list R) (is : list nat) : res (list R) :=
  match is with
  | [] => Ok x
  | i :: is' =>
      a <- get (i - 1) x ;; x1 <- put (i - 1) (a * bell M i)%R x ;;
      if length x <? i then Err IndexError
      else b <- get (length x - i) x1 ;; x2 <- put (length x - i) (b * bell M i)%R x1 ;; cosbell_loop M x2 is'
  end.
(** spacetime.py 343-361, [window_cosbell]. *)
Definition window_cosbell (N : Z) (pct : Q) : res (list R) :=
  if (N <? 0)%Z then Err ValueError
  else
    let M0 := trunc ((pct * inject_Z N + (1 # 2)) / 2) in
    let M := Z.to_nat (if (M0 <? 1)%Z then 1 else M0)%Z in
    cosbell_loop M (repeat 1%R (Z.to_nat N)) (seq 1 M).

(** [a * b] of two arrays with one axis: equal lengths, or one of length 1. *)
Definition broadcast (a b : list R) : res (list R) :=
  if length a =? length b then Ok (map (fun p => fst p * snd p)%R (combine a b))
  else match a, b with
       | [x], _ => Ok (map (fun y => x * y)%R b)
       | _, [y] => Ok (map (fun x => x * y)%R a)
       | _, _ => Err ValueError
       end.
(** [a[start:stop] = v] for [0 <= start] and [stop <= len(a)]; a single value fills the places. *)
Definition assign_slice (start stop : nat) (v a : list R) : res (list R) :=
  if length v =? stop - start then Ok (firstn start a ++ v ++ skipn (start + length v) a)%list
  else match v with
       | [y] => Ok (firstn start a ++ repeat y (stop - start) ++ skipn (start + (stop - start)) a)%list
       | _ => Err ValueError
       end.
(** compute_mjo_indices.py 325-327: the weights at the start, and at the end in the order of the places. *)
Definition hann (w : nat) (k : Z) : R := (1 / 2 * (1 - cos (IZR k * PI / INR w)))%R.
(** compute_mjo_indices.py 313-328, [taper_vector_to_zero]: [result] is the array [data] itself.  The slice
    [result[data.size - window_length:data.size]] starts at a negative place if the window is longer than the data;
    then the first assignment has raised ValueError, or the array is empty. *)
Definition taper_vector_to_zero (data : list R) (w : nat) : res (list R) :=
  let n := length data in
  let startinds := map Z.of_nat (seq 0 w) in
  let endinds := map (fun q => (- Z.of_nat w - 1 + Z.of_nat q + 2)%Z) (seq 0 w) in
  first <- broadcast (firstn w data) (map (hann w) startinds) ;;
  r <- assign_slice 0 (Nat.min w n) first data ;;
  last <- broadcast (skipn (n - w) r) (map (hann w) endinds) ;;
  assign_slice (n - w) n last r.

(** ** Removing the mean of the last 120 days *)
(** [a - b] of two rows of numbers that may be NaN. *)
Definition minus_row (a b : list (option Q)) : list (option Q) :=
  map (fun p => lift2 Qminus (fst p) (snd p)) (combine a b).
(** [np.nanmean(rows, axis=0)] for [width] columns. *)
Definition nanmean_rows (width : nat) (rows : list (list (option Q))) : res (list (option Q)) :=
  mapM (fun j => c <- column j rows ;; Ok (nanmean c)) (seq 0 width).
(** compute_mjo_indices.py 289-293: the loop over the times from [idx] on. *)
Fixpoint mean_loop (ntim : Z) (data out : list (list (option Q))) (idxs : list nat) : res (list (list (option Q))) :=
  match idxs with
  | [] => Ok out
  | idx :: idxs' =>
      row <- get idx out ;;
      let i := Z.of_nat idx in
      m <- nanmean_rows (length row) (if (ntim <? i)%Z then slice (i - ntim) (i + 1) data else slice 0 (i + 1) data) ;;
      out' <- put idx (minus_row row m) out ;;
      mean_loop ntim data out' idxs'
  end.
(** compute_mjo_indices.py 277-295, [rem_120day_mean].  Times are whole seconds. *)
Definition rem_120day_mean (data : list (list (option Q))) (time : list Z) : res (list (list (option Q))) :=
  match time with
  | t0 :: t1 :: _ =>
      let dt := (inject_Z (t1 - t0) / 86400)%Q in
      if Qeq_bool dt 0 then Err OverflowError
      else mean_loop (trunc (120 / dt)%Q) data data (seq 0 (length time))
  | _ => Err IndexError
  end.

(** ** Segments *)
(** spacetime.py 424-444: the loop over the segments of the time axis; [Segments … start l] says that the loop
    started with [ntStrt = start] ends and has used the segments with the starts [l]. *)
Inductive Segments (ntim segLen segOverLap : Z) : Z -> list Z -> Prop :=
| segments_end : forall s, (s + segLen > ntim - 1)%Z -> Segments ntim segLen segOverLap s []
| segments_more : forall s l, (s + segLen <= ntim - 1)%Z ->
    Segments ntim segLen segOverLap (s + segLen + segOverLap - 1)%Z l -> Segments ntim segLen segOverLap s (s :: l).

(** ** Coherence *)
(** The four spectra PX, PY, CXY, QXY for one frequency and one wavenumber. *)
Definition quad : Type := (R * R * R * R)%type.
Definition quad_plus (a b : quad) : quad :=
  let '(px, py, c, q) := a in let '(px', py', c', q') := b in (px + px', py + py', c + c', q + q')%R.
Definition quad_times (k : R) (a : quad) : quad := let '(px, py, c, q) := a in (k * px, k * py, k * c, k * q)%R.
(** spacetime.py 162-168 [mjo_cross_segment_realfft]: averages over the latitudes of the powers of two complex
    numbers [x], [y] (as pairs) and of [conj(x) * y].  There is at least one latitude. *)
Definition cross (latitudes : list ((R * R) * (R * R))) : quad :=
  let one (p : (R * R) * (R * R)) : quad :=
    match p with ((a, b), (c, d)) => (a * a + b * b, c * c + d * d, a * c + b * d, a * d - b * c)%R end in
  quad_times (/ INR (length latitudes)) (fold_right (fun p s => quad_plus (one p) s) (0, 0, 0, 0)%R latitudes).
(** spacetime.py 301-307 [smooth121] for one wavenumber, after the frequency zero; the spectra have no NaN there, so
    that [smooth121_1D] (330-338) takes 3-1, 1-2-1 and 1-3. *)
Fixpoint smooth_rest (l x : quad) (t : list quad) : list quad :=
  match t with
  | [] => [quad_times (/ 4) (quad_plus (quad_times 3 x) l)]
  | r :: t' => quad_times (/ 4) (quad_plus (quad_plus r (quad_times 2 x)) l) :: smooth_rest x r t'
  end.
Definition smooth_quads (t : list quad) : res (list quad) :=
  match t with
  | [] => Ok []
  | [_] => Err IndexError
  | x :: r :: t' => Ok (quad_times (/ 4) (quad_plus (quad_times 3 x) r) :: smooth_rest x r t')
  end.
(** spacetime.py 416, 433-446 [mjo_cross] for one wavenumber: the smoothed spectra of all segments, summed up from zero
    and divided by their number.  A segment is given by its transforms: for every frequency after zero, for every
    latitude.  Without segments the result is NaN. *)
Definition mean_spectra (segments : list (list (list ((R * R) * (R * R))))) (nfreq : nat) : res (option (list quad)) :=
  stc <- mapM (fun seg => smooth_quads (map cross seg)) segments ;;
  match segments with
  | [] => Ok None
  | _ => Ok (Some (map (quad_times (/ INR (length segments)))
           (fold_left (fun acc s => map (fun p => quad_plus (fst p) (snd p)) (combine acc s)) stc
                      (repeat (0, 0, 0, 0)%R nfreq))))
  end.
(** spacetime.py 254-282 [mjo_cross_coh2pha], one frequency and wavenumber: coherence squared and the components of the
    phase vector.  A power [PY] of zero is NaN; a power [PX] of zero divides by zero (NaN or infinite), as does a cross
    spectrum of zero: [None]. *)
Definition coh2pha (s : quad) : option R * option (R * R) :=
  let '(px, py, c, q) := s in
  (if Req_EM_T py 0 then None else if Req_EM_T px 0 then None else Some ((c * c + q * q) / (px * py))%R,
   if Req_EM_T (q * q + c * c) 0 then None else Some (- q / sqrt (q * q + c * c), c / sqrt (q * q + c * c))%R).

(** ** Axes of the spectra *)
(** spacetime.py 146-214 [mjo_cross_segment_realfft]: the place of one spectrum [P] of a segment in the result.  [P] has
    a row for every frequency of the transform, [int(NT / 2) + 1] of them, with the wavenumbers in the order of the
    transform; 158 shifts them, 170-173 reverse them; for an even number of longitudes the last one is repeated at the
    front, for an even number of frequencies the first row is repeated at the end (205, 213). *)
Definition layout {A : Type} (NL : nat) (P : list (list A)) : list (list A) :=
  let rows := map (fun r => rev (roll (NL / 2) r)) P in
  let wide := if Nat.odd NL then rows
              else map (fun r => match rev r with [] => r | l :: _ => l :: r end) rows in
  if Nat.odd (length P) then wide else (wide ++ firstn 1 wide)%list.
(** spacetime.py 406-413 [mjo_cross]: the numbers of frequencies and wavenumbers; [segLen/2+1] is a float, so that the
    test for odd fails for an odd segment. *)
Definition nfreq (segLen : nat) : nat :=
  if Nat.even segLen && Nat.odd (segLen / 2 + 1) then segLen / 2 + 1 else segLen / 2 + 2.
Definition nwave (mlon : nat) : nat := if Nat.odd mlon then mlon else mlon + 1.
(** spacetime.py 417-418: the axes. *)
Definition wave (mlon : nat) : list Z :=
  map (fun i => (Z.of_nat i - Z.of_nat (nwave mlon / 2))%Z) (seq 0 (nwave mlon / 2 + nwave mlon / 2 + 1)).
Definition freq (segLen : nat) : list Q :=
  map (fun k => (inject_Z (Z.of_nat k) * ((1 # 2) / inject_Z (Z.of_nat (nfreq segLen - 1))))%Q) (seq 0 (nfreq segLen)).
(** spacetime.py 441: adding a segment to an array with [n] rows (more than one). *)
Definition fits {A : Type} (n : nat) (stcseg : list A) : res unit :=
  if (length stcseg =? n) || (length stcseg =? 1) then Ok tt else Err ValueError.
