(** Spectra of tropical waves: tapering, running means, segments, coherence, axes. *)
From Coq Require Import Reals QArith Qround String List.
From Verif Require Import PyBase TropicsSpec SpectraModel SpectraSpec SpectraProofs.
Import ListNotations.
Open Scope nat_scope.

(** ** C75: tapering *)

(** The window of a cosine bell: [M] places are tapered at either end. *)
Theorem C75_window : forall (N M : nat) (pct : Q), (0 <= pct)%Q ->
  Z.of_nat M = Z.max 1 (Qfloor ((pct * inject_Z (Z.of_nat N) + (1 # 2)) / 2)) -> M <= N ->
  exists x, window_cosbell (Z.of_nat N) pct = Ok x /\ length x = N /\
    forall p r, nth_error x p = Some r -> r = BothEnds Rise N M p.
Proof. exact C75_window_proof. Qed.
Print Assumptions C75_window.

Example C75_window_case :
  (0 <= 1 # 10)%Q /\ Z.of_nat 5 = Z.max 1 (Qfloor (((1 # 10) * inject_Z (Z.of_nat 100) + (1 # 2)) / 2)) /\ 5 <= 100.
Proof. exact C75_window_case_proof. Qed.

(** It is symmetric, positive and at most 1, rises over the tapered places, and is 1 between the ends. *)
Theorem C75_window_shape : forall (N : nat) (pct : Q) (x : list R), (0 <= pct)%Q ->
  window_cosbell (Z.of_nat N) pct = Ok x ->
  forall p r, nth_error x p = Some r ->
    nth_error x (N - 1 - p) = Some r /\ (0 < r <= 1)%R /\
    forall M, Z.of_nat M = Z.max 1 (Qfloor ((pct * inject_Z (Z.of_nat N) + (1 # 2)) / 2)) -> M + M <= N ->
      (M <= p < N - M -> r = 1%R) /\
      (forall r', S p < M -> nth_error x (S p) = Some r' -> (r < r')%R).
Proof. exact C75_window_shape_proof. Qed.
Print Assumptions C75_window_shape.

(** Up to the whole series can be tapered; a larger share raises IndexError, a negative length ValueError. *)
Theorem C75_window_exceptions : forall (N : Z) (pct : Q), (0 <= pct)%Q ->
  ((1 <= N)%Z -> (pct <= 1)%Q -> exists x, window_cosbell N pct = Ok x) /\
  (window_cosbell N pct = Err ValueError <-> (N < 0)%Z) /\
  (window_cosbell N pct = Err IndexError <->
     (0 <= N < Z.max 1 (Qfloor ((pct * inject_Z N + (1 # 2)) / 2)))%Z) /\
  (forall e, window_cosbell N pct = Err e -> e = ValueError \/ e = IndexError).
Proof. exact C75_window_exceptions_proof. Qed.
Print Assumptions C75_window_exceptions.

Example C75_window_exceptions_case : window_cosbell 0 (1 # 10) = Err IndexError /\ window_cosbell (-1) (1 # 10) = Err ValueError.
Proof. split; reflexivity. Qed.

(** Tapering data to zero: both ends over [w] places, the values in between stay. *)
Theorem C75_taper : forall (data : list R) (w : nat), w <= length data ->
  exists out, taper_vector_to_zero data w = Ok out /\ length out = length data /\
    forall p v, nth_error data p = Some v ->
      nth_error out p = Some (v * BothEnds RiseFromZero (length data) w p)%R.
Proof. exact C75_taper_proof. Qed.
Print Assumptions C75_taper.

(** The first and the last value become zero. *)
Theorem C75_taper_ends : forall (data out : list R) (w : nat), 1 <= w <= length data ->
  taper_vector_to_zero data w = Ok out ->
  nth_error out 0 = Some 0%R /\ nth_error out (length data - 1) = Some 0%R /\
  forall p v, w <= p < length data - w -> nth_error data p = Some v -> nth_error out p = Some v.
Proof. exact C75_taper_ends_proof. Qed.
Print Assumptions C75_taper_ends.

Example C75_taper_case : 2 <= length [5%R; 5%R; 5%R; 5%R; 5%R] /\ 2 <= 2 < length [5%R; 5%R; 5%R; 5%R; 5%R] - 2.
Proof. cbn. repeat split; auto. Qed.

(** Data shorter than the window raise ValueError. *)
Theorem C75_taper_exceptions : forall (data : list R) (w : nat),
  (taper_vector_to_zero data w = Err ValueError <-> length data < w /\ ~ (data = [] /\ w = 1)) /\
  (forall e, taper_vector_to_zero data w = Err e -> e = ValueError).
Proof. exact C75_taper_exceptions_proof. Qed.
Print Assumptions C75_taper_exceptions.

Example C75_taper_exceptions_case : taper_vector_to_zero [5%R] 2 = Err ValueError.
Proof. reflexivity. Qed.

(** ** C76: removing the mean of the last 120 days *)

(** For equal steps in time: the mean of all values of the last 120 days, the day itself included. *)
Theorem C76_mean : forall (data : list (list (option Q))) (time : list Z) (t0 dt : Z) (width : nat),
  length time = length data -> 2 <= length time -> (0 < dt)%Z -> EqualSteps t0 dt time -> Grid width data ->
  exists out, rem_120day_mean data time = Ok out /\ length out = length data /\ Grid width out /\
    forall i j,
      (forall x, Cell data i j = Some (Some x) ->
         exists m y, MeanOf (Last120 time data i j) m /\ Cell out i j = Some (Some y) /\ (y == x - m)%Q) /\
      (Cell data i j = Some None -> Cell out i j = Some None).
Proof. exact C76_mean_proof. Qed.
Print Assumptions C76_mean.

Example C76_mean_case :
  let day := 86400%Z in
  exists y, rem_120day_mean [[Some 1%Q]; [Some 2%Q]; [Some 6%Q]; [None]] [0; 80 * day; 160 * day; 240 * day]%Z =
    Ok [[Some 0%Q]; [Some (1 # 2)%Q]; [Some y]; [None]] /\ (y == 2)%Q /\
  EqualSteps 0 (80 * day) [0; 80 * day; 160 * day; 240 * day]%Z /\
  Last120 [0; 80 * day; 160 * day; 240 * day]%Z [[Some 1%Q]; [Some 2%Q]; [Some 6%Q]; [None]] 2 0 = [2%Q; 6%Q].
Proof. exact C76_mean_case_proof. Qed.

(** The result of a time does not depend on later data. *)
Theorem C76_past : forall (data data' : list (list (option Q))) (time : list Z) (out out' : list (list (option Q))) (i : nat),
  length data = length data' -> (forall k, k <= i -> nth_error data k = nth_error data' k) ->
  rem_120day_mean data time = Ok out -> rem_120day_mean data' time = Ok out' ->
  forall k, k <= i -> nth_error out k = nth_error out' k.
Proof. exact C76_past_proof. Qed.
Print Assumptions C76_past.

(** With times that are not equally spaced the mean is not that of the last 120 days: only the first step is used. *)
Theorem C76_irregular_refuted :
  ~ (forall (data : list (list (option Q))) (time : list Z) (out : list (list (option Q))),
       length time = length data -> rem_120day_mean data time = Ok out ->
       forall i j x y, Cell data i j = Some (Some x) -> Cell out i j = Some (Some y) ->
         exists m, MeanOf (Last120 time data i j) m /\ (y == x - m)%Q).
Proof. exact C76_irregular_refuted_proof. Qed.
Print Assumptions C76_irregular_refuted.

(** Exceptions. *)
Theorem C76_exceptions : forall (data : list (list (option Q))) (time : list Z),
  (length time < 2 -> rem_120day_mean data time = Err IndexError) /\
  (forall t rest, time = t :: t :: rest -> rem_120day_mean data time = Err OverflowError) /\
  (forall t0 t1 rest width, time = t0 :: t1 :: rest -> t0 <> t1 -> Grid width data -> length data < length time ->
     rem_120day_mean data time = Err IndexError).
Proof. exact C76_exceptions_proof. Qed.
Print Assumptions C76_exceptions.

Example C76_exceptions_case :
  rem_120day_mean [[Some 1%Q]] [0%Z; 86400%Z] = Err IndexError /\ rem_120day_mean [[Some 1%Q]; [None]] [5%Z; 5%Z] = Err OverflowError.
Proof. split; reflexivity. Qed.

(** ** C77: segments *)

(** The loop over the segments ends exactly if no segment fits or every segment starts after the one before it. *)
Theorem C77_ends : forall ntim segLen segOverLap : Z,
  (exists starts, Segments ntim segLen segOverLap 0 starts) <-> (ntim - 1 < segLen \/ 0 < segLen + segOverLap - 1)%Z.
Proof. exact C77_ends_proof. Qed.
Print Assumptions C77_ends.

(** The segments start at the multiples of [segLen + segOverLap - 1], as long as they end before the last time. *)
Theorem C77_starts : forall (ntim segLen segOverLap : Z) (starts : list Z),
  Segments ntim segLen segOverLap 0 starts ->
  (forall s, In s starts -> (0 <= s /\ s + segLen < ntim)%Z) /\
  (forall k, k < length starts <->
     (0 < segLen + segOverLap - 1)%Z /\ (Z.of_nat k * (segLen + segOverLap - 1) + segLen <= ntim - 1)%Z) /\
  (forall k s, nth_error starts k = Some s -> s = (Z.of_nat k * (segLen + segOverLap - 1))%Z).
Proof. exact C77_starts_proof. Qed.
Print Assumptions C77_starts.

Example C77_starts_case : Segments 12 5 (-1) 0 [0%Z; 3%Z; 6%Z].
Proof. exact C77_starts_case_proof. Qed.

(** Two neighbouring segments share [1 - segOverLap] times: one more than a negative overlap says. *)
Theorem C77_overlap : forall (ntim segLen segOverLap : Z) (starts : list Z) k s s',
  Segments ntim segLen segOverLap 0 starts -> nth_error starts k = Some s -> nth_error starts (S k) = Some s' ->
  (s + segLen - s' = 1 - segOverLap)%Z.
Proof. exact C77_overlap_proof. Qed.
Print Assumptions C77_overlap.

(** The documented meaning (segments overlap by [segOverLap]) fails: a positive overlap leaves times out. *)
Theorem C77_overlap_refuted :
  ~ (forall (ntim segLen segOverLap : Z) (starts : list Z) k s s',
       (0 < segOverLap < segLen)%Z -> Segments ntim segLen segOverLap 0 starts ->
       nth_error starts k = Some s -> nth_error starts (S k) = Some s' -> (s + segLen - s' = segOverLap)%Z).
Proof. exact C77_overlap_refuted_proof. Qed.
Print Assumptions C77_overlap_refuted.

(** A segment that ends with the last time is not used: a series of exactly one segment has none. *)
Theorem C77_last_refuted :
  ~ (forall (ntim segLen segOverLap : Z) (starts : list Z) (k : nat),
       (0 < segLen + segOverLap - 1)%Z -> Segments ntim segLen segOverLap 0 starts ->
       (Z.of_nat k * (segLen + segOverLap - 1) + segLen <= ntim)%Z -> k < length starts).
Proof. exact C77_last_refuted_proof. Qed.
Print Assumptions C77_last_refuted.

(** ** C78: coherence *)

(** For all data, powers are not negative and the coherence squared lies between 0 and 1. *)
Theorem C78_coherence : forall (segments : list (list (list ((R * R) * (R * R))))) (n : nat),
  segments <> [] -> 2 <= n -> Forall (fun seg => length seg = n /\ Forall (fun lats => lats <> []) seg) segments ->
  exists spectra, mean_spectra segments n = Ok (Some spectra) /\ length spectra = n /\
    Forall (fun s => match s with (px, py, _, _) => (0 <= px /\ 0 <= py)%R end /\
                     forall coh, fst (coh2pha s) = Some coh -> (0 <= coh <= 1)%R) spectra.
Proof. exact C78_coherence_proof. Qed.
Print Assumptions C78_coherence.

Example C78_coherence_case :
  let lats := [((1, 0), (0, 1)); ((2, 1), (1, 1))]%R in
  Forall (fun seg => length seg = 2 /\ Forall (fun l : list ((R * R) * (R * R)) => l <> []) seg) [[lats; lats]].
Proof. repeat constructor; discriminate. Qed.

(** The coherence of a series with itself is 1 and the phase vector is (0, 1), wherever there is power. *)
Theorem C78_self : forall (segments : list (list (list ((R * R) * (R * R))))) (n : nat) spectra,
  Forall (Forall (Forall (fun p => fst p = snd p))) segments ->
  mean_spectra segments n = Ok (Some spectra) ->
  Forall (fun s => match s with (px, py, _, _) =>
                     px = py /\ (0 < px -> fst (coh2pha s) = Some 1 /\ snd (coh2pha s) = Some (0, 1))%R end) spectra.
Proof. exact C78_self_proof. Qed.
Print Assumptions C78_self.

(** The phase vector has length 1. *)
Theorem C78_phase : forall (s : quad) (v1 v2 : R), snd (coh2pha s) = Some (v1, v2) -> (v1 * v1 + v2 * v2 = 1)%R.
Proof. exact C78_phase_proof. Qed.
Print Assumptions C78_phase.

(** No segments give no spectra; segments with one frequency raise IndexError. *)
Theorem C78_exceptions : forall (segments : list (list (list ((R * R) * (R * R))))) (n : nat),
  (mean_spectra segments n = Ok None <-> segments = []) /\
  (mean_spectra segments n = Err IndexError <-> Exists (fun seg => length seg = 1) segments) /\
  (forall e, mean_spectra segments n = Err e -> e = IndexError).
Proof. exact C78_exceptions_proof. Qed.
Print Assumptions C78_exceptions.

Example C78_exceptions_case : mean_spectra [[[((1, 0), (0, 1))]]]%R 1 = Err IndexError.
Proof. reflexivity. Qed.

(** ** C79: axes of the spectra *)

(** Wavenumbers: the result has a column for every value of the axis, and the column holds the wavenumber of the
    transform with the opposite sign (eastward waves are positive). *)
Theorem C79_wavenumbers : forall (A : Type) (P : list (list A)) (mlon : nat), 1 <= mlon -> Grid mlon P ->
  length (wave mlon) = nwave mlon /\ Grid (nwave mlon) (layout mlon P) /\
  forall f c k row, f < length P -> nth_error (wave mlon) c = Some k -> nth_error P f = Some row ->
    exists row', nth_error (layout mlon P) f = Some row' /\
      nth_error row' c = nth_error row (TransformPlace mlon (- k)) /\ nth_error row' c <> None.
Proof. exact C79_wavenumbers_proof. Qed.
Print Assumptions C79_wavenumbers.

Example C79_wavenumbers_case :
  wave 4 = [-2; -1; 0; 1; 2]%Z /\ layout 4 [["0"; "1"; "2"; "-1"]%string] = [["2"; "1"; "0"; "-1"; "2"]%string] /\
  wave 3 = [-1; 0; 1]%Z /\ layout 3 [["0"; "1"; "-1"]%string] = [["1"; "0"; "-1"]%string].
Proof. repeat split. Qed.

(** Frequencies: for segments of a multiple of four times, row [k] has the frequency [k / segLen] of the transform. *)
Theorem C79_frequencies : forall (A : Type) (P : list (list A)) (mlon segLen : nat),
  1 <= segLen -> Nat.modulo segLen 4 = 0 -> length P = segLen / 2 + 1 ->
  length (layout mlon P) = nfreq segLen /\ length (freq segLen) = nfreq segLen /\
  forall k q, nth_error (freq segLen) k = Some q -> (q == inject_Z (Z.of_nat k) / inject_Z (Z.of_nat segLen))%Q.
Proof. exact C79_frequencies_proof. Qed.
Print Assumptions C79_frequencies.

Example C79_frequencies_case : Nat.modulo 8 4 = 0 /\ map Qred (freq 8) = [0%Q; (1 # 8)%Q; (1 # 4)%Q; (3 # 8)%Q; (1 # 2)%Q].
Proof. split; reflexivity. Qed.

(** For other lengths this fails: with 6 times the second row of the transform has the frequency 1/6 and is labelled
    1/8. *)
Theorem C79_frequencies_refuted :
  ~ (forall (A : Type) (P : list (list A)) (mlon segLen : nat), 1 <= segLen -> length P = segLen / 2 + 1 ->
       forall k q, k < length P -> nth_error (freq segLen) k = Some q ->
         (q == inject_Z (Z.of_nat k) / inject_Z (Z.of_nat segLen))%Q).
Proof. exact C79_frequencies_refuted_proof. Qed.
Print Assumptions C79_frequencies_refuted.

(** For lengths with the remainder 2 or 3 the axis is too long by a frequency and the last row, labelled 1/2, repeats
    the row of the frequency zero. *)
Theorem C79_last_row : forall (A : Type) (P : list (list A)) (mlon segLen : nat),
  In (Nat.modulo segLen 4) [2; 3] -> length P = segLen / 2 + 1 ->
  length (layout mlon P) = nfreq segLen /\ nfreq segLen = length P + 1 /\
  nth_error (layout mlon P) (length P) = nth_error (layout mlon P) 0 /\
  exists q, nth_error (freq segLen) (length P) = Some q /\ (q == 1 # 2)%Q.
Proof. exact C79_last_row_proof. Qed.
Print Assumptions C79_last_row.

Example C79_last_row_case : In (Nat.modulo 6 4) [2; 3] /\ layout 1 [[0]; [1]; [2]; [3]] = [[0]; [1]; [2]; [3]; [0]].
Proof. split; [left|]; reflexivity. Qed.

(** For lengths with the remainder 1 the spectra of a segment do not fit to the result: ValueError. *)
Theorem C79_mismatch : forall (A : Type) (P : list (list A)) (mlon segLen : nat),
  5 <= segLen -> length P = segLen / 2 + 1 ->
  (fits (nfreq segLen) (layout mlon P) = Err ValueError <-> Nat.modulo segLen 4 = 1).
Proof. exact C79_mismatch_proof. Qed.
Print Assumptions C79_mismatch.

Example C79_mismatch_case : fits (nfreq 5) (layout 1 [[0]; [1]; [2]]) = Err ValueError.
Proof. reflexivity. Qed.
