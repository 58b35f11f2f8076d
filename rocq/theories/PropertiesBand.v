(** The filter of periods and the zonal mean of the variance. *)
From Coq Require Import Reals Qreals ZArith QArith String List.
From Verif Require Import PyBase SpectraSpec WavesSpec MjoSpec BandModel BandSpec BandProofs.
From Coq Require Import List.
Import ListNotations.
Open Scope nat_scope.

(** ** C102: filter of periods *)

(** What comes back is the detrended and tapered series, reduced to the cosines of [m] periods for which [2 m - 1] periods,
    and the sines of [m] periods for which [2 m] periods, would be within the limits. *)
Theorem C102_values : forall orig_nt places time t0 t1 rest a b n dt w,
  n = Z.to_nat 131072 -> time = t0 :: t1 :: rest -> (t0 < t1)%Z -> dt = (inject_Z (t1 - t0) / 86400)%Q -> (0 < a)%Q ->
  orig_nt <= n -> places <> [] -> Forall (fun s => length s = orig_nt) places ->
  w <= n -> (inject_Z (Z.of_nat w) <= 10 / dt)%Q -> (10 / dt < inject_Z (Z.of_nat w + 1))%Q ->
  exists out after, bandpass_filter_3D orig_nt places time a b = Ok (out, after) /\ Forall2 Detrended places after /\
    Forall2 (fun z f => length f = orig_nt /\ forall t, t < orig_nt ->
               nth t f 0%R = Chosen n (fun m => WithinPeriods n dt a b (2 * m - 1)) (fun m => WithinPeriods n dt a b (2 * m))
                               (fun s => nth s z 0 * BothEnds RiseFromZero n w s)%R t) after out.
Proof. exact C102_values_proof. Qed.
Print Assumptions C102_values.

Example C102_values_case : (0 < 20)%Q /\ (inject_Z (Z.of_nat 10) <= 10 / (inject_Z (86400 - 0) / 86400))%Q /\
  (10 / (inject_Z (86400 - 0) / 86400) < inject_Z (Z.of_nat 10 + 1))%Q /\ Forall (fun s => length s = 3) [[1; 2; 4]; [0; 1; 0]]%R.
Proof. exact C102_values_case_proof. Qed.

(** A single wave: its cosine and its sine are kept or removed as if it had twice as many periods. *)
Theorem C102_wave : forall n j d a b amp phi, Nat.Even n -> 0 < j -> 2 * j < n -> (0 < d)%Q -> (0 < a)%Q ->
  pass_periods d a b (PureWave n j amp phi) =
  map (fun t => (if WithinPeriods n d a b (2 * j - 1) then amp * cos phi * cos (Turn n j t) else 0) -
                (if WithinPeriods n d a b (2 * j) then amp * sin phi * sin (Turn n j t) else 0))%R (seq 0 n).
Proof. exact C102_wave_proof. Qed.
Print Assumptions C102_wave.

(** Of a wave of 16 values with three periods the sine alone is left when the limits are 2 and 3 values. *)
Example C102_wave_case : Nat.Even 16 /\ WithinPeriods 16 1 2 3 (2 * 3 - 1) = false /\ WithinPeriods 16 1 2 3 (2 * 3) = true.
Proof. exact C102_wave_case_proof. Qed.

(** Waves with a period within the limits should come back unchanged and all others be removed.  They are removed instead
    if their period is shorter than nearly twice the lower limit, and kept if it is up to twice the upper one. *)
Theorem C102_periods_refuted : forall n j d a b amp phi, Nat.Even n -> 0 < j -> 4 * j < n -> (0 < d)%Q -> (0 < a)%Q ->
  let p k := (inject_Z (Z.of_nat n) * d / inject_Z (Z.of_nat k))%Q in
  ((p (2 * j - 1)%nat < a)%Q -> pass_periods d a b (PureWave n j amp phi) = repeat 0%R n) /\
  ((a <= p (2 * j)%nat)%Q -> (p (2 * j - 1)%nat <= b)%Q -> pass_periods d a b (PureWave n j amp phi) = PureWave n j amp phi).
Proof. exact C102_periods_refuted_proof. Qed.
Print Assumptions C102_periods_refuted.

(** With daily values and limits of 20 and 96 days a wave of 30 days is removed, one of 150 days kept. *)
Example C102_periods_case : let p k := (131072 * 1 / inject_Z k)%Q in
  (20 <= p 4369%Z)%Q /\ (p 4369%Z <= 96)%Q /\ (p (2 * 4369 - 1)%Z < 20)%Q /\
  (149 < p 874%Z)%Q /\ (20 <= p (2 * 874)%Z)%Q /\ (p (2 * 874 - 1)%Z <= 96)%Q.
Proof. exact C102_periods_case_proof. Qed.

(** Lines change nothing, and factors are factors of the result. *)
Theorem C102_lines : forall orig_nt places places' c time a b, Forall2 (LineIn c) places places' ->
  Forall (fun s => length s = orig_nt) places ->
  match bandpass_filter_3D orig_nt places time a b with
  | Ok (out, after) => bandpass_filter_3D orig_nt places' time a b = Ok (map (map (Rmult c)) out, map (map (Rmult c)) after)
  | Err e => bandpass_filter_3D orig_nt places' time a b = Err e
  end.
Proof. exact C102_lines_proof. Qed.
Print Assumptions C102_lines.

Example C102_lines_case : LineIn 2 [1; 0; 3]%R [2 + 5; 0 + (5 + 4); 6 + (5 + 4 * (1 + 1))]%R.
Proof. exact C102_lines_case_proof. Qed.

(** The caller's array is overwritten with the detrended data, so it is not the same afterwards; a second call with what is
    left there gives the same result. *)
Theorem C102_overwrites_refuted : forall orig_nt places time a b out after, bandpass_filter_3D orig_nt places time a b = Ok (out, after) ->
  Forall2 Detrended places after /\ bandpass_filter_3D orig_nt after time a b = Ok (out, after) /\
  forall s, In s places -> fold_right Rplus 0%R s <> 0%R -> after <> places.
Proof. exact C102_overwrites_refuted_proof. Qed.
Print Assumptions C102_overwrites_refuted.

(** Too few times and no places raise IndexError, equal first times OverflowError, too many data ValueError.  Times that go
    backwards raise ValueError if their step is at most ten days. *)
Theorem C102_exceptions : forall orig_nt places time a b,
  let run := bandpass_filter_3D orig_nt places time a b in
  (length time < 2 -> run = Err IndexError) /\
  (forall t0 t1 rest, time = t0 :: t1 :: rest ->
     ((131072 < Z.of_nat orig_nt)%Z -> run = Err ValueError) /\
     ((Z.of_nat orig_nt <= 131072)%Z -> places = [] -> run = Err IndexError) /\
     ((Z.of_nat orig_nt <= 131072)%Z -> places <> [] -> t0 = t1 -> run = Err OverflowError) /\
     ((Z.of_nat orig_nt <= 131072)%Z -> places <> [] -> Forall (fun s => length s = orig_nt) places ->
        (- 864000 <= t1 - t0 <= - 10)%Z -> run = Err ValueError)).
Proof. exact C102_exceptions_proof. Qed.
Print Assumptions C102_exceptions.

(** ** C103: zonal mean of the variance *)

(** The mean of the variances of the longitudes with values, NaN if there are none. *)
Theorem C103_values : forall nlon data, Full nlon data ->
  (Variances nlon data = [] -> zon_avg_variance nlon data = Ok None) /\
  (Variances nlon data <> [] -> exists v, zon_avg_variance nlon data = Ok (Some v) /\ (v == MeanQ (Variances nlon data))%Q).
Proof. exact C103_values_proof. Qed.
Print Assumptions C103_values.

Example C103_values_case : Full 2 [[Some 1%Q; None]; [Some 3%Q; None]] /\ Variances 2 [[Some 1%Q; None]; [Some 3%Q; None]] = [VarianceQ [1%Q; 3%Q]].
Proof. exact C103_values_case_proof. Qed.

(** It is never negative, and 0 exactly if no series changes. *)
Theorem C103_zero : forall nlon data v, Full nlon data -> zon_avg_variance nlon data = Ok (Some v) ->
  (0 <= v)%Q /\
  ((v == 0)%Q <-> forall j x y, j < nlon -> In (Some x) (SeriesAt j data) -> In (Some y) (SeriesAt j data) -> (x == y)%Q).
Proof. exact C103_zero_proof. Qed.
Print Assumptions C103_zero.
