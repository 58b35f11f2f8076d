(** The indices RMM and OMI. *)
From Coq Require Import Reals Qreals ZArith QArith String List.
From Verif Require Import PyBase SpectraSpec KfSpec ActivityModel MjoModel RmmModel RmmSpec RmmProofs.
From Coq Require Import List.
Import ListNotations.
Open Scope nat_scope.

(** ** C99: projection onto two patterns *)

(** The coefficients are those, and only those, of the nearest combination of the patterns; if several are nearest, the
    least. *)
Theorem C99_best : forall v e1 e2 p, length e1 = length v -> length e2 = length v ->
  (regress_vector_onto_eofs v e1 e2 = Ok p <-> BestFit v e1 e2 p).
Proof. exact C99_best_proof. Qed.
Print Assumptions C99_best.

(** A combination of independent patterns gives its coefficients. *)
Theorem C99_exact : forall v e1 e2 a b, Independent e1 e2 -> Combination a e1 b e2 v -> regress_vector_onto_eofs v e1 e2 = Ok (a, b).
Proof. exact C99_exact_proof. Qed.
Print Assumptions C99_exact.

Example C99_exact_case : Independent [1; 0; 2]%R [1; 1; 0]%R /\ Combination 2 [1; 0; 2]%R 3 [1; 1; 0]%R [5; 3; 4]%R.
Proof. exact C99_exact_case_proof. Qed.

(** Coefficients of combinations are combinations of coefficients. *)
Theorem C99_linear : forall u v w c d e1 e2 p q, Combination c u d v w ->
  regress_vector_onto_eofs u e1 e2 = Ok p -> regress_vector_onto_eofs v e1 e2 = Ok q ->
  regress_vector_onto_eofs w e1 e2 = Ok (c * fst p + d * fst q, c * snd p + d * snd q)%R.
Proof. exact C99_linear_proof. Qed.
Print Assumptions C99_linear.

(** For orthogonal patterns each coefficient is that of its pattern alone. *)
Theorem C99_orthogonal : forall v e1 e2, length e1 = length v -> length e2 = length v ->
  Inner e1 e2 = 0%R -> Inner e1 e1 <> 0%R -> Inner e2 e2 <> 0%R ->
  regress_vector_onto_eofs v e1 e2 = Ok (Inner e1 v / Inner e1 e1, Inner e2 v / Inner e2 e2)%R.
Proof. exact C99_orthogonal_proof. Qed.
Print Assumptions C99_orthogonal.

Example C99_orthogonal_case : Inner [1; 1]%R [1; -1]%R = 0%R /\ Inner [1; 1]%R [1; 1]%R <> 0%R /\ Inner [1; -1]%R [1; -1]%R <> 0%R.
Proof. exact C99_orthogonal_case_proof. Qed.

(** Patterns of different lengths raise ValueError. *)
Theorem C99_exceptions : forall v e1 e2, length e1 <> length e2 -> regress_vector_onto_eofs v e1 e2 = Err ValueError.
Proof. exact C99_exceptions_proof. Qed.
Print Assumptions C99_exceptions.

(** ** C100: RMM *)

(** For equal steps in time and data without gaps, both values of a time are the coefficients of the anomalies of the three
    variables, each over its norm and one after the other, over the norm of the coefficient. *)
Theorem C100_values : forall olr u850 u200 time t0 dt EOF1 EOF2 n0 n1 n2 m0 m1 nlon more more',
  2 <= length time -> (0 < dt)%Z -> EqualSteps t0 dt time ->
  Complete (length time) nlon (rows olr) -> Complete (length time) nlon (rows u850) -> Complete (length time) nlon (rows u200) ->
  length (lon olr) = nlon -> length (lon u850) = nlon -> length (lon u200) = nlon ->
  ThreeRows nlon (prows EOF1) -> ThreeRows nlon (prows EOF2) ->
  ~ (n0 == 0)%Q -> ~ (n1 == 0)%Q -> ~ (n2 == 0)%Q -> ~ (m0 == 0)%Q -> ~ (m1 == 0)%Q ->
  exists pc1 pc2, rmm olr u850 u200 time EOF1 EOF2 (n0 :: n1 :: n2 :: more) (m0 :: m1 :: more') = Ok (pc1, pc2) /\
    length pc1 = length time /\ length pc2 = length time /\
    forall i, i < length time -> exists v p, length v = 3 * nlon /\
      (forall j, j < nlon -> Anomaly time (rows olr) n0 i j (nth j v 0%R) /\
         Anomaly time (rows u850) n1 i j (nth (nlon + j) v 0%R) /\ Anomaly time (rows u200) n2 i j (nth (2 * nlon + j) v 0%R)) /\
      BestFit v (concat (prows EOF1)) (concat (prows EOF2)) p /\
      nth_error pc1 i = Some (fst p / Q2R m0)%R /\ nth_error pc2 i = Some (snd p / Q2R m1)%R.
Proof. exact C100_values_proof. Qed.
Print Assumptions C100_values.

Example C100_values_case : EqualSteps 0 86400 [0; 86400]%Z /\ Complete 2 1 [[Some 1%Q]; [Some 3%Q]] /\ ThreeRows 1 [[1]; [2]; [3]]%R.
Proof. exact C100_values_case_proof. Qed.

(** A number added to all values of a longitude, another one for each longitude and variable, changes nothing. *)
Theorem C100_shift : forall olr u850 u200 olr' u850' u200' c0 c1 c2 time t0 dt EOF1 EOF2 n0 n1 n2 m0 m1 nlon more more',
  2 <= length time -> (0 < dt)%Z -> EqualSteps t0 dt time ->
  Forall (fun f => Complete (length time) nlon (rows f) /\ length (lon f) = nlon) [olr; u850; u200; olr'; u850'; u200'] ->
  ThreeRows nlon (prows EOF1) -> ThreeRows nlon (prows EOF2) ->
  ~ (n0 == 0)%Q -> ~ (n1 == 0)%Q -> ~ (n2 == 0)%Q -> ~ (m0 == 0)%Q -> ~ (m1 == 0)%Q ->
  Shifted c0 (rows olr) (rows olr') -> Shifted c1 (rows u850) (rows u850') -> Shifted c2 (rows u200) (rows u200') ->
  rmm olr u850 u200 time EOF1 EOF2 (n0 :: n1 :: n2 :: more) (m0 :: m1 :: more') =
  rmm olr' u850' u200' time EOF1 EOF2 (n0 :: n1 :: n2 :: more) (m0 :: m1 :: more').
Proof. exact C100_shift_proof. Qed.
Print Assumptions C100_shift.

Example C100_shift_case : Shifted (fun _ => 5%Q) [[Some 1%Q]; [Some 3%Q]] [[Some 6%Q]; [Some 8%Q]].
Proof. exact C100_shift_case_proof. Qed.

(** The values up to a time do not depend on later data. *)
Theorem C100_past : forall olr u850 u200 olr' u850' u200' time t0 dt EOF1 EOF2 n0 n1 n2 m0 m1 nlon more more' i pc1 pc2 pc1' pc2',
  2 <= length time -> (0 < dt)%Z -> EqualSteps t0 dt time ->
  Forall (fun f => Complete (length time) nlon (rows f) /\ length (lon f) = nlon) [olr; u850; u200; olr'; u850'; u200'] ->
  ThreeRows nlon (prows EOF1) -> ThreeRows nlon (prows EOF2) ->
  ~ (n0 == 0)%Q -> ~ (n1 == 0)%Q -> ~ (n2 == 0)%Q -> ~ (m0 == 0)%Q -> ~ (m1 == 0)%Q ->
  (forall k, k <= i -> nth_error (rows olr) k = nth_error (rows olr') k /\ nth_error (rows u850) k = nth_error (rows u850') k /\
                       nth_error (rows u200) k = nth_error (rows u200') k) ->
  rmm olr u850 u200 time EOF1 EOF2 (n0 :: n1 :: n2 :: more) (m0 :: m1 :: more') = Ok (pc1, pc2) ->
  rmm olr' u850' u200' time EOF1 EOF2 (n0 :: n1 :: n2 :: more) (m0 :: m1 :: more') = Ok (pc1', pc2') ->
  forall k, k <= i -> nth_error pc1 k = nth_error pc1' k /\ nth_error pc2 k = nth_error pc2' k.
Proof. exact C100_past_proof. Qed.
Print Assumptions C100_past.

(** The longitudes are compared but cannot differ: only their number matters. *)
Theorem C100_grid_refuted : forall l0 l1 l2 l3 l4 l0' l1' l2' l3' l4' o a b e f time rmm_norm pc_norm,
  length l0 = length l0' -> length l1 = length l1' -> length l2 = length l2' ->
  rmm (Field l0 o) (Field l1 a) (Field l2 b) time (Pattern l3 e) (Pattern l4 f) rmm_norm pc_norm =
  rmm (Field l0' o) (Field l1' a) (Field l2' b) time (Pattern l3' e) (Pattern l4' f) rmm_norm pc_norm.
Proof. exact C100_grid_refuted_proof. Qed.
Print Assumptions C100_grid_refuted.

(** Fewer than two times raise IndexError, two equal ones at the start OverflowError; another number of longitudes raises
    ValueError. *)
Theorem C100_exceptions : forall olr u850 u200 time EOF1 EOF2 rmm_norm pc_norm,
  let run := rmm olr u850 u200 time EOF1 EOF2 rmm_norm pc_norm in
  (length time < 2 -> run = Err IndexError) /\
  (forall t rest, time = t :: t :: rest -> run = Err OverflowError) /\
  (forall t0 dt, 2 <= length time -> (0 < dt)%Z -> EqualSteps t0 dt time ->
     Forall (fun f => Complete (length time) (length (lon f)) (rows f)) [olr; u850; u200] ->
     (length rmm_norm < 3 -> Forall (fun n => ~ (n == 0)%Q) rmm_norm -> run = Err IndexError) /\
     (3 <= length rmm_norm -> Forall (fun n => ~ (n == 0)%Q) rmm_norm ->
        length (lon u850) <> length (lon olr) -> length (lon u850) <> 1 -> run = Err ValueError)).
Proof. exact C100_exceptions_proof. Qed.
Print Assumptions C100_exceptions.

(** ** C101: OMI *)

(** The filtered data of each time are projected onto the patterns of the day of the year; both coefficients are divided by
    the standard deviation of the first. *)
Theorem C101_values : forall lat lon olr time t0 t1 rest EOF1 EOF2 filtered,
  time = t0 :: t1 :: rest -> fst t0 <> fst t1 -> NoDup (map fst time) ->
  perform_3dim_spectral_filtering (length time) (length lon) olr (inject_Z (fst t1 - fst t0) / 86400) 20 96 (-720) 720 = Ok filtered ->
  length filtered = length lat -> Forall (Shape (length time) (length lon)) filtered ->
  Forall (fun t => exists d1 d2, nth_error (days EOF1) (Z.to_nat (dayofyear (snd t) - 1)) = Some d1 /\ Shape (length lat) (length lon) d1 /\
                                 nth_error (days EOF2) (Z.to_nat (dayofyear (snd t) - 1)) = Some d2 /\ Shape (length lat) (length lon) d2) time ->
  exists raw, length raw = length time /\
    (forall i t d1 d2, nth_error time i = Some t -> nth_error (days EOF1) (Z.to_nat (dayofyear (snd t) - 1)) = Some d1 ->
       nth_error (days EOF2) (Z.to_nat (dayofyear (snd t) - 1)) = Some d2 ->
       exists p, nth_error raw i = Some p /\ BestFit (DayRow i filtered) (concat d1) (concat d2) p) /\
    (Spread (map fst raw) <> 0%R ->
       let s := sqrt (Spread (map fst raw)) in
       omi lat lon olr time EOF1 EOF2 = Ok (map (fun p => fst p / s)%R raw, map (fun p => snd p / s)%R raw)).
Proof. exact C101_values_proof. Qed.
Print Assumptions C101_values.

(** Data of full rows can be filtered, and keep their shape, if the first step is not too long. *)
Theorem C101_filtered : forall nlon olr (time : list stamp) t0 t1 rest,
  time = t0 :: t1 :: rest -> (fst t0 < fst t1)%Z -> (Z.of_nat (length time) <= 131072)%Z -> 1 < nlon ->
  (864000 < (fst t1 - fst t0) * (Z.of_nat (length time) + 1001))%Z -> Forall (Shape (length time) nlon) olr ->
  exists filtered, perform_3dim_spectral_filtering (length time) nlon olr (inject_Z (fst t1 - fst t0) / 86400) 20 96 (-720) 720 = Ok filtered /\
    length filtered = length olr /\ Forall (Shape (length time) nlon) filtered.
Proof. exact C101_filtered_proof. Qed.
Print Assumptions C101_filtered.

Example C101_filtered_case : let time := [(0, Date 2020 12 30); (86400, Date 2020 12 31)]%Z in
  (864000 < (86400 - 0) * (Z.of_nat (length time) + 1001))%Z /\ NoDup (map fst time) /\ Forall (Shape (length time) 2) [[[1; 2]; [3; 4]]]%R.
Proof. exact C101_filtered_case_proof. Qed.

(** The first value has variance 1. *)
Theorem C101_unit : forall lat lon olr time EOF1 EOF2 pc1 pc2, omi lat lon olr time EOF1 EOF2 = Ok (pc1, pc2) ->
  Spread pc1 = 1%R /\ length pc2 = length pc1 /\ length pc1 = length time.
Proof. exact C101_unit_proof. Qed.
Print Assumptions C101_unit.

(** Neither a line added at each place nor a positive factor changes the index; a negative factor changes its sign. *)
Theorem C101_invariant : forall lat lon olr olr' time t0 t1 rest EOF1 EOF2 c,
  time = t0 :: t1 :: rest -> (fst t0 < fst t1)%Z -> (Z.of_nat (length time) <= 131072)%Z -> 1 < length lon ->
  (864000 < (fst t1 - fst t0) * (Z.of_nat (length time) + 1001))%Z ->
  Forall (Shape (length time) (length lon)) olr -> Forall (Shape (length time) (length lon)) olr' ->
  LineAdded c olr olr' ->
  ((0 < c)%R -> omi lat lon olr' time EOF1 EOF2 = omi lat lon olr time EOF1 EOF2) /\
  ((c < 0)%R -> forall pc1 pc2, omi lat lon olr time EOF1 EOF2 = Ok (pc1, pc2) ->
     omi lat lon olr' time EOF1 EOF2 = Ok (map Ropp pc1, map Ropp pc2)).
Proof. exact C101_invariant_proof. Qed.
Print Assumptions C101_invariant.

Example C101_invariant_case : LineAdded 2 [[[1; 5]; [2; 4]]]%R [[[2 + 1; 10 + 3]; [4 + (1 + 4); 8 + 3]]]%R.
Proof. exact C101_invariant_case_proof. Qed.

(** With patterns for 365 days the last day of a leap year raises IndexError. *)
Theorem C101_leap_refuted : forall lat lon data time EOF1 EOF2 t, NoDup (map fst time) ->
  In t time -> ((4 | year (snd t)) /\ (~ (100 | year (snd t)) \/ (400 | year (snd t))))%Z -> month (snd t) = 12%Z -> day (snd t) = 31%Z ->
  length data = length lat -> Forall (Shape (length time) (length lon)) data -> length (days EOF1) = 365 -> length (days EOF2) = 365 ->
  Forall (Shape (length lat) (length lon)) (days EOF1) -> Forall (Shape (length lat) (length lon)) (days EOF2) ->
  regress_3dim_data_onto_eofs lat lon data time EOF1 EOF2 = Err IndexError.
Proof. exact C101_leap_refuted_proof. Qed.
Print Assumptions C101_leap_refuted.

Example C101_leap_case : ((4 | 2020) /\ (~ (100 | 2020) \/ (400 | 2020)))%Z /\ dayofyear (Date 2020 12 31) = 366%Z.
Proof. exact C101_leap_case_proof. Qed.

(** The coordinates are compared but cannot differ: only their number matters. *)
Theorem C101_grid_refuted : forall lat lat' lon lon' y x y' x' olr time e EOF2,
  length lat = length lat' -> length lon = length lon' ->
  omi lat lon olr time (Daily y x e) EOF2 = omi lat' lon' olr time (Daily y' x' e) EOF2.
Proof. exact C101_grid_refuted_proof. Qed.
Print Assumptions C101_grid_refuted.

(** Fewer than two times raise IndexError, two equal ones at the start OverflowError. *)
Theorem C101_exceptions : forall lat lon olr time EOF1 EOF2,
  (length time < 2 -> omi lat lon olr time EOF1 EOF2 = Err IndexError) /\
  (forall t0 t1 rest, time = t0 :: t1 :: rest -> fst t0 = fst t1 -> omi lat lon olr time EOF1 EOF2 = Err OverflowError).
Proof. exact C101_exceptions_proof. Qed.
Print Assumptions C101_exceptions.
