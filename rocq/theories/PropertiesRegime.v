(** Weather regimes: properties C68 to C71. *)
From Verif Require Import PyBase ColumnModel BaseSpec BlockModel BlockSpec CblModel CblSpec RegimeModel RegimeSpec RegimeProofs.
From Coq Require Import Reals Qreals Permutation.
From Coq Require Import List.
Open Scope Z_scope.

(** C68: the regimes are the clusters from the most to the least frequent; the patterns, shares and labels of the
    days belong together. *)
Theorem C68_regimes : forall (A : Type) argsort wrnum labels (centers : list A),
  (forall l, Sorts l (argsort l)) -> labels <> [] -> (forall l, In l labels -> 0 <= l < Z.of_nat wrnum) -> length centers = wrnum ->
  exists patterns perc wrc order, run_K_means argsort wrnum labels centers = Ok (patterns, perc, wrc) /\
    Permutation order (seq 0 wrnum) /\
    Forall2 (fun i c => nth_error centers i = Some c) order patterns /\
    Forall2 (fun l v => exists k, nth_error order k = Some (Z.to_nat l) /\ v = inject_Z (Z.of_nat k + 1)) labels wrc /\
    length perc = wrnum /\
    (forall k q, nth_error perc k = Some q -> Share wrc (inject_Z (Z.of_nat k + 1)) q) /\
    (forall k1 k2 q1 q2, (k1 < k2)%nat -> nth_error perc k1 = Some q1 -> nth_error perc k2 = Some q2 -> (q2 <= q1)%Q).
Proof. exact C68_regimes_proof. Qed.
Print Assumptions C68_regimes.
Example C68_regimes_case : (forall l, Sorts l (sort_order l)) /\
  run_K_means sort_order 3 [2; 0; 2; 1; 2; 0] ["a"; "b"; "c"]%string = Ok (["c"; "a"; "b"]%string, [(3#6)%Q; (2#6)%Q; (1#6)%Q], [1%Q; 2%Q; 1%Q; 3%Q; 1%Q; 2%Q]).
Proof. exact C68_regimes_case_proof. Qed.

(** C69: regimes put into another order. *)
Theorem C69_order : forall (A : Type) (patterns : list A) perc labels order,
  length perc = length patterns -> (length order <= length patterns)%nat -> (forall o, In o order -> 1 <= o <= Z.of_nat (length patterns)) ->
  exists new, reorder_fcst_regimes patterns perc labels (length order) order = Ok new /\ Reordered order patterns perc labels new.
Proof. exact C69_order_proof. Qed.
Print Assumptions C69_order.
Example C69_order_case :
  reorder_fcst_regimes ["a"; "b"; "c"]%string [(1#2)%Q; (1#4)%Q; (1#4)%Q] [1%Q; 2%Q; 1%Q; 3%Q] 3 [3; 1; 2] =
    Ok ([Some "c"; Some "a"; Some "b"]%string, [Some (1#4)%Q; Some (1#2)%Q; Some (1#4)%Q], [Some 2%Q; Some 3%Q; Some 2%Q; Some 1%Q]).
Proof. exact C69_order_case_proof. Qed.
(** C69: if every regime has a place, every day keeps a label, and the shares still are those of the labels. *)
Theorem C69_shares : forall (A : Type) (patterns : list A) perc labels order, Permutation order (map Z.of_nat (seq 1 (length patterns))) ->
  length perc = length patterns -> (forall v, In v labels -> exists o, In o order /\ (v == inject_Z o)%Q) ->
  (forall k q, nth_error perc k = Some q -> Share labels (inject_Z (Z.of_nat k + 1)) q) ->
  exists patterns' perc' labels', reorder_fcst_regimes patterns perc labels (length order) order = Ok (map Some patterns', map Some perc', map Some labels') /\
    Permutation patterns' patterns /\ Permutation perc' perc /\ length labels' = length labels /\
    (forall k q, nth_error perc' k = Some q -> Share labels' (inject_Z (Z.of_nat k + 1)) q).
Proof. exact C69_shares_proof. Qed.
Print Assumptions C69_shares.
(** C69: the order by correlation is that of the best matches. *)
Theorem C69_correlate : forall obs fcst perc labels points, length obs = length fcst -> length perc = length fcst ->
  (forall x, In x obs \/ In x fcst -> length x = points /\ Varies x) ->
  exists order new, reorder_fcst_regimes_correlate obs fcst perc labels (length fcst) = Ok new /\ length order = length fcst /\
    (forall w o, nth_error order w = Some o -> BestMatch obs fcst w o) /\ Reordered order fcst perc labels new.
Proof. exact C69_correlate_proof. Qed.
Print Assumptions C69_correlate.
(** C69 fails if a forecast regime is the best match of no observed one: its days have no label (the cells are
    never set), and no pattern or share is its own. *)
Theorem C69_unmatched_refuted : forall obs fcst perc labels points new d l, length obs = length fcst -> length perc = length fcst ->
  (forall x, In x obs \/ In x fcst -> length x = points /\ Varies x) ->
  reorder_fcst_regimes_correlate obs fcst perc labels (length fcst) = Ok new ->
  nth_error labels d = Some (inject_Z l) -> (forall w, ~ BestMatch obs fcst w l) -> nth_error (snd new) d = Some None.
Proof. exact C69_unmatched_refuted_proof. Qed.
Print Assumptions C69_unmatched_refuted.
Example C69_unmatched_case : reorder_fcst_regimes_correlate [[1%Q; 2%Q; 3%Q]; [1%Q; 2%Q; 4%Q]] [[1%Q; 2%Q; 5%Q]; [(-1)%Q; (-2)%Q; (-5)%Q]] [(3#4)%Q; (1#4)%Q] [1%Q; 2%Q; 1%Q; 1%Q] 2 =
  Ok ([Some [1%Q; 2%Q; 5%Q]; Some [1%Q; 2%Q; 5%Q]], [Some (3#4)%Q; Some (3#4)%Q], [Some 2%Q; None; Some 2%Q; Some 2%Q]).
Proof. exact C69_unmatched_case_proof. Qed.
(** C69: exceptions. *)
Theorem C69_exceptions : forall (A : Type) (patterns : list A) perc labels order wrnum, length perc = length patterns ->
  ((length order < wrnum)%nat -> reorder_fcst_regimes patterns perc labels wrnum order = Err IndexError) /\
  (forall w o, nth_error order w = Some o -> (w < wrnum)%nat -> Z.of_nat (length patterns) < o -> reorder_fcst_regimes patterns perc labels wrnum order = Err IndexError).
Proof. exact C69_exceptions_proof. Qed.
Print Assumptions C69_exceptions.

(** C70: the frequencies of a regime are the numbers of days with its label, for every window of days. *)
Theorem C70_windows : forall wrnum tstep wr n, wr <> [] -> (forall row, In row wr -> length row = n) -> 1 <= wrnum -> 1 <= tstep <= Z.of_nat n ->
  exists freq, compute_wr_freq wrnum tstep wr = Ok (freq, Z.of_nat n - tstep + 1, tstep) /\ length freq = Z.to_nat wrnum /\
    (forall w table, nth_error freq w = Some table -> Forall2 (fun days counts => Z.of_nat (length counts) = Z.of_nat n - tstep + 1 /\
      forall d c, nth_error counts d = Some c -> exists before window after, days = before ++ window ++ after /\ length before = d /\
        Z.of_nat (length window) = tstep /\ c = days_with (inject_Z (Z.of_nat w + 1)) window) wr table).
Proof. exact C70_windows_proof. Qed.
Print Assumptions C70_windows.
(** C70: if every day has a regime, the frequencies of a window add up to its length. *)
Theorem C70_total : forall wrnum tstep wr n freq nd t y d, wr <> [] -> (forall row, In row wr -> length row = n) -> 1 <= wrnum -> 1 <= tstep <= Z.of_nat n ->
  (forall row v, In row wr -> In v row -> exists w, 1 <= w <= wrnum /\ (v == inject_Z w)%Q) ->
  compute_wr_freq wrnum tstep wr = Ok (freq, nd, t) -> (y < length wr)%nat -> Z.of_nat d < nd ->
  exists cs, Forall2 (fun table c => exists counts, nth_error table y = Some counts /\ nth_error counts d = Some c) freq cs /\ fold_right Z.add 0 cs = tstep.
Proof. exact C70_total_proof. Qed.
Print Assumptions C70_total.
Example C70_case : compute_wr_freq 2 3 [[1%Q; 2%Q; 1%Q; 1%Q; 2%Q]] = Ok ([[[2; 2; 2]]; [[1; 1; 1]]], 3, 3).
Proof. exact C70_case_proof. Qed.
(** C70: exceptions. *)
Theorem C70_exceptions : forall wrnum tstep row wr, row <> [] ->
  compute_wr_freq wrnum tstep [] = Err IndexError /\ compute_wr_freq wrnum tstep ([] :: wr) = Err IndexError /\
  (Z.of_nat (length row) + 1 < tstep \/ wrnum < 0 -> compute_wr_freq wrnum tstep (row :: wr) = Err ValueError) /\
  (tstep = Z.of_nat (length row) + 1 -> 0 <= wrnum -> compute_wr_freq wrnum tstep (row :: wr) = Err IndexError) /\
  (tstep <= Z.of_nat (length row) + 1 -> wrnum = 0 -> compute_wr_freq wrnum tstep (row :: wr) = Err IndexError).
Proof. exact C70_exceptions_proof. Qed.
Print Assumptions C70_exceptions.

(** C71: the anomalies are the deviations from the mean of the same day in all years, weighted with the cosine of
    the latitude; missing values stay missing.  The second result has one row for each day. *)
Theorem C71_anomalies : forall lats nlon ndays years, lats <> [] -> (0 < nlon)%nat -> years <> [] -> Grid ndays (length lats) nlon years ->
  exists a a1, weights_detrend (lat1 lats nlon) years = Ok (a, a1) /\ length a1 = (length years * ndays)%nat /\
    forall y d i j v lat, At years y d i j v -> nth_error lats i = Some lat ->
      exists x row, At a y d i j x /\ nth_error a1 (y * ndays + d) = Some row /\ nth_error row (i * nlon + j) = Some x /\
        match v with Some q => exists r, x = Some r /\ AnomalyOf years d i j (cos (Q2R lat * PI / 180)) q r | None => x = None end.
Proof. exact C71_anomalies_proof. Qed.
Print Assumptions C71_anomalies.
Example C71_anomalies_case : Grid 1 2 2 anomaly_years /\ At anomaly_years 1 0 0 1 (Some 4%Q) /\ AnomalyOf anomaly_years 0 0 1 1 4 (Q2R (3 # 2)).
Proof. exact C71_anomalies_case_proof. Qed.
(** C71 fails for the trend, which should be removed: of values that grow by the same amount from year to year the
    anomalies still do. *)
Theorem C71_trend_refuted : forall lats nlon ndays years a a1 y d i j lat start slope x1 x2, lats <> [] -> (0 < nlon)%nat -> Grid ndays (length lats) nlon years ->
  weights_detrend (lat1 lats nlon) years = Ok (a, a1) -> nth_error lats i = Some lat -> (d < ndays)%nat -> (j < nlon)%nat ->
  (forall y v, At years y d i j v -> exists q, v = Some q /\ (q == start + slope * inject_Z (Z.of_nat y))%Q) ->
  At a y d i j (Some x1) -> At a (S y) d i j (Some x2) -> (x2 - x1 = Q2R slope * cos (Q2R lat * PI / 180))%R.
Proof. exact C71_trend_refuted_proof. Qed.
Print Assumptions C71_trend_refuted.
Example C71_trend_case : forall y v, At trend_years y 0 0 0 v -> exists q, v = Some q /\ (q == 1 + 2 * inject_Z (Z.of_nat y))%Q.
Proof. exact C71_trend_case_proof. Qed.
(** C71 fails for latitudes given as an array of the grid, unless the grid is a square. *)
Theorem C71_array_refuted : forall lats ncol ndays years, lats <> [] -> (0 < ncol)%nat -> (forall row, In row lats -> length row = ncol) -> ncol <> length lats ->
  years <> [] -> (0 < ndays)%nat -> Grid ndays (length lats) ncol years -> weights_detrend (lat2 lats) years = Err ValueError.
Proof. exact C71_array_refuted_proof. Qed.
Print Assumptions C71_array_refuted.
Example C71_array_case : Grid 1 2 1 trend_years /\ weights_detrend (lat2 [[60%Q]; [30%Q]]) trend_years = Err ValueError.
Proof. exact C71_array_case_proof. Qed.
