(** Weather regimes: metcalcpy/contributed/blocking_weather_regime/WeatherRegime.py and
    Blocking_WeatherRegime_util.py.  The clustering of scikit-learn is not modelled: the labels and centers it
    finds are arguments. *)
From Verif Require Import PyBase ColumnModel BlockModel CblModel.
From Coq Require Import Reals Qreals.
From Coq Require Import List.
Open Scope Z_scope.

(** ** Regimes by frequency *)
(** WeatherRegime.py 38-39, [get_cluster_fraction]; there is at least one day. *)
Definition get_cluster_fraction (labels : list Z) (label : Z) : Q :=
  (inject_Z (Z.of_nat (length (filter (fun l => l =? label) labels))) / inject_Z (Z.of_nat (length labels)))%Q.
(** [new[old == label] = v] for arrays of the same shape. *)
Definition assign {A B : Type} (test : A -> bool) (v : B) (old : list A) (new : list B) : list B :=
  map (fun p => if test (fst p) then v else snd p) (combine old new).
(** WeatherRegime.py 176-178: the loop over the regimes; [ii] is the reversed order. *)
Fixpoint relabel (wr : list Z) (ii : list nat) (todo : list nat) (wrc : list Q) : res (list Q) :=
  match todo with
  | [] => Ok wrc
  | i :: rest =>
      t <- item (Z.of_nat i) ii ;;
      relabel wr ii rest (assign (fun l => l =? Z.of_nat t) (inject_Z (Z.of_nat i + 1)) wr wrc)
  end.
(** WeatherRegime.py 152-183, [run_K_means] after the clustering: patterns, fractions and labels.  The labels
    of all days are one list.  [np.argsort] is the function [argsort]: the order of equal values is left open.
    Without days the clustering raises ValueError. *)
Definition run_K_means {A : Type} (argsort : list Q -> list nat) (wrnum : nat) (labels : list Z) (centers : list A)
  : res (list A * list Q * list Q) :=
  match labels with
  | [] => Err ValueError
  | _ =>
      let perc0 := map (fun i => get_cluster_fraction labels (Z.of_nat i)) (seq 0 wrnum) in
      let ii := argsort perc0 in
      perc <- mapM (fun i => item (Z.of_nat i) perc0) ii ;;
      input <- mapM (fun i => item (Z.of_nat i) centers) ii ;;
      wrc <- relabel labels (rev ii) (seq 0 wrnum) (map inject_Z labels) ;;
      Ok (rev input, rev perc, wrc)
  end.

(** ** Matching of forecast regimes *)
(** [l[k] = v]. *)
Definition store {A : Type} (k : nat) (v : A) (l : list (option A)) : res (list (option A)) :=
  if (k <? length l)%nat then Ok (firstn k l ++ Some v :: skipn (S k) l)%list else Err IndexError.
(** Blocking_WeatherRegime_util.py 141-145: the loop over the regimes.  A cell of [np.empty] that is never set is
    [None]. *)
Fixpoint reorder_loop {A : Type} (kmeans : list A) (perc wrc : list Q) (order : list Z) (todo : list nat)
  (st : list (option A) * list (option Q) * list (option Q)) : res (list (option A) * list (option Q) * list (option Q)) :=
  match todo with
  | [] => Ok st
  | w :: rest =>
      let '(knew, pnew, wnew) := st in
      o <- item (Z.of_nat w) order ;;
      p <- item (o - 1) perc ;;
      pnew' <- store w p pnew ;;
      k <- item (o - 1) kmeans ;;
      knew' <- store w k knew ;;
      reorder_loop kmeans perc wrc order rest
        (knew', pnew', assign (fun v => Qeq_bool v (inject_Z o)) (Some (inject_Z (Z.of_nat w + 1))) wrc wnew)
  end.
(** Blocking_WeatherRegime_util.py 134-147, [reorder_fcst_regimes].  A pattern is any value. *)
Definition reorder_fcst_regimes {A : Type} (kmeans : list A) (perc wrc : list Q) (wrnum : nat) (order : list Z)
  : res (list (option A) * list (option Q) * list (option Q)) :=
  reorder_loop kmeans perc wrc order (seq 0 wrnum) (map (fun _ => None) kmeans, map (fun _ => None) perc, map (fun _ => None) wrc).
(** Sum of products of deviations from the mean. *)
Definition comoment (x y : list Q) : Q :=
  let mx := (plus_all x / inject_Z (Z.of_nat (length x)))%Q in
  let my := (plus_all y / inject_Z (Z.of_nat (length y)))%Q in
  plus_all (map (fun p => ((fst p - mx) * (snd p - my))%Q) (combine x y)).
Definition same_values (x : list Q) : bool := match x with [] => true | q :: t => forallb (fun p => Qeq_bool p q) t end.
(** The correlation of [scipy.stats.pearsonr]; NaN (with a warning) for constant values.  The exact value lies
    between -1 and 1, so that the clipping against rounding is not needed. *)
Definition pearsonr (x y : list Q) : res (option R) :=
  if negb (length x =? length y)%nat then Err ValueError
  else if (length x <? 2)%nat then Err ValueError
  else if same_values x || same_values y then Ok None
  else Ok (Some (Q2R (comoment x y) / (sqrt (Q2R (comoment x x)) * sqrt (Q2R (comoment y y))))%R).
(** Blocking_WeatherRegime_util.py 155-160: the forecast regime that matches an observed one.  Patterns are the
    flattened arrays. *)
Definition best_match (kmeans_obs kmeans_fcst : list (list Q)) (wrnum w : nat) : res Z :=
  corr <- mapM (fun owr => x <- item (Z.of_nat w) kmeans_obs ;; y <- item (Z.of_nat owr) kmeans_fcst ;; pearsonr x y) (seq 0 wrnum) ;;
  k <- argmax corr ;;
  Ok (Z.of_nat k + 1).
(** Blocking_WeatherRegime_util.py 150-166, [reorder_fcst_regimes_correlate]. *)
Definition reorder_fcst_regimes_correlate (kmeans_obs kmeans_fcst : list (list Q)) (perc wrc : list Q) (wrnum : nat)
  : res (list (option (list Q)) * list (option Q) * list (option Q)) :=
  order <- mapM (best_match kmeans_obs kmeans_fcst wrnum) (seq 0 wrnum) ;;
  reorder_fcst_regimes kmeans_fcst perc wrc wrnum order.

(** ** Frequencies *)
(** WeatherRegime.py 255-270, [compute_wr_freq]: labels by year and day; counts by regime, year and window.  All
    years have the same number of days. *)
Definition compute_wr_freq (wrnum tstep : Z) (wr : list (list Q)) : res (list (list (list Z)) * Z * Z) :=
  match wr with
  | [] | [] :: _ => Err IndexError
  | row :: _ =>
      let nd := Z.of_nat (length row) - tstep + 1 in
      if (nd <? 0) || (wrnum <? 0) then Err ValueError
      else if (nd =? 0) || (wrnum =? 0) then Err IndexError
      else Ok (map (fun w => map (fun days => map (fun d =>
              Z.of_nat (length (filter (fun v => Qeq_bool v (inject_Z (Z.of_nat w + 1))) (slice (Z.of_nat d) (tstep + Z.of_nat d) days)))) (seq 0 (Z.to_nat nd))) wr)
            (seq 0 (Z.to_nat wrnum)), nd, tstep)
  end.

(** ** Anomalies *)
(** Latitudes as one list, with the number of longitudes, or as an array of the grid. *)
Inductive latitudes : Type :=
| lat1 (lats : list Q) (nlon : nat)
| lat2 (lats : list (list Q)).
(** WeatherRegime.py 47-52: the weights by latitude and longitude. *)
Definition weightf (l : latitudes) : list (list R) :=
  let way q := cos (Q2R q * PI / 180) in
  match l with lat1 lats nlon => map (fun q => repeat (way q) nlon) lats | lat2 lats => map (map way) lats end.
(** [len(lons)*len(lats)]: of an array of the grid the number of rows is the length. *)
Definition columns_wanted (l : latitudes) : nat := match l with lat1 lats nlon => nlon * length lats | lat2 lats => length lats * length lats end.
(** WeatherRegime.py 55-64, [weights_detrend]: the detrended values are those of an array of zeros and are
    overwritten.  Anomalies by year, day, latitude and longitude, and as one row for each day.  The data has
    the shape (year, day, latitude, longitude) of the weights. *)
Definition anomaly (years : list (list (list (list (option Q))))) (d i j : nat) (weight : R) (value : option Q) : res (option R) :=
  vs <- mapM (fun days => day <- item (Z.of_nat d) days ;; row <- item (Z.of_nat i) day ;; item (Z.of_nat j) row) years ;;
  Ok (match value, nanmean vs with Some q, Some m => Some (Q2R (q - m) * weight)%R | _, _ => None end).
Definition weights_detrend (l : latitudes) (years : list (list (list (list (option Q)))))
  : res (list (list (list (list (option R)))) * list (list (option R))) :=
  match years, weightf l with
  | [], _ | _, [] | _, [] :: _ => Err IndexError
  | _, ws =>
      a <- mapM (fun days => mapM (fun dd => mapM (fun ir => mapM (fun jw =>
             v <- item (Z.of_nat (fst jw)) (snd (snd ir)) ;; anomaly years (fst dd) (fst ir) (fst jw) (snd jw) v)
             (combine (seq 0 (length (fst (snd ir)))) (fst (snd ir)))) (combine (seq 0 (length ws)) (combine ws (snd dd))))
             (combine (seq 0 (length days)) days)) years ;;
      if (length (concat years) =? 0)%nat || (length (concat ws) =? columns_wanted l)%nat then Ok (a, flat_map (map (@concat _)) a) else Err ValueError
  end.
