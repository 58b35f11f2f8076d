(** Activity of tropical waves: metcalcpy/contributed/tropical_diagnostics/ccew_activity.py.  Files and xarray itself are
    not modelled; roots are reals; NaN is [None] where it is modelled. *)
From Coq Require Import Reals Qreals String.
From Verif Require Import PyBase ColumnModel BlockModel TropicsModel.
From Coq Require Import List.
Open Scope nat_scope.
Open Scope list_scope.

(** ** The seasonal cycle *)
(** A day: year, month, day of the month. *)
Record date := Date { year : Z; month : Z; day : Z }.
(** The days before the month (1 to 12) in a year, for pandas' [dayofyear]. *)
Definition leap (y : Z) : bool := (y mod 4 =? 0)%Z && (negb (y mod 100 =? 0)%Z || (y mod 400 =? 0)%Z).
Definition days_before (m : Z) : Z :=
  nth (Z.to_nat (m - 1)) [0; 31; 59; 90; 120; 151; 181; 212; 243; 273; 304; 334]%Z 0%Z.
Definition dayofyear (d : date) : Z := (days_before (month d) + day d + if leap (year d) && (2 <? month d) then 1 else 0)%Z.
(** The string [strftime('%m-%d')], as month and day. *)
Definition same_month_day (a b : date) : bool := (month a =? month b)%Z && (day a =? day b)%Z.

(** ccew_activity.py 140-161, [rem_seas_cyc], at one place: the mean of the group of equal month and day is taken away;
    xarray's mean leaves out NaN. *)
Definition clim (data : list (date * option Q)) (d : date) : option Q :=
  nanmean (map snd (filter (fun p => same_month_day (fst p) d) data)).
Definition rem_seas_cyc (data : list (date * option Q)) : list (option Q) :=
  map (fun p => lift2 Qminus (snd p) (clim data (fst p))) data.
(** ccew_activity.py 163-174, [rem_seas_mean]. *)
Definition rem_seas_mean (data : list (date * option Q)) : list (option Q) :=
  map (fun p => lift2 Qminus (snd p) (nanmean (map snd data))) data.
(** ccew_activity.py 115: [doy[0::spd]] for a positive step. *)
Fixpoint every {A : Type} (skip : nat) (spd : nat) (l : list A) : list A :=
  match l with
  | [] => []
  | x :: l' => match skip with O => x :: every (spd - 1) spd l' | S k => every k spd l' end
  end.
(** ccew_activity.py 113-120: the number of repeated days of the year decides.  For a negative [spd] the slice has at
    most one value. *)
Definition remove_cycle (spd : Z) (data : list (date * option Q)) : res (list (option Q)) :=
  if (spd =? 0)%Z then Err ValueError
  else
    let doy := map (fun p => dayofyear (fst p)) data in
    let doy_oad := if (spd <? 0)%Z then firstn 1 doy else every 0 (Z.to_nat spd) doy in
    let nd := length doy_oad - length (nodup Z.eq_dec doy_oad) in
    Ok (if 0 <? nd then rem_seas_cyc data else rem_seas_mean data).

(** ** Projection *)
(** A field on a grid: latitudes, longitudes, and a row of values for each latitude; no NaN. *)
Record grid := Grid { lats : list Q; lons : list Q; cells : list (list Q) }.
(** pandas: [is_monotonic_increasing] and [is_monotonic_decreasing]. *)
Fixpoint increasing (l : list Q) : bool :=
  match l with a :: ((b :: _) as l') => Qle_bool a b && increasing l' | _ => true end.
Definition decreasing (l : list Q) : bool := increasing (rev l).
(** [coord.min()] and [coord.max()]: ValueError without values. *)
Definition least (l : list Q) : res Q :=
  match l with [] => Err ValueError | a :: l' => Ok (fold_left (fun m x => if Qle_bool m x then m else x) l' a) end.
Definition greatest (l : list Q) : res Q :=
  match l with [] => Err ValueError | a :: l' => Ok (fold_left (fun m x => if Qle_bool x m then m else x) l' a) end.
(** [sel(lat=slice(lo, hi))]: labels from [lo] on to [hi] in the order of the index.  An index in no order is not
    modelled (it raises KeyError if a limit is not one of its labels). *)
Definition label_slice (index : list Q) (lo hi : Q) : res (Q -> bool) :=
  if increasing index then Ok (fun x => Qle_bool lo x && Qle_bool x hi)
  else if decreasing index then Ok (fun x => Qle_bool x lo && Qle_bool hi x)
  else Err NotModelled.
(** The places of a grid with their values. *)
Definition places (g : grid) : list ((Q * Q) * Q) :=
  flat_map (fun row => map (fun c => ((fst row, fst c), snd c)) (combine (lons g) (snd row))) (combine (lats g) (cells g)).
(** [a @ b]: xarray first keeps the labels that both have, then multiplies and adds. *)
Definition dot (a b : list ((Q * Q) * Q)) : Q :=
  fold_right Qplus 0%Q (flat_map (fun p => flat_map (fun q =>
    if Qeq_bool (fst (fst p)) (fst (fst q)) && Qeq_bool (snd (fst p)) (snd (fst q)) then [(snd p * snd q)%Q] else []) b) a).
(** ccew_activity.py 177-203, [waveproj], for one time: the projection on each EOF.  [eofseas] has one list of EOFs per
    month, or one for the year; all are on one grid, [elats] and [elons]. *)
Definition waveproj (elats elons : list Q) (eofseas : list (list grid)) (mm : Z) (data : grid) : res (list Q) :=
  lat1 <- least elats ;; lat2 <- greatest elats ;;
  lon1 <- least elons ;; lon2 <- greatest elons ;;
  inlat <- label_slice (lats data) lat1 lat2 ;;
  inlon <- label_slice (lons data) lon1 lon2 ;;
  let kept := filter (fun p => inlat (fst (fst p)) && inlon (snd (fst p))) (places data) in
  eof <- (if length eofseas =? 1 then get 0 eofseas else get (Z.to_nat (mm - 1)) eofseas) ;;
  Ok (map (fun e => dot (places e) kept) eof).
(** ccew_activity.py 127-128: the activity. *)
Definition activity (tswave : list Q) : R := sqrt (Q2R (fold_right Qplus 0%Q (map (fun q => q * q)%Q tswave))).

(** ccew_activity.py 72-88: the number of EOFs and the name of the first file, without the parts that come from the
    arguments.  Without a branch the names [eofname] and [filename] are not set. *)
Definition eof_files (wave tres : string) : res (nat * string) :=
  n <- (if String.eqb wave "Kelvin" || String.eqb wave "kelvin" then Ok 4
        else if String.eqb wave "ER" || String.eqb wave "er" then Ok 4
        else if String.eqb wave "MJO" || String.eqb wave "mjo" then Ok 4
        else if String.eqb wave "MRG" || String.eqb wave "mrg" then Ok 2
        else Err UnboundLocalError) ;;
  if String.eqb tres "monthly" then Ok (n, "01.nc"%string)
  else if String.eqb tres "annual" then Ok (n, "annual.nc"%string)
  else Err UnboundLocalError.

(** ** Skill *)
(** All values, unless one is NaN. *)
Fixpoint all_there (l : list (option R)) : option (list R) :=
  match l with
  | [] => Some []
  | None :: _ => None
  | Some x :: l' => match all_there l' with Some r => Some (x :: r) | None => None end
  end.
Definition mean_r (l : list R) : R := (fold_right Rplus 0 l / INR (length l))%R.
(** The sum of products of deviations. *)
Definition codev_r (x y : list R) : R :=
  fold_right Rplus 0%R (map (fun p => (fst p - mean_r x) * (snd p - mean_r y))%R (combine x y)).
(** [np.corrcoef(x, y)[0, 1]]: covariances are divided by [n - 1], by standard deviations, and clipped to -1..1; NaN if a
    value is NaN, for one value, and if a series does not vary. *)
Definition corrcoef (x y : list (option R)) : option R :=
  match all_there x, all_there y with
  | Some a, Some b =>
      if length a <=? 1 then None
      else
        let n := INR (length a - 1) in
        let sx := sqrt (codev_r a a / n) in
        let sy := sqrt (codev_r b b / n) in
        if Req_EM_T sx 0 then None else if Req_EM_T sy 0 then None
        else let c := (codev_r a b / n / sx / sy)%R in Some (Rmax (-1) (Rmin 1 c))
  | _, _ => None
  end.
(** [act[f, l, 0] = v]; [skill] is a view of the array [act]. *)
Definition store (f l : nat) (v : option R) (act : list (list (list (option R)))) : res (list (list (list (option R)))) :=
  block <- get f act ;; line <- get l block ;;
  line' <- put 0 v line ;; block' <- put l line' block ;; put f block' act.
(** ccew_activity.py 217-220: the loops. *)
Fixpoint skill_loop (is : list (nat * nat)) (act : list (list (list (option R)))) : res (list (list (list (option R)))) :=
  match is with
  | [] => Ok act
  | (ff, ll) :: is' =>
      block <- get ff act ;; model <- get (ll + 1) block ;; truth <- get 0 block ;;
      act' <- store ff (ll + 1) (corrcoef model truth) act ;;
      skill_loop is' act'
  end.
(** ccew_activity.py 206-222, [wave_skill], for an array with the shape of [act], [nlines], [ntim]: the array afterwards
    and the result.  [squeeze] drops axes of length 1, so that [skill[ff, ll]] has too many indices. *)
Definition wave_skill (nlines ntim : nat) (act : list (list (list (option R))))
  : res (list (list (list (option R))) * list (list (option R))) :=
  let nfchr := length act in
  if ntim =? 0 then Err IndexError
  else
    let loop := flat_map (fun ff => map (fun ll => (ff, ll)) (seq 0 (nlines - 1))) (seq 0 nfchr) in
    if negb (length loop =? 0) && ((nfchr =? 1) || (nlines - 1 =? 1)) then Err IndexError
    else
      act' <- skill_loop loop act ;;
      skill <- mapM (fun block => mapM (fun line => get 0 line) (skipn 1 block)) act' ;;
      Ok (act', skill).
