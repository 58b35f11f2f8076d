(** The MaKE and MaKI indices: metcalcpy/contributed/mjo_enso/compute_mjo_enso.py 119-201.  Numbers are reals without NaN. *)
From Coq Require Import Reals ZArith.
From Verif Require Import PyBase ColumnModel TropicsModel WavesModel RmmModel ActivityModel.
From Coq Require Import List.
Import ListNotations.
Open Scope nat_scope.
Open Scope list_scope.

(** ** Dates *)
(** [datetime.toordinal]: the number of a day. *)
Definition ordinal (d : date) : Z :=
  let y := (year d - 1)%Z in (365 * y + y / 4 - y / 100 + y / 400 + dayofyear d)%Z.
(** [calendar.monthrange]: the days of a month. *)
Definition month_days (y m : Z) : Z :=
  if (m =? 2)%Z then if leap y then 29%Z else 28%Z
  else if (m =? 4)%Z || (m =? 6)%Z || (m =? 9)%Z || (m =? 11)%Z then 30%Z else 31%Z.
(** [… + relativedelta(months=1)]: the day is at most the last of the month. *)
Definition next_month (d : date) : date :=
  let '(y, m) := if (month d =? 12)%Z then ((year d + 1)%Z, 1%Z) else (year d, (month d + 1)%Z) in
  Date y m (Z.min (day d) (month_days y m)).
(** compute_mjo_enso.py 188-192: the values of [stdt] in the loop; [None] if [fuel] is too small. *)
Fixpoint visits (fuel : nat) (stdt edt : date) : option (list date) :=
  if (ordinal edt <? ordinal stdt)%Z then Some []
  else
    match fuel with
    | 0 => None
    | S fuel' => option_map (cons stdt) (visits fuel' (next_month stdt) edt)
    end.
(** A number of months that is enough. *)
Definition months (stdt edt : date) : nat := Z.to_nat (12 * (year edt - year stdt) + (month edt - month stdt) + 1).
Definition visited (stdt edt : date) : res (list date) :=
  match visits (months stdt edt) stdt edt with Some l => Ok l | None => Err NotModelled end.
(** [pd.date_range(datemin, datemax, freq='MS')]: the first days of months from [datemin] to [datemax]. *)
Definition month_starts (datemin datemax : date) : res (list date) :=
  let d := if (day datemin =? 1)%Z then datemin else let n := next_month datemin in Date (year n) (month n) 1 in
  visited d datemax.
(** The times of an index in order. *)
Fixpoint in_order (l : list date) : bool :=
  match l with a :: ((b :: _) as l') => (ordinal a <=? ordinal b)%Z && in_order l' | _ => true end.

(** ** Indices *)
(** A series over its standard deviation; 0 as the deviation is not modelled. *)
Definition normal (l : list R) : res (list R) :=
  if Req_EM_T (nanstd l) 0 then Err NotModelled else Ok (map (fun x => x / nanstd l)%R l).
(** [min('time')]: ValueError without values. *)
Definition least_of (l : list R) : res R :=
  match l with [] => Err ValueError | x :: l' => Ok (fold_left Rmin l' x) end.
(** compute_mjo_enso.py 189-191: the least value from 90 days before the day to the day. *)
Definition window_min (wtime : list date) (pc : list R) (d : date) : res R :=
  least_of (map snd (filter (fun p => (ordinal d - 90 <=? ordinal (fst p))%Z && (ordinal (fst p) <=? ordinal d)%Z) (combine wtime pc))).
(** compute_mjo_enso.py 195-199: a list with the months as coordinate, over its standard deviation. *)
Definition labelled (time_mon : list date) (l : list R) : res (list (date * R)) := n <- normal l ;; Ok (combine time_mon n).
(** compute_mjo_enso.py 119-201, [make_maki], for SST with the times [time] and a series for each longitude, and wind power
    with its own times and longitudes.  Other numbers of times or longitudes raise ValueError, as patterns of another length
    do; sizes that numpy can broadcast are not modelled, and neither are times that are not in order. *)
Definition make_maki (time wtime : list date) (sst wmjoks meofs : list (list R)) : res (list (date * R) * list (date * R)) :=
  let nday := length time in
  let nlon := length sst in
  sst_norm <- mapM normal sst ;;
  wmjoks_norm <- mapM normal wmjoks ;;
  if negb ((length wtime =? nday) && (length wmjoks =? nlon)) then Err ValueError
  else
    let dat := wmjoks_norm ++ sst_norm in
    if negb (forallb (fun e => length e =? 2 * nlon) meofs) then Err ValueError
    else
      let pcs := map (fun e => map (fun t => rsum (map (fun p => fst p * nth t (snd p) 0)%R (combine e dat))) (seq 0 nday)) meofs in
      p1 <- get 0 pcs ;;
      p2 <- get 1 pcs ;;
      PC1 <- normal (map Ropp p1) ;;
      PC2 <- normal (map Ropp p2) ;;
      let pcmake := map (fun p => fst p + Rabs (snd p))%R (combine PC1 PC2) in
      let pcmaki := map (fun p => fst p + snd p)%R (combine PC1 PC2) in
      stdt <- get 90 time ;;
      let edt := last time stdt in
      if negb (in_order wtime) then Err NotModelled
      else
        days <- visited stdt edt ;;
        both <- mapM (fun d => a <- window_min wtime pcmake d ;; b <- window_min wtime pcmaki d ;; Ok (a, b)) days ;;
        time_mon <- month_starts stdt edt ;;
        if negb (length both =? length time_mon) then Err ValueError
        else
          make_n <- labelled time_mon (map fst both) ;;
          maki_n <- labelled time_mon (map snd both) ;;
          Ok (make_n, maki_n).
