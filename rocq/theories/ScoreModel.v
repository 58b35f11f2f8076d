(** Model of the significance classes of metcalcpy/scorecard.py. *)
From Coq Require Import Reals Qreals Qabs.
From Verif Require Import PyBase RealBase UtilModel TostModel SeriesModel.
From Coq Require Import List.
Open Scope string_scope.
Open Scope Q_scope.

(** [round(q, d)]: to the nearest multiple of 10^-d, a tie going to the even one. *)
Definition even_of (f : Z) : Z := if Z.even f then f else (f + 1)%Z.
Definition round_even (d : nat) (q : Q) : Q :=
  let s := q * (Zpos (pow10 d) # 1) in
  let f := Qfloor s in
  let r := s - inject_Z f in
  let k := if Qlt_bool r (1 # 2) then f else if Qlt_bool (1 # 2) r then (f + 1)%Z else even_of f in
  Qmake k (pow10 d).
Definition round_even_R (d : nat) (v : R) : Q :=
  let s := (v * IZR (Zpos (pow10 d)))%R in
  let f := Int_part s in
  let r := (s - IZR f)%R in
  let k := if Rlt_dec r (/ 2) then f else if Rlt_dec (/ 2) r then (f + 1)%Z else even_of f in
  Qmake k (pow10 d).

(** [np.subtract(a, b)] of two arrays; an array of length 1 is broadcast. *)
Definition nan_sub (a b : pyval) : pyval :=
  match a, b with Some u, Some w => Some (u - w) | _, _ => None end.
Definition np_subtract (a b : list pyval) : res (list pyval) :=
  if Nat.eqb (length a) (length b) then Ok (map (fun e => nan_sub (fst e) (snd e)) (combine a b))
  else if Nat.eqb (length a) 1 then Ok (map (nan_sub (hd None a)) b)
  else if Nat.eqb (length b) 1 then Ok (map (fun u => nan_sub u (hd None b)) a)
  else Err ValueError.

(** scorecard.py 375-390: critical values for the number of days. *)
Definition alphas (ndays : Z) : Q * Q * Q :=
  if (80 <=? ndays)%Z then ((1960 # 1000), (2576 # 1000), (3291 # 1000))
  else if (40 <=? ndays)%Z && (ndays <? 80)%Z then (2, (266 # 100), (346 # 100))
  else if (20 <=? ndays)%Z && (ndays <? 40)%Z then ((2042 # 1000), (275 # 100), (3646 # 1000))
  else ((2228 # 1000), (3169 # 1000), (4587 # 1000)).

(** scorecard.py 391-413: the class of a rounded ratio. *)
Definition emc_class (ndays : Z) (ds : Q) : option Q :=
  let '(alpha1, alpha2, alpha3) := alphas ndays in
  let ds95 := ds in
  let ds99 := round_even 3 (ds * alpha1 / alpha2) in
  let ds999 := round_even 3 (ds * alpha1 / alpha3) in
  if Qle_bool 1 ds999 then Some 1
  else if Qlt_bool ds999 1 && Qle_bool 1 ds99 then Some (99 # 100)
  else if Qlt_bool ds99 1 && Qle_bool 1 ds95 then Some (95 # 100)
  else if Qlt_bool (-1) ds95 && Qlt_bool ds95 1 then Some 0
  else if Qle_bool ds95 (-1) && Qlt_bool (-1) ds99 then Some (- (95 # 100))
  else if Qle_bool ds99 (-1) && Qlt_bool (-1) ds999 then Some (- (99 # 100))
  else if Qle_bool ds999 (-1) && Qlt_bool (-100) ds999 then Some (-1)
  else if Qlt_bool ds999 (-100) then Some (-1)
  else None.

(** scorecard.py 361-372: numerator of the ratio, and whether its sign is changed. *)
Definition emc_numerator (stat : string) (mean1 mean2 : Q) : Q :=
  if starts_with "ME" stat || starts_with "BIAS" stat then
    if Qlt_bool (Qabs mean2 - Qabs mean1) 0 then -1 * Qabs (mean2 - mean1) else Qabs (mean2 - mean1)
  else if starts_with "RMSE" stat || starts_with "RMSVE" stat then mean2 - mean1
  else mean1 - mean2.

(** scorecard.py 348-418, [_calculate_diff_sig_emc].  NaN is [None] in the lists; everything computed
    from it is NaN and no comparison with NaN holds.  The division of numpy floats by a zero interval
    gives an infinity, which is in the outermost class, or NaN.  Not modelled: zero days. *)
Definition calculate_diff_sig_emc (ndays : Z) (stat : string) (values_1 values_2 : list pyval)
  : res (option Q) :=
  val2_minus_val1 <- np_subtract values_2 values_1 ;;
  if (ndays =? 0)%Z then Err NotModelled
  else
    let nsz := Z.of_nat (length values_1) in
    match all_present val2_minus_val1 with
    | None => if (nsz <? 1)%Z then Err ValueError else if (nsz =? 1)%Z then Err ZeroDivisionError else Ok None
    | Some d =>
        let acdm := pysum d / inject_Z ndays in
        let ss := pysum (map (fun x => (x - acdm) * (x - acdm)) d) / inject_Z ndays in
        if Qlt_bool ss 0 then Err ValueError
        else
          let std := sqrt (Q2R ss) in
          if (nsz <? 1)%Z then Err ValueError
          else if (nsz =? 1)%Z then Err ZeroDivisionError
          else
            let intvl := round_even_R 6 (Q2R (1960 # 1000) * std / sqrt (IZR (nsz - 1))) in
            match all_present values_1, all_present values_2 with
            | Some v1, Some v2 =>
                m1 <- st_mean v1 ;; m2 <- st_mean v2 ;;
                let mean1 := round_even 6 m1 in
                let mean2 := round_even 6 m2 in
                let num := emc_numerator stat mean1 mean2 in
                if Qeq_bool intvl 0 then
                  if Qlt_bool 0 num then Ok (Some 1) else if Qlt_bool num 0 then Ok (Some (-1)) else Ok None
                else Ok (emc_class ndays (round_even 3 (num / intvl)))
            | _, _ => Ok None
            end
    end.

(** A float that may be NaN, or [None]. *)
Inductive out : Type := OutNone | OutNaN | OutNum (x : R).

Section Ncar.
(** Student's distribution function of scipy. *)
Variable cdf : Z -> R -> R.

(** scorecard.py 326-346, [_calculate_diff_sig_ncar].  Not modelled: NaN values.  A zero standard
    deviation makes [t] infinite (the distribution function is then 1) or, for a zero mean, NaN.
    [perfect_score_adjustment] is linear in its last argument; it is applied to 1 and multiplied. *)
Definition calculate_diff_sig_ncar (stat : string) (ds_1_values ds_2_values : list Q) : res out :=
  d <- calc_derived_curve_value (fun _ _ => Err NotModelled : res unit)
         (Some (map Some ds_1_values)) (Some (map Some ds_2_values)) "DIFF_SIG" ;;
  match d with
  | Values derived_stat_list =>
      avg <- st_mean derived_stat_list ;;
      let total := Z.of_nat (length derived_stat_list) in
      if (total <? 2)%Z then Err ValueError
      else
        let var := pysum (map (fun x => (x - avg) * (x - avg)) derived_stat_list) / inject_Z (total - 1) in
        let p_val :=
          if Qeq_bool var 0 then if Qeq_bool avg 0 then OutNaN else OutNum (1 - 2 * 0)
          else
            let t := (Q2R avg / (sqrt (Q2R var) / sqrt (IZR total)))%R in
            OutNum (1 - 2 * pt cdf (Rabs t) (total - 1) false)%R in
        mean1 <- st_mean ds_1_values ;; mean2 <- st_mean ds_2_values ;;
        match perfect_score_adjustment mean1 mean2 stat 1 with
        | None => Ok OutNone
        | Some s => Ok (match p_val with OutNum p => OutNum (p * Q2R s) | o => o end)
        end
  | _ => Err TypeError
  end.
End Ncar.
