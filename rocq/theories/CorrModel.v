(** Correlations: metcalcpy/util/correlation.py.  Numbers are reals, since roots and logarithms are taken; NaN is [None].
    P-values (distributions of scipy) are not modelled; power, Bayes factors and Shepherd's pi are in PowerModel.v. *)
From Coq Require Import Reals String.
From Verif Require Import PyBase ActivityModel.
From Coq Require Import List.
Import ListNotations.
Open Scope nat_scope.

(** ** Missing values *)
Definition there (c : option R) : bool := match c with Some _ => true | None => false end.
(** correlation.py 1151-1167, [_remove_na_single], for one dimension. *)
Definition remove_na_single (x : list (option R)) : list (option R) := filter there x.
(** correlation.py 1068-1148, [remove_na], for two arrays of one dimension. *)
Definition remove_na (x y : list (option R)) (paired : bool) (axis : string) : res (list (option R) * list (option R)) :=
  if length x <=? 1 then Err AssertionError
  else if negb (String.eqb axis "rows" || String.eqb axis "columns") then Err AssertionError
  else if length y =? 1 then Ok (remove_na_single x, y)
  else if negb paired then Ok (remove_na_single x, remove_na_single y)
  else if forallb there x && forallb there y then Ok (x, y)
  else if negb (length x =? length y) then Err ValueError
  else
    let both := filter (fun p => there (fst p) && there (snd p)) (combine x y) in
    Ok (map fst both, map snd both).
(** The values of an array without NaN. *)
Definition values (l : list (option R)) : list R := flat_map (fun c => match c with Some v => [v] | None => [] end) l.

(** ** Pearson *)
Definition real_eqb (a b : R) : bool := if Req_EM_T a b then true else false.
Definition real_ltb (a b : R) : bool := if Rlt_dec a b then true else false.
Definition rsum (l : list R) : R := fold_right Rplus 0%R l.
(** [(x == x[0]).all()]. *)
Definition constant (x : list R) : bool := match x with [] => true | a :: _ => forallb (fun v => real_eqb v a) x end.
(** scipy.stats.pearsonr: the correlation. *)
Definition pearsonr (x y : list R) : res (option R) :=
  if negb (length x =? length y) then Err ValueError
  else if length x <? 2 then Err ValueError
  else if constant x || constant y then Ok None
  else
    let r := (codev_r x y / (sqrt (codev_r x x) * sqrt (codev_r y y)))%R in
    Ok (Some (Rmax (Rmin r 1) (-1))).

(** ** Biweight midcorrelation *)
(** [np.sort]. *)
Fixpoint insert_r (v : R) (l : list R) : list R :=
  match l with
  | [] => [v]
  | w :: l' => if Rle_dec v w then v :: l else w :: insert_r v l'
  end.
Definition sort_r (l : list R) : list R := fold_right insert_r [] l.
(** [np.median]: NaN of an empty array. *)
Definition median (l : list R) : option R :=
  let s := sort_r l in
  let n := length s in
  if n =? 0 then None
  else if Nat.odd n then nth_error s (n / 2)
  else match nth_error s (n / 2 - 1), nth_error s (n / 2) with
       | Some a, Some b => Some ((a + b) / 2)%R
       | _, _ => None
       end.
(** correlation.py 395-400: weighted deviations from the median [m]; [d] is the median of the absolute deviations. *)
Definition biweight (m d v : R) : R :=
  let u := ((v - m) / (9 * d))%R in
  let w := if real_ltb 0 (1 - Rabs u) then ((1 - u * u) * (1 - u * u))%R else 0%R in
  ((v - m) * w)%R.
(** correlation.py 384-388: the median and the median of the absolute deviations. *)
Definition center (x : list R) : option (R * R) :=
  match median x with
  | None => None
  | Some m => match median (map (fun v => Rabs (v - m)) x) with Some d => Some (m, d) | None => None end
  end.
(** correlation.py 349-407, [bicor], with the default [c = 9].  For empty arrays the medians are NaN. *)
Definition bicor (x y : list R) : res (option R) :=
  let zero c := match c with Some (_, d) => real_eqb d 0 | None => false end in
  let cx := center x in
  let cy := center y in
  if zero cx || zero cy then Ok None
  else if negb (length x =? length y) then Err ValueError
  else match cx, cy with
       | Some (mx, dx), Some (my, dy) =>
           let xn := map (biweight mx dx) x in
           let yn := map (biweight my dy) y in
           let denom := (sqrt (rsum (map (fun v => v * v) xn)) * sqrt (rsum (map (fun v => v * v) yn)))%R in
           if Req_EM_T denom 0 then Ok None
           else Ok (Some (rsum (map (fun p => fst p * snd p) (combine xn yn)) / denom)%R)
       | _, _ => Ok None
       end.

(** ** Percentage bend correlation *)
(** correlation.py 442-466 for one column, with the default [beta = 0.2]: for the sorted absolute deviations [W],
    [omega = W[m - 1]] with [m = int(0.8 * nx)]; for one value [m - 1] is -1, the last place.  [None] is NaN. *)
Definition bend (x : list R) : res (list (option R)) :=
  match median x with
  | None => Err IndexError
  | Some med =>
      let W := sort_r (map (fun v => Rabs (v - med)) x) in
      let m := 4 * length x / 5 in
      match nth_error W (if m =? 0 then length x - 1 else m - 1) with
      | None => Err IndexError
      | Some omega =>
          let psi v := if Req_EM_T omega 0 then 0%R else ((v - med) / omega)%R in
          let below := filter (fun v => real_ltb (psi v) (-1)) x in
          let above := filter (fun v => real_ltb 1 (psi v)) x in
          let s := map (fun v => if real_ltb (psi v) (-1) || real_ltb 1 (psi v) then 0%R else v) x in
          let kept := (INR (length x) - INR (length below) - INR (length above))%R in
          if Req_EM_T kept 0 then Ok (map (fun _ => None) x)
          else
            let pbos := ((rsum s + omega * (INR (length above) - INR (length below))) / kept)%R in
            Ok (map (fun v =>
                  if Req_EM_T omega 0 then
                    if Rlt_dec v pbos then Some (-1)%R else if Rlt_dec pbos v then Some 1%R else None
                  else
                    let a := ((v - pbos) / omega)%R in
                    Some (if Rle_dec a (-1) then (-1)%R else if Rle_dec 1 a then 1%R else a)) x)
      end
  end.
(** correlation.py 410-473, [percbend]. *)
Definition percbend (x y : list R) : res (option R) :=
  if negb (length x =? length y) then Err ValueError
  else
    a <- bend x ;; b <- bend y ;;
    match all_there a, all_there b with
    | Some a, Some b =>
        let q := (rsum (map (fun v => v * v) a) * rsum (map (fun v => v * v) b))%R in
        if Req_EM_T q 0 then Ok None
        else Ok (Some (rsum (map (fun p => fst p * snd p) (combine a b)) / sqrt q)%R)
    | _, _ => Ok None
    end.

(** ** The interval *)
(** [np.arctanh] between -1 and 1. *)
Definition arctanh (r : R) : R := (ln ((1 + r) / (1 - r)) / 2)%R.
(** correlation.py 807-812: both limits for a correlation [r] of [n] pairs; [crit] is the (positive) quantile.  [np.arctanh]
    of 1 is infinite, of numbers beyond NaN. *)
Definition ci_r (crit r : R) (n : Z) : option R * option R :=
  if real_ltb 1 (Rabs r) || (n <? 3)%Z then (None, None)
  else if real_eqb (Rabs r) 1 then
    if (n =? 3)%Z then (if real_ltb 0 r then (None, Some 1%R) else (Some (-1)%R, None)) else (Some r, Some r)
  else if (n =? 3)%Z then (Some (-1)%R, Some 1%R)
  else
    let z := arctanh r in
    let se := (1 / sqrt (IZR (n - 3)))%R in
    (Some (tanh (z - crit * se)), Some (tanh (z + crit * se))).
(** correlation.py 688-833, [compute_esci], for a given statistic and lower case [eftype], before the final rounding.
    [norm_ppf] and [t_ppf] are the quantiles of scipy.  [ny = None] is the default.  Sizes below 1 and fewer than 1 degree
    of freedom are not modelled. *)
Definition compute_esci (norm_ppf : R -> R) (t_ppf : R -> Z -> R) (stat : R) (nx : Z) (ny : option Z) (paired : bool)
  (eftype : string) (confidence : R) : res (option R * option R) :=
  if negb (existsb (String.eqb eftype) ["r"; "pearson"; "spearman"; "cohen"; "d"; "g"; "hedges"]%string) then Err AssertionError
  else if negb (real_ltb 0 confidence && real_ltb confidence 1) then Err AssertionError
  else if existsb (String.eqb eftype) ["r"; "pearson"; "spearman"]%string then
    Ok (ci_r (Rabs (norm_ppf ((1 - confidence) / 2)%R)) stat nx)
  else
    let one := match ny with Some 1%Z => true | _ => paired end in
    if (nx <? 1)%Z then Err NotModelled
    else if one then
      if (nx <? 2)%Z then Err NotModelled
      else
        let se := sqrt (1 / IZR nx + stat * stat / (2 * IZR nx)) in
        let crit := Rabs (t_ppf ((1 - confidence) / 2)%R (nx - 1)%Z) in
        Ok (Some (stat - crit * se)%R, Some (stat + crit * se)%R)
    else match ny with
         | None => Err TypeError
         | Some ny =>
             if (ny <? 1)%Z then Err NotModelled
             else
               let se := sqrt (IZR (nx + ny) / IZR (nx * ny) + stat * stat / (2 * IZR (nx + ny))) in
               let crit := Rabs (t_ppf ((1 - confidence) / 2)%R (nx + ny - 2)%Z) in
               Ok (Some (stat - crit * se)%R, Some (stat + crit * se)%R)
         end.

(** ** The table *)
(** The columns n, r, r2, adj_r2 and CI95% (before rounding); [None] is NaN or infinite. *)
Record table := Table { t_n : Z; t_r : option R; t_r2 : option R; t_adj : option R; t_ci : option R * option R }.
(** correlation.py 31-281, [corr], for arrays of one dimension without extra arguments. *)
Definition corr (norm_ppf : R -> R) (x y : list (option R)) (tail method : string) : res table :=
  if negb (length x =? length y) then Err AssertionError
  else if negb (String.eqb tail "two-sided" || String.eqb tail "one-sided") then Err AssertionError
  else
    p <- remove_na x y true "rows" ;;
    let x := values (fst p) in
    let y := values (snd p) in
    let nx := Z.of_nat (length x) in
    r <- (if String.eqb method "pearson" then pearsonr x y
          else if existsb (String.eqb method) ["spearman"; "kendall"]%string then Err NotModelled
          else if String.eqb method "bicor" then bicor x y
          else if String.eqb method "percbend" then percbend x y
          else if String.eqb method "shepherd" then Err NotModelled
          else Err ValueError) ;;
    match r with
    | None => Ok (Table nx None None None (None, None))
    | Some r =>
        let r2 := (r * r)%R in
        let adj := if (nx =? 3)%Z then None else Some (1 - (1 - r2) * IZR (nx - 1) / IZR (nx - 3))%R in
        Ok (Table nx (Some r) (Some r2) adj (ci_r (Rabs (norm_ppf ((1 - 95 / 100) / 2)%R)) r nx))
    end.
