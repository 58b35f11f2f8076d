(** Model of [tost_paired], metcalcpy/util/utils.py 1101-1270.
    Floats are exact real numbers here.  The Student t distribution of scipy is a
    parameter: [cdf df x] stands for [t.cdf(x, df)] and [ppf df p] for [t.ppf(p, df)].
    The non-central distribution ([ncp <> 0]) is never used by this code base and is not modelled. *)
From Coq Require Import Reals.
From Verif Require Import PyBase RealBase.
Open Scope R_scope.
Open Scope string_scope.

(** The dictionary returned at utils.py 1258-1270. *)
Record tost_result : Type := mk_tost {
  dif : Q;
  t : option Q * option Q;
  p : option Q * option Q;
  degrees_of_freedom : Q;
  ci_tost : Q * Q;
  ci_ttest : Q * Q;
  eqbound : Q * Q;
  xlim : Q * Q;
  combined_outcome : string;
  test_outcome : string;
  tost_outcome : string
}.

(** Comparison of floats. *)
Definition Rltb (x y : R) : bool := if Rlt_dec x y then true else false.
Definition Rleb (x y : R) : bool := if Rle_dec x y then true else false.
Definition Reqb (x y : R) : bool := if Req_EM_T x y then true else false.

(** [math.sqrt]: a negative argument raises ValueError. *)
Definition math_sqrt (x : R) : res R := if Rltb x 0 then Err ValueError else Ok (sqrt x).

(** [round_half_up(x, PRECISION)]. *)
Definition rnd (x : R) : Q := round_half_up_R x PRECISION.

Section Tost.
Variables cdf ppf : Z -> R -> R.

(** utils.py 1101-1122, [pt] with [ncp = 0]. *)
Definition pt (q : R) (df : Z) (lower_tail : bool) : R :=
  let result := cdf df q in
  if lower_tail then result else 1 - result.

(** utils.py 1125-1140, [qt] with [ncp = 0]. *)
Definition qt (p : R) (df : Z) : R := ppf df p.

(** utils.py 1217-1228: four successive [if]s assign [combined_outcome]; the last one
    that applies wins, and no assignment leaves the name unbound. *)
Definition combined (alpha pttest ptost : R) : option string :=
  let c := None in
  let c := if Rleb pttest alpha && Rleb ptost alpha then Some "diff_eqv" else c in
  let c := if Rltb pttest alpha && Rltb alpha ptost then Some "diff_no_eqv" else c in
  let c := if Rltb alpha pttest && Rleb ptost alpha then Some "no_diff_eqv" else c in
  let c := if Rltb alpha pttest && Rltb alpha ptost then Some "no_diff_no_eqv" else c in
  c.

(** utils.py 1230-1238. *)
Definition outcome (alpha p : R) : string :=
  if Rltb p alpha then "significant" else "non-significant".

(** Python truth of a float or [None]. *)
Definition truthy (x : option R) : bool :=
  match x with None => false | Some v => negb (Reqb v 0) end.

(** utils.py 1143-1270, [tost_paired].  [sys.exit()] is the exception SystemExit.
    The warning printed at 1174-1177 has no effect on the result. *)
Definition tost_paired (n : Z) (m1 m2 sd1 sd2 r12 low_eqbound_dz high_eqbound_dz : R)
           (alpha0 : option R) : res tost_result :=
  let alpha := match alpha0 with Some a => if Reqb a 0 then 5 / 100 else a | None => 5 / 100 end in
  if (n <? 2)%Z then Err SystemExit
  else if Rleb 1 alpha || Rleb alpha 0 then Err SystemExit
  else if Rleb sd1 0 || Rleb sd2 0 then Err SystemExit
  else if Rltb 1 r12 || Rltb r12 (-1) then Err SystemExit
  else
    sdif <- math_sqrt (sd1 * sd1 + sd2 * sd2 - 2 * r12 * sd1 * sd2) ;;
    let low_eqbound := low_eqbound_dz * sdif in
    let high_eqbound := high_eqbound_dz * sdif in
    rn <- math_sqrt (IZR n) ;;
    let se := sdif / rn in
    let degree_f := (n - 1)%Z in
    let '(pttest, t1, p1, t2, p2, ptost) :=
      if negb (Reqb se 0) then
        let t := (m1 - m2) / se in
        let pttest := 2 * pt (Rabs t) degree_f false in
        let t1 := ((m1 - m2) - low_eqbound_dz * sdif) / se in
        let p1 := pt t1 degree_f false in
        let t2 := ((m1 - m2) - high_eqbound_dz * sdif) / se in
        let p2 := pt t2 degree_f true in
        (Some pttest, Some t1, Some p1, Some t2, Some p2, Some (Rmax p1 p2))
      else (None, None, None, None, None, None) in
    let ll90 := (m1 - m2) - qt (1 - alpha) degree_f * se in
    let ul90 := (m1 - m2) + qt (1 - alpha) degree_f * se in
    let ll95 := (m1 - m2) - qt (1 - alpha / 2) degree_f * se in
    let ul95 := (m1 - m2) + qt (1 - alpha / 2) degree_f * se in
    let xlim_l := Rmin ll90 low_eqbound - Rmax (ul90 - ll90) (high_eqbound - low_eqbound) / 10 in
    let xlim_u := Rmax ul90 high_eqbound + Rmax (ul90 - ll90) (high_eqbound - low_eqbound) / 10 in
    let rest co te to tt pp :=
      {| dif := rnd (m1 - m2); t := tt; p := pp;
         degrees_of_freedom := rnd (IZR degree_f);
         ci_tost := (rnd ll90, rnd ul90); ci_ttest := (rnd ll95, rnd ul95);
         eqbound := (rnd low_eqbound, rnd high_eqbound); xlim := (rnd xlim_l, rnd xlim_u);
         combined_outcome := co; test_outcome := te; tost_outcome := to |} in
    match pttest, t1, p1, t2, p2, ptost with
    | Some a, Some t1, Some p1, Some t2, Some p2, Some b =>
        if truthy (Some a) && truthy (Some b) then
          match combined alpha a b with
          | None => Err UnboundLocalError
          | Some co => Ok (rest co (outcome alpha a) (outcome alpha b)
                             (Some (rnd t1), Some (rnd t2)) (Some (rnd p1), Some (rnd p2)))
          end
        else Ok (rest "none" "none" "none" (None, None) (None, None))
    | _, _, _, _, _, _ => Ok (rest "none" "none" "none" (None, None) (None, None))
    end.
End Tost.
