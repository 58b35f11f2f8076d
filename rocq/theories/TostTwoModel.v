(** The other [tost_paired], metcalcpy/util/tost_paired.py 71-180.  Floats are exact real numbers and Python's own, so that division by
    zero is an exception. *)
From Coq Require Import Reals.
From Verif Require Import PyBase RealBase TostModel.
Open Scope R_scope.
Open Scope string_scope.

Section TostTwo.
Variables cdf ppf : Z -> R -> R.

(** tost_paired.py 29-49, [pt] with [ncp = 0]. *)
Definition pt_two (q : R) (df : Z) (lower_tail : bool) : R :=
  let result := cdf df q in if lower_tail then result else 1 - result.
(** tost_paired.py 52-68, [qt] with [ncp = 0]. *)
Definition qt_two (p : R) (df : Z) : R := ppf df p.
(** Division of floats. *)
Definition over (x y : R) : res R := if Reqb y 0 then Err ZeroDivisionError else Ok (x / y).

(** tost_paired.py 146-156: four successive [if]s. *)
Definition combined_two (alpha pttest ptost : R) : option string :=
  let c := None in
  let c := if Rleb pttest alpha && Rleb ptost alpha then Some "diff_eqv" else c in
  let c := if Rltb pttest alpha && Rltb alpha ptost then Some "diff_no_eqv" else c in
  let c := if Rltb alpha pttest && Rleb ptost alpha then Some "no_diff_eqv" else c in
  let c := if Rltb alpha pttest && Rltb alpha ptost then Some "no_diff_no_eqv" else c in
  c.
(** tost_paired.py 158-166 *)
Definition outcome_two (alpha p : R) : string := if Rltb p alpha then "significant" else "non-significant".

(** tost_paired.py 71-180, [tost_paired].  [sys.exit()] is the exception SystemExit; the warning of lines 103-106 is not modelled. *)
Definition tost_paired_two (n : Z) (m1 m2 sd1 sd2 r12 low_eqbound_dz high_eqbound_dz : R) (alpha0 : option R) : res tost_result :=
  let alpha := match alpha0 with Some a => if Reqb a 0 then 5 / 100 else a | None => 5 / 100 end in
  if (n <? 2)%Z then Err SystemExit
  else if Rleb 1 alpha || Rleb alpha 0 then Err SystemExit
  else if Rleb sd1 0 || Rleb sd2 0 then Err SystemExit
  else if Rltb 1 r12 || Rltb r12 (-1) then Err SystemExit
  else
    sdif <- math_sqrt (sd1 * sd1 + sd2 * sd2 - 2 * r12 * sd1 * sd2) ;;
    let low_eqbound := low_eqbound_dz * sdif in
    let high_eqbound := high_eqbound_dz * sdif in
    rn <- math_sqrt (IZR n) ;;
    se <- over sdif rn ;;
    t <- over (m1 - m2) se ;;
    let degree_f := (n - 1)%Z in
    let pttest := 2 * pt_two (Rabs t) degree_f false in
    t1 <- over ((m1 - m2) - low_eqbound_dz * sdif) se ;;
    let p1 := pt_two t1 degree_f false in
    t2 <- over ((m1 - m2) - high_eqbound_dz * sdif) se ;;
    let p2 := pt_two t2 degree_f true in
    let ll90 := (m1 - m2) - qt_two (1 - alpha) degree_f * se in
    let ul90 := (m1 - m2) + qt_two (1 - alpha) degree_f * se in
    let ptost := Rmax p1 p2 in
    let ll95 := (m1 - m2) - qt_two (1 - alpha / 2) degree_f * se in
    let ul95 := (m1 - m2) + qt_two (1 - alpha / 2) degree_f * se in
    let xlim_l := Rmin ll90 low_eqbound - Rmax (ul90 - ll90) (high_eqbound - low_eqbound) / 10 in
    let xlim_u := Rmax ul90 high_eqbound + Rmax (ul90 - ll90) (high_eqbound - low_eqbound) / 10 in
    match combined_two alpha pttest ptost with
    | None => Err UnboundLocalError
    | Some co =>
        Ok {| dif := rnd (m1 - m2); t := (Some (rnd t1), Some (rnd t2)); p := (Some (rnd p1), Some (rnd p2));
              degrees_of_freedom := rnd (IZR degree_f);
              ci_tost := (rnd ll90, rnd ul90); ci_ttest := (rnd ll95, rnd ul95);
              eqbound := (rnd low_eqbound, rnd high_eqbound); xlim := (rnd xlim_l, rnd xlim_u);
              combined_outcome := co; test_outcome := outcome_two alpha pttest; tost_outcome := outcome_two alpha ptost |}
    end.
End TostTwo.
