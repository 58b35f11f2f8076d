(** metcalcpy/util/ctc_statistics.py: the contingency scores that use logarithms.  Logarithms are real
    numbers until they are rounded. *)
From Coq Require Import Reals Qreals.
From Verif Require Import PyBase ColumnModel RealBase CtcModel.
Open Scope string_scope.

(** [math.log]: a number that is not positive is a ValueError, [None] a TypeError. *)
Definition math_log (v : res pyval) : res (option R) :=
  x <- v ;;
  match x with
  | None => Err TypeError
  | Some q => if Qlt_bool 0 q then Ok (Some (ln (Q2R q))) else Err ValueError
  end.

(** [np.log]: zero and negative numbers give a RuntimeWarning, here an exception. *)
Definition np_log (v : res pyval) : res (option R) :=
  x <- v ;;
  match x with
  | None => Err TypeError
  | Some q => if Qlt_bool 0 q then Ok (Some (ln (Q2R q))) else Err PyWarning
  end.

(** [a / b] of Python floats. *)
Definition pdivR (a b : res (option R)) : res (option R) :=
  x <- a ;; y <- b ;;
  match x, y with
  | Some p, Some q => if Req_EM_T q 0 then Err ZeroDivisionError else Ok (Some (p / q)%R)
  | _, _ => Err TypeError
  end.

Infix "{+}" := (rbin Rplus) (at level 50, left associativity) : py_scope.
Infix "{-}" := (rbin Rminus) (at level 50, left associativity) : py_scope.
Infix "{*}" := (rbin Rmult) (at level 40, left associativity) : py_scope.

Definition is_none (v : pyval) : bool := match v with None => true | Some _ => false end.

Section Log.
Variables (data : tdata) (columns : list string).

Let SUM (c : string) : res pyval := sum_column_data_by_name data columns c true.

(** ctc_statistics.py 432-458: catches only TypeError and Warning. *)
Definition calculate_lodds : res pyval :=
  catch [TypeError; PyWarning]
    (fy_oy <- SUM "fy_oy" ;; fy_on <- SUM "fy_on" ;;
     fn_oy <- SUM "fn_oy" ;; fn_on <- SUM "fn_on" ;;
     if is_none fy_oy || is_none fy_on || is_none fn_oy || is_none fn_on then Ok None
     else rround (np_log (Ok fy_oy) {+} np_log (Ok fn_on) {-} np_log (Ok fy_on) {-} np_log (Ok fn_oy)))
    None.

(** ctc_statistics.py 461-493.  [scipy.special.lambertw(x).real] is the argument [lambertw]. *)
Definition calculate_bagss (lambertw : R -> R) : res pyval :=
  catch std_exns
    (fy_oy <- SUM "fy_oy" ;; fn_oy <- SUM "fn_oy" ;;
     total <- SUM "total" ;; fy_on <- SUM "fy_on" ;;
     if is_none fy_oy || is_none fn_oy || is_none fy_on || is_none total then Ok None
     else if py_eq0 fy_oy || py_eq0 fn_oy || py_eq0 total then Ok None
     else
       dbl_o <- Ok fy_oy [+] Ok fn_oy ;;
       dbl_lf <- np_log (Ok dbl_o [//] Ok fn_oy) ;;
       x <- toR (Ok dbl_o [//] Ok fy_on) {*} Ok dbl_lf ;;
       let lambert := match x with Some v => Some (lambertw v) | None => None end in
       dbl_ha <- toR (Ok dbl_o) {-} rdiv (toR (Ok fy_on)) (Ok dbl_lf) {*} Ok lambert ;;
       chance <- toR ((Ok dbl_o [*] Ok dbl_o) [//] Ok total) ;;
       rround (rdiv (Ok dbl_ha {-} Ok chance)
                    (toR (pylit 2 [*] Ok dbl_o) {-} Ok dbl_ha {-} Ok chance)))
    None.

(** ctc_statistics.py 857-885.  [pod_yes] is already rounded. *)
Definition calculate_sedi : res pyval :=
  catch std_exns
    (fn_on <- SUM "fn_on" ;; fy_on <- SUM "fy_on" ;;
     f <- Ok fy_on [//] (Ok fy_on [+] Ok fn_on) ;;
     h <- pod_yes data columns ;;
     num <- math_log (Ok f) {-} math_log (Ok h) {-} math_log (pylit 1 [-] Ok f) {+} math_log (pylit 1 [-] Ok h) ;;
     den <- math_log (Ok f) {+} math_log (Ok h) {+} math_log (pylit 1 [-] Ok f) {+} math_log (pylit 1 [-] Ok h) ;;
     rround (pdivR (Ok num) (Ok den)))
    None.

(** ctc_statistics.py 888-916. *)
Definition calculate_seds : res pyval :=
  catch std_exns
    (fy_oy <- SUM "fy_oy" ;; fy_on <- SUM "fy_on" ;; fn_oy <- SUM "fn_oy" ;; total <- SUM "total" ;;
     num <- math_log ((Ok fy_oy [+] Ok fy_on) [//] Ok total)
            {+} math_log ((Ok fy_oy [+] Ok fn_oy) [//] Ok total) ;;
     den <- math_log (Ok fy_oy [//] Ok total) ;;
     rround (pdivR (Ok num) (Ok den) {-} Ok (Some 1%R)))
    None.

(** ctc_statistics.py 919-947. *)
Definition calculate_edi : res pyval :=
  catch std_exns
    (fn_on <- SUM "fn_on" ;; fy_on <- SUM "fy_on" ;; total <- SUM "total" ;;
     f <- Ok fy_on [//] (Ok fy_on [+] Ok fn_on) ;;
     h <- pod_yes data columns ;;
     num <- math_log (Ok f) {-} math_log (Ok h) ;;
     den <- math_log (Ok f) {+} math_log (Ok h) ;;
     rround (pdivR (Ok num) (Ok den)))
    None.

(** ctc_statistics.py 950-977. *)
Definition calculate_eds : res pyval :=
  catch std_exns
    (fy_oy <- SUM "fy_oy" ;; fn_oy <- SUM "fn_oy" ;; total <- SUM "total" ;;
     num <- math_log ((Ok fy_oy [+] Ok fn_oy) [//] Ok total) ;;
     den <- math_log (Ok fy_oy [//] Ok total) ;;
     rround (pdivR (Ok (Some 2%R) {*} Ok num) (Ok den) {-} Ok (Some 1%R)))
    None.
End Log.
