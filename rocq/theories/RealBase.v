(** Square roots: values that need [np.sqrt] are real numbers until they are rounded,
    and every rounded value is again a rational number. *)
From Coq Require Import Reals Qreals.
From Verif Require Import PyBase.

(** metcalcpy/util/utils.py 247-259 on a real argument:
    [math.floor(num * multiplier + 0.5) / multiplier] is rational. *)
Definition round_half_up_R (num : R) (decimals : nat) : Q :=
  Qmake (Int_part (num * IZR (Zpos (pow10 decimals)) + / 2)%R) (pow10 decimals).

(** [np.sqrt]: [None] is a TypeError, a negative number a RuntimeWarning (exception). *)
Definition np_sqrt (v : res pyval) : res (option R) :=
  x <- v ;;
  match x with
  | None => Err TypeError
  | Some q => if Qlt_bool q 0 then Err PyWarning else Ok (Some (sqrt (Q2R q)))
  end.

(** [round_half_up(v, PRECISION)] of a real-valued expression. *)
Definition rround (v : res (option R)) : res pyval :=
  x <- v ;;
  match x with
  | Some q => Ok (Some (round_half_up_R q PRECISION))
  | None => Err TypeError
  end.

(** Exact numbers inside real expressions. *)
Definition toR (v : res pyval) : res (option R) :=
  x <- v ;; Ok (match x with Some q => Some (Q2R q) | None => None end).

(** Arithmetic on real values; [None] operands are TypeErrors. *)
Definition rbin (f : R -> R -> R) (a b : res (option R)) : res (option R) :=
  x <- a ;; y <- b ;;
  match x, y with Some p, Some q => Ok (Some (f p q)) | _, _ => Err TypeError end.

(** numpy division of real values: zero divisor raises a RuntimeWarning. *)
Definition rdiv (a b : res (option R)) : res (option R) :=
  x <- a ;; y <- b ;;
  match x, y with
  | Some p, Some q => if Req_EM_T q 0 then Err PyWarning else Ok (Some (p / q)%R)
  | _, _ => Err TypeError
  end.
