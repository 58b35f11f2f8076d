(** Common base of the model: Python exceptions as values, Python [float]
    (finite, as exact rationals), [None], and the shared rounding routine. *)
From Coq Require Export String QArith Qround ZArith Bool Lia Lqa List.
Export ListNotations.
Open Scope Q_scope.

(** Exception classes that occur in the modelled code.  [PyWarning] stands for a
    Python warning turned into an exception by [warnings.filterwarnings('error')];
    [NotModelled] is not a Python exception: the model stops where an infinite float
    would appear. *)
Inductive exn : Type :=
| TypeError | ZeroDivisionError | ValueError | IndexError | KeyError
| AttributeError | OverflowError | UnboundLocalError | PyWarning | SystemExit
| AssertionError | NameError | RuntimeError | IncompatibleLengths | UnsortedArray
| NotModelled.

Definition exn_eqb (a b : exn) : bool :=
  match a, b with
  | TypeError, TypeError | ZeroDivisionError, ZeroDivisionError
  | ValueError, ValueError | IndexError, IndexError | KeyError, KeyError
  | AttributeError, AttributeError | OverflowError, OverflowError
  | UnboundLocalError, UnboundLocalError | PyWarning, PyWarning
  | SystemExit, SystemExit | AssertionError, AssertionError | NameError, NameError
  | RuntimeError, RuntimeError | IncompatibleLengths, IncompatibleLengths
  | UnsortedArray, UnsortedArray | NotModelled, NotModelled => true
  | _, _ => false
  end.

(** Result of running a piece of Python: a value or an escaping exception. *)
Inductive res (A : Type) : Type :=
| Ok (a : A)
| Err (e : exn).
Arguments Ok {A} a.
Arguments Err {A} e.

Definition bind {A B : Type} (m : res A) (f : A -> res B) : res B :=
  match m with Ok a => f a | Err e => Err e end.

Declare Scope py_scope.
Delimit Scope py_scope with py.
Notation "x <- m ;; k" := (bind m (fun x => k))
  (at level 100, m at next level, right associativity) : py_scope.
Open Scope py_scope.

(** [try: body  except (l): result = d]. *)
Definition catch {A : Type} (l : list exn) (body : res A) (d : A) : res A :=
  match body with
  | Ok a => Ok a
  | Err e => if existsb (exn_eqb e) l then Ok d else Err e
  end.

(** A Python number or [None]. *)
Notation pyval := (option Q).

(** The exception tuple used by nearly all statistics:
    [except (TypeError, ZeroDivisionError, Warning, ValueError)]. *)
Definition std_exns : list exn := [TypeError; ZeroDivisionError; PyWarning; ValueError].

(** [a op b] where either side may be [None] (TypeError). *)
Definition pybin (f : Q -> Q -> Q) (a b : res pyval) : res pyval :=
  x <- a ;; y <- b ;;
  match x, y with
  | Some p, Some q => Ok (Some (f p q))
  | _, _ => Err TypeError
  end.

(** [a / b]: numpy scalars raise RuntimeWarning (turned into an exception) and
    Python numbers raise ZeroDivisionError when [b] is zero; both are caught in
    the same places, so the model uses ZeroDivisionError for both. *)
Definition pydiv (a b : res pyval) : res pyval :=
  x <- a ;; y <- b ;;
  match x, y with
  | Some p, Some q => if Qeq_bool q 0 then Err ZeroDivisionError else Ok (Some (p / q))
  | _, _ => Err TypeError
  end.

Definition pylit (q : Q) : res pyval := Ok (Some q).

Infix "[+]" := (pybin Qplus) (at level 50, left associativity) : py_scope.
Infix "[-]" := (pybin Qminus) (at level 50, left associativity) : py_scope.
Infix "[*]" := (pybin Qmult) (at level 40, left associativity) : py_scope.
Infix "[/]" := pydiv (at level 40, left associativity) : py_scope.

(** [v == 0] ([None == 0] is False). *)
Definition py_eq0 (v : pyval) : bool :=
  match v with Some q => Qeq_bool q 0 | None => false end.

(** 10 ** d for d >= 0. *)
Definition pow10 (d : nat) : positive := Z.to_pos (10 ^ Z.of_nat d).

(** metcalcpy/util/utils.py 247-259, [round_half_up]:
    [multiplier = 10 ** decimals; math.floor(num * multiplier + 0.5) / multiplier].
    Negative [decimals] are not used by the code base and not modelled. *)
Definition round_half_up (num : Q) (decimals : nat) : Q :=
  Qmake (Qfloor (num * (Zpos (pow10 decimals) # 1) + (1 # 2))) (pow10 decimals).

(** metcalcpy/util/utils.py 46 [PRECISION = 7]. *)
Definition PRECISION : nat := 7.

(** [round_half_up(v, PRECISION)] on a Python value: [None * 10**7] is a TypeError. *)
Definition pyround (v : res pyval) : res pyval :=
  x <- v ;;
  match x with
  | Some q => Ok (Some (round_half_up q PRECISION))
  | None => Err TypeError
  end.

(** [a / b] where [a] is a numpy float: a zero divisor raises a RuntimeWarning, which
    [warnings.filterwarnings('error')] turns into an exception of class [Warning]. *)
Definition npdiv (a b : res pyval) : res pyval :=
  x <- a ;; y <- b ;;
  match x, y with
  | Some p, Some q => if Qeq_bool q 0 then Err PyWarning else Ok (Some (p / q))
  | _, _ => Err TypeError
  end.
Infix "[//]" := npdiv (at level 40, left associativity) : py_scope.

(** Strict comparison of numbers. *)
Definition Qlt_bool (a b : Q) : bool := negb (Qle_bool b a).
