(** Arithmetic on bootstrap results: metcalcpy/bootstrap.py.  Numbers are exact. *)
From Verif Require Import PyBase BootModel.
Open Scope Q_scope.

(** bootstrap.py 44-47, [_apply]: a new object, whose limits are exchanged if they are in the wrong order.  [func] of None
    raises TypeError. *)
Definition apply_func (f : Q -> Q) (r : results) : res results :=
  match lower_bound r with
  | None => Err TypeError
  | Some l =>
      match value r with
      | None => Err TypeError
      | Some v => match upper_bound r with None => Err TypeError | Some u => Ok (BootstrapResults (Some (f l)) (Some (f v)) (Some (f u))) end
      end
  end.
(** bootstrap.py 49-53, [__add__] and [__radd__]; [other] is a number. *)
Definition add (r : results) (other : Q) : res results := apply_func (fun x => other + x) r.
(** bootstrap.py 55-56, [__sub__]. *)
Definition sub (r : results) (other : Q) : res results := apply_func (fun x => x - other) r.
(** bootstrap.py 58-59, [__rsub__]: [other - r]. *)
Definition rsub (other : Q) (r : results) : res results := apply_func (fun x => other - x) r.
(** bootstrap.py 61-65, [__mul__] and [__rmul__]. *)
Definition mul (r : results) (other : Q) : res results := apply_func (fun x => x * other) r.
(** bootstrap.py 71-76, [error_fraction]: [Ok None] is infinity.  [None / number] raises TypeError. *)
Definition error_fraction (r : results) : res pyval :=
  match value r with
  | Some v =>
      if Qeq_bool v 0 then Ok None
      else w <- error_width r ;; match w with Some w => Ok (Some (w / v)) | None => Err TypeError end
  | None => w <- error_width r ;; Err TypeError
  end.
