(** Arithmetic on results of the bootstrap. *)
From Coq Require Import QArith Qabs List.
From Verif Require Import PyBase BootModel IntervalModel IntervalSpec IntervalProofs.
Import ListNotations.
Open Scope Q_scope.

(** ** C91: adding, subtracting and multiplying numbers *)

(** Sums and differences move the value and both limits; [c - r] turns the limits around. *)
Theorem C91_shift : forall r l v u c, IsResult r l v u -> l <= u ->
  (exists s, add r c = Ok s /\ IsResult s (l + c) (v + c) (u + c)) /\
  (exists s, sub r c = Ok s /\ IsResult s (l - c) (v - c) (u - c)) /\
  (exists s, rsub c r = Ok s /\ IsResult s (c - u) (c - v) (c - l)).
Proof. exact C91_shift_proof. Qed.
Print Assumptions C91_shift.

Example C91_shift_case : IsResult (Results (Some 1) (Some 2) (Some 4)) 1 2 4 /\ 1 <= 4.
Proof. exact C91_shift_case_proof. Qed.

(** Products scale them; a negative factor turns the limits around. *)
Theorem C91_scale : forall r l v u c, IsResult r l v u -> l <= u ->
  exists s, mul r c = Ok s /\ if Qlt_le_dec c 0 then IsResult s (u * c) (v * c) (l * c) else IsResult s (l * c) (v * c) (u * c).
Proof. exact C91_scale_proof. Qed.
Print Assumptions C91_scale.

(** The limits are in order after every operation, even if they were not before. *)
Theorem C91_ordered : forall r c s, In (Ok s) [add r c; sub r c; rsub c r; mul r c] ->
  exists l v u, IsResult s l v u /\ l <= u.
Proof. exact C91_ordered_proof. Qed.
Print Assumptions C91_ordered.

Example C91_ordered_case : In (Ok (Results (Some 4) (Some 5) (Some 6))) [add (Results (Some 1) (Some 2) (Some 3)) 3; sub (Results (Some 1) (Some 2) (Some 3)) 3].
Proof. exact C91_ordered_case_proof. Qed.

(** The width stays the same under sums and differences and is multiplied by the size of a factor. *)
Theorem C91_width : forall r l v u c, IsResult r l v u -> l <= u ->
  Forall (fun '(op, w) => exists s w', op = Ok s /\ error_width s = Ok (Some w') /\ w' == w)
    [(add r c, u - l); (sub r c, u - l); (rsub c r, u - l); (mul r c, (u - l) * Qabs c)].
Proof. exact C91_width_proof. Qed.
Print Assumptions C91_width.

(** What was added can be taken away again. *)
Theorem C91_back : forall r l v u c s, IsResult r l v u -> l <= u -> add r c = Ok s -> exists s', sub s c = Ok s' /\ IsResult s' l v u.
Proof. exact C91_back_proof. Qed.
Print Assumptions C91_back.

(** Whether a result is significant does not depend on a positive factor; a negative one turns the sign. *)
Theorem C91_significance : forall r l v u c s z, IsResult r l v u -> l <= u -> mul r c = Ok s -> get_result r = Ok z ->
  get_result s = Ok (Z.sgn (Qnum c) * z)%Z.
Proof. exact C91_significance_proof. Qed.
Print Assumptions C91_significance.

Example C91_significance_case : mul (Results (Some 1) (Some 2) (Some 4)) 3 = Ok (Results (Some 3) (Some 6) (Some 12)) /\ get_result (Results (Some 1) (Some 2) (Some 4)) = Ok 1%Z.
Proof. exact C91_significance_case_proof. Qed.

(** A result without limits or value raises TypeError; so every operation, and nothing else does. *)
Theorem C91_exceptions : forall r c e,
  Forall (fun op => (op = Err e <-> e = TypeError /\ Incomplete r)) [add r c; sub r c; rsub c r; mul r c].
Proof. exact C91_exceptions_proof. Qed.
Print Assumptions C91_exceptions.

(** The fraction is the width by the value, and infinite (here [None]) if the value is zero; a factor keeps its size, and a negative one turns its sign. *)
Theorem C91_fraction : forall r l v u c, IsResult r l v u -> l <= u ->
  (v == 0 -> error_fraction r = Ok None) /\
  (~ v == 0 -> exists f, error_fraction r = Ok (Some f) /\ f * v == u - l) /\
  (~ v == 0 -> ~ c == 0 -> exists s f f', mul r c = Ok s /\ error_fraction r = Ok (Some f) /\ error_fraction s = Ok (Some f') /\
     f' == if Qlt_le_dec c 0 then - f else f).
Proof. exact C91_fraction_proof. Qed.
Print Assumptions C91_fraction.

Example C91_fraction_case : error_fraction (Results (Some 1) (Some 2) (Some 4)) = Ok (Some (3 # 2)) /\
  error_fraction (Results (Some (-1)) (Some 0) (Some 4)) = Ok None.
Proof. exact C91_fraction_case_proof. Qed.

(** A result of zero has an infinite fraction even without limits; otherwise a missing number raises TypeError. *)
Theorem C91_fraction_missing : forall r, Incomplete r ->
  ((exists v, value r = Some v /\ v == 0) -> error_fraction r = Ok None) /\
  (~ (exists v, value r = Some v /\ v == 0) -> error_fraction r = Err TypeError).
Proof. exact C91_fraction_missing_proof. Qed.
Print Assumptions C91_fraction_missing.
Example C91_fraction_missing_case : Incomplete (Results None (Some 0) (Some 1)).
Proof. exact C91_fraction_missing_case_proof. Qed.
