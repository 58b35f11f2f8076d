(** Terms of the statements C140 to C142. *)
From Coq Require Import Reals String List.
From Verif Require Import PyBase.
From Verif Require DriveModel.
Import ListNotations.
Open Scope R_scope.

(** A distribution function that is symmetric, and one whose density falls away from zero. *)
Record NormalLike (F : R -> R) : Prop := {
  normal_range : forall x, 0 <= F x <= 1;
  normal_mono : forall x y, x <= y -> F x <= F y;
  normal_sym : forall x, F (- x) = 1 - F x }.
Definition Peaked (F : R -> R) : Prop := forall x y d, 0 <= x <= y -> 0 <= d -> F (y + d) - F y <= F (x + d) - F x.
(** Quantiles of symmetric distributions. *)
Record QuantileLike (ppf : R -> R -> R) : Prop := {
  quantile_mono : forall dof p q, 0 < dof -> 0 < p -> p <= q -> q < 1 -> ppf p dof <= ppf q dof;
  quantile_sym : forall dof q, 0 < dof -> 0 < q < 1 -> ppf (1 - q) dof = - ppf q dof }.
(** A finder of zeros: what it gives is a zero between the ends. *)
Definition Solver (brenth : (R -> option R) -> R -> R -> res R) : Prop := forall f a b x, brenth f a b = Ok x -> a <= x <= b /\ f x = Some 0.

(** Exactly one of four arguments is missing. *)
Definition OneMissing (r n power alpha : option R) : Prop :=
  (r = None /\ n <> None /\ power <> None /\ alpha <> None) \/ (r <> None /\ n = None /\ power <> None /\ alpha <> None) \/
  (r <> None /\ n <> None /\ power = None /\ alpha <> None) \/ (r <> None /\ n <> None /\ power <> None /\ alpha = None).
(** The given ones are in their ranges. *)
Definition InRange (r power alpha : option R) : Prop :=
  (forall v, r = Some v -> -1 <= v <= 1) /\ (forall v, power = Some v -> 0 < v <= 1) /\ (forall v, alpha = Some v -> 0 < v <= 1).
(** The power of the test with the critical value [t]: Fisher's z of the correlation (with its correction) against that of the
    critical correlation. *)
Definition Power (F : R -> R) (t : R) (two : bool) (r n p : R) : Prop :=
  exists u c, tanh u = Rabs r /\ tanh c = Rabs t / sqrt (t * t + (n - 2)) /\
  let z := u + Rabs r / (2 * (n - 1)) in
  p = F ((z - c) * sqrt (n - 3)) + (if two then F ((- z - c) * sqrt (n - 3)) else 0).

(** Names that are accepted, in any case. *)
Definition TailName (s : string) : Prop :=
  In (DriveModel.lower s) ["two-sided"; "one-sided"; "greater"; "less"; "g"; "l"; "positive"; "negative"; "pos"; "neg"]%string.
Definition MethodName (s : string) : Prop := In (DriveModel.lower s) ["ly"; "wetzels"]%string.
(** The term of Wetzels and Wagenmakers that is integrated over g, and an integral that does not depend on values at g <= 0. *)
Definition WetzelsTerm (n r g : R) : R :=
  Rpower (1 + g) ((n - 2) / 2) * Rpower (1 + (1 - r * r) * g) (- (n - 1) / 2) * Rpower g (-3 / 2) * exp (- n / (2 * g)).
Definition PositiveOnly (quad : (R -> R) -> R) : Prop := forall f f', (forall g, 0 < g -> f g = f' g) -> quad f = quad f'.
(** The documented formula of the Bayes factor. *)
Definition LyFactor (Gamma : R -> R) (Beta : R -> R -> R) (F : R -> R -> R -> R -> R) (k n r : R) : R :=
  Rpower 2 ((k - 2) / k) * sqrt PI / Beta (1 / k) (1 / k) * (Gamma ((2 + k * (n - 1)) / (2 * k)) / Gamma ((2 + n * k) / (2 * k))) *
  F ((n - 1) / 2) ((n - 1) / 2) ((2 + n * k) / (2 * k)) (r * r).

(** Mean, covariance, and the (squared) Mahalanobis distance of a point from a sample. *)
Definition average (l : list R) : R := fold_right Rplus 0 l / INR (length l).
Definition covariance (f g : R * R -> R) (s : list (R * R)) : R :=
  fold_right Rplus 0 (map (fun p => (f p - average (map f s)) * (g p - average (map g s))) s) / (INR (length s) - 1).
Definition spread (s : list (R * R)) : R := covariance fst fst s * covariance snd snd s - covariance fst snd s * covariance fst snd s.
Definition distance (s : list (R * R)) (v : R * R) : R :=
  let u := fst v - average (map fst s) in
  let w := snd v - average (map snd s) in
  (covariance snd snd s * (u * u) - 2 * covariance fst snd s * (u * w) + covariance fst fst s * (w * w)) / spread s.
(** A draw: as many positions as there are rows; the sample it gives. *)
Definition Draw (b : list (R * R)) (d : list nat) : Prop := length d = length b /\ Forall (fun i => (i < length b)%nat) d.
Definition sample (b : list (R * R)) (d : list nat) : list (R * R) := map (fun i => nth i b (0, 0)) d.
(** A change of units. *)
Definition units (a b c d : R) (v : R * R) : R * R := (a * fst v + b, c * snd v + d).
(** The values without a flag. *)
Fixpoint unflagged {A : Type} (l : list A) (flags : list bool) : list A :=
  match l, flags with x :: l', f :: flags' => if f then unflagged l' flags' else x :: unflagged l' flags' | _, _ => [] end.

(** For the examples: a piecewise linear distribution and quantile. *)
Definition ramp (x : R) : R := (1 + Rmax (-1) (Rmin 1 x)) / 2.
Definition line (q dof : R) : R := q - / 2.
Definition square : list (R * R) := [(0, 0); (1, 0); (0, 1)].
