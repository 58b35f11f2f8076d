(** Vocabulary of the bootstrap properties. *)
From Verif Require Import PyBase.
Open Scope Q_scope.

(** A resample of [values] made of circular blocks: it has the size of the data and consists of
    consecutive pieces of [block] positions (the last one may be cut); inside a piece the positions
    follow each other, wrapping around at the end of the data. *)
Definition BlockResample {A : Type} (block : nat) (values sample : list A) : Prop :=
  length sample = length values /\
  exists start : nat -> nat,
    (forall b, (start b < length values)%nat) /\
    forall p, (p < length values)%nat ->
      nth_error sample p = nth_error values ((start (p / block) + p mod block) mod length values)%nat.

(** How many members of [l] are smaller than [x], and how many are not larger. *)
Definition smaller (x : Q) (l : list Q) : nat := length (filter (fun y => negb (Qle_bool x y)) l).
Definition not_larger (x : Q) (l : list Q) : nat := length (filter (fun y => Qle_bool y x) l).

(** [x] is the member of rank [k] (0 is the smallest). *)
Definition OrderStatistic (l : list Q) (k : nat) (x : Q) : Prop :=
  In x l /\ (smaller x l <= k < not_larger x l)%nat.

(** [p] is the quantile of order [f]: with [n] members the position is [f * (n-1)]; between two
    ranks the value is interpolated linearly. *)
Definition Quantile (l : list Q) (f p : Q) : Prop :=
  exists (k : nat) (t a b : Q),
    f * inject_Z (Z.of_nat (length l) - 1) == inject_Z (Z.of_nat k) + t /\ 0 <= t < 1 /\
    OrderStatistic l k a /\
    (OrderStatistic l (S k) b \/ t == 0 /\ S k = length l /\ b = a) /\
    p == a + t * (b - a).

(** Present members of a list with missing ones. *)
Fixpoint known {A : Type} (l : list (option A)) : list A :=
  match l with
  | [] => []
  | None :: t => known t
  | Some x :: t => x :: known t
  end.

(** Smallest multiple count: [n] things in groups of [k], rounded up. *)
Definition IsCeiling (n k c : Z) : Prop := (k * (c - 1) < n <= k * c)%Z.

(** Consecutive draws of numbers below [n] from a generator. *)
Inductive Drawn {gen : Type} (randint : gen -> nat -> nat * gen) (n : nat) : gen -> list nat -> gen -> Prop :=
| drawn_none : forall g, Drawn randint n g [] g
| drawn_next : forall g x g1 l g2, randint g n = (x, g1) -> Drawn randint n g1 l g2 -> Drawn randint n g (x :: l) g2.
