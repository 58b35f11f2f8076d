(** Terms of the statement C149. *)
From Coq Require Import List ZArith QArith.
From Verif Require Import BootModel CosampleModel.
Import ListNotations.
Local Open Scope nat_scope.

(** All arrays are numpy's, of this common shape. *)
Definition AllDense {A : Type} (shape : list nat) (l : list (given A)) : Prop :=
  Forall (fun v => exists tail rows, v = Dense tail rows /\ List.length rows :: tail = shape) l.
(** The records at some indexes. *)
Definition RecordsAt {A : Type} (rows : list A) (ids : list nat) (sample : list A) : Prop := Forall2 (fun i x => nth_error rows i = Some x) ids sample.
(** A resample of n records. *)
Definition Draw (n : nat) (ids : list nat) : Prop := List.length ids = n /\ Forall (fun i => i < n) ids.
(** Values of a statistic on batches of resamples. *)
Definition OnBatches {A B : Type} (rows : list A) (f : array A -> PyBase.res (list B)) (batches : list (list (list nat))) (values : list B) : Prop :=
  exists parts, values = concat parts /\
    Forall2 (fun batch part => exists samples, Forall2 (RecordsAt rows) batch samples /\ f (Samples samples) = PyBase.Ok part) batches parts.
(** Sums of the records of two arrays. *)
Definition Adds (a b c : list Q) : Prop := List.length a = List.length b /\ c = map (fun p => (fst p + snd p)%Q) (combine a b).
(** Entries are stored at the same places. *)
Definition SamePlaces {A : Type} (v w : given A) : Prop :=
  match v, w with Sparse r c s, Sparse r' c' s' => r = r' /\ c = c' /\ map fst s = map fst s' | _, _ => False end.
(** A generator that counts. *)
Definition counter (g n : nat) : nat * nat := (g mod n, S g).
