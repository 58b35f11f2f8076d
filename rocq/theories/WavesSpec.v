(** Words for the statements about means, waves and winds around a storm. *)
From Coq Require Import Reals Qreals QArith List.
Import ListNotations.
Open Scope nat_scope.

(** The sum of numbers. *)
Definition Total (l : list R) : R := fold_right Rplus 0%R l.

(** The weight of a latitude: its cosine; at the pole, where the cosine is 0, a tiny positive number remains of it. *)
Definition Weight (lat : Q) (w : R) : Prop :=
  if Qeq_bool lat 90 then (0 < w < 1 / 10 ^ 16)%R else w = cos (Q2R lat * PI / 180).
(** [m] is the mean of the values at the latitudes from [lo] to [hi], weighted with the cosine of the latitude. *)
Definition BandMean (lo hi : Q) (dat : list (Q * option R)) (m : R) : Prop :=
  exists weight : Q -> R, (forall lat, Weight lat (weight lat)) /\
    let used := flat_map (fun p => match snd p with
                                   | Some x => if Qle_bool lo (fst p) && Qle_bool (fst p) hi then [(weight (fst p), x)] else []
                                   | None => [] end) dat in
    used <> [] /\
    (m * Total (map fst used) = Total (map (fun p => fst p * snd p) used))%R.

(** The angle of wave [k] at place [j] of [n] equal steps around a circle. *)
Definition Turn (n k j : nat) : R := (2 * PI * INR k * INR j / INR n)%R.
(** The value at place [j] of the part of the field [x] that has [k] waves around the circle: the sum over the places
    [i] of the values times the cosine of [k] times the distance, with the factor 2/n, or 1/n for the mean ([k] = 0)
    and for the wave that changes sign at every step (2 [k] = n). *)
Definition WavePart (x : list R) (k j : nat) : R :=
  ((if (k =? 0) || (2 * k =? length x) then 1 else 2) / INR (length x) *
   Total (map (fun p => snd p * cos (Turn (length x) k j - Turn (length x) k (fst p))) (combine (seq 0 (length x)) x)))%R.
(** A field of one wave. *)
Definition PureWave (n k : nat) (a phi : R) : list R := map (fun j => a * cos (Turn n k j + phi))%R (seq 0 n).
