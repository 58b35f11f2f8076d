(** Words for the statements about the spectra of one time segment. *)
From Coq Require Import Reals.
From Verif Require Import PyBase WavesSpec KfSpec.
From Coq Require Import List.
Open Scope R_scope.

(** An array of times, latitudes and longitudes, and its value at a place it has. *)
Definition Grid3 (NT NM NL : nat) (XX : list (list (list R))) : Prop := length XX = NT /\ Forall (Shape NM NL) XX.
Definition Value (XX : list (list (list R))) (t m x : nat) : R := nth x (nth m (nth t XX []) []) 0.
(** The phase at time [t] and longitude [x] of the wave with [f] periods in the segment that goes [k] times around the circle,
    eastward if both have the same sign. *)
Definition Phase (NT NL : nat) (f k : Z) (t x : nat) : R := 2 * PI * (IZR f * INR t / INR NT - IZR k * INR x / INR NL).
(** Sums over all times and longitudes, and over all latitudes. *)
Definition Sum2 (n m : nat) (g : nat -> nat -> R) : R := Total (map (fun i => Total (map (g i) (seq 0 m))) (seq 0 n)).
Definition LatMean (NM : nat) (g : nat -> R) : R := Total (map g (seq 0 NM)) / INR NM.
(** The two parts of the wave (f, k) in the data of latitude [m]. *)
Definition CosPart (NT NL : nat) (XX : list (list (list R))) (f k : Z) (m : nat) : R :=
  Sum2 NT NL (fun t x => Value XX t m x * cos (Phase NT NL f k t x)) / (INR NT * INR NL).
Definition SinPart (NT NL : nat) (XX : list (list (list R))) (f k : Z) (m : nat) : R :=
  Sum2 NT NL (fun t x => Value XX t m x * sin (Phase NT NL f k t x)) / (INR NT * INR NL).
(** Power, and the spectra of two fields in phase and a quarter of a period apart. *)
Definition PowerOf (NT NM NL : nat) (XX : list (list (list R))) (f k : Z) : R :=
  LatMean NM (fun m => CosPart NT NL XX f k m * CosPart NT NL XX f k m + SinPart NT NL XX f k m * SinPart NT NL XX f k m).
Definition CoOf (NT NM NL : nat) (XX YY : list (list (list R))) (f k : Z) : R :=
  LatMean NM (fun m => CosPart NT NL XX f k m * CosPart NT NL YY f k m + SinPart NT NL XX f k m * SinPart NT NL YY f k m).
Definition QuadOf (NT NM NL : nat) (XX YY : list (list (list R))) (f k : Z) : R :=
  LatMean NM (fun m => CosPart NT NL XX f k m * SinPart NT NL YY f k m - SinPart NT NL XX f k m * CosPart NT NL YY f k m).
(** Number of rows and columns: odd. *)
Definition OddSize (n : nat) : nat := if Nat.odd n then n else n + 1.
(** Row or column of a frequency or wavenumber: the middle one is that of zero. *)
Definition PlaceOf (n : nat) (f : Z) : nat := Z.to_nat (f + Z.of_nat (n / 2)).
Definition InRange (n : nat) (f : Z) : Prop := (- Z.of_nat n <= 2 * f <= Z.of_nat n)%Z.
(** Entry of spectrum [v] of the result. *)
Definition At (STC : list (list (list R))) (v i c : nat) (y : R) : Prop := exists M, nth_error STC v = Some M /\ Entry M i c y.
(** The field [a * cos (2 pi (k x / NL - f t / NT) + phi)] at every latitude. *)
Definition EastwardWave (NT NM NL : nat) (a : R) (f k : Z) (phi : R) (XX : list (list (list R))) : Prop :=
  Grid3 NT NM NL XX /\
  forall t m x, (t < NT)%nat -> (m < NM)%nat -> (x < NL)%nat ->
    Value XX t m x = a * cos (2 * PI * (IZR k * INR x / INR NL - IZR f * INR t / INR NT) + phi).
