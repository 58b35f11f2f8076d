(** Definitions of the logarithmic scores of a contingency table, on the real numbers. *)
From Coq Require Import Reals Qreals.
From Verif Require Import PyBase BaseSpec RealSpec.
Open Scope R_scope.

(** Log odds ratio of the counts: hits, false alarms, misses, correct negatives. *)
Definition log_odds (h fa m c : Q) : R := ln (Q2R h * Q2R c / (Q2R fa * Q2R m)).

(** From the false alarm rate [f] and the hit rate [h]: symmetric extremal dependence index and
    extremal dependence index. *)
Definition sym_extremal_index (f h : R) : R :=
  (ln f - ln h - ln (1 - f) + ln (1 - h)) / (ln f + ln h + ln (1 - f) + ln (1 - h)).
Definition extremal_index (f h : R) : R := (ln f - ln h) / (ln f + ln h).

(** From the relative frequencies of hits [q], of forecast events [r] and of observed events [p]:
    symmetric extreme dependency score and extreme dependency score. *)
Definition sym_dependency (q r p : R) : R := (ln r + ln p) / ln q - 1.
Definition dependency (q p : R) : R := 2 * ln p / ln q - 1.

(** The score is the number [v], published with 7 decimals, if [D] holds, and otherwise undefined. *)
Definition GivenBy (D : Prop) (v : R) (r : option Q) : Prop :=
  (D -> exists w, r = Some w /\ NearestR 7 v w) /\ (~ D -> r = None).

(** The principal branch of Lambert's W on the positive numbers. *)
Definition LambertW (W : R -> R) : Prop := forall x, 0 < x -> 0 < W x /\ W x * exp (W x) = x.

(** Bias adjustment: if every additional forecast area finds the same share of the events not yet
    found, [misses] events remain unobserved when the forecast area is grown or shrunk until events
    are forecast as often as they are observed; [events] is their number, [m] and [fa] are the actual
    misses and false alarms.  [misses] is then also the number of false alarms. *)
Definition AdjustedMisses (events m fa misses : R) : Prop :=
  0 < misses < events /\ misses = events * exp (- ln (events / m) * (misses / fa)).

(** Gilbert skill score at a bias of one: [chance] hits are expected by chance. *)
Definition unbiased_gss (hits misses chance : R) : R := (hits - chance) / (hits + 2 * misses - chance).
