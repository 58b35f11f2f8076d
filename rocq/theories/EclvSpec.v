(** Economic value in terms of expected expenses (per unit loss), for a user who can
    protect at cost [cl] times the loss: no function of the model is used. *)
From Verif Require Import PyBase BaseSpec.

(** Hit rate, false alarm rate and base rate of a contingency table with
    a hits, b false alarms, c misses, d correct negatives. *)
Definition hit_rate (a b c d : Q) : Q := a / (a + c).
Definition false_rate (a b c d : Q) : Q := b / (b + d).
Definition base_rate (a b c d : Q) : Q := (a + c) / (a + b + c + d).

(** Best constant strategy: always protect (cost cl) or never (lose with frequency s). *)
Definition climate_expense (s cl : Q) : Q := if Qlt_le_dec cl s then cl else s.
(** Protect exactly when the event happens. *)
Definition perfect_expense (s cl : Q) : Q := s * cl.
(** Protect when forecast: cost for each forecast event, loss for each miss. *)
Definition forecast_expense (h f s cl : Q) : Q := cl * (h * s + f * (1 - s)) + (1 - h) * s.

(** Fraction of the possible saving that is realised. *)
Definition EconomicValue (h f s cl v : Q) : Prop :=
  v * (climate_expense s cl - perfect_expense s cl) == climate_expense s cl - forecast_expense h f s cl.

(** Ascending order. *)
Fixpoint Ascending (l : list Q) : Prop :=
  match l with
  | [] => True
  | x :: t => (forall y, In y t -> x <= y) /\ Ascending t
  end.
