(** Probability forecasts as lists of bins: each bin has the probability issued, the number of
    cases in which the event happened and the number in which it did not. *)
From Verif Require Import PyBase ColumnModel BaseSpec.
Open Scope string_scope.
Open Scope Q_scope.

Record bin : Type := Bin { prob : Q; yes : Q; no : Q }.

(** [sub] occurs in [s]. *)
Definition Occurs (sub s : string) : Prop := exists a b, s = (a ++ sub ++ b)%string.

(** Reading the bins off the columns [cols] of a table: columns whose name has "oy_i" in it hold
    event counts, of the others those with "on_i" non-event counts, of the remaining ones those
    with "thresh_i" the probabilities (read in the first row). *)
Inductive Lists (data : tdata) (columns : list string) :
  list string -> list Q -> list (option Q) -> list (option Q) -> Prop :=
| L_end : Lists data columns [] [] [] []
| L_yes c cs ts ys ns q :
    Occurs "oy_i" c -> ColumnTotal data columns c q ->
    Lists data columns cs ts ys ns -> Lists data columns (c :: cs) ts (q :: ys) ns
| L_no c cs ts ys ns q :
    ~ Occurs "oy_i" c -> Occurs "on_i" c -> ColumnTotal data columns c q ->
    Lists data columns cs ts ys ns -> Lists data columns (c :: cs) ts ys (q :: ns)
| L_prob c cs ts ys ns q first rest i :
    ~ Occurs "oy_i" c -> ~ Occurs "on_i" c -> Occurs "thresh_i" c ->
    data = first :: rest -> ColumnAt columns c i -> nth_error first i = Some (CNum q) ->
    Lists data columns cs ts ys ns -> Lists data columns (c :: cs) (q :: ts) ys ns
| L_other c cs ts ys ns :
    ~ Occurs "oy_i" c -> ~ Occurs "on_i" c -> ~ Occurs "thresh_i" c ->
    Lists data columns cs ts ys ns -> Lists data columns (c :: cs) ts ys ns.

(** The table holds exactly the bins [bs], in order. *)
Record ProbabilityTable (data : tdata) (columns : list string) (bs : list bin) : Prop := {
  pt_rect : Rectangular data columns;
  pt_num : forall c, In c columns -> Occurs "oy_i" c \/ Occurs "on_i" c -> NumericColumn data columns c;
  pt_bins : Lists data columns columns (map prob bs) (map (fun b => Some (yes b)) bs)
                  (map (fun b => Some (no b)) bs)
}.

(** Counts are not negative. *)
Definition Counts (bs : list bin) : Prop := Forall (fun b => 0 <= yes b /\ 0 <= no b) bs.

Definition sum_over (g : bin -> Q) (bs : list bin) : Q := fold_right (fun b s => g b + s) 0 bs.
Definition cases (b : bin) : Q := yes b + no b.
Definition events (bs : list bin) : Q := sum_over yes bs.
Definition nonevents (bs : list bin) : Q := sum_over no bs.
Definition all_cases (bs : list bin) : Q := sum_over cases bs.

(** Share of the events (non-events) with a probability above [t]. *)
Definition when (c : bool) (q : Q) : Q := if c then q else 0.
Definition hit_share (bs : list bin) (t : Q) : Q :=
  sum_over (fun b => when (negb (Qle_bool (prob b) t)) (yes b)) bs / events bs.
Definition false_share (bs : list bin) (t : Q) : Q :=
  sum_over (fun b => when (negb (Qle_bool (prob b) t)) (no b)) bs / nonevents bs.

(** Chance that a random event case got a higher probability than a random non-event case, a tie
    counting one half. *)
Definition pair_score (b b' : bin) : Q :=
  yes b * no b' * (if Qlt_le_dec (prob b') (prob b) then 1
                   else if Qeq_dec (prob b) (prob b') then 1 # 2 else 0).
Definition discrimination (bs : list bin) : Q :=
  sum_over (fun b => sum_over (pair_score b) bs) bs / (events bs * nonevents bs).

(** Observed frequency of a bin and of all. *)
Definition frequency (b : bin) : Q := yes b / cases b.
Definition base_rate (bs : list bin) : Q := events bs / all_cases bs.
(** Components of the Brier score; an empty bin contributes nothing. *)
Definition reliability (bs : list bin) : Q :=
  sum_over (fun b => cases b * ((prob b - frequency b) * (prob b - frequency b))) bs / all_cases bs.
Definition resolution_about (o : Q) (bs : list bin) : Q :=
  sum_over (fun b => cases b * ((frequency b - o) * (frequency b - o))) bs / all_cases bs.
(** Mean over all cases of (probability - outcome)^2, the outcome being 1 or 0. *)
Definition brier (bs : list bin) : Q :=
  sum_over (fun b => yes b * ((prob b - 1) * (prob b - 1)) + no b * (prob b * prob b)) bs / all_cases bs.

(** Exchange of events and non-events. *)
Definition exchanged (b : bin) : bin := Bin (prob b) (no b) (yes b).

(** A small table with two lines, for the examples. *)
Definition pct_columns : list string := ["model"; "thresh_i_1"; "oy_i_1"; "on_i_1"; "thresh_i_2"; "oy_i_2"; "on_i_2"].
Definition pct_line (t1 y1 n1 t2 y2 n2 : Q) : row :=
  [CStr "A"; CNum t1; CNum y1; CNum n1; CNum t2; CNum y2; CNum n2].
