(** The MaKE and MaKI indices. *)
From Coq Require Import Reals ZArith List.
From Verif Require Import PyBase ActivityModel MakiModel TauSpec MakiSpec MakiProofs.
From Coq Require Import List.
Import ListNotations.
Open Scope nat_scope.

(** ** C106: the MaKE and MaKI indices *)

(** Dates: each day has the number after that of the day before. *)
Theorem C106_calendar : forall d, IsDate d -> IsDate (Tomorrow d) /\ ordinal (Tomorrow d) = (ordinal d + 1)%Z.
Proof. exact C106_calendar_proof. Qed.
Print Assumptions C106_calendar.

Example C106_calendar_case : Tomorrow (Date 2000 2 28) = Date 2000 2 29 /\ Tomorrow (Date 1900 2 28) = Date 1900 3 1 /\
  Tomorrow (Date 1999 12 31) = Date 2000 1 1 /\ IsDate (Date 2000 2 29).
Proof. exact C106_calendar_case_proof. Qed.

(** If the 91st day is the first of a month, there is one value for each month from then on: the least of the 91 daily values
    up to the first day of the month, over the standard deviation of all of them. *)
Theorem C106_values : forall time wind sst p q rest n s e, length time = n -> Daily time -> Usable n wind sst (p :: q :: rest) ->
  nth_error time 90 = Some s -> last time s = e -> day s = 1%Z ->
  let count := Z.to_nat (MonthOf e - MonthOf s + 1) in
  let labels := map (fun k => OnDay (MonthOf s + Z.of_nat k) 1) (seq 0 count) in
  exists makes makis, length makes = count /\ length makis = count /\
    (forall k t, k < count -> nth_error time t = nth_error labels k ->
       LeastOf91 (DailyMake n wind sst p q) t (nth k makes 0%R) /\ LeastOf91 (DailyMaki n wind sst p q) t (nth k makis 0%R)) /\
    (forall k, k < count -> exists t, t < n /\ nth_error time t = nth_error labels k) /\
    (SpreadOf makes <> 0%R -> SpreadOf makis <> 0%R ->
     make_maki time time sst wind (p :: q :: rest) = Ok (Entries labels makes, Entries labels makis)).
Proof. exact C106_values_proof. Qed.
Print Assumptions C106_values.

(** There should be values whatever the 91st day is.  If it is another day of the month than the first, and the last day is
    as late in its month, ValueError is raised; if the last day is earlier in its month each value is labelled with the
    first day of the month after its own. *)
Theorem C106_dates_refuted : forall time wind sst p q rest n s e, length time = n -> Daily time -> Usable n wind sst (p :: q :: rest) ->
  nth_error time 90 = Some s -> last time s = e -> (1 < day s)%Z ->
  ((day s <= day e)%Z -> make_maki time time sst wind (p :: q :: rest) = Err ValueError) /\
  ((day s <= 28)%Z -> (day e < day s)%Z ->
     let count := Z.to_nat (MonthOf e - MonthOf s) in
     let labels := map (fun k => OnDay (MonthOf s + Z.of_nat k + 1) 1) (seq 0 count) in
     let ends := map (fun k => OnDay (MonthOf s + Z.of_nat k) (day s)) (seq 0 count) in
     exists makes makis, length makes = count /\ length makis = count /\
       (forall k t, k < count -> nth_error time t = nth_error ends k ->
          LeastOf91 (DailyMake n wind sst p q) t (nth k makes 0%R) /\ LeastOf91 (DailyMaki n wind sst p q) t (nth k makis 0%R)) /\
       (SpreadOf makes <> 0%R -> SpreadOf makis <> 0%R ->
        make_maki time time sst wind (p :: q :: rest) = Ok (Entries labels makes, Entries labels makis))).
Proof. exact C106_dates_refuted_proof. Qed.
Print Assumptions C106_dates_refuted.

(** A record from the 1st of January has the 1st of April as its 91st day, but in a leap year the 31st of March. *)
Example C106_dates_case : ordinal (Date 2001 1 1) = (ordinal (Date 2001 4 1) - 90)%Z /\ ordinal (Date 2000 1 1) = (ordinal (Date 2000 3 31) - 90)%Z.
Proof. exact C106_dates_case_proof. Qed.

(** Data that meet the hypotheses. *)
Example C106_usable_case : exists wind sst p q, Usable 200 wind sst [p; q] /\ length sst = 1.
Proof. exact C106_usable_case_proof. Qed.

(** Positive factors of the series of each longitude change nothing. *)
Theorem C106_factors : forall time wtime sst wind patterns c c', length c = length sst -> length c' = length wind ->
  Forall (fun x => (0 < x)%R) (c ++ c') ->
  make_maki time wtime (TimesEach c sst) (TimesEach c' wind) patterns = make_maki time wtime sst wind patterns.
Proof. exact C106_factors_proof. Qed.
Print Assumptions C106_factors.

Example C106_factors_case : TimesEach [2%R] [[1; 3]%R] = [[2 * 1; 2 * 3]%R].
Proof. exact C106_factors_case_proof. Qed.

(** The sign of the second pattern does not matter for MaKE. *)
Theorem C106_sign : forall time wtime sst wind p q rest make maki make' maki',
  make_maki time wtime sst wind (p :: q :: rest) = Ok (make, maki) ->
  make_maki time wtime sst wind (p :: map Ropp q :: rest) = Ok (make', maki') -> make' = make.
Proof. exact C106_sign_proof. Qed.
Print Assumptions C106_sign.

(** Other numbers of times or longitudes and patterns of another length raise ValueError, fewer than two patterns and fewer
    than 91 times IndexError. *)
Theorem C106_exceptions : forall time wtime wind sst patterns n, length time = n ->
  Forall (fun s => SpreadOf s <> 0%R) (sst ++ wind) ->
  let run := make_maki time wtime sst wind patterns in
  (length wtime <> n \/ length wind <> length sst -> run = Err ValueError) /\
  (length wtime = n -> length wind = length sst ->
   (~ Forall (fun p => length p = 2 * length sst) patterns -> run = Err ValueError) /\
   (Forall (fun p => length p = 2 * length sst) patterns -> length patterns < 2 -> run = Err IndexError)) /\
  (length wtime = n -> Usable n wind sst patterns -> n <= 90 -> run = Err IndexError).
Proof. exact C106_exceptions_proof. Qed.
Print Assumptions C106_exceptions.
