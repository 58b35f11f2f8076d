(** Activity of tropical waves: skill, seasonal cycle, projection. *)
From Coq Require Import Reals Qreals QArith String List Sorting.Sorted.
From Verif Require Import PyBase ActivityModel ActivitySpec ActivityProofs.
Import ListNotations.
Open Scope nat_scope.

(** ** C84: skill *)

(** The skill of a line is its correlation with the first line, between -1 and 1; it is missing if a value is missing or
    one of the lines does not vary. *)
Theorem C84_skill : forall nlines ntim act act' skill, Shape nlines ntim act -> wave_skill nlines ntim act = Ok (act', skill) ->
  forall f l model truth, Line act f (S l) = Some model -> Line act f 0 = Some truth ->
    exists row c, nth_error skill f = Some row /\ nth_error row l = Some c /\
      match c with
      | Some r => exists x y, model = map Some x /\ truth = map Some y /\ Correlation x y r /\ (-1 <= r <= 1)%R
      | None => ~ Varies model \/ ~ Varies truth
      end.
Proof. exact C84_skill_proof. Qed.
Print Assumptions C84_skill.

Example C84_skill_case : Shape 3 2 example_act /\ exists act' skill, wave_skill 3 2 example_act = Ok (act', skill).
Proof. exact C84_skill_case_proof. Qed.

(** The array of the caller should stay as it is; it does not. *)
Theorem C84_argument_refuted : ~ forall nlines ntim act act' skill, Shape nlines ntim act ->
  wave_skill nlines ntim act = Ok (act', skill) -> act' = act.
Proof. exact C84_argument_refuted_proof. Qed.
Print Assumptions C84_argument_refuted.

(** The first time of every line but the first is replaced by the skill; all else stays. *)
Theorem C84_argument : forall nlines ntim act act' skill, Shape nlines ntim act -> wave_skill nlines ntim act = Ok (act', skill) ->
  Shape nlines ntim act' /\ List.length act' = List.length act /\
  forall f l t line c, Line act f l = Some line -> nth_error line t = Some c ->
    exists line', Line act' f l = Some line' /\
      (l = 0 \/ t <> 0 -> nth_error line' t = Some c) /\
      (forall k, l = S k -> exists row c', nth_error skill f = Some row /\ nth_error row k = Some c' /\ nth_error line' 0 = Some c').
Proof. exact C84_argument_proof. Qed.
Print Assumptions C84_argument.

(** One forecast hour, or one line besides the first, should have a skill; it raises IndexError. *)
Theorem C84_exceptions : forall nlines ntim act, Shape nlines ntim act -> 0 < ntim ->
  ((exists r, wave_skill nlines ntim act = Ok r) <-> nlines <= 1 \/ act = [] \/ (2 <= List.length act /\ 3 <= nlines)) /\
  (forall e, wave_skill nlines ntim act = Err e -> e = IndexError) /\
  wave_skill nlines 0 act = Err IndexError.
Proof. exact C84_exceptions_proof. Qed.
Print Assumptions C84_exceptions.

Theorem C84_total_refuted : ~ forall nlines ntim act, Shape nlines ntim act -> 2 <= nlines -> 2 <= ntim ->
  exists r, wave_skill nlines ntim act = Ok r.
Proof. exact C84_total_refuted_proof. Qed.
Print Assumptions C84_total_refuted.

(** ** C85: the seasonal cycle *)

(** Every value is reduced by the mean of its calendar day over all years; missing values stay missing. *)
Theorem C85_cycle : forall data i d c, nth_error data i = Some (d, c) ->
  match c with
  | Some q => exists m a, MeanOf (DayValues data d) m /\ nth_error (rem_seas_cyc data) i = Some (Some a) /\ (a == q - m)%Q
  | None => nth_error (rem_seas_cyc data) i = Some None
  end.
Proof. exact C85_cycle_proof. Qed.
Print Assumptions C85_cycle.

(** The anomalies of every calendar day add up to 0. *)
Theorem C85_zero : forall data d, List.length (rem_seas_cyc data) = List.length data /\
  (fold_right Qplus 0 (DayValues (combine (map fst data) (rem_seas_cyc data)) d) == 0)%Q.
Proof. exact C85_zero_proof. Qed.
Print Assumptions C85_zero.

(** A day whose calendar day occurs once has the anomaly 0. *)
Theorem C85_once : forall data i d q, nth_error data i = Some (d, Some q) -> DayValues data d = [q] ->
  exists a, nth_error (rem_seas_cyc data) i = Some (Some a) /\ (a == 0)%Q.
Proof. exact C85_once_proof. Qed.
Print Assumptions C85_once.

Example C85_once_case : DayValues [(Date 2020 3 1, Some 5); (Date 2020 3 2, Some 7)]%Q (Date 2020 3 1) = [5%Q].
Proof. reflexivity. Qed.

(** The days of the year count on from 1 through all months. *)
Theorem C85_calendar : forall y,
  dayofyear (Date y 1 1) = 1%Z /\
  (forall m d, dayofyear (Date y m (d + 1)) = (dayofyear (Date y m d) + 1)%Z) /\
  (forall m l, (m < 12)%Z -> MonthLength y m l -> dayofyear (Date y (m + 1) 1) = (dayofyear (Date y m l) + 1)%Z).
Proof. exact C85_calendar_proof. Qed.
Print Assumptions C85_calendar.

Example C85_calendar_case : MonthLength 1900 2 28.
Proof. exact C85_calendar_case_proof. Qed.

(** The mean of all values is taken away if no day of the year occurs twice. *)
Theorem C85_choice : forall (spd : nat) data out, 0 < spd -> remove_cycle (Z.of_nat spd) data = Ok out ->
  let doys := map (fun p => dayofyear (fst p)) data in
  ((exists n, Starts spd doys n n) -> out = rem_seas_cyc data) /\
  (~ (exists n, Starts spd doys n n) ->
     forall i d q, nth_error data i = Some (d, Some q) -> exists m a, MeanOf (AllValues data) m /\ nth_error out i = Some (Some a) /\ (a == q - m)%Q).
Proof. exact C85_choice_proof. Qed.
Print Assumptions C85_choice.

Example C85_choice_case : exists out, remove_cycle 1 [(Date 2020 3 1, Some 5); (Date 2020 3 2, Some 7)]%Q = Ok out.
Proof. eexists. reflexivity. Qed.

(** So it should be if no calendar day occurs twice; but days of the year are not calendar days. *)
Theorem C85_choice_refuted : ~ forall data out,
  (forall d d', Starts 1 (map fst data) d d' -> ~ SameDay d d') -> remove_cycle 1 data = Ok out -> out = rem_seas_mean data.
Proof. exact C85_choice_refuted_proof. Qed.
Print Assumptions C85_choice_refuted.

(** ValueError exactly for the step 0. *)
Theorem C85_exceptions : forall spd data,
  (remove_cycle spd data = Err ValueError <-> spd = 0%Z) /\ (forall e, remove_cycle spd data = Err e -> e = ValueError).
Proof. exact C85_exceptions_proof. Qed.
Print Assumptions C85_exceptions.

(** ** C86: projection and activity *)

(** For data with ascending latitudes and longitudes that cover the grid of the EOFs, each projection is the sum of the
    products over the places of the EOF: of the month, or of the year. *)
Theorem C86_projection : forall elats elons eofseas (mm : Z) data out,
  elats <> [] -> elons <> [] -> Regular data -> StronglySorted Qlt (lats data) -> StronglySorted Qlt (lons data) ->
  (forall lat lon, In lat elats -> In lon elons -> exists v, ValueAt data lat lon v) ->
  Forall (Forall (fun e => lats e = elats /\ lons e = elons /\ Regular e)) eofseas ->
  waveproj elats elons eofseas mm data = Ok out ->
  exists eofs, nth_error eofseas (if List.length eofseas =? 1 then 0 else Z.to_nat (mm - 1)) = Some eofs /\
    Forall2 (fun e p => Projection e data p) eofs out.
Proof. exact C86_projection_proof. Qed.
Print Assumptions C86_projection.

Example C86_projection_case : Regular example_grid /\ StronglySorted Qlt (lats example_grid) /\ StronglySorted Qlt (lons example_grid) /\
  (forall lat lon, In lat [0]%Q -> In lon [10; 20]%Q -> exists v, ValueAt example_grid lat lon v) /\
  exists out, waveproj [0]%Q [10; 20]%Q [[Grid [0]%Q [10; 20]%Q [[3; 4]%Q]]] 7 example_grid = Ok out /\ Forall2 Qeq out [(3 * 2 + 4 * 3)%Q].
Proof. exact C86_projection_case_proof. Qed.

(** Data with latitudes from north to south should have the same projections; they are all 0. *)
Theorem C86_descending : forall elats elons eofseas (mm : Z) data a b out,
  In a elats -> In b elats -> (a < b)%Q -> 2 <= List.length (lats data) -> StronglySorted (fun x y => (y < x)%Q) (lats data) ->
  waveproj elats elons eofseas mm data = Ok out -> Forall (fun p => p = 0%Q) out /\ activity out = 0%R.
Proof. exact C86_descending_proof. Qed.
Print Assumptions C86_descending.

Theorem C86_descending_refuted : ~ forall elats elons e data out,
  lats e = elats -> lons e = elons -> Regular e -> Regular data ->
  StronglySorted (fun x y => (y < x)%Q) (lats data) -> StronglySorted Qlt (lons data) ->
  (forall lat lon, In lat elats -> In lon elons -> exists v, ValueAt data lat lon v) ->
  waveproj elats elons [[e]] 1 data = Ok out -> Forall2 (fun e p => Projection e data p) [e] out.
Proof. exact C86_descending_refuted_proof. Qed.
Print Assumptions C86_descending_refuted.

(** The activity is not negative, 0 exactly if all projections are 0, and grows with the data. *)
Theorem C86_activity : forall (ts : list Q) (c : Q),
  (0 <= activity ts)%R /\ (activity ts = 0%R <-> Forall (fun p => (p == 0)%Q) ts) /\
  (forall p, In p ts -> (Rabs (Q2R p) <= activity ts)%R) /\
  activity (map (fun p => c * p)%Q ts) = (Rabs (Q2R c) * activity ts)%R.
Proof. exact C86_activity_proof. Qed.
Print Assumptions C86_activity.

(** Files exist for four waves, by month or by year; other names raise UnboundLocalError. *)
Theorem C86_files : forall wave tres,
  ((exists r, eof_files wave tres = Ok r) <->
     In wave ["Kelvin"; "kelvin"; "ER"; "er"; "MJO"; "mjo"; "MRG"; "mrg"]%string /\ In tres ["monthly"; "annual"]%string) /\
  (forall e, eof_files wave tres = Err e -> e = UnboundLocalError).
Proof. exact C86_files_proof. Qed.
Print Assumptions C86_files.

(** EOFs without latitudes or longitudes raise ValueError, a month without EOFs IndexError. *)
Theorem C86_exceptions : forall elats elons eofseas (mm : Z) data, StronglySorted Qle (lats data) -> StronglySorted Qle (lons data) ->
  (elats = [] \/ elons = [] -> waveproj elats elons eofseas mm data = Err ValueError) /\
  (elats <> [] -> elons <> [] -> List.length eofseas <> 1 -> (Z.of_nat (List.length eofseas) < mm)%Z -> waveproj elats elons eofseas mm data = Err IndexError) /\
  (elats <> [] -> elons <> [] -> (1 <= mm <= 12)%Z -> List.length eofseas = 1 \/ List.length eofseas = 12 -> exists out, waveproj elats elons eofseas mm data = Ok out).
Proof. exact C86_exceptions_proof. Qed.
Print Assumptions C86_exceptions.
