(** Atmospheric blocking: properties C65 and C66. *)
From Verif Require Import PyBase ColumnModel BaseSpec BlockModel BlockSpec BlockProofs.
From Coq Require Import List.
Open Scope Z_scope.

(** C65: the groups of blocked longitudes.  On a grid of 360 longitudes there is never an exception, and every
    day is marked by the rule. *)
Theorem C65_days : forall ibl_dist crit ibl, 2 <= crit -> (forall days a, In days ibl -> In a days -> length a = 360%nat) ->
  exists out, run_Calc_GIBL ibl_dist crit ibl = Ok out /\ Forall2 (Forall2 (DayGroups crit)) ibl out.
Proof. exact C65_days_proof. Qed.
Print Assumptions C65_days.
Example C65_days_case :
  run_Calc_GIBL 7 15 [[block_row 360 100 120; block_row 360 200 210]] = Ok [[block_row 360 100 120; block_row 360 1000 1001]].
Proof. exact C65_days_case_proof. Qed.

(** C65: what is marked belongs to a long group, somewhere on the circle. *)
Theorem C65_marked : forall ibl_dist crit a g x, 2 <= crit -> length a = 360%nat -> gibl_day ibl_dist crit a = Ok g ->
  nth_error g x = Some 1%Q -> exists s e y, 0 <= s <= y /\ y <= e < 720 /\ y mod 360 = Z.of_nat x /\ Chain (Blocked a) crit s e /\ crit <= e - s + 1.
Proof. exact C65_marked_proof. Qed.
Print Assumptions C65_marked.
(** C65: a long group that does not cross the first longitude is marked with all its longitudes. *)
Theorem C65_found : forall ibl_dist crit a g s e x, 2 <= crit -> length a = 360%nat -> gibl_day ibl_dist crit a = Ok g ->
  0 <= s -> e < 360 -> Chain (Blocked a) crit s e -> crit <= e - s + 1 -> s <= x <= e -> nth_error g (Z.to_nat x) = Some 1%Q.
Proof. exact C65_found_proof. Qed.
Print Assumptions C65_found.
Example C65_found_case : length (block_row 360 100 120) = 360%nat /\ Chain (Blocked (block_row 360 100 120)) 15 100 120.
Proof. exact C65_found_case_proof. Qed.

(** C65 fails for a group that crosses the first longitude: if it is the only one, has the size wanted in total
    but not on either side, nothing is marked, although the same group elsewhere is (C65_found). *)
Theorem C65_crossing_refuted : forall ibl_dist crit a west east, 2 <= crit -> length a = 360%nat ->
  (forall x, 0 <= x < 360 -> (Blocked a x <-> x < east \/ 360 - west <= x)) ->
  1 <= west < crit -> 1 <= east < crit -> crit <= west + east -> crit < 2 * (361 - west - east) ->
  Chain (Blocked a) crit (360 - west) (360 + east - 1) /\ gibl_day ibl_dist crit a = Ok (map (fun _ => 0%Q) a).
Proof. exact C65_crossing_refuted_proof. Qed.
Print Assumptions C65_crossing_refuted.
Example C65_crossing_case :
  gibl_day 7 15 (block_row 360 350 9) = Ok (block_row 360 1000 1001) /\
  gibl_day 7 15 (block_row 360 150 169) = Ok (block_row 360 150 169).
Proof. exact C65_crossing_case_proof. Qed.

(** C65 fails for the distance between blocked longitudes: the option makes no difference. *)
Theorem C65_distance_refuted : forall d1 d2 crit ibl, run_Calc_GIBL d1 crit ibl = run_Calc_GIBL d2 crit ibl.
Proof. exact C65_distance_refuted_proof. Qed.
Print Assumptions C65_distance_refuted.

(** C65 fails for grids of fewer than 360 longitudes: the row is not a circle, and a group that crosses the first
    longitude is not found as one. *)
Theorem C65_grid_refuted : forall ibl_dist crit a, 2 <= crit -> Z.of_nat (length a) < 360 -> crit < 2 * (361 - Z.of_nat (length a)) ->
  exists g, gibl_day ibl_dist crit a = Ok g /\ length g = length a /\
    Marked (InGroup (BlockedRow a) crit (Z.of_nat (length a))) g.
Proof. exact C65_grid_refuted_proof. Qed.
Print Assumptions C65_grid_refuted.
Example C65_grid_case :
  gibl_day 7 15 (block_row 144 130 13) = Ok (block_row 144 1000 1001) /\ gibl_day 7 15 (block_row 144 130 14) = Ok (block_row 144 0 14).
Proof. exact C65_grid_case_proof. Qed.

(** C66: an instantaneous block is where, for at least one of the shifts, the mean of the heights to the north of
    the central latitude is greater than the mean of those to the south. *)
Theorem C66_blocked : forall lat_delta limits days cbl out k day j c center heights result,
  lat_delta <> [] -> 0 <= limits -> run_mod_blocking1d lat_delta limits "PH"%string days cbl = Ok out ->
  nth_error days k = Some day -> nth_error cbl j = Some c -> WholePart (90 - c) center -> HeightsAt day j heights ->
  (exists row, nth_error out k = Some row /\ nth_error row j = Some result) -> BlockRule lat_delta limits center heights result.
Proof. exact C66_blocked_proof. Qed.
Print Assumptions C66_blocked.
Example C66_blocked_case : exists bi1 bi2, run_mod_blocking1d [-5; 0; 5] 30 "PH"%string [block_day] [50%Q; 51%Q] = Ok [[(1%Q, Some bi1); (0%Q, Some bi2)]] /\
  (bi1 == 15)%Q /\ WholePart (90 - 50) 40 /\ Difference (map (fun i => Some (inject_Z (100 - Z.of_nat i))) (seq 0 91)) 30 40 (-5) 15.
Proof. exact C66_blocked_case_proof. Qed.

(** C66: every year has its days, and every day its longitudes; the central latitudes are the means over the
    years. *)
Theorem C66_years : forall lat_delta limits cbl nlon years out, lat_delta <> [] -> 0 <= limits ->
  run_Calc_IBL lat_delta limits "PH"%string cbl nlon years = Ok out ->
  Forall2 (Forall2 (fun day row => length row = nlon /\ forall j v, nth_error row j = Some v ->
    exists c center heights bi, Central cbl j c /\ WholePart (90 - c) center /\ HeightsAt day j heights /\ BlockRule lat_delta limits center heights (v, bi))) years out.
Proof. exact C66_years_proof. Qed.
Print Assumptions C66_years.
Example C66_years_case : run_Calc_IBL [-5; 0; 5] 30 "PH"%string [[49%Q; 50%Q]; [51%Q; 50%Q]] 2 [[block_day; block_day]] = Ok [[[1%Q; 0%Q]; [1%Q; 0%Q]]].
Proof. exact C66_years_case_proof. Qed.

(** C66 fails if a height is missing for one of the shifts, or if one of the shifts reaches over the pole: then
    there is no block, whatever the heights for the other shifts are. *)
Theorem C66_missing_refuted : forall lat_delta limits c center heights l n s, In l lat_delta -> WholePart (90 - c) center -> Halves limits n s ->
  ((0 <= center - l < s /\ s < Z.of_nat (length heights)) \/
   (exists i, nth_error heights (Z.to_nat i) = Some None /\ 0 <= center - l - n /\ center - l - n <= i <= center - l + s)) ->
  blocked_day lat_delta limits c heights = Ok (0%Q, None).
Proof. exact C66_missing_refuted_proof. Qed.
Print Assumptions C66_missing_refuted.
Example C66_missing_case :
  let heights := map (fun i => Some (inject_Z (100 - Z.of_nat i))) (seq 0 91) in
  (exists q, blocked_day [0] 30 73 heights = Ok (1%Q, Some q)) /\ blocked_day [0; 5] 30 73 heights = Ok (0%Q, None).
Proof. exact C66_missing_case_proof. Qed.

(** C66 fails for every other method: there are no blocks, and no exception. *)
Theorem C66_method_refuted : forall lat_delta limits method days cbl, method <> "PH"%string ->
  exists out, run_mod_blocking1d lat_delta limits method days cbl = Ok out /\
    forall row x, In row out -> In x row -> fst x = 0%Q.
Proof. exact C66_method_refuted_proof. Qed.
Print Assumptions C66_method_refuted.
(** C66: exceptions. *)
Theorem C66_exceptions : forall lat_delta limits day days cbl c,
  ((forall row, In row day -> row <> []) -> run_mod_blocking1d [] limits "PH"%string (day :: days) (c :: cbl) = Err ValueError) /\
  (forall row, lat_delta <> [] -> In row day -> (length row < length (c :: cbl))%nat -> run_mod_blocking1d lat_delta limits "PH"%string (day :: days) (c :: cbl) = Err IndexError).
Proof. exact C66_exceptions_proof. Qed.
Print Assumptions C66_exceptions.
Example C66_exceptions_case : run_mod_blocking1d [] 30 "PH"%string [[[Some 1%Q]]] [50%Q] = Err ValueError /\
  run_mod_blocking1d [0] 30 "PH"%string [[[Some 1%Q]]] [50%Q; 50%Q] = Err IndexError.
Proof. exact C66_exceptions_case_proof. Qed.
