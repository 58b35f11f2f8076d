(** Blocks that last: properties C108, C109 and C110. *)
From Verif Require Import PyBase ColumnModel BlockModel TrackModel TrackSpec TrackProofs.
From Coq Require Import List.
Import ListNotations.
Open Scope Z_scope.

(** ** C108: the frequency of blocks *)

(** The array counts the groups of blocks.  A block is a list of at least five groups of blocked longitudes; each continues the
    one before, one or two days later, with more than the wanted number of longitudes in common, and the centers stay near
    the first one.  No group is counted twice. *)
Theorem C108_blocks : forall crit overlap btime limit ny nd gibl freq, 2 <= crit -> 0 <= overlap -> 1 <= btime ->
  Shape ny nd gibl -> Proper 360 crit gibl ->
  run_Calc_Blocks crit overlap btime limit ny nd gibl Degrees = Ok freq ->
  exists blocks, NoDup (concat blocks) /\
    Forall (fun b => (5 <= length b)%nat /\ Forall (IsGroup gibl) b /\ Linked 360 overlap b /\ Stays 360 limit b) blocks /\
    forall y d x, 0 <= y < Z.of_nat ny -> 0 <= d < Z.of_nat nd -> 0 <= x < 360 ->
      At freq y d x (Z.of_nat (length (filter (Covers 360 y d x) (concat blocks)))).
Proof. exact C108_blocks_proof. Qed.
Print Assumptions C108_blocks.
(** The values are 0 and 1, and 1 only where the longitude is blocked on that day. *)
Theorem C108_values : forall crit overlap btime limit ny nd gibl freq, 2 <= crit -> 0 <= overlap -> 1 <= btime ->
  Shape ny nd gibl -> Proper 360 crit gibl ->
  run_Calc_Blocks crit overlap btime limit ny nd gibl Degrees = Ok freq ->
  forall y d a x, Row gibl y d a -> 0 <= x < 360 -> At freq y d x 0 \/ (At freq y d x 1 /\ On a x).
Proof. exact C108_values_proof. Qed.
Print Assumptions C108_values.
(** There is a result if two groups of a year are not more than two days apart. *)
Theorem C108_total : forall crit overlap btime limit ny nd gibl g h, 2 <= crit -> 0 <= overlap -> 1 <= btime ->
  Shape ny nd gibl -> Proper 360 crit gibl ->
  IsGroup gibl g -> IsGroup gibl h -> g <> h -> gyear g = gyear h -> 0 <= gday h - gday g <= 2 ->
  exists freq, run_Calc_Blocks crit overlap btime limit ny nd gibl Degrees = Ok freq.
Proof. exact C108_total_proof. Qed.
Print Assumptions C108_total.
Example C108_case : Shape 1 6 [Moving 20 6] /\ Proper 360 15 [Moving 20 6] /\ IsGroup [Moving 20 6] (0, 2, 22, 41) /\
  exists freq, run_Calc_Blocks 15 10 5 45 1 6 [Moving 20 6] Degrees = Ok freq /\ At freq 0 2 22 1 /\ At freq 0 2 41 1 /\ At freq 0 2 42 0.
Proof. exact C108_case_proof. Qed.

(** The groups found by run_Calc_GIBL are such rows. *)
Theorem C108_gibl : forall ibl_dist crit ibl gibl y d a, 2 <= crit -> (forall days a, In days ibl -> In a days -> length a = 360%nat) ->
  run_Calc_GIBL ibl_dist crit ibl = Ok gibl -> Row gibl y d a -> length a = 360%nat /\ Wide crit a.
Proof. exact C108_gibl_proof. Qed.
Print Assumptions C108_gibl.
Example C108_gibl_case : run_Calc_GIBL 7 15 [Moving 20 2] = Ok [Moving 20 2].
Proof. exact C108_gibl_case_proof. Qed.

(** ** C109: which groups are blocks *)

(** If the groups of a year are one chain of at least five, and not fewer than block_time, they are found with all their
    longitudes. *)
Theorem C109_one_chain : forall crit overlap btime limit ny nd gibl freq y l, 2 <= crit -> 0 <= overlap -> 1 <= btime ->
  Shape ny nd gibl -> Proper 360 crit gibl ->
  run_Calc_Blocks crit overlap btime limit ny nd gibl Degrees = Ok freq ->
  (forall g, In g l <-> IsGroup gibl g /\ gyear g = y) -> Linked 360 overlap l -> Stays 360 limit l ->
  (5 <= length l)%nat -> btime <= Z.of_nat (length l) -> 0 <= y < Z.of_nat ny ->
  forall d x, 0 <= d < Z.of_nat nd -> 0 <= x < 360 -> At freq y d x (if existsb (Covers 360 y d x) l then 1 else 0).
Proof. exact C109_one_chain_proof. Qed.
Print Assumptions C109_one_chain.
Example C109_one_chain_case : Linked 360 10 (map (fun k => (0, k, 20 + k, 39 + k)) [0; 1; 2; 3; 4; 5]) /\
  Stays 360 45 (map (fun k => (0, k, 20 + k, 39 + k)) [0; 1; 2; 3; 4; 5]).
Proof. exact C109_one_chain_case_proof. Qed.

(** The option block_time should be the number of days a block lasts.  With block_time 3 a chain of four days is no block; with
    block_time 7 a chain of five days is one, if there is another group in the year later on, and the same chain at the end
    of the year is not. *)
Theorem C109_duration_refuted :
  (exists freq, run_Calc_Blocks 15 10 3 45 1 4 [Moving 20 4] Degrees = Ok freq /\
    forall d x, 0 <= d < 4 -> 0 <= x < 360 -> At freq 0 d x 0) /\
  (exists freq, let gibl := Moving 20 5 ++ repeat Clear 5 ++ Moving 20 5 in
    run_Calc_Blocks 15 10 7 45 1 15 [gibl] Degrees = Ok freq /\
    (forall d, 0 <= d < 5 -> At freq 0 d 30 1) /\ (forall d, 10 <= d < 15 -> At freq 0 d 30 0)).
Proof. exact C109_duration_refuted_proof. Qed.
Print Assumptions C109_duration_refuted.

(** ** C110: limits *)

(** A block that moves by one degree a day over the first longitude should be found like the same block elsewhere.  It is
    taken to move by 340 degrees and dropped. *)
Theorem C110_crossing_refuted :
  Linked 360 10 (map (fun k => (0, k, k - 11, k + 8)) [0; 1; 2; 3; 4]) /\ (forall k, In k [0; 1; 2; 3; 4] -> IsGroup [Moving (-11) 5] (0, k, k - 11, k + 8)) /\
  (exists freq, run_Calc_Blocks 15 10 5 45 1 5 [Moving (-11) 5] Degrees = Ok freq /\ forall d x, 0 <= d < 5 -> 0 <= x < 360 -> At freq 0 d x 0) /\
  (exists freq, run_Calc_Blocks 15 10 5 45 1 5 [Moving 20 5] Degrees = Ok freq /\ forall d, 0 <= d < 5 -> At freq 0 d 30 1).
Proof. exact C110_crossing_refuted_proof. Qed.
Print Assumptions C110_crossing_refuted.

(** The longitudes are used as positions: with longitudes from -180 on, a block that crosses the first one is put in places
    that are not blocked. *)
Theorem C110_longitudes_refuted : exists freq,
  run_Calc_Blocks 15 10 5 45 1 5 [repeat (Zone (-14) 5) 5] (map (fun x => x - 180) Degrees) = Ok freq /\
  forall d, 0 <= d < 5 -> At freq 0 d 200 1 /\ ~ On (Zone (-14) 5) 200.
Proof. exact C110_longitudes_refuted_proof. Qed.
Print Assumptions C110_longitudes_refuted.

(** Without blocks there should be zeros.  Without groups there is an IndexError, and without two groups that follow each other
    within two days a TypeError. *)
Theorem C110_empty_refuted : forall crit overlap btime limit ny nd gibl, 2 <= crit -> Proper 360 crit gibl ->
  let run := run_Calc_Blocks crit overlap btime limit ny nd gibl Degrees in
  ((forall g, ~ IsGroup gibl g) -> run = Err IndexError) /\
  ((exists g, IsGroup gibl g) -> (forall g h, IsGroup gibl g -> IsGroup gibl h -> Before g h -> 2 < gday h - gday g) -> run = Err TypeError).
Proof. exact C110_empty_refuted_proof. Qed.
Print Assumptions C110_empty_refuted.
(** A day with all longitudes blocked raises IndexError. *)
Theorem C110_full_day : forall crit overlap btime limit ny nd gibl y d a, (forall y d a, Row gibl y d a -> length a = 360%nat) ->
  Row gibl y d a -> (forall x, On a x) -> run_Calc_Blocks crit overlap btime limit ny nd gibl Degrees = Err IndexError.
Proof. exact C110_full_day_proof. Qed.
Print Assumptions C110_full_day.
Example C110_case : Proper 360 15 [[Clear; Clear]] /\ Proper 360 15 [Moving 20 1] /\
  run_Calc_Blocks 15 10 5 45 1 2 [[Clear; Clear]] Degrees = Err IndexError /\ run_Calc_Blocks 15 10 5 45 1 1 [Moving 20 1] Degrees = Err TypeError /\
  run_Calc_Blocks 15 10 5 45 1 2 [[Zone 0 359; Clear]] Degrees = Err IndexError.
Proof. exact C110_case_proof. Qed.
