(** Central blocking latitudes: property C67. *)
From Verif Require Import PyBase ColumnModel BaseSpec BlockModel BlockSpec CblModel CblSpec CblProofs.
From Coq Require Import Reals Qreals.
From Coq Require Import List.
Open Scope Z_scope.

(** C67: the central latitude of a longitude is the whole part of the moving average of the latitudes with the
    greatest activity. *)
Theorem C67_central : forall smoothing_pts lats years, Z.odd smoothing_pts = true -> 1 <= smoothing_pts <= 721 ->
  lats <> [] -> (forall lat, In lat lats -> (-90 <= lat <= 90)%Q) -> years <> [] -> Shape lats years ->
  (forall days i j, In days years -> (i < length lats)%nat -> (j < 360)%nat -> Measured days i j) ->
  exists out ws, run_CBL smoothing_pts lats 360 years = Ok (out, ws) /\
    Forall2 (fun days row => length row = 360%nat /\ exists track, length track = 360%nat /\
      (forall j lat, nth_error track j = Some lat -> StormTrack lats days j lat) /\
      forall j v, nth_error row j = Some v -> Smoothed track ((smoothing_pts - 1) / 2) j v) years out /\
    Forall2 (fun days w => length w = length lats /\ forall i line, nth_error w i = Some line -> length line = 360%nat /\
      forall j x, nth_error line j = Some x -> exists r, x = Some r /\ Activity lats days i j r) years ws.
Proof. exact C67_central_proof. Qed.
Print Assumptions C67_central.
Example C67_central_case :
  Shape [60%Q; 30%Q] [[two_lats (Some 0%Q) (Some 5%Q); two_lats (Some 2%Q) (Some 5%Q)]] /\
  exists ws, run_CBL 9 [60%Q; 30%Q] 360 [[two_lats (Some 0%Q) (Some 5%Q); two_lats (Some 2%Q) (Some 5%Q)]] = Ok ([repeat 60%Q 360], ws).
Proof. exact C67_central_case_proof. Qed.

(** C67 fails for missing heights: a latitude without any height at a longitude is taken as the one with the
    greatest activity. *)
Theorem C67_missing_refuted : forall lats years out ws k days i j lat, Shape lats years ->
  (forall lat, In lat lats -> (-90 <= lat <= 90)%Q) ->
  run_CBL 1 lats 360 years = Ok (out, ws) -> nth_error years k = Some days -> nth_error lats i = Some lat -> (j < 360)%nat ->
  ~ Measured days i j -> (forall i', (i' < i)%nat -> Measured days i' j) ->
  exists row z, nth_error out k = Some row /\ WholePart lat z /\ nth_error row j = Some (inject_Z z).
Proof. exact C67_missing_refuted_proof. Qed.
Print Assumptions C67_missing_refuted.
Example C67_missing_case : exists ws,
  run_CBL 1 [60%Q; 30%Q] 360 [[two_lats (Some 0%Q) None; two_lats (Some 2%Q) None]] = Ok ([repeat 30%Q 360], ws).
Proof. exact C67_missing_case_proof. Qed.

(** C67: exceptions.  The grid must have 360 longitudes. *)
Theorem C67_exceptions : forall smoothing_pts lats nlon years,
  (Z.even smoothing_pts = true -> run_CBL smoothing_pts lats nlon years = Err SystemExit) /\
  (Z.odd smoothing_pts = true -> nlon <> 360%nat -> years <> [] -> run_CBL smoothing_pts lats nlon years = Err ValueError) /\
  (Z.odd smoothing_pts = true -> run_CBL smoothing_pts [] 360 years = Err ValueError) /\
  (Z.odd smoothing_pts = true -> lats <> [] -> run_CBL smoothing_pts lats 360 [] = Err IndexError) /\
  (Z.odd smoothing_pts = true -> 721 < smoothing_pts -> lats <> [] -> years <> [] -> Shape lats years -> run_CBL smoothing_pts lats 360 years = Err IndexError).
Proof. exact C67_exceptions_proof. Qed.
Print Assumptions C67_exceptions.
