(** The wind stress of the Madden-Julian oscillation. *)
From Coq Require Import Reals ZArith List.
From Verif Require Import PyBase TauModel TauSpec TauProofs.
From Coq Require Import List.
Import ListNotations.
Open Scope nat_scope.

(** ** C104: wind stress of the Madden-Julian oscillation *)

(** The filters of one series. *)
Theorem C104_filter : forall s f1 f2, 0 < length f1 <= length s -> 0 < length f2 <= length s ->
  band_pass s f1 (Ok f2) = Ok (map (BandPass s f1 f2) (seq 0 (length s))).
Proof. exact C104_filter_proof. Qed.
Print Assumptions C104_filter.

Example C104_filter_case : BandPass [1; 5; 1]%R [0; 1 / 2; 0]%R [2]%R 1 = 5%R.
Proof. exact C104_filter_case_proof. Qed.

(** A constant is removed if the weights of the first filter have the sum 1, but not near the ends. *)
Theorem C104_constant : forall n c f1 f2 t, 0 < length f1 <= n -> 0 < length f2 <= n -> fold_right Rplus 0%R f1 = 1%R ->
  length f1 + length f2 <= t -> t + length f1 + length f2 <= n -> BandPass (repeat c n) f1 f2 t = 0%R.
Proof. exact C104_constant_proof. Qed.
Print Assumptions C104_constant.

Example C104_constant_case : fold_right Rplus 0%R [1 / 4; 1 / 2; 1 / 4]%R = 1%R /\
  BandPass (repeat 4 9)%R [1 / 4; 1 / 2; 1 / 4]%R [1]%R 0 = 1%R.
Proof. exact C104_constant_case_proof. Qed.

(** The stress at each point that has a value at the eleventh time; at the other points the input comes back as it was,
    without filter or projection. *)
Theorem C104_values : forall nt flux patterns filt1 filt2, Proper nt flux patterns filt1 filt2 ->
  (forall j, j < 4 -> Deviation nt flux patterns filt1 filt2 j <> 0%R) ->
  exists out, calc_tau_MJO nt flux patterns filt1 filt2 = Ok out /\ length out = length flux /\
    (forall k, k < Count flux -> nth (Point flux k) out [] = map (fun t => Some (Stress nt flux patterns filt1 filt2 k t)) (seq 0 nt)) /\
    (forall i, ~ In i (Used flux) -> nth i out [] = nth i flux []).
Proof. exact C104_values_proof. Qed.
Print Assumptions C104_values.

(** Eleven times, two points and four equal patterns, without filters. *)
Example C104_values_case : exists flux patterns, Proper 11 flux patterns [] [] /\
  forall j, j < 4 -> Deviation 11 flux patterns [] [] j <> 0%R.
Proof. exact C104_values_case_proof. Qed.

(** The stress of twice the flux should be twice the stress.  It is four times as large: with a factor [c] of all fluxes
    the result has the factor [c] times the size of [c]. *)
Theorem C104_linear_refuted : forall nt flux patterns filt1 filt2 c, c <> 0%R -> Proper nt flux patterns filt1 filt2 ->
  (forall j, j < 4 -> Deviation nt flux patterns filt1 filt2 j <> 0%R) ->
  exists out out', calc_tau_MJO nt flux patterns filt1 filt2 = Ok out /\
    calc_tau_MJO nt (Scaled c flux) patterns filt1 filt2 = Ok out' /\
    forall i t x, In i (Used flux) -> nth_error (nth i out []) t = Some (Some x) ->
      nth_error (nth i out' []) t = Some (Some (c * Rabs c * x))%R.
Proof. exact C104_linear_refuted_proof. Qed.
Print Assumptions C104_linear_refuted.

(** Fewer than eleven times, a single point, more filters than points, and fewer than four patterns raise IndexError;
    filters without weights or longer than the series raise ValueError. *)
Theorem C104_exceptions : forall nt flux patterns filt1 filt2,
  let run := calc_tau_MJO nt flux patterns filt1 filt2 in
  (nt <= 10 -> run = Err IndexError) /\
  (10 < nt -> Forall (fun s => length s = nt) flux ->
   (forall k, k < Count flux -> Forall (fun o => o <> None) (nth (Point flux k) flux [])) ->
   (Count flux = 1 -> filt1 <> [] -> run = Err IndexError) /\
   (Count flux <> 1 ->
    (Count flux < length filt1 -> length filt1 <= length filt2 -> Forall (fun f => 0 < length f <= nt) filt1 ->
     Forall (fun f => 0 < length f <= nt) filt2 -> run = Err IndexError) /\
    (forall f rest, 0 < Count flux -> filt1 = f :: rest -> length f = 0 \/ nt < length f -> run = Err ValueError))) /\
  (Proper nt flux patterns filt1 filt2 -> calc_tau_MJO nt flux (firstn 3 patterns) filt1 filt2 = Err IndexError).
Proof. exact C104_exceptions_proof. Qed.
Print Assumptions C104_exceptions.
