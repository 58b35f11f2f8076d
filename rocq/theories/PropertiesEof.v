(** C143 and C144: empirical orthogonal functions. *)
From Coq Require Import Reals List.
From Verif Require Import PyBase EofModel EofSpec EofProofs.
From Verif Require MjoSpec.
Import ListNotations.
Open Scope R_scope.

(** C143: of data with at least two dimensions come orthonormal series and orthonormal patterns of the size of the data. *)
Theorem C143_answer : forall svd shape value neof dim x, (dim < length shape)%nat -> (2 <= length shape)%nat -> Forall (lt 0) shape ->
  let nt := nth dim shape 0%nat in let np := Size (Others dim shape) in
  DataRows shape value dim x -> IsSvd nt np x (svd (rows nt np x)) -> (neof <= Nat.min nt np)%nat ->
  exists u f e, eof_comp svd shape value neof true dim = Ok (u, f, (neof :: Others dim shape, e)) /\
    IsRows u nt neof /\ OrthoColumns nt neof u /\ length f = neof /\ IsRows e neof np /\ OrthoRows neof np e.
Proof. exact C143_answer_proof. Qed.
Print Assumptions C143_answer.
Example C143_answer_case : DataRows [2; 2]%nat two_by_two 0 small /\ IsSvd 2 2 small (easy_svd (rows 2 2 small)).
Proof. exact C143_answer_case_proof. Qed.

(** C143: the fractions are those of the sum of squares that the series and patterns hold, the largest first. *)
Theorem C143_fractions : forall svd shape value neof dim x u f e, (dim < length shape)%nat -> (2 <= length shape)%nat -> Forall (lt 0) shape ->
  let nt := nth dim shape 0%nat in let np := Size (Others dim shape) in
  DataRows shape value dim x -> IsSvd nt np x (svd (rows nt np x)) -> Energy nt np x <> 0 ->
  eof_comp svd shape value neof true dim = Ok (u, f, (neof :: Others dim shape, e)) ->
  exists g, f = map Some g /\ length g = neof /\
    (forall k, (k < neof)%nat -> 0 <= nth k g 0 <= 1 /\ nth k g 0 * Energy nt np x = Sum nt (fun t => Sum np (fun j => x t j * elem e k j) * Sum np (fun j => x t j * elem e k j))) /\
    (forall k l, (k <= l < neof)%nat -> nth l g 0 <= nth k g 0) /\
    Energy nt np (fun t j => x t j - Sum neof (fun k => sqrt (nth k g 0 * Energy nt np x) * elem u t k * elem e k j)) = (1 - Sum neof (fun k => nth k g 0)) * Energy nt np x.
Proof. exact C143_fractions_proof. Qed.
Print Assumptions C143_fractions.
Example C143_fractions_case : Energy 2 2 small = 10 /\
  eof_comp easy_svd [2; 2]%nat two_by_two 1 true 0 = Ok ([[1]; [0]], [Some (9 / 10)], ([1; 2]%nat, [[1; 0]])).
Proof. exact C143_fractions_case_proof. Qed.

(** C143: with all functions they add up to one, and the data are the sum of the functions. *)
Theorem C143_whole : forall svd shape value dim x u f e, (dim < length shape)%nat -> (2 <= length shape)%nat -> Forall (lt 0) shape ->
  let nt := nth dim shape 0%nat in let np := Size (Others dim shape) in
  DataRows shape value dim x -> IsSvd nt np x (svd (rows nt np x)) -> Energy nt np x <> 0 ->
  eof_comp svd shape value (Nat.min nt np) true dim = Ok (u, f, (Nat.min nt np :: Others dim shape, e)) ->
  exists g, f = map Some g /\ Sum (Nat.min nt np) (fun k => nth k g 0) = 1 /\
    forall t idx, (t < nt)%nat -> InShape idx (Others dim shape) ->
      value (With dim t idx) = Sum (Nat.min nt np) (fun k => sqrt (nth k g 0 * Energy nt np x) * elem u t k * elem e k (Offset (Others dim shape) idx)).
Proof. exact C143_whole_proof. Qed.
Print Assumptions C143_whole.
Example C143_whole_case : eof_comp easy_svd [2; 2]%nat two_by_two 2 true 0 = Ok ([[1; 0]; [0; 1]], [Some (9 / 10); Some (1 / 10)], ([2; 2]%nat, [[1; 0]; [0; 1]])).
Proof. exact C143_whole_case_proof. Qed.

(** C143: data that are all zero have no fractions. *)
Theorem C143_zero : forall svd shape value neof dim x u f e, (dim < length shape)%nat -> (2 <= length shape)%nat -> Forall (lt 0) shape ->
  let nt := nth dim shape 0%nat in let np := Size (Others dim shape) in
  DataRows shape value dim x -> IsSvd nt np x (svd (rows nt np x)) -> Energy nt np x = 0 ->
  eof_comp svd shape value neof true dim = Ok (u, f, (neof :: Others dim shape, e)) -> f = repeat None neof.
Proof. exact C143_zero_proof. Qed.
Print Assumptions C143_zero.
Example C143_zero_case : IsSvd 1 2 (fun _ _ => 0) ([[1]], [0], [[1; 0]]) /\ Energy 1 2 (fun _ _ => 0) = 0.
Proof. exact C143_zero_case_proof. Qed.

(** C143: the other kind is that of the standardised data. *)
Theorem C143_standard : forall svd shape value neof dim x, (dim < length shape)%nat -> Forall (lt 0) shape ->
  let nt := nth dim shape 0%nat in let np := Size (Others dim shape) in DataRows shape value dim x ->
  (forall j, (j < np)%nat -> Deviation nt (fun t => x t j) <> 0) ->
  forall value', DataRows shape value' dim (Standard nt x) -> eof_comp svd shape value neof false dim = eof_comp svd shape value' neof true dim.
Proof. exact C143_standard_proof. Qed.
Print Assumptions C143_standard.
Example C143_standard_case : Deviation 2 (fun t => small t 0) <> 0 /\ Deviation 2 (fun t => small t 1) <> 0.
Proof. exact C143_standard_case_proof. Qed.

(** C143: so there units and zero of a place do not matter. *)
Theorem C143_units : forall svd shape value value' neof dim (scale shift : list nat -> R), (dim < length shape)%nat -> Forall (lt 0) shape ->
  (forall idx, InShape idx (Others dim shape) -> 0 < scale idx) ->
  (forall t idx, (t < nth dim shape 0)%nat -> InShape idx (Others dim shape) -> value' (With dim t idx) = scale idx * value (With dim t idx) + shift idx) ->
  eof_comp svd shape value' neof false dim = eof_comp svd shape value neof false dim.
Proof. exact C143_units_proof. Qed.
Print Assumptions C143_units.
Example C143_units_case : InShape [1]%nat (Others 0 [2; 2]%nat) /\ With 0 0 [1]%nat = [0; 1]%nat.
Proof. exact C143_units_case_proof. Qed.

(** C143: a covariance would not depend on the zero of a place either: false, means are not removed. *)
Theorem C143_covariance_refuted : ~ (forall svd value value' c u f e u' f' e', (forall t j, value' [t; j] = value [t; j] + c j) ->
  IsSvd 2 1 (fun t j => value [t; j]) (svd (rows 2 1 (fun t j => value [t; j]))) -> IsSvd 2 1 (fun t j => value' [t; j]) (svd (rows 2 1 (fun t j => value' [t; j]))) ->
  eof_comp svd [2; 1]%nat value 1 true 0 = Ok (u, f, e) -> eof_comp svd [2; 1]%nat value' 1 true 0 = Ok (u', f', e') -> u' = u).
Proof. exact C143_covariance_refuted_proof. Qed.
Print Assumptions C143_covariance_refuted.

(** C143, as documented (the second result is the singular values): false. *)
Theorem C143_values_refuted : ~ (forall svd value u f e, IsSvd 2 2 (fun t j => value [t; j]) (svd (rows 2 2 (fun t j => value [t; j]))) ->
  eof_comp svd [2; 2]%nat value 2 true 0 = Ok (u, f, e) -> f = map Some (snd (fst (svd (rows 2 2 (fun t j => value [t; j])))))).
Proof. exact C143_values_refuted_proof. Qed.
Print Assumptions C143_values_refuted.

(** C143: what is refused. *)
Theorem C143_refused : forall svd shape value neof covariance dim,
  ((length shape <= dim)%nat -> eof_comp svd shape value neof covariance dim = Err IndexError) /\
  (Forall (lt 0) shape -> (dim < length shape)%nat ->
    ((Nat.min (nth dim shape 0) (Size (Others dim shape)) < neof)%nat -> eof_comp svd shape value neof true dim = Err ValueError) /\
    ((neof <= 1)%nat -> length shape = 1%nat -> eof_comp svd shape value neof true dim = Err IndexError) /\
    (forall x j, DataRows shape value dim x -> (j < Size (Others dim shape))%nat -> Deviation (nth dim shape 0%nat) (fun t => x t j) = 0 ->
      eof_comp svd shape value neof false dim = Err ValueError)).
Proof. exact C143_refused_proof. Qed.
Print Assumptions C143_refused.
Example C143_refused_case : (Nat.min (nth 0 [2; 2] 0) (Size (Others 0 [2; 2])) < 3)%nat /\ Deviation 2 (fun _ => 5) = 0.
Proof. exact C143_refused_case_proof. Qed.

(** C144: the mean and the trend over the years of each day and place are removed, in the array that is given. *)
Theorem C144_anomalies : forall svd numpcs eofin nd np eof pc f x, Calc_EOF svd numpcs eofin nd np = Ok (eof, pc, f, x) ->
  length x = length eofin /\ Years x nd np /\
  forall d j, (d < nd)%nat -> (j < np)%nat ->
    MjoSpec.Detrended (map (fun y => record_ eofin y d j) (seq 0 (length eofin))) (map (fun y => record_ x y d j) (seq 0 (length eofin))).
Proof. exact C144_anomalies_proof. Qed.
Print Assumptions C144_anomalies.
Example C144_anomalies_case : exists eof pc f, Calc_EOF (fun _ => hump_svd) 1 hump 1 1 = Ok (eof, pc, f, hump).
Proof. exact C144_anomalies_case_proof. Qed.

(** C144: so a second call with the same array has the same result. *)
Theorem C144_again : forall svd numpcs eofin nd np eof pc f x, Calc_EOF svd numpcs eofin nd np = Ok (eof, pc, f, x) ->
  Calc_EOF svd numpcs x nd np = Ok (eof, pc, f, x).
Proof. exact C144_again_proof. Qed.
Print Assumptions C144_again.

(** C144: if enough is left, components have mean zero and variance one and are not correlated; with the patterns they give the
    anomalies up to the percentages that are left out, and exactly if nothing is. *)
Theorem C144_reconstruct : forall svd numpcs eofin nd np eof pc f x, Calc_EOF svd numpcs eofin nd np = Ok (eof, pc, f, x) ->
  let n := (length eofin * nd)%nat in let z := fun t j => record_ x (t / nd) (t mod nd) j in let s := snd (fst (svd (concat x))) in
  IsSvd n np z (svd (concat x)) -> (forall k, (k < numpcs)%nat -> 0 < nth k s 0) ->
  exists c a g m, Present pc n numpcs c /\
    (forall k, (k < numpcs)%nat -> Mean n (fun t => c t k) = 0) /\
    (forall k l, (k < numpcs)%nat -> (l < numpcs)%nat -> Sum n (fun t => c t k * c t l) / (INR n - 1) = if Nat.eqb k l then 1 else 0) /\
    f = map Some g /\ reconstruct_heights numpcs np eof pc = Ok m /\ Present m n np a /\
    Energy n np (fun t j => z t j - a t j) = (1 - Sum numpcs (fun k => nth k g 0) / 100) * Energy n np z /\
    ((forall k, (numpcs <= k < Nat.min n np)%nat -> nth k s 0 = 0) -> forall t j, (t < n)%nat -> (j < np)%nat -> a t j = z t j).
Proof. exact C144_reconstruct_proof. Qed.
Print Assumptions C144_reconstruct.
Example C144_reconstruct_case : IsSvd 3 1 (fun t j => record_ hump (t / 1) (t mod 1) j) hump_svd /\ 0 < nth 0 (snd (fst hump_svd)) 0.
Proof. exact C144_reconstruct_case_proof. Qed.

(** C144: with as many components as records, which a comment says gives the data back, there is nothing but NaN. *)
Theorem C144_all : forall svd eofin nd np eof pc f x, let n := (length eofin * nd)%nat in (n <= np)%nat ->
  Calc_EOF svd n eofin nd np = Ok (eof, pc, f, x) -> IsSvd n np (fun t j => record_ x (t / nd) (t mod nd) j) (svd (concat x)) ->
  reconstruct_heights n np eof pc = Ok (repeat (repeat None np) n).
Proof. exact C144_all_proof. Qed.
Print Assumptions C144_all.
Example C144_all_case : exists eof pc f, Calc_EOF (fun _ => flat_svd) 2 flat 1 2 = Ok (eof, pc, f, flat) /\
  IsSvd 2 2 (fun t j => record_ flat (t / 1) (t mod 1) j) flat_svd.
Proof. exact C144_all_case_proof. Qed.
Theorem C144_all_refuted : ~ (forall svd eofin nd np eof pc f x m, let n := (length eofin * nd)%nat in (n <= np)%nat ->
  Calc_EOF svd n eofin nd np = Ok (eof, pc, f, x) -> IsSvd n np (fun t j => record_ x (t / nd) (t mod nd) j) (svd (concat x)) ->
  reconstruct_heights n np eof pc = Ok m -> Present m n np (fun t j => record_ x (t / nd) (t mod nd) j)).
Proof. exact C144_all_refuted_proof. Qed.
Print Assumptions C144_all_refuted.

(** C144: what is refused. *)
Theorem C144_refused : forall svd numpcs eofin nd np,
  ((2 <= length eofin * nd)%nat -> (0 < np)%nat -> (Nat.min (length eofin * nd) np < numpcs)%nat -> Calc_EOF svd numpcs eofin nd np = Err ValueError) /\
  (forall eof pc, length eof <> numpcs \/ Exists (fun row => length row <> numpcs) pc -> reconstruct_heights numpcs np eof pc = Err ValueError).
Proof. exact C144_refused_proof. Qed.
Print Assumptions C144_refused.
Example C144_refused_case : (Nat.min (length hump * 1) 1 < 2)%nat.
Proof. exact C144_refused_case_proof. Qed.
