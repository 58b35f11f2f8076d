(** Proofs about the wind stress of the Madden-Julian oscillation. *)
From Coq Require Import Reals ZArith QArith.
From Verif Require Import PyBase ColumnModel TropicsModel WavesModel WavesSpec WavesProofs RmmModel BlockProofs TropicsProofs KfProofs MjoProofs RmmProofs BandProofs TauModel TauSpec.
From Coq Require Import List Lra.
Import ListNotations.
Open Scope nat_scope.

(** ** Sums *)
Lemma sb_tot n f : SumBelow n f = Total (map f (seq 0 n)).
Proof. reflexivity. Qed.
Lemma sb_ext n f g : (forall i, i < n -> f i = g i) -> SumBelow n f = SumBelow n g.
Proof. intros H. rewrite !sb_tot. apply tot_ext. intros i I. apply in_seq in I. apply H. lia. Qed.
Lemma sb_scale n c f : SumBelow n (fun i => c * f i)%R = (c * SumBelow n f)%R.
Proof. rewrite !sb_tot. apply tot_scale. Qed.
Lemma sb_zero n f : (forall i, i < n -> f i = 0%R) -> SumBelow n f = 0%R.
Proof. intros H. rewrite sb_tot. apply tot_zero. intros i I. apply in_seq in I. apply H. lia. Qed.
Lemma sb_swap n m (f : nat -> nat -> R) : SumBelow n (fun i => SumBelow m (f i)) = SumBelow m (fun j => SumBelow n (fun i => f i j)).
Proof. rewrite !sb_tot. unfold SumBelow. exact (tot_swap f (seq 0 n) (seq 0 m)). Qed.
Lemma sb_one n k (g : nat -> R) : k < n -> SumBelow n (fun i => if i =? k then g i else 0)%R = g k.
Proof. intros H. rewrite sb_tot. apply tot_one. exact H. Qed.
Lemma sb_none n k (g : nat -> R) : n <= k -> SumBelow n (fun i => if i =? k then g i else 0)%R = 0%R.
Proof. intros H. apply sb_zero. intros i I. destruct (Nat.eqb_spec i k); [lia|reflexivity]. Qed.
Lemma sb_list l : fold_right Rplus 0%R l = SumBelow (length l) (fun i => nth i l 0%R).
Proof. unfold SumBelow. rewrite <- list_seq. reflexivity. Qed.
Lemma rsum_seq (f : nat -> R) n : rsum (map f (seq 0 n)) = SumBelow n f.
Proof. reflexivity. Qed.
Lemma list_seq0 (l : list nat) : l = map (fun k => nth k l 0) (seq 0 (length l)).
Proof. apply nth_ext_all; [rewrite map_length, seq_length; reflexivity|]. intros i v H. assert (I : i < length l) by (apply nth_error_Some; congruence). rewrite nth_map_seq by exact I. f_equal. apply nth_error_nth. exact H. Qed.
Lemma list_seq' {A} (d : A) (l : list A) : l = map (fun k => nth k l d) (seq 0 (length l)).
Proof. apply nth_ext_all; [rewrite map_length, seq_length; reflexivity|]. intros i v H. assert (I : i < length l) by (apply nth_error_Some; congruence). rewrite nth_map_seq by exact I. f_equal. apply nth_error_nth. exact H. Qed.
Lemma nth_seq_map {A} (d : A) (h : nat -> A) n i : i < n -> nth i (map h (seq 0 n)) d = h i.
Proof. intros H. apply nth_error_nth. apply nth_map_seq. exact H. Qed.

(** ** The filters *)
Lemma full_is x y m : full_at x y m = SumBelow (length x) (fun i => nth i x 0 * (if i <=? m then nth (m - i) y 0 else 0))%R.
Proof.
  unfold full_at. rewrite (list_seq x) at 2. rewrite combine_seq', map_map. reflexivity.
Qed.
Lemma pick_right y m i : (if i <=? m then nth (m - i) y 0 else 0)%R = SumBelow (length y) (fun j => if j + i =? m then nth j y 0 else 0)%R.
Proof.
  destruct (Nat.leb_spec i m) as [L|L].
  - destruct (Nat.lt_ge_cases (m - i) (length y)) as [I|I].
    + rewrite <- (sb_one (length y) (m - i) (fun j => nth j y 0%R) I). apply sb_ext. intros j J. destruct (Nat.eqb_spec j (m - i)), (Nat.eqb_spec (j + i) m); (reflexivity || lia).
    + rewrite nth_overflow by exact I. symmetry. apply sb_zero. intros j J. destruct (Nat.eqb_spec (j + i) m); [lia|reflexivity].
  - symmetry. apply sb_zero. intros j J. destruct (Nat.eqb_spec (j + i) m); [lia|reflexivity].
Qed.
Lemma pick_left x m j : Around0 x (Z.of_nat m - Z.of_nat j) = SumBelow (length x) (fun i => if j + i =? m then nth i x 0 else 0)%R.
Proof.
  unfold Around0. destruct (Z.ltb_spec (Z.of_nat m - Z.of_nat j) 0) as [L|L].
  - symmetry. apply sb_zero. intros i I. destruct (Nat.eqb_spec (j + i) m); [lia|reflexivity].
  - replace (Z.to_nat (Z.of_nat m - Z.of_nat j)) with (m - j) by lia. destruct (Nat.lt_ge_cases (m - j) (length x)) as [I|I].
    + rewrite <- (sb_one (length x) (m - j) (fun i => nth i x 0%R) I). apply sb_ext. intros i J. destruct (Nat.eqb_spec i (m - j)), (Nat.eqb_spec (j + i) m); (reflexivity || lia).
    + rewrite nth_overflow by exact I. symmetry. apply sb_zero. intros i J. destruct (Nat.eqb_spec (j + i) m); [lia|reflexivity].
Qed.
Lemma conv_at a v k : full_at a v (k + (length v - 1) / 2) = Smooth v (Around0 a) (Z.of_nat k).
Proof.
  rewrite full_is. unfold Smooth. set (m := k + (length v - 1) / 2).
  transitivity (SumBelow (length a) (fun i => SumBelow (length v) (fun j => if j + i =? m then nth i a 0 * nth j v 0 else 0)))%R.
  - apply sb_ext. intros i I. rewrite pick_right, <- sb_scale. apply sb_ext. intros j J. destruct (j + i =? m); ring.
  - rewrite sb_swap. apply sb_ext. intros j J. replace (Z.of_nat k + Z.of_nat ((length v - 1) / 2) - Z.of_nat j)%Z with (Z.of_nat m - Z.of_nat j)%Z by (unfold m; lia). rewrite pick_left, <- sb_scale. apply sb_ext. intros i I. destruct (j + i =? m); ring.
Qed.
Lemma conv_is a v : 0 < length v <= length a -> convolve_same a v = Ok (map (fun t => Smooth v (Around0 a) (Z.of_nat t)) (seq 0 (length a))).
Proof.
  intros H. unfold convolve_same. destruct a as [|a0 a']; [cbn in H; lia|]. destruct v as [|v0 v']; [cbn in H; lia|]. set (a := a0 :: a') in *. set (v := v0 :: v') in *. destruct (Nat.ltb_spec (length a) (length v)); [lia|]. f_equal. apply map_ext. intros t. apply conv_at.
Qed.
Lemma smooth_ext f s s' t : (forall z, s z = s' z) -> Smooth f s t = Smooth f s' t.
Proof. intros H. unfold Smooth. apply sb_ext. intros i I. rewrite H. reflexivity. Qed.
Lemma around_seq (h : nat -> R) n z : Around0 (map h (seq 0 n)) z = if (0 <=? z)%Z && (z <? Z.of_nat n)%Z then h (Z.to_nat z) else 0%R.
Proof.
  unfold Around0. destruct (Z.ltb_spec z 0) as [L|L], (Z.leb_spec 0 z) as [M|M]; try lia; [reflexivity|]. cbn [andb]. destruct (Z.ltb_spec z (Z.of_nat n)) as [K|K].
  - apply nth_seq_map. lia.
  - apply nth_overflow. rewrite map_length, seq_length. lia.
Qed.
Lemma band_is s f1 f2 : 0 < length f1 <= length s -> 0 < length f2 <= length s -> band_pass s f1 (Ok f2) = Ok (map (BandPass s f1 f2) (seq 0 (length s))).
Proof.
  intros H1 H2. unfold band_pass. rewrite (conv_is s f1 H1). cbn [bind]. rewrite map_length, seq_length, Nat.eqb_refl. cbn [negb].
  assert (HP : map (fun p => fst p - snd p)%R (combine s (map (fun t => Smooth f1 (Around0 s) (Z.of_nat t)) (seq 0 (length s)))) = map (fun t => nth t s 0 - Smooth f1 (Around0 s) (Z.of_nat t))%R (seq 0 (length s))).
  { rewrite (list_seq s) at 1. rewrite combine_seq, map_map. reflexivity. }
  rewrite HP. rewrite conv_is by (rewrite map_length, seq_length; exact H2). cbn [bind]. rewrite !map_length, !seq_length, Nat.eqb_refl. cbn [negb]. f_equal. apply map_ext. intros t. unfold BandPass. apply smooth_ext. intros z. rewrite around_seq. destruct ((0 <=? z)%Z && (z <? Z.of_nat (length s))%Z) eqn:B; [|reflexivity]. apply andb_prop in B. destruct B as [B1 B2]. apply Z.leb_le in B1. rewrite Z2Nat.id by exact B1. f_equal. unfold Around0. destruct (Z.ltb_spec z 0); [lia|reflexivity].
Qed.

(** ** The points *)
Lemma there_is s : there s = match nth 10 s None with Some _ => true | None => false end.
Proof. unfold there. destruct (nth_error s 10) as [o|] eqn:E; [rewrite (nth_error_nth s 10 None E); destruct o; reflexivity|]. apply nth_error_None in E. rewrite nth_overflow by exact E. reflexivity. Qed.
Lemma used_is flux : filter (fun i => there (nth i flux [])) (seq 0 (length flux)) = Used flux.
Proof. unfold Used. apply filter_ext. intros i. apply there_is. Qed.
Lemma used_in flux i : In i (Used flux) -> i < length flux.
Proof. unfold Used. intros H. apply filter_In in H. destruct H as [H _]. apply in_seq in H. lia. Qed.
Lemma point_lt flux k : k < Count flux -> Point flux k < length flux.
Proof. intros H. apply used_in. apply nth_In. exact H. Qed.
Lemma used_points flux : Used flux = map (Point flux) (seq 0 (Count flux)).
Proof. apply list_seq0. Qed.
Lemma whole_is s : Forall (fun o => o <> None) s -> whole s = Ok (map Value s).
Proof. unfold whole. induction 1 as [|o s H F IH]; [reflexivity|]. cbn [mapM map]. destruct o as [x|]; [|contradiction]. cbn [bind]. rewrite IH. reflexivity. Qed.
Lemma get_nth {A} (d : A) i l : i < length l -> get i l = Ok (nth i l d).
Proof. intros H. unfold get. rewrite (nth_error_nth' l d H). reflexivity. Qed.
Lemma series_len nt flux k : Forall (fun s => length s = nt) flux -> k < Count flux -> length (Series flux k) = nt.
Proof. intros F K. unfold Series. rewrite map_length. rewrite Forall_forall in F. apply F. apply nth_In. apply point_lt. exact K. Qed.
Lemma flx_is flux : (forall k, k < Count flux -> Forall (fun o => o <> None) (nth (Point flux k) flux [])) ->
  mapM (fun i => s <- get i flux ;; whole s) (Used flux) = Ok (map (Series flux) (seq 0 (Count flux))).
Proof.
  intros H. rewrite used_points. rewrite mapM_map. apply mapM_ok_seq. intros k K. rewrite (get_nth [] _ _ (point_lt flux k K)). cbn [bind]. apply whole_is. apply H. exact K.
Qed.
Lemma passed_is nt flux filt1 filt2 : Forall (fun s => length s = nt) flux -> length filt1 <= Count flux -> length filt1 <= length filt2 ->
  Forall (fun f => 0 < length f <= nt) filt1 -> Forall (fun f => 0 < length f <= nt) filt2 ->
  filtered (map (Series flux) (seq 0 (Count flux))) filt1 filt2 = Ok (map (fun k => map (Passed flux filt1 filt2 k) (seq 0 nt)) (seq 0 (Count flux))).
Proof.
  intros F L1 L2 F1 F2. unfold filtered.
  rewrite (mapM_ok_seq _ (fun k => map (Passed flux filt1 filt2 k) (seq 0 nt))).
  - cbn [bind]. f_equal. replace (Count flux) with (length filt1 + (Count flux - length filt1)) by lia. rewrite seq_app, !map_app. f_equal. rewrite skipn_app, skipn_all2, map_length, seq_length, Nat.sub_diag by (rewrite map_length, seq_length; lia). cbn [skipn app Nat.add]. apply map_ext_in. intros k K. apply in_seq in K.
    unfold Passed. destruct (Nat.ltb_spec k (length filt1)); [lia|]. rewrite <- (series_len nt flux k F) by lia. apply list_seq.
  - intros k K. rewrite (get_nth []) by (rewrite map_length, seq_length; lia). rewrite nth_seq_map by lia. cbn [bind]. rewrite (get_nth []) by lia. cbn [bind]. rewrite (get_nth []) by lia.
    rewrite Forall_forall in F1, F2. rewrite band_is; rewrite (series_len nt) by (assumption || lia).
    + f_equal. apply map_ext. intros t. unfold Passed. destruct (Nat.ltb_spec k (length filt1)); [reflexivity|lia].
    + apply F1. apply nth_In. lia.
    + apply F2. apply nth_In. lia.
Qed.
Lemma un_is flux patterns : Forall (fun p => length p = length flux /\ forall k, k < Count flux -> nth (Point flux k) p None <> None) patterns ->
  mapM (fun row => mapM (fun i => o <- get i row ;; match o with Some x => Ok x | None => Err NotModelled end) (Used flux)) patterns =
  Ok (map (fun row => map (fun k => Value (nth (Point flux k) row None)) (seq 0 (Count flux))) patterns).
Proof.
  induction 1 as [|row rows [L H] F IH]; [reflexivity|]. cbn [mapM map]. rewrite IH. rewrite used_points at 1. rewrite mapM_map. rewrite (mapM_ok_seq _ (fun k => Value (nth (Point flux k) row None))).
  - reflexivity.
  - intros k K. rewrite (get_nth None) by (rewrite L; apply point_lt; exact K). cbn [bind]. pose proof (H k K) as N. destruct (nth (Point flux k) row None); [reflexivity|contradiction].
Qed.
Lemma project_is nt flux patterns filt1 filt2 j :
  project nt (map (fun k => map (Passed flux filt1 filt2 k) (seq 0 nt)) (seq 0 (Count flux))) (map (fun k => Value (nth (Point flux k) (nth j patterns []) None)) (seq 0 (Count flux))) =
  map (Coefficient flux patterns filt1 filt2 j) (seq 0 nt).
Proof.
  unfold project. apply map_ext_in. intros t T. apply in_seq in T. rewrite combine_seq, map_map, map_length, seq_length. unfold Coefficient. rewrite rsum_seq. f_equal. apply sb_ext. intros k K. cbn [fst snd]. rewrite nth_seq_map by lia. reflexivity.
Qed.
Lemma std_is nt flux patterns filt1 filt2 j : std1 (map (Coefficient flux patterns filt1 filt2 j) (seq 0 nt)) = Deviation nt flux patterns filt1 filt2 j.
Proof.
  unfold std1, Deviation, Mean. rewrite map_length, seq_length, !rsum_seq, map_map, rsum_seq. f_equal. f_equal. apply sb_ext. intros t T. ring.
Qed.
Lemma share_is nt flux patterns filt1 filt2 k j :
  share (map (Passed flux filt1 filt2 k) (seq 0 nt)) (map (Coefficient flux patterns filt1 filt2 j) (seq 0 nt)) =
  map (fun t => SumBelow nt (fun s => Passed flux filt1 filt2 k s * Coefficient flux patterns filt1 filt2 j s) / Deviation nt flux patterns filt1 filt2 j * Coefficient flux patterns filt1 filt2 j t)%R (seq 0 nt).
Proof.
  unfold share. rewrite map_map. apply map_ext. intros t. rewrite std_is. unfold dot. rewrite combine_seq, map_map, rsum_seq. reflexivity.
Qed.

(** ** The points in place *)
Definition used_from (a : nat) (ps : list (list (option R))) : list nat := filter (fun i => there (nth (i - a) ps [])) (seq a (length ps)).
Lemma used_cons a s ps : used_from a (s :: ps) = (if there s then [a] else []) ++ used_from (S a) ps.
Proof.
  unfold used_from. cbn [length seq filter]. rewrite Nat.sub_diag. change (nth 0 (s :: ps) []) with s. replace (filter (fun i => there (nth (i - a) (s :: ps) [])) (seq (S a) (length ps))) with (filter (fun i => there (nth (i - S a) ps [])) (seq (S a) (length ps))); [destruct (there s); reflexivity|].
  apply filter_ext_in. intros i I. apply in_seq in I. replace (i - a) with (S (i - S a)) by lia. reflexivity.
Qed.
Lemma used_ge a ps i : In i (used_from a ps) -> a <= i.
Proof. unfold used_from. intros H. apply filter_In in H. destruct H as [H _]. apply in_seq in H. lia. Qed.
Lemma fill_used ps : forall a new, length new = length (used_from a ps) ->
  length (fill ps new) = length ps /\
  (forall k, k < length new -> nth (nth k (used_from a ps) 0 - a) (fill ps new) [] = map Some (nth k new [])) /\
  (forall i, ~ In (i + a) (used_from a ps) -> nth i (fill ps new) [] = nth i ps []).
Proof.
  induction ps as [|s ps IH]; intros a new L.
  - cbn in L. destruct new; [|discriminate L]. split; [reflexivity|]. split; [intros k K; cbn in K; lia|]. intros i _. reflexivity.
  - rewrite used_cons in *. cbn [fill]. destruct (there s) eqn:TH.
    + destruct new as [|n new]; [cbn in L; discriminate L|]. cbn [app length] in L. destruct (IH (S a) new ltac:(lia)) as (A & B & D). split; [cbn; congruence|]. split.
      * intros [|k] K; [cbn [app nth]; rewrite Nat.sub_diag; reflexivity|]. cbn [app nth]. cbn [length] in K. assert (I : In (nth k (used_from (S a) ps) 0) (used_from (S a) ps)) by (apply nth_In; lia). apply used_ge in I. replace (nth k (used_from (S a) ps) 0 - a) with (S (nth k (used_from (S a) ps) 0 - S a)) by lia. cbn [nth]. apply B. lia.
      * intros [|i] N; [exfalso; apply N; left; reflexivity|]. cbn [nth]. apply D. intros I. apply N. right. replace (S i + a) with (i + S a) by lia. exact I.
    + cbn [app] in *. destruct (IH (S a) new L) as (A & B & D). split; [cbn; congruence|]. split.
      * intros k K. assert (I : In (nth k (used_from (S a) ps) 0) (used_from (S a) ps)) by (apply nth_In; lia). apply used_ge in I. replace (nth k (used_from (S a) ps) 0 - a) with (S (nth k (used_from (S a) ps) 0 - S a)) by lia. cbn [nth]. apply B. exact K.
      * intros [|i] N; [reflexivity|]. cbn [nth]. apply D. intros I. apply N. replace (S i + a) with (i + S a) by lia. exact I.
Qed.
Lemma used_from_0 flux : used_from 0 flux = Used flux.
Proof. rewrite <- used_is. unfold used_from. apply filter_ext. intros i. rewrite Nat.sub_0_r. reflexivity. Qed.

Lemma four {A} (l : list A) (d : A) : 4 <= length l -> firstn 4 l = [nth 0 l d; nth 1 l d; nth 2 l d; nth 3 l d].
Proof. destruct l as [|a [|b [|c [|e l]]]]; cbn; intros; try lia. reflexivity. Qed.

(** ** Factors *)
Section Factor.
Variables (c : R) (nt : nat) (flux patterns : list (list (option R))) (filt1 filt2 : list (list R)).
Hypothesis NZ : c <> 0%R.
Lemma scaled_nth i : nth i (Scaled c flux) [] = map (option_map (Rmult c)) (nth i flux []).
Proof. unfold Scaled. rewrite <- (map_nth (map (option_map (Rmult c)))). reflexivity. Qed.
Lemma scaled_used : Used (Scaled c flux) = Used flux.
Proof.
  unfold Used. unfold Scaled at 2. rewrite map_length. apply filter_ext. intros i. rewrite scaled_nth. change (@None R) with (option_map (Rmult c) None) at 1. rewrite map_nth. destruct (nth 10 (nth i flux []) None); reflexivity.
Qed.
Lemma scaled_count : Count (Scaled c flux) = Count flux.
Proof. unfold Count. rewrite scaled_used. reflexivity. Qed.
Lemma scaled_point k : Point (Scaled c flux) k = Point flux k.
Proof. unfold Point. rewrite scaled_used. reflexivity. Qed.
Lemma scaled_series k : Series (Scaled c flux) k = map (Rmult c) (Series flux k).
Proof. unfold Series. rewrite scaled_point, scaled_nth, !map_map. apply map_ext. intros [x|]; cbn; [reflexivity|ring]. Qed.
Lemma times_nth t (l : list R) : nth t (map (Rmult c) l) 0%R = (c * nth t l 0)%R.
Proof. rewrite <- (map_nth (Rmult c)). rewrite Rmult_0_r. reflexivity. Qed.
Lemma around_times s z : Around0 (map (Rmult c) s) z = (c * Around0 s z)%R.
Proof. unfold Around0. destruct (z <? 0)%Z; [ring|apply times_nth]. Qed.
Lemma smooth_times f s s' t : (forall z, s' z = (c * s z)%R) -> Smooth f s' t = (c * Smooth f s t)%R.
Proof. intros H. unfold Smooth. rewrite <- sb_scale. apply sb_ext. intros i I. rewrite H. ring. Qed.
Lemma band_times s f1 f2 t : BandPass (map (Rmult c) s) f1 f2 t = (c * BandPass s f1 f2 t)%R.
Proof.
  unfold BandPass. apply smooth_times. intros z. rewrite map_length. destruct (_ && _); [|ring]. rewrite around_times. rewrite (smooth_times f1 (Around0 s)) by (intros y; apply around_times). ring.
Qed.
Lemma passed_times k t : Passed (Scaled c flux) filt1 filt2 k t = (c * Passed flux filt1 filt2 k t)%R.
Proof. unfold Passed. rewrite scaled_series. destruct (_ <? _); [apply band_times|apply times_nth]. Qed.
Lemma coefficient_times j t : Coefficient (Scaled c flux) patterns filt1 filt2 j t = (c * Coefficient flux patterns filt1 filt2 j t)%R.
Proof.
  unfold Coefficient. rewrite scaled_count. unfold Rdiv. rewrite <- Rmult_assoc. f_equal. rewrite <- sb_scale. apply sb_ext. intros k K. rewrite scaled_point, passed_times. ring.
Qed.
Lemma deviation_times j : Deviation nt (Scaled c flux) patterns filt1 filt2 j = (Rabs c * Deviation nt flux patterns filt1 filt2 j)%R.
Proof.
  unfold Deviation. rewrite <- (sqrt_Rsqr_abs c). rewrite <- sqrt_mult_alt by apply Rle_0_sqr. f_equal. unfold Rdiv. rewrite <- Rmult_assoc. f_equal. rewrite <- sb_scale. apply sb_ext. intros t T. rewrite coefficient_times.
  replace (Mean nt (Coefficient (Scaled c flux) patterns filt1 filt2 j)) with (c * Mean nt (Coefficient flux patterns filt1 filt2 j))%R; [unfold Rsqr; ring|].
  unfold Mean, Rdiv. rewrite <- Rmult_assoc. f_equal. rewrite <- sb_scale. apply sb_ext. intros s _. symmetry. apply coefficient_times.
Qed.
Lemma stress_times k t : (forall j, j < 4 -> Deviation nt flux patterns filt1 filt2 j <> 0%R) -> Stress nt (Scaled c flux) patterns filt1 filt2 k t = (c * Rabs c * Stress nt flux patterns filt1 filt2 k t)%R.
Proof.
  intros D. unfold Stress. rewrite <- sb_scale. apply sb_ext. intros j J. rewrite deviation_times, coefficient_times.
  replace (SumBelow nt (fun s => Passed (Scaled c flux) filt1 filt2 k s * Coefficient (Scaled c flux) patterns filt1 filt2 j s))%R with (Rabs c * Rabs c * SumBelow nt (fun s => Passed flux filt1 filt2 k s * Coefficient flux patterns filt1 filt2 j s))%R.
  - field. split; [apply D; exact J|apply Rabs_no_R0; exact NZ].
  - rewrite <- sb_scale. apply sb_ext. intros s _. rewrite passed_times, coefficient_times. rewrite <- Rabs_mult, Rabs_right by (apply Rle_ge; apply Rle_0_sqr). ring.
Qed.
Lemma scaled_proper : Proper nt flux patterns filt1 filt2 -> Proper nt (Scaled c flux) patterns filt1 filt2.
Proof.
  intros (T & F & W & C2 & L1 & L2 & F1 & F2 & P4 & PP). unfold Proper. rewrite scaled_count. repeat match goal with |- _ /\ _ => split; [assumption || idtac|] end; try assumption.
  - unfold Scaled. apply Forall_map. revert F. apply TropicsProofs.forall_impl. intros s L. rewrite map_length. exact L.
  - intros k K. rewrite scaled_point, scaled_nth. apply Forall_map. generalize (W k K). apply TropicsProofs.forall_impl. intros [x|] N; [discriminate|contradiction].
  - revert PP. apply TropicsProofs.forall_impl. intros p [A B]. split; [unfold Scaled; rewrite map_length; exact A|]. intros k K. rewrite scaled_point. apply B. exact K.
Qed.
End Factor.

(** A case. *)
Definition pulse : list (option R) := Some 1%R :: repeat (Some 0%R) 10.
Definition pulses : list (list (option R)) := [pulse; pulse].
Definition equal_patterns : list (list (option R)) := repeat [Some 1%R; Some 1%R] 4.
Lemma pulse_coefficient j t : j < 4 -> t < 11 -> Coefficient pulses equal_patterns [] [] j t = if t =? 0 then 1%R else 0%R.
Proof.
  intros J T. assert (P : nth j equal_patterns [] = [Some 1%R; Some 1%R]) by (do 4 (destruct j as [|j]; [reflexivity|]); lia).
  unfold Coefficient. rewrite P. change (Count pulses) with 2. unfold SumBelow. cbn [map seq fold_right]. change (Point pulses 0) with 0. change (Point pulses 1) with 1. change (INR 2) with (1 + 1)%R. unfold Passed. cbn [Nat.ltb Nat.leb length].
  change (Series pulses 0) with (1%R :: repeat 0%R 10). change (Series pulses 1) with (1%R :: repeat 0%R 10). cbn [nth Value].
  destruct t as [|t]; [cbn [nth Nat.eqb]; field; lra|]. cbn [nth Nat.eqb]. rewrite nth_repeat. field.
Qed.

(** The statements of PropertiesTau.v. *)
Lemma C104_filter_proof : forall s f1 f2, 0 < length f1 <= length s -> 0 < length f2 <= length s ->
  band_pass s f1 (Ok f2) = Ok (map (BandPass s f1 f2) (seq 0 (length s))).
Proof.
  exact band_is.
Qed.

Lemma C104_filter_case_proof : BandPass [1; 5; 1]%R [0; 1 / 2; 0]%R [2]%R 1 = 5%R.
Proof.
  unfold BandPass, Smooth, SumBelow, Around0. cbn. change (Pos.to_nat 1) with 1. change (Pos.to_nat 2) with 2. lra.
Qed.

Lemma C104_constant_proof : forall n c f1 f2 t, 0 < length f1 <= n -> 0 < length f2 <= n -> fold_right Rplus 0%R f1 = 1%R ->
  length f1 + length f2 <= t -> t + length f1 + length f2 <= n -> BandPass (repeat c n) f1 f2 t = 0%R.
Proof.
  intros n c f1 f2 t H1 H2 S1 T1 T2. unfold BandPass. unfold Smooth at 1. apply sb_zero. intros i I. rewrite repeat_length.
  assert (D : (length f2 - 1) / 2 <= length f2 - 1) by (apply Nat.div_le_upper_bound; lia). assert (D1 : (length f1 - 1) / 2 <= length f1 - 1) by (apply Nat.div_le_upper_bound; lia).
  set (z := (Z.of_nat t + Z.of_nat ((length f2 - 1) / 2) - Z.of_nat i)%Z). destruct (Z.leb_spec 0 z) as [Z1|Z1]; [|unfold z in Z1; lia]. destruct (Z.ltb_spec z (Z.of_nat n)) as [Z2|Z2]; [|unfold z in Z2; lia]. cbn [andb].
  assert (A : forall y, (0 <= y < Z.of_nat n)%Z -> Around0 (repeat c n) y = c). { intros y Y. unfold Around0. destruct (Z.ltb_spec y 0); [lia|]. apply nth_error_nth. apply nth_error_repeat. lia. }
  rewrite (A z) by lia. replace (Smooth f1 (Around0 (repeat c n)) z) with c; [ring|]. unfold Smooth. transitivity (SumBelow (length f1) (fun j => c * nth j f1 0))%R; [rewrite sb_scale, <- sb_list, S1; ring|]. apply sb_ext. intros j J. rewrite A; [ring|]. unfold z. lia.
Qed.

Lemma C104_constant_case_proof : fold_right Rplus 0%R [1 / 4; 1 / 2; 1 / 4]%R = 1%R /\
  BandPass (repeat 4 9)%R [1 / 4; 1 / 2; 1 / 4]%R [1]%R 0 = 1%R.
Proof.
  split; [cbn; lra|]. unfold BandPass, Smooth, SumBelow, Around0. cbn. change (Pos.to_nat 1) with 1. change (Pos.to_nat 2) with 2. lra.
Qed.

Lemma C104_values_proof : forall nt flux patterns filt1 filt2, Proper nt flux patterns filt1 filt2 ->
  (forall j, j < 4 -> Deviation nt flux patterns filt1 filt2 j <> 0%R) ->
  exists out, calc_tau_MJO nt flux patterns filt1 filt2 = Ok out /\ length out = length flux /\
    (forall k, k < Count flux -> nth (Point flux k) out [] = map (fun t => Some (Stress nt flux patterns filt1 filt2 k t)) (seq 0 nt)) /\
    (forall i, ~ In i (Used flux) -> nth i out [] = nth i flux []).
Proof.
  intros nt flux patterns filt1 filt2 (T & F & W & C2 & L1 & L2 & F1 & F2 & P4 & PP) DV. unfold calc_tau_MJO. destruct (Nat.leb_spec nt 10); [lia|]. cbv zeta. rewrite used_is. rewrite (flx_is flux W). cbn [bind]. fold (Count flux). destruct (Nat.eqb_spec (Count flux) 1); [lia|].
  rewrite (passed_is nt flux filt1 filt2 F L1 L2 F1 F2). cbn [bind]. rewrite (un_is flux patterns PP). cbn [bind]. set (flxi := map (fun k => map (Passed flux filt1 filt2 k) (seq 0 nt)) (seq 0 (Count flux))).
  assert (LF : length flxi = Count flux) by (unfold flxi; rewrite map_length, seq_length; reflexivity). destruct flxi as [|f0 fr] eqn:EF; [cbn in LF; lia|]. rewrite <- EF in *. clear EF f0 fr.
  rewrite map_map, map_length. destruct (Nat.ltb_spec (length patterns) 4); [lia|]. rewrite firstn_map. rewrite (four patterns [] P4). cbn [map]. unfold flxi at 1 2 3 4. rewrite !project_is. cbn [existsb]. rewrite !std_is.
  repeat match goal with |- context [Req_EM_T (Deviation nt flux patterns filt1 filt2 ?j) 0] => destruct (Req_EM_T (Deviation nt flux patterns filt1 filt2 j) 0) as [X|_]; [exfalso; exact (DV j ltac:(lia) X)|] end. cbn [orb].
  eexists. split; [reflexivity|]. unfold flxi. rewrite !project_is, map_map.
  set (new := map _ (seq 0 (Count flux))). assert (LN : length new = length (used_from 0 flux)) by (unfold new; rewrite map_length, seq_length, used_from_0; reflexivity). destruct (fill_used flux 0 new LN) as (A & B & D). rewrite used_from_0 in *. split; [exact A|]. split.
  - intros k K. pose proof (B k ltac:(rewrite LN; exact K)) as E. rewrite Nat.sub_0_r in E. unfold Point. rewrite E. unfold new. rewrite nth_seq_map by exact K. cbn [fold_left]. rewrite !share_is. rewrite (list_seq (repeat 0%R nt)), repeat_length. rewrite !combine_seq, !map_map. repeat (rewrite combine_seq, map_map). apply map_ext_in. intros t TT. apply in_seq in TT. f_equal. cbn [fst snd]. rewrite nth_repeat. unfold Stress. unfold SumBelow at 5. cbn [map seq fold_right]. ring.
  - intros i N. apply D. rewrite Nat.add_0_r. exact N.
Qed.

Lemma C104_values_case_proof : exists flux patterns, Proper 11 flux patterns [] [] /\
  forall j, j < 4 -> Deviation 11 flux patterns [] [] j <> 0%R.
Proof.
  exists pulses, equal_patterns. split.
  - unfold Proper. change (Count pulses) with 2. cbn [length]. split; [lia|]. split; [repeat constructor|]. split.
    + intros k K. assert (E : nth (Point pulses k) pulses [] = pulse) by (do 2 (destruct k as [|k]; [reflexivity|]); lia). rewrite E. unfold pulse. repeat constructor; discriminate.
    + split; [lia|]. split; [lia|]. split; [lia|]. split; [constructor|]. split; [constructor|]. split; [cbn; lia|]. unfold equal_patterns. apply Forall_forall. intros p I. apply repeat_spec in I. subst p. split; [reflexivity|]. intros k K. do 2 (destruct k as [|k]; [cbn; discriminate|]). lia.
  - intros j J. unfold Deviation. apply Rgt_not_eq. apply sqrt_lt_R0. assert (M : Mean 11 (Coefficient pulses equal_patterns [] [] j) = (1 / 11)%R). { unfold Mean. rewrite (sb_ext 11 _ (fun t => if t =? 0 then 1 else 0)%R) by (intros t T; apply pulse_coefficient; assumption). unfold SumBelow. cbn [map seq fold_right Nat.eqb]. rewrite (INR_IZR_INZ 11). cbn. lra. }
    rewrite M. rewrite (sb_ext 11 _ (fun t => ((if t =? 0 then 1 else 0) - 1 / 11) ^ 2)%R) by (intros t T; rewrite pulse_coefficient by assumption; reflexivity). unfold SumBelow. cbn [map seq fold_right Nat.eqb]. rewrite (INR_IZR_INZ 11). cbn [Z.of_nat Pos.of_succ_nat Pos.succ]. lra.
Qed.

Lemma C104_linear_refuted_proof : forall nt flux patterns filt1 filt2 c, c <> 0%R -> Proper nt flux patterns filt1 filt2 ->
  (forall j, j < 4 -> Deviation nt flux patterns filt1 filt2 j <> 0%R) ->
  exists out out', calc_tau_MJO nt flux patterns filt1 filt2 = Ok out /\
    calc_tau_MJO nt (Scaled c flux) patterns filt1 filt2 = Ok out' /\
    forall i t x, In i (Used flux) -> nth_error (nth i out []) t = Some (Some x) ->
      nth_error (nth i out' []) t = Some (Some (c * Rabs c * x))%R.
Proof.
  intros nt flux patterns filt1 filt2 c NZ PR DV. destruct (C104_values_proof nt flux patterns filt1 filt2 PR DV) as (out & E & LO & U & _).
  assert (DV' : forall j, j < 4 -> Deviation nt (Scaled c flux) patterns filt1 filt2 j <> 0%R). { intros j J. rewrite deviation_times. apply Rmult_integral_contrapositive_currified; [apply Rabs_no_R0; exact NZ|apply DV; exact J]. }
  destruct (C104_values_proof nt (Scaled c flux) patterns filt1 filt2 (scaled_proper c nt flux patterns filt1 filt2 PR) DV') as (out' & E' & LO' & U' & _).
  exists out, out'. split; [exact E|]. split; [exact E'|]. intros i t x I X. destruct (In_nth _ _ 0 I) as (k & K & EK). fold (Count flux) in K. fold (Point flux k) in EK. rewrite <- EK in *. rewrite (U k K) in X. assert (TT : t < nt). { apply nth_error_Some_lt in X || (assert (N : nth_error (map (fun t : nat => Some (Stress nt flux patterns filt1 filt2 k t)) (seq 0 nt)) t <> None) by congruence; apply nth_error_Some in N; rewrite map_length, seq_length in N; exact N). }
  rewrite nth_map_seq in X by exact TT. assert (XE : x = Stress nt flux patterns filt1 filt2 k t) by congruence. rewrite <- (scaled_point c flux k). rewrite U' by (rewrite scaled_count; exact K). rewrite nth_map_seq by exact TT. rewrite (stress_times c nt flux patterns filt1 filt2 NZ k t DV), XE. reflexivity.
Qed.

Lemma C104_exceptions_proof : forall nt flux patterns filt1 filt2,
  let run := calc_tau_MJO nt flux patterns filt1 filt2 in
  (nt <= 10 -> run = Err IndexError) /\
  (10 < nt -> Forall (fun s => length s = nt) flux ->
   (forall k, k < Count flux -> Forall (fun o => o <> None) (nth (Point flux k) flux [])) ->
   (Count flux = 1 -> filt1 <> [] -> run = Err IndexError) /\
   (Count flux <> 1 ->
    (Count flux < length filt1 -> length filt1 <= length filt2 -> Forall (fun f => 0 < length f <= nt) filt1 ->
     Forall (fun f => 0 < length f <= nt) filt2 -> run = Err IndexError) /\
    (forall f rest, 0 < Count flux -> filt1 = f :: rest -> length f = 0 \/ nt < length f -> run = Err ValueError))) /\
  (Proper nt flux patterns filt1 filt2 -> calc_tau_MJO nt flux (firstn 3 patterns) filt1 filt2 = Err IndexError).
Proof.
  intros nt flux patterns filt1 filt2 run. split; [|split].
  - intros H. unfold run, calc_tau_MJO. destruct (Nat.leb_spec nt 10); [reflexivity|lia].
  - intros T F W. unfold run, calc_tau_MJO. destruct (Nat.leb_spec nt 10); [lia|]. cbv zeta. rewrite used_is, (flx_is flux W). cbn [bind]. fold (Count flux). split.
    + intros C1 NE. rewrite C1. cbn [Nat.eqb]. destruct filt1; [contradiction|reflexivity].
    + intros C1. destruct (Nat.eqb_spec (Count flux) 1); [contradiction|]. split.
      * intros L L2 F1 F2. unfold filtered. replace (length filt1) with (Count flux + (length filt1 - Count flux)) at 1 by lia. rewrite (mapM_fails _ IndexError (Count flux)); [reflexivity| | |].
        -- intros k K. apply in_seq in K. destruct (Nat.lt_ge_cases k (Count flux)) as [I|I].
           ++ left. rewrite (get_nth []) by (rewrite map_length, seq_length; lia). rewrite nth_seq_map by lia. cbn [bind]. rewrite (get_nth []) by lia. cbn [bind]. rewrite (get_nth []) by lia. rewrite Forall_forall in F1, F2. rewrite band_is; [eexists; reflexivity| |]; rewrite (series_len nt) by assumption; [apply F1|apply F2]; apply nth_In; lia.
           ++ right. unfold get at 1. replace (nth_error (map (Series flux) (seq 0 (Count flux))) k) with (@None (list R)); [reflexivity|]. symmetry. apply nth_error_None. rewrite map_length, seq_length. exact I.
        -- apply in_seq. lia.
        -- unfold get at 1. replace (nth_error (map (Series flux) (seq 0 (Count flux))) (Count flux)) with (@None (list R)); [reflexivity|]. symmetry. apply nth_error_None. rewrite map_length, seq_length. lia.
      * intros f rest CP -> B. unfold filtered. cbn [length seq mapM]. rewrite (get_nth []) by (rewrite map_length, seq_length; lia). rewrite nth_seq_map by lia. cbn [bind get nth_error]. unfold band_pass. pose proof (series_len nt flux 0 F CP) as SL. destruct (Series flux 0) as [|s0 s] eqn:ES; [cbn in SL; lia|]. unfold convolve_same. destruct f as [|f0 f]; [reflexivity|]. destruct B as [B|B]; [cbn in B; lia|]. destruct (Nat.ltb_spec (length (s0 :: s)) (length (f0 :: f))) as [X|X]; [|rewrite SL in X; lia]. cbn [bind]. rewrite map_length, seq_length. destruct (Nat.eqb_spec (length (f0 :: f)) (length (s0 :: s))) as [Y|Y]; [lia|reflexivity].
  - intros (T & F & W & C2 & L1 & L2 & F1 & F2 & P4 & PP). unfold calc_tau_MJO. destruct (Nat.leb_spec nt 10); [lia|]. cbv zeta. rewrite used_is, (flx_is flux W). cbn [bind]. fold (Count flux). destruct (Nat.eqb_spec (Count flux) 1); [lia|]. rewrite (passed_is nt flux filt1 filt2 F L1 L2 F1 F2). cbn [bind].
    assert (PP3 : Forall (fun p => length p = length flux /\ forall k, k < Count flux -> nth (Point flux k) p None <> None) (firstn 3 patterns)). { apply Forall_forall. intros p I. rewrite Forall_forall in PP. apply PP. rewrite <- (firstn_skipn 3 patterns). apply in_or_app. left. exact I. }
    rewrite (un_is flux _ PP3). cbn [bind]. destruct (Count flux) as [|m] eqn:EC; [lia|]. cbn [seq map]. rewrite map_length. rewrite !map_length, firstn_length. destruct (Nat.ltb_spec (Nat.min 3 (length patterns)) 4); [reflexivity|lia].
Qed.

