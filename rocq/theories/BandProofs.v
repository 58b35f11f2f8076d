(** Proofs about the filter of periods and the zonal mean of the variance. *)
From Coq Require Import Reals Qreals QArith String.
From Verif Require Import PyBase ColumnModel BlockModel TropicsModel SpectraModel SpectraSpec WavesModel WavesSpec BlockProofs TropicsProofs WavesProofs SpectraProofs KfProofs MjoModel MjoSpec MjoProofs RmmProofs BandModel BandSpec.
From Coq Require Import List Lia Lqa Lra.
Import ListNotations.
Open Scope nat_scope.
Open Scope list_scope.

(** ** The packed transform *)
Lemma tot_seq_shift (g : nat -> R) a n : Total (map g (seq (S a) n)) = Total (map (fun i => g (S i)) (seq a n)).
Proof. rewrite <- seq_shift, map_map. reflexivity. Qed.
Lemma odd_pairs (g : nat -> R) h : 0 < h -> Total (map g (seq 0 (2 * h))) = (g 0%nat + Total (map (fun m => g (2 * m - 1)%nat + g (2 * m)%nat)%R (seq 1 (h - 1))) + g (2 * h - 1)%nat)%R.
Proof.
  intros H. destruct h as [|h]; [lia|]. clear H. replace (S h - 1) with h by lia. induction h as [|h IH]; [cbn; ring|]. replace (2 * S (S h)) with (S (S (2 * S h))) by lia. rewrite !tot_snoc, IH. rewrite !tot_seq_shift, tot_snoc. replace (2 * S h - 1) with (2 * h + 1) by lia. replace (S (S (2 * S h)) - 1) with (S (2 * S h)) by lia. replace (2 * S h - 1) with (2 * h + 1) by lia. ring.
Qed.
Lemma odd_pairs_at (g : nat -> R) n h : n = 2 * h -> 0 < h -> Total (map g (seq 0 n)) = (g 0%nat + Total (map (fun m => g (2 * m - 1)%nat + g (2 * m)%nat)%R (seq 1 (h - 1))) + g (2 * h - 1)%nat)%R.
Proof. intros ->. apply odd_pairs. Qed.
Lemma with_places (x : list R) n : length x = n -> combine (seq 0 n) x = map (fun s => (s, nth s x 0%R)) (seq 0 n).
Proof. intros <-. rewrite (list_seq x) at 2. apply combine_seq'. Qed.
Lemma dropped_zero n d a b : dropped n d a b 0 = true.
Proof. unfold dropped, period, fft_index. destruct (Nat.ltb_spec (2 * 0) n) as [H|H]; [reflexivity|]. assert (n = 0) by lia. subst n. reflexivity. Qed.
Lemma neg_period n d a b k : (0 < d)%Q -> (0 < a)%Q -> k < n -> n <= 2 * k -> dropped n d a b k = true.
Proof.
  intros D A K H. unfold dropped, period, fft_index. destruct (Nat.ltb_spec (2 * k) n) as [X|X]; [lia|]. destruct (Z.eqb_spec (Z.of_nat k - Z.of_nat n) 0) as [Z|Z]; [reflexivity|]. apply orb_true_iff. left. apply ltb_lt. apply Qlt_trans with 0%Q; [|exact A].
  assert (N : (0 < inject_Z (Z.of_nat n) * d)%Q). { setoid_replace 0%Q with (inject_Z (Z.of_nat n) * 0)%Q by ring. apply Qmult_lt_l; [change 0%Q with (inject_Z 0); rewrite <- Zlt_Qlt; lia|exact D]. }
  assert (M : (0 < inject_Z (Z.of_nat n - Z.of_nat k))%Q) by (change 0%Q with (inject_Z 0); rewrite <- Zlt_Qlt; lia).
  setoid_replace (inject_Z (Z.of_nat n) * d / inject_Z (Z.of_nat k - Z.of_nat n))%Q with (- (inject_Z (Z.of_nat n) * d / inject_Z (Z.of_nat n - Z.of_nat k)))%Q.
  - assert (P := qdiv_pos _ _ N M). Lqa.lra.
  - replace (Z.of_nat k - Z.of_nat n)%Z with (- (Z.of_nat n - Z.of_nat k))%Z by lia. rewrite inject_Z_opp. field. Lqa.lra.
Qed.
Lemma dropped_is n d a b k : (0 < d)%Q -> (0 < a)%Q -> 0 < k < n -> dropped n d a b k = negb (WithinPeriods n d a b k).
Proof.
  intros D A K. unfold WithinPeriods. destruct (Nat.ltb_spec (2 * k) n) as [H|H]; [|cbn [andb negb]; apply neg_period; assumption || lia]. unfold dropped, period, fft_index. destruct (Nat.ltb_spec (2 * k) n) as [X|X]; [|lia]. destruct (Z.eqb_spec (Z.of_nat k) 0) as [Z|Z]; [lia|]. cbn [andb]. rewrite negb_andb. unfold Qlt_bool. f_equal; f_equal.
Qed.
Lemma pass_is n h x d a b : n = 2 * h -> 0 < h -> length x = n -> (0 < d)%Q -> (0 < a)%Q ->
  pass_periods d a b x = map (Chosen n (fun m => WithinPeriods n d a b (2 * m - 1)) (fun m => WithinPeriods n d a b (2 * m)) (fun s => nth s x 0%R)) (seq 0 n).
Proof.
  intros N H L D A. unfold pass_periods, rfft_packed, irfft_packed. rewrite L. rewrite combine_seq', map_map. cbn [fst snd]. rewrite map_length, seq_length. rewrite combine_seq'. apply map_ext_in. intros t T. rewrite map_map. cbn [fst snd]. change rsum with Total. change turn with Turn. apply in_seq in T. assert (IN : INR n <> 0%R) by (apply not_0_INR; lia).
  unfold Chosen. rewrite (odd_pairs_at _ n h N H). rewrite dropped_zero. rewrite (neg_period n d a b (2 * h - 1)) by (assumption || lia). rewrite !Rmult_0_l, Rplus_0_l, Rplus_0_r.
  replace (n / 2) with h by (rewrite N, Nat.mul_comm, Nat.div_mul by lia; reflexivity). unfold Rdiv. rewrite Rmult_comm, <- tot_scale. apply tot_ext. intros m I. apply in_seq in I. rewrite !dropped_is by (assumption || lia).
  destruct (Nat.eqb_spec (2 * m - 1) 0) as [Z|Z]; [lia|]. destruct (Nat.eqb_spec (2 * m) 0) as [Z'|Z']; [lia|].
  replace (Nat.odd (2 * m - 1)) with true by (symmetry; apply Nat.odd_spec; exists (m - 1); lia). replace (Nat.odd (2 * m)) with false by (symmetry; rewrite Nat.odd_mul; reflexivity).
  replace ((2 * m - 1 + 1) / 2) with m by (replace (2 * m - 1 + 1) with (m * 2) by lia; rewrite Nat.div_mul by lia; reflexivity). replace (2 * m / 2) with m by (rewrite Nat.mul_comm, Nat.div_mul by lia; reflexivity).
  unfold basis. destruct (Nat.eqb_spec (2 * m - 1) 0) as [Z2|Z2]; [lia|]. destruct (Nat.eqb_spec (2 * m) 0) as [Z3|Z3]; [lia|].
  replace (Nat.odd (2 * m - 1)) with true by (symmetry; apply Nat.odd_spec; exists (m - 1); lia). replace (Nat.odd (2 * m)) with false by (symmetry; rewrite Nat.odd_mul; reflexivity). cbv zeta.
  replace ((2 * m - 1 + 1) / 2) with m by (replace (2 * m - 1 + 1) with (m * 2) by lia; rewrite Nat.div_mul by lia; reflexivity). replace (2 * m / 2) with m by (rewrite Nat.mul_comm, Nat.div_mul by lia; reflexivity).
  destruct (Nat.eqb_spec (2 * m) n) as [Z4|Z4]; [lia|]. change turn with Turn. rewrite !(with_places x n L), !map_map. cbn [fst snd]. unfold CosSum, SinSum. destruct (WithinPeriods n d a b (2 * m - 1)), (WithinPeriods n d a b (2 * m)); cbn [negb]; field; exact IN.
Qed.

(** ** One wave *)
Lemma tot_two {A} (f g : A -> R) c l : Total (map (fun s => c * (f s + g s))%R l) = (c * (Total (map f l) + Total (map g l)))%R.
Proof. rewrite tot_scale, tot_plus. reflexivity. Qed.
Lemma wave_cos n j m amp phi : 0 < j -> 2 * j < n -> 0 < m -> 2 * m < n ->
  CosSum n (fun s => amp * cos (Turn n j s + phi))%R m = (if m =? j then amp * cos phi * INR n / 2 else 0)%R.
Proof.
  intros J1 J2 M1 M2. assert (NP : 0 < n) by lia. unfold CosSum. rewrite (tot_ext _ (fun s => amp / 2 * (cos (Turn n (j + m) s + phi) + cos (Turn n j s - Turn n m s + phi)))%R).
  - rewrite tot_two. rewrite tot_cos by lia. destruct (Nat.eqb_spec m j) as [->|NE].
    + rewrite (tot_ext _ (fun _ => cos phi)) by (intros s _; f_equal; ring). rewrite tot_const. field.
    + destruct (Nat.lt_ge_cases m j) as [LT|GE].
      * rewrite (tot_ext _ (fun s => cos (Turn n (j - m) s + phi))%R) by (intros s _; rewrite turn_diff by lia; reflexivity). rewrite tot_cos by lia. ring.
      * rewrite (tot_ext _ (fun s => cos (Turn n (m - j) s + - phi))%R). { rewrite tot_cos by lia. ring. } intros s _. rewrite <- turn_diff by lia. rewrite <- cos_neg. f_equal. ring.
  - intros s _. rewrite <- turn_sum by exact NP. set (x := Turn n j s). set (y := Turn n m s). replace (x + y + phi)%R with (x + phi + y)%R by ring. replace (x - y + phi)%R with (x + phi - y)%R by ring. rewrite (cos_plus (x + phi) y), (cos_minus (x + phi) y). field.
Qed.
Lemma wave_sin n j m amp phi : 0 < j -> 2 * j < n -> 0 < m -> 2 * m < n ->
  SinSum n (fun s => amp * cos (Turn n j s + phi))%R m = (if m =? j then - (amp * sin phi * INR n / 2) else 0)%R.
Proof.
  intros J1 J2 M1 M2. assert (NP : 0 < n) by lia. unfold SinSum. assert (SC : forall x, sin x = cos (x + - (PI / 2))%R). { intros x. rewrite <- (cos_neg (x + - (PI / 2))%R). replace (- (x + - (PI / 2)))%R with (PI / 2 - x)%R by ring. symmetry. apply cos_shift. }
  rewrite (tot_ext _ (fun s => amp / 2 * (cos (Turn n (j + m) s + (phi - PI / 2)) + - cos (Turn n j s - Turn n m s + (phi - PI / 2))))%R).
  - rewrite tot_two. rewrite tot_cos by lia. rewrite (tot_ext (fun s => - cos (Turn n j s - Turn n m s + (phi - PI / 2)))%R (fun s => (-1) * cos (Turn n j s - Turn n m s + (phi - PI / 2)))%R) by (intros; ring). rewrite tot_scale. destruct (Nat.eqb_spec m j) as [->|NE].
    + rewrite (tot_ext _ (fun _ => sin phi)). { rewrite tot_const. field. } intros s _. rewrite SC. f_equal. ring.
    + destruct (Nat.lt_ge_cases m j) as [LT|GE].
      * rewrite (tot_ext _ (fun s => cos (Turn n (j - m) s + (phi - PI / 2)))%R) by (intros s _; rewrite turn_diff by lia; reflexivity). rewrite tot_cos by lia. ring.
      * rewrite (tot_ext _ (fun s => cos (Turn n (m - j) s + - (phi - PI / 2)))%R). { rewrite tot_cos by lia. ring. } intros s _. rewrite <- turn_diff by lia. rewrite <- cos_neg. f_equal. ring.
  - intros s _. rewrite <- turn_sum by exact NP. set (x := Turn n j s). set (y := Turn n m s). rewrite (SC y). replace (x + y + (phi - PI / 2))%R with (x + phi + (y + - (PI / 2)))%R by (unfold Rdiv; ring). replace (cos (x - y + (phi - PI / 2)))%R with (- cos (x + phi - (y + - (PI / 2))))%R.
    + rewrite (cos_plus (x + phi) (y + - (PI / 2))), (cos_minus (x + phi) (y + - (PI / 2))). field.
    + replace (x + phi - (y + - (PI / 2)))%R with (x - y + (phi - PI / 2) + PI)%R by field. rewrite neg_cos. ring.
Qed.
Lemma tot_pick (g : nat -> R) j l : NoDup l -> In j l -> Total (map (fun m => if m =? j then g m else 0%R) l) = g j.
Proof.
  induction l as [|x l IH]; intros N I; [destruct I|]. inversion N as [|? ? NI N']; subst. unfold Total. cbn [map fold_right]. fold (Total (map (fun m => if m =? j then g m else 0%R) l)). destruct (Nat.eqb_spec x j) as [->|NE].
  - rewrite (tot_zero _ l). { ring. } intros m M. destruct (Nat.eqb_spec m j) as [->|_]; [contradiction|reflexivity].
  - destruct I as [I|I]; [contradiction|]. rewrite (IH N' I). ring.
Qed.
Lemma chosen_ext n kc ks v v' t : (forall s, s < n -> v s = v' s) -> Chosen n kc ks v t = Chosen n kc ks v' t.
Proof.
  intros H. unfold Chosen. apply tot_ext. intros m _. unfold CosSum, SinSum. rewrite (tot_ext (fun s => v s * cos (Turn n m s))%R (fun s => v' s * cos (Turn n m s))%R), (tot_ext (fun s => v s * sin (Turn n m s))%R (fun s => v' s * sin (Turn n m s))%R); [reflexivity| |]; intros s I; apply in_seq in I; rewrite H by lia; reflexivity.
Qed.
Lemma chosen_wave n h j kc ks amp phi t : n = 2 * h -> 0 < j < h ->
  Chosen n kc ks (fun s => amp * cos (Turn n j s + phi))%R t = ((if kc j then amp * cos phi * cos (Turn n j t) else 0) - (if ks j then amp * sin phi * sin (Turn n j t) else 0))%R.
Proof.
  intros N J. unfold Chosen. assert (IN : INR n <> 0%R) by (apply not_0_INR; lia). replace (n / 2) with h by (rewrite N, Nat.mul_comm, Nat.div_mul by lia; reflexivity).
  rewrite (tot_ext _ (fun m => if m =? j then (if kc m then amp * cos phi * cos (Turn n m t) else 0) - (if ks m then amp * sin phi * sin (Turn n m t) else 0) else 0)%R).
  - apply (tot_pick (fun m => (if kc m then amp * cos phi * cos (Turn n m t) else 0) - (if ks m then amp * sin phi * sin (Turn n m t) else 0))%R); [apply seq_NoDup|apply in_seq; lia].
  - intros m I. apply in_seq in I. rewrite wave_cos, wave_sin by lia. destruct (Nat.eqb_spec m j) as [->|NE]; [|destruct (kc m), (ks m); ring]. destruct (kc j), (ks j); field; exact IN.
Qed.

(** ** One series *)
Lemma trunc_is q w : (inject_Z (Z.of_nat w) <= q)%Q -> (q < inject_Z (Z.of_nat w + 1))%Q -> trunc q = Z.of_nat w.
Proof.
  intros L H. assert (P : (0 <= q)%Q) by (apply Qle_trans with (inject_Z (Z.of_nat w)); [change 0%Q with (inject_Z 0); rewrite <- Zle_Qle; lia|exact L]). rewrite trunc_floor by exact P. pose proof (Qfloor_le q) as F1. pose proof (Qlt_floor q) as F2.
  assert (A : (inject_Z (Z.of_nat w) < inject_Z (Qfloor q + 1))%Q) by (apply Qle_lt_trans with q; assumption). assert (B : (inject_Z (Qfloor q) < inject_Z (Z.of_nat w + 1))%Q) by (apply Qle_lt_trans with q; assumption). rewrite <- Zlt_Qlt in A, B. lia.
Qed.
Lemma full_even : exists h, full_length = 2 * h /\ 0 < h. Proof. exists (Z.to_nat 65536). unfold full_length. lia. Qed.
Lemma padded orig_nt n z w : orig_nt <= n -> length z = orig_nt -> w <= n ->
  exists v, taper_vector_to_zero (z ++ repeat 0%R (n - orig_nt)) w = Ok v /\ length v = n /\ forall t, t < n -> nth t v 0%R = (nth t z 0 * BothEnds RiseFromZero n w t)%R.
Proof.
  intros O L W. assert (LEN : length (z ++ repeat 0%R (n - orig_nt)) = n) by (rewrite app_length, repeat_length; lia). destruct (taper_spec (z ++ repeat 0%R (n - orig_nt)) w ltac:(rewrite LEN; exact W)) as (v & E & LV & H). rewrite LEN in *. exists v. split; [exact E|]. split; [exact LV|]. intros t T. apply nth_error_nth. apply H. apply (filled_nth _ _ _ orig_nt); [exact L|lia].
Qed.
Lemma pass_times d a b c x : pass_periods d a b (map (Rmult c) x) = map (Rmult c) (pass_periods d a b x).
Proof.
  unfold pass_periods. rewrite map_length. set (n := length x).
  assert (RP : rfft_packed (map (Rmult c) x) = map (Rmult c) (rfft_packed x)).
  { unfold rfft_packed. rewrite map_length. fold n. rewrite map_map. apply map_ext. intros k. assert (CS : forall f : nat -> R, rsum (map (fun p => snd p * f (fst p))%R (combine (seq 0 n) (map (Rmult c) x))) = (c * rsum (map (fun p => snd p * f (fst p))%R (combine (seq 0 n) x)))%R). { intros f. change rsum with Total. rewrite (with_places x n eq_refl), (with_places (map (Rmult c) x) n) by apply map_length. rewrite !map_map. cbn [fst snd]. rewrite <- tot_scale. apply tot_ext. intros s _. replace (nth s (map (Rmult c) x) 0%R) with (c * nth s x 0)%R; [ring|]. symmetry. replace 0%R with (c * 0)%R at 1 by ring. apply map_nth. }
    rewrite (CS (fun s => cos (turn n ((k + 1) / 2) s))), (CS (fun s => sin (turn n (k / 2) s))). destruct (k =? 0). { change rsum with Total. rewrite <- (map_id x) at 2. rewrite <- tot_scale. reflexivity. } destruct (Nat.odd k); ring. }
  rewrite RP. set (y := rfft_packed x). assert (LY : length y = n) by (unfold y, rfft_packed; rewrite map_length, seq_length; reflexivity).
  assert (MK : map (fun p => if dropped n d a b (fst p) then 0%R else snd p) (combine (seq 0 n) (map (Rmult c) y)) = map (Rmult c) (map (fun p => if dropped n d a b (fst p) then 0%R else snd p) (combine (seq 0 n) y))).
  { rewrite (with_places y n LY), (with_places (map (Rmult c) y) n) by (rewrite map_length; exact LY). rewrite !map_map. cbn [fst snd]. apply map_ext. intros s. replace (nth s (map (Rmult c) y) 0%R) with (c * nth s y 0)%R; [destruct (dropped n d a b s); ring|]. symmetry. replace 0%R with (c * 0)%R at 1 by ring. apply map_nth. }
  rewrite MK. set (z := map _ (combine (seq 0 n) y)). unfold irfft_packed. rewrite map_length. set (l := length z). rewrite map_map. apply map_ext. intros t. change rsum with Total. rewrite (with_places z l eq_refl), (with_places (map (Rmult c) z) l) by apply map_length. rewrite !map_map. cbn [fst snd]. unfold Rdiv. rewrite <- Rmult_assoc. f_equal. rewrite <- tot_scale. apply tot_ext. intros s _. replace (nth s (map (Rmult c) z) 0%R) with (c * nth s z 0)%R; [ring|]. symmetry. replace 0%R with (c * 0)%R at 1 by ring. apply map_nth.
Qed.
Lemma taper_times c v w : taper_vector_to_zero (map (Rmult c) v) w = lifted (map (Rmult c)) (taper_vector_to_zero v w).
Proof.
  destruct (Nat.le_gt_cases w (length v)) as [H|H].
  - destruct (taper_spec v w H) as (o & E & L & N). destruct (taper_spec (map (Rmult c) v) w ltac:(rewrite map_length; exact H)) as (o' & E' & L' & N'). rewrite E, E'. cbn [lifted]. f_equal. rewrite map_length in *. apply nth_ext_all; [rewrite map_length; congruence|]. intros i x I. assert (IL : i < length v) by (rewrite <- L'; apply nth_error_Some; congruence). destruct (nth_error v i) as [y|] eqn:Y; [|apply nth_error_None in Y; lia]. rewrite (N' i (c * y)%R (map_nth_error (Rmult c) i v Y)) in I. injection I as <-. rewrite (map_nth_error (Rmult c) i o (N i y Y)). f_equal. ring.
  - destruct v as [|y v]. { destruct w as [|[|w]]; [lia|reflexivity|]. cbn [map]. rewrite (taper_short [] (S (S w))); [reflexivity|exact H|intros [_ X]; discriminate X]. } rewrite (taper_short (y :: v) w), (taper_short (map (Rmult c) (y :: v)) w); try reflexivity; try (rewrite map_length; exact H); try exact H; intros [X _]; discriminate X.
Qed.
Lemma any_times c v w : taper_any (map (Rmult c) v) w = lifted (map (Rmult c)) (taper_any v w).
Proof. unfold taper_any. rewrite map_length. destruct (w <? 0)%Z; [destruct (_ <? _)%Z; reflexivity|]. apply taper_times. Qed.
Lemma detrend_times c s s' : LineIn c s s' -> detrend s' = map (Rmult c) (detrend s).
Proof.
  intros (L & a & b & H). apply (detrend_unique s'); [apply detrend_is|]. pose proof (proj1 (detrended_iff s (detrend s)) (detrend_is s)) as (LD & (A & B & D) & M1 & M2). apply detrended_iff. rewrite map_length, L. split; [exact LD|].
  assert (NZ : forall t, nth t (map (Rmult c) (detrend s)) 0%R = (c * nth t (detrend s) 0)%R). { intros t. replace 0%R with (c * 0)%R at 1 by ring. apply map_nth. }
  split; [|split].
  - exists (c * A + a)%R, (c * B + b)%R. intros t T. rewrite NZ, D, H by exact T. ring.
  - unfold moment in *. rewrite (tot_ext _ (fun t => c * nth t (detrend s) 0)%R) by (intros; apply NZ). rewrite tot_scale, M1. ring.
  - unfold moment in *. rewrite (tot_ext _ (fun t => c * (INR t * nth t (detrend s) 0))%R) by (intros; rewrite NZ; ring). rewrite tot_scale, M2. ring.
Qed.
Lemma detrend_again s : detrend (detrend s) = detrend s.
Proof.
  apply (detrend_unique (detrend s)); [apply detrend_is|]. pose proof (proj1 (detrended_iff s (detrend s)) (detrend_is s)) as (LD & _ & M1 & M2). apply detrended_iff. split; [reflexivity|]. rewrite LD. split; [|split; assumption]. exists 0%R, 0%R. intros t _. ring.
Qed.
Lemma repeat_times c k : repeat 0%R k = map (Rmult c) (repeat 0%R k). Proof. induction k as [|k IH]; [reflexivity|]. cbn [repeat map]. rewrite <- IH, Rmult_0_r. reflexivity. Qed.

(** ** Variance *)
Lemma series_column nlon data j : Full nlon data -> j < nlon -> column j data = Ok (SeriesAt j data).
Proof.
  intros F J. apply BlockProofs.column_nth. unfold SeriesAt. induction F as [|row data L F IH]; cbn [map]; constructor; [|exact IH]. apply nth_error_nth'. lia.
Qed.
Lemma var_is l : nanvar l = match Present l with [] => None | xs => Some (VarianceQ xs) end. Proof. reflexivity. Qed.
Lemma variances_are nlon data : some_numbers (map (fun j => nanvar (SeriesAt j data)) (seq 0 nlon)) = Variances nlon data.
Proof.
  unfold some_numbers, Variances. induction (seq 0 nlon) as [|j l IH]; [reflexivity|]. cbn [map flat_map]. rewrite IH. f_equal. rewrite var_is. destruct (Present (SeriesAt j data)); reflexivity.
Qed.
Lemma zon_is nlon data : Full nlon data -> zon_avg_variance nlon data = Ok (nanmean (map (fun j => nanvar (SeriesAt j data)) (seq 0 nlon))).
Proof.
  intros F. unfold zon_avg_variance. rewrite (mapM_ok_seq _ (fun j => nanvar (SeriesAt j data))); [reflexivity|]. intros j I. rewrite (series_column nlon) by (assumption || lia). reflexivity.
Qed.
Lemma qsum_nonneg l : Forall (fun x => (0 <= x)%Q) l -> (0 <= fold_right Qplus 0 l)%Q.
Proof. induction 1; cbn; [Lqa.lra|]. Lqa.lra. Qed.
Lemma qsum_zero l : Forall (fun x => (0 <= x)%Q) l -> (fold_right Qplus 0 l == 0)%Q -> Forall (fun x => (x == 0)%Q) l.
Proof. induction 1 as [|x l X F IH]; intros Z; constructor; pose proof (qsum_nonneg l F); cbn in Z; [|apply IH]; Lqa.lra. Qed.
Lemma qsum_of_zero l : Forall (fun x => (x == 0)%Q) l -> (fold_right Qplus 0 l == 0)%Q.
Proof. induction 1; cbn; [reflexivity|]. Lqa.lra. Qed.
Lemma len_pos {A} (l : list A) : l <> [] -> (0 < inject_Z (Z.of_nat (length l)))%Q.
Proof. destruct l; [contradiction|]. intros _. change 0%Q with (inject_Z 0). rewrite <- Zlt_Qlt. cbn. lia. Qed.
Lemma mean_zero l : l <> [] -> Forall (fun x => (0 <= x)%Q) l -> (0 <= MeanQ l)%Q /\ ((MeanQ l == 0)%Q <-> Forall (fun x => (x == 0)%Q) l).
Proof.
  intros NE F. assert (P := len_pos l NE). unfold MeanQ. split.
  - apply Qle_shift_div_l; [exact P|]. rewrite Qmult_0_l. apply qsum_nonneg. exact F.
  - split.
    + intros Z. apply qsum_zero; [exact F|]. assert (E : (fold_right Qplus 0 l == fold_right Qplus 0 l / inject_Z (Z.of_nat (length l)) * inject_Z (Z.of_nat (length l)))%Q) by (field; Lqa.lra). rewrite E, Z. ring.
    + intros Z. rewrite (qsum_of_zero l Z). field. Lqa.lra.
Qed.
Lemma sq_nonneg (x : Q) : (0 <= x ^ 2)%Q.
Proof. change (x ^ 2)%Q with (x * x)%Q. destruct (Qlt_le_dec x 0) as [H|H]; [setoid_replace (x * x)%Q with ((- x) * (- x))%Q by ring; apply Qmult_le_0_compat; Lqa.lra|apply Qmult_le_0_compat; exact H]. Qed.
Lemma sq_is_zero (x : Q) : (x ^ 2 == 0)%Q -> (x == 0)%Q.
Proof. change (x ^ 2)%Q with (x * x)%Q. intros H. apply Qmult_integral in H. tauto. Qed.
Lemma sum_close l c : Forall (fun x => (x == c)%Q) l -> (fold_right Qplus 0 l == c * inject_Z (Z.of_nat (length l)))%Q.
Proof. induction 1 as [|x l X F IH]; [cbn; ring|]. cbn [fold_right length]. rewrite IH, X, Nat2Z.inj_succ, <- Z.add_1_r, inject_Z_plus. ring. Qed.
Lemma variance_zero l : l <> [] -> (0 <= VarianceQ l)%Q /\ ((VarianceQ l == 0)%Q <-> forall x y, In x l -> In y l -> (x == y)%Q).
Proof.
  intros NE. unfold VarianceQ. destruct (mean_zero (map (fun x => (x - MeanQ l) ^ 2)%Q l)) as [P Z]; [destruct l; [contradiction|discriminate]|apply Forall_map; apply Forall_forall; intros; apply sq_nonneg|]. split; [exact P|]. rewrite Z. rewrite Forall_map, Forall_forall. split.
  - intros H x y X Y. pose proof (sq_is_zero _ (H x X)) as HX. pose proof (sq_is_zero _ (H y Y)) as HY. Lqa.lra.
  - intros H x X. assert (M : (MeanQ l == x)%Q). { unfold MeanQ. rewrite (sum_close l x) by (apply Forall_forall; intros y Y; apply H; assumption). assert (LP := len_pos l NE). field. Lqa.lra. } rewrite M. setoid_replace (x - x)%Q with 0%Q by ring. reflexivity.
Qed.
Lemma present_in l x : In x (Present l) <-> In (Some x) l.
Proof.
  unfold Present. rewrite in_flat_map. split.
  - intros (o & O & X). destruct o as [y|]; [|destruct X]. destruct X as [->|[]]. exact O.
  - intros I. exists (Some x). split; [exact I|left; reflexivity].
Qed.
Lemma variances_in nlon data v : In v (Variances nlon data) <-> exists j, j < nlon /\ Present (SeriesAt j data) <> [] /\ v = VarianceQ (Present (SeriesAt j data)).
Proof.
  unfold Variances. rewrite in_flat_map. split.
  - intros (j & J & V). apply in_seq in J. exists j. destruct (Present (SeriesAt j data)) as [|x l] eqn:E; [destruct V|]. destruct V as [<-|[]]. split; [lia|]. split; [discriminate|reflexivity].
  - intros (j & J & N & V). exists j. split; [apply in_seq; lia|]. destruct (Present (SeriesAt j data)) as [|x l]; [contradiction|]. left. symmetry. exact V.
Qed.

Lemma first_at {A} (l : list A) n t : t < n -> nth_error (firstn n l) t = nth_error l t.
Proof. revert n t. induction l as [|x l IH]; intros [|n] [|t] H; try lia; try reflexivity. cbn. apply IH. lia. Qed.

(** The statements of PropertiesBand.v. *)
Lemma C102_values_proof : forall orig_nt places time t0 t1 rest a b n dt w,
  n = Z.to_nat 131072 -> time = t0 :: t1 :: rest -> (t0 < t1)%Z -> dt = (inject_Z (t1 - t0) / 86400)%Q -> (0 < a)%Q ->
  orig_nt <= n -> places <> [] -> Forall (fun s => length s = orig_nt) places ->
  w <= n -> (inject_Z (Z.of_nat w) <= 10 / dt)%Q -> (10 / dt < inject_Z (Z.of_nat w + 1))%Q ->
  exists out after, bandpass_filter_3D orig_nt places time a b = Ok (out, after) /\ Forall2 Detrended places after /\
    Forall2 (fun z f => length f = orig_nt /\ forall t, t < orig_nt ->
               nth t f 0%R = Chosen n (fun m => WithinPeriods n dt a b (2 * m - 1)) (fun m => WithinPeriods n dt a b (2 * m))
                               (fun s => nth s z 0 * BothEnds RiseFromZero n w s)%R t) after out.
Proof.
  intros orig_nt places time t0 t1 rest a b n dt w N E T D A O NE F W W1 W2. change (Z.to_nat 131072) with full_length in N. unfold bandpass_filter_3D. rewrite E. rewrite <- D. cbv zeta.
  assert (DP : (0 < dt)%Q). { rewrite D. unfold Qlt, Qdiv, Qmult, Qinv, inject_Z. cbn [Qnum Qden]. lia. }
  destruct (Z.ltb_spec 131072 (Z.of_nat orig_nt)) as [X|_]; [unfold full_length in N; lia|]. destruct places as [|s0 places]; [contradiction|]. set (ps := s0 :: places) in *. destruct (Qeq_bool dt 0) eqn:Q0; [apply Qeq_bool_iff in Q0; rewrite Q0 in DP; discriminate DP|]. rewrite (trunc_is (10 / dt) w W1 W2). rewrite <- N. clear NE.
  destruct full_even as (h & NH & HP). rewrite <- N in NH.
  destruct (mapM_all (fun z => v <- taper_any (z ++ repeat 0%R (n - orig_nt)) (Z.of_nat w);; Ok (firstn orig_nt (pass_periods dt a b v))) (fun z f => length f = orig_nt /\ forall t, t < orig_nt -> nth t f 0%R = Chosen n (fun m => WithinPeriods n dt a b (2 * m - 1)) (fun m => WithinPeriods n dt a b (2 * m)) (fun s => nth s z 0 * BothEnds RiseFromZero n w s)%R t) (map detrend ps)) as (out & OUT & FO).
  { intros z I. apply in_map_iff in I. destruct I as (s & <- & I). rewrite Forall_forall in F. pose proof (F s I) as L. destruct (padded orig_nt n (detrend s) w O ltac:(rewrite detrend_len; exact L) W) as (v & V & LV & NV). unfold taper_any. destruct (Z.ltb_spec (Z.of_nat w) 0) as [X|_]; [lia|]. rewrite Nat2Z.id, V. cbn [bind].
    eexists. split; [reflexivity|]. rewrite (pass_is n h v dt a b NH HP LV DP A). split; [rewrite firstn_length, map_length, seq_length; lia|]. intros t TT.
    apply nth_error_nth. rewrite first_at by exact TT. rewrite nth_error_map, seq_there by lia. cbn [option_map]. f_equal. apply chosen_ext. exact NV. }
  rewrite OUT. cbn [bind]. exists out, (map detrend ps). split; [reflexivity|]. split; [|exact FO]. clear. induction ps; cbn [map]; constructor; [apply detrend_is|assumption].
Qed.

Lemma C102_values_case_proof : (0 < 20)%Q /\ (inject_Z (Z.of_nat 10) <= 10 / (inject_Z (86400 - 0) / 86400))%Q /\
  (10 / (inject_Z (86400 - 0) / 86400) < inject_Z (Z.of_nat 10 + 1))%Q /\ Forall (fun s => length s = 3) [[1; 2; 4]; [0; 1; 0]]%R.
Proof.
  split; [reflexivity|]. split; [intro X; discriminate X|]. split; [reflexivity|]. repeat constructor.
Qed.

Lemma C102_wave_proof : forall n j d a b amp phi, Nat.Even n -> 0 < j -> 2 * j < n -> (0 < d)%Q -> (0 < a)%Q ->
  pass_periods d a b (PureWave n j amp phi) =
  map (fun t => (if WithinPeriods n d a b (2 * j - 1) then amp * cos phi * cos (Turn n j t) else 0) -
                (if WithinPeriods n d a b (2 * j) then amp * sin phi * sin (Turn n j t) else 0))%R (seq 0 n).
Proof.
  intros n j d a b amp phi [h N] J1 J2 D A. rewrite (pass_is n h) by (assumption || lia || (unfold PureWave; rewrite map_length, seq_length; reflexivity)). apply map_ext_in. intros t T. apply in_seq in T. rewrite <- (chosen_wave n h j (fun m => WithinPeriods n d a b (2 * m - 1)) (fun m => WithinPeriods n d a b (2 * m))) by (assumption || lia). apply chosen_ext. intros s SS. unfold PureWave. apply nth_error_nth. rewrite nth_error_map, seq_there by exact SS. reflexivity.
Qed.

Lemma C102_wave_case_proof : Nat.Even 16 /\ WithinPeriods 16 1 2 3 (2 * 3 - 1) = false /\ WithinPeriods 16 1 2 3 (2 * 3) = true.
Proof.
  split; [exists 8; reflexivity|]. split; reflexivity.
Qed.

Lemma C102_periods_refuted_proof : forall n j d a b amp phi, Nat.Even n -> 0 < j -> 4 * j < n -> (0 < d)%Q -> (0 < a)%Q ->
  let p k := (inject_Z (Z.of_nat n) * d / inject_Z (Z.of_nat k))%Q in
  ((p (2 * j - 1)%nat < a)%Q -> pass_periods d a b (PureWave n j amp phi) = repeat 0%R n) /\
  ((a <= p (2 * j)%nat)%Q -> (p (2 * j - 1)%nat <= b)%Q -> pass_periods d a b (PureWave n j amp phi) = PureWave n j amp phi).
Proof.
  intros n j d a b amp phi EV J1 J2 D A p. assert (MONO : (p (2 * j)%nat <= p (2 * j - 1)%nat)%Q).
  { unfold p. assert (X : (0 < inject_Z (Z.of_nat (2 * j)))%Q) by (change 0%Q with (inject_Z 0); rewrite <- Zlt_Qlt; lia). assert (Y : (0 < inject_Z (Z.of_nat (2 * j - 1)))%Q) by (change 0%Q with (inject_Z 0); rewrite <- Zlt_Qlt; lia). assert (LE : (inject_Z (Z.of_nat (2 * j - 1)) <= inject_Z (Z.of_nat (2 * j)))%Q) by (rewrite <- Zle_Qle; lia).
    assert (NN : (0 <= inject_Z (Z.of_nat n) * d)%Q) by (apply Qmult_le_0_compat; [change 0%Q with (inject_Z 0); rewrite <- Zle_Qle; lia|Lqa.lra]).
    apply Qle_shift_div_r; [exact X|]. setoid_replace (inject_Z (Z.of_nat n) * d / inject_Z (Z.of_nat (2 * j - 1)) * inject_Z (Z.of_nat (2 * j)))%Q with (inject_Z (Z.of_nat n) * d * (inject_Z (Z.of_nat (2 * j)) / inject_Z (Z.of_nat (2 * j - 1))))%Q by (field; Lqa.lra). rewrite <- (Qmult_1_r (inject_Z (Z.of_nat n) * d)) at 1. rewrite !(Qmult_comm (inject_Z (Z.of_nat n) * d)). apply Qmult_le_compat_r; [|exact NN]. apply Qle_shift_div_l; [exact Y|]. rewrite Qmult_1_l. exact LE. }
  rewrite C102_wave_proof by (assumption || lia). unfold WithinPeriods. fold (p (2 * j - 1)%nat) (p (2 * j)%nat). cbv zeta. destruct (Nat.ltb_spec (2 * (2 * j - 1)) n) as [_|X]; [|lia]. destruct (Nat.ltb_spec (2 * (2 * j)) n) as [_|X]; [|lia]. cbn [andb]. split.
  - intros P. assert (P2 : (p (2 * j)%nat < a)%Q) by (apply Qle_lt_trans with (p (2 * j - 1)%nat); assumption).
    change (inject_Z (Z.of_nat n) * d / inject_Z (Z.of_nat (2 * j - 1)))%Q with (p (2 * j - 1)%nat). change (inject_Z (Z.of_nat n) * d / inject_Z (Z.of_nat (2 * j)))%Q with (p (2 * j)%nat).
    assert (B1 : Qle_bool a (p (2 * j - 1)%nat) = false) by (destruct (Qle_bool a (p (2 * j - 1)%nat)) eqn:Q1; [apply Qle_bool_iff in Q1; Lqa.lra|reflexivity]). assert (B2 : Qle_bool a (p (2 * j)%nat) = false) by (destruct (Qle_bool a (p (2 * j)%nat)) eqn:Q1; [apply Qle_bool_iff in Q1; Lqa.lra|reflexivity]). rewrite B1, B2. cbn [andb]. clear. generalize 0 at 1. induction n as [|n IH]; intros k; [reflexivity|]. cbn [seq map repeat]. rewrite IH. f_equal. ring.
  - intros P Q0. change (inject_Z (Z.of_nat n) * d / inject_Z (Z.of_nat (2 * j - 1)))%Q with (p (2 * j - 1)%nat). change (inject_Z (Z.of_nat n) * d / inject_Z (Z.of_nat (2 * j)))%Q with (p (2 * j)%nat).
    assert (B1 : Qle_bool a (p (2 * j - 1)%nat) = true) by (apply Qle_bool_iff; Lqa.lra). assert (B2 : Qle_bool a (p (2 * j)%nat) = true) by (apply Qle_bool_iff; Lqa.lra). assert (B3 : Qle_bool (p (2 * j - 1)%nat) b = true) by (apply Qle_bool_iff; Lqa.lra). assert (B4 : Qle_bool (p (2 * j)%nat) b = true) by (apply Qle_bool_iff; Lqa.lra). rewrite B1, B2, B3, B4. cbn [andb]. unfold PureWave. apply map_ext. intros t. rewrite cos_plus. ring.
Qed.

Lemma C102_periods_case_proof : let p k := (131072 * 1 / inject_Z k)%Q in
  (20 <= p 4369%Z)%Q /\ (p 4369%Z <= 96)%Q /\ (p (2 * 4369 - 1)%Z < 20)%Q /\
  (149 < p 874%Z)%Q /\ (20 <= p (2 * 874)%Z)%Q /\ (p (2 * 874 - 1)%Z <= 96)%Q.
Proof.
  cbv zeta. repeat split; intro X; discriminate X.
Qed.

Lemma C102_lines_proof : forall orig_nt places places' c time a b, Forall2 (LineIn c) places places' ->
  Forall (fun s => length s = orig_nt) places ->
  match bandpass_filter_3D orig_nt places time a b with
  | Ok (out, after) => bandpass_filter_3D orig_nt places' time a b = Ok (map (map (Rmult c)) out, map (map (Rmult c)) after)
  | Err e => bandpass_filter_3D orig_nt places' time a b = Err e
  end.
Proof.
  intros orig_nt places places' c time a b F L. unfold bandpass_filter_3D. destruct time as [|t0 [|t1 rest]]; [reflexivity|reflexivity|]. cbv zeta. destruct (131072 <? Z.of_nat orig_nt)%Z; [reflexivity|].
  assert (D : map detrend places' = map (map (Rmult c)) (map detrend places)). { clear L. induction F as [|s s' ps ps' H F IH]; [reflexivity|]. cbn [map]. rewrite IH, (detrend_times c s s' H). reflexivity. }
  destruct F as [|s s' ps ps' H F]; [reflexivity|]. set (l := s :: ps) in *. set (l' := s' :: ps') in *. destruct (Qeq_bool (inject_Z (t1 - t0) / 86400) 0); [reflexivity|]. rewrite D. set (dt := (inject_Z (t1 - t0) / 86400)%Q). set (g := fun z => v <- taper_any (z ++ repeat 0%R (full_length - orig_nt)) (trunc (10 / dt));; Ok (firstn orig_nt (pass_periods dt a b v))).
  assert (G : mapM g (map (map (Rmult c)) (map detrend l)) = lifted (map (map (Rmult c))) (mapM g (map detrend l))).
  { rewrite (mapM_map (map (Rmult c)) g). apply mapM_lift. intros z _. unfold g. rewrite (repeat_times c) at 1. rewrite <- map_app, any_times. destruct (taper_any _ _) as [v|e]; [|reflexivity]. cbn [lifted bind]. rewrite pass_times, firstn_map. reflexivity. }
  rewrite G. destruct (mapM g (map detrend l)) as [out|e]; reflexivity.
Qed.

Lemma C102_lines_case_proof : LineIn 2 [1; 0; 3]%R [2 + 5; 0 + (5 + 4); 6 + (5 + 4 * (1 + 1))]%R.
Proof.
  split; [reflexivity|]. exists 5%R, 4%R. intros [|[|[|t]]] T; cbn in T |- *; try lia; ring.
Qed.

Lemma C102_overwrites_refuted_proof : forall orig_nt places time a b out after, bandpass_filter_3D orig_nt places time a b = Ok (out, after) ->
  Forall2 Detrended places after /\ bandpass_filter_3D orig_nt after time a b = Ok (out, after) /\
  forall s, In s places -> fold_right Rplus 0%R s <> 0%R -> after <> places.
Proof.
  intros orig_nt places time a b out after H. unfold bandpass_filter_3D in *. destruct time as [|t0 [|t1 rest]]; [discriminate H|discriminate H|]. cbv zeta in *. destruct (131072 <? Z.of_nat orig_nt)%Z; [discriminate H|]. destruct places as [|s0 places]; [discriminate H|]. set (ps := s0 :: places) in *. destruct (Qeq_bool _ 0) eqn:Z0; [discriminate H|].
  destruct (mapM _ (map detrend ps)) as [o|e] eqn:M; [|discriminate H]. cbn [bind] in H. injection H as <- <-.
  assert (AG : map detrend (map detrend ps) = map detrend ps) by (rewrite map_map; apply map_ext; exact detrend_again).
  split; [|split].
  - change (Forall2 Detrended ps (map detrend ps)). clear. clearbody ps. induction ps; cbn [map]; constructor; [apply detrend_is|assumption].
  - cbv iota. change (detrend s0 :: map detrend places) with (map detrend ps). rewrite AG, M. reflexivity.
  - intros s I NZ EQ. apply NZ. change (map detrend ps = ps) in EQ. assert (DS : detrend s = s). { clear -I EQ. clearbody ps. induction ps as [|x l IH]; [destruct I|]. cbn [map] in EQ. injection EQ as E1 E2. destruct I as [<-|I]; [exact E1|exact (IH I E2)]. } pose proof (detrend_is s) as (_ & _ & M1 & _). rewrite DS in M1. exact M1.
Qed.

Lemma C102_exceptions_proof : forall orig_nt places time a b,
  let run := bandpass_filter_3D orig_nt places time a b in
  (length time < 2 -> run = Err IndexError) /\
  (forall t0 t1 rest, time = t0 :: t1 :: rest ->
     ((131072 < Z.of_nat orig_nt)%Z -> run = Err ValueError) /\
     ((Z.of_nat orig_nt <= 131072)%Z -> places = [] -> run = Err IndexError) /\
     ((Z.of_nat orig_nt <= 131072)%Z -> places <> [] -> t0 = t1 -> run = Err OverflowError) /\
     ((Z.of_nat orig_nt <= 131072)%Z -> places <> [] -> Forall (fun s => length s = orig_nt) places ->
        (- 864000 <= t1 - t0 <= - 10)%Z -> run = Err ValueError)).
Proof.
  intros orig_nt places time a b run. split.
  - intros H. unfold run, bandpass_filter_3D. destruct time as [|x [|y rest]]; [reflexivity|reflexivity|cbn in H; lia].
  - intros t0 t1 rest ->. unfold run, bandpass_filter_3D. cbv zeta. split; [|split; [|split]].
    + intros H. destruct (Z.ltb_spec 131072 (Z.of_nat orig_nt)); [reflexivity|lia].
    + intros H ->. destruct (Z.ltb_spec 131072 (Z.of_nat orig_nt)); [lia|reflexivity].
    + intros H NE ->. destruct (Z.ltb_spec 131072 (Z.of_nat orig_nt)); [lia|]. destruct places; [contradiction|]. rewrite Z.sub_diag. reflexivity.
    + intros H NE F T. destruct (Z.ltb_spec 131072 (Z.of_nat orig_nt)) as [X|_]; [lia|]. destruct places as [|s0 places]; [contradiction|]. set (d := (t0 - t1)%Z). replace (t1 - t0)%Z with (- d)%Z by (unfold d; lia). assert (DB : (10 <= d <= 864000)%Z) by (unfold d; lia). clearbody d. clear T.
      destruct (Qeq_bool (inject_Z (- d) / 86400) 0) eqn:Z0; [apply Qeq_bool_iff in Z0; unfold Qeq, Qdiv, Qmult, Qinv, inject_Z in Z0; cbn [Qnum Qden] in Z0; lia|]. cbn [map mapM]. inversion F as [|? ? L _]; subst.
      assert (DQ : (0 < inject_Z d)%Q) by (change 0%Q with (inject_Z 0); rewrite <- Zlt_Qlt; lia).
      set (q := (10 / (inject_Z (- d) / 86400))%Q). assert (QN : (- q == 864000 / inject_Z d)%Q) by (unfold q; rewrite inject_Z_opp; field; Lqa.lra).
      assert (TN : trunc q = (- trunc (- q))%Z) by (destruct q as [x y]; unfold trunc; cbn; rewrite Z.quot_opp_l by lia; lia).
      assert (FL : trunc (- q) = (864000 / d)%Z). { assert (PQ : (0 <= - q)%Q) by (rewrite QN; apply Qlt_le_weak, qdiv_pos; [reflexivity|exact DQ]). rewrite <- (Z2Nat.id (864000 / d)) by (apply Z.div_pos; lia). apply trunc_is; rewrite Z2Nat.id by (apply Z.div_pos; lia); rewrite QN.
        - apply Qle_shift_div_l; [exact DQ|]. change (864000)%Q with (inject_Z 864000). rewrite <- inject_Z_mult, <- Zle_Qle. pose proof (Z.mul_div_le 864000 d ltac:(lia)). lia.
        - apply Qlt_shift_div_r; [exact DQ|]. change (864000)%Q with (inject_Z 864000). rewrite <- inject_Z_mult, <- Zlt_Qlt. pose proof (Z.mul_succ_div_gt 864000 d ltac:(lia)). lia. }
      assert (B : (1 <= 864000 / d <= 86400)%Z) by (split; [apply Z.div_le_lower_bound; lia|apply Z.div_le_upper_bound; lia]).
      unfold taper_any. rewrite TN, FL. destruct (Z.ltb_spec (- (864000 / d)) 0) as [_|X]; [|lia]. rewrite app_length, repeat_length, detrend_len. rewrite Z.opp_involutive. match goal with |- context [(?x <? ?y)%Z] => destruct (Z.ltb_spec x y) as [_|X]; [reflexivity|] end. exfalso. unfold full_length in X. lia.
Qed.

Lemma C103_values_proof : forall nlon data, Full nlon data ->
  (Variances nlon data = [] -> zon_avg_variance nlon data = Ok None) /\
  (Variances nlon data <> [] -> exists v, zon_avg_variance nlon data = Ok (Some v) /\ (v == MeanQ (Variances nlon data))%Q).
Proof.
  intros nlon data F. rewrite (zon_is nlon data F). unfold nanmean. rewrite variances_are. split.
  - intros ->. reflexivity.
  - intros NE. destruct (Variances nlon data) as [|x l] eqn:E; [contradiction|]. eexists. split; [reflexivity|]. reflexivity.
Qed.

Lemma C103_values_case_proof : Full 2 [[Some 1%Q; None]; [Some 3%Q; None]] /\ Variances 2 [[Some 1%Q; None]; [Some 3%Q; None]] = [VarianceQ [1%Q; 3%Q]].
Proof.
  split; [repeat constructor|reflexivity].
Qed.

Lemma C103_zero_proof : forall nlon data v, Full nlon data -> zon_avg_variance nlon data = Ok (Some v) ->
  (0 <= v)%Q /\
  ((v == 0)%Q <-> forall j x y, j < nlon -> In (Some x) (SeriesAt j data) -> In (Some y) (SeriesAt j data) -> (x == y)%Q).
Proof.
  intros nlon data v F H. rewrite (zon_is nlon data F) in H. unfold nanmean in H. rewrite variances_are in H. destruct (Variances nlon data) as [|x l] eqn:E; [discriminate H|]. rewrite <- E in H. injection H as <-. change (plus_all (Variances nlon data) / inject_Z (Z.of_nat (length (Variances nlon data))))%Q with (MeanQ (Variances nlon data)).
  assert (NE : Variances nlon data <> []) by (rewrite E; discriminate). assert (P : Forall (fun x => (0 <= x)%Q) (Variances nlon data)). { apply Forall_forall. intros u U. apply variances_in in U. destruct U as (j & _ & N & ->). apply variance_zero. exact N. }
  destruct (mean_zero _ NE P) as [A B]. split; [exact A|]. rewrite B, Forall_forall. split.
  - intros G j y z J Y Z. apply present_in in Y, Z. assert (N : Present (SeriesAt j data) <> []) by (intros X; rewrite X in Y; destruct Y). apply (proj2 (variance_zero _ N)); [|exact Y|exact Z]. apply G. apply variances_in. exists j. auto.
  - intros G u U. apply variances_in in U. destruct U as (j & J & N & ->). apply (proj2 (variance_zero _ N)). intros y z Y Z. apply present_in in Y, Z. exact (G j y z J Y Z).
Qed.

