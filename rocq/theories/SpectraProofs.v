(** Proofs about spectra of tropical waves. *)
From Coq Require Import Reals QArith Qround String List Lia Lqa Lra.
From Verif Require Import PyBase ColumnModel BlockModel BlockProofs TropicsModel TropicsSpec TropicsProofs SpectraModel SpectraSpec.
From Coq Require Import List Lra.
Import ListNotations.
Open Scope nat_scope.

(** ** Tapering *)
Lemma put_two {A : Type} (v : A) l i : i < length l -> exists l', put i v l = Ok l' /\ length l' = length l /\
  nth_error l' i = Some v /\ forall j, j <> i -> nth_error l' j = nth_error l j.
Proof.
  intros H. destruct (put_ok v l i H) as (l' & E & L & N). exists l'. split; [exact E|]. split; [exact L|]. split.
  - rewrite N, Nat.eqb_refl. reflexivity.
  - intros j J. rewrite N. destruct (Nat.eqb_spec j i); [contradiction|reflexivity].
Qed.
Definition from (a b : nat) (v : nat -> R) (p : nat) : R := if (a <=? p) && (p <? b) then v p else 1%R.

Lemma cosbell_spec M : forall m k x, m + k <= length x ->
  exists x', cosbell_loop M x (seq (S k) m) = Ok x' /\ length x' = length x /\
    forall p r, nth_error x p = Some r -> nth_error x' p =
      Some (r * (from k (k + m) (fun p => bell M (S p)) p * from k (k + m) (fun p => bell M (S p)) (length x - 1 - p)))%R.
Proof.
  induction m as [|m IH]; intros k x L.
  - exists x. split; [reflexivity|]. split; [reflexivity|]. intros p r H. rewrite H. f_equal. unfold from.
    replace (k + 0) with k by lia.
    replace ((k <=? p) && (p <? k)) with false by (symmetry; apply Bool.andb_false_iff; destruct (Nat.leb_spec k p); [right; apply Nat.ltb_ge; lia|left; reflexivity]).
    replace ((k <=? length x - 1 - p) && (length x - 1 - p <? k)) with false by (symmetry; apply Bool.andb_false_iff; destruct (Nat.leb_spec k (length x - 1 - p)); [right; apply Nat.ltb_ge; lia|left; reflexivity]).
    ring.
  - cbn [seq cosbell_loop]. replace (S k - 1) with k by lia.
    destruct (nth_error x k) as [a|] eqn:A; [|apply nth_error_None in A; lia].
    rewrite (proj2 (get_ok k x a) A). cbn [bind].
    destruct (put_two (a * bell M (S k))%R x k ltac:(lia)) as (x1 & P1 & L1 & N1 & O1). rewrite P1. cbn [bind].
    destruct (Nat.ltb_spec (length x) (S k)) as [Lk|Lk]; [lia|].
    destruct (nth_error x1 (length x - S k)) as [b|] eqn:B; [|apply nth_error_None in B; lia].
    rewrite (proj2 (get_ok _ x1 b) B). cbn [bind].
    destruct (put_two (b * bell M (S k))%R x1 (length x - S k) ltac:(lia)) as (x2 & P2 & L2 & N2 & O2). rewrite P2. cbn [bind].
    destruct (IH (S k) x2 ltac:(lia)) as (x' & E & L' & S'). exists x'. split; [exact E|]. split; [lia|].
    intros p r H. assert (Lp : p < length x) by (apply nth_error_Some; congruence).
    assert (T : forall q, from k (k + S m) (fun p => bell M (S p)) q = ((if q =? k then bell M (S k) else 1) * from (S k) (S k + m) (fun p => bell M (S p)) q)%R).
    { intros q. unfold from. destruct (Nat.eqb_spec q k) as [->|Nq].
      - rewrite (proj2 (Nat.leb_le k k)), (proj2 (Nat.ltb_lt k (k + S m))), (proj2 (Nat.leb_gt (S k) k)) by lia. cbn [andb]. ring.
      - replace (k <=? q) with (S k <=? q) by (destruct (Nat.leb_spec k q), (Nat.leb_spec (S k) q); auto; lia).
        replace (q <? k + S m) with (q <? S k + m) by (f_equal; lia). ring. }
    rewrite !T. rewrite L2, L1 in S'.
    assert (X1 : nth_error x1 p = Some (r * (if p =? k then bell M (S k) else 1))%R).
    { destruct (Nat.eqb_spec p k) as [->|Np]. - rewrite N1. f_equal. congruence. - rewrite O1 by auto. rewrite H. f_equal. ring. }
    assert (X2 : nth_error x2 p = Some (r * (if p =? k then bell M (S k) else 1) * (if length x - 1 - p =? k then bell M (S k) else 1))%R).
    { destruct (Nat.eqb_spec (length x - 1 - p) k) as [Ep|Np].
      - replace p with (length x - S k) by lia. rewrite N2. f_equal. replace (length x - S k) with p by lia.
        f_equal. replace (length x - S k) with p in B by lia. congruence.
      - rewrite O2 by lia. rewrite X1. f_equal. ring. }
    rewrite (S' _ _ X2). f_equal. ring.
Qed.
Lemma cosbell_err M : forall m k x, k <= length x -> length x < k + m -> cosbell_loop M x (seq (S k) m) = Err IndexError.
Proof.
  induction m as [|m IH]; intros k x K L; [lia|]. cbn [seq cosbell_loop]. replace (S k - 1) with k by lia.
  destruct (nth_error x k) as [a|] eqn:A; [|unfold get; rewrite A; reflexivity].
  assert (Lx : k < length x) by (apply nth_error_Some; congruence).
  rewrite (proj2 (get_ok k x a) A). cbn [bind].
  destruct (put_two (a * bell M (S k))%R x k ltac:(lia)) as (x1 & P1 & L1 & N1 & O1). rewrite P1. cbn [bind].
  destruct (Nat.ltb_spec (length x) (S k)) as [Lk|Lk]; [lia|].
  destruct (nth_error x1 (length x - S k)) as [b|] eqn:B; [|apply nth_error_None in B; lia].
  rewrite (proj2 (get_ok _ x1 b) B). cbn [bind].
  destruct (put_two (b * bell M (S k))%R x1 (length x - S k) ltac:(lia)) as (x2 & P2 & L2 & N2 & O2). rewrite P2. cbn [bind].
  apply IH; lia.
Qed.
Lemma bell_rise M p : 0 < M -> bell M (S p) = Rise M p.
Proof.
  intros H. unfold bell, Rise. rewrite S_INR. apply lt_0_INR in H.
  replace (PI / INR M * (INR p + 1 - 1 / 2))%R with (PI * (INR p + 1 / 2) / INR M)%R by (field; lra). field.
Qed.
(** The number of tapered places. *)
Definition places (N : Z) (pct : Q) : Z := Z.max 1 (Qfloor ((pct * inject_Z N + (1 # 2)) / 2)).
Lemma trunc_floor q : (0 <= q)%Q -> trunc q = Qfloor q.
Proof. destruct q as [n d]. unfold Qle. cbn. intros H. unfold trunc. cbn. apply Z.quot_div_nonneg; lia. Qed.
Lemma places_trunc N pct : (0 <= N)%Z -> (0 <= pct)%Q ->
  (if (trunc ((pct * inject_Z N + (1 # 2)) / 2) <? 1)%Z then 1%Z else trunc ((pct * inject_Z N + (1 # 2)) / 2)) = places N pct.
Proof.
  intros HN HP. rewrite trunc_floor.
  - unfold places. destruct (Z.ltb_spec (Qfloor ((pct * inject_Z N + (1 # 2)) / 2)) 1); lia.
  - unfold Qdiv. apply Qmult_le_0_compat; [|discriminate]. apply Qle_trans with (0 + 0)%Q; [discriminate|].
    apply Qplus_le_compat; [|discriminate]. apply Qmult_le_0_compat; [exact HP|]. unfold Qle, inject_Z; cbn; lia.
Qed.
Lemma window_run N pct : (0 <= pct)%Q ->
  window_cosbell N pct = if (N <? 0)%Z then Err ValueError else
    cosbell_loop (Z.to_nat (places N pct)) (repeat 1%R (Z.to_nat N)) (seq 1 (Z.to_nat (places N pct))).
Proof. intros H. unfold window_cosbell. destruct (Z.ltb_spec N 0); [reflexivity|]. cbv zeta. rewrite places_trunc by auto. reflexivity. Qed.
Lemma window_spec (N M : nat) pct : (0 <= pct)%Q -> Z.of_nat M = places (Z.of_nat N) pct -> M <= N ->
  exists x, window_cosbell (Z.of_nat N) pct = Ok x /\ length x = N /\ forall p, p < N -> nth_error x p = Some (BothEnds Rise N M p).
Proof.
  intros HP HM HL. rewrite window_run by auto. destruct (Z.ltb_spec (Z.of_nat N) 0); [lia|].
  rewrite <- HM, !Nat2Z.id.
  destruct (cosbell_spec M M 0 (repeat 1%R N)) as (x & E & L & S1); [rewrite repeat_length; lia|].
  exists x. rewrite repeat_length in *. split; [exact E|]. split; [exact L|]. intros p Hp.
  assert (M1 : 0 < M) by (unfold places in HM; lia).
  assert (T : nth_error (repeat 1%R N) p = Some 1%R).
  { destruct (nth_error (repeat 1%R N) p) eqn:Q; [apply nth_error_In, repeat_spec in Q; congruence|apply nth_error_None in Q; rewrite repeat_length in Q; lia]. }
  rewrite (S1 _ _ T). f_equal. unfold BothEnds, from. cbn [Nat.leb andb plus]. rewrite !bell_rise by auto. ring.
Qed.
Lemma window_err (N : Z) pct : (0 <= pct)%Q -> (0 <= N < places N pct)%Z -> window_cosbell N pct = Err IndexError.
Proof.
  intros HP H. rewrite window_run by auto. destruct (Z.ltb_spec N 0); [lia|]. apply cosbell_err; rewrite ?repeat_length; lia.
Qed.
Lemma both_sym rise N M p : p < N -> BothEnds rise N M (N - 1 - p) = BothEnds rise N M p.
Proof. intros H. unfold BothEnds. replace (N - 1 - (N - 1 - p)) with p by lia. ring. Qed.
Lemma angle M p : p < M -> (0 < PI * (INR p + 1 / 2) / INR M < PI)%R.
Proof.
  intros H. pose proof (lt_INR _ _ H) as A. pose proof (pos_INR p) as B. pose proof PI_RGT_0 as P.
  assert (C : (INR p + 1 <= INR M)%R) by (rewrite <- S_INR; apply le_INR; lia).
  split.
  - apply Rdiv_lt_0_compat; [apply Rmult_lt_0_compat|]; lra.
  - apply (Rmult_lt_reg_r (INR M)); [lra|]. replace (PI * (INR p + 1 / 2) / INR M * INR M)%R with (PI * (INR p + 1 / 2))%R by (field; lra).
    apply Rmult_lt_compat_l; lra.
Qed.
Lemma rise_bounds M p : p < M -> (0 < Rise M p <= 1)%R.
Proof.
  intros H. destruct (angle M p H) as [A B]. unfold Rise. destruct (COS_bound (PI * (INR p + 1 / 2) / INR M)) as [C D].
  pose proof cos_0 as Z0. assert ((cos (PI * (INR p + 1 / 2) / INR M) < cos 0)%R) by (apply cos_decreasing_1; lra).
  lra.
Qed.
Lemma rise_up M p : S p < M -> (Rise M p < Rise M (S p))%R.
Proof.
  intros H. destruct (angle M p ltac:(lia)) as [A B]. destruct (angle M (S p) H) as [A' B']. unfold Rise.
  assert ((cos (PI * (INR (S p) + 1 / 2) / INR M) < cos (PI * (INR p + 1 / 2) / INR M))%R); [|lra].
  apply cos_decreasing_1; try lra. unfold Rdiv. apply Rmult_lt_compat_r.
  - apply Rinv_0_lt_compat. apply lt_0_INR. lia.
  - apply Rmult_lt_compat_l; [apply PI_RGT_0|]. rewrite S_INR. lra.
Qed.
Lemma both_bounds N M p : p < N -> (0 < BothEnds Rise N M p <= 1)%R.
Proof.
  intros H. unfold BothEnds.
  assert (A : forall q, (0 < (if q <? M then Rise M q else 1) <= 1)%R) by (intros q; destruct (Nat.ltb_spec q M); [apply rise_bounds; auto|lra]).
  pose proof (A p) as [B1 B2]. pose proof (A (N - 1 - p)) as [C1 C2]. split; [apply Rmult_lt_0_compat; auto|].
  apply Rle_trans with (1 * 1)%R; [apply Rmult_le_compat|]; lra.
Qed.
Lemma both_one rise N M p : M <= p < N - M -> BothEnds rise N M p = 1%R.
Proof.
  intros H. unfold BothEnds. destruct (Nat.ltb_spec p M); [lia|]. destruct (Nat.ltb_spec (N - 1 - p) M); [lia|]. ring.
Qed.
Lemma places_le N pct : (1 <= N)%Z -> (0 <= pct)%Q -> (pct <= 1)%Q -> (places N pct <= N)%Z.
Proof.
  intros HN H0 H1. unfold places. assert (Qfloor ((pct * inject_Z N + (1 # 2)) / 2) <= N)%Z; [|lia].
  rewrite <- (Qfloor_Z N) at 2. apply Qfloor_resp_le.
  assert (A : (inject_Z 1 <= inject_Z N)%Q) by (rewrite <- Zle_Qle; auto).
  assert (B : (pct * inject_Z N <= 1 * inject_Z N)%Q) by (apply Qmult_le_compat_r; [auto|]; change (inject_Z 1) with 1%Q in A; Lqa.lra).
  change (inject_Z 1) with 1%Q in A. unfold Qdiv. change (/ 2)%Q with (1 # 2)%Q. Lqa.lra.
Qed.

Lemma C75_window_case_proof :
  (0 <= 1 # 10)%Q /\ Z.of_nat 5 = Z.max 1 (Qfloor (((1 # 10) * inject_Z (Z.of_nat 100) + (1 # 2)) / 2)) /\ 5 <= 100.
Proof. split; [discriminate|]. split; [reflexivity|lia]. Qed.

(** ** Tapering to zero *)
Lemma broadcast_same a b : length a = length b -> broadcast a b = Ok (map (fun p => fst p * snd p)%R (combine a b)).
Proof. intros H. unfold broadcast. rewrite H, Nat.eqb_refl. reflexivity. Qed.
Lemma product_nth : forall a b i x y, nth_error a i = Some x -> nth_error b i = Some y ->
  nth_error (map (fun p => fst p * snd p)%R (combine a b)) i = Some (x * y)%R.
Proof.
  induction a as [|x0 a IH]; intros [|y0 b] [|i] x y A B; try discriminate.
  - injection A as ->. injection B as ->. reflexivity.
  - apply IH; auto.
Qed.
Lemma product_len a b : length a = length b -> length (map (fun p => fst p * snd p)%R (combine a b)) = length a.
Proof. intros H. rewrite map_length, combine_length. lia. Qed.
Lemma taper_run data w : w <= length data ->
  exists r out, taper_vector_to_zero data w = Ok out /\
   r = (map (fun p => fst p * snd p)%R (combine (firstn w data) (map (hann w) (map Z.of_nat (seq 0 w)))) ++ skipn w data)%list /\
   out = (firstn (length data - w) r ++ map (fun p => fst p * snd p)%R (combine (skipn (length data - w) r)
      (map (hann w) (map (fun q => (- Z.of_nat w - 1 + Z.of_nat q + 2)%Z) (seq 0 w)))))%list.
Proof.
  intros H. eexists. eexists. split; [|split; reflexivity]. unfold taper_vector_to_zero. cbv zeta.
  set (st := map (hann w) (map Z.of_nat (seq 0 w))). set (en := map (hann w) (map _ (seq 0 w))).
  assert (Ls : length st = w) by (unfold st; rewrite !map_length, seq_length; auto).
  assert (Le : length en = w) by (unfold en; rewrite !map_length, seq_length; auto).
  rewrite broadcast_same by (rewrite firstn_length; lia). cbn [bind].
  set (fi := map _ (combine (firstn w data) st)).
  assert (Lf : length fi = w) by (unfold fi; rewrite product_len; rewrite ?firstn_length; lia).
  unfold assign_slice at 1. replace (length fi =? Nat.min w (length data) - 0) with true by (symmetry; apply Nat.eqb_eq; lia).
  cbn [bind firstn app plus]. rewrite Lf. set (r := (fi ++ skipn w data)%list).
  assert (Lr : length r = length data) by (unfold r; rewrite app_length, skipn_length; lia).
  rewrite broadcast_same by (rewrite skipn_length; lia). cbn [bind].
  set (la := map _ (combine (skipn (length data - w) r) en)).
  assert (Ll : length la = w) by (unfold la; rewrite product_len; rewrite ?skipn_length; lia).
  unfold assign_slice. replace (length la =? length data - (length data - w)) with true by (symmetry; apply Nat.eqb_eq; lia).
  rewrite (skipn_all2 r) by lia. rewrite app_nil_r. reflexivity.
Qed.
Lemma hann_rise w p : hann w (Z.of_nat p) = RiseFromZero w p.
Proof. unfold hann, RiseFromZero. rewrite <- INR_IZR_INZ, (Rmult_comm (INR p) PI). field. Qed.
Lemma hann_end w q : q < w -> hann w (- Z.of_nat w - 1 + Z.of_nat q + 2) = RiseFromZero w (w - 1 - q).
Proof.
  intros H. rewrite <- hann_rise. unfold hann. do 2 f_equal. rewrite <- cos_neg. f_equal.
  replace (- Z.of_nat w - 1 + Z.of_nat q + 2)%Z with (- Z.of_nat (w - 1 - q))%Z by lia. rewrite opp_IZR. unfold Rdiv. ring.
Qed.
Lemma taper_spec data w : w <= length data ->
  exists out, taper_vector_to_zero data w = Ok out /\ length out = length data /\
    forall p v, nth_error data p = Some v -> nth_error out p = Some (v * BothEnds RiseFromZero (length data) w p)%R.
Proof.
  intros H. destruct (taper_run data w H) as (r & out & E & Er & Eo). exists out. split; [exact E|].
  set (st := map (hann w) (map Z.of_nat (seq 0 w))) in *. set (en := map (hann w) (map (fun q => (- Z.of_nat w - 1 + Z.of_nat q + 2)%Z) (seq 0 w))) in *.
  assert (Ls : length st = w) by (unfold st; rewrite !map_length, seq_length; auto).
  assert (Le : length en = w) by (unfold en; rewrite !map_length, seq_length; auto).
  assert (Lf : length (map (fun p => fst p * snd p)%R (combine (firstn w data) st)) = w) by (rewrite product_len; rewrite ?firstn_length; lia).
  assert (Lr : length r = length data) by (rewrite Er, app_length, skipn_length; lia).
  assert (R1 : forall p v, nth_error data p = Some v -> nth_error r p = Some (v * (if p <? w then RiseFromZero w p else 1))%R).
  { intros p v Hv. assert (p < length data) by (apply nth_error_Some; congruence). rewrite Er. destruct (Nat.ltb_spec p w).
    - rewrite nth_error_app1 by lia. apply product_nth.
      + rewrite <- Hv. rewrite <- (firstn_skipn w data) at 2. rewrite nth_error_app1; [reflexivity|rewrite firstn_length; lia].
      + unfold st. rewrite !nth_error_map, (seq_there w p) by auto. cbn. f_equal. apply hann_rise.
    - rewrite nth_error_app2 by lia. rewrite Lf. rewrite <- (firstn_skipn w data), nth_error_app2 in Hv by (rewrite firstn_length; lia).
      rewrite firstn_length, Nat.min_l in Hv by lia. rewrite Hv. f_equal. ring. }
  split.
  - rewrite Eo, app_length, firstn_length, product_len, skipn_length by (rewrite skipn_length; lia). lia.
  - intros p v Hv. assert (p < length data) by (apply nth_error_Some; congruence). pose proof (R1 p v Hv) as Hr.
    rewrite Eo. unfold BothEnds. destruct (Nat.ltb_spec (length data - 1 - p) w).
    + rewrite nth_error_app2 by (rewrite firstn_length; lia). rewrite firstn_length, Nat.min_l by lia.
      rewrite (product_nth _ _ _ (v * (if p <? w then RiseFromZero w p else 1))%R (RiseFromZero w (length data - 1 - p))%R).
      * f_equal. ring.
      * rewrite <- Hr. rewrite <- (firstn_skipn (length data - w) r) at 2. rewrite nth_error_app2 by (rewrite firstn_length; lia).
        rewrite firstn_length, Nat.min_l by lia. reflexivity.
      * unfold en. rewrite !nth_error_map, (seq_there w) by lia. cbn [option_map]. f_equal. rewrite hann_end by lia. f_equal. lia.
    + rewrite nth_error_app1 by (rewrite firstn_length; lia).
      rewrite <- (firstn_skipn (length data - w) r), nth_error_app1 in Hr by (rewrite firstn_length; lia). rewrite Hr. f_equal. ring.
Qed.
Lemma taper_short data w : length data < w -> ~ (data = [] /\ w = 1) -> taper_vector_to_zero data w = Err ValueError.
Proof.
  intros H1 H2. unfold taper_vector_to_zero. cbv zeta. rewrite firstn_all2 by lia.
  set (st := map (hann w) (map Z.of_nat (seq 0 w))).
  assert (Ls : length st = w) by (unfold st; rewrite !map_length, seq_length; auto).
  unfold broadcast at 1. rewrite Ls. destruct (Nat.eqb_spec (length data) w); [lia|].
  destruct data as [|x [|y t]].
  - destruct st as [|s [|s' st']]; cbn in Ls; [lia| |reflexivity]. exfalso. apply H2; auto.
  - cbn [bind]. unfold assign_slice at 1. rewrite map_length, Ls. cbn [length] in *.
    rewrite Nat.min_r by lia. destruct (Nat.eqb_spec w (1 - 0)); [lia|]. destruct st as [|s [|s' st']]; cbn in Ls; try lia. reflexivity.
  - cbn [length] in *. destruct st as [|s [|s' st']]; cbn in Ls; try lia. reflexivity.
Qed.
Lemma taper_empty : taper_vector_to_zero [] 1 = Ok [].
Proof. reflexivity. Qed.
Lemma rise_zero w : RiseFromZero w 0 = 0%R.
Proof. unfold RiseFromZero. cbn [INR]. rewrite Rmult_0_r. unfold Rdiv. rewrite Rmult_0_l, cos_0. ring. Qed.

(** ** Removing the mean of the last 120 days *)
Definition window (ntim : Z) (data : list (list (option Q))) (idx : nat) : list (list (option Q)) :=
  let i := Z.of_nat idx in if (ntim <? i)%Z then slice (i - ntim) (i + 1) data else slice 0 (i + 1) data.
Lemma window_eq ntim data i : i < length data ->
  window ntim data i = skipn (Z.to_nat (Z.of_nat i - ntim)) (firstn (S i) data).
Proof.
  intros H. unfold window. cbv zeta.
  assert (A : forall a, (0 <= a)%Z -> slice a (Z.of_nat i + 1) data = skipn (Z.to_nat a) (firstn (S i) data)).
  { intros a Ha. unfold slice. cbv zeta. destruct (Z.ltb_spec (Z.of_nat i + 1) 0); [lia|]. destruct (Z.ltb_spec a 0); [lia|].
    rewrite (Z.min_l (Z.of_nat i + 1)) by lia. rewrite <- skipn_firstn_comm || idtac.
    destruct (Z.le_gt_cases (Z.of_nat (length data)) a) as [G|G].
    - rewrite Z.min_r by lia. rewrite !skipn_all2 by (rewrite ?firstn_length; lia). apply firstn_nil.
    - rewrite Z.min_l by lia. destruct (Z.le_gt_cases (Z.of_nat i + 1) a) as [G'|G'].
      + rewrite (skipn_all2 (firstn (S i) data)) by (rewrite firstn_length; lia).
        replace (Z.to_nat (Z.of_nat i + 1 - a)) with 0 by lia. reflexivity.
      + rewrite skipn_firstn_comm. f_equal; lia. }
  destruct (Z.ltb_spec ntim (Z.of_nat i)).
  - apply A. lia.
  - rewrite A by lia. f_equal. lia.
Qed.
Lemma loop_cons ntim data out idx idxs : mean_loop ntim data out (idx :: idxs) =
  bind (get idx out) (fun row => bind (nanmean_rows (length row) (window ntim data idx)) (fun m =>
    bind (put idx (minus_row row m) out) (fun out' => mean_loop ntim data out' idxs))).
Proof. reflexivity. Qed.
Lemma mean_loop_inv ntim data : forall m k out out', mean_loop ntim data out (seq k m) = Ok out' ->
  (forall i, k <= i -> nth_error out i = nth_error data i) ->
  length out' = length out /\ (m = 0 \/ k + m <= length out) /\
  (forall i, k <= i < k + m -> exists row mean, nth_error data i = Some row /\
     nanmean_rows (length row) (window ntim data i) = Ok mean /\ nth_error out' i = Some (minus_row row mean)) /\
  (forall i, i < k \/ k + m <= i -> nth_error out' i = nth_error out i).
Proof.
  induction m as [|m IH]; intros k out out' H HO.
  - injection H as <-. split; [reflexivity|]. split; [auto|]. split; [intros; lia|reflexivity].
  - cbn [seq] in H. rewrite loop_cons in H. destruct (get k out) as [row|] eqn:G; [|discriminate]. cbn [bind] in H.
    destruct (nanmean_rows (length row) (window ntim data k)) as [mean|] eqn:NM; [|discriminate]. cbn [bind] in H.
    apply get_ok in G. assert (K : k < length out) by (apply nth_error_Some; congruence).
    destruct (put_two (minus_row row mean) out k K) as (o1 & P1 & L1 & N1 & O1). rewrite P1 in H. cbn [bind] in H.
    apply IH in H; [|intros i Hi; rewrite O1 by lia; apply HO; lia]. destruct H as (LL & MM & IN & OUT).
    split; [congruence|]. split; [right; lia|]. split.
    + intros i Hi. destruct (Nat.eq_dec i k) as [->|Ne].
      * exists row, mean. split; [rewrite <- HO by lia; exact G|]. split; [exact NM|]. rewrite OUT by lia. exact N1.
      * apply IN. lia.
    + intros i Hi. rewrite OUT by lia. apply O1. lia.
Qed.
Lemma grid_sub {A : Type} width (a b : list (list A)) : Grid width b -> incl a b -> Grid width a.
Proof. intros G I. apply Forall_forall. intros x Hx. unfold Grid in G. rewrite Forall_forall in G. auto. Qed.
Lemma skipn_incl {A : Type} n (l : list A) : incl (skipn n l) l.
Proof. intros x Hx. rewrite <- (firstn_skipn n l). apply in_or_app. auto. Qed.
Lemma firstn_incl {A : Type} n (l : list A) : incl (firstn n l) l.
Proof. intros x Hx. rewrite <- (firstn_skipn n l). apply in_or_app. auto. Qed.
Lemma column_grid {A : Type} width (rows : list (list A)) j : Grid width rows -> j < width -> exists c, column j rows = Ok c.
Proof.
  intros G J. destruct (column_result j rows) as [E|E]; [exact E|]. exfalso.
  assert (X : exists c, Forall2 (fun row x => nth_error row j = Some x) rows c).
  { clear E. unfold Grid in G. induction rows as [|r rows IH]; [exists []; constructor|]. inversion G; subst.
    destruct (IH H2) as (c & F). destruct (nth_error r j) as [x|] eqn:X; [|apply nth_error_None in X; lia].
    exists (x :: c). constructor; auto. }
  destruct X as (c & F). apply column_nth in F. congruence.
Qed.
Lemma nanmean_grid width rows : Grid width rows -> exists m, nanmean_rows width rows = Ok m.
Proof.
  intros G. unfold nanmean_rows.
  destruct (mapM_all (fun j => bind (column j rows) (fun c => Ok (nanmean c))) (fun _ _ => True) (seq 0 width)) as (o & E & _).
  - intros j Hj. apply in_seq in Hj. destruct (column_grid width rows j G ltac:(lia)) as (c & C). rewrite C. cbn [bind]. eauto.
  - eauto.
Qed.
Lemma nanmean_nth width rows m : nanmean_rows width rows = Ok m -> length m = width /\
  forall j, j < width -> exists c, column j rows = Ok c /\ nth_error m j = Some (nanmean c).
Proof.
  intros H. unfold nanmean_rows in H. apply mapM_inv in H. split; [apply forall2_len in H; rewrite seq_length in H; auto|].
  intros j J. assert (L : length m = width) by (apply forall2_len in H; rewrite seq_length in H; auto).
  destruct (nth_error m j) as [x|] eqn:X; [|apply nth_error_None in X; lia].
  pose proof (forall2_nth _ _ _ j j x H (seq_there width j J) X) as E. cbn in E.
  destruct (column j rows) as [c|]; [|discriminate]. injection E as <-. eauto.
Qed.
Lemma mean_loop_ok ntim width data : Grid width data -> forall m k out, k + m <= length out -> length out = length data ->
  (forall i, k <= i -> nth_error out i = nth_error data i) -> exists out', mean_loop ntim data out (seq k m) = Ok out'.
Proof.
  intros G. induction m as [|m IH]; intros k out L LD HO; [eexists; reflexivity|].
  cbn [seq]. rewrite loop_cons. destruct (nth_error out k) as [row|] eqn:R; [|apply nth_error_None in R; lia].
  rewrite (proj2 (get_ok k out row) R). cbn [bind].
  assert (W : length row = width). { rewrite HO in R by lia. unfold Grid in G. rewrite Forall_forall in G. apply G. apply nth_error_In with k; auto. }
  rewrite W. destruct (nanmean_grid width (window ntim data k)) as (mean & NM).
  { rewrite window_eq by lia. apply grid_sub with data; auto. intros x Hx. apply skipn_incl, firstn_incl in Hx. auto. }
  rewrite NM. cbn [bind]. destruct (put_two (minus_row row mean) out k ltac:(lia)) as (o1 & P1 & L1 & N1 & O1). rewrite P1. cbn [bind].
  apply IH; try lia. intros i Hi. rewrite O1 by lia. apply HO. lia.
Qed.
Lemma mean_loop_err ntim width data : Grid width data -> forall m k out, k <= length out -> length out < k + m -> length out = length data ->
  (forall i, k <= i -> nth_error out i = nth_error data i) -> mean_loop ntim data out (seq k m) = Err IndexError.
Proof.
  intros G. induction m as [|m IH]; intros k out K L LD HO; [lia|].
  cbn [seq]. rewrite loop_cons. destruct (nth_error out k) as [row|] eqn:R; [|unfold get; rewrite R; reflexivity].
  assert (K1 : k < length out) by (apply nth_error_Some; congruence).
  rewrite (proj2 (get_ok k out row) R). cbn [bind].
  assert (W : length row = width). { rewrite HO in R by lia. unfold Grid in G. rewrite Forall_forall in G. apply G. apply nth_error_In with k; auto. }
  rewrite W. destruct (nanmean_grid width (window ntim data k)) as (mean & NM).
  { rewrite window_eq by lia. apply grid_sub with data; auto. intros x Hx. apply skipn_incl, firstn_incl in Hx. auto. }
  rewrite NM. cbn [bind]. destruct (put_two (minus_row row mean) out k ltac:(lia)) as (o1 & P1 & L1 & N1 & O1). rewrite P1. cbn [bind].
  apply IH; try lia. intros i Hi. rewrite O1 by lia. apply HO. lia.
Qed.
Lemma minus_nth : forall a b i x y, nth_error a i = Some x -> nth_error b i = Some y ->
  nth_error (minus_row a b) i = Some (lift2 Qminus x y).
Proof.
  unfold minus_row. induction a as [|x0 a IH]; intros [|y0 b] [|i] x y A B; try discriminate.
  - injection A as ->. injection B as ->. reflexivity.
  - apply IH; auto.
Qed.
(** The numbers of a column. *)
Definition numbers (data : list (list (option Q))) j k : list Q := match Cell data k j with Some (Some x) => [x] | _ => [] end.
Lemma skipn_step {A : Type} : forall lo (l : list A), lo < length l -> exists x, nth_error l lo = Some x /\ skipn lo l = x :: skipn (S lo) l.
Proof.
  induction lo as [|lo IH]; intros [|y l] H; cbn in H; try lia; [exists y; auto|]. destruct (IH l ltac:(lia)) as (x & E & F). exists x. auto.
Qed.
Lemma column_numbers data j : forall m lo col, lo + m <= length data ->
  column j (firstn m (skipn lo data)) = Ok col -> some_numbers col = flat_map (numbers data j) (seq lo m).
Proof.
  induction m as [|m IH]; intros lo col L C.
  - cbn in C. injection C as <-. reflexivity.
  - destruct (skipn_step lo data ltac:(lia)) as (row & N & E). rewrite E in C. cbn [firstn] in C. apply column_nth in C.
    inversion C as [|a x b t H1 H2]; subst. cbn [seq flat_map]. unfold numbers at 1, Cell. rewrite N, H1.
    rewrite <- (IH (S lo) t) by (try lia; apply column_nth; auto). destruct x; reflexivity.
Qed.
Lemma steps_120 d : (0 < d)%Z -> trunc (120 / (inject_Z d / 86400)) = (10368000 / d)%Z.
Proof.
  intros H. destruct d as [|p|p]; try lia. unfold trunc. cbn -[Z.quot Z.div]. rewrite Pos.mul_1_r.
  apply Z.quot_div_nonneg; lia.
Qed.
Lemma within_120 d i k : (0 < d)%Z -> (0 <= i - k)%Z -> ((i - k) * d <= 10368000 <-> i - k <= 10368000 / d)%Z.
Proof.
  intros H K. split; intros A.
  - apply Z.div_le_lower_bound; lia.
  - pose proof (Z.mul_div_le 10368000 d H). nia.
Qed.
Lemma flat_map_ext_in {A B : Type} (f g : A -> list B) l : (forall x, In x l -> f x = g x) -> flat_map f l = flat_map g l.
Proof. induction l as [|x l IH]; intros H; [reflexivity|]. cbn. rewrite H by (left; auto). rewrite IH; auto. intros; apply H; right; auto. Qed.
Lemma flat_map_nil {A B : Type} (f : A -> list B) l : (forall x, In x l -> f x = []) -> flat_map f l = [].
Proof. induction l as [|x l IH]; intros H; [reflexivity|]. cbn. rewrite H by (left; auto). apply IH. intros; apply H; right; auto. Qed.
Lemma last_window data time t0 d i j : (0 < d)%Z -> EqualSteps t0 d time -> i < length time ->
  Last120 time data i j = flat_map (numbers data j) (seq (Z.to_nat (Z.of_nat i - 10368000 / d)) (S i - Z.to_nat (Z.of_nat i - 10368000 / d))).
Proof.
  intros D E H. unfold Last120. set (lo := Z.to_nat (Z.of_nat i - 10368000 / d)).
  assert (P : (0 <= 10368000 / d)%Z) by (apply Z.div_pos; lia).
  assert (LO : lo <= i) by lia.
  replace (S i) with (lo + (S i - lo)) at 1 by lia. rewrite seq_app, flat_map_app. cbn [plus].
  destruct (nth_error time i) as [ti|] eqn:TI; [|apply nth_error_None in TI; lia]. apply E in TI.
  rewrite flat_map_nil.
  - cbn [app]. apply flat_map_ext_in. intros k Hk. apply in_seq in Hk. unfold numbers.
    destruct (nth_error time k) as [tk|] eqn:TK; [|apply nth_error_None in TK; lia]. apply E in TK.
    destruct (Cell data k j) as [[x|]|]; auto. destruct (Z.leb_spec (ti - tk) (120 * 86400)) as [G|G]; auto.
    exfalso. assert (X : ((Z.of_nat i - Z.of_nat k) * d <= 10368000)%Z); [|subst; lia].
    apply within_120; try lia.
  - intros k Hk. apply in_seq in Hk.
    destruct (nth_error time k) as [tk|] eqn:TK; [|apply nth_error_None in TK; lia]. apply E in TK.
    destruct (Cell data k j) as [[x|]|]; auto. destruct (Z.leb_spec (ti - tk) (120 * 86400)) as [G|G]; auto.
    exfalso. assert (X : ((Z.of_nat i - Z.of_nat k) * d <= 10368000)%Z) by (subst; lia).
    apply within_120 in X; try lia.
Qed.

(** ** Segments *)
Lemma seg_stuck ntim L O s l : Segments ntim L O s l -> (L + O - 1 <= 0)%Z -> (s + L <= ntim - 1)%Z -> False.
Proof. induction 1; intros; [lia|]. apply IHSegments; lia. Qed.
Lemma seg_inv ntim L O s l : Segments ntim L O s l ->
  (forall k x, nth_error l k = Some x -> x = (s + Z.of_nat k * (L + O - 1))%Z /\ (x + L <= ntim - 1)%Z) /\
  (s + Z.of_nat (length l) * (L + O - 1) + L > ntim - 1)%Z.
Proof.
  induction 1 as [s H|s l H HS [IH1 IH2]].
  - split; [intros [|k]; discriminate|]. cbn. lia.
  - split.
    + intros [|k] x E.
      * injection E as <-. lia.
      * apply IH1 in E. lia.
    + cbn [length]. lia.
Qed.
Lemma seg_ok ntim L O : (0 < L + O - 1)%Z -> forall n s, (ntim - L - s <= Z.of_nat n)%Z -> exists l, Segments ntim L O s l.
Proof.
  intros H. induction n as [|n IH]; intros s Hs.
  - exists []. constructor. lia.
  - destruct (Z.le_gt_cases (s + L) (ntim - 1)).
    + destruct (IH (s + L + O - 1)%Z) as (l & S1); [lia|]. exists (s :: l). constructor; auto.
    + exists []. constructor. lia.
Qed.
Lemma C77_starts_case_proof : Segments 12 5 (-1) 0 [0%Z; 3%Z; 6%Z].
Proof. repeat (constructor; [lia|]; cbn [Z.add Z.sub Z.opp]). constructor. cbn. lia. Qed.
Lemma seg_4 : Segments 4 4 0 0 []. Proof. constructor. lia. Qed.
Lemma seg_positive : Segments 9 4 2 0 [0%Z]. Proof. constructor; [lia|]. constructor. lia. Qed.
Lemma seg_two : Segments 12 4 2 0 [0%Z; 5%Z]. Proof. constructor; [lia|]. constructor; [lia|]. constructor. lia. Qed.

(** ** Coherence *)
Definition cone (s : quad) : Prop := match s with (px, py, c, q) => (0 <= px /\ 0 <= py /\ c * c + q * q <= px * py)%R end.
Lemma square_le a b : (0 <= b -> a * a <= b * b -> a <= b)%R.
Proof. intros H1 H2. destruct (Rle_or_lt a b) as [G|G]; auto. exfalso. nra. Qed.
Lemma cone_plus a b : cone a -> cone b -> cone (quad_plus a b).
Proof.
  destruct a as [[[px py] c] q], b as [[[px' py'] c'] q']. cbn. intros (A1 & A2 & A3) (B1 & B2 & B3).
  split; [lra|]. split; [lra|].
  assert (T : (c * c' + q * q' <= (px * py' + px' * py) / 2)%R).
  { apply square_le.
    - pose proof (Rmult_le_pos _ _ A1 B2). pose proof (Rmult_le_pos _ _ B1 A2). lra.
    - assert (X : ((c * c' + q * q') * (c * c' + q * q') <= (c * c + q * q) * (c' * c' + q' * q'))%R).
      { assert (Y : (0 <= (c * q' - q * c') * (c * q' - q * c'))%R) by apply Rle_0_sqr. lra. }
      assert (Y : ((c * c + q * q) * (c' * c' + q' * q') <= (px * py) * (px' * py'))%R).
      { apply Rmult_le_compat; auto; apply Rplus_le_le_0_compat; apply Rle_0_sqr. }
      assert (W : (0 <= (px * py' - px' * py) * (px * py' - px' * py))%R) by apply Rle_0_sqr. lra. }
  lra.
Qed.
Lemma cone_times k a : (0 <= k)%R -> cone a -> cone (quad_times k a).
Proof.
  destruct a as [[[px py] c] q]. cbn. intros K (A1 & A2 & A3).
  split; [apply Rmult_le_pos; auto|]. split; [apply Rmult_le_pos; auto|].
  replace (k * c * (k * c) + k * q * (k * q))%R with (k * k * (c * c + q * q))%R by ring.
  replace (k * px * (k * py))%R with (k * k * (px * py))%R by ring. apply Rmult_le_compat_l; auto. apply Rle_0_sqr.
Qed.
Lemma cone_zero : cone (0, 0, 0, 0)%R.
Proof. cbn. lra. Qed.
(** A property of quadruples that is kept by sums and multiples holds of averages. *)
Section Closed.
  Variable P : quad -> Prop.
  Hypothesis Pzero : P (0, 0, 0, 0)%R.
  Hypothesis Pplus : forall a b, P a -> P b -> P (quad_plus a b).
  Hypothesis Ptimes : forall k a, (0 <= k)%R -> P a -> P (quad_times k a).
  Lemma closed_rest : forall t l x, P l -> P x -> Forall P t -> Forall P (smooth_rest l x t).
  Proof.
    induction t as [|r t IH]; intros l x Hl Hx Ht; cbn [smooth_rest].
    - constructor; [|constructor]. apply Ptimes; [lra|]. apply Pplus; auto. apply Ptimes; auto. lra.
    - inversion Ht; subst. constructor; [|apply IH; auto]. apply Ptimes; [lra|]. apply Pplus; auto. apply Pplus; auto.
      apply Ptimes; auto. lra.
  Qed.
  Lemma closed_smooth t t' : Forall P t -> smooth_quads t = Ok t' -> Forall P t'.
  Proof.
    destruct t as [|x [|r t]]; cbn [smooth_quads]; intros H E; try discriminate; injection E as <-; auto.
    inversion H as [|? ? H1 H2]; subst. inversion H2; subst. constructor; [|apply closed_rest; auto].
    apply Ptimes; [lra|]. apply Pplus; auto. apply Ptimes; auto. lra.
  Qed.
  Lemma closed_sum : forall a b, Forall P a -> Forall P b -> Forall P (map (fun p => quad_plus (fst p) (snd p)) (combine a b)).
  Proof. induction a as [|x a IH]; intros [|y b] Ha Hb; cbn; auto. inversion Ha; inversion Hb; subst. constructor; auto. Qed.
  Lemma closed_sums : forall stc acc, Forall P acc -> Forall (Forall P) stc ->
    Forall P (fold_left (fun acc s => map (fun p => quad_plus (fst p) (snd p)) (combine acc s)) stc acc).
  Proof. induction stc as [|s stc IH]; intros acc Ha Hs; cbn; auto. inversion Hs; subst. apply IH; auto. apply closed_sum; auto. Qed.
  Lemma closed_mean segments n spectra : (forall seg lats, In seg segments -> In lats seg -> P (cross lats)) ->
    mean_spectra segments n = Ok (Some spectra) -> Forall P spectra.
  Proof.
    intros H E. unfold mean_spectra in E. destruct (mapM _ segments) as [stc|] eqn:M; [|discriminate]. cbn [bind] in E.
    destruct segments as [|s0 segs]; [discriminate|]. injection E as <-. apply Forall_map.
    apply mapM_inv in M. eapply TropicsProofs.forall_impl; [|apply closed_sums with (stc := stc)].
    - intros a Ha. apply Ptimes; auto. left. apply Rinv_0_lt_compat. apply (lt_0_INR (length (s0 :: segs))). cbn; lia.
    - apply Forall_forall. intros x Hx. apply repeat_spec in Hx. subst. exact Pzero.
    - apply Forall_forall. intros t' Ht'. apply In_nth_error in Ht'. destruct Ht' as (k & Hk).
      destruct (forall2_nth_l _ _ _ _ _ M Hk) as (seg & S1 & S2). cbv beta in S2. apply closed_smooth in S2; auto.
      apply Forall_map. apply Forall_forall. intros lats HL. apply H with seg; auto. apply nth_error_In with k; auto.
  Qed.
End Closed.
Lemma cross_cone lats : lats <> [] -> cone (cross lats).
Proof.
  intros H. unfold cross. cbv zeta. apply cone_times.
  - left. apply Rinv_0_lt_compat. apply lt_0_INR. destruct lats; [contradiction|cbn; lia].
  - clear H. induction lats as [|p lats IH]; [apply cone_zero|]. cbn [fold_right]. apply cone_plus; auto.
    destruct p as [[a b] [c d]]. unfold cone. split; [|split].
    + apply Rplus_le_le_0_compat; apply Rle_0_sqr.
    + apply Rplus_le_le_0_compat; apply Rle_0_sqr.
    + right. ring.
Qed.
Lemma coh_bounds s coh : cone s -> fst (coh2pha s) = Some coh -> (0 <= coh <= 1)%R.
Proof.
  destruct s as [[[px py] c] q]. cbn [coh2pha fst cone]. intros (A & B & C) H.
  destruct (Req_EM_T py 0) as [|NY]; [discriminate|]. destruct (Req_EM_T px 0) as [|NX]; [discriminate|]. injection H as <-.
  assert (P : (0 < px * py)%R) by (apply Rmult_lt_0_compat; lra). split.
  - apply Rmult_le_pos; [apply Rplus_le_le_0_compat; apply Rle_0_sqr|]. left. apply Rinv_0_lt_compat. exact P.
  - apply (Rmult_le_reg_r (px * py)); [exact P|]. unfold Rdiv. rewrite Rmult_assoc, Rinv_l by lra. lra.
Qed.
Lemma rest_len : forall t l x, length (smooth_rest l x t) = S (length t).
Proof. induction t as [|r t IH]; intros; cbn; auto. Qed.
Lemma smooth_len t : length t <> 1 -> exists t', smooth_quads t = Ok t' /\ length t' = length t.
Proof.
  destruct t as [|x [|r t]]; cbn [length]; intros H; [exists []; auto|lia|].
  exists (quad_times (/ 4) (quad_plus (quad_times 3 x) r) :: smooth_rest x r t). split; [reflexivity|]. cbn [length]. rewrite rest_len. reflexivity.
Qed.
Lemma sums_len n : forall stc acc, length acc = n -> Forall (fun s => length s = n) stc ->
  length (fold_left (fun acc s => map (fun p => quad_plus (fst p) (snd p)) (combine acc s)) stc acc) = n.
Proof. induction stc as [|s stc IH]; intros acc Ha Hs; cbn; auto. inversion Hs; subst. apply IH; auto. rewrite map_length, combine_length. lia. Qed.
Definition same_power (s : quad) : Prop := match s with (px, py, c, q) => px = py /\ c = px /\ q = 0%R end.
Lemma self_cross lats : Forall (fun p => fst p = snd p) lats -> same_power (cross lats).
Proof.
  intros H. unfold cross. cbv zeta.
  assert (T : forall k s, same_power s -> same_power (quad_times k s)).
  { intros k [[[px py] c] q]. cbn. intros (-> & -> & ->). repeat split; ring. }
  apply T. induction H as [|p lats Hp Hl IH]; [cbn; auto|]. cbn [fold_right].
  destruct p as [[a b] [c d]]. cbn in Hp. injection Hp as <- <-.
  set (f := fold_right _ _ lats) in *. destruct f as [[[px py] c'] q]. cbn in *. destruct IH as (-> & -> & ->). repeat split; ring.
Qed.
Lemma smooth_err t e : smooth_quads t = Err e <-> e = IndexError /\ length t = 1.
Proof. destruct t as [|x [|r t]]; cbn; split; intros H; try discriminate; try (destruct H; lia). - injection H as <-. auto. - destruct H; subst; auto. Qed.

(** ** Axes *)
Lemma roll_nth {A : Type} k (l : list A) i : i < length l ->
  nth_error (roll k l) i = nth_error l (Z.to_nat ((Z.of_nat i - Z.of_nat k) mod Z.of_nat (length l))).
Proof.
  intros H. unfold roll. destruct (length l) as [|n'] eqn:L; [lia|]. rewrite <- L in *. set (n := length l) in *.
  assert (N : n <> 0) by lia. cbv zeta. set (s := Nat.modulo k n). assert (Sn : s < n) by (apply Nat.mod_upper_bound; auto).
  assert (MZ : (Z.of_nat k mod Z.of_nat n = Z.of_nat s)%Z) by (unfold s; rewrite Nat2Z.inj_mod; reflexivity).
  assert (E : ((Z.of_nat i - Z.of_nat k) mod Z.of_nat n = (Z.of_nat i - Z.of_nat s) mod Z.of_nat n)%Z).
  { rewrite <- Zminus_mod_idemp_r, MZ. reflexivity. }
  rewrite E. clear E.
  assert (LL : length (skipn (n - s) l) = s) by (rewrite skipn_length; unfold n in *; lia).
  destruct (Nat.lt_ge_cases i s) as [G|G].
  - rewrite nth_error_app1 by lia.
    replace (Z.to_nat ((Z.of_nat i - Z.of_nat s) mod Z.of_nat n)) with (n - s + i).
    + rewrite <- (firstn_skipn (n - s) l) at 2. rewrite nth_error_app2 by (rewrite firstn_length; unfold n in *; lia).
      rewrite firstn_length. f_equal. unfold n in *. lia.
    + rewrite <- (Z.mod_add _ 1) by lia. rewrite Z.mod_small by lia. lia.
  - rewrite nth_error_app2 by lia. rewrite LL. rewrite Z.mod_small by lia.
    replace (Z.to_nat (Z.of_nat i - Z.of_nat s)) with (i - s) by lia.
    rewrite <- (firstn_skipn (n - s) l) at 2. rewrite nth_error_app1; [reflexivity|]. rewrite firstn_length. unfold n in *. lia.
Qed.
Lemma roll_len {A : Type} k (l : list A) : length (roll k l) = length l.
Proof.
  unfold roll. destruct (length l) as [|n'] eqn:L; [auto|]. rewrite <- L. set (s := Nat.modulo k (length l)).
  assert (Sn : s < length l) by (apply Nat.mod_upper_bound; lia). rewrite app_length, skipn_length, firstn_length. lia.
Qed.
Lemma rev_nth {A : Type} (l : list A) i : i < length l -> nth_error (rev l) i = nth_error l (length l - 1 - i).
Proof.
  revert i. induction l as [|x l IH] using rev_ind; intros i H; [cbn in H; lia|].
  rewrite rev_app_distr. cbn [rev app]. rewrite app_length in *. cbn [length] in *.
  destruct i as [|i].
  - cbn [nth_error]. rewrite nth_error_app2 by lia. replace (length l + 1 - 1 - 0 - length l) with 0 by lia. reflexivity.
  - cbn [nth_error]. rewrite IH by lia. rewrite nth_error_app1 by lia. f_equal. lia.
Qed.
(** A row of the result. *)
Definition wide_row {A : Type} (NL : nat) (r : list A) : list A :=
  let s := rev (roll (NL / 2) r) in if Nat.odd NL then s else match rev s with [] => s | l :: _ => l :: s end.
Lemma layout_rows {A : Type} NL (P : list (list A)) :
  layout NL P = if Nat.odd (length P) then map (wide_row NL) P else (map (wide_row NL) P ++ firstn 1 (map (wide_row NL) P))%list.
Proof.
  unfold layout, wide_row. cbv zeta. destruct (Nat.odd NL); [reflexivity|]. rewrite map_map. reflexivity.
Qed.
Lemma odd_half2 n : Nat.odd n = true -> n = S (n / 2 + n / 2).
Proof. intros H. pose proof (Nat.div_mod n 2 ltac:(lia)) as D. rewrite <- Nat.bit0_mod, Nat.bit0_odd, H in D. cbn [Nat.b2n] in D. lia. Qed.
Lemma even_half2 n : Nat.odd n = false -> n = n / 2 + n / 2.
Proof. intros H. pose proof (Nat.div_mod n 2 ltac:(lia)) as D. rewrite <- Nat.bit0_mod, Nat.bit0_odd, H in D. cbn [Nat.b2n] in D. lia. Qed.
Lemma half_one n : (n + n + 1) / 2 = n.
Proof. replace (n + n + 1) with (1 + n * 2) by lia. rewrite Nat.div_add by lia. reflexivity. Qed.
Lemma nwave_half NL : nwave NL / 2 = NL / 2 /\ nwave NL = NL / 2 + NL / 2 + 1.
Proof.
  unfold nwave. destruct (Nat.odd NL) eqn:O.
  - apply odd_half2 in O. split; [reflexivity|lia].
  - apply even_half2 in O. split; [|lia]. rewrite O at 1. apply half_one.
Qed.
Lemma wide_row_nth {A : Type} NL (r : list A) : 1 <= NL -> length r = NL -> length (wide_row NL r) = nwave NL /\
  forall c, c < nwave NL -> nth_error (wide_row NL r) c = nth_error r (TransformPlace NL (Z.of_nat (NL / 2) - Z.of_nat c)).
Proof.
  intros N1 L. destruct (nwave_half NL) as [W1 W2]. set (h := NL / 2) in *. unfold wide_row. cbv zeta. fold h.
  assert (LR : length (roll h r) = NL) by (rewrite roll_len; auto).
  assert (AT : forall c, c < NL -> nth_error (rev (roll h r)) c = nth_error r (TransformPlace NL (Z.of_nat NL - 1 - Z.of_nat c - Z.of_nat h))).
  { intros c Hc. rewrite rev_nth by lia. rewrite LR. rewrite roll_nth by lia. rewrite L. unfold TransformPlace. do 3 f_equal. lia. }
  destruct (Nat.odd NL) eqn:O.
  - assert (HH := odd_half2 _ O). fold h in HH. split; [rewrite rev_length, LR; lia|]. intros c Hc. rewrite AT by lia. do 2 f_equal. lia.
  - assert (HH := even_half2 _ O). fold h in HH. rewrite rev_involutive.
    destruct (roll h r) as [|x t] eqn:RR; [cbn in LR; lia|]. split; [cbn [length]; rewrite rev_length; lia|].
    intros [|c] Hc; cbn [nth_error].
    + pose proof (roll_nth h r 0 ltac:(lia)) as X. rewrite RR in X. cbn [nth_error] in X. rewrite X. unfold TransformPlace. f_equal. f_equal. rewrite L.
      rewrite <- (Z.mod_add _ 1) by lia. f_equal. lia.
    + rewrite AT by lia. unfold TransformPlace. f_equal. f_equal. f_equal. lia.
Qed.
Lemma odd_plus_one n : Nat.odd (n + 1) = negb (Nat.odd n).
Proof. rewrite Nat.add_1_r, Nat.odd_succ, <- Nat.negb_odd. reflexivity. Qed.
(** The four remainders. *)
Lemma four n : exists m, n = 4 * m + Nat.modulo n 4 /\ Nat.modulo n 4 < 4 /\ n / 2 = 2 * m + Nat.modulo n 4 / 2.
Proof.
  exists (n / 4). pose proof (Nat.div_mod n 4 ltac:(lia)) as D. split; [lia|]. split; [apply Nat.mod_upper_bound; lia|].
  rewrite D at 1. replace (4 * (n / 4)) with (2 * (n / 4) * 2) by lia. rewrite Nat.add_comm, Nat.div_add by lia. lia.
Qed.
Lemma odd_even_double m : Nat.odd (2 * m) = false.
Proof. rewrite Nat.odd_mul. reflexivity. Qed.
Lemma odd_double1 m : Nat.odd (2 * m + 1) = true.
Proof. rewrite odd_plus_one, odd_even_double. reflexivity. Qed.
Lemma layout_len {A : Type} NL (P : list (list A)) : P <> [] -> length (layout NL P) = if Nat.odd (length P) then length P else S (length P).
Proof.
  intros H. rewrite layout_rows. destruct (Nat.odd (length P)).
  - apply map_length.
  - rewrite app_length, map_length. destruct P; [contradiction|]. cbn. lia.
Qed.
Lemma C76_mean_case_proof :
  let day := 86400%Z in
  exists y, rem_120day_mean [[Some 1%Q]; [Some 2%Q]; [Some 6%Q]; [None]] [0; 80 * day; 160 * day; 240 * day]%Z =
    Ok [[Some 0%Q]; [Some (1 # 2)%Q]; [Some y]; [None]] /\ (y == 2)%Q /\
  EqualSteps 0 (80 * day) [0; 80 * day; 160 * day; 240 * day]%Z /\
  Last120 [0; 80 * day; 160 * day; 240 * day]%Z [[Some 1%Q]; [Some 2%Q]; [Some 6%Q]; [None]] 2 0 = [2%Q; 6%Q].
Proof.
  cbv zeta. exists (4 # 2)%Q. split; [vm_compute; reflexivity|]. split; [reflexivity|]. split; [|reflexivity].
  intros k t H. do 4 (destruct k as [|k]; [injection H as <-; reflexivity|]). destruct k; discriminate.
Qed.

(** The statements of PropertiesSpectra.v. *)
Lemma C75_window_proof : forall (N M : nat) (pct : Q), (0 <= pct)%Q ->
  Z.of_nat M = Z.max 1 (Qfloor ((pct * inject_Z (Z.of_nat N) + (1 # 2)) / 2)) -> M <= N ->
  exists x, window_cosbell (Z.of_nat N) pct = Ok x /\ length x = N /\
    forall p r, nth_error x p = Some r -> r = BothEnds Rise N M p.
Proof.
  intros N M pct HP HM HL. destruct (window_spec N M pct HP HM HL) as (x & E & L & W). exists x. split; [exact E|]. split; [exact L|].
  intros p r H. assert (p < N) by (rewrite <- L; apply nth_error_Some; congruence). rewrite W in H by auto. congruence.
Qed.

Lemma C75_window_shape_proof : forall (N : nat) (pct : Q) (x : list R), (0 <= pct)%Q ->
  window_cosbell (Z.of_nat N) pct = Ok x ->
  forall p r, nth_error x p = Some r ->
    nth_error x (N - 1 - p) = Some r /\ (0 < r <= 1)%R /\
    forall M, Z.of_nat M = Z.max 1 (Qfloor ((pct * inject_Z (Z.of_nat N) + (1 # 2)) / 2)) -> M + M <= N ->
      (M <= p < N - M -> r = 1%R) /\
      (forall r', S p < M -> nth_error x (S p) = Some r' -> (r < r')%R).
Proof.
  intros N pct x HP E p r H. pose proof E as E0. set (M0 := Z.to_nat (places (Z.of_nat N) pct)).
  assert (PM : (1 <= places (Z.of_nat N) pct)%Z) by (unfold places; lia).
  destruct (Nat.le_gt_cases M0 N) as [G|G].
  2:{ rewrite window_err in E0; [discriminate|auto|]. lia. }
  destruct (window_spec N M0 pct HP ltac:(unfold M0; lia) G) as (x' & E' & L & W). rewrite E in E'. injection E' as <-.
  assert (P : p < N) by (rewrite <- L; apply nth_error_Some; congruence).
  assert (RR : r = BothEnds Rise N M0 p) by (rewrite W in H by auto; congruence).
  split; [rewrite W by lia; rewrite both_sym by auto; congruence|]. split; [subst r; apply both_bounds; auto|].
  intros M HM H2. fold (places (Z.of_nat N) pct) in HM. assert (M = M0) by (unfold M0; lia). subst M. split.
  - intros Hp. subst r. apply both_one; auto.
  - intros r' Hp Hr'. rewrite W in Hr' by lia. injection Hr' as <-. subst r. unfold BothEnds.
    destruct (Nat.ltb_spec p M0); [|lia]. destruct (Nat.ltb_spec (S p) M0); [|lia].
    destruct (Nat.ltb_spec (N - 1 - p) M0); [lia|]. destruct (Nat.ltb_spec (N - 1 - S p) M0); [lia|].
    rewrite !Rmult_1_r. apply rise_up; auto.
Qed.

Lemma C75_window_exceptions_proof : forall (N : Z) (pct : Q), (0 <= pct)%Q ->
  ((1 <= N)%Z -> (pct <= 1)%Q -> exists x, window_cosbell N pct = Ok x) /\
  (window_cosbell N pct = Err ValueError <-> (N < 0)%Z) /\
  (window_cosbell N pct = Err IndexError <->
     (0 <= N < Z.max 1 (Qfloor ((pct * inject_Z N + (1 # 2)) / 2)))%Z) /\
  (forall e, window_cosbell N pct = Err e -> e = ValueError \/ e = IndexError).
Proof.
  intros N pct HP. fold (places N pct).
  assert (OK : (0 <= N)%Z -> (places N pct <= N)%Z -> exists x, window_cosbell N pct = Ok x).
  { intros A B. assert (PM : (1 <= places N pct)%Z) by (unfold places; lia).
    destruct (window_spec (Z.to_nat N) (Z.to_nat (places N pct)) pct HP) as (x & E & _).
    - rewrite !Z2Nat.id by lia. reflexivity.
    - lia.
    - rewrite Z2Nat.id in E by lia. eauto. }
  assert (NEG : (N < 0)%Z -> window_cosbell N pct = Err ValueError).
  { intros A. unfold window_cosbell. destruct (Z.ltb_spec N 0); [reflexivity|lia]. }
  assert (D : (N < 0 \/ 0 <= N < places N pct \/ (0 <= N /\ places N pct <= N))%Z) by lia.
  split; [|split; [|split]].
  - intros A B. apply OK; [lia|]. apply places_le; auto.
  - split; [|exact NEG]. intros E. destruct D as [D|[D|[D1 D2]]]; auto.
    + rewrite window_err in E by auto. discriminate.
    + destruct (OK D1 D2) as (x & X). congruence.
  - split; [|apply window_err; auto]. intros E. destruct D as [D|[D|[D1 D2]]]; auto.
    + rewrite NEG in E by auto. discriminate.
    + destruct (OK D1 D2) as (x & X). congruence.
  - intros e E. destruct D as [D|[D|[D1 D2]]].
    + rewrite NEG in E by auto. injection E as <-. auto.
    + rewrite window_err in E by auto. injection E as <-. auto.
    + destruct (OK D1 D2) as (x & X). congruence.
Qed.

Lemma C75_taper_proof : forall (data : list R) (w : nat), w <= length data ->
  exists out, taper_vector_to_zero data w = Ok out /\ length out = length data /\
    forall p v, nth_error data p = Some v ->
      nth_error out p = Some (v * BothEnds RiseFromZero (length data) w p)%R.
Proof.
  exact taper_spec.
Qed.

Lemma C75_taper_ends_proof : forall (data out : list R) (w : nat), 1 <= w <= length data ->
  taper_vector_to_zero data w = Ok out ->
  nth_error out 0 = Some 0%R /\ nth_error out (length data - 1) = Some 0%R /\
  forall p v, w <= p < length data - w -> nth_error data p = Some v -> nth_error out p = Some v.
Proof.
  intros data out w H E. destruct (taper_spec data w ltac:(lia)) as (out' & E' & L & W). rewrite E in E'. injection E' as <-.
  assert (A : forall p, p < length data -> exists v, nth_error data p = Some v).
  { intros p Hp. destruct (nth_error data p) eqn:X; [eauto|apply nth_error_None in X; lia]. }
  split; [|split].
  - destruct (A 0 ltac:(lia)) as (v & V). rewrite (W _ _ V). f_equal. unfold BothEnds. destruct (Nat.ltb_spec 0 w); [|lia]. rewrite rise_zero. ring.
  - destruct (A (length data - 1) ltac:(lia)) as (v & V). rewrite (W _ _ V). f_equal. unfold BothEnds.
    replace (length data - 1 - (length data - 1)) with 0 by lia. destruct (Nat.ltb_spec 0 w); [|lia]. rewrite rise_zero. ring.
  - intros p v Hp V. rewrite (W _ _ V), both_one by auto. f_equal. ring.
Qed.

Lemma C75_taper_exceptions_proof : forall (data : list R) (w : nat),
  (taper_vector_to_zero data w = Err ValueError <-> length data < w /\ ~ (data = [] /\ w = 1)) /\
  (forall e, taper_vector_to_zero data w = Err e -> e = ValueError).
Proof.
  intros data w.
  assert (D : w <= length data \/ (data = [] /\ w = 1) \/ (length data < w /\ ~ (data = [] /\ w = 1))).
  { destruct (Nat.le_gt_cases w (length data)); auto. right. destruct data; [destruct (Nat.eq_dec w 1)|]; auto; right; split; auto; intros [? ?]; congruence. }
  destruct D as [D|[[D1 D2]|D]].
  - destruct (taper_spec data w D) as (o & E & _). rewrite E. split; [|discriminate]. split; [discriminate|]. intros [? _]; lia.
  - subst. rewrite taper_empty. split; [|discriminate]. split; [discriminate|]. intros [_ X]. exfalso. apply X; auto.
  - destruct D as [D1 D2]. rewrite taper_short by auto. split; [|intros e E; injection E as <-; reflexivity]. split; auto.
Qed.

Lemma C76_mean_proof : forall (data : list (list (option Q))) (time : list Z) (t0 dt : Z) (width : nat),
  length time = length data -> 2 <= length time -> (0 < dt)%Z -> EqualSteps t0 dt time -> Grid width data ->
  exists out, rem_120day_mean data time = Ok out /\ length out = length data /\ Grid width out /\
    forall i j,
      (forall x, Cell data i j = Some (Some x) ->
         exists m y, MeanOf (Last120 time data i j) m /\ Cell out i j = Some (Some y) /\ (y == x - m)%Q) /\
      (Cell data i j = Some None -> Cell out i j = Some None).
Proof.
  intros data time t0 dt width L2 L3 D ES G.
  assert (T : exists a b rest, time = a :: b :: rest /\ (b - a = dt)%Z).
  { destruct time as [|a [|b rest]]; cbn in L3; try lia. exists a, b, rest. split; auto.
    pose proof (ES 0 a eq_refl). pose proof (ES 1 b eq_refl). lia. }
  destruct T as (a & b & rest & ET & EB).
  assert (RUN : rem_120day_mean data time = mean_loop (10368000 / dt) data data (seq 0 (length time))).
  { rewrite ET. unfold rem_120day_mean. rewrite EB, steps_120 by auto. cbv zeta.
    destruct (Qeq_bool (inject_Z dt / 86400) 0) eqn:Z0; [|reflexivity]. apply Qeq_bool_iff in Z0.
    unfold Qeq, Qdiv, Qmult, inject_Z in Z0. cbn in Z0. lia. }
  clear ET EB a b rest.
  destruct (mean_loop_ok (10368000 / dt) width data G (length time) 0 data ltac:(lia) eq_refl ltac:(auto)) as (out & E).
  exists out. rewrite RUN. split; [exact E|].
  apply mean_loop_inv in E; [|auto]. destruct E as (LL & _ & IN & _). split; [exact LL|].
  assert (ROW : forall i row, nth_error data i = Some row -> length row = width).
  { intros i row H. unfold Grid in G. rewrite Forall_forall in G. apply G. apply nth_error_In with i; auto. }
  split.
  { apply Forall_forall. intros row' HR. apply In_nth_error in HR. destruct HR as (i & Hi).
    assert (i < length out) by (apply nth_error_Some; congruence). destruct (IN i ltac:(lia)) as (row & mean & R1 & R2 & R3).
    rewrite R3 in Hi. injection Hi as <-. apply nanmean_nth in R2. unfold minus_row. rewrite map_length, combine_length. rewrite (ROW _ _ R1) in *. lia. }
  intros i j. unfold Cell at 1 3. destruct (nth_error data i) as [row|] eqn:R; [|split; intros; discriminate].
  assert (I : i < length data) by (apply nth_error_Some; congruence).
  destruct (IN i ltac:(lia)) as (row1 & mean & R1 & R2 & R3). rewrite R in R1. injection R1 as <-.
  pose proof (ROW _ _ R) as WR. rewrite WR in R2. destruct (nanmean_nth _ _ _ R2) as [LM NM].
  assert (C : forall c, nth_error row j = Some c -> exists col, column j (window (10368000 / dt) data i) = Ok col /\
     nth_error mean j = Some (nanmean col) /\ some_numbers col = Last120 time data i j /\ Cell out i j = Some (lift2 Qminus c (nanmean col))).
  { intros c Hc. assert (J : j < width) by (rewrite <- WR; apply nth_error_Some; congruence).
    destruct (NM j J) as (col & C1 & C2). exists col. split; [exact C1|]. split; [exact C2|]. split.
    - rewrite (last_window data time t0 dt) by (auto; lia). rewrite window_eq in C1 by lia. rewrite skipn_firstn_comm in C1.
      apply column_numbers; auto. assert (0 <= 10368000 / dt)%Z by (apply Z.div_pos; lia). lia.
    - unfold Cell. rewrite R3. apply minus_nth; auto. }
  split.
  - intros x Hx. destruct (C _ Hx) as (col & C1 & C2 & C3 & C4).
    assert (NE : Last120 time data i j <> []).
    { assert (In x (Last120 time data i j)); [|intros Z0; rewrite Z0 in H; contradiction].
      unfold Last120. apply in_flat_map. exists i. split; [apply in_seq; lia|].
      destruct (nth_error time i) as [ti|] eqn:TI; [|apply nth_error_None in TI; lia].
      unfold Cell. rewrite R, Hx. replace (ti - ti)%Z with 0%Z by lia. cbn. auto. }
    assert (NN : nanmean col = Some (plus_all (Last120 time data i j) / inject_Z (Z.of_nat (length (Last120 time data i j))))%Q).
    { unfold nanmean. rewrite C3. destruct (Last120 time data i j); [contradiction|reflexivity]. }
    rewrite NN in C4. cbn [lift2] in C4. eexists. eexists. split; [|split; [exact C4|reflexivity]].
    split; [exact NE|]. unfold plus_all. field. intros Z0. unfold Qeq, inject_Z in Z0. cbn [Qnum Qden] in Z0.
    destruct (Last120 time data i j); [contradiction|]. cbn [length] in Z0. lia.
  - intros Hx. destruct (C _ Hx) as (col & C1 & C2 & C3 & C4). rewrite C4. reflexivity.
Qed.

Lemma C76_past_proof : forall (data data' : list (list (option Q))) (time : list Z) (out out' : list (list (option Q))) (i : nat),
  length data = length data' -> (forall k, k <= i -> nth_error data k = nth_error data' k) ->
  rem_120day_mean data time = Ok out -> rem_120day_mean data' time = Ok out' ->
  forall k, k <= i -> nth_error out k = nth_error out' k.
Proof.
  intros data data' time out out' i HL HS E E' k Hk.
  destruct time as [|a [|b rest]]; try discriminate. unfold rem_120day_mean in E, E'. cbv zeta in E, E'.
  destruct (Qeq_bool _ 0); [discriminate|]. set (ntim := trunc _) in *. clearbody ntim.
  apply mean_loop_inv in E; [|auto]. apply mean_loop_inv in E'; [|auto].
  destruct E as (L1 & M1 & I1 & O1), E' as (L2 & M2 & I2 & O2).
  destruct (Nat.lt_ge_cases k (length (a :: b :: rest))) as [G|G].
  - destruct (I1 k ltac:(lia)) as (row & mean & A1 & A2 & A3). destruct (I2 k ltac:(lia)) as (row' & mean' & B1 & B2 & B3).
    assert (K : k < length data) by (apply nth_error_Some; congruence).
    rewrite HS in A1 by auto. rewrite B1 in A1. injection A1 as <-.
    assert (FN : firstn (S k) data = firstn (S k) data').
    { apply ext_nth. intros q. destruct (Nat.lt_ge_cases q (S k)) as [Q1|Q1].
      - rewrite <- (firstn_skipn (S k) data) in HS. rewrite <- (firstn_skipn (S k) data') in HS. pose proof (HS q ltac:(lia)) as X.
        rewrite !nth_error_app1 in X by (rewrite firstn_length; lia). exact X.
      - rewrite !(proj2 (nth_error_None _ _)); auto; rewrite firstn_length; lia. }
    assert (W : window ntim data k = window ntim data' k) by (rewrite !window_eq by lia; rewrite FN; reflexivity).
    rewrite W, B2 in A2. injection A2 as <-. congruence.
  - rewrite O1, O2 by lia. apply HS; auto.
Qed.

Lemma C76_irregular_refuted_proof :
  ~ (forall (data : list (list (option Q))) (time : list Z) (out : list (list (option Q))),
       length time = length data -> rem_120day_mean data time = Ok out ->
       forall i j x y, Cell data i j = Some (Some x) -> Cell out i j = Some (Some y) ->
         exists m, MeanOf (Last120 time data i j) m /\ (y == x - m)%Q).
Proof.
  intros H. set (day := 86400%Z).
  destruct (H [[Some 1%Q]; [Some 2%Q]; [Some 6%Q]] [0%Z; day; (400 * day)%Z] [[Some 0%Q]; [Some (1 # 2)%Q]; [Some (9 # 3)%Q]] eq_refl) with (i := 2) (j := 0) (x := 6%Q) (y := (9 # 3)%Q) as (m & (NE & M) & E).
  - vm_compute. reflexivity.
  - reflexivity.
  - reflexivity.
  - assert (L : Last120 [0%Z; day; (400 * day)%Z] [[Some 1%Q]; [Some 2%Q]; [Some 6%Q]] 2 0 = [6%Q]) by reflexivity.
    rewrite L in M. cbn in M. change (inject_Z 1) with 1%Q in M. Lqa.lra.
Qed.

Lemma C76_exceptions_proof : forall (data : list (list (option Q))) (time : list Z),
  (length time < 2 -> rem_120day_mean data time = Err IndexError) /\
  (forall t rest, time = t :: t :: rest -> rem_120day_mean data time = Err OverflowError) /\
  (forall t0 t1 rest width, time = t0 :: t1 :: rest -> t0 <> t1 -> Grid width data -> length data < length time ->
     rem_120day_mean data time = Err IndexError).
Proof.
  intros data time. split; [|split].
  - intros H. destruct time as [|a [|b rest]]; cbn in H; try lia; reflexivity.
  - intros t rest ->. unfold rem_120day_mean. rewrite Z.sub_diag. reflexivity.
  - intros a b rest width -> NE G L. unfold rem_120day_mean. cbv zeta.
    destruct (Qeq_bool (inject_Z (b - a) / 86400) 0) eqn:Z0.
    + apply Qeq_bool_iff in Z0. unfold Qeq, Qdiv, Qmult, inject_Z in Z0. cbn in Z0. lia.
    + apply mean_loop_err with width; auto; lia.
Qed.

Lemma C77_ends_proof : forall ntim segLen segOverLap : Z,
  (exists starts, Segments ntim segLen segOverLap 0 starts) <-> (ntim - 1 < segLen \/ 0 < segLen + segOverLap - 1)%Z.
Proof.
  intros ntim L O. split.
  - intros (l & S1). destruct (Z.le_gt_cases (L + O - 1) 0) as [G|G]; [|right; lia]. left.
    destruct (Z.le_gt_cases (0 + L) (ntim - 1)) as [G'|G']; [|lia]. exfalso. apply (seg_stuck _ _ _ _ _ S1); auto.
  - intros [H|H]; [exists []; constructor; lia|]. apply (seg_ok ntim L O H (Z.to_nat (ntim - L)) 0). lia.
Qed.

Lemma C77_starts_proof : forall (ntim segLen segOverLap : Z) (starts : list Z),
  Segments ntim segLen segOverLap 0 starts ->
  (forall s, In s starts -> (0 <= s /\ s + segLen < ntim)%Z) /\
  (forall k, k < length starts <->
     (0 < segLen + segOverLap - 1)%Z /\ (Z.of_nat k * (segLen + segOverLap - 1) + segLen <= ntim - 1)%Z) /\
  (forall k s, nth_error starts k = Some s -> s = (Z.of_nat k * (segLen + segOverLap - 1))%Z).
Proof.
  intros ntim L O l H. pose proof (seg_inv _ _ _ _ _ H) as [A B].
  assert (ST : (0 < L + O - 1)%Z \/ l = []).
  { destruct (Z.le_gt_cases (L + O - 1) 0) as [G|G]; [|left; lia]. right. inversion H; subst; auto. exfalso. apply (seg_stuck _ _ _ _ _ H G). lia. }
  split; [|split].
  - intros s Hs. apply In_nth_error in Hs. destruct Hs as (k & Hk). destruct (A _ _ Hk) as [E1 E2]. destruct ST as [ST|ST]; [nia|]. subst l. destruct k; discriminate.
  - intros k. split.
    + intros Hk. destruct ST as [ST|ST]; [|subst l; cbn in Hk; lia]. split; auto.
      destruct (nth_error l k) as [s|] eqn:E; [|apply nth_error_None in E; lia]. apply A in E. lia.
    + intros [S1 S2]. destruct (Nat.lt_ge_cases k (length l)) as [G|G]; auto. exfalso. nia.
  - intros k s Hk. apply A in Hk. lia.
Qed.

Lemma C77_overlap_proof : forall (ntim segLen segOverLap : Z) (starts : list Z) k s s',
  Segments ntim segLen segOverLap 0 starts -> nth_error starts k = Some s -> nth_error starts (S k) = Some s' ->
  (s + segLen - s' = 1 - segOverLap)%Z.
Proof.
  intros ntim L O l k s s' H E E'. apply seg_inv in H. destruct H as [A _]. apply A in E. apply A in E'. lia.
Qed.

Lemma C77_overlap_refuted_proof :
  ~ (forall (ntim segLen segOverLap : Z) (starts : list Z) k s s',
       (0 < segOverLap < segLen)%Z -> Segments ntim segLen segOverLap 0 starts ->
       nth_error starts k = Some s -> nth_error starts (S k) = Some s' -> (s + segLen - s' = segOverLap)%Z).
Proof.
  intros H. specialize (H 12 4 2 _ 0%nat 0 5 ltac:(lia) seg_two eq_refl eq_refl)%Z. lia.
Qed.

Lemma C77_last_refuted_proof :
  ~ (forall (ntim segLen segOverLap : Z) (starts : list Z) (k : nat),
       (0 < segLen + segOverLap - 1)%Z -> Segments ntim segLen segOverLap 0 starts ->
       (Z.of_nat k * (segLen + segOverLap - 1) + segLen <= ntim)%Z -> k < length starts).
Proof.
  intros H. specialize (H 4 4 0 [] 0%nat ltac:(lia) seg_4)%Z. cbn in H. specialize (H ltac:(lia)). lia.
Qed.

Lemma C78_coherence_proof : forall (segments : list (list (list ((R * R) * (R * R))))) (n : nat),
  segments <> [] -> 2 <= n -> Forall (fun seg => length seg = n /\ Forall (fun lats => lats <> []) seg) segments ->
  exists spectra, mean_spectra segments n = Ok (Some spectra) /\ length spectra = n /\
    Forall (fun s => match s with (px, py, _, _) => (0 <= px /\ 0 <= py)%R end /\
                     forall coh, fst (coh2pha s) = Some coh -> (0 <= coh <= 1)%R) spectra.
Proof.
  intros segments n NE HN F.
  assert (M : exists stc, mapM (fun seg => smooth_quads (map cross seg)) segments = Ok stc /\ Forall2 (fun _ s => length s = n) segments stc).
  { apply mapM_all. intros seg Hs. rewrite Forall_forall in F. destruct (F _ Hs) as [L _].
    destruct (smooth_len (map cross seg)) as (t & E & LT); [rewrite map_length; lia|]. exists t. split; [exact E|]. rewrite LT, map_length. exact L. }
  destruct M as (stc & M & LS). unfold mean_spectra at 1. rewrite M. cbn [bind].
  destruct segments as [|s0 segs] eqn:SG; [contradiction|]. rewrite <- SG in *. eexists. split; [reflexivity|]. split.
  - rewrite map_length. apply sums_len; [apply repeat_length|]. clear - LS. induction LS; constructor; auto.
  - eapply TropicsProofs.forall_impl; [|apply (closed_mean cone cone_zero cone_plus cone_times segments n)].
    + intros s Hs. split; [destruct s as [[[px py] c] q]; cbn in Hs; tauto|]. intros coh. apply coh_bounds. exact Hs.
    + intros seg lats H1 H2. rewrite Forall_forall in F. destruct (F _ H1) as [_ F2]. rewrite Forall_forall in F2. apply cross_cone. auto.
    + unfold mean_spectra. rewrite M. cbn [bind]. rewrite SG. reflexivity.
Qed.

Lemma C78_self_proof : forall (segments : list (list (list ((R * R) * (R * R))))) (n : nat) spectra,
  Forall (Forall (Forall (fun p => fst p = snd p))) segments ->
  mean_spectra segments n = Ok (Some spectra) ->
  Forall (fun s => match s with (px, py, _, _) =>
                     px = py /\ (0 < px -> fst (coh2pha s) = Some 1 /\ snd (coh2pha s) = Some (0, 1))%R end) spectra.
Proof.
  intros segments n spectra F E.
  eapply TropicsProofs.forall_impl; [|apply (closed_mean same_power) with (segments := segments) (n := n); [| | | |exact E]].
  - intros [[[px py] c] q] (<- & -> & ->). split; [reflexivity|]. intros P. cbn [coh2pha fst snd].
    destruct (Req_EM_T px 0); [lra|]. split; [f_equal; field; lra|].
    destruct (Req_EM_T (0 * 0 + px * px) 0) as [Z0|_]; [exfalso; nra|].
    replace (0 * 0 + px * px)%R with (px * px)%R by ring. rewrite sqrt_square by lra. do 2 f_equal; field; lra.
  - cbn. auto.
  - intros [[[? ?] ?] ?] [[[? ?] ?] ?]. cbn. intros (-> & -> & ->) (-> & -> & ->). repeat split; ring.
  - intros k [[[? ?] ?] ?]. cbn. intros _ (-> & -> & ->). repeat split; ring.
  - intros seg lats H1 H2. apply self_cross. rewrite Forall_forall in F. specialize (F _ H1). rewrite Forall_forall in F. apply F; auto.
Qed.

Lemma C78_phase_proof : forall (s : quad) (v1 v2 : R), snd (coh2pha s) = Some (v1, v2) -> (v1 * v1 + v2 * v2 = 1)%R.
Proof.
  intros [[[px py] c] q] v1 v2 H. cbn [coh2pha snd] in H. destruct (Req_EM_T (q * q + c * c) 0) as [|N]; [discriminate|].
  injection H as <- <-. assert (P : (0 < q * q + c * c)%R).
  { assert (X : (0 <= q * q + c * c)%R) by (apply Rplus_le_le_0_compat; apply Rle_0_sqr). lra. }
  pose proof (sqrt_lt_R0 _ P) as S1. pose proof (sqrt_sqrt _ (Rlt_le _ _ P)) as S2.
  set (r := sqrt (q * q + c * c)) in *.
  replace (- q / r * (- q / r) + c / r * (c / r))%R with ((q * q + c * c) / (r * r))%R by (field; lra).
  rewrite S2. field. lra.
Qed.

Lemma C78_exceptions_proof : forall (segments : list (list (list ((R * R) * (R * R))))) (n : nat),
  (mean_spectra segments n = Ok None <-> segments = []) /\
  (mean_spectra segments n = Err IndexError <-> Exists (fun seg => length seg = 1) segments) /\
  (forall e, mean_spectra segments n = Err e -> e = IndexError).
Proof.
  intros segments n.
  assert (D : (exists stc, mapM (fun seg => smooth_quads (map cross seg)) segments = Ok stc) /\ ~ Exists (fun seg => length seg = 1) segments \/
              mapM (fun seg => smooth_quads (map cross seg)) segments = Err IndexError /\ Exists (fun seg => length seg = 1) segments).
  { clear n. induction segments as [|s segs IH].
    - left. split; [eexists; reflexivity|]. intros X. inversion X.
    - cbn [mapM]. destruct (Nat.eq_dec (length s) 1) as [L|L].
      + right. rewrite (proj2 (smooth_err (map cross s) IndexError)) by (rewrite map_length; auto). split; [reflexivity|left; auto].
      + destruct (smooth_len (map cross s)) as (t & E & _); [rewrite map_length; auto|]. rewrite E. cbn [bind].
        destruct IH as [[(stc & IH) N]|[IH X]]; rewrite IH; cbn [bind].
        * left. split; [eexists; reflexivity|]. intros X. inversion X; subst; auto.
        * right. split; auto. }
  unfold mean_spectra. destruct D as [[(stc & E) N]|[E X]]; rewrite E; cbn [bind].
  - split; [|split].
    + destruct segments; split; intros; auto; discriminate.
    + split; [destruct segments; discriminate|]. intros X. contradiction.
    + intros e H. destruct segments; discriminate.
  - split; [|split].
    + split; [discriminate|]. intros ->. inversion X.
    + split; auto.
    + intros e H. injection H as <-. reflexivity.
Qed.

Lemma C79_wavenumbers_proof : forall (A : Type) (P : list (list A)) (mlon : nat), 1 <= mlon -> Grid mlon P ->
  length (wave mlon) = nwave mlon /\ Grid (nwave mlon) (layout mlon P) /\
  forall f c k row, f < length P -> nth_error (wave mlon) c = Some k -> nth_error P f = Some row ->
    exists row', nth_error (layout mlon P) f = Some row' /\
      nth_error row' c = nth_error row (TransformPlace mlon (- k)) /\ nth_error row' c <> None.
Proof.
  intros A P NL N1 G. destruct (nwave_half NL) as [W1 W2].
  assert (LW : length (wave NL) = nwave NL) by (unfold wave; rewrite map_length, seq_length; lia).
  unfold Grid in G. rewrite Forall_forall in G. split; [exact LW|]. split.
  - apply Forall_forall. intros row HR.
    assert (HR' : In row (map (wide_row NL) P)).
    { rewrite layout_rows in HR. destruct (Nat.odd (length P)); auto. apply in_app_or in HR. destruct HR as [HR|HR]; auto. apply firstn_incl in HR. exact HR. }
    apply in_map_iff in HR'. destruct HR' as (r & <- & Hr). apply wide_row_nth; auto.
  - intros f c k row Hf Hk Hr. assert (LR : length row = NL) by (apply G, nth_error_In with f; auto).
    assert (C : c < nwave NL) by (rewrite <- LW; apply nth_error_Some; congruence).
    assert (K : k = (Z.of_nat c - Z.of_nat (NL / 2))%Z).
    { unfold wave in Hk. rewrite nth_error_map, seq_there in Hk by lia. cbn [option_map] in Hk. rewrite W1 in Hk. congruence. }
    exists (wide_row NL row). split.
    + rewrite layout_rows. destruct (Nat.odd (length P)).
      * rewrite nth_error_map, Hr. reflexivity.
      * rewrite nth_error_app1 by (rewrite map_length; auto). rewrite nth_error_map, Hr. reflexivity.
    + destruct (wide_row_nth NL row N1 LR) as [L W]. split.
      * rewrite W by auto. f_equal. f_equal. lia.
      * apply nth_error_Some. lia.
Qed.

Lemma C79_frequencies_proof : forall (A : Type) (P : list (list A)) (mlon segLen : nat),
  1 <= segLen -> Nat.modulo segLen 4 = 0 -> length P = segLen / 2 + 1 ->
  length (layout mlon P) = nfreq segLen /\ length (freq segLen) = nfreq segLen /\
  forall k q, nth_error (freq segLen) k = Some q -> (q == inject_Z (Z.of_nat k) / inject_Z (Z.of_nat segLen))%Q.
Proof.
  intros A P mlon sl H1 H4 HP. destruct (four sl) as (m & E1 & _ & E3). rewrite H4 in E1, E3. change (0 / 2) with 0 in E3. rewrite Nat.add_0_r in E3.
  assert (O : Nat.odd (sl / 2 + 1) = true) by (rewrite E3; apply odd_double1).
  assert (EV : Nat.even sl = true) by (rewrite <- Nat.negb_odd, E1; replace (4 * m + 0) with (2 * (2 * m)) by lia; rewrite odd_even_double; reflexivity).
  assert (NF : nfreq sl = sl / 2 + 1) by (unfold nfreq; rewrite EV, O; reflexivity).
  split; [|split].
  - rewrite layout_len by (intros ->; cbn in HP; lia). rewrite HP, O. lia.
  - unfold freq. rewrite map_length, seq_length. reflexivity.
  - intros k q Hk. assert (K : k < nfreq sl) by (replace (nfreq sl) with (length (freq sl)) by (unfold freq; rewrite map_length, seq_length; reflexivity); apply nth_error_Some; congruence).
    unfold freq in Hk. rewrite nth_error_map, seq_there in Hk by auto. cbn [option_map] in Hk. injection Hk as <-.
    rewrite NF. replace (sl / 2 + 1 - 1) with (2 * m) by lia. rewrite E1.
    replace (Z.of_nat (4 * m + 0)) with (2 * Z.of_nat (2 * m))%Z by lia. rewrite inject_Z_mult.
    assert (NZ : ~ (inject_Z (Z.of_nat (2 * m)) == 0)%Q) by (intros Z0; unfold Qeq, inject_Z in Z0; cbn in Z0; lia).
    change (inject_Z 2) with 2%Q. field. exact NZ.
Qed.

Lemma C79_frequencies_refuted_proof :
  ~ (forall (A : Type) (P : list (list A)) (mlon segLen : nat), 1 <= segLen -> length P = segLen / 2 + 1 ->
       forall k q, k < length P -> nth_error (freq segLen) k = Some q ->
         (q == inject_Z (Z.of_nat k) / inject_Z (Z.of_nat segLen))%Q).
Proof.
  intros H. specialize (H nat [[0]; [1]; [2]; [3]] 1 6 ltac:(lia) eq_refl 1 _ ltac:(cbn; lia) eq_refl). vm_compute in H. discriminate.
Qed.

Lemma C79_last_row_proof : forall (A : Type) (P : list (list A)) (mlon segLen : nat),
  In (Nat.modulo segLen 4) [2; 3] -> length P = segLen / 2 + 1 ->
  length (layout mlon P) = nfreq segLen /\ nfreq segLen = length P + 1 /\
  nth_error (layout mlon P) (length P) = nth_error (layout mlon P) 0 /\
  exists q, nth_error (freq segLen) (length P) = Some q /\ (q == 1 # 2)%Q.
Proof.
  intros A P mlon sl H4 HP. destruct (four sl) as (m & E1 & _ & E3).
  assert (HF : sl / 2 + 1 = 2 * (m + 1)).
  { rewrite E3. destruct H4 as [H4|[H4|[]]]; rewrite <- H4; [change (2 / 2) with 1|change (3 / 2) with 1]; lia. }
  assert (O : Nat.odd (sl / 2 + 1) = false) by (rewrite HF; apply odd_even_double).
  assert (NF : nfreq sl = sl / 2 + 2) by (unfold nfreq; rewrite O, Bool.andb_false_r; reflexivity).
  assert (PN : P <> []) by (intros ->; cbn in HP; lia).
  split; [|split; [|split]].
  - rewrite layout_len by auto. rewrite HP, O, NF. lia.
  - rewrite NF, HP. lia.
  - rewrite layout_rows, HP, O. rewrite nth_error_app2 by (rewrite map_length; lia). rewrite map_length, HP, Nat.sub_diag.
    destruct P; [contradiction|]. reflexivity.
  - eexists. split.
    + unfold freq. rewrite nth_error_map, seq_there by (rewrite NF, HP; lia). reflexivity.
    + rewrite NF, HP. replace (sl / 2 + 2 - 1) with (sl / 2 + 1) by lia.
      assert (NZ : ~ (inject_Z (Z.of_nat (sl / 2 + 1)) == 0)%Q) by (intros Z0; unfold Qeq, inject_Z in Z0; cbn in Z0; lia).
      field. exact NZ.
Qed.

Lemma C79_mismatch_proof : forall (A : Type) (P : list (list A)) (mlon segLen : nat),
  5 <= segLen -> length P = segLen / 2 + 1 ->
  (fits (nfreq segLen) (layout mlon P) = Err ValueError <-> Nat.modulo segLen 4 = 1).
Proof.
  intros A P mlon sl H5 HP. destruct (four sl) as (m & E1 & B & E3).
  assert (PN : P <> []) by (intros ->; cbn in HP; lia).
  unfold fits. rewrite layout_len by auto. rewrite HP. unfold nfreq.
  assert (C : Nat.modulo sl 4 = 0 \/ Nat.modulo sl 4 = 1 \/ Nat.modulo sl 4 = 2 \/ Nat.modulo sl 4 = 3) by lia.
  assert (EV : Nat.even sl = negb (Nat.odd sl)) by (rewrite Nat.negb_odd; reflexivity). rewrite EV.
  destruct C as [C|[C|[C|C]]]; rewrite C in E1, E3 |- *; [change (0 / 2) with 0 in E3|change (1 / 2) with 0 in E3|change (2 / 2) with 1 in E3|change (3 / 2) with 1 in E3].
  - assert (O : Nat.odd (sl / 2 + 1) = true) by (rewrite E3; replace (2 * m + 0 + 1) with (2 * m + 1) by lia; apply odd_double1).
    assert (O2 : Nat.odd sl = false) by (rewrite E1; replace (4 * m + 0) with (2 * (2 * m)) by lia; apply odd_even_double).
    rewrite O, O2. cbn [negb andb]. rewrite Nat.eqb_refl. cbn [orb]. split; intros; discriminate.
  - assert (O : Nat.odd (sl / 2 + 1) = true) by (rewrite E3; replace (2 * m + 0 + 1) with (2 * m + 1) by lia; apply odd_double1).
    assert (O2 : Nat.odd sl = true) by (rewrite E1; replace (4 * m + 1) with (2 * (2 * m) + 1) by lia; apply odd_double1).
    rewrite O, O2. cbn [negb andb]. destruct (Nat.eqb_spec (sl / 2 + 1) (sl / 2 + 2)); [lia|]. destruct (Nat.eqb_spec (sl / 2 + 1) 1); [lia|].
    cbn [orb]. split; auto.
  - assert (O : Nat.odd (sl / 2 + 1) = false) by (rewrite E3; replace (2 * m + 1 + 1) with (2 * (m + 1)) by lia; apply odd_even_double).
    rewrite O, Bool.andb_false_r. replace (S (sl / 2 + 1)) with (sl / 2 + 2) by lia. rewrite Nat.eqb_refl. cbn [orb]. split; intros; discriminate.
  - assert (O : Nat.odd (sl / 2 + 1) = false) by (rewrite E3; replace (2 * m + 1 + 1) with (2 * (m + 1)) by lia; apply odd_even_double).
    rewrite O, Bool.andb_false_r. replace (S (sl / 2 + 1)) with (sl / 2 + 2) by lia. rewrite Nat.eqb_refl. cbn [orb]. split; intros; discriminate.
Qed.

