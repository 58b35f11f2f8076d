(** Proofs about the indices RMM and OMI. *)
From Coq Require Import Reals Qreals QArith String.
From Verif Require Import PyBase ColumnModel TropicsModel SpectraModel SpectraSpec WavesModel WavesSpec BlockProofs TropicsProofs WavesProofs SpectraProofs ActivityModel KfModel KfSpec KfProofs MjoModel MjoSpec MjoProofs RmmModel RmmSpec.
From Coq Require Import List Lia Lqa Lra.
Import ListNotations.
Open Scope nat_scope.
Open Scope list_scope.

(** ** Least squares of two patterns *)
Definition at_ (v : list R) (i : nat) : R := nth i v 0%R.
Definition msum (n : nat) (h : nat -> R) : R := Total (map h (seq 0 n)).
Lemma msum_plus n f h : msum n (fun i => f i + h i)%R = (msum n f + msum n h)%R. Proof. apply tot_plus. Qed.
Lemma msum_scale n c f : msum n (fun i => c * f i)%R = (c * msum n f)%R. Proof. apply tot_scale. Qed.
Lemma msum_ext n f h : (forall i, i < n -> f i = h i) -> msum n f = msum n h.
Proof. intros H. apply tot_ext. intros i I. apply in_seq in I. apply H. lia. Qed.
Lemma dot_sum u v : length u = length v -> dot u v = msum (length u) (fun i => at_ u i * at_ v i)%R.
Proof.
  intros L. unfold dot, msum. assert (E : combine u v = map (fun i => (at_ u i, at_ v i)) (seq 0 (length u))). { rewrite (list_seq u) at 1. rewrite (list_seq v) at 1. rewrite <- L. apply combine_seq. }
  rewrite E, map_map. reflexivity.
Qed.
Section two.
Variables (n : nat) (V E F : nat -> R).
Let aa := msum n (fun i => E i * E i)%R.
Let ab := msum n (fun i => E i * F i)%R.
Let bb := msum n (fun i => F i * F i)%R.
Let av := msum n (fun i => E i * V i)%R.
Let bv := msum n (fun i => F i * V i)%R.
Definition dist a b := msum n (fun i => (V i - (a * E i + b * F i)) ^ 2)%R.
Definition size a b := msum n (fun i => (a * E i + b * F i) * (a * E i + b * F i))%R.
Lemma size_is a b : size a b = (a * a * aa + 2 * a * b * ab + b * b * bb)%R.
Proof.
  unfold size. rewrite (msum_ext n _ (fun i => a * a * (E i * E i) + (2 * a * b * (E i * F i) + b * b * (F i * F i)))%R) by (intros; ring). rewrite !msum_plus, !msum_scale. unfold aa, ab, bb. ring.
Qed.
Lemma size_nonneg a b : (0 <= size a b)%R.
Proof. unfold size, msum. induction (seq 0 n) as [|i l IH]; cbn; [lra|]. unfold Total in IH. pose proof (Rle_0_sqr (a * E i + b * F i)) as Q. unfold Rsqr in Q. lra. Qed.
Lemma size_zero a b : size a b = 0%R -> forall h : nat -> R, msum n (fun i => (a * E i + b * F i) * h i)%R = 0%R.
Proof. intros Z h. unfold msum. apply tot_zero. intros i I. rewrite (sq_zero (fun i => a * E i + b * F i)%R _ Z i I). ring. Qed.
Lemma dist_from a b a' b' : (a * aa + b * ab = av)%R -> (a * ab + b * bb = bv)%R -> dist a' b' = (dist a b + size (a' - a) (b' - b))%R.
Proof.
  intros N1 N2. unfold dist. rewrite (msum_ext n _ (fun i => (V i - (a * E i + b * F i)) ^ 2 + ((a' - a) * (a' - a) + 2 * a * (a' - a)) * (E i * E i) + (2 * (a' - a) * (b' - b) + 2 * (a' - a) * b + 2 * a * (b' - b)) * (E i * F i) + ((b' - b) * (b' - b) + 2 * b * (b' - b)) * (F i * F i) + (- 2 * (a' - a)) * (E i * V i) + (- 2 * (b' - b)) * (F i * V i))%R) by (intros; ring).
  rewrite !msum_plus, !msum_scale. rewrite size_is. fold aa ab bb av bv. rewrite <- N1, <- N2. ring.
Qed.
Definition solved : R * R :=
  let det := (aa * bb - ab * ab)%R in
  if Req_EM_T det 0 then if Req_EM_T (aa + bb) 0 then (0, 0)%R else (av / (aa + bb), bv / (aa + bb))%R
  else ((bb * av - ab * bv) / det, (aa * bv - ab * av) / det)%R.
Lemma aa_nonneg : (0 <= aa)%R. Proof. pose proof (size_nonneg 1 0) as H. rewrite size_is in H. lra. Qed.
Lemma bb_nonneg : (0 <= bb)%R. Proof. pose proof (size_nonneg 0 1) as H. rewrite size_is in H. lra. Qed.
Lemma dep1 : (aa * bb - ab * ab = 0)%R -> forall h, (bb * msum n (fun i => E i * h i) = ab * msum n (fun i => F i * h i))%R.
Proof.
  intros D h. assert (Z : size bb (- ab) = 0%R). { rewrite size_is. replace (bb * bb * aa + 2 * bb * - ab * ab + - ab * - ab * bb)%R with (bb * (aa * bb - ab * ab))%R by ring. rewrite D. ring. }
  pose proof (size_zero _ _ Z h) as H. rewrite (msum_ext n _ (fun i => bb * (E i * h i) + - ab * (F i * h i))%R) in H by (intros; ring). rewrite msum_plus, !msum_scale in H. lra.
Qed.
Lemma dep2 : (aa * bb - ab * ab = 0)%R -> forall h, (aa * msum n (fun i => F i * h i) = ab * msum n (fun i => E i * h i))%R.
Proof.
  intros D h. assert (Z : size (- ab) aa = 0%R). { rewrite size_is. replace (- ab * - ab * aa + 2 * - ab * aa * ab + aa * aa * bb)%R with (aa * (aa * bb - ab * ab))%R by ring. rewrite D. ring. }
  pose proof (size_zero _ _ Z h) as H. rewrite (msum_ext n _ (fun i => aa * (F i * h i) + - ab * (E i * h i))%R) in H by (intros; ring). rewrite msum_plus, !msum_scale in H. lra.
Qed.
Lemma empty : (aa + bb = 0)%R -> av = 0%R /\ bv = 0%R /\ aa = 0%R /\ bb = 0%R /\ ab = 0%R.
Proof.
  intros H. pose proof aa_nonneg as A. pose proof bb_nonneg as B. assert (A0 : aa = 0%R) by lra. assert (B0 : bb = 0%R) by lra.
  assert (Z1 : size 1 0 = 0%R) by (rewrite size_is, A0, B0; ring). assert (Z2 : size 0 1 = 0%R) by (rewrite size_is, A0, B0; ring).
  pose proof (size_zero _ _ Z1 V) as H1. pose proof (size_zero _ _ Z2 V) as H2. pose proof (size_zero _ _ Z1 F) as H3.
  rewrite (msum_ext n _ (fun i => E i * V i)%R) in H1 by (intros; ring). rewrite (msum_ext n _ (fun i => F i * V i)%R) in H2 by (intros; ring). rewrite (msum_ext n _ (fun i => E i * F i)%R) in H3 by (intros; ring). repeat split; assumption.
Qed.
Lemma solved_normal : (fst solved * aa + snd solved * ab = av)%R /\ (fst solved * ab + snd solved * bb = bv)%R.
Proof.
  unfold solved. destruct (Req_EM_T (aa * bb - ab * ab) 0) as [D|D].
  - destruct (Req_EM_T (aa + bb) 0) as [S0|S0]; cbn [fst snd].
    + destruct (empty S0) as (-> & -> & _). split; ring.
    + pose proof (dep1 D V) as H1. pose proof (dep2 D V) as H2. fold av bv in H1, H2. split.
      * replace (av / (aa + bb) * aa + bv / (aa + bb) * ab)%R with ((av * aa + ab * bv) / (aa + bb))%R by (field; exact S0). rewrite <- H1. field. exact S0.
      * replace (av / (aa + bb) * ab + bv / (aa + bb) * bb)%R with ((ab * av + bv * bb) / (aa + bb))%R by (field; exact S0). rewrite <- H2. field. exact S0.
  - cbn [fst snd]. split; field; exact D.
Qed.
Lemma solved_least a b : dist a b = (dist (fst solved) (snd solved) + size (a - fst solved) (b - snd solved))%R /\
  (size (a - fst solved) (b - snd solved) = 0%R -> (a * a + b * b = fst solved * fst solved + snd solved * snd solved + (a - fst solved) * (a - fst solved) + (b - snd solved) * (b - snd solved))%R).
Proof.
  destruct solved_normal as [N1 N2]. split; [apply dist_from; assumption|]. set (x := fst solved) in *. set (y := snd solved) in *. intros Z. set (da := (a - x)%R) in *. set (db := (b - y)%R) in *.
  assert (O : (x * da + y * db = 0)%R).
  { unfold x, y, solved. destruct (Req_EM_T (aa * bb - ab * ab) 0) as [D|D].
    - destruct (Req_EM_T (aa + bb) 0) as [S0|S0]; cbn [fst snd]; [ring|]. pose proof (size_zero _ _ Z V) as H. rewrite (msum_ext n _ (fun i => da * (E i * V i) + db * (F i * V i))%R) in H by (intros; ring). rewrite msum_plus, !msum_scale in H. fold av bv in H.
      replace (av / (aa + bb) * da + bv / (aa + bb) * db)%R with ((da * av + db * bv) / (aa + bb))%R by (field; exact S0). rewrite H. field. exact S0.
    - pose proof (size_zero _ _ Z E) as H1. pose proof (size_zero _ _ Z F) as H2. rewrite (msum_ext n _ (fun i => da * (E i * E i) + db * (E i * F i))%R) in H1 by (intros; ring). rewrite (msum_ext n _ (fun i => da * (E i * F i) + db * (F i * F i))%R) in H2 by (intros; ring). rewrite !msum_plus, !msum_scale in H1, H2. fold aa ab bb in H1, H2.
      assert (DA : da = 0%R). { apply (Rmult_eq_reg_r (aa * bb - ab * ab)); [|exact D]. replace (da * (aa * bb - ab * ab))%R with (bb * (da * aa + db * ab) - ab * (da * ab + db * bb))%R by ring. rewrite H1, H2. ring. }
      assert (DB : db = 0%R). { apply (Rmult_eq_reg_r (aa * bb - ab * ab)); [|exact D]. replace (db * (aa * bb - ab * ab))%R with (aa * (da * ab + db * bb) - ab * (da * aa + db * ab))%R by ring. rewrite H1, H2. ring. }
      rewrite DA, DB. ring. }
  replace a with (x + da)%R by (unfold da; ring). replace b with (y + db)%R by (unfold db; ring). replace ((x + da) * (x + da) + (y + db) * (y + db))%R with (x * x + y * y + da * da + db * db + 2 * (x * da + y * db))%R by ring. rewrite O. ring.
Qed.
End two.
Lemma lstsq_is v e1 e2 : length e1 = length v -> length e2 = length v -> lstsq e1 e2 v = solved (length v) (at_ v) (at_ e1) (at_ e2).
Proof. intros A B. unfold lstsq. rewrite !dot_sum by congruence. rewrite A, B. reflexivity. Qed.
Lemma distance_is v e1 e2 a b : Distance v e1 e2 a b = dist (length v) (at_ v) (at_ e1) (at_ e2) a b. Proof. reflexivity. Qed.
Lemma best_solved v e1 e2 p : BestFit v e1 e2 p <-> p = solved (length v) (at_ v) (at_ e1) (at_ e2).
Proof.
  set (s := solved (length v) (at_ v) (at_ e1) (at_ e2)). pose proof (solved_least (length v) (at_ v) (at_ e1) (at_ e2)) as L. fold s in L. unfold BestFit. split.
  - intros H. destruct (H (fst s) (snd s)) as [H1 H2]. destruct (L (fst p) (snd p)) as [L1 L2]. pose proof (size_nonneg (length v) (at_ e1) (at_ e2) (fst p - fst s) (snd p - snd s)) as N. rewrite !distance_is in H1, H2.
    assert (Z : size (length v) (at_ e1) (at_ e2) (fst p - fst s) (snd p - snd s) = 0%R) by lra. specialize (L2 Z). assert (EQ : dist (length v) (at_ v) (at_ e1) (at_ e2) (fst s) (snd s) = dist (length v) (at_ v) (at_ e1) (at_ e2) (fst p) (snd p)) by lra. specialize (H2 EQ).
    pose proof (Rle_0_sqr (fst p - fst s)) as Q1. pose proof (Rle_0_sqr (snd p - snd s)) as Q2. unfold Rsqr in Q1, Q2.
    assert (D1 : (fst p - fst s = 0)%R) by (apply Rsqr_0_uniq; unfold Rsqr; lra). assert (D2 : (snd p - snd s = 0)%R) by (apply Rsqr_0_uniq; unfold Rsqr; lra). destruct p as [p1 p2], s as [x y]. cbn [fst snd] in *. f_equal; lra.
  - intros -> a b. destruct (L a b) as [L1 L2]. rewrite !distance_is. pose proof (size_nonneg (length v) (at_ e1) (at_ e2) (a - fst s) (b - snd s)) as N. split; [lra|]. intros E. assert (Z : size (length v) (at_ e1) (at_ e2) (a - fst s) (b - snd s) = 0%R) by lra. specialize (L2 Z).
    pose proof (Rle_0_sqr (a - fst s)) as Q1. pose proof (Rle_0_sqr (b - snd s)) as Q2. unfold Rsqr in Q1, Q2. lra.
Qed.
Lemma regress_is v e1 e2 : length e1 = length v -> length e2 = length v -> regress_vector_onto_eofs v e1 e2 = Ok (solved (length v) (at_ v) (at_ e1) (at_ e2)).
Proof. intros A B. unfold regress_vector_onto_eofs. rewrite A, B, !Nat.eqb_refl. cbn [negb]. rewrite lstsq_is by assumption. reflexivity. Qed.
Lemma regress_best v e1 e2 p : length e1 = length v -> length e2 = length v -> (regress_vector_onto_eofs v e1 e2 = Ok p <-> BestFit v e1 e2 p).
Proof. intros A B. rewrite regress_is, best_solved by assumption. split; [intros H|intros H]; congruence. Qed.
Lemma regress_lengths v e1 e2 p : regress_vector_onto_eofs v e1 e2 = Ok p -> length e1 = length v /\ length e2 = length v.
Proof. unfold regress_vector_onto_eofs. destruct (Nat.eqb_spec (length e1) (length e2)); [|discriminate]. destruct (Nat.eqb_spec (length v) (length e1)); [|discriminate]. cbn [negb]. intros _. split; congruence. Qed.
Lemma solved_linear n U V W E F c d : (forall i, i < n -> W i = (c * U i + d * V i)%R) ->
  solved n W E F = (c * fst (solved n U E F) + d * fst (solved n V E F), c * snd (solved n U E F) + d * snd (solved n V E F))%R.
Proof.
  intros H. unfold solved. assert (L : forall h, msum n (fun i => h i * W i)%R = (c * msum n (fun i => h i * U i) + d * msum n (fun i => h i * V i))%R).
  { intros h. rewrite (msum_ext n _ (fun i => c * (h i * U i) + d * (h i * V i))%R) by (intros i I; rewrite H by exact I; ring). rewrite msum_plus, !msum_scale. reflexivity. }
  rewrite !L. destruct (Req_EM_T _ 0) as [D|D]; [destruct (Req_EM_T _ 0) as [D'|D']|]; cbn [fst snd]; apply (f_equal2 pair); try ring; field; assumption.
Qed.

(** ** Arrays without gaps *)
Lemma all_equal_true a b : all_equal a b = true.
Proof.
  unfold all_equal. induction (filter (fun l => existsb (Qeq_bool l) b) a) as [|x l IH]; [reflexivity|]. cbn [combine forallb fst snd]. rewrite IH. rewrite (proj2 (Qeq_bool_iff x x)) by reflexivity. reflexivity.
Qed.
Lemma complete_cell n w data i j : Complete n w data -> i < n -> j < w -> exists x, Cell data i j = Some (Some x).
Proof.
  intros (L & G & F) I J. unfold Cell. destruct (nth_error data i) as [row|] eqn:E; [|apply nth_error_None in E; lia]. apply nth_error_In in E. unfold SpectraSpec.Grid in G. rewrite Forall_forall in G, F. specialize (G row E). specialize (F row E). destruct (nth_error row j) as [o|] eqn:E2; [|apply nth_error_None in E2; lia]. rewrite Forall_forall in F. specialize (F o (nth_error_In _ _ E2)). destruct o as [x|]; [exists x; reflexivity|contradiction].
Qed.
Lemma cell_bounds n w data i j o : Complete n w data -> Cell data i j = Some o -> i < n /\ j < w.
Proof.
  intros (L & G & _) E. unfold Cell in E. destruct (nth_error data i) as [row|] eqn:R; [|discriminate]. unfold SpectraSpec.Grid in G. rewrite Forall_forall in G. specialize (G row (nth_error_In _ _ R)). split; [rewrite <- L|rewrite <- G]; apply nth_error_Some; congruence.
Qed.
Lemma cell_row data i j o : Cell data i j = Some o -> nth_error (nth i data []) j = Some o.
Proof. unfold Cell. destruct (nth_error data i) as [row|] eqn:E; [|discriminate]. rewrite (nth_error_nth _ _ [] E). auto. Qed.
Lemma means_ok data time t0 dt w : 2 <= length time -> (0 < dt)%Z -> EqualSteps t0 dt time -> Complete (length time) w data ->
  exists out, rem_120day_mean data time = Ok out /\ Complete (length time) w out /\
    forall i j x, Cell data i j = Some (Some x) -> exists m y, MeanOf (Last120 time data i j) m /\ Cell out i j = Some (Some y) /\ (y == x - m)%Q.
Proof.
  intros L D ES CO. pose proof CO as (LN & G & F). destruct (C76_mean_proof data time t0 dt w (eq_sym LN) L D ES G) as (out & E & LO & GO & H). exists out. split; [exact E|]. split.
  - split; [congruence|]. split; [exact GO|]. apply Forall_forall. intros row IR. apply Forall_forall. intros o IO. apply In_nth_error in IR. destruct IR as [i IR]. apply In_nth_error in IO. destruct IO as [j IO].
    assert (I : i < length time) by (rewrite <- LN, <- LO; apply nth_error_Some; congruence). assert (J : j < w). { unfold SpectraSpec.Grid in GO. rewrite Forall_forall in GO. rewrite <- (GO row (nth_error_In _ _ IR)). apply nth_error_Some. congruence. }
    destruct (complete_cell _ _ _ i j CO I J) as [x X]. destruct (proj1 (H i j) x X) as (m & y & _ & Y & _). unfold Cell in Y. rewrite IR, IO in Y. congruence.
  - intros i j x X. exact (proj1 (H i j) x X).
Qed.
Lemma over_cell n data i j x : Cell data i j = Some (Some x) -> Cell (map (map (option_map (fun x => x / n)%Q)) data) i j = Some (Some (x / n)%Q).
Proof.
  unfold Cell. rewrite nth_error_map. destruct (nth_error data i) as [row|]; [|discriminate]. cbn [option_map]. rewrite nth_error_map. intros ->. reflexivity.
Qed.
Lemma over_complete n k w data : Complete k w data -> Complete k w (map (map (option_map (fun x => x / n)%Q)) data).
Proof.
  intros (L & G & F). split; [rewrite map_length; exact L|]. unfold SpectraSpec.Grid in *. split; apply Forall_forall; intros row I; apply in_map_iff in I; destruct I as (r & <- & I).
  - rewrite map_length. rewrite Forall_forall in G. apply G. exact I.
  - apply Forall_forall. intros o O. apply in_map_iff in O. destruct O as (o' & <- & O). rewrite Forall_forall in F. specialize (F r I). rewrite Forall_forall in F. specialize (F o' O). destruct o'; [discriminate|contradiction].
Qed.
Definition anomalies (time : list Z) (data : list (list (option Q))) (n : Q) (out : list (list (option Q))) : Prop :=
  forall i j x, Cell data i j = Some (Some x) -> exists y, Cell out i j = Some (Some y) /\ Anomaly time data n i j (Q2R y).
Lemma prepared data time t0 dt w n i norm : 2 <= length time -> (0 < dt)%Z -> EqualSteps t0 dt time -> Complete (length time) w data -> nth_error norm i = Some n -> ~ (n == 0)%Q ->
  exists m out, rem_120day_mean data time = Ok m /\ normalize i norm m = Ok out /\ Complete (length time) w out /\ anomalies time data n out.
Proof.
  intros L D ES CO N NZ. destruct (means_ok data time t0 dt w L D ES CO) as (m & E & CM & H). exists m. unfold normalize. assert (G : get i norm = Ok n) by (apply get_ok; exact N). rewrite G. cbn [bind].
  destruct (Qeq_bool n 0) eqn:Z; [apply Qeq_bool_iff in Z; contradiction|]. eexists. split; [exact E|]. split; [reflexivity|]. split; [apply over_complete; exact CM|]. intros a b x X. destruct (H a b x X) as (mm & y & M & Y & EQ). exists (y / n)%Q. split; [apply over_cell; exact Y|]. exists x, mm. split; [exact X|]. split; [exact M|].
  rewrite Q2R_div by exact NZ. rewrite (Qeq_eqR _ _ EQ), Q2R_minus. reflexivity.
Qed.
Definition tor (o : option Q) : R := match o with Some x => Q2R x | None => 0%R end.
Lemma numbers_ok row : Forall (fun o => o <> None) row -> numbers row = Ok (map tor row).
Proof.
  unfold numbers. induction row as [|o row IH]; intros F; [reflexivity|]. inversion F as [|? ? N F']; subst. cbn [mapM]. destruct o as [x|]; [|contradiction]. cbn [bind]. rewrite (IH F'). reflexivity.
Qed.
Lemma complete_row n w data i : Complete n w data -> i < n -> get i data = Ok (nth i data []) /\ length (nth i data []) = w /\ Forall (fun o => o <> None) (nth i data []).
Proof.
  intros (L & G & F) I. assert (E : nth_error data i = Some (nth i data [])) by (apply nth_error_nth'; lia). split; [apply get_ok; exact E|]. unfold SpectraSpec.Grid in G. rewrite Forall_forall in G, F. split; [apply G|apply F]; exact (nth_error_In _ _ E).
Qed.
Definition vec (o a b : list (list (option Q))) (i : nat) : list R := map tor (nth i o [] ++ nth i a [] ++ nth i b []).
Lemma vec_len o a b n w i : Complete n w o -> Complete n w a -> Complete n w b -> i < n -> length (vec o a b i) = 3 * w.
Proof.
  intros A B D I. unfold vec. rewrite map_length, !app_length. rewrite (proj1 (proj2 (complete_row _ _ _ i A I))), (proj1 (proj2 (complete_row _ _ _ i B I))), (proj1 (proj2 (complete_row _ _ _ i D I))). lia.
Qed.
Lemma rows_ok o a b n w : Complete n w o -> Complete n w a -> Complete n w b ->
  mapM (fun i => x <- get i o ;; y <- get i a ;; z <- get i b ;; numbers (x ++ y ++ z)) (seq 0 n) = Ok (map (vec o a b) (seq 0 n)).
Proof.
  intros A B D. apply mapM_ok_seq. intros i I. destruct (complete_row _ _ _ i A I) as (-> & _ & FA). destruct (complete_row _ _ _ i B I) as (-> & _ & FB). destruct (complete_row _ _ _ i D I) as (-> & _ & FD). cbn [bind]. apply numbers_ok. apply Forall_app. split; [exact FA|]. apply Forall_app. split; assumption.
Qed.
Lemma fits_same n w : fits n w n w = Ok tt. Proof. unfold fits. rewrite !Nat.eqb_refl. reflexivity. Qed.
Lemma patterns_ok w E1 E2 : ThreeRows w (prows E1) -> ThreeRows w (prows E2) -> join_patterns w E1 E2 = Ok (concat (prows E1), concat (prows E2)) /\ length (concat (prows E1)) = 3 * w /\ length (concat (prows E2)) = 3 * w.
Proof.
  destruct E1 as [l1 p1], E2 as [l2 p2]. unfold ThreeRows, join_patterns. cbn [prows]. intros [A1 A2] [B1 B2]. destruct p1 as [|a [|b [|c [|? ?]]]]; try discriminate A1. destruct p2 as [|a' [|b' [|c' [|? ?]]]]; try discriminate B1.
  inversion A2 as [|? ? X1 A3]; subst. inversion A3 as [|? ? X2 A4]; subst. inversion A4 as [|? ? X3 _]; subst. inversion B2 as [|? ? Y1 B3]; subst. inversion B3 as [|? ? Y2 B4]; subst. inversion B4 as [|? ? Y3 _]; subst.
  cbn [mapM get nth_error bind]. rewrite X2, X3, Y1, Y2, Y3, !fits_same. cbn [bind map fst snd]. split; [reflexivity|]. cbn [concat]. rewrite !app_length. cbn [length]. lia.
Qed.
Lemma regress_rows n rowsv w e1 e2 : length e1 = w -> length e2 = w -> (forall i, i < n -> nth_error rowsv i = Some (nth i rowsv []) /\ length (nth i rowsv []) = w) ->
  regress_2dim_data_onto_eofs w rowsv n e1 e2 = Ok (map (fun i => solved w (at_ (nth i rowsv [])) (at_ e1) (at_ e2)) (seq 0 n)).
Proof.
  intros A B H. unfold regress_2dim_data_onto_eofs. apply mapM_ok_seq. intros i I. destruct (H i I) as [E L]. rewrite (proj2 (get_ok i rowsv _) E). cbn [bind]. unfold reshape. rewrite L, A, B, Nat.eqb_refl. cbn [bind]. rewrite regress_is by congruence. rewrite L. reflexivity.
Qed.
Lemma scaled_ok i norm n pc : nth_error norm i = Some n -> ~ (n == 0)%Q -> scaled i norm pc = Ok (map (fun x => x * (1 / Q2R n))%R pc).
Proof. intros N NZ. unfold scaled. rewrite (proj2 (get_ok i norm n) N). cbn [bind]. destruct (Qeq_bool n 0) eqn:Z; [apply Qeq_bool_iff in Z; contradiction|reflexivity]. Qed.
Lemma rmm_run olr u850 u200 time t0 dt EOF1 EOF2 n0 n1 n2 m0 m1 nlon more more' :
  2 <= length time -> (0 < dt)%Z -> EqualSteps t0 dt time ->
  Complete (length time) nlon (rows olr) -> Complete (length time) nlon (rows u850) -> Complete (length time) nlon (rows u200) ->
  length (lon olr) = nlon -> length (lon u850) = nlon -> length (lon u200) = nlon ->
  ThreeRows nlon (prows EOF1) -> ThreeRows nlon (prows EOF2) ->
  ~ (n0 == 0)%Q -> ~ (n1 == 0)%Q -> ~ (n2 == 0)%Q -> ~ (m0 == 0)%Q -> ~ (m1 == 0)%Q ->
  exists V : nat -> list R,
    let P i := solved (3 * nlon) (at_ (V i)) (at_ (concat (prows EOF1))) (at_ (concat (prows EOF2))) in
    rmm olr u850 u200 time EOF1 EOF2 (n0 :: n1 :: n2 :: more) (m0 :: m1 :: more') =
      Ok (map (fun i => fst (P i) / Q2R m0)%R (seq 0 (length time)), map (fun i => snd (P i) / Q2R m1)%R (seq 0 (length time))) /\
    forall i, i < length time -> length (V i) = 3 * nlon /\
      forall j, j < nlon -> Anomaly time (rows olr) n0 i j (nth j (V i) 0%R) /\
         Anomaly time (rows u850) n1 i j (nth (nlon + j) (V i) 0%R) /\ Anomaly time (rows u200) n2 i j (nth (2 * nlon + j) (V i) 0%R).
Proof.
  intros L D ES CO CA CB LO LA LB T1 T2 Z0 Z1 Z2 Y0 Y1.
  destruct (prepared (rows olr) time t0 dt nlon n0 0 (n0 :: n1 :: n2 :: more) L D ES CO eq_refl Z0) as (mo & o & E1 & E2 & KO & AO).
  destruct (prepared (rows u850) time t0 dt nlon n1 1 (n0 :: n1 :: n2 :: more) L D ES CA eq_refl Z1) as (ma & a & E3 & E4 & KA & AA).
  destruct (prepared (rows u200) time t0 dt nlon n2 2 (n0 :: n1 :: n2 :: more) L D ES CB eq_refl Z2) as (mb & b & E5 & E6 & KB & AB).
  exists (vec o a b). cbv zeta. split.
  - unfold rmm. rewrite !all_equal_true. cbn [negb]. rewrite E1. cbn [bind]. rewrite E3. cbn [bind]. rewrite E5. cbn [bind]. rewrite E2. cbn [bind]. rewrite E4. cbn [bind]. rewrite E6. cbn [bind]. cbv zeta. rewrite LO, LA, LB. replace (length o) with (length time) by (symmetry; apply KO). replace (length a) with (length time) by (symmetry; apply KA). replace (length b) with (length time) by (symmetry; apply KB). rewrite !fits_same. cbn [bind].
    rewrite (rows_ok o a b _ nlon KO KA KB). cbn [bind]. destruct (patterns_ok nlon EOF1 EOF2 T1 T2) as (-> & L1 & L2). cbn [bind fst snd].
    assert (NT : forall i, i < length time -> nth_error (map (vec o a b) (seq 0 (length time))) i = Some (vec o a b i)) by (intros i I; apply nth_map_seq; exact I).
    rewrite (regress_rows (length time) _ (3 * nlon) _ _ L1 L2); [|intros i I; rewrite (nth_error_nth _ _ [] (NT i I)); split; [exact (NT i I)|exact (vec_len o a b _ nlon i KO KA KB I)]].
    cbn [bind]. rewrite (scaled_ok 0 _ m0) by (reflexivity || assumption). cbn [bind]. rewrite (scaled_ok 1 _ m1) by (reflexivity || assumption). cbn [bind]. rewrite !map_map. f_equal. apply (f_equal2 pair); apply map_ext_in; intros i I; apply in_seq in I; rewrite (nth_error_nth _ _ [] (NT i ltac:(lia))); unfold Rdiv; ring.
  - intros i I. split; [exact (vec_len o a b _ nlon i KO KA KB I)|]. intros j J.
    pose proof (proj1 (proj2 (complete_row _ _ _ i KO I))) as W1. pose proof (proj1 (proj2 (complete_row _ _ _ i KA I))) as W2.
    assert (PICK : forall data n out k, anomalies time data n out -> Complete (length time) nlon data -> nth_error (map tor (nth i out [])) j = Some (nth k (vec o a b i) 0%R) -> Anomaly time data n i j (nth k (vec o a b i) 0%R)).
    { intros data n out k AN CD E. destruct (complete_cell _ _ _ i j CD I J) as [x X]. destruct (AN i j x X) as (y & Y & A). rewrite nth_error_map, (cell_row _ _ _ _ Y) in E. cbn [option_map tor] in E. injection E as <-. exact A. }
    assert (AT : forall k v, nth_error (vec o a b i) k = Some v -> nth k (vec o a b i) 0%R = v) by (intros k v; apply nth_error_nth).
    assert (SOME : forall out, Complete (length time) nlon out -> exists v, nth_error (map tor (nth i out [])) j = Some v). { intros out K. destruct (nth_error (map tor (nth i out [])) j) as [v|] eqn:E; [exists v; reflexivity|]. apply nth_error_None in E. rewrite map_length, (proj1 (proj2 (complete_row _ _ _ i K I))) in E. lia. }
    destruct (SOME o KO) as [vo Eo]. destruct (SOME a KA) as [va Ea]. destruct (SOME b KB) as [vb Eb].
    assert (Xo : nth_error (vec o a b i) j = Some vo). { unfold vec. rewrite !map_app, nth_error_app1 by (rewrite map_length; lia). exact Eo. }
    assert (Xa : nth_error (vec o a b i) (nlon + j) = Some va). { unfold vec. rewrite !map_app, nth_error_app2 by (rewrite map_length; lia). rewrite map_length, W1. replace (nlon + j - nlon) with j by lia. rewrite nth_error_app1 by (rewrite map_length; lia). exact Ea. }
    assert (Xb : nth_error (vec o a b i) (2 * nlon + j) = Some vb). { unfold vec. rewrite !map_app, nth_error_app2 by (rewrite map_length; lia). rewrite map_length, W1. rewrite nth_error_app2 by (rewrite map_length; lia). rewrite map_length, W2. replace (2 * nlon + j - nlon - nlon) with j by lia. exact Eb. }
    split; [|split]; (eapply PICK; [eassumption|eassumption|]).
    + rewrite (AT _ _ Xo). exact Eo.
    + rewrite (AT _ _ Xa). exact Ea.
    + rewrite (AT _ _ Xb). exact Eb.
Qed.
Lemma mean_fun l m m' : MeanOf l m -> MeanOf l m' -> Q2R m = Q2R m'.
Proof.
  intros [N A] [_ B]. apply Qeq_eqR. assert (Z : ~ (inject_Z (Z.of_nat (length l)) == 0)%Q) by (apply nat_nz; destruct l; [contradiction|cbn; lia]). rewrite <- B in A. apply Qmult_inj_r in A; [exact A|exact Z].
Qed.
Lemma anomaly_fun time data n i j a a' : Anomaly time data n i j a -> Anomaly time data n i j a' -> a = a'.
Proof. intros (x & m & X & M & ->) (x' & m' & X' & M' & ->). assert (x = x') by congruence. subst x'. rewrite (mean_fun _ _ _ M M'). reflexivity. Qed.
Lemma same_anomalies nlon T (V V' : nat -> list R) olr u850 u200 olr' u850' u200' n0 n1 n2 i time :
  (forall data data', In (data, data') [(olr, olr'); (u850, u850'); (u200, u200')] -> forall n j a, j < nlon -> Anomaly time data n i j a -> Anomaly time data' n i j a) ->
  (forall i, i < T -> length (V i) = 3 * nlon /\ forall j, j < nlon -> Anomaly time olr n0 i j (nth j (V i) 0%R) /\ Anomaly time u850 n1 i j (nth (nlon + j) (V i) 0%R) /\ Anomaly time u200 n2 i j (nth (2 * nlon + j) (V i) 0%R)) ->
  (forall i, i < T -> length (V' i) = 3 * nlon /\ forall j, j < nlon -> Anomaly time olr' n0 i j (nth j (V' i) 0%R) /\ Anomaly time u850' n1 i j (nth (nlon + j) (V' i) 0%R) /\ Anomaly time u200' n2 i j (nth (2 * nlon + j) (V' i) 0%R)) ->
  i < T -> V i = V' i.
Proof.
  intros H A B I. destruct (A i I) as [LA HA]. destruct (B i I) as [LB HB]. apply (nth_ext _ _ 0%R 0%R); [congruence|]. intros k K. rewrite LA in K.
  assert (C3 : (exists j, j < nlon /\ k = j) \/ (exists j, j < nlon /\ k = nlon + j) \/ (exists j, j < nlon /\ k = 2 * nlon + j)). { destruct (Nat.lt_ge_cases k nlon); [left; exists k; lia|]. destruct (Nat.lt_ge_cases k (2 * nlon)); [right; left; exists (k - nlon); lia|]. right; right; exists (k - 2 * nlon); lia. }
  destruct C3 as [(j & J & ->)|[(j & J & ->)|(j & J & ->)]]; destruct (HA j J) as (A1 & A2 & A3); destruct (HB j J) as (B1 & B2 & B3).
  - apply (anomaly_fun time olr' n0 i j); [|exact B1]. apply (H olr olr'); [left; reflexivity|exact J|exact A1].
  - apply (anomaly_fun time u850' n1 i j); [|exact B2]. apply (H u850 u850'); [right; left; reflexivity|exact J|exact A2].
  - apply (anomaly_fun time u200' n2 i j); [|exact B3]. apply (H u200 u200'); [right; right; left; reflexivity|exact J|exact A3].
Qed.
Lemma shift_anomaly time T w c data data' n i j a : Complete T w data -> Complete T w data' -> Shifted c data data' -> j < w -> Anomaly time data n i j a -> Anomaly time data' n i j a.
Proof.
  intros CO CO' SH J (x & m & X & M & ->). destruct (SH i j x X) as (y & Y & EY). exists y, (m + c j)%Q. split; [exact Y|]. split.
  - assert (G : forall ks, length (flat_map (fun k => match nth_error time i, nth_error time k, Cell data' k j with Some ti, Some tk, Some (Some x) => if Z.leb (ti - tk) (120 * 86400) then [x] else [] | _, _, _ => [] end) ks) =
                        length (flat_map (fun k => match nth_error time i, nth_error time k, Cell data k j with Some ti, Some tk, Some (Some x) => if Z.leb (ti - tk) (120 * 86400) then [x] else [] | _, _, _ => [] end) ks) /\
             (fold_right Qplus 0 (flat_map (fun k => match nth_error time i, nth_error time k, Cell data' k j with Some ti, Some tk, Some (Some x) => if Z.leb (ti - tk) (120 * 86400) then [x] else [] | _, _, _ => [] end) ks) ==
              fold_right Qplus 0 (flat_map (fun k => match nth_error time i, nth_error time k, Cell data k j with Some ti, Some tk, Some (Some x) => if Z.leb (ti - tk) (120 * 86400) then [x] else [] | _, _, _ => [] end) ks) +
              c j * inject_Z (Z.of_nat (length (flat_map (fun k => match nth_error time i, nth_error time k, Cell data k j with Some ti, Some tk, Some (Some x) => if Z.leb (ti - tk) (120 * 86400) then [x] else [] | _, _, _ => [] end) ks))))%Q).
    { induction ks as [|k ks [IH1 IH2]]; [cbn; split; [reflexivity|ring]|]. cbn [flat_map]. rewrite !app_length.
      destruct (nth_error time i) as [ti|]; [|cbn [app length Nat.add]; split; assumption]. destruct (nth_error time k) as [tk|]; [|cbn [app length Nat.add]; split; assumption].
      destruct (Cell data k j) as [o|] eqn:CK.
      - destruct (cell_bounds _ _ _ _ _ _ CO CK) as [KT _]. destruct (complete_cell _ _ _ k j CO KT J) as [xk XK]. assert (o = Some xk) by congruence. subst o. destruct (SH k j xk CK) as (yk & YK & EK). rewrite YK. destruct (Z.leb _ _); [|cbn [app length Nat.add]; split; assumption].
        cbn [app length Nat.add fold_right]. split; [f_equal; exact IH1|]. rewrite IH2, EK. rewrite Nat2Z.inj_succ, <- Z.add_1_r, inject_Z_plus. ring.
      - destruct (Cell data' k j) as [o|] eqn:CK'; [|cbn [app length Nat.add]; split; assumption]. exfalso. destruct (cell_bounds _ _ _ _ _ _ CO' CK') as [KT _]. destruct (complete_cell _ _ _ k j CO KT J) as [xk XK]. congruence. }
    destruct (G (seq 0 (S i))) as [G1 G2]. fold (Last120 time data' i j) in G1, G2. fold (Last120 time data i j) in G1, G2. destruct M as [M1 M2]. split.
    + intros E. rewrite E in G1. destruct (Last120 time data i j); [contradiction|discriminate G1].
    + rewrite G1, G2, <- M2. ring.
  - rewrite (Qeq_eqR _ _ EY), !Q2R_plus. f_equal. ring.
Qed.
Lemma past_anomaly time data data' n i j a : (forall k, k <= i -> nth_error data k = nth_error data' k) -> Anomaly time data n i j a -> Anomaly time data' n i j a.
Proof.
  intros H (x & m & X & M & ->). assert (CE : forall k, k <= i -> Cell data k j = Cell data' k j) by (intros k K; unfold Cell; rewrite H by exact K; reflexivity). exists x, m. split; [rewrite <- CE by lia; exact X|]. split; [|reflexivity].
  replace (Last120 time data' i j) with (Last120 time data i j); [exact M|]. unfold Last120. rewrite !flat_map_concat_map. f_equal. apply map_ext_in. intros k K. apply in_seq in K. rewrite CE by lia. reflexivity.
Qed.
Lemma rmm_head olr u850 u200 time EOF1 EOF2 rmm_norm pc_norm : rmm olr u850 u200 time EOF1 EOF2 rmm_norm pc_norm =
    (o <- rem_120day_mean (rows olr) time ;;
    a <- rem_120day_mean (rows u850) time ;;
    b <- rem_120day_mean (rows u200) time ;;
    o <- normalize 0 rmm_norm o ;;
    a <- normalize 1 rmm_norm a ;;
    b <- normalize 2 rmm_norm b ;;
    let ntim := length o in
    let nlon := length (lon olr) in
    _ <- fits ntim nlon (length a) (length (lon u850)) ;;
    _ <- fits ntim nlon (length b) (length (lon u200)) ;;
    data <- mapM (fun i => x <- get i o ;; y <- get i a ;; z <- get i b ;; numbers (x ++ y ++ z)) (seq 0 ntim) ;;
    es <- join_patterns nlon EOF1 EOF2 ;;
    pcs <- regress_2dim_data_onto_eofs (3 * nlon) data (length time) (fst es) (snd es) ;;
    pc1 <- scaled 0 pc_norm (map fst pcs) ;;
    pc2 <- scaled 1 pc_norm (map snd pcs) ;;
    Ok (pc1, pc2)).
Proof. unfold rmm. rewrite !all_equal_true. reflexivity. Qed.

(** ** A factor *)
Definition lifted {A B : Type} (h : A -> B) (r : res A) : res B := match r with Ok x => Ok (h x) | Err e => Err e end.
Lemma mapM_lift {A B C} (f : A -> res B) (f' : A -> res C) (h : B -> C) l : (forall x, In x l -> f' x = lifted h (f x)) -> mapM f' l = lifted (map h) (mapM f l).
Proof.
  induction l as [|a l IH]; intros H; [reflexivity|]. cbn [mapM]. rewrite (H a) by (left; reflexivity). destruct (f a) as [b|e]; [|reflexivity]. cbn [lifted bind]. rewrite IH by (intros x I; apply H; right; exact I). destruct (mapM f l); reflexivity.
Qed.
Lemma mapM_map {A B C} (g : A -> B) (f : B -> res C) l : mapM f (map g l) = mapM (fun x => f (g x)) l.
Proof. induction l as [|a l IH]; [reflexivity|]. cbn [map mapM]. rewrite IH. reflexivity. Qed.
Lemma mapM_len {A B} (f : A -> res B) l r : mapM f l = Ok r -> length r = length l.
Proof. intros H. symmetry. exact (forall2_len _ _ _ (mapM_inv f l r H)). Qed.
Lemma dot_times c e v : dot e (map (Rmult c) v) = (c * dot e v)%R.
Proof. unfold dot. revert v. induction e as [|a e IH]; intros [|b v]; cbn; try ring. unfold rsum in IH. rewrite IH. ring. Qed.
Definition times (c : R) (p : R * R) : R * R := (c * fst p, c * snd p)%R.
Lemma regress_times c v e1 e2 : regress_vector_onto_eofs (map (Rmult c) v) e1 e2 = lifted (times c) (regress_vector_onto_eofs v e1 e2).
Proof.
  unfold regress_vector_onto_eofs. rewrite map_length. destruct (negb _); [reflexivity|]. destruct (negb _); [reflexivity|]. cbn [lifted]. f_equal. unfold lstsq, times. rewrite !dot_times.
  destruct (Req_EM_T _ 0) as [D|D]; [destruct (Req_EM_T _ 0) as [D'|D']|]; cbn [fst snd]; apply (f_equal2 pair); try ring; field; assumption.
Qed.
Lemma reshape_times c n v : reshape n (map (Rmult c) v) = lifted (map (Rmult c)) (reshape n v).
Proof. unfold reshape. rewrite map_length. destruct (_ =? _); reflexivity. Qed.
Lemma select_times c ts data val : select ts (map (map (map (Rmult c))) data) val = lifted (map (Rmult c)) (select ts data val).
Proof.
  unfold select. destruct (filter _ _) as [|[i s] [|? ?]]; [reflexivity| |reflexivity]. rewrite mapM_map. rewrite (mapM_lift (get i) _ (map (Rmult c))).
  - destruct (mapM (get i) data) as [vs|e]; [|reflexivity]. cbn [lifted bind]. rewrite concat_map. reflexivity.
  - intros f _. unfold get. rewrite nth_error_map. destruct (nth_error f i); reflexivity.
Qed.
Lemma regress3_times c lat lon data time E1 E2 : regress_3dim_data_onto_eofs lat lon (map (map (map (Rmult c))) data) time E1 E2 = lifted (map (times c)) (regress_3dim_data_onto_eofs lat lon data time E1 E2).
Proof.
  unfold regress_3dim_data_onto_eofs. rewrite !all_equal_true. cbn [negb]. apply mapM_lift. intros val _. rewrite select_times. destruct (select time data val) as [r|]; [|reflexivity]. cbn [lifted bind]. rewrite reshape_times. destruct (reshape _ r) as [v|]; [|reflexivity]. cbn [lifted bind].
  destruct (get _ (days E1)) as [d1|]; [|reflexivity]. cbn [bind]. destruct (reshape _ (concat d1)) as [e1|]; [|reflexivity]. cbn [bind]. destruct (get _ (days E2)) as [d2|]; [|reflexivity]. cbn [bind]. destruct (reshape _ (concat d2)) as [e2|]; [|reflexivity]. cbn [bind]. apply regress_times.
Qed.
Lemma sum_times {A} c (f : A -> R) l : Sum (map (fun x => c * f x)%R l) = (c * Sum (map f l))%R.
Proof. unfold Sum. induction l as [|a l IH]; cbn; [ring|]. rewrite IH. ring. Qed.
Lemma average_times c l : Average (map (Rmult c) l) = (c * Average l)%R.
Proof. unfold Average. rewrite map_length. rewrite (sum_times c (fun x => x)). rewrite map_id. unfold Rdiv. ring. Qed.
Lemma spread_times c l : Spread (map (Rmult c) l) = (c * c * Spread l)%R.
Proof.
  unfold Spread. rewrite map_map, average_times, <- (average_times (c * c)), map_map. f_equal. apply map_ext. intros x. ring.
Qed.
Lemma spread_nonneg l : (0 <= Spread l)%R.
Proof.
  unfold Spread, Average at 1. rewrite map_length. unfold Rdiv. assert (S0 : forall m : R, (0 <= Sum (map (fun x => (x - m) ^ 2) l))%R). { intros m. unfold Sum. induction l as [|a l' IH]; cbn [map fold_right]; [lra|]. pose proof (pow2_ge_0 (a - m)) as Q. lra. }
  destruct l as [|a l'] eqn:E; [cbn; lra|]. rewrite <- E in *. apply Rmult_le_pos; [apply S0|]. apply Rlt_le, Rinv_0_lt_compat. subst l. apply lt_0_INR. cbn. lia.
Qed.
Lemma nanstd_is l : nanstd l = sqrt (Spread l).
Proof.
  unfold nanstd, Spread, Average. rewrite map_length. f_equal. f_equal. unfold Sum. change rsum with (fold_right Rplus 0%R). f_equal. apply map_ext. intros x. ring.
Qed.
Lemma nanstd_times c l : nanstd (map (Rmult c) l) = (Rabs c * nanstd l)%R.
Proof. rewrite !nanstd_is, spread_times. rewrite sqrt_mult_alt by apply Rle_0_sqr. rewrite <- sqrt_Rsqr_abs. reflexivity. Qed.

(** ** The filter of a line *)
Lemma column_nth field x t row : nth_error field t = Some row -> nth t (Column x field) 0%R = nth x row 0%R.
Proof. intros E. apply nth_error_nth. unfold Column. rewrite nth_error_map, E. reflexivity. Qed.
Lemma detrend_line c (field field' : list (list R)) x n nl a b : Shape n nl field -> Shape n nl field' -> x < nl ->
  (forall t row row' v v', nth_error field t = Some row -> nth_error field' t = Some row' -> nth_error row x = Some v -> nth_error row' x = Some v' -> v' = (c * v + (a + b * INR t))%R) ->
  forall z, Detrended (Column x field) z -> Detrended (Column x field') (map (Rmult c) z).
Proof.
  intros S0 S1 X H z D. apply detrended_iff in D. destruct D as (L & (A & B & D) & M1 & M2). assert (LC : length (Column x field) = n) by (unfold Column; rewrite map_length; apply S0). assert (LC' : length (Column x field') = n) by (unfold Column; rewrite map_length; apply S1). rewrite LC in *.
  assert (NZ : forall t, nth t (map (Rmult c) z) 0%R = (c * nth t z 0)%R). { intros t. replace 0%R with (c * 0)%R at 1 by ring. apply map_nth. }
  apply detrended_iff. rewrite LC', map_length. split; [exact L|]. split; [|split].
  - exists (c * A + a)%R, (c * B + b)%R. intros t T. rewrite NZ, D by exact T. destruct (shape_entry n nl field t x S0 T X) as (v & row & R1 & R2). destruct (shape_entry n nl field' t x S1 T X) as (v' & row' & R1' & R2'). rewrite (column_nth field x t row R1), (column_nth field' x t row' R1'), (nth_error_nth row x 0%R R2), (nth_error_nth row' x 0%R R2'). rewrite (H t row row' v v' R1 R1' R2 R2'). ring.
  - unfold moment in *. rewrite (tot_ext _ (fun t => c * nth t z 0)%R) by (intros; apply NZ). rewrite tot_scale, M1. ring.
  - unfold moment in *. rewrite (tot_ext _ (fun t => c * (INR t * nth t z 0))%R) by (intros; rewrite NZ; ring). rewrite tot_scale, M2. ring.
Qed.
Lemma part_times c nt nl v p q t x : Part nt nl (fun t x => c * v t x)%R p q t x = (c * Part nt nl v p q t x)%R.
Proof.
  unfold Part. change (DoubleSum nt nl) with (S2 nt nl). rewrite (s2_ext nt nl _ (fun t' x' => c * (v t' x' * cos (2 * PI * INR p * (INR t - INR t') / INR nt + 2 * PI * INR q * (INR x - INR x') / INR nl)))%R) by (intros; ring). rewrite s2_scale. unfold Rdiv. ring.
Qed.
Lemma map_entry {A B} (f : A -> B) M i j v : Entry M i j v -> Entry (map (map f) M) i j (f v).
Proof. intros (row & R1 & R2). exists (map f row). split; apply map_nth_error; assumption. Qed.
Lemma latitude_times c orig_nt nl w spacing field field' : 1 < nl -> Shape orig_nt nl field -> Shape orig_nt nl field' -> w <= orig_nt + pad -> ~ (spacing == 0)%Q ->
  (exists a b : nat -> R, forall t x row row' v v', nth_error field t = Some row -> nth_error field' t = Some row' -> nth_error row x = Some v -> nth_error row' x = Some v' -> v' = (c * v + (a x + b x * INR t))%R) ->
  exists new, one_latitude orig_nt nl w (1 / spacing) (1 / 96) (1 / 20) (-720) 720 field = Ok new /\ one_latitude orig_nt nl w (1 / spacing) (1 / 96) (1 / 20) (-720) 720 field' = Ok (map (map (Rmult c)) new).
Proof.
  intros NL S0 S1 W SP (a & b & H). assert (N1 : ~ (20 == 0)%Q) by (intros X; discriminate X). assert (N2 : ~ (96 == 0)%Q) by (intros X; discriminate X). assert (N3 : ~ (20 == 96)%Q) by (intros X; discriminate X). assert (N4 : ~ (-720 == 720)%Q) by (intros X; discriminate X).
  destruct (latitude_ok orig_nt nl w spacing 20 96 (-720) 720 field NL S0 W SP N1 N2 N3 N4) as (new & E & SN & z & Z1 & Z2).
  destruct (latitude_ok orig_nt nl w spacing 20 96 (-720) 720 field' NL S1 W SP N1 N2 N3 N4) as (new' & E' & SN' & z' & Z1' & Z2').
  exists new. split; [exact E|]. rewrite E'. f_equal. cbv zeta in *. set (nt := orig_nt + pad) in *.
  assert (ZZ : forall x, x < nl -> z' x = map (Rmult c) (z x)). { intros x X. apply (detrend_unique (Column x field')); [apply Z1'; exact X|]. apply (detrend_line c field field' x orig_nt nl (a x) (b x) S0 S1 X); [intros t row row' v v'; apply H|apply Z1; exact X]. }
  apply (entries_eq orig_nt nl); [exact SN'|apply map_shape; [intros; apply map_length|exact SN]|]. intros t x v EN. destruct (entry_bounds _ _ _ _ _ _ SN' EN) as [T X]. pose proof (map_entry (Rmult c) _ _ _ _ (Z2 t x T X)) as EM.
  rewrite (entry_fun _ _ _ _ _ EN (Z2' t x T X)). match goal with |- Entry _ _ _ ?r => match type of EM with Entry _ _ _ ?r' => replace r with r'; [exact EM|] end end.
  change (DoubleSum nt nl) with (S2 nt nl). rewrite <- s2_scale. apply s2_ext. intros p q P Q. destruct (Kept _ _ _ _ _); [|ring]. rewrite <- part_times. apply part_ext. intros t' x' T' X'. rewrite (ZZ x' X'). replace (nth t' (map (Rmult c) (z x')) 0%R) with (c * nth t' (z x') 0)%R; [ring|]. symmetry. replace 0%R with (c * 0)%R at 1 by ring. apply map_nth.
Qed.
Lemma latitudes_times c orig_nt nl w spacing olr : forall olr', 1 < nl -> Forall (Shape orig_nt nl) olr -> Forall (Shape orig_nt nl) olr' -> w <= orig_nt + pad -> ~ (spacing == 0)%Q -> LineAdded c olr olr' ->
  exists new, mapM (one_latitude orig_nt nl w (1 / spacing) (1 / 96) (1 / 20) (-720) 720) olr = Ok new /\ mapM (one_latitude orig_nt nl w (1 / spacing) (1 / 96) (1 / 20) (-720) 720) olr' = Ok (map (map (map (Rmult c))) new).
Proof.
  induction olr as [|f olr IH]; intros olr' NL F0 F1 W SP [L H].
  - destruct olr'; [|discriminate L]. exists []. split; reflexivity.
  - destruct olr' as [|f' olr']; [discriminate L|]. inversion F0 as [|? ? S0 G0]; subst. inversion F1 as [|? ? S1 G1]; subst.
    destruct (latitude_times c orig_nt nl w spacing f f' NL S0 S1 W SP (H 0 f f' eq_refl eq_refl)) as (new & E & E').
    destruct (IH olr' NL G0 G1 W SP) as (news & EN & EN'). { split; [injection L as L; exact L|]. intros k g g' K K'. exact (H (S k) g g' K K'). }
    exists (new :: news). cbn [mapM]. rewrite E, E'. cbn [bind]. rewrite EN, EN'. split; reflexivity.
Qed.
Lemma omi_body lat lon olr t0 t1 rest EOF1 EOF2 : fst t0 <> fst t1 -> let time := t0 :: t1 :: rest in
  omi lat lon olr time EOF1 EOF2 =
    (filtered <- perform_3dim_spectral_filtering (length time) (length lon) olr (inject_Z (fst t1 - fst t0) / 86400) 20 96 (-720) 720 ;;
     pcs <- regress_3dim_data_onto_eofs lat lon filtered time EOF1 EOF2 ;;
     let s := nanstd (map fst pcs) in
     if Req_EM_T s 0 then Err NotModelled else Ok (map (fun p => fst p * (1 / s))%R pcs, map (fun p => snd p * (1 / s))%R pcs)).
Proof.
  intros N time. unfold omi. rewrite !all_equal_true. cbn [negb]. unfold time. destruct (Qeq_bool (inject_Z (fst t1 - fst t0) / 86400) 0) eqn:E; [|reflexivity]. exfalso. apply N. apply Qeq_bool_iff in E. unfold Qeq, Qdiv, Qmult, Qinv, inject_Z in E. cbn [Qnum Qden] in E. lia.
Qed.

(** ** One day *)
Lemma select_one ts data i val : NoDup (map fst ts) -> nth_error ts i = Some val -> select ts data val = (vs <- mapM (get i) data ;; Ok (concat vs)).
Proof.
  intros ND E. unfold select. assert (G : forall s, filter (fun p : nat * stamp => (fst (snd p) =? fst val)%Z) (combine (seq s (length ts)) ts) = [(s + i, val)]).
  { revert i E. induction ts as [|u ts IH]; intros i E s; [destruct i; discriminate E|]. cbn [map] in ND. inversion ND as [|? ? NI ND']; subst. cbn [length seq combine filter fst snd]. destruct i as [|i].
    - cbn in E. injection E as ->. rewrite Z.eqb_refl. rewrite Nat.add_0_r. f_equal. assert (EMP : forall s, filter (fun p : nat * stamp => (fst (snd p) =? fst val)%Z) (combine (seq s (length ts)) ts) = []). { clear -NI. induction ts as [|u ts IH]; intros s; [reflexivity|]. cbn [length seq combine filter fst snd]. destruct (Z.eqb_spec (fst u) (fst val)) as [Q|Q]; [exfalso; apply NI; left; exact Q|]. apply IH. intros I. apply NI. right. exact I. } apply EMP.
    - cbn in E. destruct (Z.eqb_spec (fst u) (fst val)) as [Q|Q]; [exfalso; apply NI; rewrite Q; apply in_map; exact (nth_error_In _ _ E)|]. rewrite (IH ND' i E (S s)). f_equal. f_equal. lia. }
  rewrite G. reflexivity.
Qed.
Lemma day_row n nl data i : Forall (Shape n nl) data -> i < n -> mapM (get i) data = Ok (map (fun f => nth i f []) data) /\ length (DayRow i data) = length data * nl.
Proof.
  intros F I. unfold DayRow. induction F as [|f data [L S0] F [IH1 IH2]]; [split; reflexivity|]. assert (E : nth_error f i = Some (nth i f [])) by (apply nth_error_nth'; lia). cbn [mapM]. rewrite (proj2 (get_ok i f _) E). cbn [bind]. rewrite IH1. split; [reflexivity|]. cbn [map concat]. rewrite app_length, IH2. cbn [length]. rewrite Forall_forall in S0. rewrite (S0 _ (nth_error_In _ _ E)). lia.
Qed.
Lemma shape_concat {A} n m (M : list (list A)) : Shape n m M -> length (concat M) = n * m.
Proof. intros [L F]. subst n. induction F as [|r M E F IH]; [reflexivity|]. cbn [concat length]. rewrite app_length, IH, E. lia. Qed.
Lemma reshape_ok n v : length v = n -> reshape n v = Ok v. Proof. intros <-. unfold reshape. rewrite Nat.eqb_refl. reflexivity. Qed.

(** ** For the statements *)
Lemma spacing_pos t0 t1 : (t0 < t1)%Z -> (0 < inject_Z (t1 - t0) / 86400)%Q.
Proof. intros H. unfold Qlt, Qdiv, Qmult, Qinv, inject_Z. cbn [Qnum Qden]. lia. Qed.
Lemma window_of d n : (0 < d)%Z -> (864000 < d * (Z.of_nat n + 1001))%Z -> exists w, w <= n + pad /\ (inject_Z (Z.of_nat w) <= 10 / (inject_Z d / 86400))%Q /\ (10 / (inject_Z d / 86400) < inject_Z (Z.of_nat w + 1))%Q.
Proof.
  intros D H. assert (DQ : (0 < inject_Z d)%Q) by (rewrite (Zlt_Qlt 0 d) in D; exact D). assert (E : (10 / (inject_Z d / 86400) == 864000 / inject_Z d)%Q) by (field; Lqa.lra). exists (Z.to_nat (864000 / d)). assert (P : (0 <= 864000 / d)%Z) by (apply Z.div_pos; lia). rewrite Z2Nat.id by exact P. split; [|split].
  - assert (Q1 : (864000 / d < Z.of_nat n + 1001)%Z) by (apply Z.div_lt_upper_bound; assumption). assert (PD : Z.of_nat pad = 1000%Z) by (unfold pad; rewrite Z2Nat.id; lia || reflexivity). lia.
  - rewrite E. apply Qle_shift_div_l; [exact DQ|]. change (864000)%Q with (inject_Z 864000). rewrite <- inject_Z_mult, <- Zle_Qle. pose proof (Z.mul_div_le 864000 d D). lia.
  - rewrite E. apply Qlt_shift_div_r; [exact DQ|]. change (864000)%Q with (inject_Z 864000). rewrite <- inject_Z_mult, <- Zlt_Qlt. pose proof (Z.mul_succ_div_gt 864000 d D). lia.
Qed.
Lemma filter_times c nl olr olr' t0 t1 n : (t0 < t1)%Z -> (Z.of_nat n <= 131072)%Z -> 1 < nl -> (864000 < (t1 - t0) * (Z.of_nat n + 1001))%Z ->
  Forall (Shape n nl) olr -> Forall (Shape n nl) olr' -> LineAdded c olr olr' ->
  exists out, perform_3dim_spectral_filtering n nl olr (inject_Z (t1 - t0) / 86400) 20 96 (-720) 720 = Ok out /\ perform_3dim_spectral_filtering n nl olr' (inject_Z (t1 - t0) / 86400) 20 96 (-720) 720 = Ok (map (map (map (Rmult c))) out).
Proof.
  intros T N NL H F F' LA. assert (SP := spacing_pos t0 t1 T). destruct (window_of (t1 - t0) n) as (w & W & W1 & W2); [lia|exact H|].
  rewrite !(main_run _ _ _ _ _ _ _ _ w) by (assumption || (intros X; discriminate X)). apply latitudes_times; try assumption. intros X. rewrite X in SP. discriminate SP.
Qed.
Lemma sum_zero_dist n V E F a b : (forall i, i < n -> V i = (a * E i + b * F i)%R) -> dist n V E F a b = 0%R.
Proof. intros H. unfold dist, msum. apply tot_zero. intros i I. apply in_seq in I. rewrite (H i) by lia. ring. Qed.
Lemma best_size n V E F : (0 <= dist n V E F (fst (solved n V E F)) (snd (solved n V E F)))%R.
Proof. unfold dist, msum. induction (seq 0 n) as [|i l IH]; cbn [map Total fold_right]; [unfold Total; cbn; lra|]. unfold Total in *. cbn [fold_right]. pose proof (pow2_ge_0 (V i - (fst (solved n V E F) * E i + snd (solved n V E F) * F i))) as Q. lra. Qed.
Lemma regress3_len lat lon data time E1 E2 r : regress_3dim_data_onto_eofs lat lon data time E1 E2 = Ok r -> length r = length time.
Proof. unfold regress_3dim_data_onto_eofs. rewrite !all_equal_true. cbn [negb]. apply mapM_len. Qed.
Lemma nanstd_div c l : c <> 0%R -> nanstd (map (fun x => x * (1 / c))%R l) = (Rabs (1 / c) * nanstd l)%R.
Proof. intros C. rewrite <- nanstd_times. f_equal. apply map_ext. intros x. ring. Qed.
Lemma combo_at e1 e2 v a b i : Combination a e1 b e2 v -> at_ v i = (a * at_ e1 i + b * at_ e2 i)%R. Proof. intros (_ & _ & H). apply H. Qed.
Lemma same_rows (P P' : nat -> R * R) n (d : R) (f : R * R -> R) : (forall i, i < n -> P i = P' i) -> map (fun i => f (P i) / d)%R (seq 0 n) = map (fun i => f (P' i) / d)%R (seq 0 n).
Proof. intros H. apply map_ext_in. intros i I. apply in_seq in I. rewrite H by lia. reflexivity. Qed.
Lemma norm_short i norm values : Forall (fun n => ~ (n == 0)%Q) norm -> (length norm <= i -> normalize i norm values = Err IndexError) /\ (i < length norm -> exists n, nth_error norm i = Some n /\ ~ (n == 0)%Q).
Proof.
  intros F. split.
  - intros L. unfold normalize, get. rewrite (proj2 (nth_error_None norm i) L). reflexivity.
  - intros L. destruct (nth_error norm i) as [n|] eqn:E; [|apply nth_error_None in E; lia]. exists n. split; [reflexivity|]. rewrite Forall_forall in F. apply F. exact (nth_error_In _ _ E).
Qed.

(** The statements of PropertiesRmm.v. *)
Lemma C99_best_proof : forall v e1 e2 p, length e1 = length v -> length e2 = length v ->
  (regress_vector_onto_eofs v e1 e2 = Ok p <-> BestFit v e1 e2 p).
Proof.
  exact regress_best.
Qed.

Lemma C99_exact_proof : forall v e1 e2 a b, Independent e1 e2 -> Combination a e1 b e2 v -> regress_vector_onto_eofs v e1 e2 = Ok (a, b).
Proof.
  intros v e1 e2 a b I C. pose proof C as (L1 & L2 & _). rewrite regress_is by assumption. f_equal. set (n := length v). set (s := solved n (at_ v) (at_ e1) (at_ e2)).
  destruct (solved_least n (at_ v) (at_ e1) (at_ e2) a b) as [D _]. rewrite (sum_zero_dist n _ _ _ a b) in D by (intros i _; apply combo_at; exact C). fold s in D. pose proof (best_size n (at_ v) (at_ e1) (at_ e2)) as B. fold s in B. pose proof (size_nonneg n (at_ e1) (at_ e2) (a - fst s) (b - snd s)) as SZ.
  assert (Z : size n (at_ e1) (at_ e2) (a - fst s) (b - snd s) = 0%R) by lra.
  destruct (I (a - fst s)%R (b - snd s)%R) as [A' B'].
  - intros i. destruct (Nat.lt_ge_cases i n) as [H|H].
    + exact (sq_zero (fun i => (a - fst s) * at_ e1 i + (b - snd s) * at_ e2 i)%R _ Z i (proj2 (in_seq n 0 i) (conj (Nat.le_0_l i) H))).
    + rewrite !nth_overflow by (unfold n in H; lia). ring.
  - rewrite (surjective_pairing s). apply (f_equal2 pair); lra.
Qed.

Lemma C99_exact_case_proof : Independent [1; 0; 2]%R [1; 1; 0]%R /\ Combination 2 [1; 0; 2]%R 3 [1; 1; 0]%R [5; 3; 4]%R.
Proof.
  split.
  - intros a b H. pose proof (H 0) as H0. pose proof (H 1) as H1. cbn in H0, H1. split; lra.
  - split; [reflexivity|]. split; [reflexivity|]. intros [|[|[|[|i]]]]; cbn; ring.
Qed.

Lemma C99_linear_proof : forall u v w c d e1 e2 p q, Combination c u d v w ->
  regress_vector_onto_eofs u e1 e2 = Ok p -> regress_vector_onto_eofs v e1 e2 = Ok q ->
  regress_vector_onto_eofs w e1 e2 = Ok (c * fst p + d * fst q, c * snd p + d * snd q)%R.
Proof.
  intros u v w c d e1 e2 p q C P Q. destruct (regress_lengths _ _ _ _ P) as [A B]. destruct C as (L1 & L2 & C). rewrite regress_is in P by assumption. rewrite regress_is in Q by congruence. rewrite regress_is by congruence. assert (p = solved (length u) (at_ u) (at_ e1) (at_ e2)) by congruence. assert (q = solved (length v) (at_ v) (at_ e1) (at_ e2)) by congruence. subst p q. rewrite L1, L2. f_equal. apply solved_linear. intros i _. apply C.
Qed.

Lemma C99_orthogonal_proof : forall v e1 e2, length e1 = length v -> length e2 = length v ->
  Inner e1 e2 = 0%R -> Inner e1 e1 <> 0%R -> Inner e2 e2 <> 0%R ->
  regress_vector_onto_eofs v e1 e2 = Ok (Inner e1 v / Inner e1 e1, Inner e2 v / Inner e2 e2)%R.
Proof.
  intros v e1 e2 A B O N1 N2. rewrite regress_is by assumption. f_equal. unfold solved. assert (I1 : forall u w, length u = length v -> Inner u w = msum (length v) (fun i => at_ u i * at_ w i)%R) by (intros u w L; unfold Inner; rewrite L; reflexivity). rewrite !I1 in * by assumption. rewrite O.
  set (aa := msum _ (fun i => at_ e1 i * at_ e1 i)%R) in *. set (bb := msum _ (fun i => at_ e2 i * at_ e2 i)%R) in *. cbv zeta. destruct (Req_EM_T (aa * bb - 0 * 0) 0) as [Z|Z].
  - exfalso. assert (Z' : (aa * bb = 0)%R) by lra. apply Rmult_integral in Z'. destruct Z'; contradiction.
  - apply (f_equal2 pair); field; repeat split; try assumption; intros X; apply Z; rewrite <- X; ring.
Qed.

Lemma C99_orthogonal_case_proof : Inner [1; 1]%R [1; -1]%R = 0%R /\ Inner [1; 1]%R [1; 1]%R <> 0%R /\ Inner [1; -1]%R [1; -1]%R <> 0%R.
Proof.
  unfold Inner, Sum. cbn. repeat split; lra.
Qed.

Lemma C99_exceptions_proof : forall v e1 e2, length e1 <> length e2 -> regress_vector_onto_eofs v e1 e2 = Err ValueError.
Proof.
  intros v e1 e2 H. unfold regress_vector_onto_eofs. destruct (Nat.eqb_spec (length e1) (length e2)); [contradiction|reflexivity].
Qed.

Lemma C100_values_proof : forall olr u850 u200 time t0 dt EOF1 EOF2 n0 n1 n2 m0 m1 nlon more more',
  2 <= length time -> (0 < dt)%Z -> EqualSteps t0 dt time ->
  Complete (length time) nlon (rows olr) -> Complete (length time) nlon (rows u850) -> Complete (length time) nlon (rows u200) ->
  length (lon olr) = nlon -> length (lon u850) = nlon -> length (lon u200) = nlon ->
  ThreeRows nlon (prows EOF1) -> ThreeRows nlon (prows EOF2) ->
  ~ (n0 == 0)%Q -> ~ (n1 == 0)%Q -> ~ (n2 == 0)%Q -> ~ (m0 == 0)%Q -> ~ (m1 == 0)%Q ->
  exists pc1 pc2, rmm olr u850 u200 time EOF1 EOF2 (n0 :: n1 :: n2 :: more) (m0 :: m1 :: more') = Ok (pc1, pc2) /\
    length pc1 = length time /\ length pc2 = length time /\
    forall i, i < length time -> exists v p, length v = 3 * nlon /\
      (forall j, j < nlon -> Anomaly time (rows olr) n0 i j (nth j v 0%R) /\
         Anomaly time (rows u850) n1 i j (nth (nlon + j) v 0%R) /\ Anomaly time (rows u200) n2 i j (nth (2 * nlon + j) v 0%R)) /\
      BestFit v (concat (prows EOF1)) (concat (prows EOF2)) p /\
      nth_error pc1 i = Some (fst p / Q2R m0)%R /\ nth_error pc2 i = Some (snd p / Q2R m1)%R.
Proof.
  intros olr u850 u200 time t0 dt EOF1 EOF2 n0 n1 n2 m0 m1 nlon more more' T D E C0 C1 C2 L0 L1 L2 E1 E2 Z0 Z1 Z2 Y0 Y1.
  destruct (rmm_run olr u850 u200 time t0 dt EOF1 EOF2 n0 n1 n2 m0 m1 nlon more more' T D E C0 C1 C2 L0 L1 L2 E1 E2 Z0 Z1 Z2 Y0 Y1) as (V & R0 & HV). cbv zeta in R0.
  eexists. eexists. split; [exact R0|]. rewrite !map_length, seq_length. split; [reflexivity|]. split; [reflexivity|]. intros i I. destruct (HV i I) as [LV AV]. exists (V i), (solved (3 * nlon) (at_ (V i)) (at_ (concat (prows EOF1))) (at_ (concat (prows EOF2)))). split; [exact LV|]. split; [exact AV|]. split; [apply best_solved; rewrite LV; reflexivity|].
  rewrite !nth_error_map, !seq_there by exact I. split; reflexivity.
Qed.

Lemma C100_values_case_proof : EqualSteps 0 86400 [0; 86400]%Z /\ Complete 2 1 [[Some 1%Q]; [Some 3%Q]] /\ ThreeRows 1 [[1]; [2]; [3]]%R.
Proof.
  split; [|split].
  - intros [|[|i]] t H; cbn in H; [injection H as <-; reflexivity|injection H as <-; reflexivity|destruct i; discriminate H].
  - split; [reflexivity|]. split; repeat constructor; discriminate.
  - split; [reflexivity|]. repeat constructor.
Qed.

Lemma C100_shift_proof : forall olr u850 u200 olr' u850' u200' c0 c1 c2 time t0 dt EOF1 EOF2 n0 n1 n2 m0 m1 nlon more more',
  2 <= length time -> (0 < dt)%Z -> EqualSteps t0 dt time ->
  Forall (fun f => Complete (length time) nlon (rows f) /\ length (lon f) = nlon) [olr; u850; u200; olr'; u850'; u200'] ->
  ThreeRows nlon (prows EOF1) -> ThreeRows nlon (prows EOF2) ->
  ~ (n0 == 0)%Q -> ~ (n1 == 0)%Q -> ~ (n2 == 0)%Q -> ~ (m0 == 0)%Q -> ~ (m1 == 0)%Q ->
  Shifted c0 (rows olr) (rows olr') -> Shifted c1 (rows u850) (rows u850') -> Shifted c2 (rows u200) (rows u200') ->
  rmm olr u850 u200 time EOF1 EOF2 (n0 :: n1 :: n2 :: more) (m0 :: m1 :: more') =
  rmm olr' u850' u200' time EOF1 EOF2 (n0 :: n1 :: n2 :: more) (m0 :: m1 :: more').
Proof.
  intros olr u850 u200 olr' u850' u200' c0 c1 c2 time t0 dt EOF1 EOF2 n0 n1 n2 m0 m1 nlon more more' T D E F E1 E2 Z0 Z1 Z2 Y0 Y1 S0 S1 S2'.
  inversion F as [|? ? [C0 L0] F0]; subst. inversion F0 as [|? ? [C1 L1] F1]; subst. inversion F1 as [|? ? [C2 L2] F2]; subst. inversion F2 as [|? ? [C0' L0'] F3]; subst. inversion F3 as [|? ? [C1' L1'] F4]; subst. inversion F4 as [|? ? [C2' L2'] _]; subst. clear F F0 F1 F2 F3 F4.
  destruct (rmm_run olr u850 u200 time t0 dt EOF1 EOF2 n0 n1 n2 m0 m1 _ more more' T D E C0 C1 C2 eq_refl L1 L2 E1 E2 Z0 Z1 Z2 Y0 Y1) as (V & R0 & HV). destruct (rmm_run olr' u850' u200' time t0 dt EOF1 EOF2 n0 n1 n2 m0 m1 _ more more' T D E C0' C1' C2' L0' L1' L2' E1 E2 Z0 Z1 Z2 Y0 Y1) as (V' & R1 & HV'). cbv zeta in R0, R1. rewrite R0, R1.
  assert (EQ : forall i, i < length time -> V i = V' i). { intros i I. apply (same_anomalies (length (lon olr)) (length time) V V' (rows olr) (rows u850) (rows u200) (rows olr') (rows u850') (rows u200') n0 n1 n2 i time); [|exact HV|exact HV'|exact I]. intros data data' [X|[X|[X|[]]]] n j a J; injection X as <- <-; [apply (shift_anomaly time (length time) (length (lon olr)) c0)|apply (shift_anomaly time (length time) (length (lon olr)) c1)|apply (shift_anomaly time (length time) (length (lon olr)) c2)]; assumption. }
  f_equal. apply (f_equal2 pair); apply map_ext_in; intros i I; apply in_seq in I; rewrite EQ by lia; reflexivity.
Qed.

Lemma C100_shift_case_proof : Shifted (fun _ => 5%Q) [[Some 1%Q]; [Some 3%Q]] [[Some 6%Q]; [Some 8%Q]].
Proof.
  intros [|[|i]] [|j] x H; try (destruct j; discriminate H); try (destruct i; discriminate H); cbn in H; injection H as <-; eexists; (split; [reflexivity|reflexivity]).
Qed.

Lemma C100_past_proof : forall olr u850 u200 olr' u850' u200' time t0 dt EOF1 EOF2 n0 n1 n2 m0 m1 nlon more more' i pc1 pc2 pc1' pc2',
  2 <= length time -> (0 < dt)%Z -> EqualSteps t0 dt time ->
  Forall (fun f => Complete (length time) nlon (rows f) /\ length (lon f) = nlon) [olr; u850; u200; olr'; u850'; u200'] ->
  ThreeRows nlon (prows EOF1) -> ThreeRows nlon (prows EOF2) ->
  ~ (n0 == 0)%Q -> ~ (n1 == 0)%Q -> ~ (n2 == 0)%Q -> ~ (m0 == 0)%Q -> ~ (m1 == 0)%Q ->
  (forall k, k <= i -> nth_error (rows olr) k = nth_error (rows olr') k /\ nth_error (rows u850) k = nth_error (rows u850') k /\
                       nth_error (rows u200) k = nth_error (rows u200') k) ->
  rmm olr u850 u200 time EOF1 EOF2 (n0 :: n1 :: n2 :: more) (m0 :: m1 :: more') = Ok (pc1, pc2) ->
  rmm olr' u850' u200' time EOF1 EOF2 (n0 :: n1 :: n2 :: more) (m0 :: m1 :: more') = Ok (pc1', pc2') ->
  forall k, k <= i -> nth_error pc1 k = nth_error pc1' k /\ nth_error pc2 k = nth_error pc2' k.
Proof.
  intros olr u850 u200 olr' u850' u200' time t0 dt EOF1 EOF2 n0 n1 n2 m0 m1 nlon more more' i pc1 pc2 pc1' pc2' T D E F E1 E2 Z0 Z1 Z2 Y0 Y1 SAME.
  inversion F as [|? ? [C0 L0] F0]; subst. inversion F0 as [|? ? [C1 L1] F1]; subst. inversion F1 as [|? ? [C2 L2] F2]; subst. inversion F2 as [|? ? [C0' L0'] F3]; subst. inversion F3 as [|? ? [C1' L1'] F4]; subst. inversion F4 as [|? ? [C2' L2'] _]; subst. clear F F0 F1 F2 F3 F4.
  destruct (rmm_run olr u850 u200 time t0 dt EOF1 EOF2 n0 n1 n2 m0 m1 _ more more' T D E C0 C1 C2 eq_refl L1 L2 E1 E2 Z0 Z1 Z2 Y0 Y1) as (V & R0 & HV). destruct (rmm_run olr' u850' u200' time t0 dt EOF1 EOF2 n0 n1 n2 m0 m1 _ more more' T D E C0' C1' C2' L0' L1' L2' E1 E2 Z0 Z1 Z2 Y0 Y1) as (V' & R1 & HV'). cbv zeta in R0, R1. rewrite R0, R1.
  intros X X' k K. injection X as <- <-. injection X' as <- <-. rewrite !nth_error_map. destruct (Nat.lt_ge_cases k (length time)) as [I|I].
  - rewrite !seq_there by exact I. cbn [option_map]. replace (V k) with (V' k); [split; reflexivity|]. symmetry. apply (same_anomalies (length (lon olr)) (length time) V V' (rows olr) (rows u850) (rows u200) (rows olr') (rows u850') (rows u200') n0 n1 n2 k time); [|exact HV|exact HV'|exact I].
    intros data data' [X|[X|[X|[]]]] n j a J; injection X as <- <-; apply past_anomaly; intros k' K'; apply (SAME k'); lia.
  - rewrite !(proj2 (nth_error_None (seq 0 (length time)) k)) by (rewrite seq_length; exact I). split; reflexivity.
Qed.

Lemma C100_grid_refuted_proof : forall l0 l1 l2 l3 l4 l0' l1' l2' l3' l4' o a b e f time rmm_norm pc_norm,
  length l0 = length l0' -> length l1 = length l1' -> length l2 = length l2' ->
  rmm (Field l0 o) (Field l1 a) (Field l2 b) time (Pattern l3 e) (Pattern l4 f) rmm_norm pc_norm =
  rmm (Field l0' o) (Field l1' a) (Field l2' b) time (Pattern l3' e) (Pattern l4' f) rmm_norm pc_norm.
Proof.
  intros l0 l1 l2 l3 l4 l0' l1' l2' l3' l4' o a b e f time rmm_norm pc_norm A B C'. rewrite !rmm_head. cbn [lon rows]. rewrite A, B, C'. reflexivity.
Qed.

Lemma C100_exceptions_proof : forall olr u850 u200 time EOF1 EOF2 rmm_norm pc_norm,
  let run := rmm olr u850 u200 time EOF1 EOF2 rmm_norm pc_norm in
  (length time < 2 -> run = Err IndexError) /\
  (forall t rest, time = t :: t :: rest -> run = Err OverflowError) /\
  (forall t0 dt, 2 <= length time -> (0 < dt)%Z -> EqualSteps t0 dt time ->
     Forall (fun f => Complete (length time) (length (lon f)) (rows f)) [olr; u850; u200] ->
     (length rmm_norm < 3 -> Forall (fun n => ~ (n == 0)%Q) rmm_norm -> run = Err IndexError) /\
     (3 <= length rmm_norm -> Forall (fun n => ~ (n == 0)%Q) rmm_norm ->
        length (lon u850) <> length (lon olr) -> length (lon u850) <> 1 -> run = Err ValueError)).
Proof.
  intros olr u850 u200 time EOF1 EOF2 rmm_norm pc_norm run. unfold run. rewrite rmm_head. destruct (C76_exceptions_proof (rows olr) time) as (X1 & X2 & _). split; [|split].
  - intros H. rewrite (X1 H). reflexivity.
  - intros t rest H. rewrite (X2 t rest H). reflexivity.
  - intros t0 dt T D E F. inversion F as [|? ? C0 F0]; subst. inversion F0 as [|? ? C1 F1]; subst. inversion F1 as [|? ? C2 _]; subst. clear F F0 F1.
    destruct (means_ok (rows olr) time t0 dt _ T D E C0) as (o & O1 & O2 & _). destruct (means_ok (rows u850) time t0 dt _ T D E C1) as (a & A1 & A2 & _). destruct (means_ok (rows u200) time t0 dt _ T D E C2) as (b & B1 & B2 & _). rewrite O1, A1, B1. cbn [bind]. clear X1 X2.
    assert (NM : forall i data w, Complete (length time) w data -> Forall (fun n => ~ (n == 0)%Q) rmm_norm -> i < length rmm_norm -> exists out, normalize i rmm_norm data = Ok out /\ Complete (length time) w out).
    { intros i data w C F I. destruct (proj2 (norm_short i rmm_norm data F) I) as (n & N & NZ). exists (map (map (option_map (fun x => x / n)%Q)) data). split; [|apply over_complete; exact C]. unfold normalize. rewrite (proj2 (get_ok i rmm_norm n) N). cbn [bind]. destruct (Qeq_bool n 0) eqn:Z; [apply Qeq_bool_iff in Z; contradiction|reflexivity]. }
    split.
    + intros L F. destruct (Nat.lt_ge_cases 0 (length rmm_norm)) as [I|I]; [|rewrite (proj1 (norm_short 0 rmm_norm o F)) by exact I; reflexivity]. destruct (NM 0 o _ O2 F I) as (o' & -> & _). cbn [bind].
      destruct (Nat.lt_ge_cases 1 (length rmm_norm)) as [I1|I1]; [|rewrite (proj1 (norm_short 1 rmm_norm a F)) by exact I1; reflexivity]. destruct (NM 1 a _ A2 F I1) as (a' & -> & _). cbn [bind].
      rewrite (proj1 (norm_short 2 rmm_norm b F)) by lia. reflexivity.
    + intros L F NE N1. destruct (NM 0 o _ O2 F) as (o' & -> & O'); [lia|]. destruct (NM 1 a _ A2 F) as (a' & -> & A'); [lia|]. destruct (NM 2 b _ B2 F) as (b' & -> & B'); [lia|]. cbn [bind]. cbv zeta. unfold fits at 1. destruct O' as [-> _]. destruct A' as [-> _]. rewrite Nat.eqb_refl. destruct (Nat.eqb_spec (length (lon olr)) (length (lon u850))) as [X|X]; [congruence|]. cbn [andb]. destruct (Nat.eqb_spec (length time) 1); [lia|]. destruct (Nat.eqb_spec (length (lon u850)) 1); [contradiction|]. reflexivity.
Qed.

Lemma C101_values_proof : forall lat lon olr time t0 t1 rest EOF1 EOF2 filtered,
  time = t0 :: t1 :: rest -> fst t0 <> fst t1 -> NoDup (map fst time) ->
  perform_3dim_spectral_filtering (length time) (length lon) olr (inject_Z (fst t1 - fst t0) / 86400) 20 96 (-720) 720 = Ok filtered ->
  length filtered = length lat -> Forall (Shape (length time) (length lon)) filtered ->
  Forall (fun t => exists d1 d2, nth_error (days EOF1) (Z.to_nat (dayofyear (snd t) - 1)) = Some d1 /\ Shape (length lat) (length lon) d1 /\
                                 nth_error (days EOF2) (Z.to_nat (dayofyear (snd t) - 1)) = Some d2 /\ Shape (length lat) (length lon) d2) time ->
  exists raw, length raw = length time /\
    (forall i t d1 d2, nth_error time i = Some t -> nth_error (days EOF1) (Z.to_nat (dayofyear (snd t) - 1)) = Some d1 ->
       nth_error (days EOF2) (Z.to_nat (dayofyear (snd t) - 1)) = Some d2 ->
       exists p, nth_error raw i = Some p /\ BestFit (DayRow i filtered) (concat d1) (concat d2) p) /\
    (Spread (map fst raw) <> 0%R ->
       let s := sqrt (Spread (map fst raw)) in
       omi lat lon olr time EOF1 EOF2 = Ok (map (fun p => fst p / s)%R raw, map (fun p => snd p / s)%R raw)).
Proof.
  intros lat lon olr time t0 t1 rest EOF1 EOF2 filtered E NE ND FI LF SF DAYS. rewrite E. rewrite omi_body by exact NE. cbv zeta. rewrite <- E. rewrite FI. cbn [bind].
  unfold regress_3dim_data_onto_eofs. rewrite !all_equal_true. cbn [negb].
  match goal with |- context [mapM ?f time] => set (one := f) end.
  assert (ONE : forall i t d1 d2, nth_error time i = Some t -> nth_error (days EOF1) (Z.to_nat (dayofyear (snd t) - 1)) = Some d1 -> nth_error (days EOF2) (Z.to_nat (dayofyear (snd t) - 1)) = Some d2 -> Shape (length lat) (length lon) d1 -> Shape (length lat) (length lon) d2 ->
     exists p, one t = Ok p /\ BestFit (DayRow i filtered) (concat d1) (concat d2) p).
  { intros i t d1 d2 TI D1 D2 S1 S2'. unfold one. rewrite (select_one time filtered i t ND TI). assert (I : i < length time) by (apply nth_error_Some; congruence). destruct (day_row _ _ filtered i SF I) as [G1 G2]. rewrite G1. cbn [bind]. fold (DayRow i filtered). rewrite LF in G2. rewrite reshape_ok by exact G2. cbn [bind]. rewrite (proj2 (get_ok _ _ _) D1). cbn [bind]. rewrite (reshape_ok _ (concat d1)) by (apply shape_concat; exact S1). cbn [bind]. rewrite (proj2 (get_ok _ _ _) D2). cbn [bind]. rewrite (reshape_ok _ (concat d2)) by (apply shape_concat; exact S2'). cbn [bind].
    eexists. split; [apply regress_is; rewrite G2; apply shape_concat; assumption|]. apply best_solved. reflexivity. }
  destruct (mapM_all one (fun t p => forall i d1 d2, nth_error time i = Some t -> nth_error (days EOF1) (Z.to_nat (dayofyear (snd t) - 1)) = Some d1 -> nth_error (days EOF2) (Z.to_nat (dayofyear (snd t) - 1)) = Some d2 -> BestFit (DayRow i filtered) (concat d1) (concat d2) p) time) as (raw & RW & FR).
  { intros t I. apply In_nth_error in I. destruct I as [i TI]. rewrite Forall_forall in DAYS. destruct (DAYS t (nth_error_In _ _ TI)) as (d1 & d2 & D1 & S1 & D2 & S2'). destruct (ONE i t d1 d2 TI D1 D2 S1 S2') as (p & P & B). exists p. split; [exact P|]. intros i' d1' d2' TI' D1' D2'. destruct (ONE i' t d1 d2 TI' D1 D2 S1 S2') as (p' & P' & B'). assert (p' = p) by congruence. assert (d1' = d1) by congruence. assert (d2' = d2) by congruence. subst. exact B'. }
  rewrite RW. cbn [bind]. exists raw. split; [exact (mapM_len _ _ _ RW)|]. split.
  - intros i t d1 d2 TI D1 D2. destruct (nth_error raw i) as [p|] eqn:P; [|apply nth_error_None in P; rewrite (mapM_len _ _ _ RW) in P; assert (X : i < length time) by (apply nth_error_Some; congruence); exfalso; exact (Nat.lt_irrefl _ (Nat.lt_le_trans _ _ _ X P))]. exists p. split; [reflexivity|]. apply (forall2_nth _ _ _ i t p FR TI P); assumption.
  - intros SZ. rewrite nanstd_is. set (s := sqrt (Spread (map fst raw))). destruct (Req_EM_T s 0) as [Z|Z]; [exfalso; apply SZ; apply sqrt_eq_0; [apply spread_nonneg|exact Z]|]. f_equal. apply (f_equal2 pair); apply map_ext; intros p; unfold Rdiv; ring.
Qed.

Lemma C101_filtered_proof : forall nlon olr (time : list stamp) t0 t1 rest,
  time = t0 :: t1 :: rest -> (fst t0 < fst t1)%Z -> (Z.of_nat (length time) <= 131072)%Z -> 1 < nlon ->
  (864000 < (fst t1 - fst t0) * (Z.of_nat (length time) + 1001))%Z -> Forall (Shape (length time) nlon) olr ->
  exists filtered, perform_3dim_spectral_filtering (length time) nlon olr (inject_Z (fst t1 - fst t0) / 86400) 20 96 (-720) 720 = Ok filtered /\
    length filtered = length olr /\ Forall (Shape (length time) nlon) filtered.
Proof.
  intros nlon olr time t0 t1 rest E T N NL H F. assert (SP := spacing_pos _ _ T). destruct (window_of (fst t1 - fst t0) (length time)) as (w & W & W1 & W2); [lia|exact H|].
  rewrite (main_run _ _ _ _ _ _ _ _ w) by (assumption || (intros X; discriminate X)).
  destruct (mapM_all (one_latitude (length time) nlon w (1 / (inject_Z (fst t1 - fst t0) / 86400)) (1 / 96) (1 / 20) (-720) 720) (fun _ new => Shape (length time) nlon new) olr) as (out & OUT & FO).
  { intros f I. rewrite Forall_forall in F. destruct (latitude_ok (length time) nlon w (inject_Z (fst t1 - fst t0) / 86400) 20 96 (-720) 720 f NL (F f I) W) as (new & NW & SN & _); try (intros X; discriminate X); [intros X; rewrite X in SP; discriminate SP|]. exists new. split; assumption. }
  exists out. split; [exact OUT|]. split; [exact (mapM_len _ _ _ OUT)|]. clear OUT. induction FO; constructor; [assumption|]. apply IHFO. inversion F; assumption.
Qed.

Lemma C101_filtered_case_proof : let time := [(0, Date 2020 12 30); (86400, Date 2020 12 31)]%Z in
  (864000 < (86400 - 0) * (Z.of_nat (length time) + 1001))%Z /\ NoDup (map fst time) /\ Forall (Shape (length time) 2) [[[1; 2]; [3; 4]]]%R.
Proof.
  cbv zeta. split; [cbn; lia|]. split; [repeat constructor; cbn; intuition discriminate|]. repeat constructor.
Qed.

Lemma C101_unit_proof : forall lat lon olr time EOF1 EOF2 pc1 pc2, omi lat lon olr time EOF1 EOF2 = Ok (pc1, pc2) ->
  Spread pc1 = 1%R /\ length pc2 = length pc1 /\ length pc1 = length time.
Proof.
  intros lat lon olr time EOF1 EOF2 pc1 pc2 H. destruct time as [|t0 [|t1 rest]]; [unfold omi in H; rewrite !all_equal_true in H; discriminate H|unfold omi in H; rewrite !all_equal_true in H; discriminate H|].
  destruct (Z.eq_dec (fst t0) (fst t1)) as [EQ|NE]; [unfold omi in H; rewrite !all_equal_true in H; rewrite EQ, Z.sub_diag in H; discriminate H|].
  rewrite omi_body in H by exact NE. cbv zeta in H. destruct (perform_3dim_spectral_filtering _ _ _ _ _ _ _ _) as [filtered|]; [|discriminate H]. cbn [bind] in H. destruct (regress_3dim_data_onto_eofs _ _ _ _ _ _) as [raw|] eqn:RW; [|discriminate H]. cbn [bind] in H. set (s := nanstd (map fst raw)) in H. destruct (Req_EM_T s 0) as [Z|Z]; [discriminate H|]. injection H as <- <-. rewrite !map_length. split; [|split; [reflexivity|exact (regress3_len _ _ _ _ _ _ _ RW)]].
  replace (map (fun p => fst p * (1 / s))%R raw) with (map (Rmult (1 / s)) (map fst raw)) by (rewrite map_map; apply map_ext; intros p; ring). rewrite spread_times. assert (SS : Spread (map fst raw) = (s * s)%R) by (unfold s; rewrite nanstd_is; symmetry; apply sqrt_sqrt, spread_nonneg). rewrite SS. field. exact Z.
Qed.

Lemma C101_invariant_proof : forall lat lon olr olr' time t0 t1 rest EOF1 EOF2 c,
  time = t0 :: t1 :: rest -> (fst t0 < fst t1)%Z -> (Z.of_nat (length time) <= 131072)%Z -> 1 < length lon ->
  (864000 < (fst t1 - fst t0) * (Z.of_nat (length time) + 1001))%Z ->
  Forall (Shape (length time) (length lon)) olr -> Forall (Shape (length time) (length lon)) olr' ->
  LineAdded c olr olr' ->
  ((0 < c)%R -> omi lat lon olr' time EOF1 EOF2 = omi lat lon olr time EOF1 EOF2) /\
  ((c < 0)%R -> forall pc1 pc2, omi lat lon olr time EOF1 EOF2 = Ok (pc1, pc2) ->
     omi lat lon olr' time EOF1 EOF2 = Ok (map Ropp pc1, map Ropp pc2)).
Proof.
  intros lat lon olr olr' time t0 t1 rest EOF1 EOF2 c E T N NL H F F' LA. destruct (filter_times c (length lon) olr olr' (fst t0) (fst t1) (length time) T N NL H F F' LA) as (out & O1 & O2).
  rewrite E in *. assert (NE : fst t0 <> fst t1) by lia. rewrite !omi_body by exact NE. cbv zeta. rewrite O1, O2. cbn [bind]. rewrite regress3_times. destruct (regress_3dim_data_onto_eofs _ _ _ _ _ _) as [raw|]; cbn [lifted bind]; [|split; [reflexivity|discriminate]].
  replace (map fst (map (times c) raw)) with (map (Rmult c) (map fst raw)) by (rewrite !map_map; reflexivity). rewrite nanstd_times. set (s := nanstd (map fst raw)). split.
  - intros C. rewrite Rabs_right by lra. destruct (Req_EM_T s 0) as [Z|Z]; [destruct (Req_EM_T (c * s) 0) as [Z'|Z']; [reflexivity|exfalso; apply Z'; rewrite Z; ring]|]. destruct (Req_EM_T (c * s) 0) as [Z'|Z']; [apply Rmult_integral in Z'; exfalso; destruct Z'; lra|]. rewrite !map_map. f_equal. apply (f_equal2 pair); apply map_ext; intros p; cbn [times fst snd]; field; lra.
  - intros C pc1 pc2. rewrite Rabs_left by lra. destruct (Req_EM_T s 0) as [Z|Z]; [discriminate|]. intros X. injection X as <- <-. destruct (Req_EM_T (- c * s) 0) as [Z'|Z']; [apply Rmult_integral in Z'; exfalso; destruct Z'; lra|]. rewrite !map_map. f_equal. apply (f_equal2 pair); apply map_ext; intros p; cbn [times fst snd]; field; lra.
Qed.

Lemma C101_invariant_case_proof : LineAdded 2 [[[1; 5]; [2; 4]]]%R [[[2 + 1; 10 + 3]; [4 + (1 + 4); 8 + 3]]]%R.
Proof.
  split; [reflexivity|]. intros [|k] f f' H H'; [|destruct k; discriminate H]. cbn in H, H'. injection H as <-. injection H' as <-. exists (fun x => match x with O => 1%R | _ => 3%R end), (fun x => match x with O => 4%R | _ => 0%R end).
  intros [|[|t]] [|[|x]] row row' v v' A A' B B'; cbn in A, A'; try (destruct t; discriminate A); injection A as <-; injection A' as <-; cbn in B, B'; try (destruct x; discriminate B); injection B as <-; injection B' as <-; cbn; ring.
Qed.

Lemma C101_leap_refuted_model : forall lat lon data time EOF1 EOF2 t, NoDup (map fst time) ->
  In t time -> leap (year (snd t)) = true -> month (snd t) = 12%Z -> day (snd t) = 31%Z ->
  length data = length lat -> Forall (Shape (length time) (length lon)) data -> length (days EOF1) = 365 -> length (days EOF2) = 365 ->
  Forall (Shape (length lat) (length lon)) (days EOF1) -> Forall (Shape (length lat) (length lon)) (days EOF2) ->
  regress_3dim_data_onto_eofs lat lon data time EOF1 EOF2 = Err IndexError.
Proof.
  intros lat lon data time EOF1 EOF2 t ND I LP MO DA LD SD L1 L2 S1 S2'. unfold regress_3dim_data_onto_eofs. rewrite !all_equal_true. cbn [negb]. match goal with |- mapM ?f time = _ => set (one := f) end.
  assert (ONE : forall u, In u time -> (exists p, one u = Ok p) \/ one u = Err IndexError).
  { intros u U. apply In_nth_error in U. destruct U as [i TI]. unfold one. rewrite (select_one time data i u ND TI). assert (II : i < length time) by (apply nth_error_Some; congruence). destruct (day_row _ _ data i SD II) as [G1 G2]. rewrite G1. cbn [bind]. fold (DayRow i data). rewrite LD in G2. rewrite reshape_ok by exact G2. cbn [bind].
    destruct (get _ (days EOF1)) as [d1|e] eqn:D1; [|right; unfold get in D1; destruct (nth_error (days EOF1) _); [discriminate D1|injection D1 as <-; reflexivity]]. apply get_ok in D1. cbn [bind]. rewrite Forall_forall in S1. rewrite (reshape_ok _ (concat d1)) by (apply shape_concat, S1; exact (nth_error_In _ _ D1)). cbn [bind].
    destruct (get _ (days EOF2)) as [d2|e] eqn:D2; [|right; unfold get in D2; destruct (nth_error (days EOF2) _); [discriminate D2|injection D2 as <-; reflexivity]]. apply get_ok in D2. cbn [bind]. rewrite Forall_forall in S2'. rewrite (reshape_ok _ (concat d2)) by (apply shape_concat, S2'; exact (nth_error_In _ _ D2)). cbn [bind].
    left. eexists. apply regress_is; rewrite G2; apply shape_concat; [apply S1; exact (nth_error_In _ _ D1)|apply S2'; exact (nth_error_In _ _ D2)]. }
  assert (BAD : one t = Err IndexError).
  { apply In_nth_error in I. destruct I as [i TI]. unfold one. rewrite (select_one time data i t ND TI). assert (II : i < length time) by (apply nth_error_Some; congruence). destruct (day_row _ _ data i SD II) as [G1 G2]. rewrite G1. cbn [bind]. fold (DayRow i data). rewrite LD in G2. rewrite reshape_ok by exact G2. cbn [bind].
    assert (DY : dayofyear (snd t) = 366%Z) by (unfold dayofyear; rewrite LP, MO, DA; reflexivity). rewrite DY. unfold get. rewrite (proj2 (nth_error_None (days EOF1) (Z.to_nat (366 - 1)))) by (rewrite L1; lia). reflexivity. }
  clear -ONE I BAD. clearbody one. induction time as [|u time IH]; [destruct I|]. cbn [mapM]. destruct I as [I|I]; [rewrite I, BAD; reflexivity|]. destruct (ONE u (or_introl eq_refl)) as [[p Q0]|Q0]; rewrite Q0; [|reflexivity]. cbn [bind]. rewrite IH; try reflexivity; (exact I || (intros x X; apply ONE; right; exact X)).
Qed.

Lemma C101_leap_case_proof : ((4 | 2020) /\ (~ (100 | 2020) \/ (400 | 2020)))%Z /\ dayofyear (Date 2020 12 31) = 366%Z.
Proof.
  split; [|reflexivity]. split; [exists 505%Z; reflexivity|]. left. intros (k & E). lia.
Qed.

Lemma C101_grid_refuted_proof : forall lat lat' lon lon' y x y' x' olr time e EOF2,
  length lat = length lat' -> length lon = length lon' ->
  omi lat lon olr time (Daily y x e) EOF2 = omi lat' lon' olr time (Daily y' x' e) EOF2.
Proof.
  intros lat lat' lon lon' y x y' x' olr time e EOF2 A B. unfold omi, regress_3dim_data_onto_eofs. rewrite !all_equal_true. cbn [negb days]. rewrite A, B. reflexivity.
Qed.

Lemma C101_exceptions_proof : forall lat lon olr time EOF1 EOF2,
  (length time < 2 -> omi lat lon olr time EOF1 EOF2 = Err IndexError) /\
  (forall t0 t1 rest, time = t0 :: t1 :: rest -> fst t0 = fst t1 -> omi lat lon olr time EOF1 EOF2 = Err OverflowError).
Proof.
  intros lat lon olr time EOF1 EOF2. split.
  - intros H. unfold omi. rewrite !all_equal_true. cbn [negb]. destruct time as [|a [|b rest]]; [reflexivity|reflexivity|cbn in H; lia].
  - intros t0 t1 rest -> EQ. unfold omi. rewrite !all_equal_true. cbn [negb]. rewrite EQ, Z.sub_diag. reflexivity.
Qed.
Lemma C101_leap_refuted_proof : forall lat lon data time EOF1 EOF2 t, NoDup (map fst time) ->
  In t time -> ((4 | year (snd t)) /\ (~ (100 | year (snd t)) \/ (400 | year (snd t))))%Z -> month (snd t) = 12%Z -> day (snd t) = 31%Z ->
  length data = length lat -> Forall (Shape (length time) (length lon)) data -> length (days EOF1) = 365 -> length (days EOF2) = 365 ->
  Forall (Shape (length lat) (length lon)) (days EOF1) -> Forall (Shape (length lat) (length lon)) (days EOF2) ->
  regress_3dim_data_onto_eofs lat lon data time EOF1 EOF2 = Err IndexError.
Proof.
  intros lat lon data time EOF1 EOF2 t N I HL. apply (C101_leap_refuted_model lat lon data time EOF1 EOF2 t N I).
  destruct HL as (H4 & H100). unfold leap. apply andb_true_intro. split; [apply Z.eqb_eq; apply Z.mod_divide; [lia|exact H4]|].
  apply Bool.orb_true_iff. destruct H100 as [G|G]; [left|right].
  - apply Bool.negb_true_iff, Z.eqb_neq. intro E. apply G. apply Z.mod_divide; [lia|exact E].
  - apply Z.eqb_eq. apply Z.mod_divide; [lia|exact G].
Qed.
