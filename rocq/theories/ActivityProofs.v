(** Proofs about the activity of tropical waves. *)
From Coq Require Import Reals Qreals QArith String Sorting.Sorted.
From Verif Require Import PyBase ColumnModel BlockModel BlockProofs TropicsModel TropicsProofs SpectraProofs WavesProofs ActivityModel ActivitySpec.
From Coq Require Import Lia List Lra.
Import ListNotations.
Open Scope nat_scope.

(** ** Correlations *)
Lemma all_there_iff l a : all_there l = Some a <-> l = map Some a.
Proof.
  revert a. induction l as [|[x|] l IH]; intros a; cbn.
  - split; [intros [= <-]; reflexivity|]. destruct a; [reflexivity|discriminate].
  - destruct (all_there l) as [r|] eqn:E.
    + split; [intros [= <-]; cbn; f_equal; apply IH; reflexivity|]. destruct a; [discriminate|]. cbn. intros [= <- H]. apply IH in H. congruence.
    + split; [discriminate|]. destruct a; [discriminate|]. cbn. intros [= <- H]. apply IH in H. discriminate.
  - split; [discriminate|]. destruct a; discriminate.
Qed.
Lemma varies_there l : Varies l -> exists a, all_there l = Some a /\ exists u v, In u a /\ In v a /\ u <> v.
Proof.
  intros (F & u & v & Iu & Iv & N).
  assert (E : exists a, l = map Some a).
  { clear - F. induction F as [|[x|] l H _ [a IH]]; [exists []; reflexivity| |contradiction]. exists (x :: a). cbn. congruence. }
  destruct E as [a ->]. exists a. split; [apply all_there_iff; reflexivity|].
  apply in_map_iff in Iu, Iv. destruct Iu as (u' & [= ->] & Iu). destruct Iv as (v' & [= ->] & Iv). exists u, v. auto.
Qed.
Section Corr.
Open Scope R_scope.
Definition devs (x : list R) : list R := map (fun v => v - mean_r x) x.
Lemma deviation_ok x : x <> [] -> Deviation x (devs x).
Proof.
  intros N. exists (mean_r x). split; [|reflexivity]. unfold mean_r. field. apply INR_nz. destruct x; [contradiction|cbn; lia].
Qed.
Lemma codev_product x y : codev_r x y = Product (devs x) (devs y).
Proof.
  unfold codev_r, Product, devs. generalize (mean_r x) (mean_r y). intros m k. f_equal. revert y. induction x as [|a x IH]; intros [|b y]; cbn; try reflexivity. f_equal. apply IH.
Qed.
Lemma devs_len x : length (devs x) = length x.
Proof. apply map_length. Qed.
Definition total_of (f : R * R -> R) (l : list (R * R)) : R := fold_right Rplus 0 (map f l).
Lemma total_of_nonneg f l : (forall p, 0 <= f p) -> 0 <= total_of f l.
Proof. intros H. induction l as [|p l IH]; cbn; [lra|]. pose proof (H p). unfold total_of in IH. lra. Qed.
Lemma cs_pairs l : let A := total_of (fun p => fst p * fst p) l in let B := total_of (fun p => snd p * snd p) l in let D := total_of (fun p => fst p * snd p) l in
  D * D <= A * B.
Proof.
  intros A B D.
  assert (S : forall s t, 0 <= s * s * A - 2 * s * t * D + t * t * B).
  { intros s t. replace (s * s * A - 2 * s * t * D + t * t * B) with (total_of (fun p => (s * fst p - t * snd p) * (s * fst p - t * snd p)) l).
    - apply total_of_nonneg. intros p. apply Rle_0_sqr.
    - unfold A, B, D. induction l as [|p l IH]; cbn; [lra|]. unfold total_of in IH. rewrite IH. ring. }
  pose proof (S B D) as S1. pose proof (S 0 1) as S2. 
  assert (0 <= B) by lra. destruct (Req_dec B 0) as [Z|NZ].
  - rewrite Z in *. assert (D * D <= 0); [|lra]. pose proof (S D 1) as S3. pose proof (S 1 0) as S4.
    assert (0 <= A) by lra. assert (K : forall t, 0 <= A - 2 * t * D) by (intros t; pose proof (S 1 t); lra).
    destruct (Req_dec D 0) as [->|ND]; [lra|]. exfalso. pose proof (K ((A + 1) / (2 * D))) as K1.
    replace (2 * ((A + 1) / (2 * D)) * D) with (A + 1) in K1 by (field; exact ND). lra.
  - assert (0 < B) by lra. replace (B * B * A - 2 * B * D * D + D * D * B) with (B * (A * B - D * D)) in S1 by ring.
    apply (Rmult_le_reg_l B); [lra|]. lra.
Qed.
Lemma product_first a b : length a = length b -> total_of (fun p => fst p * fst p) (combine a b) = Product a a.
Proof. unfold total_of, Product. revert b. induction a as [|x a IH]; intros [|y b] L; try discriminate L; cbn; [reflexivity|]. f_equal. apply IH. injection L as L. exact L. Qed.
Lemma product_second a b : length a = length b -> total_of (fun p => snd p * snd p) (combine a b) = Product b b.
Proof. unfold total_of, Product. revert b. induction a as [|x a IH]; intros [|y b] L; try discriminate L; cbn; [reflexivity|]. f_equal. apply IH. injection L as L. exact L. Qed.
Lemma cs_product a b : length a = length b -> Product a b * Product a b <= Product a a * Product b b.
Proof. intros L. rewrite <- (product_first a b L), <- (product_second a b L). apply cs_pairs. Qed.
Lemma product_nonneg a : 0 <= Product a a.
Proof. rewrite <- (product_first a a eq_refl). apply total_of_nonneg. intros p. apply Rle_0_sqr. Qed.
Lemma product_pos a : (exists x, In x a /\ x <> 0) -> 0 < Product a a.
Proof.
  induction a as [|y a IH]; intros (x & I & N); [contradiction|]. unfold Product in *. cbn. fold (Product a a). pose proof (product_nonneg a) as P. pose proof (Rle_0_sqr y) as Q. unfold Rsqr in Q.
  destruct I as [->|I].
  - assert (0 < x * x) by (destruct (Rtotal_order x 0) as [K|[K|K]]; [nra|contradiction|nra]). lra.
  - assert (0 < Product a a) by (apply IH; exists x; auto). lra.
Qed.
Lemma varies_pos a : (exists u v, In u a /\ In v a /\ u <> v) -> 0 < codev_r a a.
Proof.
  intros (u & v & Iu & Iv & N). rewrite codev_product. apply product_pos.
  destruct (Req_dec (u - mean_r a) 0) as [Z|NZ].
  - exists (v - mean_r a). split; [apply (in_map (fun z => z - mean_r a)); exact Iv|lra].
  - exists (u - mean_r a). split; [apply (in_map (fun z => z - mean_r a)); exact Iu|exact NZ].
Qed.
Lemma corr_ok model truth : length model = length truth ->
  match corrcoef model truth with
  | Some r => exists x y, model = map Some x /\ truth = map Some y /\ Correlation x y r /\ -1 <= r <= 1
  | None => ~ Varies model \/ ~ Varies truth
  end.
Proof.
  intros L. unfold corrcoef.
  destruct (all_there model) as [a|] eqn:Ea.
  2:{ left. intros V. apply varies_there in V. destruct V as (a & E & _). congruence. }
  destruct (all_there truth) as [b|] eqn:Eb.
  2:{ right. intros V. apply varies_there in V. destruct V as (b & E & _). congruence. }
  assert (L' : length a = length b). { apply all_there_iff in Ea, Eb. rewrite Ea, Eb, !map_length in L. exact L. }
  destruct (Nat.leb_spec (length a) 1) as [L1|L1].
  { left. intros V. apply varies_there in V. destruct V as (a' & E & u & v & Iu & Iv & N). rewrite Ea in E. injection E as <-.
    destruct a as [|w [|w' a]]; [contradiction| |cbn in L1; lia]. destruct Iu as [<-|[]], Iv as [<-|[]]. contradiction. }
  assert (P : 0 < INR (length a - 1)) by (apply lt_0_INR; lia). set (n := INR (length a - 1)) in *.
  assert (PA : forall x, 0 < codev_r x x -> sqrt (codev_r x x / n) <> 0).
  { intros x H. assert (0 < sqrt (codev_r x x / n)); [|lra]. apply sqrt_lt_R0. apply Rdiv_lt_0_compat; assumption. }
  destruct (Req_EM_T (sqrt (codev_r a a / n)) 0) as [Z|NA].
  { left. intros V. apply varies_there in V. destruct V as (a' & E & V). rewrite Ea in E. injection E as <-. apply (PA a); [apply varies_pos; exact V|exact Z]. }
  destruct (Req_EM_T (sqrt (codev_r b b / n)) 0) as [Z|NB].
  { right. intros V. apply varies_there in V. destruct V as (b' & E & V). rewrite Eb in E. injection E as <-. apply (PA b); [apply varies_pos; exact V|exact Z]. }
  exists a, b. apply all_there_iff in Ea, Eb. split; [exact Ea|]. split; [exact Eb|].
  assert (NEa : a <> []) by (intros ->; cbn in L1; lia). assert (NEb : b <> []) by (intros ->; rewrite L' in L1; cbn in L1; lia).
  pose proof (product_nonneg (devs a)) as QA. pose proof (product_nonneg (devs b)) as QB. rewrite codev_product in NA, NB.
  set (A := Product (devs a) (devs a)) in *. set (B := Product (devs b) (devs b)) in *.
  assert (QA' : 0 < A). { destruct QA as [|Z]; [assumption|]. exfalso. apply NA. rewrite <- Z. unfold Rdiv. rewrite Rmult_0_l. apply sqrt_0. }
  assert (QB' : 0 < B). { destruct QB as [|Z]; [assumption|]. exfalso. apply NB. rewrite <- Z. unfold Rdiv. rewrite Rmult_0_l. apply sqrt_0. }
  rewrite !codev_product. fold A B. set (D := Product (devs a) (devs b)).
  assert (CS : D * D <= A * B) by (apply cs_product; rewrite !devs_len; exact L').
  assert (SAB : 0 < sqrt (A * B)) by (apply sqrt_lt_R0; nra).
  assert (SS : sqrt (A / n) * sqrt (B / n) = sqrt (A * B) / n).
  { rewrite <- sqrt_mult_alt by (apply Rlt_le, Rdiv_lt_0_compat; assumption). replace (A / n * (B / n)) with (A * B / (n * n)) by (field; lra).
    rewrite sqrt_div_alt by nra. rewrite sqrt_square by lra. reflexivity. }
  assert (CE : D / n / sqrt (A / n) / sqrt (B / n) = D / sqrt (A * B)).
  { replace (D / n / sqrt (A / n) / sqrt (B / n)) with (D / n / (sqrt (A / n) * sqrt (B / n))) by (field; lra). rewrite SS. field. lra. }
  rewrite CE.
  assert (BD : -1 <= D / sqrt (A * B) <= 1).
  { assert (SQ : sqrt (A * B) * sqrt (A * B) = A * B) by (apply sqrt_sqrt; nra).
    split; apply (Rmult_le_reg_r (sqrt (A * B))); try exact SAB; unfold Rdiv; rewrite Rmult_assoc, Rinv_l by lra; nra. }
  rewrite (Rmin_right 1) by lra. rewrite Rmax_right by lra. split; [|exact BD].
  exists (devs a), (devs b). split; [apply deviation_ok; exact NEa|]. split; [apply deviation_ok; exact NEb|]. fold A B D. split; [exact QA'|]. split; [exact QB'|].
  field. lra.
Qed.
End Corr.

(** ** The loop of skills *)
Lemma shape_nth nlines ntim act f block : Shape nlines ntim act -> nth_error act f = Some block ->
  length block = nlines /\ Forall (fun line => length line = ntim) block.
Proof. intros H E. unfold Shape in H. rewrite Forall_forall in H. apply H. apply nth_error_In in E. exact E. Qed.
Lemma shape_line nlines ntim act f l line : Shape nlines ntim act -> Line act f l = Some line -> length line = ntim /\ f < length act /\ l < nlines.
Proof.
  intros H. unfold Line. destruct (nth_error act f) as [block|] eqn:E; [|discriminate]. intros K. destruct (shape_nth _ _ _ _ _ H E) as [L F].
  rewrite Forall_forall in F. split; [apply F; apply nth_error_In in K; exact K|]. split; [apply nth_error_Some; congruence|]. rewrite <- L. apply nth_error_Some. congruence.
Qed.
Lemma line_there nlines ntim act f l : Shape nlines ntim act -> f < length act -> l < nlines -> exists line, Line act f l = Some line.
Proof.
  intros H F L. unfold Line. destruct (nth_error act f) as [block|] eqn:E; [|apply nth_error_None in E; lia].
  destruct (shape_nth _ _ _ _ _ H E) as [LB _]. destruct (nth_error block l) as [line|] eqn:K; [eauto|]. apply nth_error_None in K. lia.
Qed.
Lemma store_run nlines ntim act f l v : Shape nlines ntim act -> 0 < ntim -> f < length act -> l < nlines ->
  exists act', store f l v act = Ok act' /\ length act' = length act /\ Shape nlines ntim act' /\
    (forall line, Line act f l = Some line -> exists line', Line act' f l = Some line' /\ nth_error line' 0 = Some v /\ forall t, t <> 0 -> nth_error line' t = nth_error line t) /\
    forall f' l', f' <> f \/ l' <> l -> Line act' f' l' = Line act f' l'.
Proof.
  intros H N F L. destruct (line_there _ _ _ _ _ H F L) as [line E]. unfold Line in E. destruct (nth_error act f) as [block|] eqn:EB; [|discriminate].
  destruct (shape_nth _ _ _ _ _ H EB) as [LB FB]. assert (LL : length line = ntim) by (rewrite Forall_forall in FB; apply FB; apply nth_error_In in E; exact E).
  destruct (put_ok v line 0 ltac:(lia)) as (line' & P1 & L1 & N1).
  destruct (put_ok line' block l ltac:(lia)) as (block' & P2 & L2 & N2).
  destruct (put_ok block' act f F) as (act' & P3 & L3 & N3).
  exists act'. split. { unfold store. rewrite (proj2 (get_ok f act block) EB). cbn [bind]. rewrite (proj2 (get_ok l block line) E). cbn [bind]. rewrite P1. cbn [bind]. rewrite P2. cbn [bind]. exact P3. }
  split; [exact L3|]. split; [|split].
  - unfold Shape in *. apply Forall_forall. intros b I. apply In_nth_error in I. destruct I as [i I]. rewrite N3 in I. destruct (i =? f).
    + injection I as <-. split; [lia|]. apply Forall_forall. intros ln I'. apply In_nth_error in I'. destruct I' as [k I']. rewrite N2 in I'. destruct (k =? l).
      * injection I' as <-. lia.
      * rewrite Forall_forall in FB. apply FB. apply nth_error_In in I'. exact I'.
    + rewrite Forall_forall in H. apply H. apply nth_error_In in I. exact I.
  - intros ln K. unfold Line in K. rewrite EB, E in K. injection K as <-. exists line'. unfold Line. rewrite N3, Nat.eqb_refl, N2, Nat.eqb_refl. split; [reflexivity|].
    rewrite N1. split; [reflexivity|]. intros t NT. rewrite N1. destruct (Nat.eqb_spec t 0); [contradiction|reflexivity].
  - intros f' l' D. unfold Line. rewrite N3. destruct (Nat.eqb_spec f' f) as [->|]; [|reflexivity]. rewrite EB, N2. destruct (Nat.eqb_spec l' l); [|reflexivity]. destruct D; contradiction.
Qed.
Lemma loop_run nlines ntim : 0 < ntim -> forall is act, NoDup is -> Shape nlines ntim act ->
  (forall f l, In (f, l) is -> f < length act /\ l + 1 < nlines) ->
  exists act', skill_loop is act = Ok act' /\ length act' = length act /\ Shape nlines ntim act' /\
    forall f l line, Line act f l = Some line -> exists line', Line act' f l = Some line' /\
      (forall k, l = S k -> In (f, k) is -> exists truth, Line act f 0 = Some truth /\ nth_error line' 0 = Some (corrcoef line truth)) /\
      (forall t, t <> 0 \/ l = 0 \/ (forall k, l = S k -> ~ In (f, k) is) -> nth_error line' t = nth_error line t).
Proof.
  intros N. induction is as [|[ff ll] is IH]; intros act ND H B.
  - exists act. split; [reflexivity|]. split; [reflexivity|]. split; [exact H|]. intros f l line E. exists line. split; [exact E|]. split; [intros k _ []|reflexivity].
  - destruct (B ff ll ltac:(left; reflexivity)) as [B1 B2]. inversion ND as [|? ? NI ND']; subst.
    destruct (line_there _ _ _ ff (ll + 1) H B1 ltac:(lia)) as [model EM]. destruct (line_there _ _ _ ff 0 H B1 ltac:(lia)) as [truth ET].
    destruct (store_run nlines ntim act ff (ll + 1) (corrcoef model truth) H N B1 ltac:(lia)) as (act1 & S1 & L1 & H1 & U & O).
    destruct (IH act1 ND' H1) as (act' & S2 & L2 & H2 & P). { intros f l I. rewrite L1. apply B. right. exact I. }
    exists act'. split; [|split; [congruence|split; [exact H2|]]].
    { cbn [skill_loop]. assert (EM' := EM). assert (ET' := ET). unfold Line in EM', ET'. destruct (nth_error act ff) as [block|] eqn:EB; [|discriminate].
      rewrite (proj2 (get_ok ff act block) EB). cbn [bind]. rewrite (proj2 (get_ok (ll + 1) block model) EM'). cbn [bind]. rewrite (proj2 (get_ok 0 block truth) ET'). cbn [bind].
      rewrite S1. cbn [bind]. exact S2. }
    intros f l line E.
    destruct (Nat.eq_dec f ff) as [->|NF].
    + destruct (Nat.eq_dec l (ll + 1)) as [->|NL].
      * rewrite EM in E. injection E as <-. destruct (U model EM) as (line1 & E1 & Z1 & T1).
        destruct (P ff (ll + 1) line1 E1) as (line' & E' & _ & T'). exists line'. split; [exact E'|]. split.
        -- intros k K _. exists truth. split; [exact ET|]. rewrite T'; [exact Z1|]. right. right. intros k' K'. assert (k' = ll) by lia. subst k'. exact NI.
        -- intros t [T|[T|T]]; [|lia|].
           ++ rewrite T' by (left; exact T). apply T1. exact T.
           ++ exfalso. apply (T ll); [lia|left; reflexivity].
      * assert (E1 : Line act1 ff l = Some line) by (rewrite O; [exact E|right; exact NL]).
        destruct (P ff l line E1) as (line' & E' & C' & T'). exists line'. split; [exact E'|]. split.
        -- intros k K [J|I]; [injection J as J; lia|]. destruct (C' k K I) as (tr & TR & Z). exists tr. split; [|exact Z]. rewrite O in TR by (right; lia). exact TR.
        -- intros t D. apply T'. destruct D as [D|[D|D]]; [auto|auto|]. right. right. intros k K I. apply (D k K). right. exact I.
    + assert (E1 : Line act1 f l = Some line) by (rewrite O; [exact E|left; exact NF]).
      destruct (P f l line E1) as (line' & E' & C' & T'). exists line'. split; [exact E'|]. split.
      * intros k K [J|I]; [injection J as J _; congruence|]. destruct (C' k K I) as (tr & TR & Z). exists tr. split; [|exact Z]. rewrite O in TR by (left; exact NF). exact TR.
      * intros t D. apply T'. destruct D as [D|[D|D]]; [auto|auto|]. right. right. intros k K I. apply (D k K). right. exact I.
Qed.
Definition pairs (nfchr nlines : nat) : list (nat * nat) := flat_map (fun ff => map (fun ll => (ff, ll)) (seq 0 (nlines - 1))) (seq 0 nfchr).
Lemma pairs_in nfchr nlines f l : In (f, l) (pairs nfchr nlines) <-> f < nfchr /\ l + 1 < nlines.
Proof.
  unfold pairs. rewrite in_flat_map. split.
  - intros (ff & I & J). apply in_map_iff in J. destruct J as (ll & [= <- <-] & J). apply in_seq in I, J. lia.
  - intros [F L]. exists f. split; [apply in_seq; lia|]. apply in_map_iff. exists l. split; [reflexivity|apply in_seq; lia].
Qed.
Lemma nodup_flat {A B} (f : A -> list B) l : NoDup l -> (forall a, In a l -> NoDup (f a)) -> (forall a a' b, In b (f a) -> In b (f a') -> a = a') -> NoDup (flat_map f l).
Proof.
  induction 1 as [|a l NI ND IH]; intros H1 H2; cbn; [constructor|]. apply nodup_app.
  - apply H1. left. reflexivity.
  - apply IH; [intros; apply H1; right; assumption|exact H2].
  - intros b Ib If. apply in_flat_map in If. destruct If as (a' & Ia & Ib'). rewrite (H2 _ _ _ Ib Ib') in NI. contradiction.
Qed.
Lemma pairs_nodup nfchr nlines : NoDup (pairs nfchr nlines).
Proof.
  unfold pairs. apply nodup_flat; [apply seq_NoDup| |].
  - intros a _. apply FinFun.Injective_map_NoDup; [intros x y [= ->]; reflexivity|apply seq_NoDup].
  - intros a a' b I I'. apply in_map_iff in I, I'. destruct I as (? & <- & _). destruct I' as (? & [= ->] & _). reflexivity.
Qed.
Lemma pairs_len nfchr nlines : length (pairs nfchr nlines) = nfchr * (nlines - 1).
Proof.
  unfold pairs. generalize (seq 0 nfchr) (seq_length nfchr 0). intros l. revert nfchr. induction l as [|a l IH]; intros n <-; cbn; [reflexivity|].
  rewrite app_length, map_length, seq_length. rewrite (IH _ eq_refl). reflexivity.
Qed.
Lemma skill_read nlines ntim act : Shape nlines ntim act -> 0 < ntim ->
  exists skill, mapM (fun block => mapM (fun line => get 0 line) (skipn 1 block)) act = Ok skill /\
    forall f l line, Line act f (S l) = Some line -> exists row c, nth_error skill f = Some row /\ nth_error row l = Some c /\ nth_error line 0 = Some c.
Proof.
  intros H N.
  destruct (mapM_all (fun block : list (list (option R)) => mapM (fun line : list (option R) => get 0 line) (skipn 1 block))
    (fun block row => Forall2 (fun line c => nth_error line 0 = Some c) (skipn 1 block) row) act) as (skill & E & F).
  { intros block I. unfold Shape in H. rewrite Forall_forall in H. destruct (H block I) as [_ FB].
    destruct (mapM_all (fun line : list (option R) => get 0 line) (fun line c => nth_error line 0 = Some c) (skipn 1 block)) as (row & E & F).
    - intros line I'. rewrite Forall_forall in FB. assert (length line = ntim) by (apply FB; apply (skipn_incl 1 block); exact I').
      destruct (nth_error line 0) as [c|] eqn:E; [|apply nth_error_None in E; lia]. exists c. split; [apply get_ok; exact E|reflexivity].
    - exists row. split; [exact E|exact F]. }
  exists skill. split; [exact E|]. intros f l line K. unfold Line in K. destruct (nth_error act f) as [block|] eqn:EB; [|discriminate].
  assert (exists row, nth_error skill f = Some row) as [row ER].
  { destruct (nth_error skill f) as [row|] eqn:ER; [eauto|]. apply nth_error_None in ER. rewrite <- (forall2_len _ _ _ F) in ER. assert (f < length act) by (apply nth_error_Some; congruence). lia. }
  pose proof (forall2_nth _ _ _ _ _ _ F EB ER) as FR. cbv beta in FR.
  assert (KS : nth_error (skipn 1 block) l = Some line) by (destruct block; [discriminate K|exact K]).
  assert (exists c, nth_error row l = Some c) as [c EC].
  { destruct (nth_error row l) as [c|] eqn:EC; [eauto|]. apply nth_error_None in EC. rewrite <- (forall2_len _ _ _ FR) in EC. assert (l < length (skipn 1 block)) by (apply nth_error_Some; congruence). lia. }
  exists row, c. split; [exact ER|]. split; [exact EC|]. apply (forall2_nth _ _ _ _ _ _ FR KS EC).
Qed.
(** The function as a whole. *)
Lemma skill_whole nlines ntim act : Shape nlines ntim act -> 0 < ntim ->
  (length act * (nlines - 1) = 0 \/ (length act <> 1 /\ nlines - 1 <> 1)) ->
  exists act' skill, wave_skill nlines ntim act = Ok (act', skill) /\ length act' = length act /\ Shape nlines ntim act' /\
    (forall f l line, Line act f l = Some line -> exists line', Line act' f l = Some line' /\
      (forall k, l = S k -> exists truth, Line act f 0 = Some truth /\ nth_error line' 0 = Some (corrcoef line truth)) /\
      (forall t, t <> 0 \/ l = 0 -> nth_error line' t = nth_error line t)) /\
    (forall f l line, Line act' f (S l) = Some line -> exists row c, nth_error skill f = Some row /\ nth_error row l = Some c /\ nth_error line 0 = Some c).
Proof.
  intros H N D. destruct (loop_run nlines ntim N (pairs (length act) nlines) act (pairs_nodup _ _) H) as (act' & E & L & H' & P).
  { intros f l I. apply pairs_in in I. exact I. }
  destruct (skill_read nlines ntim act' H' N) as (skill & ES & PS).
  exists act', skill. split.
  { unfold wave_skill. destruct (Nat.eqb_spec ntim 0); [lia|]. fold (pairs (length act) nlines). rewrite pairs_len.
    replace (negb (length act * (nlines - 1) =? 0) && ((length act =? 1) || (nlines - 1 =? 1))) with false.
    - rewrite E. cbn [bind]. rewrite ES. reflexivity.
    - destruct D as [D|[D1 D2]]; [rewrite D; reflexivity|]. destruct (Nat.eqb_spec (length act) 1); [contradiction|]. destruct (Nat.eqb_spec (nlines - 1) 1); [contradiction|].
      cbn [orb]. rewrite Bool.andb_false_r. reflexivity. }
  split; [exact L|]. split; [exact H'|]. split; [|exact PS].
  intros f l line K. destruct (P f l line K) as (line' & E' & C & T). exists line'. split; [exact E'|]. split.
  - intros k ->. apply (C k eq_refl). apply pairs_in. destruct (shape_line _ _ _ _ _ _ H K) as (_ & F & LL). lia.
  - intros t [A|A]; apply T; auto.
Qed.
Lemma skill_stops nlines ntim act : 0 < ntim -> length act * (nlines - 1) <> 0 -> length act = 1 \/ nlines - 1 = 1 -> wave_skill nlines ntim act = Err IndexError.
Proof.
  intros N NZ D. unfold wave_skill. destruct (Nat.eqb_spec ntim 0); [lia|]. fold (pairs (length act) nlines). rewrite pairs_len.
  destruct (Nat.eqb_spec (length act * (nlines - 1)) 0); [contradiction|]. destruct D as [-> | ->]; cbn [negb andb Nat.eqb orb]; [reflexivity|]. rewrite Bool.orb_true_r. reflexivity.
Qed.
Lemma skill_inv nlines ntim act r : wave_skill nlines ntim act = Ok r -> 0 < ntim /\ (length act * (nlines - 1) = 0 \/ (length act <> 1 /\ nlines - 1 <> 1)).
Proof.
  intros E. destruct (Nat.eq_dec ntim 0) as [->|N]; [discriminate E|]. split; [lia|].
  destruct (Nat.eq_dec (length act * (nlines - 1)) 0); [left; assumption|]. right.
  destruct (Nat.eq_dec (length act) 1); [rewrite skill_stops in E by (auto; lia); discriminate|]. destruct (Nat.eq_dec (nlines - 1) 1); [rewrite skill_stops in E by (auto; lia); discriminate|]. auto.
Qed.

(** ** The seasonal cycle *)
Lemma same_iff a b : same_month_day a b = true <-> SameDay a b.
Proof. unfold same_month_day, SameDay. rewrite Bool.andb_true_iff, !Z.eqb_eq. tauto. Qed.
Lemma day_values data d : some_numbers (map snd (filter (fun p => same_month_day (fst p) d) data)) = DayValues data d.
Proof.
  unfold some_numbers, DayValues. induction data as [|[e c] data IH]; [reflexivity|]. cbn [filter fst]. destruct (same_month_day e d) eqn:S.
  - cbn [map flat_map snd fst]. rewrite IH. destruct c; [|reflexivity]. destruct (same_day_dec e d) as [|N]; [reflexivity|]. apply same_iff in S. contradiction.
  - rewrite IH. cbn [flat_map snd fst]. destruct c; [|reflexivity]. destruct (same_day_dec e d) as [Y|]; [|reflexivity]. apply same_iff in Y. congruence.
Qed.
Lemma mean_of_numbers l m : nanmean l = Some m -> MeanOf (some_numbers l) m.
Proof.
  unfold nanmean. destruct (some_numbers l) as [|q r] eqn:E; [discriminate|]. intros [= <-]. split; [discriminate|].
  assert (NZ : ~ (inject_Z (Z.of_nat (length (q :: r))) == 0)%Q) by (intros Z0; unfold Qeq, inject_Z in Z0; cbn [Qnum Qden length] in Z0; lia).
  rewrite Qmult_comm. apply Qmult_div_r. exact NZ.
Qed.
Lemma nanmean_some l q : In (Some q) l -> exists m, nanmean l = Some m.
Proof.
  intros I. unfold nanmean. destruct (some_numbers l) eqn:E; [|eauto]. exfalso. assert (K : In q (some_numbers l)) by (apply in_flat_map; exists (Some q); split; [exact I|left; reflexivity]). rewrite E in K. contradiction.
Qed.
Lemma nanmean_none l : nanmean l = None -> some_numbers l = [].
Proof. unfold nanmean. destruct (some_numbers l); [reflexivity|discriminate]. Qed.
Lemma clim_same data d e : SameDay d e -> clim data d = clim data e.
Proof.
  intros [M D]. unfold clim. f_equal. f_equal. apply filter_ext. intros p. unfold same_month_day. rewrite M, D. reflexivity.
Qed.
Lemma in_day data d q : In (d, Some q) data -> In q (DayValues data d).
Proof. intros I. unfold DayValues. apply in_flat_map. exists (d, Some q). split; [exact I|]. cbn. destruct (same_day_dec d d) as [|N]; [left; reflexivity|]. exfalso. apply N. split; reflexivity. Qed.
Lemma clim_some data d q : In (d, Some q) data -> exists m, clim data d = Some m /\ MeanOf (DayValues data d) m.
Proof.
  intros I. unfold clim. destruct (nanmean_some (map snd (filter (fun p => same_month_day (fst p) d) data)) q) as [m E].
  { apply in_map_iff. exists (d, Some q). split; [reflexivity|]. apply filter_In. split; [exact I|]. apply same_iff. split; reflexivity. }
  exists m. split; [exact E|]. rewrite <- day_values. apply mean_of_numbers. exact E.
Qed.
Lemma sum_shift m l : (fold_right Qplus 0 (map (fun q => q - m) l) == fold_right Qplus 0 l - m * inject_Z (Z.of_nat (length l)))%Q.
Proof.
  induction l as [|q l IH]; [cbn; ring|]. cbn [map fold_right length]. rewrite IH, Nat2Z.inj_succ. unfold Z.succ. rewrite inject_Z_plus. ring.
Qed.
Lemma anomalies_of data d m l : clim data d = Some m ->
  DayValues (combine (map fst l) (map (fun p => lift2 Qminus (snd p) (clim data (fst p))) l)) d = map (fun q => q - m)%Q (DayValues l d).
Proof.
  intros C. unfold DayValues. induction l as [|[e c] l IH]; [reflexivity|]. cbn [map combine fst snd flat_map]. rewrite IH, map_app. f_equal.
  destruct c as [q|]; [|reflexivity]. cbn [lift2]. destruct (same_day_dec e d) as [S|NS].
  - rewrite (clim_same data e d S), C. cbn. reflexivity.
  - destruct (clim data e); reflexivity.
Qed.
Lemma every_nth {A} spd : 0 < spd -> forall (l : list A) k i, nth_error (every k spd l) i = nth_error l (k + i * spd).
Proof.
  intros S. induction l as [|x l IH]; intros k i.
  - cbn. destruct i, (k + _ * spd); reflexivity.
  - cbn [every]. destruct k as [|k].
    + destruct i as [|i]; [reflexivity|]. cbn [nth_error]. rewrite IH. replace (0 + Datatypes.S i * spd) with (Datatypes.S (spd - 1 + i * spd)) by nia. reflexivity.
    + rewrite IH. reflexivity.
Qed.
Lemma nodup_count (l : list Z) : NoDup l <-> length (nodup Z.eq_dec l) = length l.
Proof.
  split.
  - intros N. rewrite nodup_fixed_point by exact N. reflexivity.
  - intros E. apply (NoDup_incl_NoDup (l := nodup Z.eq_dec l)); [apply NoDup_nodup|lia|]. intros x I. apply nodup_In in I. exact I.
Qed.

(** ** Projection *)
Lemma least_ok l m : least l = Ok m -> forall x, In x l -> (m <= x)%Q.
Proof.
  destruct l as [|a l]; [discriminate|]. cbn [least]. intros [= <-].
  assert (G : forall l a, (fold_left (fun m x => if Qle_bool m x then m else x) l a <= a)%Q /\ forall x, In x l -> (fold_left (fun m x => if Qle_bool m x then m else x) l a <= x)%Q).
  { clear. induction l as [|b l IH]; intros a; cbn [fold_left]; [split; [apply Qle_refl|contradiction]|].
    destruct (Qle_bool a b) eqn:E.
    - apply Qle_bool_iff in E. destruct (IH a) as [I1 I2]. split; [exact I1|]. intros x [<-|I]; [apply (Qle_trans _ a); assumption|apply I2; exact I].
    - assert (b <= a)%Q by (apply Qlt_le_weak, Qnot_le_lt; intros C; apply Qle_bool_iff in C; congruence).
      destruct (IH b) as [I1 I2]. split; [apply (Qle_trans _ b); assumption|]. intros x [<-|I]; [exact I1|apply I2; exact I]. }
  intros x [<-|I]; [apply (proj1 (G l a))|apply (proj2 (G l a)); exact I].
Qed.
Lemma greatest_ok l m : greatest l = Ok m -> forall x, In x l -> (x <= m)%Q.
Proof.
  destruct l as [|a l]; [discriminate|]. cbn [greatest]. intros [= <-].
  assert (G : forall l a, (a <= fold_left (fun m x => if Qle_bool x m then m else x) l a)%Q /\ forall x, In x l -> (x <= fold_left (fun m x => if Qle_bool x m then m else x) l a)%Q).
  { clear. induction l as [|b l IH]; intros a; cbn [fold_left]; [split; [apply Qle_refl|contradiction]|].
    destruct (Qle_bool b a) eqn:E.
    - apply Qle_bool_iff in E. destruct (IH a) as [I1 I2]. split; [exact I1|]. intros x [<-|I]; [apply (Qle_trans _ a); assumption|apply I2; exact I].
    - assert (a <= b)%Q by (apply Qlt_le_weak, Qnot_le_lt; intros C; apply Qle_bool_iff in C; congruence).
      destruct (IH b) as [I1 I2]. split; [apply (Qle_trans _ b); assumption|]. intros x [<-|I]; [exact I1|apply I2; exact I]. }
  intros x [<-|I]; [apply (proj1 (G l a))|apply (proj2 (G l a)); exact I].
Qed.
Lemma least_there l : l <> [] -> exists m, least l = Ok m.
Proof. destruct l; [contradiction|]. intros _. eexists. reflexivity. Qed.
Lemma greatest_there l : l <> [] -> exists m, greatest l = Ok m.
Proof. destruct l; [contradiction|]. intros _. eexists. reflexivity. Qed.
Lemma sorted_increasing l : StronglySorted Qlt l -> increasing l = true.
Proof.
  induction 1 as [|a l H IH F]; [reflexivity|]. cbn [increasing]. destruct l as [|b l]; [reflexivity|]. rewrite IH, Bool.andb_true_r.
  apply Qle_bool_iff, Qlt_le_weak. inversion F; assumption.
Qed.
Lemma desc_not l : 2 <= length l -> StronglySorted (fun x y => (y < x)%Q) l -> increasing l = false.
Proof.
  intros L H. destruct l as [|a [|b l]]; cbn in L; try lia. inversion H as [|? ? _ F]; subst. inversion F as [|? ? AB _]; subst.
  cbn [increasing]. replace (Qle_bool a b) with false; [reflexivity|]. symmetry. destruct (Qle_bool a b) eqn:E; [|reflexivity]. apply Qle_bool_iff in E. exfalso. apply (Qlt_not_le _ _ AB E).
Qed.
(** Places at different coordinates. *)
Definition Apart (p q : (Q * Q) * Q) : Prop := ~ ((fst (fst p) == fst (fst q))%Q /\ (snd (fst p) == snd (fst q))%Q).
Definition meets (p q : (Q * Q) * Q) : bool := Qeq_bool (fst (fst p)) (fst (fst q)) && Qeq_bool (snd (fst p)) (snd (fst q)).
Lemma meets_iff p q : meets p q = true <-> (fst (fst p) == fst (fst q))%Q /\ (snd (fst p) == snd (fst q))%Q.
Proof. unfold meets. rewrite Bool.andb_true_iff, !Qeq_bool_iff. tauto. Qed.
Lemma apart_app l m : ForallOrdPairs Apart l -> ForallOrdPairs Apart m -> (forall p q, In p l -> In q m -> Apart p q) -> ForallOrdPairs Apart (l ++ m).
Proof.
  induction 1 as [|p l F H IH]; intros HM HX; [exact HM|]. cbn. constructor.
  - apply Forall_app. split; [exact F|]. apply Forall_forall. intros q I. apply HX; [left; reflexivity|exact I].
  - apply IH; [exact HM|]. intros; apply HX; [right; assumption|assumption].
Qed.
Lemma apart_filter f l : ForallOrdPairs Apart l -> ForallOrdPairs Apart (filter f l).
Proof.
  induction 1 as [|p l F H IH]; [constructor|]. cbn [filter]. destruct (f p); [|exact IH]. constructor; [|exact IH].
  apply Forall_forall. intros q I. apply filter_In in I. rewrite Forall_forall in F. apply F. tauto.
Qed.
Lemma combine_in {A B} (l : list A) (m : list B) a b : In (a, b) (combine l m) -> In a l.
Proof. apply in_combine_l. Qed.
Lemma row_apart lat : forall lons row, StronglySorted Qlt lons -> ForallOrdPairs Apart (map (fun c : Q * Q => ((lat, fst c), snd c)) (combine lons row)).
Proof.
  induction lons as [|a lons IH]; intros row H; [constructor|]. destruct row as [|v row]; [constructor|]. inversion H as [|? ? H' F]; subst. cbn [combine map]. constructor; [|apply IH; exact H'].
  apply Forall_forall. intros q I. apply in_map_iff in I. destruct I as ([b w] & <- & I). apply combine_in in I. rewrite Forall_forall in F. specialize (F b I).
  intros [_ E]. cbn in E. rewrite E in F. apply (Qlt_irrefl _ F).
Qed.
Lemma places_apart g : StronglySorted Qlt (lats g) -> StronglySorted Qlt (lons g) -> ForallOrdPairs Apart (places g).
Proof.
  destruct g as [la lo ce]. unfold places. cbn [lats lons cells]. intros HA HO. revert ce. induction HA as [|a la HA IH F]; intros ce; [constructor|]. destruct ce as [|row ce]; [constructor|].
  cbn [combine flat_map fst snd]. apply apart_app; [apply row_apart; exact HO|apply IH|].
  intros p q Ip Iq. apply in_map_iff in Ip. destruct Ip as (c & <- & _). apply in_flat_map in Iq. destruct Iq as ([b row'] & Ib & Iq). apply in_map_iff in Iq. destruct Iq as (c' & <- & _).
  apply combine_in in Ib. rewrite Forall_forall in F. specialize (F b Ib). intros [E _]. cbn in E. rewrite E in F. apply (Qlt_irrefl _ F).
Qed.
Definition inner (p : (Q * Q) * Q) (b : list ((Q * Q) * Q)) : list Q := flat_map (fun q => if meets p q then [(snd p * snd q)%Q] else []) b.
Lemma inner_none p b : Forall (fun q => meets p q = false) b -> inner p b = [].
Proof. unfold inner. induction 1 as [|q b H _ IH]; [reflexivity|]. cbn. rewrite H, IH. reflexivity. Qed.
Lemma inner_one p b q : ForallOrdPairs Apart b -> In q b -> meets p q = true -> inner p b = [(snd p * snd q)%Q].
Proof.
  induction 1 as [|r b F H IH]; intros I M; [contradiction|]. unfold inner in *. cbn [flat_map]. destruct I as [->|I].
  - rewrite M. fold (inner p b). rewrite inner_none; [reflexivity|]. apply Forall_forall. intros s Is. rewrite Forall_forall in F. specialize (F s Is).
    destruct (meets p s) eqn:E; [|reflexivity]. exfalso. apply F. apply meets_iff in E, M. destruct E as [E1 E2], M as [M1 M2]. split; [rewrite <- M1; exact E1|rewrite <- M2; exact E2].
  - rewrite IH by assumption. destruct (meets p r) eqn:E; [|reflexivity]. exfalso. rewrite Forall_forall in F. apply (F q I). apply meets_iff in E, M. destruct E as [E1 E2], M as [M1 M2]. split; [rewrite <- E1; exact M1|rewrite <- E2; exact M2].
Qed.
Lemma sum_app l m : (fold_right Qplus 0 (l ++ m) == fold_right Qplus 0 l + fold_right Qplus 0 m)%Q.
Proof. induction l as [|a l IH]; cbn; [ring|]. rewrite IH. ring. Qed.
Lemma dot_terms a b : (dot a b == fold_right Qplus 0 (map (fun p => fold_right Qplus 0 (inner p b)) a))%Q.
Proof.
  unfold dot. induction a as [|p a IH]; [reflexivity|]. cbn [flat_map map fold_right]. rewrite sum_app. rewrite IH. reflexivity.
Qed.
Lemma row_at {B} (lat : Q) (lo : list Q) (row : list B) j : length row = length lo ->
  nth_error (map (fun c => ((lat, fst c), snd c)) (combine lo row)) j =
  match nth_error lo j, nth_error row j with Some lon, Some v => Some ((lat, lon), v) | _, _ => None end.
Proof.
  revert row j. induction lo as [|a lo IH]; intros [|v row] j L; try discriminate L; [destruct j; reflexivity|]. destruct j as [|j]; [reflexivity|]. cbn. apply IH. injection L as L. exact L.
Qed.
Lemma places_len g : Regular g -> length (places g) = length (lats g) * length (lons g).
Proof.
  destruct g as [la lo ce]. unfold Regular, places. cbn [lats lons cells]. revert ce. induction la as [|a la IH]; intros [|row ce] [L F]; try discriminate L; [reflexivity|].
  inversion F; subst. cbn [combine flat_map fst snd length]. rewrite app_length, map_length, combine_length, (IH ce); [|split; [injection L as L; exact L|assumption]]. cbn [Nat.mul]. lia.
Qed.
Lemma places_nth g i j lat lon row v : Regular g -> nth_error (lats g) i = Some lat -> nth_error (lons g) j = Some lon ->
  nth_error (cells g) i = Some row -> nth_error row j = Some v -> nth_error (places g) (i * length (lons g) + j) = Some ((lat, lon), v).
Proof.
  destruct g as [la lo ce]. unfold Regular, places. cbn [lats lons cells]. revert ce i. induction la as [|a la IH]; intros [|row0 ce] i [L F] E1 E2 E3 E4; try discriminate L; [destruct i; discriminate|].
  inversion F as [|? ? LR F']; subst. cbn [combine flat_map fst snd].
  assert (J : j < length lo) by (apply nth_error_Some; congruence).
  destruct i as [|i].
  - cbn in E1, E3. injection E1 as ->. injection E3 as ->. cbn [Nat.mul Nat.add]. rewrite nth_error_app1 by (rewrite map_length, combine_length; lia). rewrite row_at by exact LR. rewrite E2, E4. reflexivity.
  - cbn in E1, E3. rewrite nth_error_app2 by (rewrite map_length, combine_length; nia). rewrite map_length, combine_length.
    replace (S i * length lo + j - Nat.min (length lo) (length row0)) with (i * length lo + j) by (rewrite LR, Nat.min_id; nia).
    apply (IH ce i); auto.
Qed.
Lemma value_place g lat lon v : Regular g -> ValueAt g lat lon v -> exists lat' lon', In ((lat', lon'), v) (places g) /\ (lat' == lat)%Q /\ (lon' == lon)%Q.
Proof.
  intros H (i & j & row & lat' & lon' & E1 & Q1 & E2 & Q2 & E3 & E4). exists lat', lon'. split; [|auto].
  apply (nth_error_In _ (i * length (lons g) + j)). apply (places_nth g i j lat' lon' row v); assumption.
Qed.
Lemma get_exn {A} i (l : list A) : get i l = Err IndexError \/ exists x, get i l = Ok x.
Proof. unfold get. destruct (nth_error l i); [right; eauto|left; reflexivity]. Qed.

(** ** Activity *)
Lemma sq_sum_nonneg (ts : list Q) : (0 <= fold_right Qplus 0 (map (fun q => q * q) ts))%Q.
Proof. induction ts as [|q ts IH]; cbn; [apply Qle_refl|]. assert (0 <= q * q)%Q by (unfold Qle; cbn; nia). Lqa.lra. Qed.
Lemma sq_ge (ts : list Q) p : In p ts -> (p * p <= fold_right Qplus 0 (map (fun q => q * q) ts))%Q.
Proof.
  induction ts as [|q ts IH]; [contradiction|]. cbn. pose proof (sq_sum_nonneg ts). assert (0 <= q * q)%Q by (unfold Qle; cbn; nia). intros [->|I]; [Lqa.lra|]. specialize (IH I). Lqa.lra.
Qed.
Definition example_act : list (list (list (option R))) :=
  [[[Some 1; Some 2]; [Some 1; Some 3]; [Some 5; Some 0]]; [[Some 1; Some 2]; [Some 2; Some 3]; [None; Some 0]]]%R.
Definition example_grid : grid := Grid [-10; 0; 10]%Q [10; 20; 30]%Q [[1; 1; 1]; [2; 3; 4]; [5; 6; 7]]%Q.
(** The statements of PropertiesActivity.v. *)
Lemma C84_skill_proof : forall nlines ntim act act' skill, Shape nlines ntim act -> wave_skill nlines ntim act = Ok (act', skill) ->
  forall f l model truth, Line act f (S l) = Some model -> Line act f 0 = Some truth ->
    exists row c, nth_error skill f = Some row /\ nth_error row l = Some c /\
      match c with
      | Some r => exists x y, model = map Some x /\ truth = map Some y /\ Correlation x y r /\ (-1 <= r <= 1)%R
      | None => ~ Varies model \/ ~ Varies truth
      end.
Proof.
  intros nlines ntim act act' skill H E f l model truth EM ET. destruct (skill_inv _ _ _ _ E) as [N D].
  destruct (skill_whole nlines ntim act H N D) as (a2 & s2 & E2 & _ & H' & P & S2). rewrite E2 in E. injection E as -> ->.
  destruct (P f (S l) model EM) as (line' & E' & C & _). destruct (C l eq_refl) as (tr & TR & Z). rewrite ET in TR. injection TR as <-.
  destruct (S2 f l line' E') as (row & c & R1 & R2 & R3). exists row, c. split; [exact R1|]. split; [exact R2|].
  rewrite Z in R3. injection R3 as <-. apply corr_ok. destruct (shape_line _ _ _ _ _ _ H EM) as (-> & _). destruct (shape_line _ _ _ _ _ _ H ET) as (-> & _). reflexivity.
Qed.

Lemma C84_skill_case_proof : Shape 3 2 example_act /\ exists act' skill, wave_skill 3 2 example_act = Ok (act', skill).
Proof.
  assert (H : Shape 3 2 example_act) by (unfold Shape, example_act; repeat (constructor; [split; [reflexivity|repeat (constructor; [reflexivity|]); constructor]|]); constructor).
  split; [exact H|]. destruct (skill_whole 3 2 example_act H) as (a & s & E & _); [lia|right; cbn; lia|]. exists a, s. exact E.
Qed.

Lemma C84_argument_refuted_proof : ~ forall nlines ntim act act' skill, Shape nlines ntim act ->
  wave_skill nlines ntim act = Ok (act', skill) -> act' = act.
Proof.
  intros K. destruct C84_skill_case_proof as [H (a & s & E)]. pose proof (K _ _ _ _ _ H E) as ->.
  destruct (skill_whole 3 2 example_act H) as (a2 & s2 & E2 & _ & H' & P & _); [lia|right; cbn; lia|]. rewrite E2 in E. injection E as -> ->.
  destruct (P 0 2 _ eq_refl) as (line' & E' & C & _). destruct (C 1 eq_refl) as (tr & TR & Z). cbn in E'. injection E' as <-. cbn [nth_error] in Z. injection Z as Z.
  pose proof (corr_ok [Some 5; Some 0]%R tr) as B. rewrite <- Z in B. destruct B as (x & y & _ & _ & _ & B); [cbn in TR; injection TR as <-; reflexivity|]. lra.
Qed.

Lemma C84_argument_proof : forall nlines ntim act act' skill, Shape nlines ntim act -> wave_skill nlines ntim act = Ok (act', skill) ->
  Shape nlines ntim act' /\ List.length act' = List.length act /\
  forall f l t line c, Line act f l = Some line -> nth_error line t = Some c ->
    exists line', Line act' f l = Some line' /\
      (l = 0 \/ t <> 0 -> nth_error line' t = Some c) /\
      (forall k, l = S k -> exists row c', nth_error skill f = Some row /\ nth_error row k = Some c' /\ nth_error line' 0 = Some c').
Proof.
  intros nlines ntim act act' skill H E. destruct (skill_inv _ _ _ _ E) as [N D].
  destruct (skill_whole nlines ntim act H N D) as (a2 & s2 & E2 & L & H' & P & S2). rewrite E2 in E. injection E as -> ->.
  split; [exact H'|]. split; [exact L|]. intros f l t line c EL ET. destruct (P f l line EL) as (line' & E' & _ & T). exists line'. split; [exact E'|]. split.
  - intros O. rewrite T by tauto. exact ET.
  - intros k ->. apply S2. exact E'.
Qed.

Lemma C84_exceptions_proof : forall nlines ntim act, Shape nlines ntim act -> 0 < ntim ->
  ((exists r, wave_skill nlines ntim act = Ok r) <-> nlines <= 1 \/ act = [] \/ (2 <= List.length act /\ 3 <= nlines)) /\
  (forall e, wave_skill nlines ntim act = Err e -> e = IndexError) /\
  wave_skill nlines 0 act = Err IndexError.
Proof.
  intros nlines ntim act H N.
  assert (Z : (exists r, wave_skill nlines ntim act = Ok r) \/ wave_skill nlines ntim act = Err IndexError).
  { destruct (Nat.eq_dec (length act * (nlines - 1)) 0) as [Z|NZ].
    - destruct (skill_whole nlines ntim act H N (or_introl Z)) as (a & s & E & _). left. exists (a, s). exact E.
    - destruct (Nat.eq_dec (length act) 1); [right; apply skill_stops; auto|]. destruct (Nat.eq_dec (nlines - 1) 1); [right; apply skill_stops; auto|].
      destruct (skill_whole nlines ntim act H N) as (a & s & E & _); [auto|]. left. exists (a, s). exact E. }
  split; [split|split].
  - intros [r E]. apply skill_inv in E. destruct E as [_ [E|[E1 E2]]].
    + apply Nat.eq_mul_0 in E. destruct E as [E|E]; [right; left; destruct act; [reflexivity|discriminate E]|left; lia].
    + destruct act as [|b act]; [right; left; reflexivity|]. destruct (Nat.le_gt_cases nlines 1); [left; assumption|]. right. right. cbn [length] in *. lia.
  - intros D. destruct (skill_whole nlines ntim act H N) as (a & s & E & _); [|exists (a, s); exact E].
    destruct D as [D|[->|D]]; [left; replace (nlines - 1) with 0 by lia; lia|left; reflexivity|right; lia].
  - intros e E. destruct Z as [[r Z]|Z]; rewrite Z in E; [discriminate|]. injection E as <-. reflexivity.
  - reflexivity.
Qed.

Lemma C84_total_refuted_proof : ~ forall nlines ntim act, Shape nlines ntim act -> 2 <= nlines -> 2 <= ntim ->
  exists r, wave_skill nlines ntim act = Ok r.
Proof.
  intros K. destruct (K 2 2 [[[Some 1; Some 2]; [Some 1; Some 3]]]%R) as [r E]; [|lia|lia|].
  - unfold Shape. repeat (constructor; [split; [reflexivity|repeat (constructor; [reflexivity|]); constructor]|]). constructor.
  - rewrite skill_stops in E; [discriminate|lia|cbn; lia|left; reflexivity].
Qed.

Lemma C85_cycle_proof : forall data i d c, nth_error data i = Some (d, c) ->
  match c with
  | Some q => exists m a, MeanOf (DayValues data d) m /\ nth_error (rem_seas_cyc data) i = Some (Some a) /\ (a == q - m)%Q
  | None => nth_error (rem_seas_cyc data) i = Some None
  end.
Proof.
  intros data i d c E. unfold rem_seas_cyc. destruct c as [q|].
  - destruct (clim_some data d q) as (m & C & M); [apply nth_error_In in E; exact E|]. exists m, (q - m)%Q. split; [exact M|]. split; [|reflexivity].
    rewrite nth_error_map, E. cbn [option_map snd fst]. rewrite C. reflexivity.
  - rewrite nth_error_map, E. reflexivity.
Qed.

Lemma C85_zero_proof : forall data d, List.length (rem_seas_cyc data) = List.length data /\
  (fold_right Qplus 0 (DayValues (combine (map fst data) (rem_seas_cyc data)) d) == 0)%Q.
Proof.
  intros data d. split; [apply map_length|]. unfold rem_seas_cyc. destruct (clim data d) as [m|] eqn:C.
  - rewrite (anomalies_of data d m data C). rewrite sum_shift. unfold clim in C. apply mean_of_numbers in C. rewrite day_values in C. destruct C as [_ C]. rewrite C. ring.
  - assert (Z : DayValues data d = []). { unfold clim in C. apply nanmean_none in C. rewrite day_values in C. exact C. }
    replace (DayValues (combine (map fst data) (map (fun p => lift2 Qminus (snd p) (clim data (fst p))) data)) d) with (@nil Q); [reflexivity|].
    symmetry. unfold DayValues in *. revert Z. generalize (clim data) as cl. clear. intros cl. induction data as [|[e c] data IH]; [reflexivity|]. cbn [flat_map map combine fst snd]. intros Z.
    apply app_eq_nil in Z. destruct Z as [Z1 Z2]. rewrite (IH Z2), app_nil_r. destruct c as [q|]; [|reflexivity]. destruct (same_day_dec e d); [discriminate|]. cbn. destruct (cl e); reflexivity.
Qed.

Lemma C85_once_proof : forall data i d q, nth_error data i = Some (d, Some q) -> DayValues data d = [q] ->
  exists a, nth_error (rem_seas_cyc data) i = Some (Some a) /\ (a == 0)%Q.
Proof.
  intros data i d q E V. destruct (C85_cycle_proof data i d (Some q) E) as (m & a & M & A & EQ). exists a. split; [exact A|]. rewrite V in M. destruct M as [_ M]. change (inject_Z (Z.of_nat (length [q]))) with 1%Q in M. cbn [fold_right] in M. rewrite EQ.
  assert (M' : (m == q)%Q) by Lqa.lra. rewrite M'. ring.
Qed.

Lemma C85_choice_proof : forall (spd : nat) data out, 0 < spd -> remove_cycle (Z.of_nat spd) data = Ok out ->
  let doys := map (fun p => dayofyear (fst p)) data in
  ((exists n, Starts spd doys n n) -> out = rem_seas_cyc data) /\
  (~ (exists n, Starts spd doys n n) ->
     forall i d q, nth_error data i = Some (d, Some q) -> exists m a, MeanOf (AllValues data) m /\ nth_error out i = Some (Some a) /\ (a == q - m)%Q).
Proof.
  intros spd data out SP E doys. unfold remove_cycle in E. fold doys in E.
  destruct (Z.eqb_spec (Z.of_nat spd) 0); [lia|]. destruct (Z.ltb_spec (Z.of_nat spd) 0); [lia|]. rewrite Nat2Z.id in E. injection E as <-.
  pose proof (nodup_count (every 0 spd doys)) as NC. pose proof (NoDup_incl_length (NoDup_nodup Z.eq_dec (every 0 spd doys)) (fun x I => proj1 (nodup_In Z.eq_dec _ x) I)) as LE.
  split.
  - intros (n1 & i & j & D & E1 & E2). destruct (Nat.ltb_spec 0 (length (every 0 spd doys) - length (nodup Z.eq_dec (every 0 spd doys)))) as [|G]; [reflexivity|]. exfalso.
    assert (ND : NoDup (every 0 spd doys)) by (apply NC; lia). rewrite NoDup_nth_error in ND. apply D. apply ND.
    + apply nth_error_Some. rewrite every_nth by exact SP. cbn [Nat.add]. congruence.
    + rewrite !every_nth by exact SP. cbn [Nat.add]. congruence.
  - intros NS i d q EI. assert (ND : NoDup (every 0 spd doys)).
    { apply NoDup_nth_error. intros a b LA EQ. destruct (Nat.eq_dec a b) as [|AB]; [assumption|]. exfalso. apply NS.
      rewrite !every_nth in EQ by exact SP. cbn [Nat.add] in EQ. assert (SA := LA). apply nth_error_Some in SA. rewrite every_nth in SA by exact SP. cbn [Nat.add] in SA.
      destruct (nth_error doys (a * spd)) as [n0|] eqn:EA; [|contradiction]. exists n0, a, b. auto. }
    apply NC in ND. rewrite ND, Nat.sub_diag. cbn [Nat.ltb Nat.leb].
    destruct (nanmean_some (map snd data) q) as [m M]. { apply in_map_iff. exists (d, Some q). split; [reflexivity|]. apply nth_error_In in EI. exact EI. }
    exists m, (q - m)%Q. split; [|split; [|reflexivity]].
    + apply mean_of_numbers in M. replace (AllValues data) with (some_numbers (map snd data)); [exact M|]. unfold some_numbers, AllValues. clear. induction data as [|[e c] data IH]; [reflexivity|]. cbn [map flat_map snd]. rewrite IH. reflexivity.
    + unfold rem_seas_mean. rewrite nth_error_map, EI. cbn [option_map snd]. rewrite M. reflexivity.
Qed.

Lemma C85_choice_refuted_proof : ~ forall data out,
  (forall d d', Starts 1 (map fst data) d d' -> ~ SameDay d d') -> remove_cycle 1 data = Ok out -> out = rem_seas_mean data.
Proof.
  intros K. set (dt := [(Date 2020 2 29, Some 1); (Date 2021 3 1, Some 3)]%Q). specialize (K dt (rem_seas_cyc dt)). unfold dt in K.
  assert (G : forall d d', Starts 1 (map fst [(Date 2020 2 29, Some 1%Q); (Date 2021 3 1, Some 3%Q)]) d d' -> ~ SameDay d d').
  { intros d d' (i & j & D & E1 & E2) [M _]. rewrite Nat.mul_1_r in E1, E2. destruct i as [|[|i]], j as [|[|j]]; cbn in E1, E2; try lia; try (destruct i; discriminate E1); try (destruct j; discriminate E2).
    - injection E1 as <-. injection E2 as <-. discriminate M.
    - injection E1 as <-. injection E2 as <-. discriminate M. }
  specialize (K G eq_refl). vm_compute in K. discriminate K.
Qed.

Lemma C85_exceptions_proof : forall spd data,
  (remove_cycle spd data = Err ValueError <-> spd = 0%Z) /\ (forall e, remove_cycle spd data = Err e -> e = ValueError).
Proof.
  intros spd data. unfold remove_cycle. destruct (Z.eqb_spec spd 0) as [->|N].
  - split; [split; reflexivity|]. intros e [= <-]. reflexivity.
  - split; [split; [discriminate|contradiction]|]. discriminate.
Qed.

Lemma C86_projection_proof : forall elats elons eofseas (mm : Z) data out,
  elats <> [] -> elons <> [] -> Regular data -> StronglySorted Qlt (lats data) -> StronglySorted Qlt (lons data) ->
  (forall lat lon, In lat elats -> In lon elons -> exists v, ValueAt data lat lon v) ->
  Forall (Forall (fun e => lats e = elats /\ lons e = elons /\ Regular e)) eofseas ->
  waveproj elats elons eofseas mm data = Ok out ->
  exists eofs, nth_error eofseas (if List.length eofseas =? 1 then 0 else Z.to_nat (mm - 1)) = Some eofs /\
    Forall2 (fun e p => Projection e data p) eofs out.
Proof.
  intros elats elons eofseas mm data out NA NO RG SA SO COV FE E. unfold waveproj in E.
  destruct (least_there _ NA) as [lat1 L1]. destruct (greatest_there _ NA) as [lat2 L2]. destruct (least_there _ NO) as [lon1 L3]. destruct (greatest_there _ NO) as [lon2 L4].
  rewrite L1, L2, L3, L4 in E. unfold label_slice in E. rewrite (sorted_increasing _ SA), (sorted_increasing _ SO) in E. cbn [bind] in E.
  assert (G : exists eofs, nth_error eofseas (if length eofseas =? 1 then 0 else Z.to_nat (mm - 1)) = Some eofs /\ (if length eofseas =? 1 then get 0 eofseas else get (Z.to_nat (mm - 1)) eofseas) = Ok eofs).
  { destruct (length eofseas =? 1).
    - destruct (get_exn 0 eofseas) as [X|[x X]]; rewrite X in E; [discriminate|]. exists x. split; [apply get_ok; exact X|exact X].
    - destruct (get_exn (Z.to_nat (mm - 1)) eofseas) as [X|[x X]]; rewrite X in E; [discriminate|]. exists x. split; [apply get_ok; exact X|exact X]. }
  destruct G as (eofs & N1 & G). rewrite G in E. cbn [bind] in E. injection E as <-. exists eofs. split; [exact N1|].
  rewrite Forall_forall in FE. apply nth_error_In in N1. specialize (FE eofs N1). set (kept := filter _ (places data)).
  assert (AP : ForallOrdPairs Apart kept) by (apply apart_filter, places_apart; assumption).
  clear G N1. induction FE as [|e eofs (HA & HO & RE) _ IH]; [constructor|]. cbn [map]. constructor; [|exact IH]. clear IH.
  exists (map (fun p => fold_right Qplus 0%Q (inner p kept)) (places e)). split; [rewrite map_length; apply places_len; exact RE|]. split; [|apply dot_terms].
  intros i j lat lon row v w E1 E2 E3 E4 VA. exists (fold_right Qplus 0%Q (inner ((lat, lon), v) kept)). split.
  { rewrite nth_error_map, (places_nth e i j lat lon row v) by assumption. reflexivity. }
  destruct (value_place data lat lon w RG VA) as (lat' & lon' & I & QA & QO).
  rewrite (inner_one ((lat, lon), v) kept ((lat', lon'), w)); [cbn; ring|exact AP| |].
  - unfold kept. apply filter_In. split; [exact I|]. cbn [fst snd].
    assert (IA : In lat elats) by (rewrite <- HA; apply nth_error_In in E1; exact E1). assert (IO : In lon elons) by (rewrite <- HO; apply nth_error_In in E2; exact E2).
    rewrite !Bool.andb_true_iff, !Qle_bool_iff. rewrite QA, QO. repeat split; [eapply least_ok|eapply greatest_ok|eapply least_ok|eapply greatest_ok]; eassumption.
  - apply meets_iff. cbn [fst snd]. split; symmetry; assumption.
Qed.

Lemma C86_projection_case_proof : Regular example_grid /\ StronglySorted Qlt (lats example_grid) /\ StronglySorted Qlt (lons example_grid) /\
  (forall lat lon, In lat [0]%Q -> In lon [10; 20]%Q -> exists v, ValueAt example_grid lat lon v) /\
  exists out, waveproj [0]%Q [10; 20]%Q [[Grid [0]%Q [10; 20]%Q [[3; 4]%Q]]] 7 example_grid = Ok out /\ Forall2 Qeq out [(3 * 2 + 4 * 3)%Q].
Proof.
  split; [split; [reflexivity|repeat (constructor; [reflexivity|]); constructor]|]. split; [repeat constructor|]. split; [repeat constructor|]. split.
  - intros lat lon [<-|[]] [<-|[<-|[]]]; [exists 2%Q; exists 1, 0, [2; 3; 4]%Q, 0%Q, 10%Q|exists 3%Q; exists 1, 1, [2; 3; 4]%Q, 0%Q, 20%Q]; repeat split.
  - eexists. split; [vm_compute; reflexivity|]. repeat constructor.
Qed.

Lemma C86_descending_proof : forall elats elons eofseas (mm : Z) data a b out,
  In a elats -> In b elats -> (a < b)%Q -> 2 <= List.length (lats data) -> StronglySorted (fun x y => (y < x)%Q) (lats data) ->
  waveproj elats elons eofseas mm data = Ok out -> Forall (fun p => p = 0%Q) out /\ activity out = 0%R.
Proof.
  intros elats elons eofseas mm data a b out Ia Ib AB L2 SD E. unfold waveproj in E.
  destruct (least elats) as [lat1|] eqn:LE; [|discriminate]. destruct (greatest elats) as [lat2|] eqn:GE; [|discriminate]. destruct (least elons) as [lon1|]; [|discriminate]. destruct (greatest elons) as [lon2|]; [|discriminate].
  cbn [bind] in E. unfold label_slice at 1 in E. rewrite (desc_not _ L2 SD) in E. destruct (decreasing (lats data)); [|discriminate]. cbn [bind] in E.
  destruct (label_slice (lons data) lon1 lon2) as [inlon|]; [|discriminate]. cbn [bind] in E.
  pose proof (least_ok _ _ LE a Ia) as A1. pose proof (greatest_ok _ _ GE b Ib) as B1.
  assert (KE : filter (fun p => Qle_bool (fst (fst p)) lat1 && Qle_bool lat2 (fst (fst p)) && inlon (snd (fst p))) (places data) = []).
  { generalize (places data). clear - A1 B1 AB. induction l as [|p l IH]; [reflexivity|]. cbn [filter]. destruct (Qle_bool (fst (fst p)) lat1 && Qle_bool lat2 (fst (fst p))) eqn:X; [|exact IH].
    exfalso. rewrite Bool.andb_true_iff, !Qle_bool_iff in X. destruct X. Lqa.lra. }
  rewrite KE in E. destruct (if length eofseas =? 1 then get 0 eofseas else get (Z.to_nat (mm - 1)) eofseas) as [eofs|]; [|discriminate]. cbn [bind] in E. injection E as <-.
  assert (Z : forall e, dot (places e) [] = 0%Q) by (intros e; unfold dot; generalize (places e); intros l; induction l as [|p l IH]; [reflexivity|exact IH]).
  assert (ZZ : map (fun e => dot (places e) []) eofs = map (fun _ => 0%Q) eofs) by (apply map_ext; exact Z). rewrite ZZ. split.
  - apply Forall_forall. intros p I. apply in_map_iff in I. destruct I as (? & <- & _). reflexivity.
  - unfold activity. replace (Q2R (fold_right Qplus 0%Q (map (fun q => (q * q)%Q) (map (fun _ => 0%Q) eofs)))) with 0%R; [apply sqrt_0|].
    rewrite <- RMicromega.Q2R_0. apply Qeq_eqR. clear. induction eofs as [|e eofs IH]; [reflexivity|]. cbn [map fold_right]. rewrite <- IH. reflexivity.
Qed.

Lemma C86_descending_refuted_proof : ~ forall elats elons e data out,
  lats e = elats -> lons e = elons -> Regular e -> Regular data ->
  StronglySorted (fun x y => (y < x)%Q) (lats data) -> StronglySorted Qlt (lons data) ->
  (forall lat lon, In lat elats -> In lon elons -> exists v, ValueAt data lat lon v) ->
  waveproj elats elons [[e]] 1 data = Ok out -> Forall2 (fun e p => Projection e data p) [e] out.
Proof.
  intros K. set (e := Grid [0; 1]%Q [0]%Q [[1]; [0]]%Q). set (g := Grid [1; 0]%Q [0]%Q [[5]; [7]]%Q).
  assert (V : ValueAt g 0 0 7) by (exists 1, 0, [7%Q], 0%Q, 0%Q; repeat split).
  assert (V' : ValueAt g 1 0 5) by (exists 0, 0, [5%Q], 1%Q, 0%Q; repeat split).
  specialize (K [0; 1]%Q [0]%Q e g [0%Q] eq_refl eq_refl).
  assert (F : Forall2 (fun e p => Projection e g p) [e] [0%Q]).
  { apply K; try (vm_compute; reflexivity).
    - split; [reflexivity|repeat (constructor; [reflexivity|]); constructor].
    - split; [reflexivity|repeat (constructor; [reflexivity|]); constructor].
    - repeat constructor.
    - repeat constructor.
    - intros lat lon [<-|[<-|[]]] [<-|[]]; eauto. }
  inversion F as [|? ? ? ? P _]; subst. destruct P as (terms & L & T & Sm).
  destruct (T 0 0 0%Q 0%Q [1%Q] 1%Q 7%Q eq_refl eq_refl eq_refl eq_refl V) as (t & T1 & T2).
  destruct (T 1 0 1%Q 0%Q [0%Q] 0%Q 5%Q eq_refl eq_refl eq_refl eq_refl V') as (u & U1 & U2).
  destruct terms as [|t0 [|u0 [|]]]; cbn in L; try lia. cbn in T1, U1. injection T1 as ->. injection U1 as ->. cbn in Sm. Lqa.lra.
Qed.

Lemma C86_activity_proof : forall (ts : list Q) (c : Q),
  (0 <= activity ts)%R /\ (activity ts = 0%R <-> Forall (fun p => (p == 0)%Q) ts) /\
  (forall p, In p ts -> (Rabs (Q2R p) <= activity ts)%R) /\
  activity (map (fun p => c * p)%Q ts) = (Rabs (Q2R c) * activity ts)%R.
Proof.
  intros ts c. pose proof (sq_sum_nonneg ts) as N.
  assert (N' : (0 <= Q2R (fold_right Qplus 0%Q (map (fun q => (q * q)%Q) ts)))%R) by (rewrite <- RMicromega.Q2R_0; apply Qle_Rle; exact N).
  assert (G : forall p, In p ts -> (Rabs (Q2R p) <= activity ts)%R).
  { intros p I. unfold activity. rewrite <- sqrt_Rsqr_abs. apply sqrt_le_1_alt. unfold Rsqr. rewrite <- Q2R_mult. apply Qle_Rle. apply sq_ge. exact I. }
  split; [apply sqrt_pos|]. split; [split|split].
  - intros Z. apply Forall_forall. intros p I. specialize (G p I). rewrite Z in G. pose proof (Rabs_pos (Q2R p)). apply eqR_Qeq. rewrite RMicromega.Q2R_0.
    destruct (Req_dec (Q2R p) 0) as [|D]; [assumption|]. apply Rabs_no_R0 in D. lra.
  - intros F. unfold activity. replace (Q2R (fold_right Qplus 0%Q (map (fun q => (q * q)%Q) ts))) with 0%R; [apply sqrt_0|].
    rewrite <- RMicromega.Q2R_0. apply Qeq_eqR. clear - F. induction F as [|q l H _ IH]; [reflexivity|]. cbn [map fold_right]. rewrite <- IH, H. reflexivity.
  - exact G.
  - unfold activity. replace (Q2R (fold_right Qplus 0%Q (map (fun q => (q * q)%Q) (map (fun p => (c * p)%Q) ts)))) with (Rsqr (Q2R c) * Q2R (fold_right Qplus 0%Q (map (fun q => (q * q)%Q) ts)))%R.
    + rewrite sqrt_mult_alt by apply Rle_0_sqr. rewrite sqrt_Rsqr_abs. reflexivity.
    + unfold Rsqr. rewrite <- !Q2R_mult. apply Qeq_eqR. clear. induction ts as [|q l IH]; [cbn; ring|]. cbn [map fold_right]. rewrite <- IH. ring.
Qed.

Lemma C86_files_proof : forall wave tres,
  ((exists r, eof_files wave tres = Ok r) <->
     In wave ["Kelvin"; "kelvin"; "ER"; "er"; "MJO"; "mjo"; "MRG"; "mrg"]%string /\ In tres ["monthly"; "annual"]%string) /\
  (forall e, eof_files wave tres = Err e -> e = UnboundLocalError).
Proof.
  intros wave tres. unfold eof_files.
  assert (B : forall s t, String.eqb s t = true <-> t = s) by (intros s t; rewrite String.eqb_eq; split; congruence).
  assert (T : (exists r, (if String.eqb tres "monthly" then Ok (0%nat, "01.nc"%string) else if String.eqb tres "annual" then Ok (0%nat, "annual.nc"%string) else Err UnboundLocalError) = Ok r) \/ True) by auto. clear T.
  assert (N : (exists n, (if String.eqb wave "Kelvin" || String.eqb wave "kelvin" then Ok 4
        else if String.eqb wave "ER" || String.eqb wave "er" then Ok 4
        else if String.eqb wave "MJO" || String.eqb wave "mjo" then Ok 4
        else if String.eqb wave "MRG" || String.eqb wave "mrg" then Ok 2
        else Err UnboundLocalError) = Ok n /\ In wave ["Kelvin"; "kelvin"; "ER"; "er"; "MJO"; "mjo"; "MRG"; "mrg"]%string) \/
    ((if String.eqb wave "Kelvin" || String.eqb wave "kelvin" then Ok 4
        else if String.eqb wave "ER" || String.eqb wave "er" then Ok 4
        else if String.eqb wave "MJO" || String.eqb wave "mjo" then Ok 4
        else if String.eqb wave "MRG" || String.eqb wave "mrg" then Ok 2
        else Err UnboundLocalError) = Err UnboundLocalError /\ ~ In wave ["Kelvin"; "kelvin"; "ER"; "er"; "MJO"; "mjo"; "MRG"; "mrg"]%string)).
  { repeat match goal with |- context [String.eqb wave ?s] => destruct (String.eqb_spec wave s) as [->|?] end; cbn [orb];
      try (left; eexists; split; [reflexivity|cbn; tauto]).
    right. split; [reflexivity|]. cbn. intros I. repeat destruct I as [I|I]; congruence. }
  destruct N as [(n & -> & I)|(-> & NI)]; cbn [bind].
  - destruct (String.eqb_spec tres "monthly") as [->|N1]; [split; [split; [intros _; split; [exact I|cbn; tauto]|eauto]|discriminate]|].
    destruct (String.eqb_spec tres "annual") as [->|N2]; [split; [split; [intros _; split; [exact I|cbn; tauto]|eauto]|discriminate]|].
    split; [split; [intros [r E]; discriminate|]|intros e [= <-]; reflexivity]. intros [_ J]. cbn in J. destruct J as [J|[J|[]]]; congruence.
  - split; [split; [intros [r E]; discriminate|tauto]|]. intros e [= <-]. reflexivity.
Qed.

Lemma C86_exceptions_model : forall elats elons eofseas (mm : Z) data, increasing (lats data) = true -> increasing (lons data) = true ->
  (elats = [] \/ elons = [] -> waveproj elats elons eofseas mm data = Err ValueError) /\
  (elats <> [] -> elons <> [] -> List.length eofseas <> 1 -> (Z.of_nat (List.length eofseas) < mm)%Z -> waveproj elats elons eofseas mm data = Err IndexError) /\
  (elats <> [] -> elons <> [] -> (1 <= mm <= 12)%Z -> List.length eofseas = 1 \/ List.length eofseas = 12 -> exists out, waveproj elats elons eofseas mm data = Ok out).
Proof.
  intros elats elons eofseas mm data IA IO. unfold waveproj, label_slice. rewrite IA, IO.
  assert (LT : forall l, l = [] \/ exists m m', least l = Ok m /\ greatest l = Ok m') by (intros [|x l]; [left; reflexivity|right; eexists; eexists; split; reflexivity]).
  split; [|split].
  - intros [->|E]; [reflexivity|]. subst elons. destruct (LT elats) as [->|(m & m' & -> & ->)]; reflexivity.
  - intros NA NO N1 MM. destruct (LT elats) as [?|(m & m' & -> & ->)]; [contradiction|]. destruct (LT elons) as [?|(k & k' & -> & ->)]; [contradiction|]. cbn [bind].
    destruct (Nat.eqb_spec (length eofseas) 1); [contradiction|]. destruct (get_exn (Z.to_nat (mm - 1)) eofseas) as [X|[x X]]; [rewrite X; reflexivity|].
    apply get_ok in X. exfalso. assert (Z.to_nat (mm - 1) < length eofseas) by (apply nth_error_Some; congruence). lia.
  - intros NA NO MM L. destruct (LT elats) as [?|(m & m' & -> & ->)]; [contradiction|]. destruct (LT elons) as [?|(k & k' & -> & ->)]; [contradiction|]. cbn [bind].
    destruct (Nat.eqb_spec (length eofseas) 1) as [L1|N1].
    + destruct eofseas as [|x s]; [discriminate|]. cbn [get nth_error bind]. eexists. reflexivity.
    + destruct (get_exn (Z.to_nat (mm - 1)) eofseas) as [X|[x X]]; [|rewrite X; cbn [bind]; eexists; reflexivity].
      exfalso. unfold get in X. destruct (nth_error eofseas (Z.to_nat (mm - 1))) eqn:Y; [discriminate|]. apply nth_error_None in Y. lia.
Qed.

Lemma C85_calendar_proof : forall y,
  dayofyear (Date y 1 1) = 1%Z /\
  (forall m d, dayofyear (Date y m (d + 1)) = (dayofyear (Date y m d) + 1)%Z) /\
  (forall m l, (m < 12)%Z -> MonthLength y m l -> dayofyear (Date y (m + 1) 1) = (dayofyear (Date y m l) + 1)%Z).
Proof.
  intros y. assert (LP : leap y = true <-> LeapYear y).
  { unfold leap, LeapYear. rewrite Bool.andb_true_iff, Bool.orb_true_iff, Bool.negb_true_iff, !Z.eqb_eq, Z.eqb_neq, <- !Z.mod_divide by lia. tauto. }
  split; [unfold dayofyear; cbn; rewrite Bool.andb_false_r; reflexivity|]. split.
  - intros m d. unfold dayofyear. cbn [year month day]. destruct (leap y && (2 <? m)%Z); lia.
  - intros m l L [[I ->]|[[I ->]|[-> H]]].
    + cbn in I. destruct I as [<-|[<-|[<-|[<-|[<-|[<-|[<-|[]]]]]]]]; try lia; unfold dayofyear; cbn -[leap Z.add]; destruct (leap y); reflexivity.
    + cbn in I. destruct I as [<-|[<-|[<-|[<-|[]]]]]; try lia; unfold dayofyear; cbn -[leap Z.add]; destruct (leap y); reflexivity.
    + unfold dayofyear. cbn -[leap Z.add]. destruct (leap y) eqn:E.
      * destruct H as [[_ ->]|[H _]]; [reflexivity|]. exfalso. apply H. apply LP. reflexivity.
      * destruct H as [[H _]|[_ ->]]; [|reflexivity]. apply LP in H. discriminate.
Qed.

Lemma C85_calendar_case_proof : MonthLength 1900 2 28.
Proof.
  right. right. split; [reflexivity|]. right. split; [|reflexivity]. intros [_ [H|H]].
  - apply H. exists 19%Z. reflexivity.
  - destruct H as [k H]. lia.
Qed.
Lemma increasing_sorted l : StronglySorted Qle l -> increasing l = true.
Proof.
  induction 1 as [|a l H IH F]; [reflexivity|]. destruct l as [|b l]; [reflexivity|].
  change (Qle_bool a b && increasing (b :: l) = true)%bool. rewrite IH. inversion F as [|? ? G _]; subst. apply Qle_bool_iff in G. rewrite G. reflexivity.
Qed.
Lemma C86_exceptions_proof : forall elats elons eofseas (mm : Z) data, StronglySorted Qle (lats data) -> StronglySorted Qle (lons data) ->
  (elats = [] \/ elons = [] -> waveproj elats elons eofseas mm data = Err ValueError) /\
  (elats <> [] -> elons <> [] -> List.length eofseas <> 1 -> (Z.of_nat (List.length eofseas) < mm)%Z -> waveproj elats elons eofseas mm data = Err IndexError) /\
  (elats <> [] -> elons <> [] -> (1 <= mm <= 12)%Z -> List.length eofseas = 1 \/ List.length eofseas = 12 -> exists out, waveproj elats elons eofseas mm data = Ok out).
Proof.
  intros elats elons eofseas mm data H1 H2. exact (C86_exceptions_model elats elons eofseas mm data (increasing_sorted _ H1) (increasing_sorted _ H2)).
Qed.
