(** Proofs about probability forecasts. *)
From Coq Require Import Ascii Sorted Permutation Setoid.
From Verif Require Import PyBase ColumnModel BaseSpec BaseProofs EclvModel EclvSpec EclvProofs AggProofs PstdModel PstdSpec.
Open Scope string_scope.
Open Scope Q_scope.

(** ** Substrings *)
Lemma prefix_app p s : String.prefix p s = true <-> exists b, s = (p ++ b)%string.
Proof.
  revert s. induction p as [|c p IH]; intro s.
  - split; [intros _; exists s; reflexivity|destruct s; reflexivity].
  - destruct s as [|d s]; [split; [discriminate|intros (b & E); discriminate E]|].
    cbn [String.prefix]. destruct (ascii_dec c d) as [->|N].
    + rewrite IH. split; intros (b & E); exists b; [rewrite E; reflexivity|injection E as E; exact E].
    + split; [discriminate|]. intros (b & E). injection E as E _. congruence.
Qed.

Lemma contains_occurs sub s : contains sub s = true <-> Occurs sub s.
Proof.
  induction s as [|c s IH]; cbn [contains].
  - rewrite orb_false_r, prefix_app. split.
    + intros (b & E). exists EmptyString, b. exact E.
    + intros (a & b & E). exists b. destruct a; [exact E|discriminate E].
  - rewrite orb_true_iff, IH, prefix_app. split.
    + intros [(b & E)|(a & b & E)]; [exists EmptyString, b; exact E|].
      exists (String c a), b. rewrite E. reflexivity.
    + intros (a & b & E). destruct a as [|d a]; [left; exists b; exact E|].
      right. exists a, b. injection E as _ E. exact E.
Qed.
Lemma contains_not sub s : contains sub s = false <-> ~ Occurs sub s.
Proof. rewrite <- contains_occurs. destruct (contains sub s); split; congruence. Qed.

(** ** The data frame *)
Definition nonempty (b : bin) : bool := negb (Qeq_bool (yes b + no b) 0).
Definition row_of (b : bin) : bin_row :=
  BinRow (CNum (prob b)) (Some (yes b)) (Some (no b)) (Some (yes b + no b)) (Some (yes b / (yes b + no b))).
Definition beq (b b' : bin) : Prop := prob b = prob b' /\ yes b == yes b' /\ no b == no b'.

Lemma collect_lists data columns cols ts ys ns :
  Rectangular data columns ->
  (forall c, In c columns -> Occurs "oy_i" c \/ Occurs "on_i" c -> NumericColumn data columns c) ->
  (forall c, In c cols -> In c columns) ->
  Lists data columns cols ts ys ns ->
  exists ys' ns', collect data columns cols = Ok (map CNum ts, ys', ns') /\ Forall2 oeq ys ys' /\ Forall2 oeq ns ns'.
Proof.
  intros HR HN HI L. induction L as [|c cs ts ys ns q O T L IH|c cs ts ys ns q N1 O T L IH
    |c cs ts ys ns q first rest i N1 N2 O D CA E L IH|c cs ts ys ns N1 N2 N3 L IH].
  - exists [], []. repeat split; constructor.
  - destruct IH as (ys' & ns' & E & Hy & Hn); [intros; apply HI; right; assumption|].
    destruct (sum_column_total data columns c q HR) as (s & Es & Hs);
      [apply HN; [apply HI; left; reflexivity|left; exact O]|exact T|].
    exists (s :: ys'), ns'. simpl. apply contains_occurs in O. rewrite O. unfold bind. rewrite Es, E.
    split; [reflexivity|]. split; [constructor; [|exact Hy]|exact Hn].
    destruct s, q; simpl in *; try contradiction; [symmetry; exact Hs|exact I].
  - destruct IH as (ys' & ns' & E & Hy & Hn); [intros; apply HI; right; assumption|].
    destruct (sum_column_total data columns c q HR) as (s & Es & Hs);
      [apply HN; [apply HI; left; reflexivity|right; exact O]|exact T|].
    exists ys', (s :: ns'). simpl. apply contains_occurs in O. apply contains_not in N1. rewrite N1, O. unfold bind. rewrite Es, E.
    split; [reflexivity|]. split; [exact Hy|constructor; [|exact Hn]].
    destruct s, q; simpl in *; try contradiction; [symmetry; exact Hs|exact I].
  - destruct IH as (ys' & ns' & E' & Hy & Hn); [intros; apply HI; right; assumption|].
    exists ys', ns'. simpl. apply contains_occurs in O. apply contains_not in N1, N2. rewrite N1, N2, O.
    apply index_of_ColumnAt in CA. rewrite CA. subst data. unfold cell_at. rewrite E. unfold bind. rewrite E'.
    repeat split; assumption.
  - destruct IH as (ys' & ns' & E & Hy & Hn); [intros; apply HI; right; assumption|].
    exists ys', ns'. simpl. apply contains_not in N1, N2, N3. rewrite N1, N2, N3. rewrite E. repeat split; assumption.
Qed.

Lemma lists_bins bs ys' ns' :
  Forall2 oeq (map (fun b => Some (yes b)) bs) ys' -> Forall2 oeq (map (fun b => Some (no b)) bs) ns' ->
  exists bs', Forall2 beq bs bs' /\ ys' = map (fun b => Some (yes b)) bs' /\ ns' = map (fun b => Some (no b)) bs' /\
              map prob bs = map prob bs'.
Proof.
  revert ys' ns'. induction bs as [|b bs IH]; intros ys' ns' Hy Hn; simpl in *.
  - inversion Hy; inversion Hn. exists []. repeat split; constructor.
  - inversion Hy as [|? y ? ys Ey Fy]; subst. inversion Hn as [|? n ? ns En Fn]; subst.
    destruct y as [y|]; [|contradiction]. destruct n as [n|]; [|contradiction].
    destruct (IH _ _ Fy Fn) as (bs' & F & -> & -> & Ep).
    exists (Bin (prob b) y n :: bs'). simpl in *. split; [constructor; [repeat split; assumption|exact F]|].
    repeat split. rewrite Ep. reflexivity.
Qed.

Lemma used_rows_bins bs :
  used_rows (rows_of (map CNum (map prob bs)) (map (fun b => Some (yes b)) bs) (map (fun b => Some (no b)) bs))
  = Ok (map row_of (filter nonempty bs)).
Proof.
  induction bs as [|b bs IH]; [reflexivity|].
  cbn [map rows_of used_rows nan_op]. cbn [filter]. unfold nonempty at 1.
  destruct (Qeq_bool (yes b + no b) 0) eqn:E; cbn [negb].
  - exact IH.
  - unfold nan_div. rewrite E. unfold bind. rewrite IH. reflexivity.
Qed.

Lemma only_none_some {A} (g : A -> Q) l : only_none (map (fun b => Some (g b)) l) = false.
Proof. destruct l; reflexivity. Qed.

Lemma common_stats data columns bs : ProbabilityTable data columns bs ->
  exists bs', Forall2 beq bs bs' /\ calc_common_stats data columns = Ok (map row_of (filter nonempty bs')).
Proof.
  intros [HR HN HL].
  destruct (collect_lists data columns columns _ _ _ HR HN (fun c H => H) HL) as (ys' & ns' & E & Hy & Hn).
  destruct (lists_bins bs ys' ns' Hy Hn) as (bs' & F & -> & -> & Ep).
  exists bs'. split; [exact F|]. unfold calc_common_stats. rewrite E. unfold bind.
  rewrite Ep, !map_length, !Nat.eqb_refl. cbn [andb negb].
  rewrite (only_none_some yes), (only_none_some no). cbn [orb].
  apply used_rows_bins.
Qed.

(** ** Sums over bins *)
Lemma sum_over_ext g h bs : (forall b, In b bs -> g b == h b) -> sum_over g bs == sum_over h bs.
Proof.
  induction bs as [|b bs IH]; intro H; simpl; [reflexivity|].
  rewrite (H b (or_introl eq_refl)), IH; [reflexivity|]. intros; apply H; right; assumption.
Qed.
Lemma sum_over_nonneg g bs : (forall b, In b bs -> 0 <= g b) -> 0 <= sum_over g bs.
Proof.
  induction bs as [|b bs IH]; intro H; simpl; [lra|].
  pose proof (H b (or_introl eq_refl)). assert (0 <= sum_over g bs) by (apply IH; intros; apply H; right; assumption). lra.
Qed.
Lemma sum_over_le g h bs : (forall b, In b bs -> g b <= h b) -> sum_over g bs <= sum_over h bs.
Proof.
  induction bs as [|b bs IH]; intro H; simpl; [lra|].
  pose proof (H b (or_introl eq_refl)). assert (sum_over g bs <= sum_over h bs) by (apply IH; intros; apply H; right; assumption). lra.
Qed.
Lemma sum_over_plus g h bs : sum_over (fun b => g b + h b) bs == sum_over g bs + sum_over h bs.
Proof. induction bs as [|b bs IH]; simpl; [reflexivity|]. rewrite IH. ring. Qed.
Lemma sum_over_scale c g bs : sum_over (fun b => c * g b) bs == c * sum_over g bs.
Proof. induction bs as [|b bs IH]; simpl; [ring|]. rewrite IH. ring. Qed.
Lemma sum_over_scale_r c g bs : sum_over (fun b => g b * c) bs == sum_over g bs * c.
Proof. induction bs as [|b bs IH]; simpl; [ring|]. rewrite IH. ring. Qed.
Lemma sum_over_0 g bs : (forall b, In b bs -> g b == 0) -> sum_over g bs == 0.
Proof.
  induction bs as [|b bs IH]; intro H; simpl; [reflexivity|].
  rewrite (H b (or_introl eq_refl)), IH; [reflexivity|]. intros; apply H; right; assumption.
Qed.
Lemma sum_over_swap (g : bin -> bin -> Q) l l' :
  sum_over (fun b => sum_over (g b) l') l == sum_over (fun b' => sum_over (fun b => g b b') l) l'.
Proof.
  induction l as [|b l IH]; simpl.
  - symmetry. apply sum_over_0. reflexivity.
  - rewrite IH, <- sum_over_plus. reflexivity.
Qed.
Lemma sum_over_split p g bs :
  sum_over g bs == sum_over g (filter p bs) + sum_over g (filter (fun b => negb (p b)) bs).
Proof.
  induction bs as [|b bs IH]; simpl; [reflexivity|].
  destruct (p b); simpl; rewrite IH; ring.
Qed.
Lemma sum_over_when p g bs : sum_over (fun b => when (p b) (g b)) bs == sum_over g (filter p bs).
Proof. induction bs as [|b bs IH]; simpl; [reflexivity|]. rewrite IH. destruct (p b); simpl; ring. Qed.
Lemma sum_over_filter p g bs : (forall b, In b bs -> p b = false -> g b == 0) ->
  sum_over g (filter p bs) == sum_over g bs.
Proof.
  intro H. rewrite (sum_over_split p g bs), (sum_over_0 g (filter (fun b => negb (p b)) bs)); [ring|].
  intros b Hb. apply filter_In in Hb. destruct Hb as [Hb E]. apply H; [exact Hb|]. destruct (p b); [discriminate E|reflexivity].
Qed.
Lemma sum_over_beq g bs bs' : (forall b b', beq b b' -> g b == g b') -> Forall2 beq bs bs' ->
  sum_over g bs == sum_over g bs'.
Proof. intros H F. induction F as [|b b' l l' E F IH]; simpl; [reflexivity|]. rewrite (H _ _ E), IH. reflexivity. Qed.
Lemma sum_over_map (h : bin -> bin) g bs : sum_over g (map h bs) = sum_over (fun b => g (h b)) bs.
Proof. induction bs as [|b bs IH]; simpl; [reflexivity|]. rewrite IH. reflexivity. Qed.

Lemma counts_in bs b : Counts bs -> In b bs -> 0 <= yes b /\ 0 <= no b.
Proof. intros H I. unfold Counts in H. rewrite Forall_forall in H. exact (H b I). Qed.
Lemma counts_beq bs bs' : Forall2 beq bs bs' -> Counts bs -> Counts bs'.
Proof.
  intros F H. induction F as [|b b' l l' (E1 & E2 & E3) F IH]; [constructor|].
  inversion H as [|? ? [A B] C]; subst. constructor; [split; lra|]. exact (IH C).
Qed.
Lemma counts_filter p bs : Counts bs -> Counts (filter p bs).
Proof. unfold Counts. rewrite !Forall_forall. intros H b I. apply filter_In in I. apply H. tauto. Qed.
Lemma empty_bin bs b : Counts bs -> In b bs -> nonempty b = false -> yes b == 0 /\ no b == 0.
Proof.
  intros C I E. destruct (counts_in _ _ C I). unfold nonempty in E. apply negb_false_iff, Qeq_bool_iff in E. lra.
Qed.

Definition rank (bs : list bin) : Q := sum_over (fun b => sum_over (pair_score b) bs) bs.
Definition unit_score (b b' : bin) : Q :=
  if Qlt_le_dec (prob b') (prob b) then 1 else if Qeq_dec (prob b) (prob b') then 1 # 2 else 0.
Lemma pair_unit b b' : pair_score b b' = yes b * no b' * unit_score b b'.
Proof. reflexivity. Qed.
Lemma unit_range b b' : 0 <= unit_score b b' <= 1.
Proof. unfold unit_score. destruct (Qlt_le_dec _ _); [lra|]. destruct (Qeq_dec _ _); lra. Qed.
Lemma unit_sum b b' : unit_score b b' + unit_score b' b == 1.
Proof.
  unfold unit_score. destruct (Qlt_le_dec (prob b') (prob b)), (Qlt_le_dec (prob b) (prob b')); try (exfalso; lra).
  - destruct (Qeq_dec (prob b') (prob b)); [exfalso; lra|reflexivity].
  - destruct (Qeq_dec (prob b) (prob b')); [exfalso; lra|reflexivity].
  - destruct (Qeq_dec (prob b) (prob b')), (Qeq_dec (prob b') (prob b)); try (exfalso; lra); reflexivity.
Qed.
Lemma product_sum l l' : sum_over (fun b => sum_over (fun b' => yes b * no b') l') l == events l * nonevents l'.
Proof.
  unfold events, nonevents. rewrite <- sum_over_scale_r. apply sum_over_ext. intros b _. apply sum_over_scale.
Qed.
Lemma double_const c l l' : (forall b b', In b l -> In b' l' -> unit_score b b' == c) ->
  sum_over (fun b => sum_over (pair_score b) l') l == c * (events l * nonevents l').
Proof.
  intro H. rewrite <- product_sum, <- sum_over_scale. apply sum_over_ext. intros b Hb.
  rewrite <- sum_over_scale. apply sum_over_ext. intros b' Hb'. rewrite pair_unit, (H b b' Hb Hb'). ring.
Qed.
Lemma rank_nonneg bs : Counts bs -> 0 <= rank bs.
Proof.
  intro C. apply sum_over_nonneg. intros b Hb. apply sum_over_nonneg. intros b' Hb'.
  rewrite pair_unit. destruct (counts_in _ _ C Hb), (counts_in _ _ C Hb'), (unit_range b b').
  repeat apply Qmult_le_0_compat; assumption.
Qed.
Lemma rank_le bs : Counts bs -> rank bs <= events bs * nonevents bs.
Proof.
  intro C. rewrite <- product_sum. apply sum_over_le. intros b Hb. apply sum_over_le. intros b' Hb'.
  rewrite pair_unit. destruct (counts_in _ _ C Hb), (counts_in _ _ C Hb'), (unit_range b b').
  assert (0 <= yes b * no b') by (apply Qmult_le_0_compat; assumption).
  assert (0 <= yes b * no b' * (1 - unit_score b b')) by (apply Qmult_le_0_compat; [assumption|lra]). lra.
Qed.
Lemma unit_exchanged b b' : unit_score (exchanged b) (exchanged b') = unit_score b b'.
Proof. reflexivity. Qed.
Lemma rank_exchanged bs : rank (map exchanged bs) == events bs * nonevents bs - rank bs.
Proof.
  assert (rank bs + rank (map exchanged bs) == events bs * nonevents bs); [|lra].
  unfold rank at 2. rewrite sum_over_map.
  rewrite (sum_over_ext _ (fun b => sum_over (fun b' => no b * yes b' * unit_score b b') bs)).
  2:{ intros b _. rewrite sum_over_map. apply sum_over_ext. intros b' _. rewrite pair_unit, unit_exchanged. reflexivity. }
  rewrite sum_over_swap. unfold rank. rewrite <- sum_over_plus, <- product_sum.
  apply sum_over_ext. intros b _. rewrite <- sum_over_plus. apply sum_over_ext. intros b' _.
  rewrite pair_unit. transitivity (yes b * no b' * (unit_score b b' + unit_score b' b)); [ring|].
  rewrite unit_sum. ring.
Qed.
Lemma rank_no_skill bs : (forall b b', In b bs -> In b' bs -> yes b * no b' == yes b' * no b) ->
  rank bs == (1 # 2) * (events bs * nonevents bs).
Proof.
  intro H. assert (rank bs + rank bs == events bs * nonevents bs); [|lra].
  unfold rank at 2. rewrite sum_over_swap. unfold rank. rewrite <- sum_over_plus, <- product_sum.
  apply sum_over_ext. intros b Hb. rewrite <- sum_over_plus. apply sum_over_ext. intros b' Hb'.
  rewrite !pair_unit. rewrite (H b' b Hb' Hb).
  transitivity (yes b * no b' * (unit_score b b' + unit_score b' b)); [ring|]. rewrite unit_sum. ring.
Qed.
Lemma rank_beq bs bs' : Forall2 beq bs bs' -> rank bs == rank bs'.
Proof.
  intro F. unfold rank. rewrite (sum_over_ext _ (fun b => sum_over (pair_score b) bs') bs).
  - apply sum_over_beq; [|exact F]. intros b b' (E1 & E2 & E3). apply sum_over_ext. intros c _.
    rewrite !pair_unit. unfold unit_score. rewrite E1, E2. reflexivity.
  - intros b _. apply sum_over_beq; [|exact F]. intros c c' (E1 & E2 & E3).
    rewrite !pair_unit. unfold unit_score. rewrite E1, E3. reflexivity.
Qed.
Lemma rank_filter bs : Counts bs -> rank (filter nonempty bs) == rank bs.
Proof.
  intro C. unfold rank. rewrite sum_over_filter.
  - apply sum_over_ext. intros b Hb. apply sum_over_filter. intros b' Hb' E.
    destruct (empty_bin _ _ C Hb' E) as [_ N]. rewrite pair_unit, N. ring.
  - intros b Hb E. destruct (empty_bin _ _ C Hb E) as [Y _]. apply sum_over_0. intros b' _. rewrite pair_unit, Y. ring.
Qed.

(** ** Python sums *)
Lemma py_sum_acc (g : bin -> Q) l a :
  exists s, fold_left (nan_op Qplus) (map (fun b => Some (g b)) l) (Some a) = Some s /\ s == a + sum_over g l.
Proof.
  revert a. induction l as [|b l IH]; intro a; simpl; [exists a; split; [reflexivity|ring]|].
  destruct (IH (a + g b)) as (s & E & Hs). exists s. split; [exact E|]. rewrite Hs. ring.
Qed.
Lemma py_sum_val g l : exists s, py_sum (map (fun b => Some (g b)) l) = Some s /\ s == sum_over g l.
Proof. destruct (py_sum_acc g l 0) as (s & E & Hs). exists s. split; [exact E|]. rewrite Hs. ring. Qed.
Lemma nansum_val (g : bin -> Q) l : nansum (map (fun b => Some (g b)) l) == sum_over g l.
Proof. induction l as [|b l IH]; simpl; [reflexivity|]. rewrite IH. reflexivity. Qed.
Lemma sum_where_val keep (g : bin -> Q) l a :
  exists s, sum_where keep (combine (map prob l) (map (fun b => Some (g b)) l)) (Some a) = Some s /\
            s == a + sum_over (fun b => when (keep (prob b)) (g b)) l.
Proof.
  revert a. induction l as [|b l IH]; intro a; simpl; [exists a; split; [reflexivity|ring]|].
  destruct (keep (prob b)); simpl.
  - destruct (IH (a + g b)) as (s & E & Hs). exists s. split; [exact E|]. rewrite Hs. ring.
  - destruct (IH a) as (s & E & Hs). exists s. split; [exact E|]. rewrite Hs. ring.
Qed.

(** ** Distinct thresholds *)
Lemma uniq_sorted l : Ascending l ->
  StronglySorted Qlt (uniqQ l) /\ (forall y, In y (uniqQ l) -> In y l) /\
  (forall x, In x l -> exists y, In y (uniqQ l) /\ y == x).
Proof.
  induction l as [|x l IH]; intro A.
  - repeat split; [constructor|intros y []|intros x []].
  - destruct A as [Ax A]. destruct (IH A) as (S & I & C). destruct l as [|y t].
    + repeat split; [repeat constructor|auto|]. intros z [->|[]]. exists z. split; [left; reflexivity|reflexivity].
    + change (uniqQ (x :: y :: t)) with (if Qeq_bool x y then uniqQ (y :: t) else x :: uniqQ (y :: t)).
      destruct (Qeq_bool x y) eqn:E.
      * apply Qeq_bool_iff in E. split; [exact S|]. split; [intros z Hz; right; exact (I z Hz)|].
        intros z [->|Hz]; [|exact (C z Hz)]. destruct (C y (or_introl eq_refl)) as (w & Hw & Ew).
        exists w. split; [exact Hw|]. rewrite Ew, E. reflexivity.
      * split.
        -- constructor; [exact S|]. apply Forall_forall. intros z Hz. apply I in Hz.
           assert (x <= z) by (apply Ax; exact Hz).
           assert (y <= z). { destruct Hz as [->|Hz]; [apply Qle_refl|]. destruct A as [Ay _]. apply Ay. exact Hz. }
           assert (x <= y) by (apply Ax; left; reflexivity).
           assert (~ x == y) by (intro K; apply Qeq_bool_iff in K; congruence). lra.
        -- split.
           ++ intros z [->|Hz]; [left; reflexivity|right; exact (I z Hz)].
           ++ intros z [->|Hz]; [exists z; split; [left; reflexivity|reflexivity]|].
              destruct (C z Hz) as (w & Hw & Ew). exists w. split; [right; exact Hw|exact Ew].
Qed.

(** ** The curve *)
Definition above (th : Q) (b : bin) : bool := negb (Qle_bool (prob b) th).
Definition share (g : bin -> Q) (l : list bin) (th : Q) : Q := sum_over g (filter (above th) l) / sum_over g l.

Definition rate (l : list (Q * option Q)) (th : Q) : res (option Q) :=
  let ab := sum_where (fun t => Qlt_bool th t) l (Some 0) in
  let be := sum_where (fun t => Qle_bool t th) l (Some 0) in
  nan_div ab (nan_op Qplus ab be).

Lemma rate_val g l th :
  exists a t, t == sum_over g l /\ a == sum_over g (filter (above th) l) /\
  rate (combine (map prob l) (map (fun b => Some (g b)) l)) th = nan_div (Some a) (Some t).
Proof.
  unfold rate.
  destruct (sum_where_val (fun t => Qlt_bool th t) g l 0) as (a & Ea & Ha).
  destruct (sum_where_val (fun t => Qle_bool t th) g l 0) as (b & Eb & Hb).
  rewrite Ea, Eb. cbn [nan_op]. exists a, (a + b).
  assert (A : a == sum_over g (filter (above th) l)).
  { rewrite Ha, Qplus_0_l. rewrite (sum_over_when (above th) g). reflexivity. }
  split; [|split; [exact A|reflexivity]].
  rewrite A, Hb. rewrite (sum_over_split (above th) g l).
  rewrite (sum_over_when (fun c => Qle_bool (prob c) th) g). apply Qplus_comp; [reflexivity|].
  rewrite Qplus_0_l. erewrite filter_ext; [reflexivity|]. intro c. unfold above. rewrite negb_involutive. reflexivity.
Qed.
Lemma rate_ok g l th : ~ sum_over g l == 0 ->
  exists h, rate (combine (map prob l) (map (fun b => Some (g b)) l)) th = Ok (Some h) /\ h == share g l th.
Proof.
  intro N. destruct (rate_val g l th) as (a & t & Et & Ea & ->). unfold nan_div.
  destruct (Qeq_bool t 0) eqn:E; [apply Qeq_bool_iff in E; exfalso; apply N; rewrite <- Et; exact E|].
  eexists. split; [reflexivity|]. unfold share. rewrite Ea, Et. reflexivity.
Qed.
Lemma rate_err g l th : sum_over g l == 0 ->
  rate (combine (map prob l) (map (fun b => Some (g b)) l)) th = Err PyWarning.
Proof.
  intro N. destruct (rate_val g l th) as (a & t & Et & Ea & ->). unfold nan_div.
  destruct (Qeq_bool t 0) eqn:E; [reflexivity|]. apply Qeq_bool_neq in E. exfalso. apply E. rewrite Et. exact N.
Qed.

Definition thresholds (l : list bin) : list Q := uniqQ (sortQ (map prob l)).
Lemma numbers_of l : mapM (fun r => number_of (thresh_i r)) (map row_of l) = Ok (map prob l).
Proof. induction l as [|b l IH]; simpl; [reflexivity|]. unfold bind. rewrite IH. reflexivity. Qed.

Lemma roc_unfold l : calc_pct_roc (map row_of l) =
  (pody <- mapM (rate (combine (map prob l) (map (fun b => Some (yes b)) l))) (thresholds l) ;;
   pofd <- mapM (rate (combine (map prob l) (map (fun b => Some (no b)) l))) (thresholds l) ;;
   Ok (map (fun x => RocRow (fst x) (fst (snd x)) (snd (snd x))) (combine (thresholds l) (combine pody pofd)))).
Proof.
  unfold calc_pct_roc. rewrite numbers_of. cbn [bind]. rewrite !map_map. reflexivity.
Qed.

Definition PointOf (l : list bin) (th : Q) (p : roc_row) : Prop :=
  roc_thresh p = th /\ exists h f, roc_pody p = Some h /\ roc_pofd p = Some f /\ h == share yes l th /\ f == share no l th.

Lemma mapM_each {A B} (R : A -> B -> Prop) (f : A -> res B) l :
  (forall x, exists y, f x = Ok y /\ R x y) -> exists ys, mapM f l = Ok ys /\ Forall2 R l ys.
Proof.
  intro H. induction l as [|x l IH]; simpl; [exists []; split; [reflexivity|constructor]|].
  destruct (H x) as (y & E & Hy). destruct IH as (ys & E' & F). rewrite E. cbn [bind]. rewrite E'. cbn [bind].
  exists (y :: ys). split; [reflexivity|constructor; assumption].
Qed.

Lemma roc_points l : ~ sum_over yes l == 0 -> ~ sum_over no l == 0 ->
  exists points, calc_pct_roc (map row_of l) = Ok points /\ Forall2 (PointOf l) (thresholds l) points.
Proof.
  intros NY NN. rewrite roc_unfold.
  destruct (mapM_each (fun th o => exists h, o = Some h /\ h == share yes l th)
              (rate (combine (map prob l) (map (fun b => Some (yes b)) l))) (thresholds l)) as (pody & E & F).
  { intro th. destruct (rate_ok yes l th NY) as (h & E & Hh). exists (Some h). split; [exact E|]. exists h. auto. }
  destruct (mapM_each (fun th o => exists h, o = Some h /\ h == share no l th)
              (rate (combine (map prob l) (map (fun b => Some (no b)) l))) (thresholds l)) as (pofd & E' & F').
  { intro th. destruct (rate_ok no l th NN) as (h & E' & Hh). exists (Some h). split; [exact E'|]. exists h. auto. }
  rewrite E. cbn [bind]. rewrite E'. cbn [bind]. eexists. split; [reflexivity|].
  clear E E'. revert pofd F'. induction F as [|th o ths pody (h & -> & Hh) F IH]; intros pofd F'.
  - constructor.
  - inversion F' as [|? o' ? pofd' (f & -> & Hf) F'']; subst. simpl. constructor; [|apply IH; exact F''].
    split; [reflexivity|]. exists h, f. repeat split; assumption.
Qed.

Lemma thresholds_spec l : StronglySorted Qlt (thresholds l) /\
  (forall y, In y (thresholds l) -> exists b, In b l /\ y = prob b) /\
  (forall b, In b l -> exists y, In y (thresholds l) /\ y == prob b).
Proof.
  destruct (uniq_sorted (sortQ (map prob l)) (sortQ_asc _)) as (S & I & C). split; [exact S|]. split.
  - intros y Hy. apply I in Hy. apply (Permutation_in _ (sortQ_perm _)) in Hy. apply in_map_iff in Hy.
    destruct Hy as (b & E & Hb). exists b. auto.
  - intros b Hb. apply C. apply (Permutation_in _ (Permutation_sym (sortQ_perm _))). apply in_map. exact Hb.
Qed.

(** ** The area *)
Definition AreaPoint (Y N : Q) (R : list bin) (th : Q) (p : option Q * option Q) : Prop :=
  exists h f, p = (Some h, Some f) /\ h == sum_over yes (filter (above th) R) / Y /\ f == sum_over no (filter (above th) R) / N.

Lemma filter_filter_above k th R : k < th -> filter (above th) (filter (above k) R) = filter (above th) R.
Proof.
  intro H. induction R as [|b R IH]; simpl; [reflexivity|].
  destruct (above k b) eqn:E; simpl; [rewrite IH; reflexivity|].
  destruct (above th b) eqn:E'; [|exact IH]. unfold above in E, E'. apply negb_false_iff in E. apply Qle_bool_iff in E.
  apply negb_true_iff in E'. assert (K : Qle_bool (prob b) th = true) by (apply Qle_bool_iff; lra). congruence.
Qed.

Lemma above_true th b : above th b = true <-> th < prob b.
Proof.
  unfold above. rewrite negb_true_iff. split; intro H.
  - apply Qnot_le_lt. intro K. apply Qle_bool_iff in K. congruence.
  - destruct (Qle_bool (prob b) th) eqn:E; [|reflexivity]. apply Qle_bool_iff in E. exfalso. lra.
Qed.
Lemma above_false th b : above th b = false <-> prob b <= th.
Proof. unfold above. rewrite negb_false_iff. apply Qle_bool_iff. Qed.

Lemma rank_step k R : (forall b, In b R -> above k b = false -> prob b == k) ->
  let gt := filter (above k) R in let eq := filter (fun b => negb (above k b)) R in
  rank R == rank gt + nonevents eq * (events gt + (1 # 2) * events eq).
Proof.
  intros H gt eq. unfold rank at 1.
  rewrite (sum_over_split (above k)). fold gt eq.
  rewrite (sum_over_ext _ (fun b => sum_over (pair_score b) gt + sum_over (pair_score b) eq) gt)
    by (intros b _; apply (sum_over_split (above k))).
  rewrite (sum_over_ext (fun b => sum_over (pair_score b) R) (fun b => sum_over (pair_score b) gt + sum_over (pair_score b) eq) eq)
    by (intros b _; apply (sum_over_split (above k))).
  rewrite !sum_over_plus. fold (rank gt).
  assert (G : forall b, In b gt -> k < prob b) by (intros b Hb; apply filter_In in Hb; apply above_true; tauto).
  assert (Q : forall b, In b eq -> prob b == k).
  { intros b Hb. apply filter_In in Hb. destruct Hb as [Hb E]. apply H; [exact Hb|]. destruct (above k b); [discriminate E|reflexivity]. }
  rewrite (double_const 1 gt eq), (double_const 0 eq gt), (double_const (1 # 2) eq eq); [ring| | |].
  - intros b b' Hb Hb'. apply Q in Hb, Hb'. unfold unit_score. destruct (Qlt_le_dec _ _); [exfalso; lra|].
    destruct (Qeq_dec _ _); [reflexivity|exfalso; lra].
  - intros b b' Hb Hb'. apply Q in Hb. apply G in Hb'. unfold unit_score. destruct (Qlt_le_dec _ _); [exfalso; lra|].
    destruct (Qeq_dec _ _); [exfalso; lra|reflexivity].
  - intros b b' Hb Hb'. apply G in Hb. apply Q in Hb'. unfold unit_score. destruct (Qlt_le_dec _ _); [reflexivity|exfalso; lra].
Qed.

Lemma area_points Y N k R ths pts : (forall th, In th ths -> k < th) ->
  Forall2 (AreaPoint Y N R) ths pts -> Forall2 (AreaPoint Y N (filter (above k) R)) ths pts.
Proof.
  intros A F. induction F as [|th pt ths pts (h & f & -> & H1 & H2) F IH]; constructor.
  - exists h, f. rewrite !filter_filter_above by (apply A; left; reflexivity). repeat split; assumption.
  - apply IH. intros th' H. apply A. right. exact H.
Qed.

Lemma area Y N : ~ Y == 0 -> ~ N == 0 -> forall ths pts R p f acc,
  StronglySorted Qlt ths -> (forall b, In b R -> exists th, In th ths /\ th == prob b) ->
  Forall2 (AreaPoint Y N R) ths pts -> p == events R / Y -> f == nonevents R / N ->
  exists s, trapezoids (Some p) (Some f) (pts ++ [(Some 0, Some 0)])%list (Some acc) = Some s /\
            s == acc + rank R / (Y * N).
Proof.
  intros HY HN. induction ths as [|k ths IH]; intros pts R p f acc S C F Hp Hf.
  - inversion F; subst. assert (R = []) as ->.
    { destruct R as [|b R]; [reflexivity|]. destruct (C b (or_introl eq_refl)) as (th & [] & _). }
    simpl. eexists. split; [reflexivity|]. rewrite Hp, Hf. unfold events, nonevents, rank. simpl.
    field. split; assumption.
  - inversion F as [|? pt ? pts' (h & f' & -> & Hh & Hf') F']; subst. inversion S as [|? ? S' A]; subst.
    rewrite Forall_forall in A.
    assert (Q : forall b, In b R -> above k b = false -> prob b == k).
    { intros b Hb E. apply above_false in E. destruct (C b Hb) as (th & [->|Ht] & Et); [symmetry; exact Et|].
      apply A in Ht. exfalso. lra. }
    destruct (IH pts' (filter (above k) R) h f'
               (acc + (1 # 2) * (p + h) * (f - f')) S') as (s & E & Hs).
    + intros b Hb. apply filter_In in Hb. destruct Hb as [Hb E]. apply above_true in E.
      destruct (C b Hb) as (th & [->|Ht] & Et); [exfalso; lra|]. exists th. auto.
    + apply area_points; [exact A|exact F'].
    + exact Hh.
    + exact Hf'.
    + exists s. split; [exact E|]. rewrite Hs, Hp, Hf, Hh, Hf'.
      rewrite (rank_step k R Q). fold (events (filter (above k) R)) (nonevents (filter (above k) R)).
      unfold events at 1, nonevents at 1. rewrite (sum_over_split (above k) yes R), (sum_over_split (above k) no R).
      unfold events, nonevents. field. split; assumption.
Qed.

(** ** From tables to bins *)
Definition Additive (g : bin -> Q) : Prop :=
  (forall b b', beq b b' -> g b == g b') /\ (forall b, yes b == 0 -> no b == 0 -> g b == 0).

Lemma table_bins data columns bs : ProbabilityTable data columns bs -> Counts bs ->
  exists l, calc_common_stats data columns = Ok (map row_of l) /\ Counts l /\
    (forall b, In b l -> 0 < cases b) /\
    (forall g, Additive g -> sum_over g l == sum_over g bs) /\ rank l == rank bs /\
    (forall b, In b bs -> 0 < cases b -> exists b', In b' l /\ prob b' = prob b) /\
    (forall b', In b' l -> exists b, In b bs /\ 0 < cases b /\ beq b b').
Proof.
  intros HT C. destruct (common_stats _ _ _ HT) as (bs' & F & E).
  pose proof (counts_beq _ _ F C) as C'.
  exists (filter nonempty bs'). split; [exact E|]. split; [apply counts_filter; exact C'|].
  assert (P : forall b, In b (filter nonempty bs') -> 0 < cases b).
  { intros b Hb. apply filter_In in Hb. destruct Hb as [Hb N]. destruct (counts_in _ _ C' Hb).
    unfold nonempty in N. apply negb_true_iff in N. apply Qeq_bool_neq in N. unfold cases. lra. }
  split; [exact P|]. split.
  - intros g [G1 G2]. rewrite sum_over_filter.
    + symmetry. apply sum_over_beq; assumption.
    + intros b Hb N. destruct (empty_bin _ _ C' Hb N). apply G2; assumption.
  - split; [rewrite (rank_filter _ C'); symmetry; apply rank_beq; exact F|]. split.
    + clear E HT P C C'. induction F as [|b b' l l' B F IH]; intros c [].
      * subst c. intro K. exists b'. destruct B as (E1 & E2 & E3). split; [|symmetry; exact E1].
        apply filter_In. split; [left; reflexivity|]. unfold nonempty. unfold cases in K.
        destruct (Qeq_bool (yes b' + no b') 0) eqn:Z; [apply Qeq_bool_iff in Z; exfalso; lra|reflexivity].
      * intro K. destruct (IH c H K) as (d & Hd & Ed). exists d. split; [|exact Ed].
        apply filter_In in Hd. apply filter_In. simpl. tauto.
    + intros b' Hb'. pose proof (P b' Hb') as K. apply filter_In in Hb'. destruct Hb' as [Hb' _].
      clear E HT P C C'. induction F as [|b c l l' B F IH]; destruct Hb'.
      * subst c. exists b. split; [left; reflexivity|]. split; [|exact B].
        destruct B as (E1 & E2 & E3). unfold cases in *. lra.
      * destruct (IH H) as (d & Hd & Ed). exists d. split; [right; exact Hd|exact Ed].
Qed.

Lemma add_yes : Additive yes. Proof. split; [intros b b' (E1 & E2 & E3); exact E2|auto]. Qed.
Lemma add_no : Additive no. Proof. split; [intros b b' (E1 & E2 & E3); exact E3|auto]. Qed.
Lemma add_cases : Additive cases.
Proof. split; [intros b b' (E1 & E2 & E3); unfold cases; rewrite E2, E3; reflexivity|intros b A B; unfold cases; rewrite A, B; reflexivity]. Qed.
Lemma add_when (p : Q -> bool) g : Additive g -> Additive (fun b => when (p (prob b)) (g b)).
Proof.
  intros [A B]. split.
  - intros b b' H. pose proof (A _ _ H) as K. destruct H as (E1 & _). rewrite E1. destruct (p (prob b')); simpl; [exact K|reflexivity].
  - intros b Y N. destruct (p (prob b)); simpl; [apply B; assumption|reflexivity].
Qed.

Lemma share_bins g l bs th : (forall g, Additive g -> sum_over g l == sum_over g bs) -> Additive g ->
  share g l th == sum_over (fun b => when (negb (Qle_bool (prob b) th)) (g b)) bs / sum_over g bs.
Proof.
  intros H A. unfold share. rewrite <- (sum_over_when (above th) g l). unfold above.
  rewrite (H (fun b => when (negb (Qle_bool (prob b) th)) (g b))) by (apply (add_when (fun q => negb (Qle_bool q th))); exact A).
  rewrite (H g A). reflexivity.
Qed.

Lemma share_range g l th : (forall b, In b l -> 0 <= g b) -> 0 < sum_over g l -> 0 <= share g l th <= 1.
Proof.
  intros H P. unfold share.
  assert (A : 0 <= sum_over g (filter (above th) l)) by (apply sum_over_nonneg; intros b Hb; apply filter_In in Hb; apply H; tauto).
  assert (B : 0 <= sum_over g (filter (fun b => negb (above th b)) l)) by (apply sum_over_nonneg; intros b Hb; apply filter_In in Hb; apply H; tauto).
  pose proof (sum_over_split (above th) g l).
  split; [apply Qle_shift_div_l|apply Qle_shift_div_r]; [exact P|lra|exact P|lra].
Qed.
Lemma share_mono g l th th' : (forall b, In b l -> 0 <= g b) -> 0 < sum_over g l -> th <= th' ->
  share g l th' <= share g l th.
Proof.
  intros H P L. unfold share, Qdiv. apply Qmult_le_compat_r; [|apply Qlt_le_weak, Qinv_lt_0_compat; exact P].
  rewrite <- !sum_over_when. apply sum_over_le. intros b Hb. pose proof (H b Hb).
  destruct (above th b) eqn:E, (above th' b) eqn:E'; simpl; try lra.
  apply above_false in E. apply above_true in E'. exfalso. lra.
Qed.

(** ** The area of a table *)
Lemma forall2_inr {A B} (R : A -> B -> Prop) l l' b : Forall2 R l l' -> In b l' -> exists a, In a l /\ R a b.
Proof.
  intro H. induction H as [|x y l l' HR _ IH]; intros []; [subst; exists x; simpl; auto|].
  destruct IH as (c & Hc & Hr); [assumption|]. exists c. simpl; auto.
Qed.

Lemma area_of_bins l : Counts l -> (forall b, In b l -> 0 < cases b) -> 0 < events l -> 0 < nonevents l ->
  exists points, calc_pct_roc (map row_of l) = Ok points /\
  exists s, trapezoids (Some 1) (Some 1) (map (fun r => (roc_pody r, roc_pofd r)) points ++ [(Some 0, Some 0)])%list (Some 0) = Some s /\
            s == rank l / (events l * nonevents l).
Proof.
  intros C P HY HN.
  assert (NY : ~ events l == 0) by lra. assert (NN : ~ nonevents l == 0) by lra.
  destruct (roc_points l NY NN) as (points & E & F). exists points. split; [exact E|].
  destruct (thresholds_spec l) as (S & I & D).
  destruct (area (events l) (nonevents l) NY NN (thresholds l) (map (fun r => (roc_pody r, roc_pofd r)) points) l 1 1 0 S)
    as (s & Es & Hs).
  - exact D.
  - clear E S I D. induction F as [|th p ths ps (Et & h & f & E1 & E2 & H1 & H2) F IH]; simpl; constructor; [|exact IH].
    exists h, f. rewrite E1, E2. repeat split; assumption.
  - field. exact NY.
  - field. exact NN.
  - exists s. split; [exact Es|]. rewrite Hs. ring.
Qed.

Lemma auc_value data columns bs : ProbabilityTable data columns bs -> Counts bs -> 0 < events bs -> 0 < nonevents bs ->
  exists r, calculate_pstd_roc_auc data columns = Ok (Some r) /\ Nearest 7 (discrimination bs) r.
Proof.
  intros HT C HY HN. destruct (table_bins _ _ _ HT C) as (l & E & Cl & P & G & R & _).
  assert (EY : events l == events bs) by exact (G yes add_yes).
  assert (EN : nonevents l == nonevents bs) by exact (G no add_no).
  destruct (area_of_bins l Cl P) as (points & Ep & s & Es & Hs); [lra|lra|].
  unfold calculate_pstd_roc_auc. rewrite E. cbn [bind]. rewrite Ep. cbn [bind]. rewrite Es. unfold nan_round.
  eexists. split; [reflexivity|]. apply (nearest_compat 7 s); [|apply rhu_nearest].
  rewrite Hs. unfold discrimination. fold (rank bs). rewrite R, EY, EN. reflexivity.
Qed.

Lemma discrimination_range bs : Counts bs -> 0 < events bs -> 0 < nonevents bs -> 0 <= discrimination bs <= 1.
Proof.
  intros C HY HN. unfold discrimination. fold (rank bs).
  assert (0 < events bs * nonevents bs) by (apply Qmult_lt_0_compat; assumption).
  pose proof (rank_nonneg bs C). pose proof (rank_le bs C).
  split; [apply Qle_shift_div_l|apply Qle_shift_div_r]; try assumption; lra.
Qed.

Lemma nearest_range v w : Nearest 7 v w -> forall lo hi, MultipleOf 7 lo -> MultipleOf 7 hi -> lo <= v <= hi -> lo <= w <= hi.
Proof.
  intros N lo hi Ml Mh [A B].
  assert (W : w == round_half_up v 7) by (eapply nearest_unique; [exact N|apply rhu_nearest]).
  pose proof (rhu_mono _ _ 7 A). pose proof (rhu_mono _ _ 7 B). pose proof (rhu_fix lo 7 Ml). pose proof (rhu_fix hi 7 Mh). lra.
Qed.
Lemma nearest_exact v w q : Nearest 7 v w -> MultipleOf 7 q -> v == q -> w == q.
Proof.
  intros N M E. destruct (nearest_range v w N q q M M) as [A B]; [split; lra|]. lra.
Qed.
Lemma multiple_half : MultipleOf 7 (1 # 2).
Proof. exists 5000000%Z. reflexivity. Qed.
Lemma multiple_quarter : MultipleOf 7 (1 # 4).
Proof. exists 2500000%Z. reflexivity. Qed.

Lemma rank_const c bs : Counts bs ->
  (forall b b', In b bs -> In b' bs -> 0 < yes b -> 0 < no b' -> unit_score b b' == c) ->
  rank bs == c * (events bs * nonevents bs).
Proof.
  intros C H. unfold rank. rewrite <- product_sum, <- sum_over_scale. apply sum_over_ext. intros b Hb.
  rewrite <- sum_over_scale. apply sum_over_ext. intros b' Hb'. rewrite pair_unit.
  destruct (counts_in _ _ C Hb) as [A _]. destruct (counts_in _ _ C Hb') as [_ B].
  destruct (Qlt_le_dec 0 (yes b)) as [Y|Y]; [|assert (K : yes b == 0) by lra; rewrite K; ring].
  destruct (Qlt_le_dec 0 (no b')) as [N|N]; [|assert (K : no b' == 0) by lra; rewrite K; ring].
  rewrite (H b b' Hb Hb' Y N). ring.
Qed.

(** ** Brier components *)
Lemma t_table_bins l : t_table_of (map row_of l) == all_cases l.
Proof. unfold t_table_of. rewrite map_map. simpl. apply (nansum_val (fun b => yes b + no b)). Qed.
Lemma oy_sum_bins l : oy_sum (map row_of l) == events l.
Proof. unfold oy_sum. rewrite map_map. simpl. apply (nansum_val yes). Qed.

Definition rel_term (b : bin) : Q := (yes b + no b) * (prob b - yes b / (yes b + no b)) * (prob b - yes b / (yes b + no b)).
Definition res_term (o : Q) (b : bin) : Q := (yes b + no b) * (yes b / (yes b + no b) - o) * (yes b / (yes b + no b) - o).
Lemma rel_terms l : mapM reliability_term (map row_of l) = Ok (map (fun b => Some (rel_term b)) l).
Proof. induction l as [|b l IH]; cbn [map mapM]; [reflexivity|]. rewrite IH. reflexivity. Qed.
Lemma res_terms o l : map (resolution_term o) (map row_of l) = map (fun b => Some (res_term o b)) l.
Proof. rewrite map_map. reflexivity. Qed.
Lemma add_rel : Additive (fun b => cases b * ((prob b - frequency b) * (prob b - frequency b))).
Proof.
  split.
  - intros b b' (E1 & E2 & E3). unfold cases, frequency, cases. rewrite E1, E2, E3. reflexivity.
  - intros b A B. unfold cases at 1. rewrite A, B. ring.
Qed.
Lemma add_res o : Additive (fun b => cases b * ((frequency b - o) * (frequency b - o))).
Proof.
  split.
  - intros b b' (E1 & E2 & E3). unfold cases, frequency, cases. rewrite E2, E3. reflexivity.
  - intros b A B. unfold cases at 1. rewrite A, B. ring.
Qed.
Lemma nan_div_ok a b : ~ b == 0 -> nan_div (Some a) (Some b) = Ok (Some (a / b)).
Proof. intro N. unfold nan_div. destruct (Qeq_bool b 0) eqn:E; [apply Qeq_bool_iff in E; contradiction|reflexivity]. Qed.
Lemma nan_div_0 a b : b == 0 -> nan_div (Some a) (Some b) = Err PyWarning.
Proof. intro N. unfold nan_div. apply Qeq_bool_iff in N. rewrite N. reflexivity. Qed.

Lemma reliability_bins l : 0 < all_cases l ->
  exists r, calc_reliability (t_table_of (map row_of l)) (map row_of l) = Ok (Some r) /\ r == reliability l.
Proof.
  intro P. unfold calc_reliability. rewrite rel_terms. cbn [bind].
  destruct (py_sum_val rel_term l) as (s & -> & Hs). pose proof (t_table_bins l).
  rewrite nan_div_ok by lra. eexists. split; [reflexivity|]. unfold reliability. rewrite Hs, H.
  apply Qmult_comp; [|reflexivity]. apply sum_over_ext. intros b _. unfold rel_term, frequency, cases. ring.
Qed.
Lemma resolution_bins l o : 0 < all_cases l ->
  exists r, calc_resolution (t_table_of (map row_of l)) (map row_of l) o = Ok (Some r) /\ r == resolution_about o l.
Proof.
  intro P. unfold calc_resolution. rewrite res_terms.
  destruct (py_sum_val (res_term o) l) as (s & -> & Hs). pose proof (t_table_bins l).
  rewrite nan_div_ok by lra. eexists. split; [reflexivity|]. unfold resolution_about. rewrite Hs, H.
  apply Qmult_comp; [|reflexivity]. apply sum_over_ext. intros b _. unfold res_term, frequency, cases. ring.
Qed.
Lemma cases_split bs : all_cases bs == events bs + nonevents bs.
Proof. unfold all_cases, cases. apply sum_over_plus. Qed.
Lemma brier_identity bs o : Counts bs -> 0 < all_cases bs ->
  reliability bs - resolution_about o bs + base_rate bs * (1 - base_rate bs)
  == brier bs - (o - base_rate bs) * (o - base_rate bs).
Proof.
  intros C P. unfold reliability, resolution_about, brier, base_rate.
  assert (Z : ~ all_cases bs == 0) by lra.
  set (T := all_cases bs) in *. set (Y := events bs).
  set (A := sum_over (fun b => cases b * ((prob b - frequency b) * (prob b - frequency b))) bs).
  set (B := sum_over (fun b => cases b * ((frequency b - o) * (frequency b - o))) bs).
  set (D := sum_over (fun b => yes b * ((prob b - 1) * (prob b - 1)) + no b * (prob b * prob b)) bs).
  assert (K : A - B == D + (2 * o - 1) * Y - o * o * T).
  { unfold A, B, D, Y, T, events, all_cases. clear - C. induction C as [|b bs [Hy Hn] C IH]; simpl; [ring|].
    assert (E : cases b * ((prob b - frequency b) * (prob b - frequency b)) - cases b * ((frequency b - o) * (frequency b - o))
                == yes b * ((prob b - 1) * (prob b - 1)) + no b * (prob b * prob b) + (2 * o - 1) * yes b - o * o * cases b).
    { destruct (Qeq_dec (cases b) 0) as [Z|Z].
      - assert (yes b == 0 /\ no b == 0) as [K1 K2] by (unfold cases in Z; lra). rewrite Z, K1, K2. ring.
      - unfold frequency. unfold cases in *. field. exact Z. }
    lra. }
  transitivity ((A - B) / T + Y / T * (1 - Y / T)); [field; exact Z|]. rewrite K. field. exact Z.
Qed.
Lemma rel_nonneg bs : Counts bs -> 0 < all_cases bs -> 0 <= reliability bs.
Proof.
  intros C P. unfold reliability. apply Qle_shift_div_l; [exact P|]. rewrite Qmult_0_l. apply sum_over_nonneg.
  intros b Hb. destruct (counts_in _ _ C Hb). apply Qmult_le_0_compat; [unfold cases; lra|apply Qsq_nonneg].
Qed.
Lemma res_nonneg o bs : Counts bs -> 0 < all_cases bs -> 0 <= resolution_about o bs.
Proof.
  intros C P. unfold resolution_about. apply Qle_shift_div_l; [exact P|]. rewrite Qmult_0_l. apply sum_over_nonneg.
  intros b Hb. destruct (counts_in _ _ C Hb). apply Qmult_le_0_compat; [unfold cases; lra|apply Qsq_nonneg].
Qed.
Lemma base_rate_range bs : Counts bs -> 0 < all_cases bs -> 0 <= base_rate bs <= 1.
Proof.
  intros C P. unfold base_rate. pose proof (cases_split bs).
  assert (0 <= events bs) by (apply sum_over_nonneg; intros b Hb; apply (counts_in _ _ C Hb)).
  assert (0 <= nonevents bs) by (apply sum_over_nonneg; intros b Hb; apply (counts_in _ _ C Hb)).
  split; [apply Qle_shift_div_l|apply Qle_shift_div_r]; try assumption; lra.
Qed.

Lemma mapM_id vs :
  mapM (fun c => match c with CNum q => Ok q | CMiss => Err TypeError | CStr _ => Err TypeError end) (map CNum vs) = Ok vs.
Proof. induction vs as [|v vs IH]; cbn [map mapM]; [reflexivity|]. cbn [bind]. rewrite IH. reflexivity. Qed.
Lemma fold_qsum l : fold_left Qplus l 0 == qsum l.
Proof.
  assert (H : forall a, fold_left Qplus l a == a + qsum l).
  { induction l as [|x l IH]; intro a; simpl; [ring|]. rewrite IH. ring. }
  rewrite H. ring.
Qed.

(** A table with a bin has a first row. *)
Lemma lists_row data columns cols ts ys ns : Lists data columns cols ts ys ns -> ts <> [] -> data <> [].
Proof.
  intro L. induction L; intro N; try (apply IHL; exact N); [congruence|]. subst. discriminate.
Qed.

Lemma case_table : ProbabilityTable [pct_line (1 # 5) 1 4 (4 # 5) 2 1; pct_line (1 # 5) 0 5 (4 # 5) 4 1] pct_columns
                [Bin (1 # 5) 1 9; Bin (4 # 5) 6 2].
Proof.
  assert (CA : forall c i, index_of c pct_columns = Some i -> ColumnAt pct_columns c i) by (intros; apply index_of_ColumnAt; assumption).
  split.
  - intros r [<-|[<-|[]]]; reflexivity.
  - intros c Hc O i r s Ci Hr E. apply index_of_ColumnAt in Ci.
    destruct Hc as [<-|[<-|[<-|[<-|[<-|[<-|[<-|[]]]]]]]]; vm_compute in Ci; injection Ci as <-;
      try (destruct Hr as [<-|[<-|[]]]; discriminate E).
    exfalso. destruct O as [O|O]; apply contains_occurs in O; discriminate O.
  - assert (T : forall c q, forall i, index_of c pct_columns = Some i ->
       qsum (present_at i [pct_line (1 # 5) 1 4 (4 # 5) 2 1; pct_line (1 # 5) 0 5 (4 # 5) 4 1]) == q ->
       present_at i [pct_line (1 # 5) 1 4 (4 # 5) 2 1; pct_line (1 # 5) 0 5 (4 # 5) 4 1] <> [] ->
       ColumnTotal [pct_line (1 # 5) 1 4 (4 # 5) 2 1; pct_line (1 # 5) 0 5 (4 # 5) 4 1] pct_columns c (Some q)).
    { intros c q i Ei Eq Ne. split.
      - intro H. apply index_of_None in H. congruence.
      - intros j Cj. apply index_of_ColumnAt in Cj. rewrite Cj in Ei. injection Ei as <-. split; [contradiction|].
        intros _. exists q. split; [reflexivity|symmetry; exact Eq]. }
    unfold pct_columns at 2. cbn [map prob yes no].
    Ltac occ := first [apply contains_occurs; reflexivity | apply contains_not; reflexivity].
    apply L_other; [occ|occ|occ|].
    eapply L_prob; [occ|occ|occ|reflexivity|apply CA; reflexivity|reflexivity|].
    eapply L_yes; [occ|eapply T; [reflexivity|reflexivity|discriminate]|].
    eapply L_no; [occ|occ|eapply T; [reflexivity|reflexivity|discriminate]|].
    eapply L_prob; [occ|occ|occ|reflexivity|apply CA; reflexivity|reflexivity|].
    eapply L_yes; [occ|eapply T; [reflexivity|reflexivity|discriminate]|].
    eapply L_no; [occ|occ|eapply T; [reflexivity|reflexivity|discriminate]|].
    constructor.
Qed.

(** The statements of PropertiesPstd.v. *)
Lemma C26_roc_points_proof : forall data columns bs,
  ProbabilityTable data columns bs -> Counts bs -> 0 < events bs -> 0 < nonevents bs ->
  exists df points,
    calc_common_stats data columns = Ok df /\ calc_pct_roc df = Ok points /\
    StronglySorted Qlt (map roc_thresh points) /\
    (forall b, In b bs -> 0 < cases b -> exists p, In p points /\ roc_thresh p == prob b) /\
    (forall p, In p points -> exists b, In b bs /\ 0 < cases b /\ roc_thresh p == prob b) /\
    (forall p, In p points -> exists h f,
       roc_pody p = Some h /\ roc_pofd p = Some f /\
       h == hit_share bs (roc_thresh p) /\ f == false_share bs (roc_thresh p) /\
       0 <= h <= 1 /\ 0 <= f <= 1) /\
    (forall p q h h' f f', In p points -> In q points -> roc_thresh p <= roc_thresh q ->
       roc_pody p = Some h -> roc_pody q = Some h' -> roc_pofd p = Some f -> roc_pofd q = Some f' ->
       h' <= h /\ f' <= f).
Proof.
  intros data columns bs HT C HY HN. destruct (table_bins _ _ _ HT C) as (l & E & Cl & P & G & R & D1 & D2).
  assert (EY : events l == events bs) by exact (G yes add_yes).
  assert (EN : nonevents l == nonevents bs) by exact (G no add_no).
  destruct (roc_points l) as (points & Ep & F); [fold (events l); lra|fold (nonevents l); lra|].
  destruct (thresholds_spec l) as (S & I & D).
  assert (Y0 : forall b, In b l -> 0 <= yes b) by (intros b Hb; apply (counts_in _ _ Cl Hb)).
  assert (N0 : forall b, In b l -> 0 <= no b) by (intros b Hb; apply (counts_in _ _ Cl Hb)).
  assert (PY : 0 < sum_over yes l) by (fold (events l); lra).
  assert (PN : 0 < sum_over no l) by (fold (nonevents l); lra).
  assert (PT : forall p, In p points -> PointOf l (roc_thresh p) p /\ In (roc_thresh p) (thresholds l)).
  { intros p Hp. destruct (forall2_inr _ _ _ _ F Hp) as (th & Ht & HP). destruct HP as [E1 HP]. subst th.
    split; [split; [reflexivity|exact HP]|exact Ht]. }
  exists (map row_of l), points. split; [exact E|]. split; [exact Ep|].
  assert (MT : map roc_thresh points = thresholds l).
  { clear - F. induction F as [|th p ths ps [E _] F IH]; simpl; [reflexivity|]. rewrite E, IH. reflexivity. }
  split; [rewrite MT; exact S|]. split.
  { intros b Hb K. destruct (D1 b Hb K) as (b' & Hb' & Eb). destruct (D b' Hb') as (y & Hy & Ey).
    rewrite <- MT in Hy. apply in_map_iff in Hy. destruct Hy as (p & E1 & Hp). exists p. split; [exact Hp|].
    rewrite E1, Ey, Eb. reflexivity. }
  split.
  { intros p Hp. destruct (PT p Hp) as [_ Ht]. destruct (I _ Ht) as (b' & Hb' & Eb). destruct (D2 b' Hb') as (b & Hb & K & E1 & _).
    exists b. split; [exact Hb|]. split; [exact K|]. rewrite Eb, E1. reflexivity. }
  split.
  { intros p Hp. destruct (PT p Hp) as [(_ & h & f & E1 & E2 & H1 & H2) _]. exists h, f.
    split; [exact E1|]. split; [exact E2|].
    pose proof (share_range yes l (roc_thresh p) Y0 PY) as RY. pose proof (share_range no l (roc_thresh p) N0 PN) as RN.
    split; [rewrite H1; apply (share_bins yes l bs _ G add_yes)|].
    split; [rewrite H2; apply (share_bins no l bs _ G add_no)|]. lra. }
  intros p q h h' f f' Hp Hq L E1 E2 E3 E4.
  destruct (PT p Hp) as [(_ & a & b & A1 & A2 & A3 & A4) _]. destruct (PT q Hq) as [(_ & a' & b' & B1 & B2 & B3 & B4) _].
  rewrite E1 in A1. injection A1 as <-. rewrite E3 in A2. injection A2 as <-.
  rewrite E2 in B1. injection B1 as <-. rewrite E4 in B2. injection B2 as <-.
  pose proof (share_mono yes l _ _ Y0 PY L). pose proof (share_mono no l _ _ N0 PN L). lra.
Qed.

Lemma C26_area_is_discrimination_proof : forall data columns bs,
  ProbabilityTable data columns bs -> Counts bs -> 0 < events bs -> 0 < nonevents bs ->
  exists r, calculate_pstd_roc_auc data columns = Ok (Some r) /\
    Nearest 7 (discrimination bs) r /\ 0 <= r <= 1.
Proof.
  intros data columns bs HT C HY HN. destruct (auc_value _ _ _ HT C HY HN) as (r & E & N).
  exists r. split; [exact E|]. split; [exact N|].
  apply (nearest_range _ _ N); [apply multiple_0|apply multiple_1|]. apply discrimination_range; assumption.
Qed.

Lemma C26_perfect_area_proof : forall data columns bs,
  ProbabilityTable data columns bs -> Counts bs -> 0 < events bs -> 0 < nonevents bs ->
  ((forall b b', In b bs -> In b' bs -> 0 < yes b -> 0 < no b' -> prob b' < prob b) ->
   exists r, calculate_pstd_roc_auc data columns = Ok (Some r) /\ r == 1) /\
  ((forall b b', In b bs -> In b' bs -> 0 < yes b -> 0 < no b' -> prob b < prob b') ->
   exists r, calculate_pstd_roc_auc data columns = Ok (Some r) /\ r == 0).
Proof.
  intros data columns bs HT C HY HN. destruct (auc_value _ _ _ HT C HY HN) as (r & E & N). split; intro H; exists r; (split; [exact E|]).
  - apply (nearest_exact _ _ _ N); [apply multiple_1|]. unfold discrimination. fold (rank bs).
    rewrite (rank_const 1 bs C).
    + field. lra.
    + intros b b' Hb Hb' Y N'. unfold unit_score. pose proof (H b b' Hb Hb' Y N'). destruct (Qlt_le_dec _ _); [reflexivity|exfalso; lra].
  - apply (nearest_exact _ _ _ N); [apply multiple_0|]. unfold discrimination. fold (rank bs).
    rewrite (rank_const 0 bs C).
    + field. lra.
    + intros b b' Hb Hb' Y N'. unfold unit_score. pose proof (H b b' Hb Hb' Y N'). destruct (Qlt_le_dec _ _); [exfalso; lra|].
      destruct (Qeq_dec _ _); [exfalso; lra|reflexivity].
Qed.

Lemma C26_no_skill_area_proof : forall data columns bs,
  ProbabilityTable data columns bs -> Counts bs -> 0 < events bs -> 0 < nonevents bs ->
  (forall b b', In b bs -> In b' bs -> yes b * no b' == yes b' * no b) ->
  exists r, calculate_pstd_roc_auc data columns = Ok (Some r) /\ r == 1 # 2.
Proof.
  intros data columns bs HT C HY HN H. destruct (auc_value _ _ _ HT C HY HN) as (r & E & N). exists r. split; [exact E|].
  apply (nearest_exact _ _ _ N); [exact multiple_half|]. unfold discrimination. fold (rank bs).
  rewrite (rank_no_skill bs H). field. lra.
Qed.

Lemma C26_complement_area_proof : forall data columns bs data' columns' r r',
  ProbabilityTable data columns bs -> Counts bs -> 0 < events bs -> 0 < nonevents bs ->
  ProbabilityTable data' columns' (map exchanged bs) ->
  calculate_pstd_roc_auc data columns = Ok (Some r) ->
  calculate_pstd_roc_auc data' columns' = Ok (Some r') ->
  Nearest 7 (discrimination bs) r /\ Nearest 7 (1 - discrimination bs) r'.
Proof.
  intros data columns bs data' columns' r r' HT C HY HN HT' E E'.
  destruct (auc_value _ _ _ HT C HY HN) as (s & Es & N). rewrite E in Es. injection Es as <-. split; [exact N|].
  assert (EY : events (map exchanged bs) == nonevents bs) by (unfold events; rewrite sum_over_map; reflexivity).
  assert (EN : nonevents (map exchanged bs) == events bs) by (unfold nonevents; rewrite sum_over_map; reflexivity).
  assert (C' : Counts (map exchanged bs)).
  { apply Forall_forall. intros b Hb. apply in_map_iff in Hb. destruct Hb as (c & <- & Hc). destruct (counts_in _ _ C Hc). simpl. tauto. }
  destruct (auc_value _ _ _ HT' C') as (s' & Es' & N'); [lra|lra|]. rewrite E' in Es'. injection Es' as <-.
  apply (nearest_compat 7 (discrimination (map exchanged bs))); [|exact N'].
  unfold discrimination. fold (rank (map exchanged bs)) (rank bs). rewrite rank_exchanged, EY, EN. field. lra.
Qed.

Lemma C26_one_sided_raises_proof : forall data columns bs,
  ProbabilityTable data columns bs -> Counts bs -> 0 < all_cases bs ->
  (events bs == 0 \/ nonevents bs == 0) ->
  exists e, calculate_pstd_roc_auc data columns = Err e.
Proof.
  intros data columns bs HT C P Z. destruct (table_bins _ _ _ HT C) as (l & E & Cl & Pl & G & _).
  assert (EY : sum_over yes l == events bs) by exact (G yes add_yes).
  assert (EN : sum_over no l == nonevents bs) by exact (G no add_no).
  assert (EC : sum_over cases l == all_cases bs) by exact (G cases add_cases).
  unfold calculate_pstd_roc_auc. rewrite E. cbn [bind]. rewrite roc_unfold.
  assert (NE : exists th ths, thresholds l = th :: ths).
  { destruct l as [|b l]; [simpl in EC; exfalso; lra|]. destruct (thresholds_spec (b :: l)) as (_ & _ & D).
    destruct (D b (or_introl eq_refl)) as (y & Hy & _). destruct (thresholds (b :: l)) as [|th ths]; [destruct Hy|]. exists th, ths. reflexivity. }
  destruct NE as (th & ths & ->).
  destruct (Qeq_dec (sum_over yes l) 0) as [Zy|Zy].
  - cbn [mapM]. rewrite (rate_err yes l th Zy). exists PyWarning. reflexivity.
  - destruct (mapM_each (fun _ _ => True) (rate (combine (map prob l) (map (fun b => Some (yes b)) l))) (th :: ths)) as (pody & Ep & _).
    { intro x. destruct (rate_ok yes l x Zy) as (h & Eh & _). exists (Some h). auto. }
    rewrite Ep. cbn [bind mapM]. rewrite (rate_err no l th).
    + exists PyWarning. reflexivity.
    + destruct Z as [Z|Z]; [exfalso; apply Zy; lra|lra].
Qed.

Lemma C26_no_cases_undefined_refuted_proof : forall data columns bs,
  ProbabilityTable data columns bs -> Counts bs -> all_cases bs == 0 ->
  exists r, calculate_pstd_roc_auc data columns = Ok (Some r) /\ r == 1 # 2.
Proof.
  intros data columns bs HT C Z. destruct (table_bins _ _ _ HT C) as (l & E & Cl & Pl & G & _).
  assert (EC : sum_over cases l == all_cases bs) by exact (G cases add_cases).
  assert (l = []) as ->.
  { destruct l as [|b l]; [reflexivity|]. exfalso. simpl in EC. pose proof (Pl b (or_introl eq_refl)).
    assert (0 <= sum_over cases l).
    { apply sum_over_nonneg. intros c Hc. apply Qlt_le_weak, Pl. right. exact Hc. }
    lra. }
  unfold calculate_pstd_roc_auc. rewrite E. eexists. split; [vm_compute; reflexivity|reflexivity].
Qed.

Lemma C26_case_proof :
  let bs := [Bin (1 # 5) 1 9; Bin (4 # 5) 6 2] in
  let data := [pct_line (1 # 5) 1 4 (4 # 5) 2 1; pct_line (1 # 5) 0 5 (4 # 5) 4 1] in
  ProbabilityTable data pct_columns bs /\ Counts bs /\ 0 < events bs /\ 0 < nonevents bs /\
  discrimination bs == (1 * 9 / 2 + 6 * 9 + 6 * 2 / 2) / (7 * 11) /\
  calculate_pstd_roc_auc data pct_columns = Ok (Some (8376623 # 10000000)).
Proof.
  cbv zeta. split; [exact case_table|]. split; [repeat constructor; discriminate|].
  split; [reflexivity|]. split; [reflexivity|]. split; [reflexivity|]. vm_compute. reflexivity.
Qed.

Lemma C27_components_proof : forall data columns bs,
  ProbabilityTable data columns bs -> Counts bs -> 0 < all_cases bs ->
  exists b r u,
    calculate_pstd_baser data columns = Ok (Some b) /\ Nearest 7 (base_rate bs) b /\ 0 <= b <= 1 /\
    calculate_pstd_reliability data columns = Ok (Some r) /\ Nearest 7 (reliability bs) r /\ 0 <= r /\
    calculate_pstd_uncertainty data columns = Ok (Some u) /\
    Nearest 7 (base_rate bs * (1 - base_rate bs)) u /\ 0 <= u <= 1 # 4.
Proof.
  intros data columns bs HT C P. destruct (table_bins _ _ _ HT C) as (l & E & Cl & Pl & G & _).
  assert (EY : events l == events bs) by exact (G yes add_yes).
  assert (EC : all_cases l == all_cases bs) by exact (G cases add_cases).
  assert (ER : reliability l == reliability bs).
  { unfold reliability. rewrite (G _ add_rel), EC. reflexivity. }
  pose proof (t_table_bins l) as TT. pose proof (oy_sum_bins l) as OY.
  assert (D : nan_div (Some (oy_sum (map row_of l))) (Some (t_table_of (map row_of l)))
              = Ok (Some (oy_sum (map row_of l) / t_table_of (map row_of l)))) by (apply nan_div_ok; lra).
  assert (BR : oy_sum (map row_of l) / t_table_of (map row_of l) == base_rate bs).
  { unfold base_rate. rewrite OY, TT, EY, EC. reflexivity. }
  destruct (reliability_bins l) as (x & Ex & Hx); [lra|].
  exists (round_half_up (oy_sum (map row_of l) / t_table_of (map row_of l)) PRECISION).
  exists (round_half_up x PRECISION).
  exists (round_half_up (calc_uncertainty (oy_sum (map row_of l) / t_table_of (map row_of l))) PRECISION).
  pose proof (base_rate_range bs C P) as RB. pose proof (rel_nonneg bs C P) as RR.
  assert (NB : Nearest 7 (base_rate bs) (round_half_up (oy_sum (map row_of l) / t_table_of (map row_of l)) PRECISION))
    by (eapply nearest_compat; [exact BR|apply rhu_nearest]).
  assert (NR : Nearest 7 (reliability bs) (round_half_up x PRECISION)).
  { eapply nearest_compat; [|apply rhu_nearest]. rewrite Hx. exact ER. }
  assert (NU : Nearest 7 (base_rate bs * (1 - base_rate bs))
    (round_half_up (calc_uncertainty (oy_sum (map row_of l) / t_table_of (map row_of l))) PRECISION)).
  { eapply nearest_compat; [|apply rhu_nearest]. unfold calc_uncertainty. rewrite BR. reflexivity. }
  split; [unfold calculate_pstd_baser; rewrite E; cbn [bind]; rewrite D; reflexivity|].
  split; [exact NB|]. split; [apply (nearest_range _ _ NB); [apply multiple_0|apply multiple_1|exact RB]|].
  split; [unfold calculate_pstd_reliability; rewrite E; cbn [bind]; rewrite Ex; reflexivity|].
  split; [exact NR|]. split.
  { pose proof (rhu_mono 0 x PRECISION) as M. rewrite (rhu_fix 0 PRECISION (multiple_0 _)) in M. apply M. rewrite Hx, ER. exact RR. }
  split; [unfold calculate_pstd_uncertainty; rewrite E; cbn [bind]; rewrite D; reflexivity|].
  split; [exact NU|]. apply (nearest_range _ _ NU); [apply multiple_0|exact multiple_quarter|].
  split; [apply Qmult_le_0_compat; lra|]. pose proof (Qsq_nonneg (base_rate bs - (1 # 2))). lra.
Qed.

Lemma C27_calibrated_proof : forall data columns bs,
  ProbabilityTable data columns bs -> Counts bs -> 0 < all_cases bs ->
  exists r, calculate_pstd_reliability data columns = Ok (Some r) /\
    ((forall b, In b bs -> 0 < cases b -> prob b == frequency b) -> r == 0) /\
    (forall b, In b bs -> half_unit 7 * all_cases bs < cases b * ((prob b - frequency b) * (prob b - frequency b)) ->
       0 < r).
Proof.
  intros data columns bs HT C P. destruct (C27_components_proof data columns bs HT C P) as (b & r & u & _ & _ & _ & E & N & R & _).
  exists r. split; [exact E|]. split.
  - intro H. apply (nearest_exact _ _ _ N); [apply multiple_0|]. unfold reliability. rewrite sum_over_0; [field; lra|].
    intros c Hc. destruct (counts_in _ _ C Hc). destruct (Qlt_le_dec 0 (cases c)) as [K|K].
    + rewrite (H c Hc K). ring.
    + assert (Z : cases c == 0) by (unfold cases in *; lra). rewrite Z. ring.
  - intros c Hc L. assert (half_unit 7 < reliability bs).
    { unfold reliability. apply Qlt_shift_div_l; [exact P|]. eapply Qlt_le_trans; [exact L|].
      clear - Hc C. induction C as [|d bs [Hy Hn] C IH]; [destruct Hc|]. simpl.
      assert (K : forall b, 0 <= yes b -> 0 <= no b -> 0 <= cases b * ((prob b - frequency b) * (prob b - frequency b)))
        by (intros; apply Qmult_le_0_compat; [unfold cases; lra|apply Qsq_nonneg]).
      destruct Hc as [->|Hc].
      - assert (0 <= sum_over (fun b => cases b * ((prob b - frequency b) * (prob b - frequency b))) bs).
        { apply sum_over_nonneg. intros e He. destruct (counts_in _ _ C He). apply K; assumption. } lra.
      - specialize (IH Hc). pose proof (K d Hy Hn). lra. }
    destruct N as (_ & _ & L2). lra.
Qed.

Lemma nan_div_proper a t t' x : t == t' -> nan_div a (Some t) = Ok (Some x) -> exists x', nan_div a (Some t') = Ok (Some x') /\ x' == x.
Proof.
  intros T H. destruct a as [a|]; cbn in *; [|discriminate H].
  assert (Qeq_bool t 0 = Qeq_bool t' 0) as B.
  { destruct (Qeq_bool t 0) eqn:K, (Qeq_bool t' 0) eqn:L; try reflexivity.
    - apply Qeq_bool_iff in K. apply Qeq_bool_neq in L. rewrite T in K. contradiction.
    - apply Qeq_bool_iff in L. apply Qeq_bool_neq in K. rewrite <- T in L. contradiction. }
  rewrite <- B. destruct (Qeq_bool t 0); [discriminate H|]. injection H as <-. eexists. split; [reflexivity|]. rewrite T. reflexivity.
Qed.
Lemma C27_brier_identity_proof : forall data columns bs o,
  ProbabilityTable data columns bs -> Counts bs -> 0 < all_cases bs ->
  exists df,
    calc_common_stats data columns = Ok df /\
    forall t, t == all_cases bs -> exists rel res,
    calc_reliability t df = Ok (Some rel) /\ rel == reliability bs /\
    calc_resolution t df o = Ok (Some res) /\ res == resolution_about o bs /\ 0 <= res /\
    rel - res + calc_uncertainty (base_rate bs)
    == brier bs - (o - base_rate bs) * (o - base_rate bs).
Proof.
  intros data columns bs o HT C P. destruct (table_bins _ _ _ HT C) as (l & E & Cl & Pl & G & _).
  assert (EC : all_cases l == all_cases bs) by exact (G cases add_cases).
  destruct (reliability_bins l) as (x & Ex & Hx); [lra|]. destruct (resolution_bins l o) as (y & Ey & Hy); [lra|].
  assert (X : x == reliability bs) by (rewrite Hx; unfold reliability; rewrite (G _ add_rel), EC; reflexivity).
  assert (Y : y == resolution_about o bs) by (rewrite Hy; unfold resolution_about; rewrite (G _ (add_res o)), EC; reflexivity).
  exists (map row_of l). split; [exact E|]. intros t Ht.
  assert (T : t_table_of (map row_of l) == t) by (rewrite t_table_bins, Ht; exact EC).
  unfold calc_reliability in *. destruct (mapM reliability_term (map row_of l)) as [terms|e]; [|discriminate Ex]. cbn [bind] in *.
  unfold calc_resolution in *. destruct (nan_div_proper _ _ _ _ T Ex) as (x' & Ex' & Hx'). destruct (nan_div_proper _ _ _ _ T Ey) as (y' & Ey' & Hy').
  exists x', y'. rewrite X in Hx'. rewrite Y in Hy'.
  split; [exact Ex'|]. split; [exact Hx'|]. split; [exact Ey'|]. split; [exact Hy'|].
  split; [rewrite Hy'; apply res_nonneg; assumption|].
  rewrite Hx', Hy'. apply brier_identity; assumption.
Qed.

Lemma C27_no_cases_proof : forall data columns bs,
  ProbabilityTable data columns bs -> Counts bs -> all_cases bs == 0 ->
  calculate_pstd_baser data columns = Ok None /\
  calculate_pstd_reliability data columns = Ok None /\
  calculate_pstd_uncertainty data columns = Ok None.
Proof.
  intros data columns bs HT C Z. destruct (table_bins _ _ _ HT C) as (l & E & Cl & Pl & G & _).
  assert (EC : sum_over cases l == all_cases bs) by exact (G cases add_cases).
  assert (l = []) as ->.
  { destruct l as [|b l]; [reflexivity|]. exfalso. simpl in EC. pose proof (Pl b (or_introl eq_refl)).
    assert (0 <= sum_over cases l).
    { apply sum_over_nonneg. intros c Hc. apply Qlt_le_weak, Pl. right. exact Hc. }
    lra. }
  unfold calculate_pstd_baser, calculate_pstd_reliability, calculate_pstd_uncertainty. rewrite E. repeat split; reflexivity.
Qed.

Lemma C27_scores_returned_refuted_proof : forall data columns,
  (forall r, calculate_pstd_brier data columns <> Ok (Some r) /\
             calculate_pstd_bss_smpl data columns <> Ok (Some r) /\
             calculate_pstd_resolution data columns <> Ok (Some r)) /\
  (forall bs, ProbabilityTable data columns bs -> Counts bs -> 0 < all_cases bs ->
     calculate_pstd_brier data columns = Err AttributeError /\
     calculate_pstd_bss_smpl data columns = Err AttributeError /\
     calculate_pstd_resolution data columns = Err AttributeError).
Proof.
  intros data columns.
  assert (A : forall r, calculate_pstd_brier data columns <> Ok (Some r)).
  { intro r. unfold calculate_pstd_brier, catch. destruct (calc_common_stats data columns) as [df|e]; cbn [bind];
      [|destruct (existsb (exn_eqb e) std_exns); discriminate].
    destruct (nan_div _ _) as [v|e]; cbn [bind]; [|destruct (existsb (exn_eqb e) std_exns); discriminate].
    destruct (o_bar_cell data) as [v'|e]; cbn [bind]; [discriminate|destruct (existsb (exn_eqb e) std_exns); discriminate]. }
  split.
  - intro r. split; [apply A|]. split; [apply A|]. unfold calculate_pstd_resolution, catch.
    destruct (calc_common_stats data columns) as [df|e]; cbn [bind]; [|destruct (existsb (exn_eqb e) std_exns); discriminate].
    destruct (o_bar_cell data) as [v'|e]; cbn [bind]; [discriminate|destruct (existsb (exn_eqb e) std_exns); discriminate].
  - intros bs HT C P. destruct (table_bins _ _ _ HT C) as (l & E & Cl & Pl & G & _).
    assert (EC : all_cases l == all_cases bs) by exact (G cases add_cases).
    pose proof (t_table_bins l) as TT.
    assert (NE : o_bar_cell data = Ok tt).
    { destruct data as [|r rest]; [|reflexivity]. exfalso. destruct HT as [_ _ L].
      apply (lists_row _ _ _ _ _ _ L); [|reflexivity]. destruct bs as [|b bs]; [simpl in P; lra|discriminate]. }
    assert (B : calculate_pstd_brier data columns = Err AttributeError).
    { unfold calculate_pstd_brier. rewrite E. cbn [bind]. rewrite nan_div_ok by lra. cbn [bind]. rewrite NE. reflexivity. }
    split; [exact B|]. split; [exact B|]. unfold calculate_pstd_resolution. rewrite E. cbn [bind]. rewrite NE. reflexivity.
Qed.

Lemma C27_baser_range_refuted_proof :
  exists data columns r, calculate_pstd_baser data columns = Ok (Some r) /\ 1 < r.
Proof.
  exists [[CNum (1 # 10); CNum 5; CMiss; CNum (9 # 10); CNum 1; CNum 1]], ["thresh_i_1"; "oy_i_1"; "on_i_1"; "thresh_i_2"; "oy_i_2"; "on_i_2"].
  eexists. split; [vm_compute; reflexivity|reflexivity].
Qed.

Lemma C27_single_bin_proof : forall data columns ys ns,
  (exists i, ColumnAt columns "oy_i" i /\ map (fun r => nth_error r i) data = map (fun q => Some (CNum q)) ys) ->
  (exists i, ColumnAt columns "on_i" i /\ map (fun r => nth_error r i) data = map (fun q => Some (CNum q)) ns) ->
  (forall q, In q (ys ++ ns)%list -> exists z, q == inject_Z z) ->
  exists n c, calculate_pstd_ni data columns = Ok (Some n) /\ n == qsum ys + qsum ns /\
    calculate_pstd_calibration data columns = Ok c /\
    Published (oratio (Some (qsum ys)) (Some (qsum ys + qsum ns))) c.
Proof.
  intros data columns ys ns (i & Ci & Ei) (j & Cj & Ej) Z.
  assert (A : forall name k vs, ColumnAt columns name k -> map (fun r => nth_error r k) data = map (fun q => Some (CNum q)) vs ->
    exists s, builtin_sum data columns name = Ok (Some s) /\ s == qsum vs).
  { intros name k vs Ck Ek. unfold builtin_sum. apply index_of_ColumnAt in Ck. rewrite Ck.
    assert (M : column_at data k = Ok (map CNum vs)).
    { clear - Ek. revert vs Ek. unfold column_at. induction data as [|r d IH]; intros [|v vs] Ek; try discriminate Ek; [reflexivity|].
      cbn [map] in Ek. injection Ek as E1 E2. cbn [mapM]. unfold cell_at at 1. rewrite E1. cbn [bind]. rewrite (IH vs E2). reflexivity. }
    rewrite M. cbn [bind]. rewrite (mapM_id vs). cbn [bind]. eexists. split; [reflexivity|]. apply fold_qsum. }
  destruct (A "oy_i" i ys Ci Ei) as (y & Ey & Hy). destruct (A "on_i" j ns Cj Ej) as (n & En & Hn).
  assert (ZY : MultipleOf 7 (qsum ys + qsum ns)).
  { assert (W : exists z, qsum (ys ++ ns)%list == inject_Z z).
    { revert Z. generalize (ys ++ ns)%list. intro l. induction l as [|q l IH]; intro Z; [exists 0%Z; reflexivity|].
      destruct IH as (z & Hz); [intros; apply Z; right; assumption|]. destruct (Z q (or_introl eq_refl)) as (w & Hw).
      exists (w + z)%Z. simpl. rewrite Hz, Hw, inject_Z_plus. reflexivity. }
    destruct W as (z & Hz). rewrite qsum_app in Hz. destruct (multiple_int z 7) as (k & Hk). exists k. rewrite Hz. exact Hk. }
  assert (NI : calculate_pstd_ni data columns = Ok (Some (round_half_up (y + n) PRECISION))).
  { unfold calculate_pstd_ni. rewrite Ey, En. reflexivity. }
  assert (V : round_half_up (y + n) PRECISION == qsum ys + qsum ns).
  { rewrite (rhu_compat (y + n) (qsum ys + qsum ns)) by (rewrite Hy, Hn; reflexivity). apply rhu_fix. exact ZY. }
  exists (round_half_up (y + n) PRECISION).
  unfold calculate_pstd_calibration. rewrite Ey, NI. cbn [bind]. unfold pydiv, pyround. cbn [bind].
  destruct (Qeq_bool (round_half_up (y + n) PRECISION) 0) eqn:Q0; cbn [bind].
  - exists None. split; [reflexivity|]. split; [exact V|]. split; [reflexivity|].
    apply Qeq_bool_iff in Q0. unfold oratio. destruct (Qeq_dec _ 0) as [_|N]; [exact I|]. apply N. rewrite <- V. exact Q0.
  - eexists. split; [reflexivity|]. split; [exact V|]. split; [reflexivity|].
    apply Qeq_bool_neq in Q0. unfold oratio. destruct (Qeq_dec _ 0) as [N|_]; [exfalso; apply Q0; rewrite V; exact N|].
    simpl. eapply nearest_compat; [|apply rhu_nearest]. rewrite V, Hy. reflexivity.
Qed.

Lemma C27_case_proof :
  let bs := [Bin (1 # 5) 1 9; Bin (4 # 5) 6 2] in
  let data := [pct_line (1 # 5) 1 4 (4 # 5) 2 1; pct_line (1 # 5) 0 5 (4 # 5) 4 1] in
  ProbabilityTable data pct_columns bs /\ Counts bs /\ 0 < all_cases bs /\
  reliability bs == (10 * (1 # 100) + 8 * (1 # 400)) / 18 /\
  calculate_pstd_reliability data pct_columns = Ok (Some (66667 # 10000000)) /\
  calculate_pstd_baser data pct_columns = Ok (Some (3888889 # 10000000)) /\
  calculate_pstd_brier data pct_columns = Err AttributeError.
Proof.
  cbv zeta. split; [exact case_table|]. split; [repeat constructor; discriminate|].
  split; [reflexivity|]. split; [reflexivity|]. split; [vm_compute; reflexivity|]. split; vm_compute; reflexivity.
Qed.

