From Coq Require Import Ascii Sorted Permutation.
From Verif Require Import PyBase ColumnModel BaseSpec BaseProofs AggModel AggSpec AggProofs MomentProofs
  EventModel EventSpec EventProofs SumModel SumSpec.
From Coq Require Import List.
Open Scope string_scope.
Open Scope Q_scope.

(** * Columns of numbers *)
Lemma qeqb_no q : ~ q == 0 -> Qeq_bool q 0 = false.
Proof. intro H. destruct (Qeq_bool q 0) eqn:E; [|reflexivity]. destruct H. now apply Qeq_bool_iff. Qed.

Lemma series_holds {A} columns name (G : A -> Q) groups data :
  groups <> [] -> Forall2 (fun b r => CellHolds columns r name (G b)) groups data ->
  exists i qs, index_of name columns = Some i /\ column_at data i = Ok (map CNum qs) /\
    Forall2 (fun b q => q == G b) groups qs.
Proof.
  intros Hg HF.
  assert (exists i, ColumnAt columns name i) as [i Hi].
  { destruct HF as [|b r ? ? H]; [congruence|]. destruct H as (i & _ & Hi & _). eauto. }
  exists i. assert (X : exists qs, column_at data i = Ok (map CNum qs) /\ Forall2 (fun b q => q == G b) groups qs).
  { clear Hg. unfold column_at. induction HF as [|b r bs rs H HF IH].
    - exists []. split; [reflexivity|constructor].
    - destruct IH as (qs & E & F). destruct H as (j & q & Hj & Hq & Eq).
      rewrite (columnat_fun _ _ _ _ Hj Hi) in Hq.
      exists (q :: qs). simpl. unfold cell_at at 1. rewrite Hq. simpl. rewrite E. simpl.
      split; [reflexivity|constructor; assumption]. }
  destruct X as (qs & E & F). exists qs. split; [now apply index_of_ColumnAt|]. auto.
Qed.

Lemma rowwise_num (op : Q -> Q -> Q) f a b :
  (forall p q, In q b -> f (CNum p) (CNum q) = Ok (CNum (op p q))) -> length a = length b ->
  rowwise f (map CNum a) (map CNum b) = Ok (map CNum (map (fun pq => op (fst pq) (snd pq)) (combine a b))).
Proof.
  revert b. induction a as [|p a IH]; intros [|q b] H L; try discriminate L; [reflexivity|].
  simpl. rewrite H by (left; reflexivity). simpl. rewrite IH; [reflexivity| |injection L; auto].
  intros; apply H; right; assumption.
Qed.
Lemma forall2_combine {A} (op : Q -> Q -> Q) (G H : A -> Q) groups a b :
  (forall p q p' q', p == p' -> q == q' -> op p q == op p' q') ->
  Forall2 (fun x q => q == G x) groups a -> Forall2 (fun x q => q == H x) groups b ->
  Forall2 (fun x q => q == op (G x) (H x)) groups (map (fun pq => op (fst pq) (snd pq)) (combine a b)).
Proof.
  intros C F. revert b. induction F as [|x p gs a E F IH]; intros b K; inversion K; subst; simpl; constructor.
  - apply C; assumption.
  - apply IH. assumption.
Qed.
Lemma forall2_length' {A B} (P : A -> B -> Prop) l m : Forall2 P l m -> length l = length m.
Proof. induction 1; simpl; congruence. Qed.

Lemma nansum_num {A} (G : A -> Q) groups qs :
  Forall2 (fun b q => q == G b) groups qs -> nansum_cells (map CNum qs) == qsum (map G groups).
Proof.
  induction 1 as [|b q gs qs E F IH]; simpl; [reflexivity|]. rewrite E, IH. reflexivity.
Qed.

Lemma times_num {A} (G H : A -> Q) groups a b :
  Forall2 (fun x q => q == G x) groups a -> Forall2 (fun x q => q == H x) groups b ->
  exists c, series_times (map CNum a) (map CNum b) = Ok (map CNum c) /\
    Forall2 (fun x q => q == G x * H x) groups c.
Proof.
  intros F K. exists (map (fun pq => fst pq * snd pq) (combine a b)). split.
  - unfold series_times. apply (rowwise_num Qmult); [reflexivity|].
    now rewrite <- (forall2_length' _ _ _ F), <- (forall2_length' _ _ _ K).
  - apply forall2_combine; [|assumption|assumption]. intros p q p' q' -> ->. reflexivity.
Qed.
Lemma one_minus_num {A} (G : A -> Q) groups a :
  Forall2 (fun x q => q == G x) groups a ->
  exists c, one_minus (map CNum a) = Ok (map CNum c) /\ Forall2 (fun x q => q == 1 - G x) groups c.
Proof.
  induction 1 as [|x q gs a E F IH].
  - exists []. split; [reflexivity|constructor].
  - destruct IH as (c & Ec & Fc). exists ((1 - q) :: c). unfold one_minus in *. simpl. rewrite Ec. simpl.
    split; [reflexivity|]. constructor; [rewrite E; reflexivity|exact Fc].
Qed.
Lemma div_num {A} (G H : A -> Q) groups a b :
  (forall x, In x groups -> ~ H x == 0) ->
  Forall2 (fun x q => q == G x) groups a -> Forall2 (fun x q => q == H x) groups b ->
  exists c, series_div (map CNum a) (map CNum b) = Ok (map CNum c) /\
    Forall2 (fun x q => q == G x / H x) groups c.
Proof.
  intros N F K. exists (map (fun pq => fst pq / snd pq) (combine a b)). split.
  - unfold series_div. apply (rowwise_num Qdiv).
    + intros p q Hq. assert (~ q == 0) as Nq.
      { clear F. revert N Hq. induction K as [|x y gs b E K IH]; intros N Hq; [destruct Hq|].
        destruct Hq as [<-|Hq]; [rewrite E; apply N; left; reflexivity|].
        apply IH; [|exact Hq]. intros; apply N; right; assumption. }
      rewrite (qeqb_no q Nq). reflexivity.
    + now rewrite <- (forall2_length' _ _ _ F), <- (forall2_length' _ _ _ K).
  - apply forall2_combine; [|assumption|assumption]. intros p q p' q' -> ->. reflexivity.
Qed.

Lemma forall2_weaken {A B} (P R : A -> B -> Prop) l m : (forall x y, In x l -> P x y -> R x y) -> Forall2 P l m -> Forall2 R l m.
Proof.
  intros H F. induction F as [|x y l m E F IH]; constructor.
  - apply H; [left; reflexivity|exact E].
  - apply IH. intros; apply H; [right; assumption|assumption].
Qed.

Lemma qsum_ext {A} (G H : A -> Q) l : (forall x, In x l -> G x == H x) -> qsum (map G l) == qsum (map H l).
Proof.
  induction l as [|x l IH]; simpl; intro E; [reflexivity|].
  rewrite E by (left; reflexivity). rewrite IH; [reflexivity|]. intros; apply E; right; assumption.
Qed.

(** What all lines have in common: a positive number of pairs in 'total'. *)
Section Counted.
Context {A : Type} (columns : list string) (groups : list (list A)) (data : tdata).
Hypothesis Hg : groups <> [].
Hypothesis Hb : forall b, In b groups -> b <> [].
Hypothesis Ht : Forall2 (fun b r => CellHolds columns r "total" (count b)) groups data.

Lemma counted_pos : 0 < count (concat groups).
Proof.
  apply count_pos. destruct groups as [|b gs]; [congruence|]. specialize (Hb b (or_introl eq_refl)).
  destruct b; [congruence|]. discriminate.
Qed.

Lemma counted_total : exists T, sum_column_data_by_name data columns "total" true = Ok (Some T) /\ T == count (concat groups).
Proof.
  destruct (series_holds columns "total" count groups data Hg Ht) as (i & qs & Ei & Ec & F).
  unfold sum_column_data_by_name, column_data_by_name. rewrite Ei, Ec. cbn [bind].
  assert (X : mapM to_float (map CNum qs) = Ok (map Some qs)).
  { clear. induction qs as [|q qs IH]; simpl; [reflexivity|]. rewrite IH. reflexivity. }
  rewrite X. cbn [bind catch].
  assert (Y : forallb is_nan (map Some qs) = false).
  { destruct F; [congruence|reflexivity]. }
  rewrite Y. exists (nansum (map Some qs)). split; [reflexivity|].
  rewrite <- count_concat. clear - F. induction F as [|b q gs qs E F IH]; simpl; [reflexivity|].
  rewrite E, IH. reflexivity.
Qed.

Lemma total_series_num : exists ts, total_series columns data = Ok (map CNum ts) /\
  series_of columns data "total" = Ok (map CNum ts) /\ Forall2 (fun b q => q == count b) groups ts.
Proof.
  destruct (series_holds columns "total" count groups data Hg Ht) as (i & qs & Ei & Ec & F).
  exists qs. unfold total_series, series_of. rewrite Ei, Ec. cbn [bind]. split; [|split; [reflexivity|exact F]].
  clear. induction qs as [|q qs IH]; simpl; [reflexivity|]. rewrite IH. reflexivity.
Qed.

(** The shared tail: sum of (mean * number of pairs) over the total number of pairs. *)
Lemma share_mean (g : A -> Q) ps T :
  T == count (concat groups) ->
  Forall2 (fun b q => q == mean_of g b * count b) groups ps ->
  exists v, share (map CNum ps) (Some T) = Ok (Some v) /\ v == mean_of g (concat groups).
Proof.
  intros ET F. pose proof counted_pos as P.
  unfold share, npdiv. cbn [bind].
  rewrite (qeqb_no T) by (rewrite ET; intro X; rewrite X in P; discriminate).
  eexists. split; [reflexivity|].
  rewrite (nansum_num (fun b => mean_of g b * count b) groups ps F), ET.
  rewrite (qsum_ext (fun b => mean_of g b * count b) (total_of g)).
  - rewrite qsum_concat. reflexivity.
  - intros b Hin. apply mean_times_count. now apply Hb.
Qed.

Lemma weighted_mean (g : A -> Q) name T :
  T == count (concat groups) ->
  Forall2 (fun b r => CellHolds columns r name (mean_of g b)) groups data ->
  exists v, weighted columns data (Some T) name = Ok (Some v) /\ v == mean_of g (concat groups).
Proof.
  intros ET F. destruct total_series_num as (ts & E1 & _ & F1).
  destruct (series_holds columns name (mean_of g) groups data Hg F) as (i & qs & Ei & Ec & F2).
  destruct (times_num _ _ _ _ _ F2 F1) as (ps & Ep & F3).
  unfold weighted, series_of. rewrite Ei, Ec. cbn [bind]. rewrite E1. cbn [bind]. rewrite Ep. cbn [bind].
  now apply share_mean.
Qed.
End Counted.

Lemma summaries_parts {A} (fields : list (string * (A -> Q))) columns groups data :
  Forall2 (SummaryRow fields columns) groups data ->
  (forall b, In b groups -> b <> []) /\
  Forall2 (fun b r => CellHolds columns r "total" (count b)) groups data /\
  forall name g, In (name, g) fields -> Forall2 (fun b r => CellHolds columns r name (mean_of g b)) groups data.
Proof.
  intros F. split; [|split].
  - intros b Hb. induction F as [|x r gs rs H F IH]; [destruct Hb|]. destruct Hb as [<-|Hb]; [apply H|auto].
  - eapply forall2_weaken; [|exact F]. intros b r _ H. apply H.
  - intros name g Hin. eapply forall2_weaken; [|exact F]. intros b r _ H. now apply H.
Qed.

Lemma weighted_all_means {A} (fields : list (string * (A -> Q))) columns groups data T names :
  groups <> [] -> Forall2 (SummaryRow fields columns) groups data -> T == count (concat groups) ->
  (forall n, In n names -> In n (map fst fields)) ->
  exists agg, weighted_all columns data (Some T) names = Ok agg /\ map fst agg = names /\
    forall name g, In name names -> In (name, g) fields -> Gives agg name (mean_of g (concat groups)).
Proof.
  intros Hg F ET. destruct (summaries_parts _ _ _ _ F) as (Hb & Ht & Hf).
  induction names as [|n names IH]; intros Hn.
  - exists []. split; [reflexivity|]. split; [reflexivity|]. intros ? ? [].
  - destruct IH as (agg & E & M & V); [intros; apply Hn; right; assumption|].
    destruct (proj1 (in_map_iff _ _ _) (Hn n (or_introl eq_refl))) as ([n' g0] & X & Hin).
    simpl in X. subst n'.
    destruct (weighted_mean columns groups data Hg Hb Ht g0 n T ET (Hf _ _ Hin)) as (v0 & E0 & V0).
    unfold weighted_all in *. cbn [mapM]. rewrite E0. cbn [bind]. rewrite E. cbn [bind].
    exists ((n, Some v0) :: agg). split; [reflexivity|]. split; [simpl; now rewrite M|].
    intros name g [<-|Hname] Hg'.
    + destruct (weighted_mean columns groups data Hg Hb Ht g n T ET (Hf _ _ Hg')) as (v & E1 & V1).
      rewrite E0 in E1. injection E1 as <-. exists v0. split; [left; reflexivity|exact V1].
    + destruct (V name g Hname Hg') as (q & Hq & Eq). exists q. split; [right; exact Hq|exact Eq].
Qed.

Lemma pooled {A} (fields : list (string * (A -> Q))) columns groups data lt names :
  In (lt, names) moment_lines -> SameFields names fields -> Summaries fields columns groups data ->
  exists agg, calc_series_sums columns data lt = Ok agg /\
    map fst agg = "total" :: names /\
    Gives agg "total" (count (concat groups)) /\
    forall name g, In (name, g) fields -> Gives agg name (mean_of g (concat groups)).
Proof.
  intros HL HS [Hg F]. destruct (summaries_parts _ _ _ _ F) as (Hb & Ht & Hf).
  destruct (counted_total columns groups data Hg Hb Ht) as (T & E & ET).
  destruct (weighted_all_means fields columns groups data T names Hg F ET (fun n H => proj1 (HS n) H))
    as (agg & Ea & M & V).
  exists (("total", Some T) :: agg). split.
  - unfold calc_series_sums. rewrite E. cbn [bind].
    destruct HL as [X|[X|[X|[X|[]]]]]; injection X as <- <-; cbn -[weighted_all];
      unfold sl1l2_names, vl1l2_names, val1l2_names, grad_names; rewrite Ea; reflexivity.
  - split; [simpl; now rewrite M|]. split; [exists T; split; [left; reflexivity|exact ET]|].
    intros name g Hin. destruct (V name g) as (q & Hq & Eq).
    + apply HS. apply in_map_iff. exists (name, g). auto.
    + exact Hin.
    + exists q. split; [right; exact Hq|exact Eq].
Qed.

(** * Skill scores relative to a reference *)
Lemma mean_total_zero {A} (g : A -> Q) b : b <> [] -> mean_of g b == 0 -> total_of g b == 0.
Proof. intros H E. rewrite <- (mean_times_count g b H), E. ring. Qed.

(** [score / (1 - skill)] gives back the reference. *)
Lemma reference_column {A} (columns : list string) (groups : list (list A)) data score skill (g h : A -> Q) :
  groups <> [] ->
  Forall2 (fun b r => CellHolds columns r score (mean_of g b)) groups data ->
  Forall2 (fun b r => CellHolds columns r skill (1 - mean_of g b / mean_of h b)) groups data ->
  (forall b, In b groups -> ~ mean_of g b == 0 /\ ~ mean_of h b == 0) ->
  exists cs ks k1 ds, series_of columns data score = Ok cs /\ series_of columns data skill = Ok ks /\
    one_minus ks = Ok k1 /\ series_div cs k1 = Ok (map CNum ds) /\
    Forall2 (fun b q => q == mean_of h b) groups ds.
Proof.
  intros Hg F1 F2 N.
  destruct (series_holds columns score _ groups data Hg F1) as (i & qs & Ei & Ec & K1).
  destruct (series_holds columns skill _ groups data Hg F2) as (j & ss & Ej & Es & K2).
  destruct (one_minus_num _ _ _ K2) as (os & Eo & K3).
  destruct (div_num (mean_of g) (fun b => 1 - (1 - mean_of g b / mean_of h b)) groups qs os) as (ds & Ed & K4).
  - intros b Hb E. destruct (N b Hb) as [N1 N2]. apply N1.
    assert (X : mean_of g b == (1 - (1 - mean_of g b / mean_of h b)) * mean_of h b) by (field; exact N2).
    rewrite X, E. ring.
  - exact K1.
  - exact K3.
  - exists (map CNum qs), (map CNum ss), (map CNum os), ds. unfold series_of. rewrite Ei, Ec, Ej, Es.
    repeat split; auto. eapply forall2_weaken; [|exact K4]. intros b q Hb E. rewrite E.
    destruct (N b Hb) as [N1 N2]. field. split; [exact N2|].
    intro E'. apply N1. 
    assert (X : mean_of g b == (mean_of h b - (mean_of h b - mean_of g b))) by ring. rewrite X, E'. reflexivity.
Qed.

Lemma nbr_sums columns groups data :
  groups <> [] -> Forall2 (NbrRow columns) groups data ->
  (forall b, In b groups -> ~ mean_of square_diff b == 0) ->
  let all := concat groups in
  let f := mean_of fst all in
  let o := mean_of snd all in
  ~ f * f + o * o == 0 ->
  exists agg, calc_series_sums columns data "nbrcnt" = Ok agg /\
    map fst agg = ["total"; "fbs"; "fss"; "afss"; "ufss"; "f_rate"; "o_rate"] /\
    Gives agg "total" (count all) /\
    Gives agg "fbs" (mean_of square_diff all) /\
    Gives agg "fss" (1 - mean_of square_diff all / mean_of square_sum all) /\
    Gives agg "f_rate" f /\ Gives agg "o_rate" o /\
    Gives agg "afss" (2 * f * o / (f * f + o * o)) /\
    Gives agg "ufss" ((1 # 2) + o / 2).
Proof.
  intros Hg F N all f o Nf.
  assert (F0 : Forall2 (SummaryRow nbr_fields columns) groups data)
    by (eapply forall2_weaken; [|exact F]; intros b r _ H; apply H).
  destruct (summaries_parts _ _ _ _ F0) as (Hb & Ht & Hf).
  destruct (counted_total columns groups data Hg Hb Ht) as (T & E & ET).
  destruct (weighted_mean columns groups data Hg Hb Ht square_diff "fbs" T ET (Hf "fbs" _ (or_introl eq_refl))) as (vb & Eb & Vb).
  destruct (weighted_mean columns groups data Hg Hb Ht fst "f_rate" T ET (Hf "f_rate" _ (or_intror (or_introl eq_refl)))) as (vf & Ef & Vf).
  destruct (weighted_mean columns groups data Hg Hb Ht snd "o_rate" T ET (Hf "o_rate" _ (or_intror (or_intror (or_introl eq_refl))))) as (vo & Eo & Vo).
  destruct (reference_column columns groups data "fbs" "fss" square_diff square_sum) as (cs & ks & k1 & ds & E1 & E2 & E3 & E4 & F4).
  { exact Hg. }
  { apply Hf. left; reflexivity. }
  { eapply forall2_weaken; [|exact F]. intros b r _ H. apply H. }
  { intros b Hin. split; [now apply N|].
    clear - F Hin. induction F as [|x r gs rs H F IH]; [destruct Hin|]. destruct Hin as [<-|Hin]; [apply H|auto]. }
  destruct (total_series_num columns groups data Hg Ht) as (ts & E5 & _ & F5).
  destruct (times_num _ _ _ _ _ F4 F5) as (ps & E6 & F6).
  destruct (share_mean columns groups data Hg Hb Ht square_sum ps T ET F6) as (vd & Ed & Vd).
  assert (Nd : ~ vd == 0).
  { rewrite Vd. intro Z.
    assert (P : forall p, In p all -> square_diff p <= 2 * square_sum p).
    { intros [x y] _. unfold square_diff, square_sum. simpl.
      assert (Q1 : 0 <= (x + y) * (x + y)) by (destruct (Qlt_le_dec (x + y) 0) as [L|L];
        [setoid_replace ((x + y) * (x + y)) with ((-(x + y)) * (-(x + y))) by ring; apply Qmult_le_0_compat; lra
        |apply Qmult_le_0_compat; exact L]).
      assert (Q2 : 2 * (x * x + y * y) - (x - y) * (x - y) == (x + y) * (x + y)) by ring. lra. }
    assert (P2 : forall p, 0 <= square_diff p).
    { intros [x y]. unfold square_diff. simpl. destruct (Qlt_le_dec (x - y) 0) as [L|L];
        [setoid_replace ((x - y) * (x - y)) with ((-(x - y)) * (-(x - y))) by ring; apply Qmult_le_0_compat; lra
        |apply Qmult_le_0_compat; exact L]. }
    assert (Hall : all <> []).
    { unfold all. destruct groups as [|b gs]; [congruence|]. specialize (Hb b (or_introl eq_refl)).
      destruct b; [congruence|]. discriminate. }
    assert (T0 : total_of square_sum all == 0) by (apply mean_total_zero; [exact Hall|exact Z]).
    assert (T1 : total_of square_diff all <= 2 * total_of square_sum all).
    { rewrite <- (total_scale 2 square_sum all). apply total_le. exact P. }
    destruct groups as [|b gs]; [congruence|].
    apply (N b (or_introl eq_refl)). unfold mean_of.
    assert (T2 : total_of square_diff b == 0).
    { assert (A1 : total_of square_diff all == total_of square_diff b + total_of square_diff (concat gs)).
      { unfold all. simpl. unfold total_of. rewrite map_app, qsum_app. reflexivity. }
      pose proof (total_nonneg square_diff b (fun x _ => P2 x)).
      pose proof (total_nonneg square_diff (concat gs) (fun x _ => P2 x)). lra. }
    rewrite T2. unfold Qdiv. ring. }
  unfold calc_series_sums. rewrite E. cbn -[weighted series_of one_minus series_div total_series series_times share npdiv].
  unfold sums_nbrcnt. rewrite Eb. cbn [bind]. rewrite E1. cbn [bind]. rewrite E2. cbn [bind]. rewrite E3. cbn [bind].
  rewrite E4. cbn [bind]. rewrite E5. cbn [bind]. rewrite E6. cbn [bind]. rewrite Ed. cbn [bind].
  unfold npdiv, pylit, pybin. cbn [bind]. rewrite (qeqb_no vd Nd). cbn [bind]. rewrite Ef. cbn [bind]. rewrite Eo. cbn [bind].
  assert (Nq : ~ vf * vf + vo * vo == 0) by (rewrite Vf, Vo; exact Nf).
  rewrite (qeqb_no _ Nq). cbn [bind]. rewrite (qeqb_no 2) by discriminate. cbn [bind].
  eexists. split; [reflexivity|]. split; [reflexivity|].
  repeat split; (eexists; split; [simpl; tauto|]).
  - exact ET.
  - exact Vb.
  - rewrite Vb, Vd. reflexivity.
  - exact Vf.
  - exact Vo.
  - rewrite Vf, Vo. reflexivity.
  - rewrite Vo. reflexivity.
Qed.

Lemma ens_sums columns groups data :
  groups <> [] -> Forall2 (EnsRow columns) groups data ->
  let all := concat groups in
  exists agg, calc_series_sums columns data "ecnt" = Ok agg /\
    map fst agg = "total" :: "mse" :: "mse_oerr" :: "crps_climo" :: map fst ens_fields /\
    Gives agg "total" (count all) /\
    Gives agg "mse" (mean_of e_sq all) /\ Gives agg "mse_oerr" (mean_of e_sq_oerr all) /\
    Gives agg "crps_climo" (mean_of e_climo all) /\
    forall name g, In (name, g) ens_fields -> Gives agg name (mean_of g all).
Proof.
  intros Hg F all.
  assert (F0 : Forall2 (SummaryRow ens_fields columns) groups data)
    by (eapply forall2_weaken; [|exact F]; intros b r _ H; apply H).
  destruct (summaries_parts _ _ _ _ F0) as (Hb & Ht & Hf).
  destruct (counted_total columns groups data Hg Hb Ht) as (T & E & ET).
  destruct (total_series_num columns groups data Hg Ht) as (ts & _ & E5 & F5).
  assert (SQ : forall name (g : ens_case -> Q),
    Forall2 (fun b r => exists m, CellHolds columns r name m /\ m * m == mean_of g b) groups data ->
    exists rs ss ps v, series_of columns data name = Ok rs /\ series_times rs rs = Ok ss /\
      series_times (map CNum ts) ss = Ok ps /\ share ps (Some T) = Ok (Some v) /\ v == mean_of g all).
  { intros name g K.
    assert (X : exists i qs, index_of name columns = Some i /\ column_at data i = Ok (map CNum qs) /\
       Forall2 (fun b q => q * q == mean_of g b) groups qs).
    { assert (exists i, ColumnAt columns name i) as [i Hi].
      { destruct K as [|b r ? ? H]; [congruence|]. destruct H as (m & (i & _ & Hi & _) & _). eauto. }
      exists i. assert (Y : exists qs, column_at data i = Ok (map CNum qs) /\ Forall2 (fun b q => q * q == mean_of g b) groups qs).
      { clear - K Hi. unfold column_at. induction K as [|b r bs rs H HF IH].
        - exists []. split; [reflexivity|constructor].
        - destruct IH as (qs & E & F). destruct H as (m & (j & q & Hj & Hq & Eq) & Em).
          rewrite (columnat_fun _ _ _ _ Hj Hi) in Hq.
          exists (q :: qs). simpl. unfold cell_at at 1. rewrite Hq. simpl. rewrite E. simpl.
          split; [reflexivity|constructor; [rewrite Eq; exact Em|assumption]]. }
      destruct Y as (qs & E' & F'). exists qs. split; [now apply index_of_ColumnAt|]. auto. }
    destruct X as (i & qs & Ei & Ec & K2).
    assert (Y : exists c, series_times (map CNum qs) (map CNum qs) = Ok (map CNum c) /\
       Forall2 (fun b q => q == mean_of g b) groups c).
    { clear - K2. induction K2 as [|b q gs qs E K IH].
      - exists []. split; [reflexivity|constructor].
      - destruct IH as (c & Ec & Fc). exists (q * q :: c). unfold series_times in *. simpl. rewrite Ec. simpl.
        split; [reflexivity|]. constructor; assumption. }
    destruct Y as (c & Ecc & K3).
    destruct (times_num _ _ _ _ _ F5 K3) as (ps & Ep & K4).
    assert (K5 : Forall2 (fun b q => q == mean_of g b * count b) groups ps).
    { eapply forall2_weaken; [|exact K4]. intros b q _ H. rewrite H. ring. }
    destruct (share_mean columns groups data Hg Hb Ht g ps T ET K5) as (v & Ev & Vv).
    exists (map CNum qs), (map CNum c), (map CNum ps), v. unfold series_of. rewrite Ei. auto. }
  destruct (SQ "rmse" e_sq) as (r1 & s1 & p1 & v1 & A1 & A2 & A3 & A4 & A5).
  { eapply forall2_weaken; [|exact F]. intros b r _ H. apply H. }
  destruct (SQ "rmse_oerr" e_sq_oerr) as (r2 & s2 & p2 & v2 & B1 & B2 & B3 & B4 & B5).
  { eapply forall2_weaken; [|exact F]. intros b r _ H. apply H. }
  destruct (reference_column columns groups data "crps" "crpss" e_crps e_climo) as (cs & ks & k1 & ds & E1 & E2 & E3 & E4 & F4).
  { exact Hg. }
  { apply Hf. right; left; reflexivity. }
  { eapply forall2_weaken; [|exact F]. intros b r _ H. apply H. }
  { intros b Hin. clear - F Hin. induction F as [|x r gs rs H F IH]; [destruct Hin|].
    destruct Hin as [<-|Hin]; [split; apply H|auto]. }
  destruct (times_num _ _ _ _ _ F5 F4) as (ps & E6 & F6).
  assert (F7 : Forall2 (fun b q => q == mean_of e_climo b * count b) groups ps).
  { eapply forall2_weaken; [|exact F6]. intros b q _ H. rewrite H. ring. }
  destruct (share_mean columns groups data Hg Hb Ht e_climo ps T ET F7) as (vd & Ed & Vd).
  destruct (weighted_all_means ens_fields columns groups data T ecnt_names Hg F0 ET) as (agg & Ea & M & V).
  { intros n H. exact H. }
  exists (("total", Some T) :: ("mse", Some v1) :: ("mse_oerr", Some v2) :: ("crps_climo", Some vd) :: agg).
  split.
  - unfold calc_series_sums. rewrite E. cbn -[sums_ecnt]. unfold sums_ecnt.
    rewrite A1. cbn [bind]. rewrite A2. cbn [bind]. rewrite B1. cbn [bind]. rewrite B2. cbn [bind].
    rewrite E1. cbn [bind]. rewrite E2. cbn [bind]. rewrite E3. cbn [bind]. rewrite E4. cbn [bind]. rewrite E5. cbn [bind].
    rewrite A3. cbn [bind]. rewrite A4. cbn [bind]. rewrite B3. cbn [bind]. rewrite B4. cbn [bind].
    rewrite E6. cbn [bind]. rewrite Ed. cbn [bind]. rewrite Ea. reflexivity.
  - split; [simpl; rewrite M; reflexivity|].
    split; [eexists; split; [left; reflexivity|exact ET]|].
    split; [eexists; split; [right; left; reflexivity|exact A5]|].
    split; [eexists; split; [do 2 right; left; reflexivity|exact B5]|].
    split; [eexists; split; [do 3 right; left; reflexivity|exact Vd]|].
    intros name g Hin. destruct (V name g) as (q & Hq & Eq); [|exact Hin|].
    + change ecnt_names with (map fst ens_fields). apply in_map_iff. exists (name, g). auto.
    + exists q. split; [do 4 right; exact Hq|exact Eq].
Qed.

Lemma rps_sums columns groups data :
  groups <> [] -> Forall2 (RpsRow columns) groups data ->
  let all := concat groups in
  exists agg, calc_series_sums columns data "rps" = Ok agg /\
    map fst agg = ["total"; "rps"; "rps_comp"; "rps_climo"] /\
    Gives agg "total" (count all) /\
    Gives agg "rps" (mean_of (fun c => fst (fst c)) all) /\
    Gives agg "rps_comp" (mean_of (fun c => snd (fst c)) all) /\
    Gives agg "rps_climo" (mean_of snd all).
Proof.
  intros Hg F all.
  assert (F0 : Forall2 (SummaryRow rps_fields columns) groups data)
    by (eapply forall2_weaken; [|exact F]; intros b r _ H; apply H).
  destruct (summaries_parts _ _ _ _ F0) as (Hb & Ht & Hf).
  destruct (counted_total columns groups data Hg Hb Ht) as (T & E & ET).
  destruct (total_series_num columns groups data Hg Ht) as (ts & E5 & _ & F5).
  destruct (weighted_mean columns groups data Hg Hb Ht _ "rps" T ET (Hf "rps" _ (or_introl eq_refl))) as (v1 & A1 & V1).
  destruct (weighted_mean columns groups data Hg Hb Ht _ "rps_comp" T ET (Hf "rps_comp" _ (or_intror (or_introl eq_refl)))) as (v2 & A2 & V2).
  destruct (reference_column columns groups data "rps" "rpss" (fun c : Q * Q * Q => fst (fst c)) snd) as (cs & ks & k1 & ds & E1 & E2 & E3 & E4 & F4).
  { exact Hg. }
  { apply Hf. left; reflexivity. }
  { eapply forall2_weaken; [|exact F]. intros b r _ H. apply H. }
  { intros b Hin. clear - F Hin. induction F as [|x r gs rs H F IH]; [destruct Hin|].
    destruct Hin as [<-|Hin]; [split; apply H|auto]. }
  destruct (times_num _ _ _ _ _ F4 F5) as (ps & E6 & F6).
  destruct (share_mean columns groups data Hg Hb Ht snd ps T ET F6) as (vd & Ed & Vd).
  eexists. split.
  - unfold calc_series_sums. rewrite E. cbn -[sums_rps]. unfold sums_rps.
    rewrite E1. cbn [bind]. rewrite E2. cbn [bind]. rewrite E3. cbn [bind]. rewrite E4. cbn [bind].
    rewrite A1. cbn [bind]. rewrite A2. cbn [bind]. rewrite E5. cbn [bind]. rewrite E6. cbn [bind]. rewrite Ed. reflexivity.
  - split; [reflexivity|]. repeat split; (eexists; split; [simpl; tauto|assumption]).
Qed.

(** * No pairs *)
Definition NoPairs (t : pyval) : Prop := t = None \/ exists q, t = Some q /\ q == 0.
Lemma share_bad s t : NoPairs t -> exists e, share s t = Err e.
Proof.
  intros [->|(q & -> & E)]; unfold share, npdiv; cbn [bind]; [eauto|].
  rewrite (proj2 (Qeq_bool_iff q 0) E). eauto.
Qed.
Lemma bind_err {A B} (m : res A) (k : A -> res B) : (exists e, m = Err e) -> exists e, bind m k = Err e.
Proof. intros [e ->]. exists e. reflexivity. Qed.
Lemma bind_err2 {A B} (m : res A) (k : A -> res B) : (forall a, exists e, k a = Err e) -> exists e, bind m k = Err e.
Proof. intro H. destruct m as [a|e]; cbn [bind]; [apply H|eauto]. Qed.
Lemma weighted_bad columns rows t n : NoPairs t -> exists e, weighted columns rows t n = Err e.
Proof. intro H. unfold weighted. do 3 (apply bind_err2; intro). now apply share_bad. Qed.
Lemma weighted_all_bad columns rows t n ns : NoPairs t -> exists e, weighted_all columns rows t (n :: ns) = Err e.
Proof.
  intro H. unfold weighted_all. cbn [mapM]. apply bind_err. apply bind_err. now apply weighted_bad.
Qed.
Definition known_lines : list string :=
  ["ctc"; "nbrctc"; "sl1l2"; "sal1l2"; "vl1l2"; "val1l2"; "grad"; "nbrcnt"; "ecnt"; "rps"].

Lemma sums_bad columns rows t lt : In lt known_lines ->
  sum_column_data_by_name rows columns "total" true = Ok t -> NoPairs t ->
  exists e, calc_series_sums columns rows lt = Err e.
Proof.
  intros HL E H. unfold calc_series_sums. rewrite E. cbn [bind].
  apply bind_err.
  destruct HL as [<-|[<-|[<-|[<-|[<-|[<-|[<-|[<-|[<-|[<-|[]]]]]]]]]]];
    cbn -[weighted_all sums_sal1l2 sums_nbrcnt sums_ecnt sums_rps].
  - unfold sums_ctc. eauto.
  - unfold sums_ctc. eauto.
  - now apply weighted_all_bad.
  - unfold sums_sal1l2. apply bind_err. now apply weighted_bad.
  - now apply weighted_all_bad.
  - now apply weighted_all_bad.
  - now apply weighted_all_bad.
  - unfold sums_nbrcnt. apply bind_err. now apply weighted_bad.
  - unfold sums_ecnt. do 10 (apply bind_err2; intro). apply bind_err. now apply share_bad.
  - unfold sums_rps. do 4 (apply bind_err2; intro). apply bind_err. now apply weighted_bad.
Qed.

Lemma sums_empty columns lt : In lt known_lines -> exists e, calc_series_sums columns [] lt = Err e.
Proof.
  intro HL. apply (sums_bad columns [] None lt HL); [|left; reflexivity].
  unfold sum_column_data_by_name, column_data_by_name. destruct (index_of "total" columns); reflexivity.
Qed.

Lemma other_lines columns data lt t :
  ~ In lt known_lines -> sum_column_data_by_name data columns "total" true = Ok t ->
  calc_series_sums columns data lt = Ok [("total", t)].
Proof.
  intros H E. unfold calc_series_sums. rewrite E. cbn [bind].
  assert (K : forall s, In s known_lines -> String.eqb lt s = false).
  { intros s Hs. destruct (String.eqb_spec lt s) as [->|]; [contradiction|reflexivity]. }
  rewrite !K by (simpl; tauto). reflexivity.
Qed.

(** * The frame loop *)
Lemma filterM_ok {A} (f : A -> res bool) g l :
  (forall x, In x l -> f x = Ok (g x)) -> filterM f l = Ok (filter g l).
Proof.
  induction l as [|x l IH]; intro H; [reflexivity|]. simpl. rewrite H by (left; reflexivity).
  rewrite IH by (intros; apply H; right; assumption). reflexivity.
Qed.
Lemma filterM_app {A} (f : A -> res bool) a b ra rb :
  filterM f a = Ok ra -> filterM f b = Ok rb -> filterM f (a ++ b) = Ok (ra ++ rb)%list.
Proof.
  intros Ha Hb. revert ra Ha. induction a as [|x a IH]; intros ra Ha; simpl in *.
  - injection Ha as <-. exact Hb.
  - destruct (f x) as [b0|]; [|discriminate]. cbn [bind] in *. destruct (filterM f a) as [r|]; [|discriminate].
    cbn [bind] in *. injection Ha as <-. rewrite (IH r eq_refl). cbn [bind]. destruct b0; reflexivity.
Qed.
Lemma filter_filter {A} (f g : A -> bool) l : (forall x, In x l -> g x = true -> f x = true) -> filter g (filter f l) = filter g l.
Proof.
  induction l as [|x l IH]; intro H; [reflexivity|]. simpl.
  destruct (f x) eqn:Ef.
  - simpl. rewrite IH by (intros; apply H; auto; now right). reflexivity.
  - rewrite IH by (intros; apply H; auto; now right).
    destruct (g x) eqn:Eg; [|reflexivity]. rewrite H in Ef; [discriminate|now left|exact Eg].
Qed.
Lemma filter_filter_and {A} (f g h : A -> bool) l :
  (forall x, In x l -> h x = f x && g x) -> filter g (filter f l) = filter h l.
Proof.
  induction l as [|x l IH]; intro H; [reflexivity|]. simpl. rewrite (H x) by (now left).
  destruct (f x); simpl; rewrite IH by (intros; apply H; now right); reflexivity.
Qed.
Lemma filter_all {A} (f : A -> bool) l : (forall x, In x l -> f x = true) -> filter f l = l.
Proof.
  induction l as [|x l IH]; intro H; [reflexivity|]. simpl. rewrite H by (now left).
  now rewrite IH by (intros; apply H; now right).
Qed.
Lemma label_inj (fr : frame) x y : NoDup (map fst fr) -> In x fr -> In y fr -> fst x = fst y -> x = y.
Proof.
  induction fr as [|z fr IH]; intros N Hx Hy E; [destruct Hx|]. inversion N as [|? ? Nz Nf]; subst.
  destruct Hx as [->|Hx], Hy as [->|Hy]; auto.
  - destruct Nz. rewrite E. now apply in_map.
  - destruct Nz. rewrite <- E. now apply in_map.
Qed.
Lemma fop_app {A} (R : A -> A -> Prop) a b x y : ForallOrdPairs R (a ++ b) -> In x a -> In y b -> R x y.
Proof.
  induction a as [|z a IH]; intros H Hx Hy; [destruct Hx|]. inversion H as [|? ? Hz Ha]; subst.
  destruct Hx as [->|Hx]; [|now apply IH]. rewrite Forall_forall in Hz. apply Hz. apply in_or_app. now right.
Qed.

Section Loop.
Context {T : Type} (columns : list string) (line_type : string) (vi : nat) (name : cell).
Context (sel : T -> row -> res bool) (fr0 : list (nat * row)).

Definition picks (t : T) (x : nat * row) : bool := match sel t (snd x) with Ok b => b | Err _ => false end.
Definition picked (t : T) : list (nat * row) := filter (picks t) fr0.
Definition newrow (t : T) : row :=
  match calc_series_sums columns (map snd (picked t)) line_type with
  | Ok agg => set_nth vi name (write_fields columns agg
      (match picked t with (_, r) :: _ => r | [] => repeat CMiss (length columns) end))
  | Err _ => []
  end.
Definition unpicked (done : list T) (x : nat * row) : bool := negb (existsb (fun t => picks t x) done).

Hypothesis ND : NoDup (map fst fr0).

Lemma loop ts : forall done,
  (forall t x, In t ts -> In x fr0 -> exists b, sel t (snd x) = Ok b) ->
  (forall t, In t ts -> exists agg, calc_series_sums columns (map snd (picked t)) line_type = Ok agg) ->
  (forall t u, In t ts -> In u (done ++ ts) -> sel t (newrow u) = Ok false) ->
  ForallOrdPairs (fun t u => forall x, In x fr0 -> picks t x = true -> picks u x = true -> False) (done ++ ts) ->
  (forall t x, In t (tl (done ++ ts)) -> In x fr0 -> picks t x = true -> fst x <> O) ->
  foldM (fun t fr => aggregate_where columns line_type vi name (sel t) fr) ts
    (filter (unpicked done) fr0 ++ map (fun t => (O, newrow t)) done)%list =
  Ok (filter (unpicked (done ++ ts)) fr0 ++ map (fun t => (O, newrow t)) (done ++ ts))%list.
Proof.
  induction ts as [|t ts IH]; intros done H1 H2 H3 H4 H5.
  - simpl. now rewrite app_nil_r.
  - cbn [foldM].
    assert (E : aggregate_where columns line_type vi name (sel t)
       (filter (unpicked done) fr0 ++ map (fun t => (O, newrow t)) done)%list =
       Ok (filter (unpicked (done ++ [t])) fr0 ++ map (fun t => (O, newrow t)) (done ++ [t]))%list).
    { unfold aggregate_where.
      assert (S1 : filterM (fun x => sel t (snd x)) (filter (unpicked done) fr0) = Ok (picked t)).
      { rewrite (filterM_ok _ (picks t)).
        - unfold picked. rewrite filter_filter; [reflexivity|].
          intros x Hx Hp. unfold unpicked. apply negb_true_iff. apply not_true_iff_false. intro X.
          apply existsb_exists in X. destruct X as (d & Hd & Hpd).
          exact (fop_app _ _ _ d t H4 Hd (or_introl eq_refl) x Hx Hpd Hp).
        - intros x Hx. apply filter_In in Hx. destruct (H1 t x (or_introl eq_refl) (proj1 Hx)) as [b Hb].
          unfold picks. rewrite Hb. reflexivity. }
      assert (S2 : filterM (fun x => sel t (snd x)) (map (fun t => (O, newrow t)) done) = Ok []).
      { rewrite (filterM_ok _ (fun _ => false)).
        - f_equal. clear. induction done; simpl; auto.
        - intros x Hx. apply in_map_iff in Hx. destruct Hx as (u & <- & Hu). simpl.
          apply H3; [left; reflexivity|]. apply in_or_app. now left. }
      rewrite (filterM_app _ _ _ _ _ S1 S2). rewrite app_nil_r. cbn [bind].
      destruct (H2 t (or_introl eq_refl)) as [agg Ea]. rewrite Ea. cbn [bind].
      f_equal. rewrite filter_app.
      assert (L : forall x, In x fr0 -> existsb (Nat.eqb (fst x)) (map fst (picked t)) = picks t x).
      { intros x Hx. destruct (picks t x) eqn:Ep.
        - apply existsb_exists. exists (fst x). split; [|apply Nat.eqb_refl]. apply in_map. apply filter_In. auto.
        - apply not_true_iff_false. intro X. apply existsb_exists in X. destruct X as (l & Hl & El).
          apply Nat.eqb_eq in El. subst l. apply in_map_iff in Hl. destruct Hl as (y & Ey & Hy).
          apply filter_In in Hy. destruct Hy as [Hy Py]. rewrite <- (label_inj fr0 y x ND Hy Hx Ey) in Ep. congruence. }
      assert (R1 : filter (fun x => negb (existsb (Nat.eqb (fst x)) (map fst (picked t)))) (filter (unpicked done) fr0)
                   = filter (unpicked (done ++ [t])) fr0).
      { apply filter_filter_and. intros x Hx. rewrite (L x Hx). unfold unpicked. rewrite existsb_app. simpl.
        rewrite orb_false_r. now rewrite negb_orb. }
      assert (R2 : filter (fun x => negb (existsb (Nat.eqb (fst x)) (map fst (picked t)))) (map (fun t => (O, newrow t)) done)
                   = map (fun t => (O, newrow t)) done).
      { apply filter_all. intros x Hx. apply in_map_iff in Hx. destruct Hx as (u & <- & Hu). simpl.
        apply negb_true_iff. apply not_true_iff_false. intro X. apply existsb_exists in X. destruct X as (l & Hl & El).
        apply in_map_iff in Hl. destruct Hl as (y & Ey & Hy). apply filter_In in Hy.
        apply (H5 t y); [|apply Hy|apply Hy|].
        - destruct done as [|d done]; [destruct Hu|]. simpl. apply in_or_app. right. now left.
        - rewrite Ey. destruct l; [reflexivity|discriminate El]. }
      rewrite R1, R2. rewrite map_app. rewrite <- app_assoc. f_equal. f_equal. cbn [map]. f_equal. f_equal.
      unfold newrow. rewrite Ea. reflexivity. }
    rewrite E. cbn [bind]. rewrite IH.
    + rewrite <- app_assoc. reflexivity.
    + intros; apply H1; [now right|assumption].
    + intros; apply H2; now right.
    + rewrite <- app_assoc. intros; apply H3; [now right|assumption].
    + rewrite <- app_assoc. exact H4.
    + rewrite <- app_assoc. exact H5.
Qed.
End Loop.

(** * Equality of cells and distinct values *)
Lemma cell_eqb_iff a b : cell_eqb a b = true <-> SameCell a b.
Proof.
  destruct a, b; simpl; try (split; [discriminate|tauto]).
  - apply Qeq_bool_iff.
  - apply String.eqb_eq.
Qed.
Lemma same_cell_sym a b : SameCell a b -> SameCell b a.
Proof. destruct a, b; simpl; try tauto; intro H; symmetry; exact H. Qed.
Lemma same_cell_trans a b c : SameCell a b -> SameCell b c -> SameCell a c.
Proof. destruct a, b, c; simpl; try tauto; intros H K; [rewrite H; exact K|congruence]. Qed.
Lemma same_value_cell a b : SameCell a b -> same_value a b = true.
Proof. intro H. apply cell_eqb_iff in H. destruct a, b; simpl in *; congruence. Qed.

Lemma unique_from_in l : forall seen c, In c (unique_from seen l) -> In c l /\ existsb (same_value c) seen = false.
Proof.
  induction l as [|x l IH]; intros seen c H; simpl in *; [destruct H|].
  destruct (existsb (same_value x) seen) eqn:E.
  - destruct (IH _ _ H). auto.
  - destruct H as [<-|H]; [auto|]. destruct (IH _ _ H) as [H1 H2]. simpl in H2. apply orb_false_iff in H2. tauto.
Qed.
Lemma unique_from_distinct l : forall seen,
  ForallOrdPairs (fun a b => same_value b a = false) (unique_from seen l).
Proof.
  induction l as [|x l IH]; intros seen; simpl; [constructor|].
  destruct (existsb (same_value x) seen) eqn:E; [apply IH|]. constructor; [|apply IH].
  apply Forall_forall. intros y Hy. apply unique_from_in in Hy. destruct Hy as [_ Hy]. simpl in Hy.
  apply orb_false_iff in Hy. tauto.
Qed.
Lemma unique_from_cover l : forall seen c, In c l -> c <> CMiss ->
  (exists u, In u (unique_from seen l) /\ SameCell c u) \/ (exists u, In u seen /\ SameCell c u).
Proof.
  assert (SV : forall a b, a <> CMiss -> same_value a b = true -> SameCell a b).
  { intros a b N H. apply cell_eqb_iff. destruct a, b; simpl in *; congruence. }
  induction l as [|x l IH]; intros seen c H N; simpl in *; [destruct H|].
  destruct (existsb (same_value x) seen) eqn:E.
  - destruct H as [->|H]; [|now apply IH]. apply existsb_exists in E. destruct E as (u & Hu & Eu). right. eauto.
  - destruct H as [->|H].
    + left. exists c. split; [left; reflexivity|]. destruct c; simpl; [reflexivity|congruence|reflexivity].
    + destruct (IH (x :: seen) c H N) as [(u & Hu & Su)|(u & [<-|Hu] & Su)].
      * left. exists u. split; [right; exact Hu|exact Su].
      * left. exists x. split; [left; reflexivity|exact Su].
      * right. eauto.
Qed.
Lemma unique_cover l c : In c l -> c <> CMiss -> exists u, In u (unique_cells l) /\ SameCell c u.
Proof.
  intros H N. destruct (unique_from_cover l [] c H N) as [X|(u & [] & _)]. exact X.
Qed.

Lemma fop_map {A B} (f : A -> B) (R : B -> B -> Prop) l :
  ForallOrdPairs (fun x y => R (f x) (f y)) l -> ForallOrdPairs R (map f l).
Proof.
  induction 1 as [|x l H F IH]; simpl; constructor; [|exact IH].
  apply Forall_forall. intros y Hy. apply in_map_iff in Hy. destruct Hy as (z & <- & Hz).
  rewrite Forall_forall in H. auto.
Qed.
Lemma fop_weaken {A} (R S : A -> A -> Prop) l : (forall x y, R x y -> S x y) -> ForallOrdPairs R l -> ForallOrdPairs S l.
Proof.
  intros H F. induction F as [|x l HF F IH]; constructor; [|exact IH].
  eapply Forall_impl; [|exact HF]. intros; now apply H.
Qed.
Lemma fop_app_intro {A} (R : A -> A -> Prop) a b :
  ForallOrdPairs R a -> ForallOrdPairs R b -> (forall x y, In x a -> In y b -> R x y) -> ForallOrdPairs R (a ++ b).
Proof.
  intros Fa Fb H. induction Fa as [|x l HF F IH]; simpl; [exact Fb|]. constructor.
  - apply Forall_app. split; [exact HF|]. apply Forall_forall. intros; apply H; [now left|assumption].
  - apply IH. intros; apply H; [now right|assumption].
Qed.
Lemma different_times valids leads :
  ForallOrdPairs (fun a b => same_value b a = false) valids ->
  ForallOrdPairs (fun a b => same_value b a = false) leads ->
  ForallOrdPairs DifferentTimes (list_prod valids leads).
Proof.
  intros Fv Fl. induction Fv as [|v vs Hv Fv IH]; simpl; [constructor|].
  apply fop_app_intro; [|exact IH|].
  - apply fop_map. eapply fop_weaken; [|exact Fl]. intros a b E [_ H]. simpl in H. cbv beta in E.
    rewrite (same_value_cell b a (same_cell_sym _ _ H)) in E. discriminate.
  - intros x y Hx Hy [H _]. apply in_map_iff in Hx. destruct Hx as (l & <- & _). simpl in H.
    destruct y as [w l']. apply in_prod_iff in Hy. rewrite Forall_forall in Hv. specialize (Hv w (proj1 Hy)).
    simpl in H. rewrite (same_value_cell w v (same_cell_sym _ _ H)) in Hv. discriminate.
Qed.

(** * The new row *)
Lemma nth_combine {A B} (a : list A) (b : list B) i x y :
  nth_error a i = Some x -> nth_error b i = Some y -> nth_error (combine a b) i = Some (x, y).
Proof.
  revert b i. induction a as [|z a IH]; intros b [|i] Ha Hb; try discriminate; destruct b; try discriminate; simpl in *.
  - congruence.
  - now apply IH.
Qed.
Lemma write_length columns agg r : length r = length columns -> length (write_fields columns agg r) = length columns.
Proof. intro H. unfold write_fields. rewrite map_length, combine_length, H. apply Nat.min_id. Qed.
Lemma assoc_in {A} n (v : A) l : NoDup (map fst l) -> In (n, v) l -> assoc n l = Some v.
Proof.
  induction l as [|[k w] l IH]; intros N H; [destruct H|]. simpl in *. inversion N as [|? ? Nk Nl]; subst.
  destruct H as [H|H].
  - injection H as -> ->. now rewrite String.eqb_refl.
  - destruct (String.eqb_spec k n) as [->|]; [|now apply IH]. destruct Nk. apply in_map_iff. exists (n, v). auto.
Qed.
Lemma assoc_none {A} n (l : list (string * A)) : ~ In n (map fst l) -> assoc n l = None.
Proof.
  induction l as [|[k w] l IH]; intro H; [reflexivity|]. simpl in *.
  destruct (String.eqb_spec k n); [tauto|]. apply IH. tauto.
Qed.

Lemma in_columnat columns n : In n columns -> exists i, ColumnAt columns n i.
Proof.
  intro H. destruct (index_of n columns) as [i|] eqn:E.
  - exists i. now apply index_of_ColumnAt.
  - apply index_of_None in E. contradiction.
Qed.
Lemma columnat_lt columns n i : ColumnAt columns n i -> (i < length columns)%nat.
Proof. intros [H _]. apply nth_error_Some. rewrite H. discriminate. Qed.

(** Reading a cell of the new row. *)
Lemma new_cell columns agg r vi var c n i x :
  length r = length columns -> ColumnAt columns var vi -> ColumnAt columns n i -> n <> var ->
  nth_error r i = Some x ->
  nth_error (set_nth vi c (write_fields columns agg r)) i = Some (write_field agg (n, x)).
Proof.
  intros L Hv Hn N Hx. rewrite set_nth_other.
  - unfold write_fields. apply map_nth_error. apply nth_combine; [apply Hn|exact Hx].
  - intro E. subst i. apply N. eapply columnat_inj; eassumption.
Qed.
Lemma new_var columns agg r vi var c :
  length r = length columns -> ColumnAt columns var vi ->
  CellOf columns (set_nth vi c (write_fields columns agg r)) var c.
Proof.
  intros L Hv. exists vi. split; [exact Hv|]. apply set_nth_same. rewrite write_length by exact L.
  eapply columnat_lt. eassumption.
Qed.
Lemma row_cell columns (r : row) n i : length r = length columns -> ColumnAt columns n i -> exists x, nth_error r i = Some x.
Proof.
  intros L H. destruct (nth_error r i) eqn:E; [eauto|]. apply nth_error_None in E. apply columnat_lt in H. lia.
Qed.
Lemma new_unchanged columns agg r vi var c n x :
  length r = length columns -> ColumnAt columns var vi -> n <> var -> ~ In n (map fst agg) ->
  CellOf columns r n x -> CellOf columns (set_nth vi c (write_fields columns agg r)) n x.
Proof.
  intros L Hv N Na (i & Hi & Hx). exists i. split; [exact Hi|].
  rewrite (new_cell columns agg r vi var c n i x) by assumption.
  unfold write_field. simpl. now rewrite assoc_none.
Qed.
Lemma new_holds columns agg r vi var c n v :
  length r = length columns -> ColumnAt columns var vi -> n <> var -> In n columns -> NoDup (map fst agg) ->
  Gives agg n v -> CellHolds columns (set_nth vi c (write_fields columns agg r)) n v.
Proof.
  intros L Hv N Hc Nd (q & Hq & Eq). destruct (in_columnat _ _ Hc) as [i Hi].
  destruct (row_cell columns r n i L Hi) as [x Hx].
  exists i, q. split; [exact Hi|]. split; [|exact Eq].
  rewrite (new_cell columns agg r vi var c n i x) by assumption.
  unfold write_field. simpl. now rewrite (assoc_in n (Some q)).
Qed.
Lemma new_summary {A} (fields : list (string * (A -> Q))) columns agg r vi var c names b :
  length r = length columns -> ColumnAt columns var vi -> NoDup ("total" :: names) ->
  ~ In var ("total" :: names) -> In "total" columns ->
  (forall n, In n (map fst fields) -> In n names /\ In n columns) ->
  map fst agg = "total" :: names -> b <> [] -> Gives agg "total" (count b) ->
  (forall n g, In (n, g) fields -> Gives agg n (mean_of g b)) ->
  SummaryRow fields columns b (set_nth vi c (write_fields columns agg r)).
Proof.
  intros L Hv Nd Nv Ht Hf M Hb G1 G2. constructor.
  - rewrite set_nth_length. now apply write_length.
  - exact Hb.
  - apply (new_holds _ _ _ _ var); try assumption; [intro E; apply Nv; left; exact E|rewrite M; exact Nd].
  - intros n g Hin. assert (Hn : In n (map fst fields)) by (apply in_map_iff; exists (n, g); auto).
    destruct (Hf n Hn) as [Hn1 Hn2].
    apply (new_holds _ _ _ _ var); try assumption.
    + intro E. subst n. apply Nv. right. exact Hn1.
    + rewrite M; exact Nd.
    + now apply G2.
Qed.

Lemma moment_names_ok lt names : In (lt, names) moment_lines ->
  NoDup ("total" :: names) /\ ~ In "fcst_valid_beg" ("total" :: names) /\ ~ In "fcst_lead" ("total" :: names).
Proof.
  intro H.
  assert (X : forallb (fun ln => nodupb ("total" :: snd ln) && negb (existsb (String.eqb "fcst_valid_beg") ("total" :: snd ln))
      && negb (existsb (String.eqb "fcst_lead") ("total" :: snd ln))) moment_lines = true) by reflexivity.
  rewrite forallb_forall in X. specialize (X _ H). cbn [snd] in X.
  apply andb_prop in X. destruct X as [X X3]. apply andb_prop in X. destruct X as [X1 X2].
  assert (NI : forall n l, negb (existsb (String.eqb n) l) = true -> ~ In n l).
  { intros n l E K. apply negb_true_iff in E. apply not_true_iff_false in E. apply E. apply existsb_exists.
    exists n. split; [exact K|apply String.eqb_refl]. }
  split; [now apply nodupb_ok|]. split; now apply NI.
Qed.

Lemma ascending_nodup fr : Ascending fr -> NoDup (map fst fr).
Proof.
  unfold Ascending. induction (map fst fr) as [|n l IH]; intro H; constructor.
  - inversion H as [|? ? Hs Hf]; subst. intro K. rewrite Forall_forall in Hf. specialize (Hf n K). lia.
  - inversion H. auto.
Qed.
Lemma ascending_zero x fr y : Ascending (x :: fr) -> In y (x :: fr) -> fst y = O -> y = x.
Proof.
  intros H [<-|Hy] E; [reflexivity|]. unfold Ascending in H. simpl in H. inversion H as [|? ? Hs Hf]; subst.
  rewrite Forall_forall in Hf. specialize (Hf (fst y) (in_map fst _ _ Hy)). lia.
Qed.

Lemma selection_filter {A} (P : A -> Prop) f l :
  (forall x, In x l -> (f x = true <-> P x)) -> Selection P l (filter f l).
Proof.
  induction l as [|x l IH]; intro H; simpl; [constructor|].
  assert (K := IH (fun y Hy => H y (or_intror Hy))). pose proof (H x (or_introl eq_refl)) as Hx.
  destruct (f x); constructor; try exact K; [now apply Hx|]. intro X. apply Hx in X. discriminate.
Qed.

(** Splitting the joined value. *)
Lemma split_joined l :
  l <> [] -> Forall (fun m => ~ In ";"%char (list_ascii_of_string m)) l ->
  split_on ";" (String.concat ";" l) = l.
Proof.
  induction l as [|w l IH]; intros N F; [now destruct N|].
  inversion F as [|? ? Hw Hl]; subst. destruct l as [|w' l].
  - cbn [String.concat]. now apply split_on_last.
  - change (String.concat ";" (w :: w' :: l)) with (w ++ String ";" (String.concat ";" (w' :: l))).
    rewrite split_on_word by exact Hw. rewrite IH; [reflexivity|discriminate|exact Hl].
Qed.
Lemma has_semicolon_iff s : has_semicolon s = true <-> In ";"%char (list_ascii_of_string s).
Proof.
  induction s as [|c s IH]; simpl; [split; [discriminate|tauto]|].
  rewrite orb_true_iff, IH. destruct (Ascii.eqb_spec c ";"); split; intros [H|H]; auto; discriminate.
Qed.
Lemma list_ascii_app a b : list_ascii_of_string (a ++ b) = (list_ascii_of_string a ++ list_ascii_of_string b)%list.
Proof. induction a; simpl; congruence. Qed.
Lemma joined_has vals joined : Joined vals joined ->
  has_semicolon joined = true /\ split_on ";" joined = vals /\ ~ In joined vals.
Proof.
  intros (L & F & ->).
  assert (S : has_semicolon (String.concat ";" vals) = true).
  { apply has_semicolon_iff. destruct vals as [|w [|w' l]]; simpl in L; try lia.
    change (String.concat ";" (w :: w' :: l)) with (w ++ String ";" (String.concat ";" (w' :: l))).
    rewrite list_ascii_app. apply in_or_app. right. left. reflexivity. }
  split; [exact S|]. split.
  - apply split_joined; [|exact F]. intros ->. simpl in L. lia.
  - intro H. rewrite Forall_forall in F. apply (F _ H). now apply has_semicolon_iff.
Qed.

Lemma column_cells data columns n i : Rectangular data columns -> ColumnAt columns n i ->
  exists cs, column_at data i = Ok cs /\ Forall2 (fun r c => nth_error r i = Some c) data cs.
Proof.
  intros HR Hi. unfold column_at. induction data as [|r data IH].
  - exists []. split; [reflexivity|constructor].
  - destruct IH as (cs & E & F); [intros x Hx; apply HR; now right|].
    destruct (row_cell columns r n i (HR r (or_introl eq_refl)) Hi) as [c Hc].
    exists (c :: cs). simpl. unfold cell_at at 1. rewrite Hc. simpl. rewrite E. simpl.
    split; [reflexivity|constructor; assumption].
Qed.
Lemma forall2_in_l {A B} (P : A -> B -> Prop) l m x : Forall2 P l m -> In x l -> exists y, In y m /\ P x y.
Proof.
  induction 1 as [|a b l m H F IH]; intro K; [destruct K|]. destruct K as [<-|K].
  - exists b. split; [now left|exact H].
  - destruct (IH K) as (y & Hy & Py). exists y. split; [now right|exact Py].
Qed.
Lemma forall2_in_r {A B} (P : A -> B -> Prop) l m y : Forall2 P l m -> In y m -> exists x, In x l /\ P x y.
Proof.
  induction 1 as [|a b l m H F IH]; intro K; [destruct K|]. destruct K as [<-|K].
  - exists a. split; [now left|exact H].
  - destruct (IH K) as (x & Hx & Px). exists x. split; [now right|exact Px].
Qed.
Lemma cellof_fun columns r n a b : CellOf columns r n a -> CellOf columns r n b -> a = b.
Proof.
  intros (i & Hi & Ha) (j & Hj & Hb). rewrite (columnat_fun _ _ _ _ Hi Hj) in Ha. congruence.
Qed.

Section Result.
Context {A T : Type} (fields : list (string * (A -> Q))) (cases : row -> list A)
  (columns : list string) (fr : list (nat * row)) (line_type : string) (names : list string)
  (var : string) (vi : nat) (name : cell) (sel : T -> row -> res bool) (ts : list T) (G : T -> row -> Prop).
Hypothesis HL : In (line_type, names) moment_lines.
Hypothesis HS : SameFields names fields.
Hypothesis ND : NoDup (map fst fr).
Hypothesis HR : Rectangular (map snd fr) columns.
Hypothesis Hv : ColumnAt columns var vi.
Hypothesis Nv : ~ In var ("total" :: names).
Hypothesis Hsel : forall t x, In t ts -> In x fr -> exists b, sel t (snd x) = Ok b /\ (b = true <-> G t (snd x)).
Hypothesis Hsum : forall t x, In t ts -> In x fr -> G t (snd x) -> SummaryRow fields columns (cases (snd x)) (snd x).
Hypothesis Hsome : forall t, In t ts -> exists x, In x fr /\ G t (snd x).
Hypothesis Hnew : forall t r, In t ts -> length r = length columns -> CellOf columns r var name -> sel t r = Ok false.
Hypothesis Hdis : ForallOrdPairs (fun t u => forall x, In x fr -> G t (snd x) -> G u (snd x) -> False) ts.
Hypothesis Hzero : forall t x, In t (tl ts) -> In x fr -> G t (snd x) -> fst x <> O.

Lemma picks_iff t x : In t ts -> In x fr -> (picks sel t x = true <-> G t (snd x)).
Proof.
  intros Ht Hx. destruct (Hsel t x Ht Hx) as (b & E & H). unfold picks. rewrite E. exact H.
Qed.

Lemma result_row t : In t ts ->
  (exists agg, calc_series_sums columns (map snd (picked sel fr t)) line_type = Ok agg) /\
  let r := newrow columns line_type vi name sel fr t in
  length r = length columns /\ CellOf columns r var name /\
  SummaryRow fields columns (cases_of cases (picked sel fr t)) r /\
  Selection (fun y => G t (snd y)) fr (picked sel fr t) /\
  exists x, In x fr /\ G t (snd x) /\
    forall n y, n <> var -> ~ In n ("total" :: names) -> CellOf columns (snd x) n y -> CellOf columns r n y.
Proof.
  intro Ht. destruct (moment_names_ok _ _ HL) as (Nd & _ & _).
  assert (Hp : forall x, In x (picked sel fr t) -> In x fr /\ G t (snd x)).
  { intros x Hx. apply filter_In in Hx. destruct Hx as [Hx Px]. split; [exact Hx|]. now apply picks_iff. }
  assert (HSel : Selection (fun y => G t (snd y)) fr (picked sel fr t)).
  { apply selection_filter. intros x Hx. now apply picks_iff. }
  assert (Hne : picked sel fr t <> []).
  { destruct (Hsome t Ht) as (x & Hx & Gx). intro E.
    assert (K : In x (picked sel fr t)) by (apply filter_In; split; [exact Hx|now apply picks_iff]).
    rewrite E in K. destruct K. }
  assert (HSum : Summaries fields columns (map (fun x => cases (snd x)) (picked sel fr t)) (map snd (picked sel fr t))).
  { split; [destruct (picked sel fr t); [congruence|discriminate]|].
    assert (X : forall x, In x (picked sel fr t) -> SummaryRow fields columns (cases (snd x)) (snd x)).
    { intros x Hx. destruct (Hp x Hx). now apply (Hsum t). }
    clear - X. induction (picked sel fr t) as [|x l IH]; simpl; constructor; [apply X; now left|].
    apply IH. intros; apply X; now right. }
  destruct (pooled fields columns _ _ line_type names HL HS HSum) as (agg & Ea & M & G1 & G2).
  split; [eauto|]. intro r. unfold r, newrow. rewrite Ea.
  destruct (picked sel fr t) as [|[k r0] rest] eqn:Ep; [congruence|].
  assert (L0 : length r0 = length columns).
  { apply HR. apply in_map_iff. exists (k, r0). split; [reflexivity|]. apply (Hp (k, r0)). now left. }
  split; [rewrite set_nth_length; now apply write_length|].
  split; [now apply (new_var columns agg r0 vi var name)|].
  destruct HSum as [_ HF]. 
  assert (HF' := HF). simpl in HF'. inversion HF' as [|? ? ? ? R0 _]; subst.
  assert (Ht0 : In "total" columns).
  { destruct R0 as [_ _ (i & q & Hi & _) _]. apply (nth_error_In _ i). apply Hi. }
  split.
  - apply (new_summary fields columns agg r0 vi var name names); try assumption.
    + intros n Hn. split; [now apply HS|]. apply in_map_iff in Hn. destruct Hn as ([n' g] & X & Hin). simpl in X. subst n'.
      destruct R0 as [_ _ _ F0]. destruct (F0 n g Hin) as (i & q & Hi & _). apply (nth_error_In _ i). apply Hi.
    + unfold cases_of. simpl. destruct R0 as [_ Hb _ _]. simpl in Hb. destruct (cases r0); [congruence|discriminate].
  - split; [exact HSel|].
    exists (k, r0). destruct (Hp (k, r0) (or_introl eq_refl)) as [Hx Gx]. split; [exact Hx|]. split; [exact Gx|].
    intros n y Nn Nt Hy. apply (new_unchanged columns agg r0 vi var); try assumption. rewrite M. exact Nt.
Qed.

Lemma result_frame :
  foldM (fun t fr => aggregate_where columns line_type vi name (sel t) fr) ts fr =
  Ok (filter (unpicked sel ts) fr ++ map (fun t => (O, newrow columns line_type vi name sel fr t)) ts)%list.
Proof.
  pose proof (loop columns line_type vi name sel fr ND ts []) as L. cbn [app map] in L.
  rewrite app_nil_r in L. rewrite filter_all in L by reflexivity. apply L.
  - intros t x Ht Hx. destruct (Hsel t x Ht Hx) as (b & E & _). eauto.
  - intros t Ht. apply (result_row t Ht).
  - intros t u Ht Hu. destruct (result_row u Hu) as (_ & R1 & R2 & _). now apply Hnew.
  - assert (K : forall l, (forall t, In t l -> In t ts) ->
      ForallOrdPairs (fun t u => forall x, In x fr -> G t (snd x) -> G u (snd x) -> False) l ->
      ForallOrdPairs (fun t u => forall x, In x fr -> picks sel t x = true -> picks sel u x = true -> False) l).
    { intros l Hl F. induction F as [|t l HF F IH]; constructor.
      - apply Forall_forall. intros u Hu x Hx P1 P2. rewrite Forall_forall in HF.
        apply (HF u Hu x Hx); apply picks_iff; auto; apply Hl; simpl; auto.
      - apply IH. intros; apply Hl; now right. }
    apply K; [auto|exact Hdis].
  - intros t x Ht Hx Px. apply (Hzero t x Ht Hx). apply picks_iff; auto. destruct ts; [destruct Ht|now right].
Qed.

Lemma result_kept (P : row -> Prop) :
  (forall x, In x fr -> (P (snd x) <-> exists t, In t ts /\ G t (snd x))) ->
  Selection (fun x => ~ P (snd x)) fr (filter (unpicked sel ts) fr).
Proof.
  intro HP. apply selection_filter. intros x Hx. unfold unpicked. rewrite negb_true_iff.
  rewrite HP by exact Hx. split.
  - intros E (t & Ht & Gt). apply not_true_iff_false in E. apply E. apply existsb_exists. exists t.
    split; [exact Ht|now apply picks_iff].
  - intro N. apply not_true_iff_false. intro X. apply existsb_exists in X. destruct X as (t & Ht & Pt).
    apply N. exists t. split; [exact Ht|now apply picks_iff].
Qed.
End Result.

Lemma forall2_map_r {A B} (f : A -> B) (P : A -> B -> Prop) l : (forall x, In x l -> P x (f x)) -> Forall2 P l (map f l).
Proof.
  induction l as [|x l IH]; intro H; simpl; constructor; [apply H; now left|]. apply IH. intros; apply H; now right.
Qed.
Lemma cellof_row columns (r : row) n i : length r = length columns -> ColumnAt columns n i ->
  exists c, CellOf columns r n c /\ cell_at i r = Ok c.
Proof.
  intros L Hi. destruct (row_cell columns r n i L Hi) as [c Hc]. exists c. split; [exists i; auto|].
  unfold cell_at. now rewrite Hc.
Qed.
Lemma mem_iff' s l : mem s l = true <-> In s l.
Proof. apply mem_iff. Qed.

(** ** One joined value of a series variable *)
Lemma select_time_spec columns pi li vi var vals t (r : row) :
  ColumnAt columns "fcst_valid_beg" pi -> ColumnAt columns "fcst_lead" li -> ColumnAt columns var vi ->
  length r = length columns ->
  exists b, select_time pi li vi vals t r = Ok b /\
    (b = true <-> Member columns var vals r /\ TimeAt columns t r).
Proof.
  intros Hp Hl Hv L. unfold select_time.
  destruct (cellof_row columns r _ _ L Hp) as (p & Cp & Ep). destruct (cellof_row columns r _ _ L Hl) as (l & Cl & El).
  destruct (cellof_row columns r _ _ L Hv) as (v & Cv & Ev). rewrite Ep, El, Ev. cbn [bind].
  eexists. split; [reflexivity|]. rewrite !andb_true_iff, !cell_eqb_iff. split.
  - intros [[H1 H2] H3]. split.
    + destruct v as [q| |s]; try discriminate H3. exists s. split; [exact Cv|]. now apply mem_iff'.
    + split; [exists p|exists l]; auto.
  - intros [(s & Cs & Hs) [(p' & Cp' & Sp) (l' & Cl' & Sl)]].
    rewrite (cellof_fun _ _ _ _ _ Cp Cp'), (cellof_fun _ _ _ _ _ Cl Cl').
    rewrite (cellof_fun _ _ _ _ _ Cv Cs). simpl. split; [auto|]. now apply mem_iff'.
Qed.

Lemma foldM_ext {A B} (f g : B -> A -> res A) l : (forall x a, f x a = g x a) -> forall a, foldM f l a = foldM g l a.
Proof.
  intro H. induction l as [|x l IH]; intro a; simpl; [reflexivity|]. rewrite H. destruct (g x a); simpl; auto.
Qed.

Lemma head_time columns (x : nat * row) fr pcol lcol pi li :
  ColumnAt columns "fcst_valid_beg" pi -> ColumnAt columns "fcst_lead" li ->
  Forall2 (fun r c => nth_error r pi = Some c) (map snd (x :: fr)) pcol ->
  Forall2 (fun r c => nth_error r li = Some c) (map snd (x :: fr)) lcol ->
  exists p l tp tll, unique_cells pcol = p :: tp /\ unique_cells lcol = l :: tll /\
    CellOf columns (snd x) "fcst_valid_beg" p /\ CellOf columns (snd x) "fcst_lead" l.
Proof.
  intros Hp Hl Fp Fl. simpl in *. inversion Fp as [|? p ? ps Ep Fp']; subst. inversion Fl as [|? l ? ls El Fl']; subst.
  unfold unique_cells. simpl. do 4 eexists. split; [reflexivity|]. split; [reflexivity|].
  split; [exists pi|exists li]; auto.
Qed.

Lemma joined_frame A (fields : list (string * (A -> Q))) (cases : row -> list A)
    columns (fr : list (nat * row)) var vals joined line_type names :
  In (line_type, names) moment_lines -> SameFields names fields ->
  Ascending fr -> Rectangular (map snd fr) columns -> NoDup columns ->
  In "fcst_valid_beg" columns -> In "fcst_lead" columns -> In var columns ->
  ~ In var ("total" :: "fcst_valid_beg" :: "fcst_lead" :: names) ->
  Joined vals joined ->
  (forall x, In x fr -> Member columns var vals (snd x) ->
     SummaryRow fields columns (cases (snd x)) (snd x)) ->
  (forall x y, In x fr -> In y fr -> exists z v l, In z fr /\ Member columns var vals (snd z) /\
     CellOf columns (snd x) "fcst_valid_beg" v /\ CellOf columns (snd y) "fcst_lead" l /\
     TimeAt columns (v, l) (snd z)) ->
  exists kept new times,
    aggregate_field_values [(var, [joined])] columns fr line_type = Ok (kept ++ new)%list /\
    Selection (fun x => ~ Member columns var vals (snd x)) fr kept /\
    Pairwise DifferentTimes times /\
    (forall x, In x fr -> exists t, In t times /\ TimeAt columns t (snd x)) /\
    Forall2 (fun t x =>
        TimeAt columns t (snd x) /\ CellOf columns (snd x) var (CStr joined) /\
        exists rows, Selection (fun y => Member columns var vals (snd y) /\ TimeAt columns t (snd y)) fr rows /\
          SummaryRow fields columns (cases_of cases rows) (snd x)) times new.
Proof.
  intros HL HS HA HR _ Cp Cl Cv Nv HJ Hsum Hall.
  destruct (in_columnat _ _ Cp) as [pi Hp]. destruct (in_columnat _ _ Cl) as [li Hl]. destruct (in_columnat _ _ Cv) as [vi Hv].
  destruct (joined_has _ _ HJ) as (J1 & J2 & J3).
  destruct (moment_names_ok _ _ HL) as (Nd & N1 & N2).
  assert (Nvl : String.eqb var "fcst_lead" = false).
  { destruct (String.eqb_spec var "fcst_lead") as [->|]; [|reflexivity]. destruct Nv. simpl. tauto. }
  destruct (column_cells (map snd fr) columns _ _ HR Hp) as (pcol & Ep & Fp).
  destruct (column_cells (map snd fr) columns _ _ HR Hl) as (lcol & El & Fl).
  assert (HRx : forall x, In x fr -> length (snd x) = length columns) by (intros x Hx; apply HR; now apply in_map).
  set (times := list_prod (unique_cells pcol) (unique_cells lcol)).
  set (sel := select_time pi li vi vals).
  set (G := fun t r => Member columns var vals r /\ TimeAt columns t r).
  assert (HD : ForallOrdPairs DifferentTimes times) by (apply different_times; apply unique_from_distinct).
  assert (HC : forall x, In x fr -> exists t, In t times /\ TimeAt columns t (snd x)).
  { intros x Hx. destruct (Hall x x Hx Hx) as (z & v & l & Hz & _ & Cv' & Cl' & (c1 & _ & S1) & (c2 & _ & S2)). simpl in *.
    destruct (forall2_in_l _ _ _ _ Fp (in_map snd _ _ Hx)) as (v' & Hv' & Ev').
    destruct (forall2_in_l _ _ _ _ Fl (in_map snd _ _ Hx)) as (l' & Hl' & El').
    assert (v' = v) as -> by (eapply cellof_fun; [exists pi; split; eassumption|exact Cv']).
    assert (l' = l) as -> by (eapply cellof_fun; [exists li; split; eassumption|exact Cl']).
    destruct (unique_cover pcol v Hv') as (u & Hu & Su); [intros ->; destruct c1; exact S1|].
    destruct (unique_cover lcol l Hl') as (w & Hw & Sw); [intros ->; destruct c2; exact S2|].
    exists (u, w). split; [apply in_prod; assumption|]. split; [exists v|exists l]; auto. }
  assert (HT : forall t, In t times -> exists x y, In x fr /\ In y fr /\
     CellOf columns (snd x) "fcst_valid_beg" (fst t) /\ CellOf columns (snd y) "fcst_lead" (snd t)).
  { intros [v l] Ht. apply in_prod_iff in Ht. destruct Ht as [H1 H2].
    apply unique_from_in in H1. apply unique_from_in in H2.
    destruct (forall2_in_r _ _ _ _ Fp (proj1 H1)) as (r1 & R1 & E1). destruct (forall2_in_r _ _ _ _ Fl (proj1 H2)) as (r2 & R2 & E2).
    apply in_map_iff in R1. destruct R1 as (x & <- & Hx). apply in_map_iff in R2. destruct R2 as (y & <- & Hy).
    exists x, y. split; [exact Hx|]. split; [exact Hy|]. split; [exists pi|exists li]; auto. }
  assert (Hsel : forall t x, In t times -> In x fr -> exists b, sel t (snd x) = Ok b /\ (b = true <-> G t (snd x))).
  { intros t x _ Hx. apply (select_time_spec columns); auto. }
  assert (Hs : forall t x, In t times -> In x fr -> G t (snd x) -> SummaryRow fields columns (cases (snd x)) (snd x)).
  { intros t x _ Hx [Hm _]. auto. }
  assert (Hsome : forall t, In t times -> exists x, In x fr /\ G t (snd x)).
  { intros t Ht. destruct (HT t Ht) as (x & y & Hx & Hy & C1 & C2).
    destruct (Hall x y Hx Hy) as (z & v & l & Hz & Hm & C1' & C2' & Tz).
    rewrite (cellof_fun _ _ _ _ _ C1' C1), (cellof_fun _ _ _ _ _ C2' C2) in Tz.
    exists z. split; [exact Hz|]. split; [exact Hm|]. destruct t; exact Tz. }
  assert (Hnew : forall t r, In t times -> length r = length columns -> CellOf columns r var (CStr joined) -> sel t r = Ok false).
  { intros t r _ L C. destruct (select_time_spec columns pi li vi var vals t r Hp Hl Hv L) as (b & E & H).
    unfold sel. rewrite E. destruct b; [|reflexivity]. destruct (proj1 H eq_refl) as [(s & Cs & Hs') _].
    assert (X := cellof_fun _ _ _ _ _ Cs C). injection X as ->. contradiction. }
  assert (Hdis : ForallOrdPairs (fun t u => forall x, In x fr -> G t (snd x) -> G u (snd x) -> False) times).
  { eapply fop_weaken; [|exact HD]. intros t u D x _ [_ [(a & Ca & Sa) (b & Cb & Sb)]] [_ [(a' & Ca' & Sa') (b' & Cb' & Sb')]].
    rewrite (cellof_fun _ _ _ _ _ Ca' Ca) in Sa'. rewrite (cellof_fun _ _ _ _ _ Cb' Cb) in Sb'.
    apply D. split; eapply same_cell_trans; try eassumption; now apply same_cell_sym. }
  assert (Hzero : forall t x, In t (tl times) -> In x fr -> G t (snd x) -> fst x <> O).
  { intros t x Ht Hx [_ [(a & Ca & Sa) (b & Cb & Sb)]] E0.
    destruct fr as [|x0 fr']; [destruct Hx|].
    assert (x = x0) as -> by (eapply ascending_zero; eassumption).
    destruct (head_time columns x0 fr' pcol lcol pi li Hp Hl Fp Fl) as (p & l & tp & tll & U1 & U2 & C1 & C2).
    unfold times in *. rewrite U1, U2 in *. cbn [list_prod map app tl] in Ht.
    cbn [list_prod map app] in HD. inversion HD as [|? ? HF _]; subst. rewrite Forall_forall in HF.
    specialize (HF t Ht). apply HF. simpl.
    rewrite (cellof_fun _ _ _ _ _ C1 Ca), (cellof_fun _ _ _ _ _ C2 Cb). auto. }
  assert (Nv' : ~ In var ("total" :: names)) by (simpl in *; tauto).
  pose proof (result_frame fields cases columns fr line_type names var vi (CStr joined) sel times G
    HL HS (ascending_nodup fr HA) HR Hv Nv' Hsel Hs Hsome Hnew Hdis Hzero) as E.
  exists (filter (unpicked sel times) fr), (map (fun t => (O, newrow columns line_type vi (CStr joined) sel fr t)) times), times.
  split.
  - unfold aggregate_field_values.
    rewrite (proj2 (index_of_ColumnAt _ _ _) Hp), (proj2 (index_of_ColumnAt _ _ _) Hl), Ep, El. cbn [bind foldM].
    rewrite J1. unfold aggregate_value. rewrite J2, Nvl.
    rewrite (foldM_ext _ (fun t fr => aggregate_where columns line_type vi (CStr joined) (sel t) fr)).
    + fold times. rewrite E. reflexivity.
    + intros t a. rewrite (proj2 (index_of_ColumnAt _ _ _) Hv). reflexivity.
  - split; [|split; [exact HD|split; [exact HC|]]].
    + apply (result_kept fr sel times G Hsel). intros x Hx. split.
      * intro Hm. destruct (HC x Hx) as (t & Ht & Tt). exists t. split; [exact Ht|split; assumption].
      * intros (t & _ & Hm & _). exact Hm.
    + apply forall2_map_r. intros t Ht. cbn [snd].
      destruct (result_row fields cases columns fr line_type names var vi (CStr joined) sel times G
        HL HS HR Hv Nv' Hsel Hs Hsome t Ht) as (_ & R1 & R2 & R3 & R4 & x & Hx & [Gm Gt] & R5).
      split; [|split; [exact R2|exists (picked sel fr t); split; [exact R4|exact R3]]].
      destruct Gt as [(a & Ca & Sa) (b & Cb & Sb)].
      split; [exists a|exists b]; (split; [|assumption]); apply R5; try assumption;
        intro X; subst var; apply Nv; simpl; tauto.
Qed.

(** ** Joined lead times *)
Lemma lead_values_ok vals spelled leads :
  Selection (fun s => s <> "") vals spelled -> Forall2 WholeNumber spelled leads -> lead_values vals = Ok leads.
Proof.
  intro S. revert leads. induction S as [|s vals spelled N S IH|s vals spelled N S IH]; intros leads F.
  - inversion F. reflexivity.
  - inversion F as [|? z ? leads' W F']; subst. simpl. destruct (String.eqb_spec s "") as [E|_]; [contradiction|].
    apply parse_int_iff in W. rewrite W, (IH _ F'). reflexivity.
  - simpl. destruct (String.eqb_spec s "") as [_|E]; [apply IH; exact F|contradiction].
Qed.
Lemma lead_values_bad vals s : In s vals -> s <> "" -> (forall z, ~ WholeNumber s z) -> lead_values vals = Err ValueError.
Proof.
  intros H N B. induction vals as [|v vals IH]; [destruct H|]. simpl. destruct H as [->|H].
  - destruct (String.eqb_spec s "") as [E|_]; [contradiction|].
    destruct (parse_int s) as [z|] eqn:E; [exfalso; apply parse_int_iff in E; exact (B z E)|reflexivity].
  - destruct (String.eqb_spec v "") as [_|_]; [exact (IH H)|]. destruct (parse_int v); [|reflexivity].
    rewrite (IH H). reflexivity.
Qed.
Lemma select_leads_spec columns pi li leads t (r : row) :
  ColumnAt columns "fcst_valid_beg" pi -> ColumnAt columns "fcst_lead" li -> length r = length columns ->
  exists b, select_leads pi li leads t r = Ok b /\
    (b = true <-> LeadMember columns leads r /\ ValidAt columns t r).
Proof.
  intros Hp Hl L. unfold select_leads.
  destruct (cellof_row columns r _ _ L Hp) as (p & Cp & Ep). destruct (cellof_row columns r _ _ L Hl) as (l & Cl & El).
  rewrite Ep, El. cbn [bind]. eexists. split; [reflexivity|]. rewrite andb_true_iff, cell_eqb_iff. split.
  - intros [H1 H2]. split; [|exists p; auto]. destruct l as [q| |s]; try discriminate H2. simpl in H2.
    apply existsb_exists in H2. destruct H2 as (z & Hz & Ez). exists z. split; [exact Hz|]. exists (CNum q).
    split; [exact Cl|]. simpl. now apply Qeq_bool_iff.
  - intros [(z & Hz & (c & Cc & Sc)) (p' & Cp' & Sp)].
    rewrite (cellof_fun _ _ _ _ _ Cp Cp'). split; [exact Sp|]. rewrite (cellof_fun _ _ _ _ _ Cl Cc).
    destruct c as [q| |s]; simpl in Sc; try contradiction. simpl. apply existsb_exists. exists z. split; [exact Hz|].
    now apply Qeq_bool_iff.
Qed.

Lemma joined_leads_frame A (fields : list (string * (A -> Q))) (cases : row -> list A)
    columns (fr : list (nat * row)) vals spelled leads joined line_type names :
  In (line_type, names) moment_lines -> SameFields names fields ->
  Ascending fr -> Rectangular (map snd fr) columns -> NoDup columns ->
  In "fcst_valid_beg" columns -> In "fcst_lead" columns ->
  Joined vals joined -> Selection (fun s => s <> "") vals spelled -> Forall2 WholeNumber spelled leads ->
  (forall x, In x fr -> LeadMember columns leads (snd x) ->
     SummaryRow fields columns (cases (snd x)) (snd x)) ->
  (forall x, In x fr -> exists z v, In z fr /\ LeadMember columns leads (snd z) /\
     CellOf columns (snd x) "fcst_valid_beg" v /\ ValidAt columns v (snd z)) ->
  exists kept new valids,
    aggregate_field_values [("fcst_lead", [joined])] columns fr line_type = Ok (kept ++ new)%list /\
    Selection (fun x => ~ LeadMember columns leads (snd x)) fr kept /\
    Pairwise (fun v w => ~ SameCell v w) valids /\
    (forall x, In x fr -> exists v, In v valids /\ ValidAt columns v (snd x)) /\
    Forall2 (fun v x =>
        ValidAt columns v (snd x) /\ CellOf columns (snd x) "fcst_lead" (CStr (hd "" vals)) /\
        exists rows, Selection (fun y => LeadMember columns leads (snd y) /\ ValidAt columns v (snd y)) fr rows /\
          SummaryRow fields columns (cases_of cases rows) (snd x)) valids new.
Proof.
  intros HL HS HA HR _ Cp Cl HJ HB HW Hsum Hall.
  destruct (in_columnat _ _ Cp) as [pi Hp]. destruct (in_columnat _ _ Cl) as [li Hl].
  destruct (joined_has _ _ HJ) as (J1 & J2 & J3).
  destruct (moment_names_ok _ _ HL) as (Nd & N1 & N2).
  destruct (column_cells (map snd fr) columns _ _ HR Hp) as (pcol & Ep & Fp).
  destruct (column_cells (map snd fr) columns _ _ HR Hl) as (lcol & El & Fl).
  assert (HRx : forall x, In x fr -> length (snd x) = length columns) by (intros x Hx; apply HR; now apply in_map).
  set (times := unique_cells pcol). set (lab := CStr (hd "" vals)).
  set (sel := select_leads pi li leads).
  set (G := fun t r => LeadMember columns leads r /\ ValidAt columns t r).
  assert (HD : ForallOrdPairs (fun v w => ~ SameCell v w) times).
  { eapply fop_weaken; [|apply unique_from_distinct]. intros a b E H. cbv beta in E.
    rewrite (same_value_cell b a (same_cell_sym _ _ H)) in E. discriminate. }
  assert (HC : forall x, In x fr -> exists t, In t times /\ ValidAt columns t (snd x)).
  { intros x Hx. destruct (Hall x Hx) as (z & v & Hz & _ & Cv' & (c1 & _ & S1)).
    destruct (forall2_in_l _ _ _ _ Fp (in_map snd _ _ Hx)) as (v' & Hv' & Ev').
    assert (v' = v) as -> by (eapply cellof_fun; [exists pi; split; eassumption|exact Cv']).
    destruct (unique_cover pcol v Hv') as (u & Hu & Su); [intros ->; destruct c1; exact S1|].
    exists u. split; [exact Hu|]. exists v; auto. }
  assert (HT : forall t, In t times -> exists x, In x fr /\ CellOf columns (snd x) "fcst_valid_beg" t).
  { intros t Ht. apply unique_from_in in Ht.
    destruct (forall2_in_r _ _ _ _ Fp (proj1 Ht)) as (r1 & R1 & E1).
    apply in_map_iff in R1. destruct R1 as (x & <- & Hx). exists x. split; [exact Hx|]. exists pi; auto. }
  assert (Hsel : forall t x, In t times -> In x fr -> exists b, sel t (snd x) = Ok b /\ (b = true <-> G t (snd x))).
  { intros t x _ Hx. apply (select_leads_spec columns); auto. }
  assert (Hs : forall t x, In t times -> In x fr -> G t (snd x) -> SummaryRow fields columns (cases (snd x)) (snd x)).
  { intros t x _ Hx [Hm _]. auto. }
  assert (Hsome : forall t, In t times -> exists x, In x fr /\ G t (snd x)).
  { intros t Ht. destruct (HT t Ht) as (x & Hx & C1).
    destruct (Hall x Hx) as (z & v & Hz & Hm & C1' & Tz).
    rewrite (cellof_fun _ _ _ _ _ C1' C1) in Tz. exists z. split; [exact Hz|]. split; assumption. }
  assert (Hnew : forall t r, In t times -> length r = length columns -> CellOf columns r "fcst_lead" lab -> sel t r = Ok false).
  { intros t r _ L C. destruct (select_leads_spec columns pi li leads t r Hp Hl L) as (b & E & H).
    unfold sel. rewrite E. destruct b; [|reflexivity]. destruct (proj1 H eq_refl) as [(z & Hz & (c & Cc & Sc)) _].
    rewrite (cellof_fun _ _ _ _ _ Cc C) in Sc. destruct Sc. }
  assert (Hdis : ForallOrdPairs (fun t u => forall x, In x fr -> G t (snd x) -> G u (snd x) -> False) times).
  { eapply fop_weaken; [|exact HD]. intros t u D x _ [_ (a & Ca & Sa)] [_ (a' & Ca' & Sa')].
    rewrite (cellof_fun _ _ _ _ _ Ca' Ca) in Sa'. apply D. eapply same_cell_trans; [apply same_cell_sym|]; eassumption. }
  assert (Hzero : forall t x, In t (tl times) -> In x fr -> G t (snd x) -> fst x <> O).
  { intros t x Ht Hx [_ (a & Ca & Sa)] E0.
    destruct fr as [|x0 fr']; [destruct Hx|].
    assert (x = x0) as -> by (eapply ascending_zero; eassumption).
    destruct (head_time columns x0 fr' pcol lcol pi li Hp Hl Fp Fl) as (p & l & tp & tll & U1 & _ & C1 & _).
    unfold times in *. rewrite U1 in *. cbn [tl] in Ht. inversion HD as [|? ? HF _]; subst. rewrite Forall_forall in HF.
    specialize (HF t Ht). apply HF. rewrite (cellof_fun _ _ _ _ _ C1 Ca). exact Sa. }
  pose proof (result_frame fields cases columns fr line_type names "fcst_lead" li lab sel times G
    HL HS (ascending_nodup fr HA) HR Hl N2 Hsel Hs Hsome Hnew Hdis Hzero) as E.
  exists (filter (unpicked sel times) fr), (map (fun t => (O, newrow columns line_type li lab sel fr t)) times), times.
  split.
  - unfold aggregate_field_values.
    rewrite (proj2 (index_of_ColumnAt _ _ _) Hp), (proj2 (index_of_ColumnAt _ _ _) Hl), Ep, El. cbn [bind foldM].
    rewrite J1. unfold aggregate_value. rewrite J2. change (String.eqb "fcst_lead" "fcst_lead") with true. cbv iota.
    rewrite (foldM_ext _ (fun t fr => aggregate_where columns line_type li lab (sel t) fr)).
    + fold times. rewrite E. reflexivity.
    + intros t a. rewrite (lead_values_ok vals spelled leads HB HW). cbn [bind].
      rewrite (proj2 (index_of_ColumnAt _ _ _) Hl). reflexivity.
  - split; [|split; [exact HD|split; [exact HC|]]].
    + apply (result_kept fr sel times G Hsel). intros x Hx. split.
      * intro Hm. destruct (HC x Hx) as (t & Ht & Tt). exists t. split; [exact Ht|split; assumption].
      * intros (t & _ & Hm & _). exact Hm.
    + apply forall2_map_r. intros t Ht. cbn [snd].
      destruct (result_row fields cases columns fr line_type names "fcst_lead" li lab sel times G
        HL HS HR Hl N2 Hsel Hs Hsome t Ht) as (_ & R1 & R2 & R3 & R4 & x & Hx & [Gm Gt] & R5).
      split; [|split; [exact R2|exists (picked sel fr t); split; [exact R4|exact R3]]].
      destruct Gt as (a & Ca & Sa). exists a. split; [|exact Sa]. apply R5; [discriminate|exact N1|exact Ca].
Qed.

(** ** A time without lines *)
Lemma foldM_err {A B} (I : A -> Prop) (f : B -> A -> res A) t l :
  (forall x a a', I a -> f x a = Ok a' -> I a') -> In t l -> (forall a, I a -> exists e, f t a = Err e) ->
  forall a, I a -> exists e, foldM f l a = Err e.
Proof.
  intros HI. induction l as [|x l IH]; intros Ht HE a Ha; [destruct Ht|]. simpl.
  destruct Ht as [->|Ht].
  - destruct (HE a Ha) as [e ->]. simpl. eauto.
  - destruct (f x a) as [a'|e] eqn:E; simpl; [|eauto]. apply IH; auto. eapply HI; eassumption.
Qed.
Lemma unique_from_cover' l : forall seen c, In c l ->
  (exists u, In u (unique_from seen l) /\ same_value c u = true) \/ (exists u, In u seen /\ same_value c u = true).
Proof.
  assert (SR : forall a, same_value a a = true).
  { intro a. destruct a; simpl; [apply Qeq_bool_iff; reflexivity|reflexivity|apply String.eqb_refl]. }
  induction l as [|x l IH]; intros seen c H; simpl in *; [destruct H|].
  destruct (existsb (same_value x) seen) eqn:E.
  - destruct H as [->|H]; [|now apply IH]. apply existsb_exists in E. destruct E as (u & Hu & Eu). right. eauto.
  - destruct H as [->|H].
    + left. exists c. split; [left; reflexivity|apply SR].
    + destruct (IH (x :: seen) c H) as [(u & Hu & Su)|(u & [<-|Hu] & Su)].
      * left. exists u. split; [right; exact Hu|exact Su].
      * left. exists x. split; [left; reflexivity|exact Su].
      * right. eauto.
Qed.
Lemma same_value_through v u c : same_value v u = true -> SameCell c u -> SameCell c v.
Proof.
  intros E S. assert (K : SameCell v u).
  { apply cell_eqb_iff. destruct v, u, c; simpl in *; try contradiction; congruence. }
  eapply same_cell_trans; [exact S|]. now apply same_cell_sym.
Qed.

Lemma incomplete columns (fr : list (nat * row)) var vals joined line_type x y v l :
  In line_type known_lines ->
  Rectangular (map snd fr) columns -> var <> "fcst_lead" -> Joined vals joined ->
  In x fr -> In y fr ->
  CellOf columns (snd x) "fcst_valid_beg" v -> CellOf columns (snd y) "fcst_lead" l ->
  (forall z, In z fr -> Member columns var vals (snd z) -> ~ TimeAt columns (v, l) (snd z)) ->
  exists e, aggregate_field_values [(var, [joined])] columns fr line_type = Err e.
Proof.
  intros HL HR Nv HJ Hx Hy (pi & Hp & Ex) (li & Hl & Ey) Hno.
  destruct (joined_has _ _ HJ) as (J1 & J2 & J3).
  destruct (column_cells (map snd fr) columns _ _ HR Hp) as (pcol & Ep & Fp).
  destruct (column_cells (map snd fr) columns _ _ HR Hl) as (lcol & El & Fl).
  unfold aggregate_field_values.
  rewrite (proj2 (index_of_ColumnAt _ _ _) Hp), (proj2 (index_of_ColumnAt _ _ _) Hl), Ep, El. cbn [bind foldM].
  rewrite J1. unfold aggregate_value. rewrite J2.
  destruct (String.eqb_spec var "fcst_lead") as [X|_]; [contradiction|].
  assert (Vu : exists u, In u (unique_cells pcol) /\ same_value v u = true).
  { destruct (forall2_in_l _ _ _ _ Fp (in_map snd _ _ Hx)) as (c & Hc & Ec).
    assert (c = v) as -> by congruence.
    destruct (unique_from_cover' pcol [] v Hc) as [X|(u & [] & _)]. exact X. }
  assert (Lu : exists u, In u (unique_cells lcol) /\ same_value l u = true).
  { destruct (forall2_in_l _ _ _ _ Fl (in_map snd _ _ Hy)) as (c & Hc & Ec).
    assert (c = l) as -> by congruence.
    destruct (unique_from_cover' lcol [] l Hc) as [X|(u & [] & _)]. exact X. }
  destruct Vu as (u & Hu & Su). destruct Lu as (w & Hw & Sw).
  apply bind_err. apply bind_err.
  set (I := fun f : list (nat * row) => forall z, In z f -> length (snd z) = length columns /\
     (In (snd z) (map snd fr) \/ CellOf columns (snd z) var (CStr joined))).
  apply (foldM_err I _ (u, w)).
  - intros t a a' Ia E. destruct (index_of var columns) as [vi|] eqn:Ev; [|discriminate E].
    apply index_of_ColumnAt in Ev. unfold aggregate_where in E.
    destruct (filterM _ a) as [s|] eqn:Es; [|discriminate E]. cbn [bind] in E.
    destruct (calc_series_sums _ _ _) as [agg|]; [|discriminate E]. cbn [bind] in E. injection E as <-.
    assert (Hs : forall z, In z s -> In z a).
    { clear - Es. revert s Es. induction a as [|b a IH]; intros s Es z Hz; simpl in Es.
      - injection Es as <-. destruct Hz.
      - destruct (select_time _ _ _ _ _ _) as [[|]|]; try discriminate Es; cbn [bind] in Es;
          destruct (filterM _ a) as [s'|] eqn:E'; try discriminate Es; cbn [bind] in Es; injection Es as <-.
        + destruct Hz as [->|Hz]; [now left|right; eapply IH; [reflexivity|exact Hz]].
        + right. eapply IH; [reflexivity|exact Hz]. }
    intros z Hz. apply in_app_or in Hz. destruct Hz as [Hz|[<-|[]]].
    + apply filter_In in Hz. apply Ia. apply Hz.
    + cbn [snd]. set (base := match s with [] => _ | _ => _ end).
      assert (Lb : length base = length columns).
      { unfold base. destruct s as [|[k r] s]; [apply repeat_length|]. apply (Ia (k, r)). apply Hs. now left. }
      split; [rewrite set_nth_length; now apply write_length|]. right. now apply new_var.
  - apply in_prod; assumption.
  - intros a Ia. destruct (index_of var columns) as [vi|] eqn:Ev; [|eauto].
    apply index_of_ColumnAt in Ev. unfold aggregate_where.
    rewrite (filterM_ok _ (fun _ => false)).
    + assert (X : filter (fun _ : nat * row => false) a = []) by (clear; induction a; simpl; auto).
      rewrite X. cbn [bind map]. apply bind_err. now apply sums_empty.
    + intros z Hz. destruct (Ia z Hz) as [L [Hin|Hc]].
      * destruct (select_time_spec columns pi li vi var vals (u, w) (snd z) Hp Hl Ev L) as (b & E & H).
        rewrite E. destruct b; [|reflexivity]. exfalso. destruct (proj1 H eq_refl) as [Hm [(c & Cc & Sc) (d & Cd & Sd)]].
        apply in_map_iff in Hin. destruct Hin as (z' & Ez & Hz'). rewrite <- Ez in *.
        apply (Hno z' Hz' Hm). split; [exists c|exists d]; (split; [assumption|]); simpl in *.
        -- now apply (same_value_through v u).
        -- now apply (same_value_through l w).
      * destruct (select_time_spec columns pi li vi var vals (u, w) (snd z) Hp Hl Ev L) as (b & E & H).
        rewrite E. destruct b; [|reflexivity]. exfalso. destruct (proj1 H eq_refl) as [(s & Cs & Hs) _].
        assert (X := cellof_fun _ _ _ _ _ Cs Hc). injection X as ->. contradiction.
  - intros z Hz. split; [apply HR; now apply in_map|]. left. now apply in_map.
Qed.

(** Cells of literal rows. *)
Lemma nodup_cell columns r n v :
  (nodupb columns && match index_of n columns with
   | Some i => match nth_error r i with Some (CNum q) => Qeq_bool q v | _ => false end
   | None => false end) = true -> CellHolds columns r n v.
Proof.
  intro H. apply andb_prop in H. destruct H as [_ H]. destruct (index_of n columns) as [i|] eqn:E; [|discriminate].
  destruct (nth_error r i) as [[q| |]|] eqn:Er; try discriminate. exists i, q.
  split; [now apply index_of_ColumnAt|]. split; [exact Er|]. now apply Qeq_bool_iff.
Qed.
Lemma ex_summary (k : nat) v l m f o :
  SummaryRow ex_fields ex_columns (ex_cases (snd (k, ex_row v l m [(f, o)]))) (snd (k, ex_row v l m [(f, o)])).
Proof.
  cbn [snd]. assert (C : forall (g h : Q * Q -> Q) i n, ColumnAt ex_columns n i ->
    nth_error (ex_row v l m [(f, o)]) i = Some (CNum (mean_of g [(f, o)])) -> g (mean_of fst [(f, o)], mean_of snd [(f, o)]) == g (f, o) ->
    CellHolds ex_columns (ex_row v l m [(f, o)]) n (mean_of g [(mean_of fst [(f, o)], mean_of snd [(f, o)])])).
  { intros g _ i n Hi Hn E. exists i. eexists. split; [exact Hi|]. split; [exact Hn|].
    unfold mean_of at 1 2, total_of, count. simpl. rewrite E. reflexivity. }
  assert (N : forall i n, nth_error ex_columns i = Some n -> ColumnAt ex_columns n i).
  { intros. apply nodup_columnat; [apply nodupb_ok; reflexivity|assumption]. }
  assert (F : mean_of fst [(f, o)] == f) by (unfold mean_of, total_of, count; simpl; field).
  assert (O : mean_of snd [(f, o)] == o) by (unfold mean_of, total_of, count; simpl; field).
  change (ex_cases (ex_row v l m [(f, o)])) with [(mean_of fst [(f, o)], mean_of snd [(f, o)])].
  constructor.
  - reflexivity.
  - discriminate.
  - exists 3%nat, (count [(f, o)]). split; [now apply N|]. split; reflexivity.
  - intros name g H. simpl in H.
    destruct H as [H|[H|[H|[H|[H|[]]]]]]; injection H as <- <-.
    + apply (C fst fst 4%nat); [now apply N|reflexivity|exact F].
    + apply (C snd snd 5%nat); [now apply N|reflexivity|exact O].
    + apply (C (fun p => fst p * snd p) fst 6%nat); [now apply N|reflexivity|]. cbn [fst snd]. rewrite F, O. reflexivity.
    + apply (C (fun p => fst p * fst p) fst 7%nat); [now apply N|reflexivity|]. cbn [fst snd]. rewrite F. reflexivity.
    + apply (C (fun p => snd p * snd p) fst 8%nat); [now apply N|reflexivity|]. cbn [fst snd]. rewrite O. reflexivity.
Qed.

Lemma bad_lead columns (fr : list (nat * row)) vals joined line_type s x :
  Rectangular (map snd fr) columns -> In "fcst_valid_beg" columns -> In "fcst_lead" columns ->
  Joined vals joined -> In x fr -> (exists v, CellOf columns (snd x) "fcst_valid_beg" v /\ v <> CMiss) ->
  In s vals -> s <> "" -> (forall z, ~ WholeNumber s z) ->
  aggregate_field_values [("fcst_lead", [joined])] columns fr line_type = Err ValueError.
Proof.
  intros HR Cp Cl HJ Hx (v & Cv & Nv) Hs N B.
  destruct (in_columnat _ _ Cp) as [pi Hp]. destruct (in_columnat _ _ Cl) as [li Hl].
  destruct (joined_has _ _ HJ) as (J1 & J2 & J3).
  destruct (column_cells (map snd fr) columns _ _ HR Hp) as (pcol & Ep & Fp).
  destruct (column_cells (map snd fr) columns _ _ HR Hl) as (lcol & El & Fl).
  assert (exists u, In u (unique_cells pcol)) as [u Hu].
  { destruct (forall2_in_l _ _ _ _ Fp (in_map snd _ _ Hx)) as (v' & Hv' & Ev').
    assert (v' = v) as -> by (eapply cellof_fun; [exists pi; split; eassumption|exact Cv]).
    destruct (unique_cover pcol v Hv' Nv) as (u & Hu & _). exists u. exact Hu. }
  unfold aggregate_field_values.
  rewrite (proj2 (index_of_ColumnAt _ _ _) Hp), (proj2 (index_of_ColumnAt _ _ _) Hl), Ep, El. cbn [bind foldM].
  rewrite J1. unfold aggregate_value. rewrite J2. change (String.eqb "fcst_lead" "fcst_lead") with true. cbv iota.
  destruct (unique_cells pcol) as [|t ts]; [destruct Hu|]. cbn [foldM].
  rewrite (lead_values_bad _ _ Hs N B). reflexivity.
Qed.

(** The statements of PropertiesSum.v. *)
Lemma C38_pooled_proof : forall A (fields : list (string * (A -> Q))) columns groups data line_type names,
  In (line_type, names) moment_lines -> SameFields names fields ->
  Summaries fields columns groups data ->
  exists agg, calc_series_sums columns data line_type = Ok agg /\
    map fst agg = "total" :: names /\
    Gives agg "total" (count (concat groups)) /\
    forall name g, In (name, g) fields -> Gives agg name (mean_of g (concat groups)).
Proof.
  intros A fields columns groups data lt names. apply pooled.
Qed.

Lemma C38_pooled_case_proof : exists groups data,
  length groups = 2%nat /\ In ("sl1l2", map fst ex_fields) moment_lines /\
  Summaries ex_fields (line_columns ex_fields) groups data.
Proof.
  exists [[(1, 2)]; [(3, 4); (5, 6)]]. eexists. split; [reflexivity|]. split; [left; reflexivity|].
  apply lines_summaries; [apply nodupb_ok; reflexivity|discriminate|].
  intros b [<-|[<-|[]]]; discriminate.
Qed.

Lemma C38_neighbourhood_proof : forall columns groups data,
  groups <> [] -> Forall2 (NbrRow columns) groups data ->
  (forall b, In b groups -> ~ mean_of square_diff b == 0) ->
  let all := concat groups in
  let f := mean_of fst all in
  let o := mean_of snd all in
  ~ f * f + o * o == 0 ->
  exists agg, calc_series_sums columns data "nbrcnt" = Ok agg /\
    map fst agg = ["total"; "fbs"; "fss"; "afss"; "ufss"; "f_rate"; "o_rate"] /\
    Gives agg "total" (count all) /\
    Gives agg "fbs" (mean_of square_diff all) /\
    Gives agg "fss" (1 - mean_of square_diff all / mean_of square_sum all) /\
    Gives agg "f_rate" f /\ Gives agg "o_rate" o /\
    Gives agg "afss" (2 * f * o / (f * f + o * o)) /\
    Gives agg "ufss" ((1 # 2) + o / 2).
Proof.
  exact nbr_sums.
Qed.

Lemma C38_neighbourhood_case_proof :
  Forall2 (NbrRow ["total"; "fbs"; "f_rate"; "o_rate"; "fss"])
    [[(1, 0)]; [(1, 1); (1 # 2, 0)]]
    [[CNum 1; CNum 1; CNum 1; CNum 0; CNum 0]; [CNum 2; CNum (1 # 8); CNum (3 # 4); CNum (1 # 2); CNum (8 # 9)]].
Proof.
  repeat constructor; try discriminate; try (intros X; vm_compute in X; discriminate X);
  try (now apply nodup_cell; vm_compute);
  try (intros name g [X|[X|[X|[]]]]; injection X as <- <-; now apply nodup_cell; vm_compute).
Qed.

Lemma C38_perfect_line_refuted_proof : exists columns groups data agg v,
  groups <> [] /\ Forall2 (NbrRow columns) groups data /\
  calc_series_sums columns data "nbrcnt" = Ok agg /\
  Gives agg "fss" v /\
  v < 1 - mean_of square_diff (concat groups) / mean_of square_sum (concat groups).
Proof.
  exists ["total"; "fbs"; "f_rate"; "o_rate"; "fss"], [[(1, 1)]; [(1, 0)]],
    [[CNum 1; CNum 0; CNum 1; CNum 1; CNum 1]; [CNum 1; CNum 1; CNum 1; CNum 0; CNum 0]]. eexists. exists 0.
  split; [discriminate|]. split.
  - repeat constructor; try discriminate; try (intros X; vm_compute in X; discriminate X);
    try (now apply nodup_cell; vm_compute);
    try (intros name g [X|[X|[X|[]]]]; injection X as <- <-; now apply nodup_cell; vm_compute).
  - split; [vm_compute; reflexivity|]. split; [|vm_compute; reflexivity].
    eexists. split; [right; right; left; reflexivity|vm_compute; reflexivity].
Qed.

Lemma C38_ensemble_proof : forall columns groups data,
  groups <> [] -> Forall2 (EnsRow columns) groups data ->
  let all := concat groups in
  exists agg, calc_series_sums columns data "ecnt" = Ok agg /\
    map fst agg = "total" :: "mse" :: "mse_oerr" :: "crps_climo" :: map fst ens_fields /\
    Gives agg "total" (count all) /\
    Gives agg "mse" (mean_of e_sq all) /\ Gives agg "mse_oerr" (mean_of e_sq_oerr all) /\
    Gives agg "crps_climo" (mean_of e_climo all) /\
    forall name g, In (name, g) ens_fields -> Gives agg name (mean_of g all).
Proof.
  exact ens_sums.
Qed.

Lemma C38_ensemble_case_proof :
  EnsRow ["total"; "rmse"; "rmse_oerr"; "crpss"; "me"; "crps"; "ign"; "spread"; "me_oerr"; "spread_oerr"; "spread_plus_oerr"]
    [Build_ens_case 4 1 1 2 3 1 1 1 1 1; Build_ens_case 14 1 1 2 5 1 1 1 1 1]
    [CNum 2; CNum 3; CNum 1; CNum (1 # 2); CNum 4; CNum 1; CNum 1; CNum 1; CNum 1; CNum 1; CNum 1].
Proof.
  split; [|split; [|split; [|split; [|split]]]].
  - constructor; [reflexivity|discriminate|now apply nodup_cell; vm_compute|].
    intros name g H. cbn [ens_fields In] in H.
    repeat (destruct H as [H|H]; [injection H as <- <-; now apply nodup_cell; vm_compute|]). destruct H.
  - exists 3. split; [now apply nodup_cell; vm_compute|vm_compute; reflexivity].
  - exists 1. split; [now apply nodup_cell; vm_compute|vm_compute; reflexivity].
  - intros X; vm_compute in X; discriminate X.
  - intros X; vm_compute in X; discriminate X.
  - now apply nodup_cell; vm_compute.
Qed.

Lemma C38_ranked_proof : forall columns groups data,
  groups <> [] -> Forall2 (RpsRow columns) groups data ->
  let all := concat groups in
  exists agg, calc_series_sums columns data "rps" = Ok agg /\
    map fst agg = ["total"; "rps"; "rps_comp"; "rps_climo"] /\
    Gives agg "total" (count all) /\
    Gives agg "rps" (mean_of (fun c => fst (fst c)) all) /\
    Gives agg "rps_comp" (mean_of (fun c => snd (fst c)) all) /\
    Gives agg "rps_climo" (mean_of snd all).
Proof.
  exact rps_sums.
Qed.

Lemma C38_ranked_case_proof :
  RpsRow ["total"; "rps"; "rps_comp"; "rpss"] [(1, 0, 2); (2, 1, 4)]
    [CNum 2; CNum (3 # 2); CNum (1 # 2); CNum (1 # 2)].
Proof.
  split; [|split; [|split]].
  - constructor; [reflexivity|discriminate|now apply nodup_cell; vm_compute|].
    intros name g [X|[X|[]]]; injection X as <- <-; now apply nodup_cell; vm_compute.
  - intros X; vm_compute in X; discriminate X.
  - intros X; vm_compute in X; discriminate X.
  - now apply nodup_cell; vm_compute.
Qed.

Lemma C38_counts_refuted_proof : forall columns data agg,
  calc_series_sums columns data "ctc" <> Ok agg /\ calc_series_sums columns data "nbrctc" <> Ok agg.
Proof.
  intros columns data agg. unfold calc_series_sums. simpl.
  split; destruct (sum_column_data_by_name data columns "total" true); simpl; discriminate.
Qed.

Lemma C38_anomaly_refuted_proof : forall columns data agg name,
  calc_series_sums columns data "sal1l2" = Ok agg ->
  In name ["fabar"; "oabar"; "foabar"; "ffabar"; "ooabar"] -> ~ In name (map fst agg).
Proof.
  intros columns data agg name E Hn. unfold calc_series_sums in E.
  destruct (sum_column_data_by_name data columns "total" true) as [t|]; [|discriminate E]. cbn -[sums_sal1l2] in E.
  unfold sums_sal1l2 in E.
  destruct (weighted columns data t "fabar"); [|discriminate E]. destruct (weighted columns data t "oabar"); [|discriminate E].
  destruct (weighted columns data t "foabar"); [|discriminate E]. destruct (weighted columns data t "ffabar"); [|discriminate E].
  destruct (weighted columns data t "ooabar"); [|discriminate E]. cbn [bind] in E. injection E as <-. cbn [map fst].
  intro K. simpl in Hn, K. repeat destruct Hn as [<-|Hn]; try contradiction;
    repeat (destruct K as [K|K]; [discriminate K|]); exact K.
Qed.

Lemma C38_anomaly_case_proof : exists agg,
  calc_series_sums ["total"; "fabar"; "oabar"; "foabar"; "ffabar"; "ooabar"]
    [[CNum 1; CNum 1; CNum 1; CNum 1; CNum 1; CNum 1]] "sal1l2" = Ok agg.
Proof.
  eexists. vm_compute. reflexivity.
Qed.

Lemma C38_missing_mean_refuted_proof : exists data agg,
  data = [[CNum 1; CNum 6; CNum 6; CNum 6; CNum 6; CNum 6]; [CNum 2; CMiss; CNum 6; CNum 6; CNum 6; CNum 6]] /\
  calc_series_sums (line_columns ex_fields) data "sl1l2" = Ok agg /\
  Gives agg "fbar" 2 /\ Gives agg "obar" 6.
Proof.
  eexists. eexists. split; [reflexivity|]. split; [vm_compute; reflexivity|].
  split; eexists; (split; [simpl; tauto|vm_compute; reflexivity]).
Qed.

Lemma C38_no_pairs_proof : forall columns data line_type t,
  Rectangular data columns -> NumericColumn data columns "total" ->
  ColumnTotal data columns "total" t -> t = None \/ (exists q, t = Some q /\ q == 0) ->
  In line_type ["ctc"; "nbrctc"; "sl1l2"; "sal1l2"; "vl1l2"; "val1l2"; "grad"; "nbrcnt"; "ecnt"; "rps"] ->
  exists e, calc_series_sums columns data line_type = Err e.
Proof.
  intros columns data lt t HR HN HT Ht HL.
  destruct (sum_column_total data columns "total" t HR HN HT) as (s & E & Q).
  apply (sums_bad columns data s lt HL E). destruct Ht as [->|(q & -> & Eq)].
  - destruct s; [destruct Q|left; reflexivity].
  - destruct s as [p|]; [|destruct Q]. right. exists p. split; [reflexivity|]. simpl in Q. rewrite Q. exact Eq.
Qed.

Lemma C38_no_pairs_case_proof :
  ColumnTotal [[CNum 0; CNum 5]; [CMiss; CNum 6]] ["total"; "fbar"] "total" (Some (0 + 0)) /\
  ColumnTotal [] ["total"; "fbar"] "total" None.
Proof.
  split; split.
  - intro H. destruct H. left. reflexivity.
  - intros i Hi. assert (i = O) as -> by (eapply columnat_fun; [exact Hi|apply nodup_columnat; [apply nodupb_ok; reflexivity|reflexivity]]).
    simpl. split; [discriminate|]. intros _. exists (0 + 0). split; [reflexivity|]. reflexivity.
  - intro H. destruct H. left. reflexivity.
  - intros i Hi. simpl. split; [reflexivity|]. intro H. destruct H. reflexivity.
Qed.

Lemma C38_other_lines_proof : forall columns data line_type t,
  ~ In line_type ["ctc"; "nbrctc"; "sl1l2"; "sal1l2"; "vl1l2"; "val1l2"; "grad"; "nbrcnt"; "ecnt"; "rps"] ->
  Rectangular data columns -> NumericColumn data columns "total" ->
  ColumnTotal data columns "total" t ->
  exists t', calc_series_sums columns data line_type = Ok [("total", t')] /\ oeq t t'.
Proof.
  intros columns data lt t HL HR HN HT.
  destruct (sum_column_total data columns "total" t HR HN HT) as (s & E & Q).
  exists s. split; [now apply other_lines|]. destruct s, t; simpl in *; try tauto. symmetry. exact Q.
Qed.

Lemma C38_other_lines_case_proof :
  ~ In "mctc" ["ctc"; "nbrctc"; "sl1l2"; "sal1l2"; "vl1l2"; "val1l2"; "grad"; "nbrcnt"; "ecnt"; "rps"] /\
  ColumnTotal [[CNum 3; CNum 5]; [CMiss; CNum 6]; [CNum 4; CMiss]] ["total"; "n_cat"] "total" (Some 7).
Proof.
  split; [simpl; intro H; repeat (destruct H as [H|H]; [discriminate H|]); exact H|]. split.
  - intro H. destruct H. left. reflexivity.
  - intros i Hi. assert (i = O) as -> by (eapply columnat_fun; [exact Hi|apply nodup_columnat; [apply nodupb_ok; reflexivity|reflexivity]]).
    simpl. split; [discriminate|]. intros _. exists 7. split; [reflexivity|]. reflexivity.
Qed.

Lemma C38_joined_proof : forall A (fields : list (string * (A -> Q))) (cases : row -> list A)
    columns fr var vals joined line_type names,
  In (line_type, names) moment_lines -> SameFields names fields ->
  Ascending fr -> Rectangular (map snd fr) columns -> NoDup columns ->
  In "fcst_valid_beg" columns -> In "fcst_lead" columns -> In var columns ->
  ~ In var ("total" :: "fcst_valid_beg" :: "fcst_lead" :: names) ->
  Joined vals joined ->
  (forall x, In x fr -> Member columns var vals (snd x) ->
     SummaryRow fields columns (cases (snd x)) (snd x)) ->
  (forall x y, In x fr -> In y fr -> exists z v l, In z fr /\ Member columns var vals (snd z) /\
     CellOf columns (snd x) "fcst_valid_beg" v /\ CellOf columns (snd y) "fcst_lead" l /\
     TimeAt columns (v, l) (snd z)) ->
  exists kept new times,
    aggregate_field_values [(var, [joined])] columns fr line_type = Ok (kept ++ new)%list /\
    Selection (fun x => ~ Member columns var vals (snd x)) fr kept /\
    Pairwise DifferentTimes times /\
    (forall x, In x fr -> exists t, In t times /\ TimeAt columns t (snd x)) /\
    Forall2 (fun t x =>
        TimeAt columns t (snd x) /\ CellOf columns (snd x) var (CStr joined) /\
        exists rows, Selection (fun y => Member columns var vals (snd y) /\ TimeAt columns t (snd y)) fr rows /\
          SummaryRow fields columns (cases_of cases rows) (snd x)) times new.
Proof.
  exact joined_frame.
Qed.

Lemma C38_joined_case_proof :
  let fr := [(0%nat, ex_row "00Z" 12 "EAST" [(1, 2)]); (1%nat, ex_row "00Z" 12 "WEST" [(3, 5)]);
             (2%nat, ex_row "00Z" 12 "NMT" [(7, 4)]); (3%nat, ex_row "06Z" 12 "NMT" [(2, 2)])] in
  Ascending fr /\ Rectangular (map snd fr) ex_columns /\ NoDup ex_columns /\
  Joined ["EAST"; "NMT"] "EAST;NMT" /\
  (forall x, In x fr -> SummaryRow ex_fields ex_columns (ex_cases (snd x)) (snd x)) /\
  (forall x y, In x fr -> In y fr -> exists z v l, In z fr /\ Member ex_columns "vx_mask" ["EAST"; "NMT"] (snd z) /\
     CellOf ex_columns (snd x) "fcst_valid_beg" v /\ CellOf ex_columns (snd y) "fcst_lead" l /\
     TimeAt ex_columns (v, l) (snd z)).
Proof.
  set (fr := [_; _; _; _]). cbn zeta. split; [|split; [|split; [|split; [|split]]]].
  - unfold Ascending. simpl. repeat constructor.
  - intros r H. simpl in H. repeat (destruct H as [<-|H]; [reflexivity|]). destruct H.
  - apply nodupb_ok. reflexivity.
  - split; [simpl; lia|]. split; [|reflexivity]. repeat constructor; simpl; intuition discriminate.
  - intros x H. simpl in H. repeat (destruct H as [<-|H]; [apply ex_summary|]). destruct H.
  - assert (K : forall x, In x fr -> exists v, In v [CStr "00Z"; CStr "06Z"] /\ CellOf ex_columns (snd x) "fcst_valid_beg" v).
    { intros x H. simpl in H. repeat (destruct H as [<-|H]; [eexists; split; [|exists O; split; [apply nodup_columnat; [apply nodupb_ok; reflexivity|reflexivity]|reflexivity]]; simpl; tauto|]). destruct H. }
    assert (K2 : forall x, In x fr -> CellOf ex_columns (snd x) "fcst_lead" (CNum 12)).
    { intros x H. simpl in H. repeat (destruct H as [<-|H]; [exists 1%nat; split; [apply nodup_columnat; [apply nodupb_ok; reflexivity|reflexivity]|reflexivity]|]). destruct H. }
    assert (M2 : forall n v l m b, In n fr -> snd n = ex_row v l m b -> In m ["EAST"; "NMT"] -> Member ex_columns "vx_mask" ["EAST"; "NMT"] (snd n)).
    { intros n v l m b _ E Hm. exists m. split; [|exact Hm]. rewrite E. exists 2%nat. split; [apply nodup_columnat; [apply nodupb_ok; reflexivity|reflexivity]|reflexivity]. }
    intros x y Hx Hy. destruct (K x Hx) as (v & Hv & Cv).
    destruct Hv as [<-|[<-|[]]].
    + exists (0%nat, ex_row "00Z" 12 "EAST" [(1, 2)]), (CStr "00Z"), (CNum 12).
      split; [left; reflexivity|]. split; [eapply M2; [left; reflexivity|reflexivity|left; reflexivity]|]. split; [exact Cv|]. split; [now apply K2|].
      split; [exists (CStr "00Z")|exists (CNum 12)]; (split; [|reflexivity]); [exists O|exists 1%nat];
        (split; [apply nodup_columnat; [apply nodupb_ok; reflexivity|reflexivity]|reflexivity]).
    + exists (3%nat, ex_row "06Z" 12 "NMT" [(2, 2)]), (CStr "06Z"), (CNum 12).
      split; [simpl; tauto|]. split; [eapply M2; [simpl; tauto|reflexivity|simpl; tauto]|]. split; [exact Cv|]. split; [now apply K2|].
      split; [exists (CStr "06Z")|exists (CNum 12)]; (split; [|reflexivity]); [exists O|exists 1%nat];
        (split; [apply nodup_columnat; [apply nodupb_ok; reflexivity|reflexivity]|reflexivity]).
Qed.

Lemma C38_joined_leads_proof : forall A (fields : list (string * (A -> Q))) (cases : row -> list A)
    columns fr vals spelled leads joined line_type names,
  In (line_type, names) moment_lines -> SameFields names fields ->
  Ascending fr -> Rectangular (map snd fr) columns -> NoDup columns ->
  In "fcst_valid_beg" columns -> In "fcst_lead" columns ->
  Joined vals joined -> Selection (fun s => s <> "") vals spelled -> Forall2 WholeNumber spelled leads ->
  (forall x, In x fr -> LeadMember columns leads (snd x) ->
     SummaryRow fields columns (cases (snd x)) (snd x)) ->
  (forall x, In x fr -> exists z v, In z fr /\ LeadMember columns leads (snd z) /\
     CellOf columns (snd x) "fcst_valid_beg" v /\ ValidAt columns v (snd z)) ->
  exists kept new valids,
    aggregate_field_values [("fcst_lead", [joined])] columns fr line_type = Ok (kept ++ new)%list /\
    Selection (fun x => ~ LeadMember columns leads (snd x)) fr kept /\
    Pairwise (fun v w => ~ SameCell v w) valids /\
    (forall x, In x fr -> exists v, In v valids /\ ValidAt columns v (snd x)) /\
    Forall2 (fun v x =>
        ValidAt columns v (snd x) /\ CellOf columns (snd x) "fcst_lead" (CStr (hd "" vals)) /\
        exists rows, Selection (fun y => LeadMember columns leads (snd y) /\ ValidAt columns v (snd y)) fr rows /\
          SummaryRow fields columns (cases_of cases rows) (snd x)) valids new.
Proof.
  exact joined_leads_frame.
Qed.

Lemma C38_joined_leads_case_proof :
  let fr := [(0%nat, ex_row "00Z" 12 "EAST" [(1, 2)]); (1%nat, ex_row "00Z" 24 "EAST" [(3, 5)]);
             (2%nat, ex_row "00Z" 36 "EAST" [(7, 4)]); (3%nat, ex_row "06Z" 24 "EAST" [(2, 2)])] in
  Ascending fr /\ Joined ["12"; "24"; ""] "12;24;" /\
  Selection (fun s => s <> "") ["12"; "24"; ""] ["12"; "24"] /\ Forall2 WholeNumber ["12"; "24"] [12%Z; 24%Z] /\
  (forall x, In x fr -> exists z v, In z fr /\ LeadMember ex_columns [12%Z; 24%Z] (snd z) /\
     CellOf ex_columns (snd x) "fcst_valid_beg" v /\ ValidAt ex_columns v (snd z)).
Proof.
  set (fr := [_; _; _; _]). cbn zeta. split; [|split; [|split; [|split]]].
  - unfold Ascending. simpl. repeat constructor.
  - split; [simpl; lia|]. split; [|reflexivity]. repeat constructor; simpl; intuition discriminate.
  - apply sel_keep; [discriminate|]. apply sel_keep; [discriminate|]. apply sel_drop; [intro K; apply K; reflexivity|apply sel_nil].
  - repeat constructor; apply parse_int_iff; reflexivity.
  - assert (LM : forall v q m b z, In z [12%Z; 24%Z] -> q == inject_Z z -> LeadMember ex_columns [12%Z; 24%Z] (ex_row v q m b)).
    { intros v q m b z Hz E. exists z. split; [exact Hz|]. exists (CNum q). split; [|exact E].
      exists 1%nat. split; [apply nodup_columnat; [apply nodupb_ok; reflexivity|reflexivity]|reflexivity]. }
    assert (VA : forall v q m b, CellOf ex_columns (ex_row v q m b) "fcst_valid_beg" (CStr v)).
    { intros. exists O. split; [apply nodup_columnat; [apply nodupb_ok; reflexivity|reflexivity]|reflexivity]. }
    intros x H. simpl in H. destruct H as [<-|[<-|[<-|[<-|[]]]]].
    1-3: exists (0%nat, ex_row "00Z" 12 "EAST" [(1, 2)]), (CStr "00Z"); split; [left; reflexivity|]; split; [apply (LM _ _ _ _ 12%Z); [simpl; tauto|reflexivity]|]; split; [apply VA|]; exists (CStr "00Z"); split; [apply VA|reflexivity].
    exists (3%nat, ex_row "06Z" 24 "EAST" [(2, 2)]), (CStr "06Z"); split; [simpl; tauto|]; split; [apply (LM _ _ _ _ 24%Z); [simpl; tauto|reflexivity]|]; split; [apply VA|]; exists (CStr "06Z"); split; [apply VA|reflexivity].
Qed.

Lemma C38_incomplete_refuted_proof : forall columns fr var vals joined line_type x y v l,
  In line_type ["ctc"; "nbrctc"; "sl1l2"; "sal1l2"; "vl1l2"; "val1l2"; "grad"; "nbrcnt"; "ecnt"; "rps"] ->
  Rectangular (map snd fr) columns -> var <> "fcst_lead" -> Joined vals joined ->
  In x fr -> In y fr ->
  CellOf columns (snd x) "fcst_valid_beg" v -> CellOf columns (snd y) "fcst_lead" l ->
  (forall z, In z fr -> Member columns var vals (snd z) -> ~ TimeAt columns (v, l) (snd z)) ->
  exists e, aggregate_field_values [(var, [joined])] columns fr line_type = Err e.
Proof.
  exact incomplete.
Qed.

Lemma C38_incomplete_case_proof :
  let fr := [(0%nat, ex_row "00Z" 12 "EAST" [(1, 2)]); (1%nat, ex_row "06Z" 24 "EAST" [(3, 5)])] in
  forall z, In z fr -> Member ex_columns "vx_mask" ["EAST"; "NMT"] (snd z) ->
  ~ TimeAt ex_columns (CStr "00Z", CNum 24) (snd z).
Proof.
  assert (LA : forall v q m b c, CellOf ex_columns (ex_row v q m b) "fcst_lead" c -> c = CNum q).
  { intros v q m b c H. eapply cellof_fun; [exact H|]. exists 1%nat. split; [apply nodup_columnat; [apply nodupb_ok; reflexivity|reflexivity]|reflexivity]. }
  assert (VA : forall v q m b c, CellOf ex_columns (ex_row v q m b) "fcst_valid_beg" c -> c = CStr v).
  { intros v q m b c H. eapply cellof_fun; [exact H|]. exists 0%nat. split; [apply nodup_columnat; [apply nodupb_ok; reflexivity|reflexivity]|reflexivity]. }
  intros fr z [<-|[<-|[]]] _ [(c & Cc & Sc) (d & Cd & Sd)]; cbn [fst snd] in *.
  - apply LA in Cd. subst d. simpl in Sd. discriminate Sd.
  - apply VA in Cc. subst c. simpl in Sc. discriminate Sc.
Qed.

Lemma C38_two_values_refuted_proof : exists fr out,
  Ascending fr /\
  (forall x, In x fr -> SummaryRow ex_fields ex_columns (ex_cases (snd x)) (snd x)) /\
  (exists x, In x fr /\ Member ex_columns "vx_mask" ["EAST"; "NMT"] (snd x)) /\
  aggregate_field_values [("vx_mask", ["EAST;NMT"; "WEST;SMT"])] ex_columns fr "sl1l2" = Ok out /\
  length out = 1%nat /\
  forall x, In x out -> CellOf ex_columns (snd x) "vx_mask" (CStr "WEST;SMT").
Proof.
  exists [(0%nat, ex_row "00Z" 12 "WEST" [(1, 2)]); (1%nat, ex_row "00Z" 12 "SMT" [(3, 5)]);
          (2%nat, ex_row "00Z" 12 "EAST" [(7, 4)]); (3%nat, ex_row "00Z" 12 "NMT" [(2, 2)])].
  eexists. split; [unfold Ascending; simpl; repeat constructor|]. split; [|split; [|split; [vm_compute; reflexivity|split; [reflexivity|]]]].
  - intros x H. simpl in H. repeat (destruct H as [<-|H]; [apply ex_summary|]). destruct H.
  - eexists. split; [right; right; left; reflexivity|]. exists "EAST". split; [|simpl; tauto].
    exists 2%nat. split; [apply nodup_columnat; [apply nodupb_ok; reflexivity|reflexivity]|reflexivity].
  - intros x [<-|[]]. exists 2%nat. split; [apply nodup_columnat; [apply nodupb_ok; reflexivity|reflexivity]|reflexivity].
Qed.

Lemma C38_nothing_joined_proof : forall series columns fr line_type,
  Rectangular (map snd fr) columns ->
  (forall var vals v, In (var, vals) series -> In v vals -> ~ In ";"%char (list_ascii_of_string v)) ->
  (In "fcst_valid_beg" columns /\ In "fcst_lead" columns ->
     aggregate_field_values series columns fr line_type = Ok fr) /\
  (~ In "fcst_valid_beg" columns \/ ~ In "fcst_lead" columns ->
     aggregate_field_values series columns fr line_type = Err AttributeError).
Proof.
  intros series columns fr lt HR Hn. split.
  - intros [Cp Cl]. unfold aggregate_field_values.
    destruct (in_columnat _ _ Cp) as [pi Hp]. destruct (in_columnat _ _ Cl) as [li Hl].
    rewrite (proj2 (index_of_ColumnAt _ _ _) Hp), (proj2 (index_of_ColumnAt _ _ _) Hl).
    destruct (column_cells (map snd fr) columns _ _ HR Hp) as (pcol & -> & _).
    destruct (column_cells (map snd fr) columns _ _ HR Hl) as (lcol & -> & _). cbn [bind].
    clear - Hn. induction series as [|[var vals] series IH]; [reflexivity|]. cbn [foldM].
    assert (X : forall l, (forall v, In v l -> In v vals) ->
      foldM (fun v fr => if has_semicolon v then aggregate_value columns lt pi li (unique_cells pcol) (unique_cells lcol) var v fr else Ok fr) l fr = Ok fr).
    { induction l as [|v l IHl]; intro Hl; [reflexivity|]. cbn [foldM].
      assert (Hv : has_semicolon v = false).
      { apply not_true_iff_false. intro E. apply has_semicolon_iff in E. revert E. apply (Hn var vals); [left; reflexivity|]. apply Hl. left; reflexivity. }
      rewrite Hv. cbn [bind]. apply IHl. intros; apply Hl; right; assumption. }
    rewrite X by auto. cbn [bind]. apply IH. intros; eapply Hn; [right; eassumption|eassumption].
  - intro H. unfold aggregate_field_values. destruct H as [H|H].
    + rewrite (proj2 (index_of_None _ _) H). reflexivity.
    + rewrite (proj2 (index_of_None _ _) H). destruct (index_of "fcst_valid_beg" columns); reflexivity.
Qed.

Lemma C38_nothing_joined_case_proof : forall var vals v,
  In (var, vals) [("vx_mask", ["EAST"; "NMT"])] -> In v vals -> ~ In ";"%char (list_ascii_of_string v).
Proof.
  intros var vals v [H|[]] Hv. injection H as <- <-. destruct Hv as [<-|[<-|[]]]; simpl; intuition discriminate.
Qed.

Lemma C38_bad_lead_proof : forall columns (fr : list (nat * row)) vals joined line_type s x,
  Rectangular (map snd fr) columns -> In "fcst_valid_beg" columns -> In "fcst_lead" columns ->
  Joined vals joined -> In x fr -> (exists v, CellOf columns (snd x) "fcst_valid_beg" v /\ v <> CMiss) ->
  In s vals -> s <> "" -> (forall z, ~ WholeNumber s z) ->
  aggregate_field_values [("fcst_lead", [joined])] columns fr line_type = Err ValueError.
Proof.
  exact bad_lead.
Qed.

Lemma C38_bad_lead_case_proof : Joined ["12"; "24h"] "12;24h" /\ (forall z, ~ WholeNumber "24h" z).
Proof.
  split; [|intros z H; apply parse_int_iff in H; discriminate H].
split; [simpl; lia|]. split; [|reflexivity]. repeat constructor; simpl; intuition discriminate.
Qed.

