(** Proofs about derived curves of aggregated statistics. *)
From Coq Require Import Ascii Permutation Sorted Qabs.
From Verif Require Import PyBase ColumnModel BaseSpec BaseProofs EventModel EventSpec EventProofs UtilModel UtilSpec UtilProofs.
From Verif Require Import RocProofs EqzProofs BootModel DriveModel DriveSpec DriveProofs.
From Verif Require RocModel SumModel AggModel.
From Coq Require Import List Lia.
Open Scope string_scope.

(* ---------- colons ---------- *)
Lemma split_colon_length v : (length (split_on ":" v) = 1%nat <-> ~ Has ":" v) /\ (1 <= length (split_on ":" v))%nat.
Proof.
  unfold Has. induction v as [|c v [IH L]]; cbn [split_on list_ascii_of_string In].
  - cbn. split; [tauto|lia].
  - destruct (Ascii.eqb_spec c ":") as [->|N].
    + cbn [length]. split; [|lia]. split; [lia|intro H; exfalso; apply H; left; reflexivity].
    + destruct (split_on ":" v) as [|w ws]; cbn [length] in *; [lia|]. split; [|lia]. rewrite IH. split; [intros H [E|E]; [congruence|auto]|tauto].
Qed.
Definition diff_sum (l : list string) : nat :=
  fold_right (fun v acc => let size := length (split_on ":" v) in ((if Nat.ltb 1 size then size else 0) + acc)%nat) 0%nat l.
Lemma diff_vals_sum l : num_diff_vals l = if Nat.eqb (diff_sum l) 0 then 1%nat else diff_sum l.
Proof. reflexivity. Qed.
Lemma diff_vals_plain l : (forall x, In x l -> ~ Has ":" x) -> num_diff_vals l = 1%nat.
Proof.
  intro H. rewrite diff_vals_sum. assert (diff_sum l = 0%nat) as ->; [|reflexivity].
  induction l as [|x l IH]; [reflexivity|]. cbn [diff_sum fold_right]. fold (diff_sum l). rewrite IH by (intros y Hy; apply H; right; exact Hy).
  rewrite (proj2 (proj1 (split_colon_length x)) (H x (or_introl eq_refl))). reflexivity.
Qed.
Lemma diff_vals_colon l x : In x l -> Has ":" x -> (2 <= num_diff_vals l)%nat.
Proof.
  intros I H. rewrite diff_vals_sum.
  assert (2 <= diff_sum l)%nat as G.
  { induction l as [|y l IH]; [destruct I|]. cbn [diff_sum fold_right]. fold (diff_sum l). destruct I as [->|I]; [|specialize (IH I); cbv zeta; lia].
    destruct (split_colon_length x) as [A B]. cbv zeta. destruct (Nat.ltb_spec 1 (length (split_on ":" x))) as [L|L]; [lia|].
    exfalso. apply (proj1 A); [lia|exact H]. }
  destruct (Nat.eqb_spec (diff_sum l) 0) as [E|E]; [rewrite E in G; lia|exact G].
Qed.

(* ---------- cases ---------- *)
Lemma filter_length_le {A} (f : A -> bool) l : (length (filter f l) <= length l)%nat.
Proof. induction l as [|x l IH]; cbn [filter length]; [lia|]. destruct (f x); cbn [length]; lia. Qed.
Lemma index_in n columns i : index_of n columns = Some i -> In n columns.
Proof. intro E. destruct (in_dec string_dec n columns) as [H|H]; [exact H|]. apply index_of_None in H. congruence. Qed.
Lemma distinct_le l : (length (distinct_keys l) <= length l)%nat.
Proof.
  induction l as [|x l IH]; [reflexivity|]. cbn [distinct_keys length]. apply le_n_S. etransitivity; [apply filter_length_le|exact IH].
Qed.
Lemma filter_full {A} (f : A -> bool) l : length (filter f l) = length l -> filter f l = l.
Proof.
  induction l as [|x l IH]; [reflexivity|]. cbn [filter length]. destruct (f x); cbn [length].
  - intros [= E]. rewrite (IH E). reflexivity.
  - intro E. pose proof (filter_length_le f l). lia.
Qed.
Lemma distinct_full l : length (distinct_keys l) = length l <-> ForallOrdPairs (fun a b => same_keys a b = false) l.
Proof.
  induction l as [|x l IH]; cbn [distinct_keys length]; [split; [constructor|reflexivity]|]. split.
  - intros [= E]. pose proof (filter_length_le (fun y => negb (same_keys x y)) (distinct_keys l)) as L1. pose proof (distinct_le l) as L2.
    assert (length (distinct_keys l) = length l) as E2 by lia. assert (ForallOrdPairs (fun a b => same_keys a b = false) l) as F by (apply IH; exact E2).
    assert (distinct_keys l = l) as Ed.
    { clear - F. induction F as [|a l H F IH]; [reflexivity|]. cbn [distinct_keys]. rewrite IH. f_equal. clear - H. induction l as [|b l IH]; [reflexivity|].
      inversion H; subst. cbn [filter]. rewrite H2. cbn [negb]. rewrite (IH H3). reflexivity. }
    rewrite Ed in E. constructor; [|exact F]. assert (filter (fun y => negb (same_keys x y)) l = l) as Ef by (apply filter_full; exact E).
    rewrite Forall_forall. intros y Hy. rewrite <- Ef in Hy. apply filter_In in Hy. destruct Hy as [_ Hy]. apply negb_true_iff. exact Hy.
  - intro F. inversion F as [|? ? H F']; subst. apply IH in F'.
    assert (forall m, (forall y, In y m -> same_keys x y = false) -> filter (fun y => negb (same_keys x y)) m = m) as G.
    { induction m as [|y m IHm]; intro K; [reflexivity|]. cbn [filter]. rewrite (K y (or_introl eq_refl)). cbn [negb]. rewrite IHm; [reflexivity|]. intros z Hz. apply K. right. exact Hz. }
    rewrite G; [lia|]. intros y Hy. rewrite Forall_forall in H. apply H.
    assert (forall m z, In z (distinct_keys m) -> In z m) as D.
    { clear. induction m as [|a m IHm]; intros z Hz; [exact Hz|]. cbn [distinct_keys] in Hz. destruct Hz as [->|Hz]; [left; reflexivity|]. apply filter_In in Hz. right. apply IHm. apply Hz. }
    apply D. exact Hy.
Qed.
Lemma case_iff columns r key : In "fcst_lead" columns -> In "stat_name" columns -> In (time_column columns) columns ->
  (CaseOf columns r key <-> mapM (get columns r) [time_column columns; "fcst_lead"; "stat_name"] = Ok key /\ ~ In CMiss key).
Proof.
  intros Hl Hs Ht. unfold CaseOf. split.
  - intros (t & T & C & N). apply time_field in T. destruct T as [-> _]. split; [apply cells_sound; exact C|exact N].
  - intros [C N]. exists (time_column columns). split; [apply time_field; split; [reflexivity|right; exact Ht]|]. split; [apply cells_sound; exact C|exact N].
Qed.
Lemma case_fun columns r k k' : CaseOf columns r k -> CaseOf columns r k' -> k = k'.
Proof.
  intros (t & T & C & _) (t' & T' & C' & _). apply time_field in T, T'. destruct T as [-> _]. destruct T' as [-> _]. apply cells_sound in C, C'. congruence.
Qed.
Lemma same_keys_iff a b : length a = length b -> (same_keys a b = true <-> Forall2 CellSame a b).
Proof.
  intro L. unfold same_keys. rewrite <- (keys_cmp_eq a b L). destruct (keys_cmp a b); split; congruence.
Qed.
Lemma validate_inv columns rows n : validate columns rows n = Ok tt ->
  exists keys, Forall2 (CaseOf columns) rows keys /\ length rows = (n * length (distinct_keys keys))%nat.
Proof.
  unfold validate. destruct (index_of "fcst_lead" columns) as [li|] eqn:Il; [|discriminate]. destruct (index_of "stat_name" columns) as [si|] eqn:Is; [|discriminate].
  destruct (index_of (time_column columns) columns) as [ti|] eqn:It; [|discriminate].
  destruct (mapM (fun r => mapM (fun i => cell_at i r) [ti; li; si]) rows) as [keys|] eqn:M; [|discriminate]. cbn [bind].
  destruct (one_kind keys && _) eqn:K; [|discriminate]. apply andb_prop in K. destruct K as [_ K].
  destruct (Nat.eqb_spec (length rows) (n * length (distinct_keys keys))) as [E|E]; [|discriminate]. intros _. exists keys. split; [|exact E].
  assert (In "fcst_lead" columns) as Hl by (apply index_in in Il; exact Il). assert (In "stat_name" columns) as Hs by (apply index_in in Is; exact Is).
  assert (In (time_column columns) columns) as Ht by (apply index_in in It; exact It).
  apply mapM_iff in M. rewrite forallb_forall in K. clear E. induction M as [|r k rows keys E M IH]; constructor.
  - apply case_iff; try assumption. split.
    + rewrite <- E. cbn [mapM]. unfold get. rewrite It, Il, Is. reflexivity.
    + intro I. specialize (K k (or_introl eq_refl)). rewrite forallb_forall in K. specialize (K _ I). discriminate K.
  - apply IH. intros x Hx. apply K. right. exact Hx.
Qed.
Lemma forall2_inl' {A B} (P : A -> B -> Prop) l m x : Forall2 P l m -> In x l -> exists y, In y m /\ P x y.
Proof.
  induction 1 as [|a b l m H F IH]; intros []; [subst; exists b; split; [left; reflexivity|exact H]|].
  destruct IH as (y & Hy & Py); [assumption|]. exists y. split; [right; exact Hy|exact Py].
Qed.
Lemma cases_distinct columns rows keys : Forall2 (CaseOf columns) rows keys ->
  (ForallOrdPairs (fun a b => same_keys a b = false) keys <-> DistinctCases columns rows).
Proof.
  intro F. unfold DistinctCases.
  assert (forall r k r' k', CaseOf columns r k -> CaseOf columns r' k' -> (same_keys k k' = false <-> ~ SameCase columns r r')) as G.
  { intros r k r' k' C C'. assert (length k = length k') as L.
    { destruct C as (t & _ & C & _). destruct C' as (t' & _ & C' & _). apply forall2_len in C, C'. cbn [length] in C, C'. congruence. }
    rewrite <- Bool.not_true_iff_false, (same_keys_iff _ _ L). split.
    - intros H (ka & kb & Ca & Cb & S). rewrite (case_fun _ _ _ _ C Ca), (case_fun _ _ _ _ C' Cb) in H. contradiction.
    - intros H S. apply H. exists k, k'. auto. }
  induction F as [|r k rows keys C F IH]; [split; constructor|]. split; intro H; inversion H as [|? ? H1 H2]; subst; constructor.
  - clear - G C F H1. rewrite Forall_forall. intros r' Hr'. destruct (forall2_inl' _ _ _ _ F Hr') as (k' & Hk' & C'). apply (G r k r' k' C C').
    rewrite Forall_forall in H1. apply H1. exact Hk'.
  - apply IH. exact H2.
  - clear - G C F H1. rewrite Forall_forall. intros k' Hk'. destruct (forall2_in_r _ _ _ _ F Hk') as (r' & Hr' & C'). apply (G r k r' k' C C').
    rewrite Forall_forall in H1. apply H1. exact Hr'.
  - apply IH. exact H2.
Qed.
Lemma cell_same_sym a b : CellSame a b -> CellSame b a.
Proof. intros []; constructor. symmetry. assumption. Qed.
Lemma cell_same_trans a b c : CellSame a b -> CellSame b c -> CellSame a c.
Proof.
  intros H1 H2. inversion H1; subst; inversion H2; subst; constructor. etransitivity; eassumption.
Qed.
Lemma cells_same_sym a b : Forall2 CellSame a b -> Forall2 CellSame b a.
Proof. induction 1; constructor; [apply cell_same_sym; assumption|assumption]. Qed.
Lemma cells_same_trans a b c : Forall2 CellSame a b -> Forall2 CellSame b c -> Forall2 CellSame a c.
Proof.
  intro H. revert c. induction H as [|x y a b S H IH]; intros c H2; inversion H2; subst; constructor; [eapply cell_same_trans; eassumption|apply IH; assumption].
Qed.
Lemma same_case_sym columns a b : SameCase columns a b -> SameCase columns b a.
Proof. intros (ka & kb & A & B & S). exists kb, ka. split; [exact B|]. split; [exact A|]. apply cells_same_sym. exact S. Qed.
Lemma same_case_trans columns a b c : SameCase columns a b -> SameCase columns b c -> SameCase columns a c.
Proof.
  intros (ka & kb & A & B & S) (kb' & kc & B' & C & S'). rewrite (case_fun _ _ _ _ B' B) in S'. exists ka, kc. split; [exact A|]. split; [exact C|]. eapply cells_same_trans; eassumption.
Qed.
Lemma distinct_perm columns a b : Permutation a b -> DistinctCases columns a -> DistinctCases columns b.
Proof.
  unfold DistinctCases. induction 1 as [|x a b P IH|x y a|a b c P1 IH1 P2 IH2]; intro H.
  - exact H.
  - inversion H as [|? ? H1 H2]; subst. constructor; [|apply IH; exact H2]. rewrite Forall_forall in *. intros z Hz. apply H1. eapply Permutation_in; [apply Permutation_sym; exact P|exact Hz].
  - inversion H as [|? ? H1 H2]; subst. inversion H2 as [|? ? H3 H4]; subst. inversion H1 as [|? ? H5 H6]; subst. constructor; [|constructor; assumption].
    constructor; [|exact H3]. intro S. apply H5. apply same_case_sym. exact S.
  - apply IH2, IH1, H.
Qed.
Definition keeps (columns : list string) (r r' : row) : Prop := forall key, CaseOf columns r key <-> CaseOf columns r' key.
Lemma keeps_same columns a a' b b' : keeps columns a a' -> keeps columns b b' -> (SameCase columns a b <-> SameCase columns a' b').
Proof.
  intros A B. split; intros (ka & kb & Ca & Cb & S); exists ka, kb; (split; [apply A; exact Ca|split; [apply B; exact Cb|exact S]]).
Qed.
Lemma distinct_keeps columns rows rows' : Forall2 (keeps columns) rows rows' -> (DistinctCases columns rows <-> DistinctCases columns rows').
Proof.
  unfold DistinctCases. induction 1 as [|r r' rows rows' K F IH]; [split; constructor|]. split; intro H; inversion H as [|? ? H1 H2]; subst; constructor.
  - rewrite Forall_forall in *. intros x' Hx'. destruct (forall2_in_r _ _ _ _ F Hx') as (x & Hx & Kx). intro S. apply (H1 x Hx). apply (keeps_same _ _ _ _ _ K Kx). exact S.
  - apply IH. exact H2.
  - rewrite Forall_forall in *. intros x Hx. destruct (forall2_inl' _ _ _ _ F Hx) as (x' & Hx' & Kx). intro S. apply (H1 x' Hx'). apply (keeps_same _ _ _ _ _ K Kx). exact S.
  - apply IH. exact H2.
Qed.
Lemma saved_rows e single columns st rows pr v : get_bootstrapped_stats e single true columns st rows = Ok pr -> saved pr = Some v ->
  rows <> [] /\ exists sorted, InOrder columns rows sorted /\ prep e st sorted = Ok v.
Proof.
  intros G S. destruct (gbs_sound _ _ _ _ _ _ _ G) as (_ & [N|(_ & N & sorted & prepared & O & P & S')]); [congruence|].
  rewrite S in S'. injection S' as <-. split; [exact N|]. exists sorted. auto.
Qed.
Lemma saved_distinct e single columns st rows pr v : KeepsCases e columns -> get_bootstrapped_stats e single true columns st rows = Ok pr -> saved pr = Some v ->
  (DistinctCases columns v <-> DistinctCases columns rows).
Proof.
  intros K G S. destruct (saved_rows _ _ _ _ _ _ _ G S) as (_ & sorted & (P & _) & E). rewrite <- (distinct_keeps _ _ _ (K _ _ _ E)).
  split; apply distinct_perm; [apply Permutation_sym; exact P|exact P].
Qed.
Lemma validate_distinct columns v n : validate columns v n = Ok tt -> v <> [] -> (DistinctCases columns v <-> n = 1%nat).
Proof.
  intros V N. destruct (validate_inv _ _ _ V) as (keys & F & E). rewrite <- (cases_distinct _ _ _ F), <- distinct_full. rewrite <- (forall2_len _ _ _ F). rewrite E.
  assert (length v <> 0)%nat as L by (destruct v; [contradiction|discriminate]). rewrite E in L.
  assert (length (distinct_keys keys) <> 0)%nat as L2 by (intro X; rewrite X in L; lia). split; [intro H; nia|intros ->; lia].
Qed.
Lemma point_rows columns data rq fields p rows : Rectangular data columns -> Plain rq fields -> Combination fields p ->
  Selection (OfPoint columns fields (fcst_vars rq) p) data rows -> rows = prows columns data rq fields p.
Proof.
  intros HR HP C S. eapply selection_unique; [exact S|apply (prows_selection columns data rq fields HR HP); exact C|reflexivity].
Qed.

(* ---------- rows side by side ---------- *)
Lemma before_same_r a b b' : CellBefore a b -> CellSame b b' -> CellBefore a b'.
Proof.
  intros H S. inversion H; subst; inversion S; subst; constructor; try assumption. eapply Qlt_le_trans; [eassumption|]. apply Qle_lteq. right. assumption.
Qed.
Lemma notafter_same_r a b b' : NotAfter a b -> Forall2 CellSame b b' -> NotAfter a b'.
Proof.
  intro H. revert b'. induction H as [|x y a b B|x y a b S H IH]; intros b' F; inversion F; subst.
  - constructor.
  - apply notafter_lt. eapply before_same_r; eassumption.
  - apply notafter_eq; [eapply cell_same_trans; eassumption|apply IH; assumption].
Qed.
Lemma cell_before_lt a b : CellBefore a b -> cell_cmp a b = Lt.
Proof. intro H. apply cell_cmp_lt; [inversion H; subst; reflexivity || (destruct a; reflexivity)|exact H]. Qed.
Lemma before_irrefl a b : CellBefore a b -> CellBefore b a -> False.
Proof.
  intros H K. apply cell_before_lt in H. apply cell_before_lt in K. rewrite cell_cmp_sym, K in H. discriminate H.
Qed.
Lemma before_not_same a b : CellBefore a b -> CellSame a b -> False.
Proof. intros H K. apply cell_before_lt in H. apply cell_cmp_eq in K. congruence. Qed.
Lemma notafter_antisym a b : NotAfter a b -> NotAfter b a -> Forall2 CellSame a b.
Proof.
  induction 1 as [|x y a b B|x y a b S H IH]; intro K; inversion K; subst.
  - constructor.
  - exfalso. eapply before_irrefl; eassumption.
  - exfalso. eapply before_not_same; [exact B|]. apply cell_same_sym. assumption.
  - exfalso. eapply before_not_same; [|apply cell_same_sym; exact S]. assumption.
  - constructor; [exact S|]. apply IH. assumption.
Qed.
Lemma case_sort columns r k : CaseOf columns r k -> SortKey columns r k.
Proof.
  intros (t & T & C & _). exists [t; "fcst_lead"; "stat_name"]. split; [|exact C]. exists t. split; [exact T|]. left. split; [|reflexivity].
  inversion C as [|? ? ? ? _ C1]; subst. inversion C1 as [|? ? ? ? _ C2]; subst. inversion C2 as [|? c ? ? H _]; subst.
  apply get_sound in H. unfold get in H. destruct (index_of "stat_name" columns) as [i|] eqn:E; [|discriminate H]. eapply index_in. exact E.
Qed.
Lemma pairs_sorted columns : forall A B : tdata,
  let le a b := exists ka kb, SortKey columns a ka /\ SortKey columns b kb /\ NotAfter ka kb in
  StronglySorted le A -> StronglySorted le B -> DistinctCases columns A -> DistinctCases columns B -> SameCases columns A B ->
  Forall2 (SameCase columns) A B.
Proof.
  intros A B le. revert B. induction A as [|a A IH]; intros B SA SB DA DB (S1 & S2).
  - destruct B as [|b B]; [constructor|]. destruct (S2 b (or_introl eq_refl)) as (a & [] & _).
  - destruct B as [|b B]; [destruct (S1 a (or_introl eq_refl)) as (b & [] & _)|].
    inversion SA as [|? ? SA' LA]; subst. inversion SB as [|? ? SB' LB]; subst. inversion DA as [|? ? NA DA']; subst. inversion DB as [|? ? NB DB']; subst.
    rewrite Forall_forall in LA, LB, NA, NB.
    assert (SameCase columns a b) as E.
    { destruct (S1 a (or_introl eq_refl)) as (b' & [<-|Hb'] & E1); [exact E1|]. destruct (S2 b (or_introl eq_refl)) as (a' & [<-|Ha'] & E2); [exact E2|].
      destruct (LB b' Hb') as (kb & kb' & K1 & K2 & L1). destruct (LA a' Ha') as (ka & ka' & K3 & K4 & L2).
      destruct E1 as (qa & qb' & Q1 & Q2 & E1). destruct E2 as (qa' & qb & Q3 & Q4 & E2).
      rewrite (sortkey_fun _ _ _ _ K1 (case_sort _ _ _ Q4)), (sortkey_fun _ _ _ _ K2 (case_sort _ _ _ Q2)) in L1.
      rewrite (sortkey_fun _ _ _ _ K3 (case_sort _ _ _ Q1)), (sortkey_fun _ _ _ _ K4 (case_sort _ _ _ Q3)) in L2.
      exists qa, qb. split; [exact Q1|]. split; [exact Q4|]. apply notafter_antisym; [eapply notafter_same_r; eassumption|].
      eapply notafter_same_r; [exact L1|]. apply cells_same_sym. exact E1. }
    constructor; [exact E|]. apply IH; try assumption. split.
    + intros a' Ha'. destruct (S1 a' (or_intror Ha')) as (b' & [<-|Hb'] & E1); [|exists b'; auto]. exfalso. apply (NA a' Ha'). eapply same_case_trans; [exact E|apply same_case_sym; exact E1].
    + intros b' Hb'. destruct (S2 b' (or_intror Hb')) as (a' & [<-|Ha'] & E1); [|exists a'; auto]. exfalso. apply (NB b' Hb'). eapply same_case_trans; [apply same_case_sym; exact E|exact E1].
Qed.
Lemma same_cases_perm columns a a' b b' : Permutation a a' -> Permutation b b' -> SameCases columns a b -> SameCases columns a' b'.
Proof.
  intros P1 P2 (S1 & S2). split; intros x Hx.
  - destruct (S1 x) as (y & Hy & E); [eapply Permutation_in; [apply Permutation_sym; exact P1|exact Hx]|]. exists y. split; [eapply Permutation_in; eassumption|exact E].
  - destruct (S2 x) as (y & Hy & E); [eapply Permutation_in; [apply Permutation_sym; exact P2|exact Hx]|]. exists y. split; [eapply Permutation_in; eassumption|exact E].
Qed.
Lemma pairs_keeps columns a b a' b' : Forall2 (SameCase columns) a b -> Forall2 (keeps columns) a a' -> Forall2 (keeps columns) b b' -> Forall2 (SameCase columns) a' b'.
Proof.
  intro H. revert a' b'. induction H as [|x y a b S H IH]; intros a' b' A B; inversion A; subst; inversion B; subst; constructor.
  - match goal with H1 : keeps _ x ?u, H2 : keeps _ y ?v |- _ => apply (keeps_same _ _ _ _ _ H1 H2) end. exact S.
  - apply IH; assumption.
Qed.

(* ---------- checks for examples ---------- *)
Definition only_check (groups : list (string * string)) (w dp : list string) (fields : list (string * list string)) (p : list string) : bool :=
  existsb (fun q => if list_eq_dec string_dec q p then true else false) (product (map snd fields)) &&
  forallb (fun c => mem c (permuted groups w dp)) p &&
  forallb (fun q => negb (forallb (fun c => mem c (permuted groups w dp)) q) || (if list_eq_dec string_dec q p then true else false)) (product (map snd fields)).
Lemma only_point groups w dp fields p : NoDup (map fst groups) -> only_check groups w dp fields p = true -> OnlyPoint fields (Named groups w dp) p.
Proof.
  intros ND H. unfold only_check in H. apply andb_prop in H. destruct H as [H U]. apply andb_prop in H. destruct H as [C N]. split; [|split].
  - apply existsb_exists in C. destruct C as (q & I & E). destruct (list_eq_dec string_dec q p) as [->|]; [|discriminate E]. apply product_combination. exact I.
  - apply (all_named groups w dp p ND). exact N.
  - intros q Cq Nq. rewrite forallb_forall in U. apply product_combination in Cq. specialize (U q Cq). apply (all_named groups w dp q ND) in Nq. rewrite Nq in U. cbn [negb orb] in U.
    destruct (list_eq_dec string_dec q p) as [E|]; [exact E|discriminate U].
Qed.
Lemma one_derived rq d : derived_series rq = [d] -> (exists op w1 w2 name var, DerivedSeries rq d op w1 w2 name var) -> DerivedRequest rq.
Proof.
  intros E H. unfold DerivedRequest. rewrite E. split; [discriminate|]. split.
  - intros d' [<-|[]]. exact H.
  - intros d1 d2 ? ? ? ? ? ? ? ? ? [<-|[]] [<-|[]] _ _. reflexivity.
Qed.
Lemma find_pair_first {A} perm1 perm2 (r : A) x : forall dist d1 d2, find_pair dist perm1 perm2 d1 d2 = (Some r, x) ->
  d1 = Some r \/ exists k, In (k, r) dist /\ forallb (fun c => mem c perm1) k = true.
Proof.
  induction dist as [|[k y] dist IH]; intros d1 d2 H; cbn [find_pair] in H; [injection H as -> _; left; reflexivity|].
  destruct (forallb (fun c => mem c perm1) k) eqn:M.
  - destruct (if forallb (fun c => mem c perm2) k then Some y else d2) as [z|] in H.
    + injection H as -> _. right. exists k. split; [left; reflexivity|exact M].
    + apply IH in H. destruct H as [[= ->]|(k' & I & M')]; right; [exists k; split; [left; reflexivity|exact M]|exists k'; split; [right; exact I|exact M']].
  - destruct d1 as [z1|].
    + destruct (if forallb (fun c => mem c perm2) k then Some y else d2) as [z|] in H.
      * injection H as -> _. left. reflexivity.
      * apply IH in H. destruct H as [H|(k' & I & M')]; [left; exact H|right; exists k'; split; [right; exact I|exact M']].
    + apply IH in H. destruct H as [H|(k' & I & M')]; [left; exact H|right; exists k'; split; [right; exact I|exact M']].
Qed.
Lemma gbsd_first e single columns groups known st dp dist comp r : lookup (derived_name dp) known = Ok comp -> NoDup (map fst groups) ->
  get_bootstrapped_stats_for_derived e single columns groups known st dp dist = Ok r ->
  exists k x, In (k, x) dist /\ Forall (Named groups (first_component comp) dp) k.
Proof.
  intros L ND H. unfold get_bootstrapped_stats_for_derived in H. rewrite L in H. cbn [bind] in H.
  destruct (find_pair dist _ _ None None) as [[r1|] d2] eqn:F; [|discriminate H]. apply find_pair_first in F. destruct F as [F|(k & I & M)]; [discriminate F|].
  exists k, r1. split; [exact I|]. apply (all_named _ _ _ _ ND). exact M.
Qed.
Lemma saved_none e single columns st rows pr : get_bootstrapped_stats e single true columns st rows = Ok pr -> saved pr = None -> outcome pr = NoResult.
Proof.
  unfold get_bootstrapped_stats. destruct rows as [|r0 rows]; [intros [= <-] _; reflexivity|]. intro H.
  destruct (sort_data columns (r0 :: rows)) as [sorted|]; [|discriminate H]. cbn [bind] in H.
  destruct (prep e st sorted) as [data|]; [|discriminate H]. cbn [bind] in H. destruct single.
  - destruct (calc e st data); [|discriminate H]. injection H as <-. discriminate.
  - destruct (boot e st data) as [r|x]; [injection H as <-; discriminate|]. destruct x; try discriminate H. injection H as <-. reflexivity.
Qed.
Lemma significance_one v1 v2 st v q : significance v1 v2 st v (Some [v]) = Ok (Some q) -> q == 1 \/ q == - (1).
Proof.
  unfold significance. destruct v as [v|]; [|cbn; discriminate]. cbn [not_none].
  assert (qmean [v] == v) as M by (unfold qmean; cbn; field).
  assert (Qle_bool (Qabs (v - qmean [v])) (Qabs v) = true) as L.
  { apply Qle_bool_iff. rewrite M. setoid_replace (v - v) with 0 by ring. apply Qabs_nonneg. }
  cbn [map]. rewrite L. assert (qmean [1] == 1) as M1 by reflexivity. generalize dependent (qmean [1]). intros p Mp.
  unfold adjusted, perfect_score_adjustment. destruct v1 as [a|], v2 as [b|].
  all: destruct (mem (upper st) na_perf_score_stats); [discriminate|].
  1: destruct (mem (upper st) zero_perf_score_stats && _); [intros [= <-]; right; rewrite Mp; reflexivity|];
     destruct (mem (upper st) one_perf_score_stats && _); [intros [= <-]; right; rewrite Mp; reflexivity|intros [= <-]; left; exact Mp].
  all: destruct (mem (upper st) zero_perf_score_stats || _); [discriminate|]; intros [= <-]; left; exact Mp.
Qed.
Lemma derived_one_etb e columns st r1 r2 v1 v2 v : derived_one e columns st "ETB" r1 r2 v1 v2 = Ok v -> v = None.
Proof.
  unfold derived_one. cbn [String.eqb Ascii.eqb Bool.eqb]. destruct (mapM (calc_row e st) v1) as [s1|]; [|discriminate]. cbn [bind].
  destruct (mapM (calc_row e st) v2) as [s2|]; [|discriminate]. cbn [bind]. generalize (if mem "stat_value" columns then (s1, s2) else ([], [])). intros [l1 l2]. cbn [fst snd].
  unfold calc_derived_curve_value. destruct (all_present l1) as [a|]; [|cbn; congruence]. destruct (all_present l2) as [b|]; [|cbn; congruence].
  destruct (Nat.eqb (length a) (length b)); [|cbn; congruence]. cbn [String.eqb Ascii.eqb Bool.eqb orb]. destruct (equivalence e a b); cbn; congruence.
Qed.

(* ---------- both axes ---------- *)
Lemma digit_char n : (n < 10)%nat -> Digit (ascii_of_nat (48 + n)) /\ (Z.of_nat (nat_of_ascii (ascii_of_nat (48 + n))) - 48)%Z = Z.of_nat n /\ (n <> 0%nat -> ascii_of_nat (48 + n) <> "0"%char).
Proof.
  intro H. do 10 (destruct n as [|n]; [unfold Digit; cbn; repeat split; (tauto || lia || discriminate)|]). lia.
Qed.
Definition dec_of (s : string) (a : Z) : Z :=
  fold_left (fun a c => 10 * a + (Z.of_nat (nat_of_ascii c) - 48))%Z (list_ascii_of_string s) a.
Lemma nat_text_value : forall fuel n acc, (n < fuel)%nat -> Forall Digit (list_ascii_of_string acc) ->
  let t := nat_text_fuel fuel n acc in
  Forall Digit (list_ascii_of_string t) /\ dec_of t 0 = dec_of acc (Z.of_nat n) /\ ((1 <= n)%nat -> forall rest, t <> "0" ++ rest).
Proof.
  induction fuel as [|fuel IH]; intros n acc L D; [lia|]. cbn [nat_text_fuel].
  pose proof (Nat.mod_upper_bound n 10 ltac:(discriminate)) as M. destruct (digit_char _ M) as (D1 & V & Z).
  pose proof (Nat.div_mod n 10 ltac:(discriminate)) as E.
  assert (Forall Digit (list_ascii_of_string (String (ascii_of_nat (48 + n mod 10)) acc))) as D2 by (constructor; assumption).
  destruct (Nat.ltb_spec n 10) as [S|S].
  - cbv zeta. split; [exact D2|]. split.
    + unfold dec_of. cbn [list_ascii_of_string fold_left]. rewrite V. rewrite (Nat.mod_small n 10 S). try (f_equal; lia).
    + intros P rest X. injection X as X _. apply Z; [rewrite (Nat.mod_small n 10 S); lia|exact X].
  - destruct (IH (n / 10)%nat (String (ascii_of_nat (48 + n mod 10)) acc)) as (A & B & C); [|exact D2|].
    { assert (n / 10 < n)%nat by (apply Nat.div_lt; lia). lia. }
    cbv zeta in *. split; [exact A|]. split.
    + rewrite B. unfold dec_of. cbn [list_ascii_of_string fold_left]. rewrite V. f_equal. rewrite E at 3. rewrite Nat2Z.inj_add, Nat2Z.inj_mul. reflexivity.
    + intros _. apply C. apply Nat.div_le_lower_bound; lia.
Qed.
Lemma nat_text_number n : (1 <= n)%nat -> NumberText n (nat_text n).
Proof.
  intro H. destruct (nat_text_value (S n) n "" (Nat.lt_succ_diag_r n) ltac:(constructor)) as (A & B & C). cbv zeta in *. unfold nat_text. split; [split; [reflexivity|exact A]|].
  split; [|exact (C H)]. exact B.
Qed.
Lemma number_text_inj n m t : NumberText n t -> NumberText m t -> n = m.
Proof. intros (_ & A & _) (_ & B & _). lia. Qed.
Lemma str_cancel (p a b : string) : p ++ a = p ++ b -> a = b.
Proof. induction p as [|c p IH]; cbn; [auto|]. intros [= E]. apply IH. exact E. Qed.
Lemma group_fold prefix : forall values i known,
  (forall j, (i <= j)%nat -> ~ In (prefix ++ nat_text j) (map fst known)) -> (1 <= i)%nat ->
  snd (fold_left (fun ik v => if has_char ":" v then (S (fst ik), dict_set (prefix ++ nat_text (fst ik)) v (snd ik)) else ik) values (i, known)) =
  (known ++ combine (map (fun j => (prefix ++ nat_text j)%string) (seq i (length (filter (has_char ":") values)))) (filter (has_char ":") values))%list.
Proof.
  induction values as [|v values IH]; intros i known H P; cbn [fold_left filter].
  - cbn. rewrite app_nil_r. reflexivity.
  - destruct (has_char ":" v); [|apply IH; assumption]. cbn [fst snd length seq map combine]. rewrite dict_set_new by (apply H; lia). rewrite IH; [|intros j Hj|lia].
    + rewrite <- app_assoc. reflexivity.
    + rewrite map_app. cbn [map fst]. intro I. apply in_app_or in I. destruct I as [I|[I|[]]]; [apply (H j); [lia|exact I]|].
      apply str_cancel in I. pose proof (number_text_inj i j (nat_text i)) as X. rewrite I in X at 2. specialize (X (nat_text_number i P) (nat_text_number j ltac:(lia))). lia.
Qed.
Definition numbered (prefix : string) (series : list (string * list string)) : list (string * string) :=
  let gs := filter (has_char ":") (flat_map snd series) in combine (map (fun j => prefix ++ nat_text j) (seq 1 (length gs))) gs.
Lemma map_fst_combine {A B} (l : list A) (m : list B) : length l = length m -> map fst (combine l m) = l.
Proof. revert m. induction l as [|a l IH]; intros [|b m] L; cbn in *; try discriminate; [reflexivity|]. f_equal. apply IH. lia. Qed.
Lemma map_snd_combine {A B} (l : list A) (m : list B) : length l = length m -> map snd (combine l m) = m.
Proof. revert m. induction l as [|a l IH]; intros [|b m] L; cbn in *; try discriminate; [reflexivity|]. f_equal. apply IH. lia. Qed.
Lemma numbered_names prefix series : map fst (numbered prefix series) = map (fun j => prefix ++ nat_text j) (seq 1 (length (filter (has_char ":") (flat_map snd series)))).
Proof. unfold numbered. apply map_fst_combine. rewrite map_length, seq_length. reflexivity. Qed.
Lemma numbered_spec prefix series : NumberedGroups prefix series (numbered prefix series).
Proof.
  unfold NumberedGroups. split.
  - unfold numbered. rewrite map_snd_combine by (rewrite map_length, seq_length; reflexivity). rewrite <- flat_map_concat_map. apply selection_filter. intros x _. apply has_char_iff.
  - assert (length (numbered prefix series) = length (filter (has_char ":") (flat_map snd series))) as ->.
    { unfold numbered. rewrite combine_length, map_length, seq_length. apply Nat.min_id. }
    unfold numbered. generalize (filter (has_char ":") (flat_map snd series)). intro gs. assert (1 <= 1)%nat as P by lia. revert P. generalize 1%nat at 2 3 4. intros i P. revert i P.
    induction gs as [|g gs IH]; intros i P; cbn [length seq map combine]; constructor; [|apply IH; lia]. exists (nat_text i). split; [apply nat_text_number; exact P|reflexivity].
Qed.
Lemma nodup_names prefix i n : (1 <= i)%nat -> NoDup (map (fun j => prefix ++ nat_text j) (seq i n)).
Proof.
  revert i. induction n as [|n IH]; intros i P; cbn [seq map]; constructor; [|apply IH; lia]. intro I. apply in_map_iff in I. destruct I as (j & E & Hj). apply in_seq in Hj.
  apply str_cancel in E. pose proof (number_text_inj i j (nat_text i) (nat_text_number i P)) as X. rewrite <- E in X at 1. specialize (X (nat_text_number j ltac:(lia))). lia.
Qed.
Lemma nodup_app {A} (a b : list A) : NoDup a -> NoDup b -> (forall x, In x a -> In x b -> False) -> NoDup (a ++ b).
Proof.
  induction a as [|x a IH]; intros NA NB D; [exact NB|]. inversion NA as [|? ? N NA']; subst. cbn [app]. constructor.
  - intro I. apply in_app_or in I. destruct I as [I|I]; [contradiction|]. apply (D x); [left; reflexivity|exact I].
  - apply IH; [exact NA'|exact NB|]. intros y Hy. apply D. right. exact Hy.
Qed.
Lemma groups_value series1 series2 : group_names "Group_y2_" series2 (group_names "Group_y1_" series1 []) = (numbered "Group_y1_" series1 ++ numbered "Group_y2_" series2)%list /\
  NoDup (map fst (numbered "Group_y1_" series1 ++ numbered "Group_y2_" series2)).
Proof.
  assert (group_names "Group_y1_" series1 [] = numbered "Group_y1_" series1) as E.
  { unfold group_names. rewrite group_fold; [reflexivity|intros j _ []|lia]. }
  assert (forall j, ~ In ("Group_y2_" ++ nat_text j) (map fst (numbered "Group_y1_" series1))) as D.
  { intros j I. rewrite numbered_names in I. apply in_map_iff in I. destruct I as (k & X & _). cbn in X. discriminate X. }
  split.
  - rewrite E. unfold group_names. rewrite group_fold; [reflexivity|intros j _; apply D|lia].
  - rewrite map_app. apply nodup_app; [rewrite numbered_names; apply nodup_names; lia|rewrite numbered_names; apply nodup_names; lia|].
    intros x I1 I2. rewrite (numbered_names "Group_y2_") in I2. apply in_map_iff in I2. destruct I2 as (k & <- & _). exact (D k I1).
Qed.

(** The statements of PropertiesCurve.v. *)
Lemma C57_rows_proof : forall e line_type groups columns data rq fields statistic known statistic' known' out,
  Rectangular data columns -> data <> [] -> Fields rq fields -> Plain rq fields -> DerivedRequest rq ->
  NoDup (map fst groups) -> KeepsRows e ->
  proceed_with_axis e true line_type groups columns data rq statistic known = Ok (statistic', known', out) ->
  exists plain derived, out = (plain ++ concat derived)%list /\
    Forall2 (RowOfPoint e true columns data rq fields) (combinations (map snd fields)) plain /\
    DerivedRows rq fields groups plain
      (fun w1 w2 op dp p1 p2 o1 o2 r => op <> "DIFF_SIG" -> op <> "ETB" ->
         exists v, r = Results None v None /\ DerivedValue op (value (stat_of o1)) (value (stat_of o2)) v) derived.
Proof.
  intros e lt groups columns data rq fields st known st' known' out HR N HF HP HD ND KR H.
  apply (derived_rows _ _ _ _ _ _ _ _ _ _ _ _ _ _ HR N HF HP HD ND H). cbv zeta.
  intros w1 w2 op dp p1 p2 r1 r2 r st0 C1 C2 R1 R2 Hop _ D N1 N2. cbn [plain_row stat_of].
  destruct (saved_single _ _ _ _ _ R1) as [(E1 & S1 & O1)|(E1 & s1 & q1 & x1 & I1 & P1 & S1 & O1)].
  { destruct D as [(_ & ->)|(v1 & v2 & X & _)]; [|congruence]. rewrite O1. exists None. split; [reflexivity|]. constructor. }
  destruct (saved_single _ _ _ _ _ R2) as [(E2 & S2 & O2)|(E2 & s2 & q2 & x2 & I2 & P2 & S2 & O2)].
  { destruct D as [(_ & ->)|(v1 & v2 & _ & X & _)]; [|congruence]. rewrite O2. exists None. split; [reflexivity|]. constructor. }
  destruct D as [(X & _)|(v1 & v2 & Sv1 & Sv2 & _ & _ & _ & o & Eo & Er)].
  { exfalso. pose proof (KR _ _ _ (in_order_nil _ _ _ I1 E1) P1) as K1. pose proof (KR _ _ _ (in_order_nil _ _ _ I2 E2) P2) as K2.
    rewrite S1, S2 in X. destruct X as [X|[X|[X|X]]]; try discriminate X; injection X as X; contradiction. }
  cbn [orb] in Eo. destruct (derived_one e columns st0 op r1 r2 v1 v2) as [v|] eqn:Ev; [|discriminate Eo]. cbn [bind] in Eo. injection Eo as <-.
  destruct (String.eqb_spec op "DIFF_SIG"); [contradiction|]. cbn [fst] in Er. injection Er as <-. exists v. split; [reflexivity|].
  eapply derived_one_value; [exact Hop| |exact Ev]. intros [X|[X|[]]]; congruence.
Qed.

Lemma C57_rows_case_proof :
  Rectangular drive_data drive_columns /\ Fields curve_request drive_fields /\ Plain curve_request drive_fields /\
  DerivedRequest curve_request /\ KeepsRows sum_engine /\
  (let dp := ["DIFF(A TOTAL-B TOTAL)"; "12"; "TOTAL"] in
   OnlyPoint drive_fields (Named [] ["A"; "TOTAL"] dp) ["A"; "12"; "TOTAL"] /\
   OnlyPoint drive_fields (Named [] ["B"; "TOTAL"] dp) ["B"; "12"; "TOTAL"]) /\
  exists known, proceed_with_axis sum_engine true "ctc" [] drive_columns drive_data curve_request "None" [] =
  Ok ("total", known, map (fun x => OutRow [("model", fst (fst (fst x))); ("fcst_lead", snd (fst (fst x))); ("stat_name", "TOTAL")]
                              (Some "TMP") (Results None (Some (snd (fst x))) None) (snd x))
                   [(("A", "12"), 12, 2%nat); (("A", "24"), 3, 1%nat); (("B", "12"), 2, 2%nat); (("B", "24"), 4, 1%nat);
                    (("DIFF(A TOTAL-B TOTAL)", "12"), 10.00000, 0%nat); (("DIFF(A TOTAL-B TOTAL)", "24"), -1.00000, 0%nat)]).
Proof.
  split; [intros r Hr; simpl in Hr; repeat (destruct Hr as [<-|Hr]; [reflexivity|]); destruct Hr|]. split; [split; [repeat constructor; simpl; intuition discriminate|]; left; split; [discriminate|reflexivity]|]. split; [apply plain_check; vm_compute; reflexivity|].
  split; [eapply one_derived; [reflexivity|]; exists "DIFF", ["A"; "TOTAL"], ["B"; "TOTAL"], "DIFF(A TOTAL-B TOTAL)", "model"; exists "A TOTAL", "B TOTAL"; split; [reflexivity|]; split; [simpl; tauto|]; split; [split; [discriminate|]; split; [reflexivity|]; repeat constructor; unfold Has; cbn; intuition discriminate|]; split; [split; [discriminate|]; split; [reflexivity|]; repeat constructor; unfold Has; cbn; intuition discriminate|]; split; [exists "-"; split; [simpl; tauto|reflexivity]|]; split; [|apply Forall_forall; intros w Hw D;
    assert (is_derived_point (Some [w]) = true) as X by (apply derived_point_iff; exists w; split; [left; reflexivity|exact D]);
    simpl in Hw; repeat (destruct Hw as [<-|Hw]; [discriminate X|]); destruct Hw]; exists "A", "B", [], ["A"; "B"], []; split; [exists [], ["TOTAL"], ["TOTAL"]; split; [split; reflexivity|discriminate]|]; split; [reflexivity|]; split; [repeat constructor; simpl; intuition discriminate|simpl; tauto]|].
  split; [intros st rows rows' Nr E; injection E as <-; exact Nr|].
  split; [split; (apply only_point; [constructor|vm_compute; reflexivity])|].
  eexists. vm_compute. reflexivity.
Qed.

Lemma C57_named_proof : forall e single line_type groups columns data rq fields statistic known statistic' known' out,
  Rectangular data columns -> data <> [] -> Fields rq fields -> Plain rq fields -> DerivedRequest rq ->
  NoDup (map fst groups) ->
  proceed_with_axis e single line_type groups columns data rq statistic known = Ok (statistic', known', out) ->
  Forall (fun d => exists op w1 w2 name var lists,
      DerivedSeries rq d op w1 w2 name var /\ DerivedFields rq w1 w2 name var lists /\
      forall dp, In dp (combinations lists) -> exists p, Combination fields p /\ Forall (Named groups w1 dp) p)
    (derived_series rq).
Proof.
  intros e single lt groups columns data rq fields st known st' known' out HR N HF HP HD ND H.
  destruct (axis_derived _ _ _ _ _ _ _ _ _ _ _ _ _ HR N HF HP HD H) as (prs & outs & A). cbv zeta in A. destruct A as (FP & _ & FO).
  clear H. revert FO.
  set (dist := fold_left (fun d pr => dist_set (fst pr) (snd pr) d) (combine (product (map snd fields)) prs) []). intro FO.
  assert (forall k x, In (k, x) dist -> Combination fields k) as HDist.
  { intros k x I. unfold dist in I. rewrite (dist_entries _ _ _ [] FP) in I by (intros ? ? []). destruct I as [[]|[I _]]. apply product_combination. exact I. }
  induction FO as [|d rows ds outs (op & w1 & w2 & name & var & lists & DS & DF & L & FR) FO IH]; constructor; [|exact IH].
  exists op, w1, w2, name, var, lists. split; [exact DS|]. split; [exact DF|]. rewrite combinations_product. intros dp Hdp.
  destruct (forall2_inl' _ _ _ _ FR Hdp) as (o & _ & st0 & r & En & G & _). rewrite <- En in L.
  destruct (gbsd_first _ _ _ _ _ _ _ _ _ _ L ND G) as (k & x & I & F). exists k. split; [eapply HDist; exact I|exact F].
Qed.

Lemma C57_named_case_proof :
  proceed_with_axis sum_engine true "ctc" [] drive_columns drive_data
    (Request [("model", ["A"; "B"])] "fcst_lead" ["12"; "24"] ["TOTAL"] [["A ME"; "B ME"; "DIFF"]] ["TMP"]) "None" [] = Err AttributeError.
Proof.
  vm_compute. reflexivity.
Qed.

Lemma C57_mixed_refuted_proof :
  Rectangular thresh_data thresh_columns /\ Fields thresh_request thresh_fields /\ Plain thresh_request thresh_fields /\
  DerivedRequest thresh_request /\
  exists known out,
    proceed_with_axis sum_engine true "ctc" [] thresh_columns thresh_data thresh_request "None" [] = Ok ("total", known, out) /\
    let row m thresh lead v n := OutRow (combine (map fst thresh_fields) [m; thresh; lead; "TOTAL"]) None (Results None (Some v) None) n in
    In (row "A" "12" "24" 2 1%nat) out /\ In (row "B" "12" "24" 20 1%nat) out /\
    In (row "A" "24" "24" 4 1%nat) out /\ In (row "B" "12" "12" 10 1%nat) out /\
    In (row "DIFF(A 12 TOTAL-B 12 TOTAL)" "12" "24" (-6.00000) 0%nat) out.
Proof.
  split; [intros r Hr; simpl in Hr; repeat (destruct Hr as [<-|Hr]; [reflexivity|]); destruct Hr|]. split; [split; [repeat constructor; simpl; intuition discriminate|]; left; split; [discriminate|reflexivity]|]. split; [apply plain_check; vm_compute; reflexivity|].
  split; [eapply one_derived; [reflexivity|]; exists "DIFF", ["A"; "12"; "TOTAL"], ["B"; "12"; "TOTAL"], "DIFF(A 12 TOTAL-B 12 TOTAL)", "model"; exists "A 12 TOTAL", "B 12 TOTAL"; split; [reflexivity|]; split; [simpl; tauto|]; split; [split; [discriminate|]; split; [reflexivity|]; repeat constructor; unfold Has; cbn; intuition discriminate|]; split; [split; [discriminate|]; split; [reflexivity|]; repeat constructor; unfold Has; cbn; intuition discriminate|]; split; [exists "-"; split; [simpl; tauto|reflexivity]|]; split; [|apply Forall_forall; intros w Hw D;
    assert (is_derived_point (Some [w]) = true) as X by (apply derived_point_iff; exists w; split; [left; reflexivity|exact D]);
    simpl in Hw; repeat (destruct Hw as [<-|Hw]; [discriminate X|]); destruct Hw]; exists "A", "B", [], ["A"; "B"], [("thresh", ["12"; "24"])]; split; [exists [], ["12"; "TOTAL"], ["12"; "TOTAL"]; split; [split; reflexivity|discriminate]|]; split; [reflexivity|]; split; [repeat constructor; simpl; intuition discriminate|simpl; tauto]|].
  eexists _, _. split; [vm_compute; reflexivity|]. cbv zeta. repeat split; vm_compute; tauto.
Qed.

Lemma C58_distinct_proof : forall e single line_type groups columns data rq fields statistic known statistic' known' out,
  Rectangular data columns -> data <> [] -> Fields rq fields -> Plain rq fields -> DerivedRequest rq ->
  NoDup (map fst groups) -> KeepsCases e columns ->
  proceed_with_axis e single line_type groups columns data rq statistic known = Ok (statistic', known', out) ->
  exists plain derived, out = (plain ++ concat derived)%list /\
    Forall2 (RowOfPoint e single columns data rq fields) (combinations (map snd fields)) plain /\
    DerivedRows rq fields groups plain
      (fun w1 w2 op dp p1 p2 o1 o2 r => r <> NoResult -> op <> "SINGLE" ->
         (forall x, Named groups w1 dp x \/ Named groups w2 dp x -> ~ Has ":" x) ->
         forall p rows, p = p1 \/ p = p2 -> Selection (OfPoint columns fields (fcst_vars rq) p) data rows -> DistinctCases columns rows) derived.
Proof.
  intros e single lt groups columns data rq fields st known st' known' out HR N HF HP HD ND KC H.
  apply (derived_rows _ _ _ _ _ _ _ _ _ _ _ _ _ _ HR N HF HP HD ND H). cbv zeta.
  intros w1 w2 op dp p1 p2 r1 r2 r st0 C1 C2 R1 R2 Hop _ D NR NS NC p rows Hp S.
  destruct D as [(_ & ->)|(v1 & v2 & S1 & S2 & N1 & N2 & V & _)]; [contradiction NR; reflexivity|]. destruct (V NS) as [V1 V2].
  rewrite diff_vals_plain in V1, V2.
  - destruct Hp as [->| ->].
    + rewrite (point_rows _ _ _ _ _ _ HR HP C1 S). apply (saved_distinct _ _ _ _ _ _ _ KC R1 S1). apply (validate_distinct _ _ _ V1 N1). reflexivity.
    + rewrite (point_rows _ _ _ _ _ _ HR HP C2 S). apply (saved_distinct _ _ _ _ _ _ _ KC R2 S2). apply (validate_distinct _ _ _ V2 N2). reflexivity.
  - intros x Hx. apply NC. right. apply (permuted_named groups w2 dp x ND). apply mem_iff. exact Hx.
  - intros x Hx. apply NC. left. apply (permuted_named groups w1 dp x ND). apply mem_iff. exact Hx.
Qed.

Lemma C58_distinct_case_proof :
  KeepsCases sum_engine drive_columns /\
  proceed_with_axis sum_engine true "ctc" [] drive_columns (drive_row "d1" 24 "A" "TMP" 3 :: drive_data) curve_request "None" [] = Err NameError.
Proof.
  split; [|vm_compute; reflexivity]. intros st rows rows' E. injection E as <-. induction rows; constructor; [tauto|assumption].
Qed.

Lemma C58_dates_refuted_proof : forall e single line_type groups columns data rq fields statistic known statistic' known' out,
  Rectangular data columns -> data <> [] -> Fields rq fields -> Plain rq fields -> DerivedRequest rq ->
  NoDup (map fst groups) -> KeepsCases e columns ->
  proceed_with_axis e single line_type groups columns data rq statistic known = Ok (statistic', known', out) ->
  exists plain derived, out = (plain ++ concat derived)%list /\
    Forall2 (RowOfPoint e single columns data rq fields) (combinations (map snd fields)) plain /\
    DerivedRows rq fields groups plain
      (fun w1 w2 op dp p1 p2 o1 o2 r => op <> "SINGLE" -> (exists x, Named groups w1 dp x /\ Has ":" x) ->
         (forall rows, Selection (OfPoint columns fields (fcst_vars rq) p1) data rows -> DistinctCases columns rows) ->
         r = NoResult) derived.
Proof.
  intros e single lt groups columns data rq fields st known st' known' out HR N HF HP HD ND KC H.
  apply (derived_rows _ _ _ _ _ _ _ _ _ _ _ _ _ _ HR N HF HP HD ND H). cbv zeta.
  intros w1 w2 op dp p1 p2 r1 r2 r st0 C1 C2 R1 R2 Hop _ D NS (x & Hx & Cx) DC.
  destruct D as [(_ & ->)|(v1 & v2 & S1 & S2 & N1 & N2 & V & _)]; [reflexivity|]. exfalso. destruct (V NS) as [V1 _].
  specialize (DC _ (prows_selection columns data rq fields HR HP p1 C1)). apply (saved_distinct _ _ _ _ _ _ _ KC R1 S1) in DC.
  apply (validate_distinct _ _ _ V1 N1) in DC. apply (permuted_named groups w1 dp x ND) in Hx. apply mem_iff in Hx.
  pose proof (diff_vals_colon _ _ Hx Cx). lia.
Qed.

Lemma C58_dates_case_proof :
  let rq := Request [("model", ["A"; "B"])] "fcst_valid_beg" ["2012-03-03 12:00:00"] ["TOTAL"] [["A TOTAL"; "B TOTAL"; "DIFF"]] [] in
  let data := [drive_row "2012-03-03 12:00:00" 12 "A" "TMP" 5; drive_row "2012-03-03 12:00:00" 12 "B" "TMP" 3] in
  DerivedRequest rq /\ Plain rq [("model", ["A"; "B"]); ("fcst_valid_beg", ["2012-03-03 12:00:00"]); ("stat_name", ["TOTAL"])] /\
  proceed_with_axis sum_engine true "ctc" [] drive_columns data rq "None" [] = Err NameError.
Proof.
  cbv zeta. split; [eapply one_derived; [reflexivity|]; exists "DIFF", ["A"; "TOTAL"], ["B"; "TOTAL"], "DIFF(A TOTAL-B TOTAL)", "model"; exists "A TOTAL", "B TOTAL"; split; [reflexivity|]; split; [simpl; tauto|]; split; [split; [discriminate|]; split; [reflexivity|]; repeat constructor; unfold Has; cbn; intuition discriminate|]; split; [split; [discriminate|]; split; [reflexivity|]; repeat constructor; unfold Has; cbn; intuition discriminate|]; split; [exists "-"; split; [simpl; tauto|reflexivity]|]; split; [|apply Forall_forall; intros w Hw D;
    assert (is_derived_point (Some [w]) = true) as X by (apply derived_point_iff; exists w; split; [left; reflexivity|exact D]);
    simpl in Hw; repeat (destruct Hw as [<-|Hw]; [discriminate X|]); destruct Hw]; exists "A", "B", [], ["A"; "B"], []; split; [exists [], ["TOTAL"], ["TOTAL"]; split; [split; reflexivity|discriminate]|]; split; [reflexivity|]; split; [repeat constructor; simpl; intuition discriminate|simpl; tauto]|]. split; [|vm_compute; reflexivity].
  assert (exists l, MembersOf "2012-03-03 12:00:00" l) as G.
  { exists ["2012-03-03 12:00:00"]. left. split; [unfold Has; cbn; tauto|]. left. split; [discriminate|]. split; [|reflexivity]. constructor; [|constructor].
    exists "2012", "03", "03", " ", "12", "00", "00". 
    assert (forall n t, String.length t = n -> forallb (fun c => mem (String c "") (map (fun a => String a "") (list_ascii_of_string "0123456789"))) (list_ascii_of_string t) = true -> Digits n t) as DG.
    { intros n t L F. split; [exact L|]. rewrite Forall_forall. rewrite forallb_forall in F. intros c Hc. specialize (F c Hc). apply mem_iff in F. apply in_map_iff in F. destruct F as (a & [= ->] & I). exact I. }
    split; [apply DG; reflexivity|]. split; [apply DG; reflexivity|]. split; [apply DG; reflexivity|]. split; [exists 32%nat; split; [simpl; tauto|reflexivity]|].
    split; [apply DG; reflexivity|]. split; [apply DG; reflexivity|]. split; [apply DG; reflexivity|]. reflexivity. }
  assert (Plain (Request [("model", ["A"; "B"])] "x" [] ["TOTAL"] [] []) [("model", ["A"; "B"]); ("stat_name", ["TOTAL"])]) as (P & _) by (apply plain_check; vm_compute; reflexivity).
  split; [|split].
  - intros n vals v [[= <- <-]|[[= <- <-]|[[= <- <-]|[]]]] Hv.
    + apply (P "model" ["A"; "B"]); [left; reflexivity|exact Hv].
    + destruct Hv as [<-|[]]. split; [exact G|]. intro D. assert (is_derived_point (Some ["2012-03-03 12:00:00"]) = true) as X by (apply derived_point_iff; eexists; split; [left; reflexivity|exact D]). discriminate X.
    + apply (P "stat_name" ["TOTAL"]); [right; left; reflexivity|exact Hv].
  - intros n [<-|[]]. unfold Has; cbn; intuition discriminate.
  - intros vals v [[=]|[[= <-]|[[=]|[]]]] [<-|[]]. unfold Has; cbn; intuition discriminate.
Qed.

Lemma C58_groups_refuted_proof :
  let data := [drive_row "d1" 12 "A" "TMP" 1; drive_row "d1" 12 "A" "TMP" 1; drive_row "d1" 12 "C" "TMP" 1; drive_row "d2" 12 "A" "TMP" 1;
               drive_row "d1" 12 "B" "TMP" 1; drive_row "d2" 12 "B" "TMP" 1] in
  let rq := Request [("model", ["A:C"; "B"])] "fcst_lead" ["12"] ["TOTAL"] [["Group_y1_1 TOTAL"; "B TOTAL"; "DIFF"]] [] in
  exists known out,
    proceed_with_axis sum_engine true "ctc" [("Group_y1_1", "A:C")] drive_columns data rq "None" [] = Ok ("total", known, out) /\
    In (OutRow [("model", "DIFF(Group_y1_1 TOTAL-B TOTAL)"); ("fcst_lead", "12"); ("stat_name", "TOTAL")] None (Results None (Some 2.00000) None) 0) out.
Proof.
  cbv zeta. eexists _, _. split; [vm_compute; reflexivity|]. vm_compute. tauto.
Qed.

Lemma C58_exempt_refuted_proof : forall stat, In stat ["SSVAR_Spread"; "SSVAR_RMSE"] ->
  let data := map (fun m => [CStr "d1"; CNum 12; CStr stat; CStr m; CStr "TMP"; CNum 1]) ["A"; "A"; "B"; "B"] in
  let rq := Request [("model", ["A"; "B"])] "fcst_lead" ["12"] [stat] [["A " ++ stat; "B " ++ stat; "DIFF"]] [] in
  proceed_with_axis sum_engine true "ssvar" [] drive_columns data rq "None" [] = Err NameError.
Proof.
  intros stat [<-|[<-|[]]]; vm_compute; reflexivity.
Qed.

Lemma C59_bootstrapped_proof : forall e line_type groups columns data rq fields statistic known statistic' known' out,
  Rectangular data columns -> data <> [] -> Fields rq fields -> Plain rq fields -> DerivedRequest rq ->
  NoDup (map fst groups) -> KeepsRows e ->
  proceed_with_axis e false line_type groups columns data rq statistic known = Ok (statistic', known', out) ->
  exists plain derived, out = (plain ++ concat derived)%list /\
    Forall2 (RowOfPoint e false columns data rq fields) (combinations (map snd fields)) plain /\
    DerivedRows rq fields groups plain
      (fun w1 w2 op dp p1 p2 o1 o2 r => op <> "DIFF_SIG" -> op <> "ETB" ->
         (r = NoResult /\ (stat_of o1 = NoResult \/ stat_of o2 = NoResult)) \/
         exists a b st, Prepared e columns data rq fields p1 a /\ Prepared e columns data rq fields p2 b /\ length a = length b /\
           (In (last dp "") (list_stat rq) -> InSmallLetters (last dp "") st) /\
           ((exists d, boot_derived e st op a b = Ok (r, d)) \/ (boot_derived e st op a b = Err KeyError /\ r = NoResult))) derived.
Proof.
  intros e lt groups columns data rq fields st known st' known' out HR N HF HP HD ND KR H.
  apply (derived_rows _ _ _ _ _ _ _ _ _ _ _ _ _ _ HR N HF HP HD ND H). cbv zeta.
  intros w1 w2 op dp p1 p2 r1 r2 r st0 C1 C2 R1 R2 Hop Hst D N1 N2. cbn [plain_row stat_of].
  assert (forall p pr, Combination fields p -> get_bootstrapped_stats e false true columns (lower (last p "")) (prows columns data rq fields p) = Ok pr ->
    saved pr <> Some [] /\ (saved pr = None -> outcome pr = NoResult) /\ forall v, saved pr = Some v -> Prepared e columns data rq fields p v) as G.
  { intros p pr Cp G. split; [|split].
    - intro S. destruct (saved_rows _ _ _ _ _ _ _ G S) as (Nr & sorted & O & P). exact (KR _ _ _ (in_order_nil _ _ _ O Nr) P eq_refl).
    - apply (saved_none _ _ _ _ _ _ G).
    - intros v S. destruct (saved_rows _ _ _ _ _ _ _ G S) as (Nr & sorted & O & P). destruct (point_split _ _ _ HF Cp) as (before & stat & -> & Hs).
      rewrite last_last in P. exists before, stat, (lower stat), (prows columns data rq fields (before ++ [stat])), sorted. split; [reflexivity|].
      split; [apply small_lower|]. split; [apply (prows_selection columns data rq fields HR HP); exact Cp|]. split; assumption. }
  destruct (G p1 r1 C1 R1) as (A1 & A2 & A3). destruct (G p2 r2 C2 R2) as (B1 & B2 & B3). clear G.
  destruct D as [(X & ->)|(v1 & v2 & S1 & S2 & _ & _ & _ & o & Eo & Er)].
  - left. split; [reflexivity|]. destruct X as [X|[X|[X|X]]]; [left; apply A2; exact X|right; apply B2; exact X|contradiction|contradiction].
  - right. exists v1, v2, st0. split; [apply A3; exact S1|]. split; [apply B3; exact S2|].
    destruct (String.eqb_spec op "ETB"); [contradiction|]. cbn [orb] in Eo. destruct (String.eqb_spec op "DIFF_SIG"); [contradiction|].
    unfold derived_boot in Eo. destruct (Nat.eqb_spec (length v1) (length v2)) as [L|L]; [|discriminate Eo]. split; [exact L|].
    split; [intro I; rewrite (Hst I); apply small_lower|]. injection Er as <-.
    destruct (boot_derived e st0 op v1 v2) as [[rr dd]|x] eqn:B.
    + injection Eo as <-. left. exists dd. reflexivity.
    + destruct x; try discriminate Eo. injection Eo as <-. right. split; reflexivity.
Qed.

Lemma C59_bootstrapped_case_proof :
  exists known, proceed_with_axis sum_engine false "ctc" [] drive_columns drive_data curve_request "None" [] =
  Ok ("total", known, map (fun x => OutRow [("model", fst (fst (fst x))); ("fcst_lead", snd (fst (fst x))); ("stat_name", "TOTAL")]
                              (Some "TMP") (snd (fst x)) (snd x))
                   [(("A", "12"), Results (Some 0) (Some 12) (Some 9), 2%nat); (("A", "24"), Results (Some 0) (Some 3) (Some 9), 1%nat);
                    (("B", "12"), Results (Some 0) (Some 2) (Some 9), 2%nat); (("B", "24"), Results (Some 0) (Some 4) (Some 9), 1%nat);
                    (("DIFF(A TOTAL-B TOTAL)", "12"), Results None (Some 12) None, 0%nat); (("DIFF(A TOTAL-B TOTAL)", "24"), Results None (Some 3) None, 0%nat)]).
Proof.
  eexists. vm_compute. reflexivity.
Qed.

Lemma C59_pairs_proof : forall e columns data rq fields p1 p2 a b rows1 rows2,
  KeepsCases e columns ->
  Prepared e columns data rq fields p1 a -> Prepared e columns data rq fields p2 b ->
  Selection (OfPoint columns fields (fcst_vars rq) p1) data rows1 -> Selection (OfPoint columns fields (fcst_vars rq) p2) data rows2 ->
  DistinctCases columns rows1 -> DistinctCases columns rows2 -> SameCases columns rows1 rows2 ->
  Forall2 (SameCase columns) a b.
Proof.
  intros e columns data rq fields p1 p2 a b rows1 rows2 KC (b1 & t1 & s1 & q1 & o1 & E1 & M1 & S1 & (P1 & K1 & L1 & _) & G1) (b2 & t2 & s2 & q2 & o2 & E2 & M2 & S2 & (P2 & K2 & L2 & _) & G2) R1 R2 D1 D2 SC.
  rewrite (selection_unique _ _ _ _ _ S1 R1) in P1 by reflexivity. rewrite (selection_unique _ _ _ _ _ S2 R2) in P2 by reflexivity.
  eapply pairs_keeps; [|apply (KC _ _ _ G1)|apply (KC _ _ _ G2)]. apply pairs_sorted; [exact L1|exact L2| | |].
  - eapply distinct_perm; eassumption.
  - eapply distinct_perm; eassumption.
  - eapply same_cases_perm; eassumption.
Qed.

Lemma C59_significance_proof : forall e line_type groups columns data rq fields statistic known statistic' known' out,
  Rectangular data columns -> data <> [] -> Fields rq fields -> Plain rq fields -> DerivedRequest rq ->
  NoDup (map fst groups) ->
  proceed_with_axis e true line_type groups columns data rq statistic known = Ok (statistic', known', out) ->
  exists plain derived, out = (plain ++ concat derived)%list /\
    Forall2 (RowOfPoint e true columns data rq fields) (combinations (map snd fields)) plain /\
    DerivedRows rq fields groups plain
      (fun w1 w2 op dp p1 p2 o1 o2 r => op = "DIFF_SIG" -> forall q, value r = Some q -> q == 1 \/ q == - (1)) derived.
Proof.
  intros e lt groups columns data rq fields st known st' known' out HR N HF HP HD ND H.
  apply (derived_rows _ _ _ _ _ _ _ _ _ _ _ _ _ _ HR N HF HP HD ND H). cbv zeta.
  intros w1 w2 op dp p1 p2 r1 r2 r st0 C1 C2 R1 R2 Hop Hst D -> q Hq.
  destruct D as [(X & ->)|(v1 & v2 & S1 & S2 & _ & _ & _ & o & Eo & Er)]; [discriminate Hq|]. cbn [orb] in Eo.
  destruct (derived_one e columns st0 "DIFF_SIG" r1 r2 v1 v2) as [v|] eqn:Ev; [|discriminate Eo]. cbn [bind] in Eo. injection Eo as <-.
  cbn [String.eqb Ascii.eqb Bool.eqb fst snd value] in Er.
  destruct (significance (value (outcome r1)) (value (outcome r2)) st0 v (Some [v])) as [s|] eqn:Es; [|discriminate Er]. cbn [bind] in Er. injection Er as <-.
  cbn [value] in Hq. subst s. eapply significance_one. exact Es.
Qed.

Lemma C59_equivalence_refuted_proof : forall e single line_type groups columns data rq fields statistic known statistic' known' out,
  Rectangular data columns -> data <> [] -> Fields rq fields -> Plain rq fields -> DerivedRequest rq ->
  NoDup (map fst groups) ->
  proceed_with_axis e single line_type groups columns data rq statistic known = Ok (statistic', known', out) ->
  exists plain derived, out = (plain ++ concat derived)%list /\
    Forall2 (RowOfPoint e single columns data rq fields) (combinations (map snd fields)) plain /\
    DerivedRows rq fields groups plain
      (fun w1 w2 op dp p1 p2 o1 o2 r => op = "ETB" -> r = NoResult) derived.
Proof.
  intros e single lt groups columns data rq fields st known st' known' out HR N HF HP HD ND H.
  apply (derived_rows _ _ _ _ _ _ _ _ _ _ _ _ _ _ HR N HF HP HD ND H). cbv zeta.
  intros w1 w2 op dp p1 p2 r1 r2 r st0 C1 C2 R1 R2 Hop Hst D ->.
  destruct D as [(X & ->)|(v1 & v2 & S1 & S2 & _ & _ & _ & o & Eo & Er)]; [reflexivity|]. cbn [String.eqb Ascii.eqb Bool.eqb] in *. rewrite orb_true_r in Eo.
  destruct (derived_one e columns st0 "ETB" r1 r2 v1 v2) as [v|] eqn:Ev; [|discriminate Eo]. cbn [bind] in Eo. injection Eo as <-. injection Er as <-.
  rewrite (derived_one_etb _ _ _ _ _ _ _ _ Ev). reflexivity.
Qed.

Lemma C59_other_case_proof :
  let rq op := Request [("model", ["A"; "B"])] "fcst_lead" ["12"] ["TOTAL"] [["A TOTAL"; "B TOTAL"; op]] ["TMP"] in
  (forall op, In op ["DIFF_SIG"; "ETB"] -> DerivedRequest (rq op) /\ Fields (rq op) [("model", ["A"; "B"]); ("fcst_lead", ["12"]); ("stat_name", ["TOTAL"])]) /\
  (exists known out, proceed_with_axis sum_engine true "ctc" [] drive_columns drive_data (rq "DIFF_SIG") "None" [] = Ok ("total", known, out) /\
    nth_error out 2 = Some (OutRow [("model", "DIFF_SIG(A TOTAL-B TOTAL)"); ("fcst_lead", "12"); ("stat_name", "TOTAL")] (Some "TMP")
                              (Results None (Some 1) None) 0)) /\
  proceed_with_axis sum_engine true "ctc" [] (map (fun n => if String.eqb n "x" then "stat_value" else n) drive_columns) drive_data (rq "ETB") "None" [] = Err KeyError /\
  (exists known out, proceed_with_axis sum_engine true "ctc" [] drive_columns
      (filter (fun r => negb (existsb (fun c => match c with CStr m => String.eqb m "A" | _ => false end) r)) drive_data) (rq "ETB") "None" [] = Ok ("total", known, out) /\
    map (fun o => value (stat_of o)) out = [None; Some 2; None]).
Proof.
  cbv zeta. split; [|split; [|split; [vm_compute; reflexivity|eexists _, _; split; vm_compute; reflexivity]]].
  - intros op [<-|[<-|[]]]; (split; [|split; [repeat constructor; simpl; intuition discriminate|]; left; split; [discriminate|reflexivity]]).
    + eapply one_derived; [reflexivity|]; exists "DIFF_SIG", ["A"; "TOTAL"], ["B"; "TOTAL"], "DIFF_SIG(A TOTAL-B TOTAL)", "model"; exists "A TOTAL", "B TOTAL"; split; [reflexivity|]; split; [simpl; tauto|]; split; [split; [discriminate|]; split; [reflexivity|]; repeat constructor; unfold Has; cbn; intuition discriminate|]; split; [split; [discriminate|]; split; [reflexivity|]; repeat constructor; unfold Has; cbn; intuition discriminate|]; split; [exists "-"; split; [simpl; tauto|reflexivity]|]; split; [|apply Forall_forall; intros w Hw D;
    assert (is_derived_point (Some [w]) = true) as X by (apply derived_point_iff; exists w; split; [left; reflexivity|exact D]);
    simpl in Hw; repeat (destruct Hw as [<-|Hw]; [discriminate X|]); destruct Hw]; exists "A", "B", [], ["A"; "B"], []; split; [exists [], ["TOTAL"], ["TOTAL"]; split; [split; reflexivity|discriminate]|]; split; [reflexivity|]; split; [repeat constructor; simpl; intuition discriminate|simpl; tauto].
    + eapply one_derived; [reflexivity|]; exists "ETB", ["A"; "TOTAL"], ["B"; "TOTAL"], "ETB(A TOTAL and B TOTAL)", "model"; exists "A TOTAL", "B TOTAL"; split; [reflexivity|]; split; [simpl; tauto|]; split; [split; [discriminate|]; split; [reflexivity|]; repeat constructor; unfold Has; cbn; intuition discriminate|]; split; [split; [discriminate|]; split; [reflexivity|]; repeat constructor; unfold Has; cbn; intuition discriminate|]; split; [exists " and "; split; [simpl; tauto|reflexivity]|]; split; [|apply Forall_forall; intros w Hw D;
    assert (is_derived_point (Some [w]) = true) as X by (apply derived_point_iff; exists w; split; [left; reflexivity|exact D]);
    simpl in Hw; repeat (destruct Hw as [<-|Hw]; [discriminate X|]); destruct Hw]; exists "A", "B", [], ["A"; "B"], []; split; [exists [], ["TOTAL"], ["TOTAL"]; split; [split; reflexivity|discriminate]|]; split; [reflexivity|]; split; [repeat constructor; simpl; intuition discriminate|simpl; tauto].
  - eexists _, _. split; vm_compute; reflexivity.
Qed.

Lemma C59_pairs_case_proof :
  let rows1 := [drive_row "d2" 12 "A" "TMP" 5; drive_row "d1" 12 "A" "TMP" 7] in
  let rows2 := [drive_row "d1" 12 "B" "TMP" 1; drive_row "d2" 12 "B" "TMP" 1] in
  Prepared sum_engine drive_columns drive_data curve_request drive_fields ["A"; "12"; "TOTAL"] (rev rows1) /\
  Selection (OfPoint drive_columns drive_fields ["TMP"] ["A"; "12"; "TOTAL"]) drive_data rows1 /\
  DistinctCases drive_columns rows1 /\ DistinctCases drive_columns rows2 /\ SameCases drive_columns rows1 rows2.
Proof.
  cbv zeta. set (rows1 := [drive_row "d2" 12 "A" "TMP" 5; drive_row "d1" 12 "A" "TMP" 7]). set (rows2 := [drive_row "d1" 12 "B" "TMP" 1; drive_row "d2" 12 "B" "TMP" 1]).
  assert (Rectangular drive_data drive_columns) as HR by (intros r Hr; simpl in Hr; repeat (destruct Hr as [<-|Hr]; [reflexivity|]); destruct Hr).
  assert (Plain curve_request drive_fields) as HP by (apply plain_check; vm_compute; reflexivity).
  assert (Selection (OfPoint drive_columns drive_fields ["TMP"] ["A"; "12"; "TOTAL"]) drive_data rows1) as HS.
  { assert (rows1 = prows drive_columns drive_data curve_request drive_fields ["A"; "12"; "TOTAL"]) as -> by (vm_compute; reflexivity).
    apply (prows_selection drive_columns drive_data curve_request drive_fields HR HP). repeat constructor; simpl; tauto. }
  split; [|split; [exact HS|]].
  - exists ["A"; "12"], "TOTAL", "total", rows1, (rev rows1). split; [reflexivity|]. split; [apply (small_lower "TOTAL")|]. split; [exact HS|]. split; [|reflexivity].
    assert (rev rows1 = RocModel.sort_by (row_le drive_columns) rows1) as -> by (vm_compute; reflexivity).
    apply sort_in_order; [|vm_compute; reflexivity]. intros r [<-|[<-|[]]]; (eexists; apply sortkey_iff; reflexivity).
  - split; [apply (validate_distinct _ _ 1); [vm_compute; reflexivity|discriminate|reflexivity]|].
    split; [apply (validate_distinct _ _ 1); [vm_compute; reflexivity|discriminate|reflexivity]|].
    assert (forall t m m' x x', SameCase drive_columns (drive_row t 12 m "TMP" x) (drive_row t 12 m' "TMP" x')) as G.
    { intros t m m' x x'. exists [CStr t; CNum 12; CStr "TOTAL"], [CStr t; CNum 12; CStr "TOTAL"].
      split; [|split].
      - exists "fcst_valid_beg". split; [left; split; [reflexivity|simpl; tauto]|]. split; [apply cells_sound; reflexivity|simpl; intuition discriminate].
      - exists "fcst_valid_beg". split; [left; split; [reflexivity|simpl; tauto]|]. split; [apply cells_sound; reflexivity|simpl; intuition discriminate].
      - repeat constructor; reflexivity. }
    split.
    + intros a [<-|[<-|[]]]; [exists (drive_row "d2" 12 "B" "TMP" 1)|exists (drive_row "d1" 12 "B" "TMP" 1)]; (split; [simpl; tauto|apply G]).
    + intros b [<-|[<-|[]]]; [exists (drive_row "d1" 12 "A" "TMP" 7)|exists (drive_row "d2" 12 "A" "TMP" 5)]; (split; [simpl; tauto|apply G]).
Qed.

Lemma C60_axes_proof : forall e single line_type columns data rq1 rq2 fields1 fields2 out,
  Rectangular data columns -> data <> [] -> series_val rq2 <> [] ->
  Fields rq1 fields1 -> Plain rq1 fields1 -> derived_series rq1 = [] ->
  Fields rq2 fields2 -> Plain rq2 fields2 -> derived_series rq2 = [] ->
  calculate_stats e single line_type columns data rq1 rq2 = Ok out ->
  exists out1 out2, out = (out1 ++ out2)%list /\
    Forall2 (RowOfPoint e single columns data rq1 fields1) (combinations (map snd fields1)) out1 /\
    Forall2 (RowOfPoint e single columns data rq2 fields2) (combinations (map snd fields2)) out2.
Proof.
  intros e single lt columns data rq1 rq2 f1 f2 out HR N NS F1 P1 D1 F2 P2 D2 H. unfold calculate_stats in H.
  destruct (proceed_with_axis e single lt _ columns data rq1 "None" []) as [[[st known] out1]|] eqn:A1; [|discriminate H]. cbn [bind] in H.
  destruct (series_val rq2) as [|sv svs] eqn:Es; [contradiction|].
  destruct (proceed_with_axis e single lt _ columns data rq2 st known) as [[[st2 known2] out2]|] eqn:A2; [|discriminate H]. cbn [bind snd] in H. injection H as <-.
  exists out1, out2. split; [reflexivity|]. split.
  - apply (C55_rows_proof _ _ _ _ _ _ _ _ _ _ _ _ _ HR N F1 P1 D1 A1).
  - apply (C55_rows_proof _ _ _ _ _ _ _ _ _ _ _ _ _ HR N F2 P2 D2 A2).
Qed.

Lemma C60_axes_case_proof :
  let rq2 := Request [("model", ["B"])] "fcst_lead" ["12"] ["NEG"] [] ["TMP"] in
  let fields2 := [("model", ["B"]); ("fcst_lead", ["12"]); ("stat_name", ["NEG"])] in
  Fields rq2 fields2 /\ Plain rq2 fields2 /\
  calculate_stats sum_engine true "ctc" (filter (fun n => negb (String.eqb n "stat_name")) drive_columns)
    (map (fun r => match r with t :: l :: _ :: rest => t :: l :: rest | _ => r end) drive_data) drive_request rq2 =
  Ok (map (fun x => OutRow [("model", fst (fst (fst x))); ("fcst_lead", snd (fst (fst x))); ("stat_name", if Qlt_le_dec (snd (fst x)) 0 then "NEG" else "TOTAL")]
                              (Some "TMP") (Results None (Some (snd (fst x))) None) (snd x))
                   [(("A", "12"), 12, 2%nat); (("A", "24"), 3, 1%nat); (("B", "12"), 2, 2%nat); (("B", "24"), 4, 1%nat); (("B", "12"), -(2), 2%nat)]).
Proof.
  cbv zeta. split; [split; [repeat constructor; simpl; intuition discriminate|]; left; split; [discriminate|reflexivity]|]. split; [apply plain_check; vm_compute; reflexivity|]. vm_compute. reflexivity.
Qed.

Lemma C60_one_axis_proof : forall e single line_type columns data rq1 rq2 fields1 out,
  Rectangular data columns -> data <> [] -> series_val rq2 = [] ->
  Fields rq1 fields1 -> Plain rq1 fields1 -> derived_series rq1 = [] ->
  calculate_stats e single line_type columns data rq1 rq2 = Ok out ->
  Forall2 (RowOfPoint e single columns data rq1 fields1) (combinations (map snd fields1)) out.
Proof.
  intros e single lt columns data rq1 rq2 f1 out HR N NS F1 P1 D1 H. unfold calculate_stats in H. rewrite NS in H.
  destruct (proceed_with_axis e single lt _ columns data rq1 "None" []) as [[[st known] out1]|] eqn:A1; [|discriminate H]. cbn [bind] in H. injection H as <-.
  apply (C55_rows_proof _ _ _ _ _ _ _ _ _ _ _ _ _ HR N F1 P1 D1 A1).
Qed.

Lemma C60_derived_proof : forall e line_type columns data rq1 rq2 fields1 fields2 out,
  Rectangular data columns -> data <> [] -> series_val rq2 <> [] -> KeepsRows e ->
  Fields rq1 fields1 -> Plain rq1 fields1 -> DerivedRequest rq1 ->
  Fields rq2 fields2 -> Plain rq2 fields2 -> DerivedRequest rq2 ->
  calculate_stats e true line_type columns data rq1 rq2 = Ok out ->
  exists plain1 derived1 plain2 derived2 groups1 groups2,
    out = ((plain1 ++ concat derived1) ++ (plain2 ++ concat derived2))%list /\
    NumberedGroups "Group_y1_" (series_val rq1) groups1 /\ NumberedGroups "Group_y2_" (series_val rq2) groups2 /\
    Forall2 (RowOfPoint e true columns data rq1 fields1) (combinations (map snd fields1)) plain1 /\
    Forall2 (RowOfPoint e true columns data rq2 fields2) (combinations (map snd fields2)) plain2 /\
    let Value (w1 w2 : list string) op (dp p1 p2 : list string) o1 o2 r := op <> "DIFF_SIG" -> op <> "ETB" ->
      exists v, r = Results None v None /\ DerivedValue op (value (stat_of o1)) (value (stat_of o2)) v in
    DerivedRows rq1 fields1 (groups1 ++ groups2) plain1 Value derived1 /\
    DerivedRows rq2 fields2 (groups1 ++ groups2) plain2 Value derived2.
Proof.
  intros e lt columns data rq1 rq2 f1 f2 out HR N NS KR F1 P1 D1 F2 P2 D2 H. unfold calculate_stats in H.
  destruct (groups_value (series_val rq1) (series_val rq2)) as [EG ND]. rewrite EG in H.
  destruct (proceed_with_axis e true lt _ columns data rq1 "None" []) as [[[st known] out1]|] eqn:A1; [|discriminate H]. cbn [bind] in H.
  destruct (series_val rq2) as [|sv svs] eqn:Es; [contradiction|]. rewrite <- Es in *.
  destruct (proceed_with_axis e true lt _ columns data rq2 st known) as [[[st2 known2] out2]|] eqn:A2; [|discriminate H]. cbn [bind snd] in H. injection H as <-.
  destruct (C57_rows_proof _ _ _ _ _ _ _ _ _ _ _ _ HR N F1 P1 D1 ND KR A1) as (plain1 & derived1 & -> & R1 & V1).
  destruct (C57_rows_proof _ _ _ _ _ _ _ _ _ _ _ _ HR N F2 P2 D2 ND KR A2) as (plain2 & derived2 & -> & R2 & V2).
  exists plain1, derived1, plain2, derived2, (numbered "Group_y1_" (series_val rq1)), (numbered "Group_y2_" (series_val rq2)).
  split; [reflexivity|]. split; [apply numbered_spec|]. split; [apply numbered_spec|]. split; [exact R1|]. split; [exact R2|]. cbv zeta. split; [exact V1|exact V2].
Qed.

Lemma C60_derived_case_proof :
  let rq1 := Request [("model", ["A:C"; "B"])] "fcst_lead" ["12"] ["TOTAL"] [["Group_y1_1 TOTAL"; "B TOTAL"; "DIFF"]] ["TMP"] in
  let fields1 := [("model", ["A:C"; "B"]); ("fcst_lead", ["12"]); ("stat_name", ["TOTAL"])] in
  let rq2 := Request [("model", ["A"; "B"])] "fcst_lead" ["12"] ["TOTAL"] [["A TOTAL"; "B TOTAL"; "SINGLE"]] ["TMP"] in
  let fields2 := [("model", ["A"; "B"]); ("fcst_lead", ["12"]); ("stat_name", ["TOTAL"])] in
  Fields rq1 fields1 /\ Plain rq1 fields1 /\ DerivedRequest rq1 /\ Fields rq2 fields2 /\ Plain rq2 fields2 /\ DerivedRequest rq2 /\
  OnlyPoint fields1 (Named [("Group_y1_1", "A:C")] ["Group_y1_1"; "TOTAL"] ["DIFF(Group_y1_1 TOTAL-B TOTAL)"; "12"; "TOTAL"]) ["A:C"; "12"; "TOTAL"] /\
  exists out, calculate_stats sum_engine true "ctc" drive_columns
    (drive_row "d1" 12 "C" "TMP" 1 :: drive_row "d2" 12 "C" "TMP" 1 :: drive_data) rq1 rq2 = Ok out /\
    map (fun o => value (stat_of o)) out = [Some 14; Some 2; Some 12.00000; Some 12; Some 2; Some 12.00000].
Proof.
  cbv zeta. split; [split; [repeat constructor; simpl; intuition discriminate|]; left; split; [discriminate|reflexivity]|]. split.
  { 
  assert (exists l, MembersOf "A:C" l) as G.
  { exists ["A"; "C"]. left. split; [unfold Has; cbn; tauto|]. right. split; [|split; [discriminate|split; [reflexivity|repeat constructor; cbn; intuition discriminate]]].
    intros a w b E (y & m & d & bl & h & mi & s & (Ly & _) & _ & _ & _ & _ & _ & _ & ->).
    apply (f_equal String.length) in E. rewrite !str_len_app in E. cbn in E. destruct y as [|y1 [|y2 [|y3 [|y4 y]]]]; cbn in Ly, E; try discriminate. lia. }

    assert (Plain (Request [("model", ["B"])] "fcst_lead" ["12"] ["TOTAL"] [] []) [("model", ["B"]); ("fcst_lead", ["12"]); ("stat_name", ["TOTAL"])]) as (P & _ & Q) by (apply plain_check; vm_compute; reflexivity).
    split; [|split].
    - intros n vals v [[= <- <-]|Hn] Hv.
      + destruct Hv as [<-|Hv]; [|apply (P "model" ["B"]); [left; reflexivity|exact Hv]]. split; [exact G|]. intro D.
        assert (is_derived_point (Some ["A:C"]) = true) as X by (apply derived_point_iff; eexists; split; [left; reflexivity|exact D]). discriminate X.
      + apply (P n vals); [right; exact Hn|exact Hv].
    - intros n [<-|[]]. unfold Has; cbn; intuition discriminate.
    - intros vals v [[=]|Hn] Hv. apply (Q vals v); [right; exact Hn|exact Hv]. }
  split; [eapply one_derived; [reflexivity|]; exists "DIFF", ["Group_y1_1"; "TOTAL"], ["B"; "TOTAL"], "DIFF(Group_y1_1 TOTAL-B TOTAL)", "model"; exists "Group_y1_1 TOTAL", "B TOTAL"; split; [reflexivity|]; split; [simpl; tauto|]; split; [split; [discriminate|]; split; [reflexivity|]; repeat constructor; unfold Has; cbn; intuition discriminate|]; split; [split; [discriminate|]; split; [reflexivity|]; repeat constructor; unfold Has; cbn; intuition discriminate|]; split; [exists "-"; split; [simpl; tauto|reflexivity]|]; split; [|apply Forall_forall; intros w Hw D;
    assert (is_derived_point (Some [w]) = true) as X by (apply derived_point_iff; exists w; split; [left; reflexivity|exact D]);
    simpl in Hw; repeat (destruct Hw as [<-|Hw]; [discriminate X|]); destruct Hw]; exists "Group_y1_1", "B", [], ["A:C"; "B"], []; split; [exists [], ["TOTAL"], ["TOTAL"]; split; [split; reflexivity|discriminate]|]; split; [reflexivity|]; split; [repeat constructor; simpl; intuition discriminate|simpl; intuition discriminate]|]. split; [split; [repeat constructor; simpl; intuition discriminate|]; left; split; [discriminate|reflexivity]|]. split; [apply plain_check; vm_compute; reflexivity|].
  split; [eapply one_derived; [reflexivity|]; exists "SINGLE", ["A"; "TOTAL"], ["B"; "TOTAL"], "SINGLE(A TOTAL-B TOTAL)", "model"; exists "A TOTAL", "B TOTAL"; split; [reflexivity|]; split; [simpl; tauto|]; split; [split; [discriminate|]; split; [reflexivity|]; repeat constructor; unfold Has; cbn; intuition discriminate|]; split; [split; [discriminate|]; split; [reflexivity|]; repeat constructor; unfold Has; cbn; intuition discriminate|]; split; [exists "-"; split; [simpl; tauto|reflexivity]|]; split; [|apply Forall_forall; intros w Hw D;
    assert (is_derived_point (Some [w]) = true) as X by (apply derived_point_iff; exists w; split; [left; reflexivity|exact D]);
    simpl in Hw; repeat (destruct Hw as [<-|Hw]; [discriminate X|]); destruct Hw]; exists "A", "B", [], ["A"; "B"], []; split; [exists [], ["TOTAL"], ["TOTAL"]; split; [split; reflexivity|discriminate]|]; split; [reflexivity|]; split; [repeat constructor; simpl; intuition discriminate|simpl; tauto]|].
  split; [apply only_point; [repeat constructor; simpl; tauto|vm_compute; reflexivity]|].
  eexists. split; vm_compute; reflexivity.
Qed.

Lemma C57_groups_refuted_proof :
  let rq := Request [("model", ["A:B"; "B"]); ("thresh", ["12"])] "fcst_lead" ["12"] ["TOTAL"] [["Group_y1_1 12 TOTAL"; "B 12 TOTAL"; "DIFF"]] [] in
  exists known out,
    proceed_with_axis sum_engine true "ctc" [("Group_y1_1", "A:B")] thresh_columns thresh_data rq "None" [] = Ok ("total", known, out) /\
    map (fun o => map snd (point_of o)) out = [["A:B"; "12"; "12"; "TOTAL"]; ["B"; "12"; "12"; "TOTAL"]].
Proof.
  cbv zeta. eexists _, _. split; [vm_compute; reflexivity|]. vm_compute. reflexivity.
Qed.

Lemma C60_empty_proof : forall e single line_type columns rq1 rq2, calculate_stats e single line_type columns [] rq1 rq2 = Ok [].
Proof.
  intros e single lt columns rq1 rq2. unfold calculate_stats. cbn [proceed_with_axis bind]. destruct (series_val rq2); reflexivity.
Qed.

