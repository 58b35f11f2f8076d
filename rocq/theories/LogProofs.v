From Coq Require Import Permutation Setoid.
From Verif Require Import PyBase ColumnModel BaseSpec BaseProofs RealBase RealSpec RealProofs CtcModel CtcSpec CtcProofs CtcProofs2.
From Verif Require Import Sl1l2Proofs Sl1l2Proofs2 SafeProofs LogModel LogSpec.
From Coq Require Import Reals Qreals Lra.
Open Scope string_scope.
Open Scope Q_scope.
Ltac qlra := Lqa.lra.
Ltac rlra := Lra.lra.
Ltac fall := repeat first [apply Forall_nil | apply Forall_cons].

(* ---------- logarithms ---------- *)
Lemma Q2R_pos q : 0 < q -> (0 < Q2R q)%R.
Proof. intro H. rewrite <- Q2R_0. apply Q2R_lt; exact H. Qed.
Lemma Q2R_lt1 q : q < 1 -> (Q2R q < 1)%R.
Proof. intro H. rewrite <- Q2R_1. apply Q2R_lt; exact H. Qed.
Lemma Q2R_le1 q : q <= 1 -> (Q2R q <= 1)%R.
Proof. intro H. rewrite <- Q2R_1. apply Q2R_le; exact H. Qed.
Lemma ln_neg x : (0 < x < 1)%R -> (ln x < 0)%R.
Proof. intros [H K]. rewrite <- ln_1. apply ln_increasing; assumption. Qed.
Lemma ln_nonpos x : (0 < x <= 1)%R -> (ln x <= 0)%R.
Proof. intros [H [K|K]]; [left; apply ln_neg; rlra|right; subst; apply ln_1]. Qed.
Lemma ln_mono x y : (0 < x)%R -> (x <= y)%R -> (ln x <= ln y)%R.
Proof. intros H [K|K]; [left; apply ln_increasing; assumption|right; subst; reflexivity]. Qed.

Lemma Qdiv_pos a b : 0 < a -> 0 < b -> 0 < a / b.
Proof. intros Ha Hb. apply Qlt_shift_div_l; [exact Hb|]. qlra. Qed.

(* ---------- results ---------- *)
Definition exactly (D : Prop) (v : R) (x : res pyval) : Prop :=
  (D -> x = Ok (Some (round_half_up_R v 7))) /\ (~ D -> x = Ok None).
Lemma exactly_given D v x : exactly D v x -> D \/ ~ D -> exists r, x = Ok r /\ GivenBy D v r.
Proof.
  intros [H K] [d|n].
  - eexists; split; [apply H; exact d|]. split; [|tauto].
    intros _. eexists; split; [reflexivity|]. apply rhuR_nearest.
  - exists None. split; [apply K; exact n|]. split; tauto.
Qed.
Lemma exactly_iff (D D' : Prop) v v' x : (D <-> D') -> (D -> v = v') -> exactly D v x -> exactly D' v' x.
Proof.
  intros E V [H K]. split.
  - intro d. rewrite <- (V (proj2 E d)). apply H. tauto.
  - intro n. apply K. tauto.
Qed.
Lemma exactly_some D v x r : exactly D v x -> D \/ ~ D -> x = Ok (Some r) -> D /\ r = round_half_up_R v 7.
Proof.
  intros [H K] [d|n] E.
  - split; [exact d|]. rewrite (H d) in E. congruence.
  - rewrite (K n) in E. discriminate E.
Qed.

Lemma catch_ok (l : list exn) (v : pyval) d : catch l (Ok v) d = Ok v. Proof. reflexivity. Qed.
Lemma math_log_pos q : 0 < q -> math_log (Ok (Some q)) = Ok (Some (ln (Q2R q))).
Proof. intro H. unfold math_log. simpl. rewrite (proj2 (Qlt_bool_iff 0 q) H). reflexivity. Qed.
Lemma math_log_neg q : ~ 0 < q -> math_log (Ok (Some q)) = Err ValueError.
Proof.
  intro H. unfold math_log. simpl. destruct (Qlt_bool 0 q) eqn:E; [|reflexivity].
  apply Qlt_bool_iff in E. contradiction.
Qed.
Lemma np_log_pos q : 0 < q -> np_log (Ok (Some q)) = Ok (Some (ln (Q2R q))).
Proof. intro H. unfold np_log. simpl. rewrite (proj2 (Qlt_bool_iff 0 q) H). reflexivity. Qed.
Lemma np_log_neg q : ~ 0 < q -> np_log (Ok (Some q)) = Err PyWarning.
Proof.
  intro H. unfold np_log. simpl. destruct (Qlt_bool 0 q) eqn:E; [|reflexivity].
  apply Qlt_bool_iff in E. contradiction.
Qed.
Lemma npd a b : ~ b == 0 -> Ok (Some a) [//] Ok (Some b) = Ok (Some (a / b)).
Proof.
  intro H. unfold npdiv. simpl. destruct (Qeq_bool b 0) eqn:E; [|reflexivity].
  apply Qeq_bool_iff in E. contradiction.
Qed.
Lemma npd0 a b : b == 0 -> Ok (Some a) [//] Ok (Some b) = Err PyWarning.
Proof. intro H. unfold npdiv. simpl. rewrite (proj2 (Qeq_bool_iff b 0) H). reflexivity. Qed.
Lemma pdv a b : b <> 0%R -> pdivR (Ok (Some a)) (Ok (Some b)) = Ok (Some (a / b)%R).
Proof. intro H. unfold pdivR. simpl. destruct (Req_EM_T b 0); [contradiction|reflexivity]. Qed.
Lemma pdv0 a b : b = 0%R -> pdivR (Ok (Some a)) (Ok (Some b)) = Err ZeroDivisionError.
Proof. intro H. unfold pdivR. simpl. destruct (Req_EM_T b 0); [reflexivity|contradiction]. Qed.

Lemma Qlt_em a b : a < b \/ ~ a < b.
Proof. destruct (Qlt_le_dec a b); [left; assumption|right; qlra]. Qed.
Lemma Qeq_em a b : a == b \/ ~ a == b.
Proof. destruct (Qeq_dec a b); tauto. Qed.
Lemma em_and A B : A \/ ~ A -> B \/ ~ B -> (A /\ B) \/ ~ (A /\ B). Proof. tauto. Qed.
Lemma em_or A B : A \/ ~ A -> B \/ ~ B -> (A \/ B) \/ ~ (A \/ B). Proof. tauto. Qed.
Lemma em_not A : A \/ ~ A -> ~ A \/ ~ ~ A. Proof. tauto. Qed.
Ltac em := repeat first [apply em_and | apply em_or | apply em_not | apply Qlt_em | apply Qeq_em
  | (match goal with |- (?x = ?y :> R) \/ _ => destruct (Req_EM_T x y); tauto end)].

(** The column sums as numbers. *)
Lemma sums_some data columns h fa m c t :
  CtcTotals data columns (Some h) (Some fa) (Some m) (Some c) t ->
  exists h' fa' m' c' t',
    sum_column_data_by_name data columns "fy_oy" true = Ok (Some h') /\
    sum_column_data_by_name data columns "fy_on" true = Ok (Some fa') /\
    sum_column_data_by_name data columns "fn_oy" true = Ok (Some m') /\
    sum_column_data_by_name data columns "fn_on" true = Ok (Some c') /\
    sum_column_data_by_name data columns "total" true = Ok t' /\
    h' == h /\ fa' == fa /\ m' == m /\ c' == c /\ oeq t' t.
Proof.
  intro H. destruct (ctc_sums _ _ _ _ _ _ _ H) as
    [h' [fa' [m' [c' [t' [E1 [E2 [E3 [E4 [E5 [F1 [F2 [F3 [F4 F5]]]]]]]]]]]]]].
  destruct h' as [h'|], fa' as [fa'|], m' as [m'|], c' as [c'|]; simpl in F1, F2, F3, F4; try tauto.
  exists h', fa', m', c', t'. repeat split; assumption.
Qed.

Lemma log_odds_sum h fa m c : 0 < h -> 0 < fa -> 0 < m -> 0 < c ->
  (ln (Q2R h) + ln (Q2R c) - ln (Q2R fa) - ln (Q2R m))%R = log_odds h fa m c.
Proof.
  intros H1 H2 H3 H4. unfold log_odds.
  pose proof (Q2R_pos _ H1). pose proof (Q2R_pos _ H2). pose proof (Q2R_pos _ H3). pose proof (Q2R_pos _ H4).
  unfold Rdiv. rewrite ln_mult; [|apply Rmult_lt_0_compat; assumption|apply Rinv_0_lt_compat, Rmult_lt_0_compat; assumption].
  rewrite ln_mult by assumption. rewrite ln_Rinv by (apply Rmult_lt_0_compat; assumption).
  rewrite ln_mult by assumption. ring.
Qed.

Lemma lodds_exact data columns h fa m c t :
  CtcTotals data columns (Some h) (Some fa) (Some m) (Some c) t ->
  exactly (0 < h /\ 0 < fa /\ 0 < m /\ 0 < c) (log_odds h fa m c) (calculate_lodds data columns).
Proof.
  intro HT. destruct (sums_some _ _ _ _ _ _ _ HT) as [h' [fa' [m' [c' [t' [E1 [E2 [E3 [E4 [E5 [F1 [F2 [F3 [F4 F5]]]]]]]]]]]]]].
  apply (exactly_iff (0 < h' /\ 0 < fa' /\ 0 < m' /\ 0 < c') _ (log_odds h' fa' m' c')).
  - rewrite F1, F2, F3, F4. tauto.
  - intros _. unfold log_odds. rewrite (Q2R_eq _ _ F1), (Q2R_eq _ _ F2), (Q2R_eq _ _ F3), (Q2R_eq _ _ F4). reflexivity.
  - unfold calculate_lodds. rewrite E1, E2, E3, E4. cbn [bind is_none orb].
    split.
    + intros [A [B [C D]]]. rewrite !np_log_pos by assumption. simpl. rewrite log_odds_sum by assumption. reflexivity.
    + intro N. destruct (Qlt_em 0 h') as [A|A]; [rewrite (np_log_pos h') by assumption|rewrite (np_log_neg h') by assumption; reflexivity].
      destruct (Qlt_em 0 c') as [B|B]; [rewrite (np_log_pos c') by assumption|rewrite (np_log_neg c') by assumption; reflexivity].
      destruct (Qlt_em 0 fa') as [C|C]; [rewrite (np_log_pos fa') by assumption|rewrite (np_log_neg fa') by assumption; reflexivity].
      destruct (Qlt_em 0 m') as [D|D]; [tauto|rewrite (np_log_neg m') by assumption; reflexivity].
Qed.

Lemma ln_zero_iff q : 0 < q -> (ln (Q2R q) = 0%R <-> q == 1).
Proof.
  intro H. pose proof (Q2R_pos _ H) as P. split.
  - intro E. rewrite <- ln_1 in E. apply ln_inv in E; [|exact P|rlra].
    apply eqR_Qeq. rewrite E, Q2R_1. reflexivity.
  - intro E. rewrite (Q2R_eq _ _ E), Q2R_1. apply ln_1.
Qed.

Tactic Notation "log_case" constr(q) ident(H) :=
  destruct (Qlt_em 0 q) as [H|H];
  [rewrite (math_log_pos q) by assumption | rewrite (math_log_neg q) by assumption; try reflexivity].

Lemma seds_exact data columns h fa m c t :
  CtcTotals data columns (Some h) (Some fa) (Some m) (Some c) (Some t) ->
  exactly (~ t == 0 /\ 0 < (h + fa) / t /\ 0 < (h + m) / t /\ 0 < h / t /\ ~ h / t == 1)
    (sym_dependency (Q2R (h / t)) (Q2R ((h + fa) / t)) (Q2R ((h + m) / t))) (calculate_seds data columns).
Proof.
  intro HT. destruct (sums_some _ _ _ _ _ _ _ HT) as [h' [fa' [m' [c' [t' [E1 [E2 [E3 [E4 [E5 [F1 [F2 [F3 [F4 F5]]]]]]]]]]]]]].
  destruct t' as [t'|]; simpl in F5; [|contradiction].
  apply (exactly_iff (~ t' == 0 /\ 0 < (h' + fa') / t' /\ 0 < (h' + m') / t' /\ 0 < h' / t' /\ ~ h' / t' == 1)
    _ (sym_dependency (Q2R (h' / t')) (Q2R ((h' + fa') / t')) (Q2R ((h' + m') / t')))).
  - rewrite F1, F2, F3, F5. tauto.
  - intros _. f_equal; apply Q2R_eq; rewrite ?F1, ?F2, ?F3, ?F5; reflexivity.
  - unfold calculate_seds. rewrite E1, E2, E3, E5. cbn [bind pybin].
    destruct (Qeq_em t' 0) as [Z|Z].
    { rewrite !npd0 by exact Z. split; [tauto|reflexivity]. }
    rewrite !npd by exact Z.
    split.
    + intros [_ [A [B [C D]]]]. rewrite !math_log_pos by assumption. cbn [bind rbin].
      rewrite pdv by (intro K; apply D; apply (ln_zero_iff _ C); exact K). reflexivity.
    + intro N. log_case ((h' + fa') / t') A. log_case ((h' + m') / t') B. cbn [bind rbin].
      log_case (h' / t') C. cbn [bind].
      rewrite pdv0; [reflexivity|]. apply (ln_zero_iff _ C).
      destruct (Qeq_em (h' / t') 1); [assumption|tauto].
Qed.

Lemma eds_exact data columns h fa m c t :
  CtcTotals data columns (Some h) (Some fa) (Some m) (Some c) (Some t) ->
  exactly (~ t == 0 /\ 0 < (h + m) / t /\ 0 < h / t /\ ~ h / t == 1)
    (dependency (Q2R (h / t)) (Q2R ((h + m) / t))) (calculate_eds data columns).
Proof.
  intro HT. destruct (sums_some _ _ _ _ _ _ _ HT) as [h' [fa' [m' [c' [t' [E1 [E2 [E3 [E4 [E5 [F1 [F2 [F3 [F4 F5]]]]]]]]]]]]]].
  destruct t' as [t'|]; simpl in F5; [|contradiction].
  apply (exactly_iff (~ t' == 0 /\ 0 < (h' + m') / t' /\ 0 < h' / t' /\ ~ h' / t' == 1)
    _ (dependency (Q2R (h' / t')) (Q2R ((h' + m') / t')))).
  - rewrite F1, F3, F5. tauto.
  - intros _. f_equal; apply Q2R_eq; rewrite ?F1, ?F2, ?F3, ?F5; reflexivity.
  - unfold calculate_eds. rewrite E1, E3, E5. cbn [bind pybin].
    destruct (Qeq_em t' 0) as [Z|Z].
    { rewrite !npd0 by exact Z. split; [tauto|reflexivity]. }
    rewrite !npd by exact Z.
    split.
    + intros [_ [B [C D]]]. rewrite !math_log_pos by assumption. cbn [bind rbin].
      rewrite pdv by (intro K; apply D; apply (ln_zero_iff _ C); exact K). reflexivity.
    + intro N. log_case ((h' + m') / t') B. cbn [bind rbin].
      log_case (h' / t') C. cbn [bind rbin].
      rewrite pdv0; [reflexivity|]. apply (ln_zero_iff _ C).
      destruct (Qeq_em (h' / t') 1); [assumption|tauto].
Qed.

(** The two indices, from the hit rate as published. *)
Lemma sedi_exact data columns h fa m c t H :
  CtcTotals data columns (Some h) (Some fa) (Some m) (Some c) t ->
  pod_yes data columns = Ok (Some H) ->
  exactly (~ fa + c == 0 /\ 0 < fa / (fa + c) /\ 0 < H /\ 0 < 1 - fa / (fa + c) /\ 0 < 1 - H)
    (sym_extremal_index (Q2R (fa / (fa + c))) (Q2R H)) (calculate_sedi data columns).
Proof.
  intros HT HP. destruct (sums_some _ _ _ _ _ _ _ HT) as [h' [fa' [m' [c' [t' [E1 [E2 [E3 [E4 [E5 [F1 [F2 [F3 [F4 F5]]]]]]]]]]]]]].
  apply (exactly_iff (~ fa' + c' == 0 /\ 0 < fa' / (fa' + c') /\ 0 < H /\ 0 < 1 - fa' / (fa' + c') /\ 0 < 1 - H)
    _ (sym_extremal_index (Q2R (fa' / (fa' + c'))) (Q2R H))).
  - rewrite F2, F4. tauto.
  - intros _. f_equal; apply Q2R_eq; rewrite ?F2, ?F4; reflexivity.
  - unfold calculate_sedi. rewrite E2, E4. cbn [bind pybin].
    destruct (Qeq_em (fa' + c') 0) as [Z|Z].
    { rewrite !npd0 by exact Z. split; [tauto|reflexivity]. }
    rewrite !npd by exact Z. rewrite HP. cbn [bind pybin pylit].
    set (f := fa' / (fa' + c')).
    split.
    + intros [_ [A [B [C D]]]]. rewrite !math_log_pos by assumption. cbn [bind rbin].
      rewrite pdv.
      * cbn [bind rround]. unfold sym_extremal_index. 
        rewrite (Q2R_minus 1 f), (Q2R_minus 1 H), Q2R_1. reflexivity.
      * rewrite (Q2R_minus 1 f), (Q2R_minus 1 H), Q2R_1.
        assert (f < 1) by qlra. assert (H < 1) by qlra.
        pose proof (Q2R_pos _ A). pose proof (Q2R_pos _ B). pose proof (Q2R_lt1 _ H0). pose proof (Q2R_lt1 _ H1).
        pose proof (ln_neg (Q2R f) ltac:(rlra)). pose proof (ln_neg (Q2R H) ltac:(rlra)).
        pose proof (ln_neg (1 - Q2R f) ltac:(rlra)). pose proof (ln_neg (1 - Q2R H) ltac:(rlra)). rlra.
    + intro N. log_case f A. log_case H B. cbn [bind rbin].
      log_case (1 - f) C. log_case (1 - H) D. tauto.
Qed.

Lemma edi_exact data columns h fa m c t H :
  CtcTotals data columns (Some h) (Some fa) (Some m) (Some c) (Some t) ->
  pod_yes data columns = Ok (Some H) ->
  exactly (~ fa + c == 0 /\ 0 < fa / (fa + c) /\ 0 < H /\
           ~ (ln (Q2R (fa / (fa + c))) + ln (Q2R H))%R = 0%R)
    (extremal_index (Q2R (fa / (fa + c))) (Q2R H)) (calculate_edi data columns).
Proof.
  intros HT HP. destruct (sums_some _ _ _ _ _ _ _ HT) as [h' [fa' [m' [c' [t' [E1 [E2 [E3 [E4 [E5 [F1 [F2 [F3 [F4 F5]]]]]]]]]]]]]].
  apply (exactly_iff (~ fa' + c' == 0 /\ 0 < fa' / (fa' + c') /\ 0 < H /\
           ~ (ln (Q2R (fa' / (fa' + c'))) + ln (Q2R H))%R = 0%R)
    _ (extremal_index (Q2R (fa' / (fa' + c'))) (Q2R H))).
  - rewrite (Q2R_eq (fa' / (fa' + c')) (fa / (fa + c))) by (rewrite F2, F4; reflexivity). rewrite F2, F4. tauto.
  - intros _. f_equal; apply Q2R_eq; rewrite ?F2, ?F4; reflexivity.
  - unfold calculate_edi. rewrite E2, E4, E5. cbn [bind pybin].
    destruct (Qeq_em (fa' + c') 0) as [Z|Z].
    { rewrite !npd0 by exact Z. split; [tauto|reflexivity]. }
    rewrite !npd by exact Z. rewrite HP. cbn [bind pybin pylit].
    set (f := fa' / (fa' + c')).
    split.
    + intros [_ [A [B D]]]. rewrite !math_log_pos by assumption. cbn [bind rbin].
      rewrite pdv by exact D. reflexivity.
    + intro N. log_case f A. log_case H B. cbn [bind rbin].
      rewrite pdv0; [reflexivity|]. destruct (Req_EM_T (ln (Q2R f) + ln (Q2R H)) 0); [assumption|tauto].
Qed.

Lemma pod_none data columns h fa m c t :
  CtcTotals data columns (Some h) (Some fa) (Some m) (Some c) t -> pod_yes data columns = Ok None ->
  calculate_sedi data columns = Ok None /\ calculate_edi data columns = Ok None.
Proof.
  intros HT HP. destruct (sums_some _ _ _ _ _ _ _ HT) as [h' [fa' [m' [c' [t' [E1 [E2 [E3 [E4 [E5 [F1 [F2 [F3 [F4 F5]]]]]]]]]]]]]].
  unfold calculate_sedi, calculate_edi. rewrite E2, E4, E5. cbn [bind pybin].
  destruct (Qeq_em (fa' + c') 0) as [Z|Z]; [rewrite !npd0 by exact Z; split; reflexivity|].
  rewrite !npd by exact Z. rewrite HP. cbn [bind].
  log_case (fa' / (fa' + c')) A; split; reflexivity.
Qed.

(* ---------- rounding and real inequalities ---------- *)
Lemma rhuR_ge lo v : MultipleOf 7 lo -> (Q2R lo <= v)%R -> lo <= round_half_up_R v 7.
Proof.
  intros M H. pose proof (rhuR_mono _ _ 7 H) as K. rewrite rhuR_Q in K.
  rewrite (rhu_fix lo 7 M) in K. exact K.
Qed.
Lemma rhuR_le hi v : MultipleOf 7 hi -> (v <= Q2R hi)%R -> round_half_up_R v 7 <= hi.
Proof.
  intros M H. pose proof (rhuR_mono _ _ 7 H) as K. rewrite rhuR_Q in K.
  rewrite (rhu_fix hi 7 M) in K. exact K.
Qed.
Lemma mult_int z : MultipleOf 7 (inject_Z z).
Proof. exists (z * 10 ^ 7)%Z. rewrite inject_Z_mult. reflexivity. Qed.

Definition contrast (x y : R) : R := ((x - y) / (x + y))%R.
Lemma contrast_range x y : (x <= 0 -> y <= 0 -> x + y < 0 -> -1 <= contrast x y <= 1)%R.
Proof.
  intros A B H. unfold contrast.
  replace ((x - y) / (x + y))%R with (((- x) - (- y)) / ((- x) + (- y)))%R by (field; rlra).
  split.
  - apply Rmult_le_reg_r with ((- x) + (- y))%R; [rlra|]. unfold Rdiv. rewrite Rmult_assoc, Rinv_l by rlra. rlra.
  - apply Rmult_le_reg_r with ((- x) + (- y))%R; [rlra|]. unfold Rdiv. rewrite Rmult_assoc, Rinv_l by rlra. rlra.
Qed.
Lemma contrast_mono x y x' y' : (x <= 0 -> y <= 0 -> x' <= 0 -> y' <= 0 -> x + y < 0 -> x' + y' < 0 ->
  x' <= x -> y <= y' -> contrast x y <= contrast x' y')%R.
Proof.
  intros A B A' B' H H' Hx Hy. unfold contrast.
  apply Rmult_le_reg_r with ((x + y) * (x' + y'))%R.
  { rewrite <- Rmult_opp_opp. apply Rmult_lt_0_compat; rlra. }
  replace ((x - y) / (x + y) * ((x + y) * (x' + y')))%R with ((x - y) * (x' + y'))%R by (field; rlra).
  replace ((x' - y') / (x' + y') * ((x + y) * (x' + y')))%R with ((x' - y') * (x + y))%R by (field; rlra).
  assert ((- x) * (- y') <= (- x') * (- y))%R.
  { apply Rmult_le_compat; rlra. }
  rlra.
Qed.
Lemma contrast_nonneg x y : (x + y < 0 -> x <= y -> 0 <= contrast x y)%R.
Proof.
  intros H K. unfold contrast. replace ((x - y) / (x + y))%R with ((y - x) / (- (x + y)))%R by (field; rlra).
  apply Rmult_le_pos; [rlra|]. left. apply Rinv_0_lt_compat. rlra.
Qed.
Lemma contrast_anti x y : (x + y < 0 -> contrast y x = - contrast x y)%R.
Proof. intro H. unfold contrast. field. rlra. Qed.

Lemma extremal_contrast f h : extremal_index f h = contrast (ln f) (ln h).
Proof. reflexivity. Qed.
Lemma sym_extremal_contrast f h :
  sym_extremal_index f h = contrast (ln f + ln (1 - h)) (ln h + ln (1 - f)).
Proof. unfold sym_extremal_index, contrast. f_equal; ring. Qed.

Lemma quot_mono a b L : (L < 0 -> a <= b -> b / L <= a / L)%R.
Proof.
  intros H K. unfold Rdiv. apply Rmult_le_compat_neg_l with (r := (/ L)%R) in K.
  - rlra.
  - left. apply Rinv_lt_0_compat; exact H.
Qed.
Lemma quot_range a L : (L < 0 -> L <= a -> a <= 0 -> 0 <= a / L <= 1)%R.
Proof.
  intros H A B. split.
  - replace 0%R with (0 / L)%R by (field; rlra). apply quot_mono; assumption.
  - replace 1%R with (L / L)%R by (field; rlra). apply quot_mono; assumption.
Qed.
Lemma quot_den a L L' : (L <= L' -> L' < 0 -> a <= 0 -> a / L <= a / L')%R.
Proof.
  intros A B H. replace (a / L)%R with ((- a) * (/ (- L)))%R by (field; rlra).
  replace (a / L')%R with ((- a) * (/ (- L')))%R by (field; rlra).
  apply Rmult_le_compat_l; [rlra|]. apply Rinv_le_contravar; rlra.
Qed.

(* ---------- genuine tables ---------- *)
Section Genuine.
Variables (h fa m c t : Q).
Hypothesis HG : Genuine h fa m c t.
Let G1 := gn_h _ _ _ _ _ HG. Let G2 := gn_fa _ _ _ _ _ HG. Let G3 := gn_m _ _ _ _ _ HG.
Let G4 := gn_c _ _ _ _ _ HG. Let G5 := gn_t _ _ _ _ _ HG.

Lemma share_pos : ~ t == 0 -> 0 < h / t -> 0 < h /\ 0 < t.
Proof.
  clear -G1 G2 G3 G4 G5. intros Z P. assert (0 < t) as T by (destruct (Qlt_le_dec 0 t); [assumption|exfalso; apply Z; qlra]).
  split; [|exact T]. destruct (Qlt_le_dec 0 h) as [K|K]; [exact K|exfalso].
  assert (h == 0) by qlra. assert (h / t == 0) by (rewrite H; unfold Qdiv; ring). qlra.
Qed.
Lemma share_lt : 0 < t -> ~ h / t == 1 -> h < t.
Proof.
  clear -G1 G2 G3 G4 G5. intros T N. destruct (Qlt_le_dec h t) as [K|K]; [exact K|exfalso].
  assert (h == t) by qlra. apply N. rewrite H. field. qlra.
Qed.
Lemma share_lt1 x : x < t -> 0 < t -> x / t < 1.
Proof. intros K T. apply Qlt_shift_div_r; [exact T|]. qlra. Qed.
Lemma share_le x y : x <= y -> 0 < t -> x / t <= y / t.
Proof. intros K T. apply Qmult_le_compat_r; [exact K|]. apply Qinv_le_0_compat. qlra. Qed.

Lemma seds_dom : (~ t == 0 /\ 0 < (h + fa) / t /\ 0 < (h + m) / t /\ 0 < h / t /\ ~ h / t == 1) <-> (0 < h /\ h < t).
Proof.
  split.
  - intros [Z [_ [_ [P N]]]]. destruct (share_pos Z P). split; [assumption|]. apply share_lt; assumption.
  - clear -G1 G2 G3 G4 G5. intros [P L]. assert (0 < t) as T by qlra. repeat split.
    + qlra.
    + apply Qdiv_pos; qlra.
    + apply Qdiv_pos; qlra.
    + apply Qdiv_pos; qlra.
    + pose proof (share_lt1 _ L T). qlra.
Qed.
Lemma eds_dom : (~ t == 0 /\ 0 < (h + m) / t /\ 0 < h / t /\ ~ h / t == 1) <-> (0 < h /\ h < t).
Proof.
  split.
  - intros [Z [_ [P N]]]. destruct (share_pos Z P). split; [assumption|]. apply share_lt; assumption.
  - intro K. apply seds_dom in K. tauto.
Qed.

(** Logarithms of the relative frequencies. *)
Lemma seds_logs : 0 < h -> h < t ->
  let L := ln (Q2R (h / t)) in let a := ln (Q2R ((h + fa) / t)) in let b := ln (Q2R ((h + m) / t)) in
  (L < 0 /\ L <= a /\ a <= 0 /\ L <= b /\ b <= 0)%R.
Proof.
  clear -G1 G2 G3 G4 G5. intros P K L a b. assert (0 < t) as T by qlra.
  assert (0 < h / t) as A by (apply Qdiv_pos; assumption).
  repeat split.
  - apply ln_neg. split; [apply Q2R_pos; exact A|]. apply Q2R_lt1, share_lt1; assumption.
  - apply ln_mono; [apply Q2R_pos; exact A|]. apply Q2R_le, share_le; qlra.
  - apply ln_nonpos. split; [apply Q2R_pos, Qdiv_pos; qlra|]. apply Q2R_le1.
    apply Qle_trans with (t / t); [apply share_le; qlra|]. apply Qle_lteq. right. field. qlra.
  - apply ln_mono; [apply Q2R_pos; exact A|]. apply Q2R_le, share_le; qlra.
  - apply ln_nonpos. split; [apply Q2R_pos, Qdiv_pos; qlra|]. apply Q2R_le1.
    apply Qle_trans with (t / t); [apply share_le; qlra|]. apply Qle_lteq. right. field. qlra.
Qed.

Lemma rate_range : 0 < fa -> 0 < fa / (fa + c) /\ fa / (fa + c) <= 1 /\ (0 < c -> fa / (fa + c) < 1).
Proof.
  clear -G1 G2 G3 G4 G5. intro P. repeat split.
  - apply Qdiv_pos; qlra.
  - apply Qle_shift_div_r; qlra.
  - intro K. apply Qlt_shift_div_r; qlra.
Qed.
Lemma rate_dom1 : ~ fa + c == 0 -> 0 < fa / (fa + c) -> 0 < fa.
Proof.
  clear -G1 G2 G3 G4 G5. intros Z P. destruct (Qlt_le_dec 0 fa) as [K|K]; [exact K|exfalso].
  assert (fa == 0) by qlra. assert (fa / (fa + c) == 0) by (rewrite H at 1; unfold Qdiv; ring). qlra.
Qed.
Lemma sedi_dom H : (~ fa + c == 0 /\ 0 < fa / (fa + c) /\ 0 < H /\ 0 < 1 - fa / (fa + c) /\ 0 < 1 - H) <->
  (0 < fa /\ 0 < c /\ 0 < H /\ H < 1).
Proof.
  split.
  - intros [Z [P [A [B D]]]]. pose proof (rate_dom1 Z P) as K. repeat split; try assumption; try qlra.
    destruct (Qlt_le_dec 0 c) as [E|E]; [exact E|exfalso].
    assert (c == 0) as F by qlra. assert (fa / (fa + c) == 1) by (rewrite F; field; qlra). qlra.
  - intros [A [B [D E]]]. destruct (rate_range A) as [X [Y W]]. specialize (W B). repeat split; try assumption; qlra.
Qed.
Lemma edi_dom H : H <= 1 ->
  (~ fa + c == 0 /\ 0 < fa / (fa + c) /\ 0 < H /\ ~ (ln (Q2R (fa / (fa + c))) + ln (Q2R H))%R = 0%R) <->
  (0 < fa /\ 0 < H /\ (0 < c \/ H < 1)).
Proof.
  intro Hle. split.
  - intros [Z [P [A N]]]. pose proof (rate_dom1 Z P) as K. split; [assumption|]. split; [assumption|].
    destruct (Qlt_le_dec 0 c) as [E|E]; [left; exact E|].
    destruct (Qlt_le_dec H 1) as [E'|E']; [right; exact E'|exfalso]. apply N.
    rewrite (proj2 (ln_zero_iff _ P)) by (assert (c == 0) as F by qlra; rewrite F; field; qlra).
    rewrite (proj2 (ln_zero_iff _ A)) by qlra. ring.
  - intros [A [B D]]. destruct (rate_range A) as [X [Y W]]. repeat split; try assumption; [qlra|].
    pose proof (ln_nonpos (Q2R (fa / (fa + c))) (conj (Q2R_pos _ X) (Q2R_le1 _ Y))).
    pose proof (ln_nonpos (Q2R H) (conj (Q2R_pos _ B) (Q2R_le1 _ Hle))).
    destruct D as [D|D].
    + pose proof (ln_neg (Q2R (fa / (fa + c))) (conj (Q2R_pos _ X) (Q2R_lt1 _ (W D)))). rlra.
    + pose proof (ln_neg (Q2R H) (conj (Q2R_pos _ B) (Q2R_lt1 _ D))). rlra.
Qed.

(** The hit rate as published. *)
Lemma pod_cases data columns :
  CtcTotals data columns (Some h) (Some fa) (Some m) (Some c) (Some t) ->
  (h + m == 0 /\ pod_yes data columns = Ok None) \/
  (0 < h + m /\ exists H, pod_yes data columns = Ok (Some H) /\ Nearest 7 (h / (h + m)) H /\ 0 <= H <= 1).
Proof.
  intro HT. destruct (podyes_value _ _ _ _ _ _ _ HT) as [r [E P]].
  unfold tb_pody, oratio, oadd in P. destruct (Qeq_dec (h + m) 0) as [Z|Z].
  - left. split; [exact Z|]. destruct r; [contradiction|exact E].
  - right. assert (0 < h + m) as K by (clear -G1 G3 Z; destruct (Qlt_le_dec 0 (h + m)); [assumption|exfalso; apply Z; qlra]).
    split; [exact K|]. destruct r as [w|]; [|contradiction]. exists w. split; [exact E|]. split; [exact P|].
    apply (published_range 0 1 (h / (h + m)) w).
    + apply (mult_int 0).
    + apply (mult_int 1).
    + split; [apply Qle_shift_div_l|apply Qle_shift_div_r]; clear -G1 G3 K; qlra.
    + exact P.
Qed.
End Genuine.

(** Everything about one genuine table: the conditions and the values of the scores. *)
Lemma seds_table data columns h fa m c t :
  CtcTotals data columns (Some h) (Some fa) (Some m) (Some c) (Some t) -> Genuine h fa m c t ->
  exactly (0 < h /\ h < t) (sym_dependency (Q2R (h / t)) (Q2R ((h + fa) / t)) (Q2R ((h + m) / t)))
    (calculate_seds data columns).
Proof.
  intros HT HG. eapply exactly_iff; [apply (seds_dom _ _ _ _ _ HG)|reflexivity|].
  eapply seds_exact; eassumption.
Qed.
Lemma eds_table data columns h fa m c t :
  CtcTotals data columns (Some h) (Some fa) (Some m) (Some c) (Some t) -> Genuine h fa m c t ->
  exactly (0 < h /\ h < t) (dependency (Q2R (h / t)) (Q2R ((h + m) / t))) (calculate_eds data columns).
Proof.
  intros HT HG. eapply exactly_iff; [apply (eds_dom _ _ _ _ _ HG)|reflexivity|].
  eapply eds_exact; eassumption.
Qed.
Lemma sedi_table data columns h fa m c t H :
  CtcTotals data columns (Some h) (Some fa) (Some m) (Some c) (Some t) -> Genuine h fa m c t ->
  pod_yes data columns = Ok (Some H) ->
  exactly (0 < fa /\ 0 < c /\ 0 < H /\ H < 1) (sym_extremal_index (Q2R (fa / (fa + c))) (Q2R H))
    (calculate_sedi data columns).
Proof.
  intros HT HG HP. eapply exactly_iff; [apply (sedi_dom _ _ _ _ _ HG)|reflexivity|].
  eapply sedi_exact; eassumption.
Qed.
Lemma edi_table data columns h fa m c t H :
  CtcTotals data columns (Some h) (Some fa) (Some m) (Some c) (Some t) -> Genuine h fa m c t ->
  pod_yes data columns = Ok (Some H) -> H <= 1 ->
  exactly (0 < fa /\ 0 < H /\ (0 < c \/ H < 1)) (extremal_index (Q2R (fa / (fa + c))) (Q2R H))
    (calculate_edi data columns).
Proof.
  intros HT HG HP Hle. eapply exactly_iff; [apply (edi_dom _ _ _ _ _ HG H Hle)|reflexivity|].
  eapply edi_exact; eassumption.
Qed.

(** A published score comes from a table in its domain. *)
Lemma seds_inv data columns h fa m c t r :
  CtcTotals data columns (Some h) (Some fa) (Some m) (Some c) (Some t) -> Genuine h fa m c t ->
  calculate_seds data columns = Ok (Some r) ->
  (0 < h /\ h < t) /\ r = round_half_up_R (sym_dependency (Q2R (h / t)) (Q2R ((h + fa) / t)) (Q2R ((h + m) / t))) 7.
Proof. intros HT HG E. eapply exactly_some; [eapply seds_table; eassumption|em|exact E]. Qed.
Lemma eds_inv data columns h fa m c t r :
  CtcTotals data columns (Some h) (Some fa) (Some m) (Some c) (Some t) -> Genuine h fa m c t ->
  calculate_eds data columns = Ok (Some r) ->
  (0 < h /\ h < t) /\ r = round_half_up_R (dependency (Q2R (h / t)) (Q2R ((h + m) / t))) 7.
Proof. intros HT HG E. eapply exactly_some; [eapply eds_table; eassumption|em|exact E]. Qed.
Lemma lodds_inv data columns h fa m c t r :
  CtcTotals data columns (Some h) (Some fa) (Some m) (Some c) t ->
  calculate_lodds data columns = Ok (Some r) ->
  (0 < h /\ 0 < fa /\ 0 < m /\ 0 < c) /\ r = round_half_up_R (log_odds h fa m c) 7.
Proof. intros HT E. eapply exactly_some; [eapply lodds_exact; eassumption|em|exact E]. Qed.

(** Logarithms in the two indices; the hit rate is that of the table. *)
Definition RateLogs (h fa m c H : Q) : Prop :=
  let f := Q2R (fa / (fa + c)) in let p := Q2R H in
  (0 < f <= 1 /\ 0 < p <= 1 /\ ln f <= 0 /\ ln p <= 0)%R.
Lemma rate_logs h fa m c t H : Genuine h fa m c t -> 0 < fa -> 0 < H -> H <= 1 -> RateLogs h fa m c H.
Proof.
  intros HG A B D. destruct (rate_range _ _ _ _ _ HG A) as [X [Y _]].
  unfold RateLogs. pose proof (Q2R_pos _ X). pose proof (Q2R_le1 _ Y). pose proof (Q2R_pos _ B). pose proof (Q2R_le1 _ D).
  repeat split; try assumption; apply ln_nonpos; split; assumption.
Qed.
Lemma sedi_inv data columns h fa m c t r :
  CtcTotals data columns (Some h) (Some fa) (Some m) (Some c) (Some t) -> Genuine h fa m c t ->
  calculate_sedi data columns = Ok (Some r) ->
  exists H, pod_yes data columns = Ok (Some H) /\ Nearest 7 (h / (h + m)) H /\ 0 < h + m /\
    let f := Q2R (fa / (fa + c)) in let p := Q2R H in
    (0 < f < 1)%R /\ (0 < p < 1)%R /\
    r = round_half_up_R (contrast (ln f + ln (1 - p)) (ln p + ln (1 - f))) 7.
Proof.
  intros HT HG E. destruct (pod_cases _ _ _ _ _ HG _ _ HT) as [[_ P]|[K [H [P [N B]]]]].
  - rewrite (proj1 (pod_none _ _ _ _ _ _ _ HT P)) in E. discriminate E.
  - exists H. split; [exact P|]. split; [exact N|]. split; [exact K|].
    destruct (exactly_some _ _ _ _ (sedi_table _ _ _ _ _ _ _ _ HT HG P) ltac:(em) E) as [[A [C' [D F]]] R].
    destruct (rate_range _ _ _ _ _ HG A) as [X [Y W]]. specialize (W C'). cbv zeta.
    pose proof (Q2R_pos _ X). pose proof (Q2R_lt1 _ W). pose proof (Q2R_pos _ D). pose proof (Q2R_lt1 _ F).
    repeat split; try assumption. rewrite <- sym_extremal_contrast. exact R.
Qed.
Lemma edi_inv data columns h fa m c t r :
  CtcTotals data columns (Some h) (Some fa) (Some m) (Some c) (Some t) -> Genuine h fa m c t ->
  calculate_edi data columns = Ok (Some r) ->
  exists H, pod_yes data columns = Ok (Some H) /\ Nearest 7 (h / (h + m)) H /\ 0 < h + m /\
    let f := Q2R (fa / (fa + c)) in let p := Q2R H in
    (0 < f <= 1)%R /\ (0 < p <= 1)%R /\ (ln f + ln p < 0)%R /\ 0 < fa /\
    r = round_half_up_R (contrast (ln f) (ln p)) 7.
Proof.
  intros HT HG E. destruct (pod_cases _ _ _ _ _ HG _ _ HT) as [[_ P]|[K [H [P [N B]]]]].
  - rewrite (proj2 (pod_none _ _ _ _ _ _ _ HT P)) in E. discriminate E.
  - exists H. split; [exact P|]. split; [exact N|]. split; [exact K|].
    destruct (exactly_some _ _ _ _ (edi_table _ _ _ _ _ _ _ _ HT HG P (proj2 B)) ltac:(em) E) as [D R].
    pose proof (proj2 (edi_dom _ _ _ _ _ HG H (proj2 B)) D) as [_ [_ [_ NZ]]].
    destruct D as [A [D F]].
    destruct (rate_logs _ _ _ _ _ H HG A D (proj2 B)) as [L1 [L2 [L3 L4]]]. cbv zeta.
    destruct L1, L2. repeat split; try assumption. rlra.
Qed.

Lemma sum_neg_lt f p : (0 < f < 1 -> 0 < p < 1 -> (ln f + ln (1 - p)) + (ln p + ln (1 - f)) < 0)%R.
Proof.
  intros A B. pose proof (ln_neg f A). pose proof (ln_neg p B).
  pose proof (ln_neg (1 - f) ltac:(rlra)). pose proof (ln_neg (1 - p) ltac:(rlra)). rlra.
Qed.
Lemma log_one_minus x y : (x <= y -> y < 1 -> ln (1 - y) <= ln (1 - x))%R.
Proof. intros H K. apply ln_mono; rlra. Qed.

Lemma nearest_mono7 v v' w w' : v <= v' -> Nearest 7 v w -> Nearest 7 v' w' -> w <= w'.
Proof. intros H A B. exact (published_mono v v' w w' H A B). Qed.

Lemma log_odds_mono h fa m c h' fa' m' c' :
  0 < h -> 0 < fa -> 0 < m -> 0 < c -> 0 < h' -> 0 < fa' -> 0 < m' -> 0 < c' ->
  h <= h' -> c <= c' -> fa' <= fa -> m' <= m -> (log_odds h fa m c <= log_odds h' fa' m' c')%R.
Proof.
  intros. rewrite <- !log_odds_sum by assumption.
  pose proof (ln_mono (Q2R h) (Q2R h') (Q2R_pos _ H) (proj2 (Q2R_le _ _) H7)).
  pose proof (ln_mono (Q2R c) (Q2R c') (Q2R_pos _ H2) (proj2 (Q2R_le _ _) H8)).
  pose proof (ln_mono (Q2R fa') (Q2R fa) (Q2R_pos _ H4) (proj2 (Q2R_le _ _) H9)).
  pose proof (ln_mono (Q2R m') (Q2R m) (Q2R_pos _ H5) (proj2 (Q2R_le _ _) H10)). rlra.
Qed.
Lemma log_odds_sign h fa m c : 0 < h -> 0 < fa -> 0 < m -> 0 < c ->
  (fa * m <= h * c -> (0 <= log_odds h fa m c)%R) /\ (h * c <= fa * m -> (log_odds h fa m c <= 0)%R).
Proof.
  intros. rewrite <- log_odds_sum by assumption.
  pose proof (Q2R_pos _ H). pose proof (Q2R_pos _ H0). pose proof (Q2R_pos _ H1). pose proof (Q2R_pos _ H2).
  assert ((ln (Q2R h) + ln (Q2R c) - ln (Q2R fa) - ln (Q2R m))%R = (ln (Q2R h * Q2R c) - ln (Q2R fa * Q2R m))%R) as ->.
  { rewrite !ln_mult by assumption. ring. }
  split; intro K; apply Q2R_le in K; rewrite !Q2R_mult in K.
  - pose proof (ln_mono _ _ (Rmult_lt_0_compat _ _ H4 H5) K). rlra.
  - pose proof (ln_mono _ _ (Rmult_lt_0_compat _ _ H3 H6) K). rlra.
Qed.

Lemma seds_sign h fa m c t : Genuine h fa m c t -> 0 < h -> h < t ->
  let v := sym_dependency (Q2R (h / t)) (Q2R ((h + fa) / t)) (Q2R ((h + m) / t)) in
  ((h + fa) * (h + m) <= h * t -> (0 <= v)%R) /\ (h * t <= (h + fa) * (h + m) -> (v <= 0)%R).
Proof.
  intros HG P K v. destruct (seds_logs _ _ _ _ _ HG P K) as [L0 [L1 [L2 [L3 L4]]]].
  destruct HG as [G1 G2 G3 G4 G5]. assert (0 < t) as T by qlra.
  assert (0 < h / t) as A1 by (apply Qdiv_pos; qlra).
  assert (0 < (h + fa) / t) as A2 by (apply Qdiv_pos; qlra).
  assert (0 < (h + m) / t) as A3 by (apply Qdiv_pos; qlra).
  pose proof (Q2R_pos _ A1) as B1. pose proof (Q2R_pos _ A2) as B2. pose proof (Q2R_pos _ A3) as B3.
  assert (~ t == 0) as NZ by qlra.
  assert ((h + fa) / t * ((h + m) / t) == (h + fa) * (h + m) / (t * t)) as E by (field; exact NZ).
  assert (h / t == h * t / (t * t)) as E' by (field; exact NZ).
  assert (0 < t * t) as TT by (apply Qmult_lt_0_compat; exact T).
  assert (forall a b, a <= b -> a / (t * t) <= b / (t * t)) as DM.
  { intros a b Hab. apply Qmult_le_compat_r; [exact Hab|]. apply Qinv_le_0_compat. qlra. }
  unfold v, sym_dependency. split; intro C1; apply DM in C1; rewrite <- E, <- E' in C1;
    apply Q2R_le in C1; rewrite Q2R_mult in C1.
  - pose proof (ln_mono _ _ (Rmult_lt_0_compat _ _ B2 B3) C1) as M. rewrite ln_mult in M by assumption.
    pose proof (quot_mono _ _ _ L0 M) as Q. unfold Rdiv at 1 in Q. rewrite Rinv_r in Q by rlra. rlra.
  - pose proof (ln_mono _ _ B1 C1) as M. rewrite ln_mult in M by assumption.
    pose proof (quot_mono _ _ _ L0 M) as Q. unfold Rdiv at 2 in Q. rewrite Rinv_r in Q by rlra. rlra.
Qed.

(* ---------- totals that are missing; dependence on the totals ---------- *)
Lemma std_catch_err e : existsb (exn_eqb e) std_exns = true -> forall b, b = Err e -> catch std_exns b (None : pyval) = Ok None.
Proof. intros H b ->. unfold catch. rewrite H. reflexivity. Qed.

(* ---------- dependence on the totals ---------- *)
#[export] Instance npdiv_proper : Morphisms.Proper (Morphisms.respectful req (Morphisms.respectful req req)) npdiv.
Proof.
  intros [[x|]|e] [[x'|]|e'] H [[y|]|f] [[y'|]|f'] H'; simpl in *; try tauto; try assumption.
  rewrite (Qeq_bool_0_comp _ _ H'). destruct (Qeq_bool y' 0); simpl; [reflexivity|].
  rewrite H, H'; reflexivity.
Qed.
Lemma math_log_comp a b : req a b -> math_log a = math_log b.
Proof.
  destruct a as [[x|]|e], b as [[y|]|f]; simpl; try tauto; try congruence.
  intro E. unfold math_log. simpl. rewrite (Q2R_eq _ _ E).
  destruct (Qlt_bool 0 x) eqn:X, (Qlt_bool 0 y) eqn:Y; try reflexivity; exfalso.
  - apply Qlt_bool_iff in X. apply Qlt_bool_false in Y. qlra.
  - apply Qlt_bool_iff in Y. apply Qlt_bool_false in X. qlra.
Qed.
Lemma np_log_comp a b : req a b -> np_log a = np_log b.
Proof.
  destruct a as [[x|]|e], b as [[y|]|f]; simpl; try tauto; try congruence.
  intro E. unfold np_log. simpl. rewrite (Q2R_eq _ _ E).
  destruct (Qlt_bool 0 x) eqn:X, (Qlt_bool 0 y) eqn:Y; try reflexivity; exfalso.
  - apply Qlt_bool_iff in X. apply Qlt_bool_false in Y. qlra.
  - apply Qlt_bool_iff in Y. apply Qlt_bool_false in X. qlra.
Qed.
Lemma toR_comp a b : req a b -> toR a = toR b.
Proof.
  destruct a as [[x|]|e], b as [[y|]|f]; simpl; try tauto; try congruence.
  intro E. rewrite (Q2R_eq _ _ E). reflexivity.
Qed.
Lemma bind_compB {B} (a b : res pyval) (f g : pyval -> res B) :
  req a b -> (forall x y, oeq x y -> f x = g y) -> bind a f = bind b g.
Proof.
  intros H K. destruct a as [x|e], b as [y|e']; simpl in *; try tauto; [apply K; assumption|congruence].
Qed.
Lemma is_none_comp a b : oeq a b -> is_none a = is_none b.
Proof. destruct a, b; simpl; tauto. Qed.

Section LogDep.
Variables (data data' : tdata) (columns columns' : list string).
Hypothesis HS : forall name, In name ["fy_oy"; "fy_on"; "fn_oy"; "fn_on"; "total"]%string ->
  req (sum_column_data_by_name data columns name true)
      (sum_column_data_by_name data' columns' name true).
Let H1 := HS "fy_oy" ltac:(simpl; auto 6).
Let H2 := HS "fy_on" ltac:(simpl; auto 6).
Let H3 := HS "fn_oy" ltac:(simpl; auto 6).
Let H4 := HS "fn_on" ltac:(simpl; auto 6).
Let H5 := HS "total" ltac:(simpl; auto 6).

Ltac sums := repeat (apply bind_compB; [first [exact H1|exact H2|exact H3|exact H4|exact H5]|
  let x := fresh "x" in let y := fresh "y" in let E := fresh "E" in intros x y E]).
Ltac same := repeat match goal with E : oeq _ _ |- _ => first [rewrite E | fail] end; reflexivity.
Ltac logs := repeat first
  [ match goal with |- context [math_log ?a] => match goal with |- _ = ?r => match r with context [math_log ?b] =>
      rewrite (math_log_comp a b) by same end end end ].

Lemma pod_dep : pod_yes data columns = pod_yes data' columns'.
Proof. exact (pody_dep data data' columns columns' HS). Qed.

Lemma lodds_dep : calculate_lodds data columns = calculate_lodds data' columns'.
Proof.
  unfold calculate_lodds. f_equal. sums.
  rewrite (is_none_comp _ _ E), (is_none_comp _ _ E0), (is_none_comp _ _ E1), (is_none_comp _ _ E2).
  destruct (is_none y || is_none y0 || is_none y1 || is_none y2)%bool; [reflexivity|].
  rewrite (np_log_comp (Ok x) (Ok y) E), (np_log_comp (Ok x0) (Ok y0) E0), (np_log_comp (Ok x1) (Ok y1) E1), (np_log_comp (Ok x2) (Ok y2) E2).
  reflexivity.
Qed.
Lemma sedi_dep : calculate_sedi data columns = calculate_sedi data' columns'.
Proof.
  unfold calculate_sedi. rewrite pod_dep. f_equal. sums.
  apply bind_compB; [rewrite E, E0; reflexivity|]. intros f f' EF.
  destruct (pod_yes data' columns') as [p|e]; [|reflexivity]. cbn [bind].
  rewrite (math_log_comp (Ok f) (Ok f') EF), (math_log_comp (pylit 1 [-] Ok f) (pylit 1 [-] Ok f')); [reflexivity|].
  rewrite EF. reflexivity.
Qed.
Lemma edi_dep : calculate_edi data columns = calculate_edi data' columns'.
Proof.
  unfold calculate_edi. rewrite pod_dep. f_equal. sums.
  apply bind_compB; [rewrite E, E0; reflexivity|]. intros f f' EF.
  destruct (pod_yes data' columns') as [p|e]; [|reflexivity]. cbn [bind].
  rewrite (math_log_comp (Ok f) (Ok f') EF). reflexivity.
Qed.
Lemma seds_dep : calculate_seds data columns = calculate_seds data' columns'.
Proof.
  unfold calculate_seds. f_equal. sums.
  rewrite (math_log_comp ((Ok x [+] Ok x0) [//] Ok x2) ((Ok y [+] Ok y0) [//] Ok y2)) by (rewrite E, E0, E2; reflexivity).
  rewrite (math_log_comp ((Ok x [+] Ok x1) [//] Ok x2) ((Ok y [+] Ok y1) [//] Ok y2)) by (rewrite E, E1, E2; reflexivity).
  rewrite (math_log_comp (Ok x [//] Ok x2) (Ok y [//] Ok y2)) by (rewrite E, E2; reflexivity).
  reflexivity.
Qed.
Lemma eds_dep : calculate_eds data columns = calculate_eds data' columns'.
Proof.
  unfold calculate_eds. f_equal. sums.
  rewrite (math_log_comp ((Ok x [+] Ok x0) [//] Ok x1) ((Ok y [+] Ok y0) [//] Ok y1)) by (rewrite E, E0, E1; reflexivity).
  rewrite (math_log_comp (Ok x [//] Ok x1) (Ok y [//] Ok y1)) by (rewrite E, E1; reflexivity).
  reflexivity.
Qed.
Lemma bagss_dep W : calculate_bagss data columns W = calculate_bagss data' columns' W.
Proof.
  unfold calculate_bagss. f_equal. sums.
  rewrite (is_none_comp _ _ E), (is_none_comp _ _ E0), (is_none_comp _ _ E1), (is_none_comp _ _ E2).
  destruct (is_none y || is_none y0 || is_none y2 || is_none y1)%bool; [reflexivity|].
  rewrite (py_eq0_comp _ _ E), (py_eq0_comp _ _ E0), (py_eq0_comp _ _ E1).
  destruct (py_eq0 y || py_eq0 y0 || py_eq0 y1)%bool; [reflexivity|].
  apply bind_compB; [rewrite E, E0; reflexivity|]. intros o o' EO.
  rewrite (np_log_comp (Ok o [//] Ok x0) (Ok o' [//] Ok y0)) by (rewrite EO, E0; reflexivity).
  destruct (np_log (Ok o' [//] Ok y0)) as [l|e]; [|reflexivity]. cbn [bind].
  rewrite (toR_comp (Ok o [//] Ok x2) (Ok o' [//] Ok y2)) by (rewrite EO, E2; reflexivity).
  destruct (toR (Ok o' [//] Ok y2) {*} Ok l) as [v|e]; [|reflexivity]. cbn [bind]. cbv zeta.
  rewrite (toR_comp (Ok o) (Ok o') EO), (toR_comp (Ok x2) (Ok y2) E2).
  rewrite (toR_comp ((Ok o [*] Ok o) [//] Ok x1) ((Ok o' [*] Ok o') [//] Ok y1)) by (rewrite EO, E1; reflexivity).
  rewrite (toR_comp (pylit 2 [*] Ok o) (pylit 2 [*] Ok o')) by (rewrite EO; reflexivity).
  reflexivity.
Qed.
End LogDep.

(* ---------- exceptions ---------- *)
Lemma safe_math a : Safe std_exns a -> Safe std_exns (math_log a).
Proof. intro H. unfold math_log. apply safe_bind; [exact H|]. intro x. safe. Qed.
Lemma safe_np a : Safe std_exns a -> Safe std_exns (np_log a).
Proof. intro H. unfold np_log. apply safe_bind; [exact H|]. intro x. safe. Qed.
Lemma safe_rbin f a b : Safe std_exns a -> Safe std_exns b -> Safe std_exns (rbin f a b).
Proof. intros H K. unfold rbin. apply safe_bind; [exact H|]. intro x. apply safe_bind; [exact K|]. intro y. safe. Qed.
Lemma safe_pybin f a b : Safe std_exns a -> Safe std_exns b -> Safe std_exns (pybin f a b).
Proof. intros H K. unfold pybin. apply safe_bind; [exact H|]. intro x. apply safe_bind; [exact K|]. intro y. safe. Qed.
Lemma safe_npdiv a b : Safe std_exns a -> Safe std_exns b -> Safe std_exns (npdiv a b).
Proof. intros H K. unfold npdiv. apply safe_bind; [exact H|]. intro x. apply safe_bind; [exact K|]. intro y. safe. Qed.
Lemma safe_pdivR a b : Safe std_exns a -> Safe std_exns b -> Safe std_exns (pdivR a b).
Proof. intros H K. unfold pdivR. apply safe_bind; [exact H|]. intro x. apply safe_bind; [exact K|]. intro y. safe. Qed.
Lemma safe_rdiv a b : Safe std_exns a -> Safe std_exns b -> Safe std_exns (rdiv a b).
Proof. intros H K. unfold rdiv. apply safe_bind; [exact H|]. intro x. apply safe_bind; [exact K|]. intro y. safe. Qed.
Lemma safe_toR a : Safe std_exns a -> Safe std_exns (toR a).
Proof. intro H. unfold toR. apply safe_bind; [exact H|]. intro x. apply safe_ok. Qed.
Lemma safe_rround a : Safe std_exns a -> Safe std_exns (rround a).
Proof. intro H. unfold rround. apply safe_bind; [exact H|]. intro x. safe. Qed.
Lemma safe_total data columns name : Safe std_exns (sum_column_data_by_name data columns name true).
Proof. eapply safe_weaken; [apply safe_sum|]. simpl. tauto. Qed.
Lemma safe_pod data columns : Safe std_exns (pod_yes data columns).
Proof. intros e E. destruct (pody_ok data columns) as [r K]. change (pod_yes data columns = Ok r) in K. congruence. Qed.
Lemma std_ok (a : res pyval) : Safe std_exns a -> exists r, catch std_exns a None = Ok r.
Proof. intro H. apply safe_nil_ok. eapply safe_catch'; [exact H|]. reflexivity. Qed.
Ltac logsafe := repeat first
  [ apply safe_total | apply safe_pod | apply safe_rround | apply safe_math | apply safe_np | apply safe_rbin
  | apply safe_npdiv | apply safe_pybin | apply safe_pdivR | apply safe_rdiv | apply safe_toR | apply safe_ok
  | apply safe_bind; [|intro] | apply safe_if | unfold pylit ].

(* ---------- bias adjustment ---------- *)
Section Adjusted.
Variables (events m fa : R).
Hypotheses (Hm : (0 < m < events)%R) (Hf : (0 < fa)%R).
Let lf := ln (events / m).

Lemma lf_pos : (0 < lf)%R.
Proof.
  unfold lf. rewrite <- ln_1. apply ln_increasing; [rlra|].
  apply Rmult_lt_reg_r with m; [rlra|]. unfold Rdiv. rewrite Rmult_assoc, Rinv_l by rlra. rlra.
Qed.
Lemma decay_pos : (0 < lf / fa)%R.
Proof. apply Rmult_lt_0_compat; [apply lf_pos|apply Rinv_0_lt_compat; exact Hf]. Qed.
(** The remaining events for a misses number [y], minus [y]. *)
Lemma decay_exp y : (exp (- lf * (y / fa)) = exp (- (lf / fa * y)))%R.
Proof. f_equal. unfold Rdiv. ring. Qed.
Lemma decay_lt y z : (y < z -> events * exp (- lf * (z / fa)) < events * exp (- lf * (y / fa)))%R.
Proof.
  intro H. rewrite !decay_exp. apply Rmult_lt_compat_l; [rlra|]. apply exp_increasing.
  pose proof (Rmult_lt_compat_l _ _ _ decay_pos H). rlra.
Qed.
Lemma adjusted_unique y z : AdjustedMisses events m fa y -> AdjustedMisses events m fa z -> y = z.
Proof.
  intros [_ A] [_ B]. fold lf in A, B. destruct (Rtotal_order y z) as [H|[H|H]]; [|exact H|].
  - pose proof (decay_lt _ _ H). rlra.
  - pose proof (decay_lt _ _ H). rlra.
Qed.
Lemma adjusted_between y u : AdjustedMisses events m fa y ->
  (u < events * exp (- lf * (u / fa)) -> u < y)%R /\ (events * exp (- lf * (u / fa)) < u -> y < u)%R.
Proof.
  intros [_ A]. fold lf in A. split; intro H.
  - destruct (Rtotal_order u y) as [K|[K|K]]; [exact K|subst u; rlra|]. pose proof (decay_lt _ _ K). rlra.
  - destruct (Rtotal_order u y) as [K|[K|K]]; [|subst u; rlra|exact K]. pose proof (decay_lt _ _ K). rlra.
Qed.
Lemma at_one : (events * exp (- lf) = m)%R.
Proof.
  unfold lf. rewrite exp_Ropp, exp_ln.
  - field. rlra.
  - apply Rmult_lt_0_compat; [rlra|]. apply Rinv_0_lt_compat; rlra.
Qed.
Lemma at_fa : (events * exp (- lf * (fa / fa)) = m)%R.
Proof. unfold Rdiv. rewrite Rinv_r, Rmult_1_r by rlra. apply at_one. Qed.
Lemma scaled_lt y : (y < fa -> m < events * exp (- lf * (y / fa)))%R.
Proof. intro H. rewrite <- at_fa at 1. apply decay_lt. exact H. Qed.
Lemma scaled_gt y : (fa < y -> events * exp (- lf * (y / fa)) < m)%R.
Proof. intro H. rewrite <- at_fa. apply decay_lt. exact H. Qed.
Lemma direction y : AdjustedMisses events m fa y ->
  (m < fa -> m < y < fa)%R /\ (fa < m -> fa < y < m)%R /\ (fa = m -> y = m)%R.
Proof.
  intro A. split; [|split].
  - intro H. split.
    + apply (adjusted_between y m A). apply scaled_lt. exact H.
    + apply (adjusted_between y fa A). rewrite at_fa. exact H.
  - intro H. split.
    + apply (adjusted_between y fa A). rewrite at_fa. exact H.
    + apply (adjusted_between y m A). apply scaled_gt. exact H.
  - intro H. apply (adjusted_unique y m A). split; [rlra|]. fold lf. rewrite <- H at 2. rewrite at_fa. reflexivity.
Qed.

Variable W : R -> R.
Hypothesis HW : LambertW W.
Lemma adjusted_lambert : AdjustedMisses events m fa (fa / lf * W (events / fa * lf)).
Proof.
  pose proof lf_pos as L.
  assert (0 < events / fa * lf)%R as X.
  { apply Rmult_lt_0_compat; [|exact L]. apply Rmult_lt_0_compat; [rlra|apply Rinv_0_lt_compat; exact Hf]. }
  destruct (HW _ X) as [P E]. set (w := W (events / fa * lf)) in *.
  assert (fa / lf * w = events * exp (- w))%R as K.
  { rewrite exp_Ropp. apply Rmult_eq_reg_r with (exp w); [|pose proof (exp_pos w); rlra].
    rewrite Rmult_assoc, E. field_simplify; [field|pose proof (exp_pos w)|]; repeat split; try rlra. }
  split.
  - split.
    + apply Rmult_lt_0_compat; [|exact P]. apply Rmult_lt_0_compat; [exact Hf|apply Rinv_0_lt_compat; exact L].
    + rewrite K. assert (exp (- w) < 1)%R by (rewrite <- exp_0; apply exp_increasing; rlra).
      rewrite <- (Rmult_1_r events) at 2. apply Rmult_lt_compat_l; rlra.
  - fold lf. rewrite K at 1. f_equal. f_equal. field. split; rlra.
Qed.
End Adjusted.

Lemma lambert_exists : exists W, LambertW W.
Proof.
  assert (forall x : R, (0 < x)%R -> {w : R | (0 <= w <= x)%R /\ (w * exp w - x)%R = 0%R}) as S.
  { intros x Hx. destruct (IVT_cor (fun w => w * exp w - x)%R 0 x) as [w [B E]].
    - apply continuity_minus; [|apply continuity_const; intros ? ?; reflexivity].
      apply continuity_mult; [|apply derivable_continuous, derivable_exp].
      apply derivable_continuous, derivable_id.
    - rlra.
    - assert (1 <= exp x)%R by (pose proof (exp_ineq1_le x); rlra).
      assert (0 <= x * exp x - x)%R.
      { replace (x * exp x - x)%R with (x * (exp x - 1))%R by ring. apply Rmult_le_pos; rlra. }
      replace ((0 * exp 0 - x) * (x * exp x - x))%R with (- (x * (x * exp x - x)))%R by ring.
      assert (0 <= x * (x * exp x - x))%R by (apply Rmult_le_pos; rlra). rlra.
    - exists w. split; [exact B|exact E]. }
  exists (fun x => match Rlt_dec 0 x with left H => proj1_sig (S x H) | right _ => 0%R end).
  intros x Hx. destruct (Rlt_dec 0 x) as [H|H]; [|contradiction].
  destruct (S x H) as [w [B E]]. cbn [proj1_sig]. split; [|rlra].
  destruct (proj1 B) as [K|K]; [exact K|]. subst w. rlra.
Qed.

Lemma rdv a b : b <> 0%R -> rdiv (Ok (Some a)) (Ok (Some b)) = Ok (Some (a / b)%R).
Proof. intro H. unfold rdiv. simpl. destruct (Req_EM_T b 0); [contradiction|reflexivity]. Qed.

Section Bagss.
Variables (data : tdata) (columns : list string) (h fa m c t : Q) (W : R -> R).
Hypothesis HW : LambertW W.
Hypothesis HT : CtcTotals data columns (Some h) (Some fa) (Some m) (Some c) (Some t).
Hypothesis HG : Genuine h fa m c t.
Hypotheses (Ph : 0 < h) (Pm : 0 < m) (Pf : 0 < fa).
Let events := Q2R (h + m).
Let y := (Q2R fa / ln (events / Q2R m) * W (events / Q2R fa * ln (events / Q2R m)))%R.

Lemma events_gt : (0 < Q2R m < events)%R.
Proof. split; [apply Q2R_pos; exact Pm|]. apply Q2R_lt. qlra. Qed.
Lemma y_adjusted : AdjustedMisses events (Q2R m) (Q2R fa) y.
Proof. apply adjusted_lambert; [apply events_gt|apply Q2R_pos; exact Pf|exact HW]. Qed.
Let e := (events * events / Q2R t)%R.
Lemma chance_range : (0 < e < events)%R.
Proof.
  pose proof events_gt as [_ G]. pose proof (Q2R_pos _ Pm).
  assert (events < Q2R t)%R as L by (apply Q2R_lt; destruct HG; qlra).
  assert (0 < Q2R t)%R by rlra. unfold e. split.
  - apply Rmult_lt_0_compat; [apply Rmult_lt_0_compat; rlra|apply Rinv_0_lt_compat; assumption].
  - apply Rmult_lt_reg_r with (Q2R t); [assumption|]. unfold Rdiv. rewrite Rmult_assoc, Rinv_l by rlra.
    rewrite Rmult_1_r. apply Rmult_lt_compat_l; rlra.
Qed.
Lemma bagss_value : calculate_bagss data columns W = Ok (Some (round_half_up_R (unbiased_gss (events - y) y e) 7)).
Proof.
  destruct (sums_some _ _ _ _ _ _ _ HT) as [h' [fa' [m' [c' [t' [E1 [E2 [E3 [E4 [E5 [F1 [F2 [F3 [F4 F5]]]]]]]]]]]]]].
  destruct t' as [t'|]; simpl in F5; [|contradiction].
  pose proof (gn_t _ _ _ _ _ HG) as GT. pose proof (gn_c _ _ _ _ _ HG) as GC.
  unfold calculate_bagss. rewrite E1, E2, E3, E5. cbn [bind is_none orb py_eq0].
  assert (~ h' == 0) as N1 by qlra. assert (~ m' == 0) as N2 by qlra.
  assert (~ t' == 0) as N3 by qlra. assert (~ fa' == 0) as N4 by qlra.
  destruct (Qeq_bool h' 0) eqn:B1; [apply Qeq_bool_iff in B1; contradiction|].
  destruct (Qeq_bool m' 0) eqn:B2; [apply Qeq_bool_iff in B2; contradiction|].
  destruct (Qeq_bool t' 0) eqn:B3; [apply Qeq_bool_iff in B3; contradiction|].
  cbn [orb pybin bind]. rewrite !npd by assumption. cbn [bind pylit].
  assert (0 < (h' + m') / m') as P1 by (apply Qdiv_pos; qlra).
  rewrite np_log_pos by exact P1. cbn [bind toR rbin].
  assert (Q2R ((h' + m') / m') = (events / Q2R m)%R) as R1.
  { unfold Qdiv. rewrite Q2R_mult, Q2R_inv by exact N2. unfold events.
    rewrite (Q2R_eq (h' + m') (h + m)) by (rewrite F1, F3; reflexivity). rewrite (Q2R_eq _ _ F3). reflexivity. }
  assert (Q2R ((h' + m') / fa') = (events / Q2R fa)%R) as R2.
  { unfold Qdiv. rewrite Q2R_mult, Q2R_inv by exact N4. unfold events.
    rewrite (Q2R_eq (h' + m') (h + m)) by (rewrite F1, F3; reflexivity). rewrite (Q2R_eq _ _ F2). reflexivity. }
  assert (Q2R ((h' + m') * (h' + m') / t') = e) as R3.
  { unfold Qdiv. rewrite !Q2R_mult, Q2R_inv by exact N3. unfold e, events, Rdiv.
    rewrite (Q2R_eq (h' + m') (h + m)) by (rewrite F1, F3; reflexivity). rewrite (Q2R_eq _ _ F5). reflexivity. }
  assert (Q2R (2 * (h' + m')) = (2 * events)%R) as R4.
  { rewrite Q2R_mult. unfold events. rewrite (Q2R_eq (h' + m') (h + m)) by (rewrite F1, F3; reflexivity).
    f_equal. unfold Q2R. simpl. field. }
  rewrite R1, R2, R3, (Q2R_eq _ _ F2), (Q2R_eq (h' + m') (h + m)) by (rewrite F1, F3; reflexivity).
  fold events.
  pose proof (lf_pos _ _ events_gt) as L.
  rewrite rdv by rlra. unfold pylit. cbn [bind rbin pybin toR]. rewrite R4.
  pose proof y_adjusted as [YA _]. pose proof chance_range as CR.
  fold y. rewrite rdv by rlra. cbn [bind rround catch]. do 3 f_equal. unfold unbiased_gss. f_equal. ring.
Qed.
Lemma bagss_range : (-1 <= unbiased_gss (events - y) y e <= 1)%R.
Proof.
  pose proof y_adjusted as [YA _]. pose proof chance_range as CR. unfold unbiased_gss. split.
  - apply Rmult_le_reg_r with (events - y + 2 * y - e)%R; [rlra|].
    unfold Rdiv. rewrite Rmult_assoc, Rinv_l by rlra. rlra.
  - apply Rmult_le_reg_r with (events - y + 2 * y - e)%R; [rlra|].
    unfold Rdiv. rewrite Rmult_assoc, Rinv_l by rlra. rlra.
Qed.
End Bagss.

(** Text in a column: its total is a ValueError. *)
Lemma sum_text data columns name i r s :
  Rectangular data columns -> ColumnAt columns name i -> In r data -> nth_error r i = Some (CStr s) ->
  sum_column_data_by_name data columns name true = Err ValueError.
Proof.
  intros HR HC Hr Hs. unfold sum_column_data_by_name, column_data_by_name.
  rewrite (proj2 (index_of_ColumnAt _ _ _) HC).
  assert ((cs <- column_at data i ;; mapM to_float cs) = Err ValueError) as E.
  { assert (forall r, In r data -> nth_error r i <> None) as HN.
    { intros r' Hr'. apply nth_error_Some. rewrite (HR r' Hr'). apply nth_error_Some. destruct HC as [HC _]. congruence. }
    clear HR HC. induction data as [|r0 rest IH]; [destruct Hr|].
    unfold column_at in *. simpl. unfold cell_at at 1.
    destruct (nth_error r0 i) as [c0|] eqn:E0; [|exfalso; exact (HN r0 (or_introl eq_refl) E0)]. cbn [bind].
    assert (exists cs, mapM (cell_at i) rest = Ok cs) as [cs Ecs].
    { clear IH Hr. assert (forall r, In r rest -> nth_error r i <> None) as HN' by (intros; apply HN; right; assumption).
      clear HN. induction rest as [|r1 rest IH]; simpl; [eauto|]. unfold cell_at at 1.
      destruct (nth_error r1 i) eqn:E1; [|exfalso; exact (HN' r1 (or_introl eq_refl) E1)].
      destruct IH as [cs ->]; [intros; apply HN'; right; assumption|]. simpl. eauto. }
    rewrite Ecs. cbn [bind mapM].
    destruct Hr as [->|Hr].
    - rewrite E0 in Hs. injection Hs as ->. reflexivity.
    - specialize (IH Hr (fun r h => HN r (or_intror h))). rewrite Ecs in IH. cbn [bind] in IH. rewrite IH.
      destruct c0; reflexivity. }
  destruct (column_at data i) as [cs|e]; cbn [bind] in *; [|injection E as ->; reflexivity].
  rewrite E. reflexivity.
Qed.

(** The statements of PropertiesLog.v. *)
Lemma C47_log_odds_proof : forall data columns h fa m c t,
  CtcTotals data columns (Some h) (Some fa) (Some m) (Some c) t ->
  exists r, calculate_lodds data columns = Ok r /\
    GivenBy (0 < h /\ 0 < fa /\ 0 < m /\ 0 < c) (log_odds h fa m c) r.
Proof.
  intros. apply exactly_given; [eapply lodds_exact; eassumption|em].
Qed.

Lemma C47_extremal_proof : forall data columns h fa m c t H,
  CtcTotals data columns (Some h) (Some fa) (Some m) (Some c) (Some t) -> Genuine h fa m c t ->
  0 < h + m -> Nearest 7 (h / (h + m)) H ->
  (exists r, calculate_sedi data columns = Ok r /\
    GivenBy (0 < fa /\ 0 < c /\ 0 < H /\ H < 1) (sym_extremal_index (Q2R (fa / (fa + c))) (Q2R H)) r) /\
  (exists r, calculate_edi data columns = Ok r /\
    GivenBy (0 < fa /\ 0 < H /\ (0 < c \/ H < 1)) (extremal_index (Q2R (fa / (fa + c))) (Q2R H)) r).
Proof.
  intros data columns h fa m c t H HT HG K N.
destruct (pod_cases _ _ _ _ _ HG _ _ HT) as [[Z _]|[_ [H' [P [N' B]]]]]; [qlra|].
assert (H' == H) as E by (eapply nearest_unique; eassumption).
split.
- apply exactly_given; [|em]. eapply exactly_iff; [| |apply (sedi_table _ _ _ _ _ _ _ _ HT HG P)].
  + rewrite E. tauto.
  + intros _. rewrite (Q2R_eq _ _ E). reflexivity.
- apply exactly_given; [|em]. eapply exactly_iff; [| |apply (edi_table _ _ _ _ _ _ _ _ HT HG P (proj2 B))].
  + rewrite E. tauto.
  + intros _. rewrite (Q2R_eq _ _ E). reflexivity.
Qed.

Lemma C47_dependency_proof : forall data columns h fa m c t,
  CtcTotals data columns (Some h) (Some fa) (Some m) (Some c) (Some t) -> Genuine h fa m c t ->
  (exists r, calculate_seds data columns = Ok r /\
    GivenBy (0 < h /\ h < t) (sym_dependency (Q2R (h / t)) (Q2R ((h + fa) / t)) (Q2R ((h + m) / t))) r) /\
  (exists r, calculate_eds data columns = Ok r /\
    GivenBy (0 < h /\ h < t) (dependency (Q2R (h / t)) (Q2R ((h + m) / t))) r).
Proof.
  intros. split; apply exactly_given; try em; [eapply seds_table|eapply eds_table]; eassumption.
Qed.

Lemma C47_ranges_proof : forall data columns h fa m c t,
  CtcTotals data columns (Some h) (Some fa) (Some m) (Some c) (Some t) -> Genuine h fa m c t ->
  Forall (fun score => forall r, score data columns = Ok (Some r) -> -1 <= r <= 1)
    [calculate_sedi; calculate_edi; calculate_seds; calculate_eds].
Proof.
  intros data columns h fa m c t HT HG. fall.
- intros r E; destruct (sedi_inv _ _ _ _ _ _ _ _ HT HG E) as [H [_ [_ [_ [F [P ->]]]]]].
  pose proof (sum_neg_lt _ _ F P).
  pose proof (ln_neg _ F). pose proof (ln_neg _ P).
  pose proof (ln_neg (1 - Q2R (fa / (fa + c))) ltac:(rlra)). pose proof (ln_neg (1 - Q2R H) ltac:(rlra)).
  destruct (contrast_range (ln (Q2R (fa / (fa + c))) + ln (1 - Q2R H)) (ln (Q2R H) + ln (1 - Q2R (fa / (fa + c))))) as [A B]; try rlra.
  split; [apply (rhuR_ge (inject_Z (-1))); [apply mult_int|rewrite Q2R_inject; exact A]|apply (rhuR_le (inject_Z 1)); [apply mult_int|rewrite Q2R_inject; exact B]].
- intros r E; destruct (edi_inv _ _ _ _ _ _ _ _ HT HG E) as [H [_ [_ [_ [F [P [S0 [_ ->]]]]]]]].
  destruct (contrast_range (ln (Q2R (fa / (fa + c)))) (ln (Q2R H))) as [A B]; try assumption; try (apply ln_nonpos; assumption).
  split; [apply (rhuR_ge (inject_Z (-1))); [apply mult_int|rewrite Q2R_inject; exact A]|apply (rhuR_le (inject_Z 1)); [apply mult_int|rewrite Q2R_inject; exact B]].
- intros r E; destruct (seds_inv _ _ _ _ _ _ _ _ HT HG E) as [[P K] ->].
  destruct (seds_logs _ _ _ _ _ HG P K) as [L0 [L1 [L2 [L3 L4]]]].
  pose proof (quot_range _ _ L0 L1 L2). pose proof (quot_range _ _ L0 L3 L4).
  assert (-1 <= sym_dependency (Q2R (h / t)) (Q2R ((h + fa) / t)) (Q2R ((h + m) / t)) <= 1)%R as [A B].
  { unfold sym_dependency. rewrite Rdiv_plus_distr. rlra. }
  split; [apply (rhuR_ge (inject_Z (-1))); [apply mult_int|rewrite Q2R_inject; exact A]|apply (rhuR_le (inject_Z 1)); [apply mult_int|rewrite Q2R_inject; exact B]].
- intros r E; destruct (eds_inv _ _ _ _ _ _ _ _ HT HG E) as [[P K] ->].
  destruct (seds_logs _ _ _ _ _ HG P K) as [L0 [L1 [L2 [L3 L4]]]].
  pose proof (quot_range _ _ L0 L3 L4).
  assert (-1 <= dependency (Q2R (h / t)) (Q2R ((h + m) / t)) <= 1)%R as [A B].
  { unfold dependency, Rdiv. rewrite Rmult_assoc. unfold Rdiv in H. rlra. }
  split; [apply (rhuR_ge (inject_Z (-1))); [apply mult_int|rewrite Q2R_inject; exact A]|apply (rhuR_le (inject_Z 1)); [apply mult_int|rewrite Q2R_inject; exact B]].
Qed.

Lemma C47_signs_proof : forall data columns h fa m c t,
  CtcTotals data columns (Some h) (Some fa) (Some m) (Some c) (Some t) -> Genuine h fa m c t ->
  (forall r, calculate_lodds data columns = Ok (Some r) ->
     (fa * m <= h * c -> 0 <= r) /\ (h * c <= fa * m -> r <= 0)) /\
  (forall H, calculate_pody data columns = Ok (Some H) ->
     Forall (fun score => forall r, score data columns = Ok (Some r) ->
         (fa / (fa + c) <= H -> 0 <= r) /\ (H <= fa / (fa + c) -> r <= 0))
       [calculate_sedi; calculate_edi]) /\
  (forall r, calculate_seds data columns = Ok (Some r) ->
     ((h + fa) * (h + m) <= h * t -> 0 <= r) /\ (h * t <= (h + fa) * (h + m) -> r <= 0)).
Proof.
  intros data columns h fa m c t HT HG. split; [|split].
- intros r E; destruct (lodds_inv _ _ _ _ _ _ _ _ HT E) as [[A [B [D F]]] ->].
  destruct (log_odds_sign h fa m c A B D F) as [S1 S2]. split; intro K.
  + apply (rhuR_ge (inject_Z 0)); [apply mult_int|rewrite Q2R_inject; apply S1; exact K].
  + apply (rhuR_le (inject_Z 0)); [apply mult_int|rewrite Q2R_inject; apply S2; exact K].
- intros H P. change (pod_yes data columns = Ok (Some H)) in P. fall; intros r H0; split.
  + intro E0; destruct (sedi_inv _ _ _ _ _ _ _ _ HT HG H0) as [H' [P' [_ [_ [F [G ->]]]]]].
    assert (H' = H) as -> by congruence. pose proof (sum_neg_lt _ _ F G).
    apply Q2R_le in E0.
    pose proof (ln_mono _ _ (proj1 F) E0). pose proof (log_one_minus _ _ E0 (proj2 G)).
    apply (rhuR_ge (inject_Z 0)); [apply mult_int|rewrite Q2R_inject]. apply contrast_nonneg; [assumption|rlra].
  + intro E0; destruct (sedi_inv _ _ _ _ _ _ _ _ HT HG H0) as [H' [P' [_ [_ [F [G ->]]]]]].
    assert (H' = H) as -> by congruence. pose proof (sum_neg_lt _ _ F G).
    apply Q2R_le in E0.
    pose proof (ln_mono _ _ (proj1 G) E0). pose proof (log_one_minus _ _ E0 (proj2 F)).
    apply (rhuR_le (inject_Z 0)); [apply mult_int|rewrite Q2R_inject].
    rewrite contrast_anti by rlra.
    assert (0 <= contrast (ln (Q2R H) + ln (1 - Q2R (fa / (fa + c)))) (ln (Q2R (fa / (fa + c))) + ln (1 - Q2R H)))%R by (apply contrast_nonneg; rlra).
    rlra.
  + intros E0; destruct (edi_inv _ _ _ _ _ _ _ _ HT HG H0) as [H' [P' [_ [_ [F [G [S0 [_ ->]]]]]]]].
    assert (H' = H) as -> by congruence. apply Q2R_le in E0.
    pose proof (ln_mono _ _ (proj1 F) E0).
    apply (rhuR_ge (inject_Z 0)); [apply mult_int|rewrite Q2R_inject]. apply contrast_nonneg; assumption.
  + intros E0; destruct (edi_inv _ _ _ _ _ _ _ _ HT HG H0) as [H' [P' [_ [_ [F [G [S0 [_ ->]]]]]]]].
    assert (H' = H) as -> by congruence. apply Q2R_le in E0.
    pose proof (ln_mono _ _ (proj1 G) E0).
    apply (rhuR_le (inject_Z 0)); [apply mult_int|rewrite Q2R_inject].
    rewrite contrast_anti by rlra.
    assert (0 <= contrast (ln (Q2R H)) (ln (Q2R (fa / (fa + c)))))%R by (apply contrast_nonneg; rlra).
    rlra.
- intros r E; destruct (seds_inv _ _ _ _ _ _ _ _ HT HG E) as [[P K] ->].
  destruct (seds_sign _ _ _ _ _ HG P K) as [S1 S2]. split; intro X.
  + apply (rhuR_ge (inject_Z 0)); [apply mult_int|rewrite Q2R_inject; apply S1; exact X].
  + apply (rhuR_le (inject_Z 0)); [apply mult_int|rewrite Q2R_inject; apply S2; exact X].
Qed.

Lemma C47_no_misses_proof : forall data columns h fa c t,
  CtcTotals data columns (Some h) (Some fa) (Some 0) (Some c) (Some t) -> Genuine h fa 0 c t ->
  0 < h -> h < t ->
  Scores data columns calculate_eds 1 /\
  (fa == 0 -> Scores data columns calculate_seds 1 /\
     calculate_lodds data columns = Ok None /\ calculate_sedi data columns = Ok None /\
     calculate_edi data columns = Ok None).
Proof.
  intros data columns h fa c t HT HG P K.
destruct (seds_logs _ _ _ _ _ HG P K) as [L0 _].
assert (h + 0 == h) as EZ by ring.
assert (forall v, v = 1%R -> round_half_up_R v 7 == 1) as R1.
{ intros v ->. rewrite <- Q2R_1, rhuR_Q. apply rhu_fix. apply (mult_int 1). }
split.
- exists (round_half_up_R (dependency (Q2R (h / t)) (Q2R ((h + 0) / t))) 7). split.
  + apply (eds_table _ _ _ _ _ _ _ HT HG). split; assumption.
  + apply R1. unfold dependency. rewrite (Q2R_eq ((h + 0) / t) (h / t)) by (rewrite EZ; reflexivity). field. rlra.
- intro F. split; [|split; [|split]].
  + exists (round_half_up_R (sym_dependency (Q2R (h / t)) (Q2R ((h + fa) / t)) (Q2R ((h + 0) / t))) 7). split.
    * apply (seds_table _ _ _ _ _ _ _ HT HG). split; assumption.
    * apply R1. unfold sym_dependency. rewrite (Q2R_eq ((h + 0) / t) (h / t)) by (rewrite EZ; reflexivity).
      rewrite (Q2R_eq ((h + fa) / t) (h / t)) by (rewrite F, EZ; reflexivity). field. rlra.
  + apply (lodds_exact _ _ _ _ _ _ _ HT). qlra.
  + destruct (pod_cases _ _ _ _ _ HG _ _ HT) as [[_ E]|[_ [H [E _]]]].
    * apply (pod_none _ _ _ _ _ _ _ HT E).
    * apply (sedi_table _ _ _ _ _ _ _ _ HT HG E). qlra.
  + destruct (pod_cases _ _ _ _ _ HG _ _ HT) as [[_ E]|[_ [H [E [_ B]]]]].
    * apply (pod_none _ _ _ _ _ _ _ HT E).
    * apply (edi_table _ _ _ _ _ _ _ _ HT HG E (proj2 B)). qlra.
Qed.

Lemma C47_more_hits_proof : forall data columns data' columns' h h' fa m m' c t,
  CtcTotals data columns (Some h) (Some fa) (Some m) (Some c) (Some t) -> Genuine h fa m c t ->
  CtcTotals data' columns' (Some h') (Some fa) (Some m') (Some c) (Some t) -> Genuine h' fa m' c t ->
  h <= h' ->
  Forall (fun score => forall r r', score data columns = Ok (Some r) -> score data' columns' = Ok (Some r') -> r <= r')
    [calculate_lodds; calculate_sedi; calculate_edi; calculate_eds].
Proof.
  intros data columns data' columns' h h' fa m m' c t HT HG HT' HG' Hh.
assert (h + m == h' + m') as EM by (destruct HG, HG'; qlra).
assert (forall H H', 0 < h + m -> Nearest 7 (h / (h + m)) H -> Nearest 7 (h' / (h' + m')) H' -> (Q2R H <= Q2R H')%R) as HM.
{ intros H H' P N N'. apply Q2R_le. apply (nearest_mono7 (h / (h + m)) (h' / (h' + m'))); try assumption.
  rewrite <- EM. apply Qmult_le_compat_r; [exact Hh|]. apply Qinv_le_0_compat. qlra. }
fall.
- intros r r' E E'. destruct (lodds_inv _ _ _ _ _ _ _ _ HT E) as [[A [B [D F]]] ->].
  destruct (lodds_inv _ _ _ _ _ _ _ _ HT' E') as [[A' [B' [D' F']]] ->].
  apply rhuR_mono, log_odds_mono; try assumption; qlra.
- intros r r' E E'. destruct (sedi_inv _ _ _ _ _ _ _ _ HT HG E) as [H [_ [N [K [F [P ->]]]]]].
  destruct (sedi_inv _ _ _ _ _ _ _ _ HT' HG' E') as [H' [_ [N' [K' [F' [P' ->]]]]]].
  specialize (HM _ _ K N N').
  pose proof (sum_neg_lt _ _ F P). pose proof (sum_neg_lt _ _ F P').
  pose proof (ln_neg _ F). pose proof (ln_neg _ P). pose proof (ln_neg _ P').
  pose proof (ln_neg (1 - Q2R (fa / (fa + c))) ltac:(rlra)). pose proof (ln_neg (1 - Q2R H) ltac:(rlra)). pose proof (ln_neg (1 - Q2R H') ltac:(rlra)).
  pose proof (ln_mono _ _ (proj1 P) HM). pose proof (log_one_minus _ _ HM (proj2 P')).
  apply rhuR_mono, contrast_mono; rlra.
- intros r r' E E'. destruct (edi_inv _ _ _ _ _ _ _ _ HT HG E) as [H [_ [N [K [F [P [S0 [_ ->]]]]]]]].
  destruct (edi_inv _ _ _ _ _ _ _ _ HT' HG' E') as [H' [_ [N' [K' [F' [P' [S' [_ ->]]]]]]]].
  specialize (HM _ _ K N N').
  pose proof (ln_nonpos _ F). pose proof (ln_nonpos _ P). pose proof (ln_nonpos _ P').
  pose proof (ln_mono _ _ (proj1 P) HM).
  apply rhuR_mono, contrast_mono; rlra.
- intros r r' E E'. destruct (eds_inv _ _ _ _ _ _ _ _ HT HG E) as [[P K] ->].
  destruct (eds_inv _ _ _ _ _ _ _ _ HT' HG' E') as [[P' K'] ->].
  destruct (seds_logs _ _ _ _ _ HG P K) as [L0 [_ [_ [L3 L4]]]].
  destruct (seds_logs _ _ _ _ _ HG' P' K') as [L0' _].
  apply rhuR_mono. unfold dependency. rewrite (Q2R_eq ((h' + m') / t) ((h + m) / t)) by (rewrite EM; reflexivity).
  assert (0 < t) as T by qlra.
  assert (Q2R (h / t) <= Q2R (h' / t))%R as Q by (apply Q2R_le, share_le; assumption).
  pose proof (ln_mono _ _ (Q2R_pos _ (Qdiv_pos _ _ P T)) Q) as LM.
  assert (2 * ln (Q2R ((h + m) / t)) / ln (Q2R (h / t)) <= 2 * ln (Q2R ((h + m) / t)) / ln (Q2R (h' / t)))%R as X by (apply quot_den; rlra).
  rlra.
Qed.

Lemma C47_fewer_false_alarms_proof : forall data columns data' columns' h fa fa' m c c' t,
  CtcTotals data columns (Some h) (Some fa) (Some m) (Some c) (Some t) -> Genuine h fa m c t ->
  CtcTotals data' columns' (Some h) (Some fa') (Some m) (Some c') (Some t) -> Genuine h fa' m c' t ->
  fa' <= fa ->
  Forall (fun score => forall r r', score data columns = Ok (Some r) -> score data' columns' = Ok (Some r') -> r <= r')
    [calculate_lodds; calculate_sedi; calculate_edi; calculate_seds] /\
  calculate_eds data columns = calculate_eds data' columns'.
Proof.
  intros data columns data' columns' h fa fa' m c c' t HT HG HT' HG' Hf.
assert (fa + c == fa' + c') as EM by (destruct HG, HG'; qlra).
assert (0 < fa' -> (Q2R (fa' / (fa' + c')) <= Q2R (fa / (fa + c)))%R) as FM.
{ intro P. apply Q2R_le. rewrite <- EM. apply Qmult_le_compat_r; [exact Hf|]. apply Qinv_le_0_compat. destruct HG; qlra. }
assert (forall H H', Nearest 7 (h / (h + m)) H -> Nearest 7 (h / (h + m)) H' -> Q2R H = Q2R H') as HM.
{ intros H H' N N'. apply Q2R_eq. eapply nearest_unique; eassumption. }
split; [fall|].
- intros r r' E E'. destruct (lodds_inv _ _ _ _ _ _ _ _ HT E) as [[A [B [D F]]] ->].
  destruct (lodds_inv _ _ _ _ _ _ _ _ HT' E') as [[A' [B' [D' F']]] ->].
  apply rhuR_mono, log_odds_mono; try assumption; qlra.
- intros r r' E E'. destruct (sedi_inv _ _ _ _ _ _ _ _ HT HG E) as [H [_ [N [K [F [P ->]]]]]].
  destruct (sedi_inv _ _ _ _ _ _ _ _ HT' HG' E') as [H' [_ [N' [K' [F' [P' ->]]]]]].
  rewrite <- (HM _ _ N N') in *.
  assert (0 < fa') as PF by (apply (rate_dom1 _ _ _ _ _ HG'); [intro Z; destruct F' as [F1 _]; rewrite (Q2R_eq _ 0) in F1; [rewrite Q2R_0 in F1; rlra|]; rewrite Z; unfold Qdiv; setoid_replace (/ 0) with 0 by reflexivity; ring|apply Q2R_lt; rewrite Q2R_0; apply F']).
  specialize (FM PF).
  pose proof (sum_neg_lt _ _ F P). pose proof (sum_neg_lt _ _ F' P).
  pose proof (ln_neg _ F). pose proof (ln_neg _ F'). pose proof (ln_neg _ P).
  pose proof (ln_neg (1 - Q2R (fa / (fa + c))) ltac:(rlra)). pose proof (ln_neg (1 - Q2R (fa' / (fa' + c'))) ltac:(rlra)). pose proof (ln_neg (1 - Q2R H) ltac:(rlra)).
  pose proof (ln_mono _ _ (proj1 F') FM). pose proof (log_one_minus _ _ FM (proj2 F)).
  apply rhuR_mono, contrast_mono; rlra.
- intros r r' E E'. destruct (edi_inv _ _ _ _ _ _ _ _ HT HG E) as [H [_ [N [K [F [P [S0 [_ ->]]]]]]]].
  destruct (edi_inv _ _ _ _ _ _ _ _ HT' HG' E') as [H' [_ [N' [K' [F' [P' [S' [PF ->]]]]]]]].
  rewrite <- (HM _ _ N N') in *. specialize (FM PF).
  pose proof (ln_nonpos _ F). pose proof (ln_nonpos _ F'). pose proof (ln_nonpos _ P).
  pose proof (ln_mono _ _ (proj1 F') FM).
  apply rhuR_mono, contrast_mono; rlra.
- intros r r' E E'. destruct (seds_inv _ _ _ _ _ _ _ _ HT HG E) as [[P K] ->].
  destruct (seds_inv _ _ _ _ _ _ _ _ HT' HG' E') as [[P' K'] ->].
  destruct (seds_logs _ _ _ _ _ HG P K) as [L0 [L1 [L2 [L3 L4]]]].
  apply rhuR_mono. unfold sym_dependency. assert (0 < t) as T by qlra.
  assert (Q2R ((h + fa') / t) <= Q2R ((h + fa) / t))%R as Q by (apply Q2R_le, share_le; [qlra|assumption]).
  assert (0 < (h + fa') / t) as PQ by (apply Qdiv_pos; [destruct HG'; qlra|assumption]).
  pose proof (ln_mono _ _ (Q2R_pos _ PQ) Q) as LM.
  pose proof (quot_mono (ln (Q2R ((h + fa') / t)) + ln (Q2R ((h + m) / t))) (ln (Q2R ((h + fa) / t)) + ln (Q2R ((h + m) / t))) _ L0 ltac:(rlra)) as X.
  rlra.
- destruct (eds_table _ _ _ _ _ _ _ HT HG) as [A B]. destruct (eds_table _ _ _ _ _ _ _ HT' HG') as [A' B'].
  assert ((0 < h /\ h < t) \/ ~ (0 < h /\ h < t)) as [D|D] by em.
  + rewrite (A D), (A' D). reflexivity.
  + rewrite (B D), (B' D). reflexivity.
Qed.

Lemma C47_symmetry_proof : forall data columns data' columns' data'' columns'' h fa m c t t' t'' r r' r'',
  CtcTotals data columns (Some h) (Some fa) (Some m) (Some c) t ->
  CtcTotals data' columns' (Some c) (Some m) (Some fa) (Some h) t' ->
  CtcTotals data'' columns'' (Some m) (Some c) (Some h) (Some fa) t'' ->
  calculate_lodds data columns = Ok (Some r) -> calculate_lodds data' columns' = Ok (Some r') ->
  calculate_lodds data'' columns'' = Ok (Some r'') ->
  r' = r /\ - (2 * half_unit 7) <= r + r'' <= 2 * half_unit 7.
Proof.
  intros data columns data' columns' data'' columns'' h fa m c t t' t'' r r' r'' HT HT' HT'' E E' E''.
destruct (lodds_inv _ _ _ _ _ _ _ _ HT E) as [[A [B [D F]]] ->].
destruct (lodds_inv _ _ _ _ _ _ _ _ HT' E') as [_ ->].
destruct (lodds_inv _ _ _ _ _ _ _ _ HT'' E'') as [_ ->].
assert (log_odds c m fa h = log_odds h fa m c) as -> by (unfold log_odds; f_equal; rewrite (Rmult_comm (Q2R c)), (Rmult_comm (Q2R m)); reflexivity).
split; [reflexivity|].
assert (log_odds m c h fa = - log_odds h fa m c)%R as -> by (rewrite <- !log_odds_sum by assumption; ring).
set (v := log_odds h fa m c).
destruct (rhuR_nearest v 7) as [_ [U1 L1]]. destruct (rhuR_nearest (- v) 7) as [_ [U2 L2]].
split; apply Q2R_le; rewrite ?Q2R_opp, Q2R_mult, Q2R_plus; replace (Q2R 2) with 2%R by (unfold Q2R; simpl; field); rlra.
Qed.

Lemma C47_missing_proof : forall data columns h fa m c t W,
  CtcTotals data columns h fa m c t ->
  Forall (fun '(score, needed) => In None needed -> score data columns = Ok None)
    [ (calculate_lodds, [h; fa; m; c]); (calculate_sedi, [h; fa; m; c]); (calculate_edi, [h; fa; m; c]);
      (calculate_seds, [h; fa; m; t]); (calculate_eds, [h; m; t]);
      (fun d n => calculate_bagss d n W, [h; fa; m; t]) ].
Proof.
  intros data columns h fa m c t W HT.
destruct (ctc_sums _ _ _ _ _ _ _ HT) as [h' [fa' [m' [c' [t' [E1 [E2 [E3 [E4 [E5 [F1 [F2 [F3 [F4 F5]]]]]]]]]]]]]].
assert (forall o o', oeq o o' -> o' = None -> o = None) as ON by (intros [?|] [?|]; simpl; intros; try tauto; congruence).
assert (forall o o', oeq o o' -> None = o' -> o = None) as ON' by (intros; eapply ON; [eassumption|congruence]).
assert (h' = None \/ m' = None -> pod_yes data columns = Ok None) as PN.
{ intros [->| ->]; unfold pod_yes; rewrite E1, E3; [reflexivity|destruct h'; reflexivity]. }
fall; cbn [In]; intro N.
- unfold calculate_lodds. rewrite E1, E2, E3, E4. cbn [bind].
  destruct h', fa', m', c'; try reflexivity. simpl in F1, F2, F3, F4. destruct h, fa, m, c; try tauto.
  destruct N as [N|[N|[N|[N|[]]]]]; discriminate N.
- unfold calculate_sedi. rewrite E2, E4. cbn [bind].
  destruct fa' as [x|], c' as [y|]; try reflexivity. simpl in F2, F4. destruct fa, c; try tauto.
  cbn [pybin bind]. destruct (Qeq_em (x + y) 0) as [Z|Z]; [rewrite npd0 by exact Z; reflexivity|].
  rewrite npd by exact Z. cbn [bind]. rewrite PN; [cbn [bind]; log_case (x / (x + y)) A; reflexivity|].
  destruct N as [N|[N|[N|[N|[]]]]]; try discriminate N; [left; subst h; destruct h'; [contradiction|reflexivity]|right; subst m; destruct m'; [contradiction|reflexivity]].
- unfold calculate_edi. rewrite E2, E4, E5. cbn [bind].
  destruct fa' as [x|], c' as [y|]; try reflexivity. simpl in F2, F4. destruct fa, c; try tauto.
  cbn [pybin bind]. destruct (Qeq_em (x + y) 0) as [Z|Z]; [rewrite npd0 by exact Z; reflexivity|].
  rewrite npd by exact Z. cbn [bind]. rewrite PN; [cbn [bind]; log_case (x / (x + y)) A; reflexivity|].
  destruct N as [N|[N|[N|[N|[]]]]]; try discriminate N; [left; subst h; destruct h'; [contradiction|reflexivity]|right; subst m; destruct m'; [contradiction|reflexivity]].
- unfold calculate_seds. rewrite E1, E2, E3, E5. cbn [bind].
  destruct h' as [x|], fa' as [y|], t' as [z|]; try reflexivity. simpl in F1, F2, F5. destruct h, fa, t; try tauto.
  destruct m' as [w|]; simpl in F3; [destruct m; [|contradiction]; destruct N as [N|[N|[N|[N|[]]]]]; discriminate N|].
  cbn [pybin bind]. destruct (Qeq_em z 0) as [Z|Z]; [rewrite npd0 by exact Z; reflexivity|].
  rewrite npd by exact Z. log_case ((x + y) / z) A. reflexivity.
- unfold calculate_eds. rewrite E1, E3, E5. cbn [bind].
  destruct h' as [x|], m' as [y|], t' as [z|]; try reflexivity. simpl in F1, F3, F5. destruct h, m, t; try tauto.
  destruct N as [N|[N|[N|[]]]]; discriminate N.
- unfold calculate_bagss. rewrite E1, E2, E3, E5. cbn [bind].
  destruct h', fa', m', t'; try reflexivity. simpl in F1, F2, F3, F5. destruct h, fa, m, t; try tauto.
  destruct N as [N|[N|[N|[N|[]]]]]; discriminate N.
Qed.

Lemma C47_case_proof :
  CtcTotals [ctc_row 3 1 0 0; ctc_row 0 1 1 4] ctc_columns (Some 3) (Some 2) (Some 1) (Some 4) (Some 10) /\
  Genuine 3 2 1 4 10 /\ Nearest 7 (3 / (3 + 1)) (3 # 4) /\
  sym_dependency (Q2R (3 / 10)) (Q2R ((3 + 2) / 10)) (Q2R ((3 + 1) / 10)) <> 0%R.
Proof.
  split; [concrete_ctc|]. split; [split; qlra|]. split.
- split; [exists 7500000%Z; reflexivity|]. split; vm_compute; congruence.
- unfold sym_dependency. intro E.
  assert (Q2R (3 / 10) = 3 / 10)%R as A by (unfold Q2R; simpl; field).
  assert (Q2R ((3 + 2) / 10) = 1 / 2)%R as B by (unfold Q2R; simpl; field).
  assert (Q2R ((3 + 1) / 10) = 2 / 5)%R as D by (unfold Q2R; simpl; field).
  rewrite A, B, D in E.
  assert (ln (3 / 10) < 0)%R as N by (rewrite <- ln_1; apply ln_increasing; rlra).
  assert (ln (1 / 2) + ln (2 / 5) = ln (3 / 10))%R as F.
  { apply Rmult_eq_reg_r with (/ ln (3 / 10))%R; [|apply Rinv_neq_0_compat; rlra]. rewrite Rinv_r by rlra.
    unfold Rdiv in E at 1. rlra. }
  rewrite <- ln_mult in F by rlra. apply ln_inv in F; rlra.
Qed.

Lemma C47_missing_case_proof :
  CtcTotals [[CNum 3; CMiss; CNum 1; CNum 4; CNum 8]] ctc_columns (Some 3) None (Some 1) (Some 4) (Some 8).
Proof.
  concrete_ctc.
- injection H as <- <-. split; [reflexivity|]. intro K. exfalso. apply K. reflexivity.
- repeat (destruct H as [H|H]; [injection H as <- <-; split; [intro K; discriminate K|intro; eexists; split; [reflexivity|]; simpl; ring]|]). destruct H.
Qed.

Lemma C47_no_misses_case_proof :
  CtcTotals [ctc_row 3 5 0 2] ctc_columns (Some 3) (Some 5) (Some 0) (Some 2) (Some 10) /\ Genuine 3 5 0 2 10.
Proof.
  split; [concrete_ctc|split; qlra].
Qed.

Lemma C47_more_hits_case_proof :
  CtcTotals [ctc_row 3 2 2 4] ctc_columns (Some 3) (Some 2) (Some 2) (Some 4) (Some 11) /\ Genuine 3 2 2 4 11 /\
  CtcTotals [ctc_row 4 2 1 4] ctc_columns (Some 4) (Some 2) (Some 1) (Some 4) (Some 11) /\ Genuine 4 2 1 4 11 /\
  CtcTotals [ctc_row 3 1 2 5] ctc_columns (Some 3) (Some 1) (Some 2) (Some 5) (Some 11) /\ Genuine 3 1 2 5 11.
Proof.
  repeat (split; [first [concrete_ctc|split; qlra]|]); split; qlra.
Qed.

Lemma C47_same_totals_proof : forall data data' columns columns' h fa m c t W,
  CtcTotals data columns h fa m c t -> CtcTotals data' columns' h fa m c t ->
  Forall (fun score => score data columns = score data' columns')
    [ calculate_lodds; calculate_sedi; calculate_edi; calculate_seds; calculate_eds;
      fun d n => calculate_bagss d n W ].
Proof.
  intros data data' columns columns' h fa m c t W HT HT'. pose proof (same_totals_req _ _ _ _ _ _ _ _ _ HT HT') as HS.
fall; [apply lodds_dep|apply sedi_dep|apply edi_dep|apply seds_dep|apply eds_dep|apply bagss_dep]; exact HS.
Qed.

Lemma C47_no_exception_proof : forall data columns W,
  Forall (fun score => exists r, score data columns = Ok r)
    [ calculate_sedi; calculate_edi; calculate_seds; calculate_eds; fun d n => calculate_bagss d n W ].
Proof.
  intros data columns W. fall; apply std_ok; logsafe.
Qed.

Lemma C47_lodds_text_refuted_proof : forall data columns i r s,
  Rectangular data columns -> ColumnAt columns "fy_oy" i -> In r data -> nth_error r i = Some (CStr s) ->
  calculate_lodds data columns = Err ValueError.
Proof.
  intros data columns i r s HR HC Hr Hs. unfold calculate_lodds. rewrite (sum_text _ _ _ _ _ _ HR HC Hr Hs). reflexivity.
Qed.

Lemma C47_lodds_text_case_proof :
  Rectangular [[CStr "x"; CNum 2; CNum 1; CNum 4; CNum 7]] ctc_columns /\ ColumnAt ctc_columns "fy_oy" 0.
Proof.
  split; [intros r [<-|[]]; reflexivity|]. split; [reflexivity|]. intros j Hj. inversion Hj.
Qed.

Lemma C47_sedi_defined_refuted_proof : exists h fa m c,
  0 < h /\ 0 < fa /\ 0 < m /\ 0 < c /\
  calculate_sedi [ctc_row h fa m c] ctc_columns = Ok None.
Proof.
  exists 100000000, 1, 1, 1. repeat (split; [reflexivity|]).
assert (CtcTotals [ctc_row 100000000 1 1 1] ctc_columns (Some 100000000) (Some 1) (Some 1) (Some 1) (Some 100000003)) as HT by concrete_ctc.
assert (pod_yes [ctc_row 100000000 1 1 1] ctc_columns = Ok (Some (10000000 # 10000000))) as P by (vm_compute; reflexivity).
unfold calculate_sedi. rewrite P.
replace (sum_column_data_by_name [ctc_row 100000000 1 1 1] ctc_columns "fn_on" true) with (Ok (Some (1 + 0))) by (vm_compute; reflexivity).
replace (sum_column_data_by_name [ctc_row 100000000 1 1 1] ctc_columns "fy_on" true) with (Ok (Some (1 + 0))) by (vm_compute; reflexivity).
cbn [bind pybin]. rewrite npd by discriminate. cbn [bind]. unfold pylit. cbn [pybin bind].
rewrite !math_log_pos by reflexivity. rewrite math_log_neg by (vm_compute; congruence). reflexivity.
Qed.

Lemma C48_adjusted_proof : forall data columns h fa m c t W,
  LambertW W ->
  CtcTotals data columns (Some h) (Some fa) (Some m) (Some c) (Some t) -> Genuine h fa m c t ->
  0 < h -> 0 < m -> 0 < fa ->
  let events := Q2R (h + m) in
  exists misses r,
    AdjustedMisses events (Q2R m) (Q2R fa) misses /\
    (forall misses', AdjustedMisses events (Q2R m) (Q2R fa) misses' -> misses' = misses) /\
    calculate_bagss data columns W = Ok (Some r) /\
    NearestR 7 (unbiased_gss (events - misses) misses (events * events / Q2R t)) r /\
    -1 <= r <= 1.
Proof.
  intros data columns h fa m c t W HW HT HG Ph Pm Pf events.
exists (Q2R fa / ln (events / Q2R m) * W (events / Q2R fa * ln (events / Q2R m)))%R. eexists.
pose proof (y_adjusted h fa m W HW Ph Pm Pf) as YA. fold events in YA.
pose proof (events_gt h m Ph Pm) as EG. pose proof (Q2R_pos _ Pf) as PF.
split; [exact YA|]. split; [|split; [apply (bagss_value _ _ _ _ _ _ _ W HW HT HG Ph Pm Pf)|split; [apply rhuR_nearest|]]].
- intros y' A. exact (adjusted_unique _ _ _ EG PF _ _ A YA).
- apply rhuR_interval; [apply multiple_m1|apply multiple_1|]. rewrite Q2R_m1, Q2R_1.
  apply (bagss_range h fa m c t W HW HG Ph Pm Pf).
Qed.

Lemma C48_case_proof : (exists W, LambertW W) /\
  CtcTotals [ctc_row 3 2 1 4] ctc_columns (Some 3) (Some 2) (Some 1) (Some 4) (Some 10) /\ Genuine 3 2 1 4 10.
Proof.
  split; [exact lambert_exists|]. split; [concrete_ctc|split; qlra].
Qed.

Lemma C48_unbiased_case_proof :
  CtcTotals [ctc_row 3 1 1 4] ctc_columns (Some 3) (Some 1) (Some 1) (Some 4) (Some 9) /\ Genuine 3 1 1 4 9.
Proof.
  split; [concrete_ctc|split; qlra].
Qed.

Lemma C48_direction_proof : forall events m fa misses,
  (0 < m < events)%R -> (0 < fa)%R -> AdjustedMisses events m fa misses ->
  (m < fa -> m < misses < fa)%R /\ (fa < m -> fa < misses < m)%R /\ (fa = m -> misses = m)%R.
Proof.
  intros events m fa misses H K A. exact (direction _ _ _ H K _ A).
Qed.

Lemma C48_unbiased_proof : forall data columns h fa m c t W,
  LambertW W ->
  CtcTotals data columns (Some h) (Some fa) (Some m) (Some c) (Some t) -> Genuine h fa m c t ->
  0 < h -> 0 < m -> fa == m ->
  calculate_bagss data columns W = calculate_gss data columns.
Proof.
  intros data columns h fa m c t W HW HT HG Ph Pm EF. assert (0 < fa) as Pf by qlra.
rewrite (bagss_value _ _ _ _ _ _ _ W HW HT HG Ph Pm Pf).
pose proof (y_adjusted h fa m W HW Ph Pm Pf) as YA.
pose proof (direction _ _ _ (events_gt h m Ph Pm) (Q2R_pos _ Pf) _ YA) as [_ [_ D]].
rewrite (D (Q2R_eq _ _ EF)).
pose proof (gn_t _ _ _ _ _ HG) as GT. pose proof (gn_c _ _ _ _ _ HG) as GC.
assert (0 < t) as Pt by qlra.
set (e := (h + m) * (h + m) / t).
assert (0 < e < h + m) as CR.
{ destruct (chance_range h fa m c t HG Ph Pm Pf) as [C1 C2].
  assert (Q2R e = Q2R (h + m) * Q2R (h + m) / Q2R t)%R as EE by (unfold e, Qdiv, Rdiv; rewrite !Q2R_mult, Q2R_inv by qlra; reflexivity).
  rewrite <- EE in C1, C2. split; apply Rlt_Qlt; [rewrite Q2R_0; exact C1|exact C2]. }
assert (unbiased_gss (Q2R (h + m) - Q2R m) (Q2R m) (Q2R (h + m) * Q2R (h + m) / Q2R t) = Q2R ((h - e) / (h + 2 * m - e))) as ->.
{ unfold unbiased_gss. unfold Qdiv at 1. rewrite Q2R_mult, Q2R_inv by qlra. unfold Rdiv at 1.
  assert (Q2R e = Q2R (h + m) * Q2R (h + m) / Q2R t)%R as <- by (unfold e, Qdiv, Rdiv; rewrite !Q2R_mult, Q2R_inv by qlra; reflexivity).
  rewrite !Q2R_minus, !Q2R_plus, Q2R_mult. replace (Q2R 2) with 2%R by (unfold Q2R; simpl; field).
  f_equal; [ring|]. f_equal. ring. }
rewrite rhuR_Q.
destruct (ctc_sums _ _ _ _ _ _ _ HT) as [h' [fa' [m' [c' [t' [E1 [E2 [E3 [E4 [E5 [F1 [F2 [F3 [F4 F5]]]]]]]]]]]]]].
destruct h' as [h'|], fa' as [fa'|], m' as [m'|], t' as [t'|]; simpl in F1, F2, F3, F5; try contradiction.
assert (forall a b, ~ b == 0 -> pydiv (Ok (Some a)) (Ok (Some b)) = Ok (Some (a / b))) as PD.
{ intros a b Nb. unfold pydiv. cbn [bind]. destruct (Qeq_bool b 0) eqn:B; [apply Qeq_bool_iff in B; contradiction|reflexivity]. }
unfold calculate_gss. rewrite E1, E2, E3, E5. cbn [bind pybin py_eq0].
destruct (Qeq_bool t' 0) eqn:B3; [apply Qeq_bool_iff in B3; exfalso; qlra|]. cbn [bind pybin].
rewrite PD by qlra. cbn [bind pybin].
assert ((h' + fa') / t' * (h' + m') == e) as Ee by (unfold e; rewrite F1, F2, F3, F5, EF; field; qlra).
rewrite PD by qlra. cbn [bind pyround catch]. do 2 f_equal. apply rhu_compat.
rewrite Ee, F1, F2, F3, EF. setoid_replace (h + m + m - e) with (h + 2 * m - e) by ring. reflexivity.
Qed.

Lemma C48_undefined_proof : forall data columns h fa m c t W,
  CtcTotals data columns (Some h) (Some fa) (Some m) (Some c) (Some t) ->
  h == 0 \/ m == 0 \/ fa == 0 \/ t == 0 ->
  calculate_bagss data columns W = Ok None.
Proof.
  intros data columns h fa m c t W HT H.
destruct (ctc_sums _ _ _ _ _ _ _ HT) as [h' [fa' [m' [c' [t' [E1 [E2 [E3 [E4 [E5 [F1 [F2 [F3 [F4 F5]]]]]]]]]]]]]].
destruct h' as [h'|], fa' as [fa'|], m' as [m'|], t' as [t'|]; simpl in F1, F2, F3, F5; try contradiction.
unfold calculate_bagss. rewrite E1, E2, E3, E5. cbn [bind is_none orb py_eq0].
destruct (Qeq_bool h' 0) eqn:B1; [reflexivity|]. destruct (Qeq_bool m' 0) eqn:B2; [reflexivity|].
destruct (Qeq_bool t' 0) eqn:B3; [reflexivity|]. cbn [orb pybin bind].
apply Qeq_bool_neq in B1. apply Qeq_bool_neq in B2. apply Qeq_bool_neq in B3.
assert (fa' == 0) as Z by (destruct H as [H|[H|[H|H]]]; [exfalso; qlra|exfalso; qlra|qlra|exfalso; qlra]).
rewrite npd by exact B2. rewrite npd0 by exact Z.
destruct (np_log (Ok (Some ((h' + m') / m')))) as [l|e] eqn:L; [reflexivity|].
unfold np_log in L. cbn [bind] in L. destruct (Qlt_bool 0 ((h' + m') / m')); [discriminate L|].
injection L as <-. reflexivity.
Qed.

