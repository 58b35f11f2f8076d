(** Proofs about central blocking latitudes. *)
From Verif Require Import PyBase ColumnModel BaseSpec BlockModel BlockSpec BlockProofs CblModel CblSpec.
From Coq Require Import Reals Qreals Lra.
From Coq Require Import List.
Open Scope Z_scope.

(* ---------- lists ---------- *)
Lemma seq_nth_inv n j k : nth_error (seq 0 n) j = Some k -> k = j /\ (j < n)%nat.
Proof.
  intro H. assert (j < n)%nat as L by (rewrite <- (seq_length n 0); apply nth_error_Some; congruence). split; [|exact L].
  rewrite (nth_error_nth' _ 0%nat) in H by (rewrite seq_length; exact L). injection H as <-. rewrite seq_nth by exact L. reflexivity.
Qed.
Lemma combine_nth_inv {A} (l : list A) i p : nth_error (combine (seq 0 (length l)) l) i = Some p -> fst p = i /\ nth_error l i = Some (snd p).
Proof.
  intro H. destruct (nth_error l i) as [x|] eqn:E.
  - rewrite (seq_combine _ _ _ E) in H. injection H as <-. split; reflexivity.
  - apply nth_error_None in E. assert (i < length (combine (seq 0 (length l)) l))%nat as L by (apply nth_error_Some; congruence). rewrite combine_length, seq_length in L. lia.
Qed.
Lemma combine_in_inv {A} (l : list A) p : In p (combine (seq 0 (length l)) l) -> nth_error l (fst p) = Some (snd p).
Proof. intro I. apply In_nth_error in I. destruct I as (i & I). apply combine_nth_inv in I. destruct I as (E & I). rewrite E. exact I. Qed.
Lemma item_there {A} j (l : list A) : (j < length l)%nat -> exists x, item (Z.of_nat j) l = Ok x /\ nth_error l j = Some x.
Proof. intro L. destruct (nth_error l j) as [x|] eqn:E; [|apply nth_error_None in E; lia]. exists x. split; [apply item_nat; exact E|reflexivity]. Qed.
Lemma mapM_const {A B} (f : A -> res B) y l : (forall x, In x l -> f x = Ok y) -> mapM f l = Ok (repeat y (length l)).
Proof. induction l as [|x l IH]; intro H; [reflexivity|]. cbn [mapM length repeat]. rewrite (H x (or_introl eq_refl)). cbn [bind]. rewrite IH by (intros z I; apply H; right; exact I). reflexivity. Qed.
Lemma nth_repeat {A} (x : A) n j : (j < n)%nat -> nth_error (repeat x n) j = Some x.
Proof. revert j. induction n as [|n IH]; intros [|j] L; try lia; [reflexivity|]. cbn [repeat nth_error]. apply IH. lia. Qed.

(* ---------- heights and weights ---------- *)
Definition grid (n : nat) (days : heights) : Prop := forall day, In day days -> length day = n /\ forall row, In row day -> length row = 360%nat.
Lemma days_there n days i j : grid n days -> (i < n)%nat -> (j < 360)%nat -> exists hs,
  mapM (fun day => row <- item (Z.of_nat i) day ;; item (Z.of_nat j) row) days = Ok hs /\ DaysAt days i j hs.
Proof.
  intros G LI LJ. apply (mapM_all _ (fun day h => exists row, nth_error day i = Some row /\ nth_error row j = Some h)). intros day I. destruct (G day I) as (LD & LR).
  destruct (item_there i day) as (row & ER & NR); [lia|]. destruct (item_there j row) as (h & EH & NH); [rewrite (LR row); [exact LJ|exact (nth_error_In _ _ NR)]|].
  exists h. rewrite ER. cbn [bind]. split; [exact EH|]. exists row. split; assumption.
Qed.
Lemma days_same days i j hs hs' : DaysAt days i j hs -> DaysAt days i j hs' -> hs = hs'.
Proof. apply forall2_fun. intros day h h' (row & N & K) (row' & N' & K'). congruence. Qed.
Lemma present_some_numbers hs : Present hs (some_numbers hs).
Proof. unfold some_numbers. induction hs as [|[q|] hs IH]; cbn [flat_map app]; constructor; exact IH. Qed.
Lemma present_same hs qs : Present hs qs -> qs = some_numbers hs.
Proof. unfold some_numbers. intro P. induction P as [|q hs qs P IH|hs qs P IH]; cbn [flat_map app]; [reflexivity|rewrite IH; reflexivity|exact IH]. Qed.
Lemma measured_numbers days i j hs : DaysAt days i j hs -> (Measured days i j <-> some_numbers hs <> []).
Proof.
  intro D. split.
  - intros (day & row & q & I & N & K) E. assert (In q (some_numbers hs)) as C; [|rewrite E in C; destruct C]. apply in_flat_map. exists (Some q). split; [|left; reflexivity].
    apply In_nth_error in I. destruct I as (k & I). destruct (nth_error hs k) as [h|] eqn:EH.
    + destruct (forall2_nth _ _ _ _ _ _ D I EH) as (row' & N' & K'). assert (h = Some q) as -> by congruence. exact (nth_error_In _ _ EH).
    + apply nth_error_None in EH. rewrite <- (forall2_len _ _ _ D) in EH. apply nth_error_None in EH. congruence.
  - intro E. destruct (some_numbers hs) as [|q qs] eqn:EQ; [contradiction|]. assert (In q (some_numbers hs)) as I by (rewrite EQ; left; reflexivity). apply in_flat_map in I. destruct I as (h & I & J).
    destruct h as [q'|]; [|destruct J]. destruct J as [->|[]]. apply In_nth_error in I. destruct I as (k & I). destruct (forall2_nth_l _ _ _ _ _ D I) as (day & ND & row & N & K). exists day, row, q. split; [exact (nth_error_In _ _ ND)|]. split; assumption.
Qed.
Lemma square_sum_nonneg m (qs : list Q) : (0 <= plus_all (map (fun q => (q - m) * (q - m)) qs))%Q.
Proof.
  induction qs as [|q qs IH]; [apply Qle_refl|]. cbn [map plus_all fold_right]. fold (plus_all (map (fun q => ((q - m) * (q - m))%Q) qs)).
  setoid_replace 0%Q with (0 + 0)%Q by reflexivity. apply Qplus_le_compat; [|exact IH]. destruct (q - m)%Q as [n d]. unfold Qle, Qmult. cbn [Qnum Qden]. nia.
Qed.
Lemma std_value hs : some_numbers hs <> [] -> exists s, nanstd hs = Some s /\ Spread (some_numbers hs) s.
Proof.
  unfold nanstd. intro N. destruct (some_numbers hs) as [|q qs] eqn:E; [contradiction|]. eexists. split; [reflexivity|]. split; [apply sqrt_pos|].
  eexists. split; [reflexivity|]. rewrite sqrt_def; [reflexivity|]. replace 0%R with (Q2R 0) by (unfold Q2R; cbn; lra). apply Qle_Rle. apply Qle_shift_div_l; [reflexivity|]. rewrite Qmult_0_l. apply square_sum_nonneg.
Qed.
Lemma sum_proper (f g : Q -> Q) qs : (forall q, f q == g q)%Q -> (qsum (map f qs) == qsum (map g qs))%Q.
Proof. intro H. induction qs as [|q qs IH]; [reflexivity|]. cbn [map qsum fold_right]. unfold qsum in *. cbn [fold_right]. rewrite IH, (H q). reflexivity. Qed.
Lemma spread_same qs s s' : Spread qs s -> Spread qs s' -> s = s'.
Proof.
  intros (P & m & M & E) (P' & m' & M' & E'). assert ((s * s)%R = (s' * s')%R) as K.
  { rewrite E, E'. apply Qeq_eqR. unfold Qdiv. apply Qmult_comp; [|reflexivity]. apply sum_proper. intro q. rewrite M, M'. reflexivity. }
  apply Rsqr_inj; assumption.
Qed.
Lemma way_value lat : (-90 <= lat <= 90)%Q -> way lat = Some (sqrt (cos (Q2R lat * PI / 180))).
Proof.
  intros (A & B). apply Qle_Rle in A. apply Qle_Rle in B. replace (Q2R (-90)) with (-90)%R in A by (unfold Q2R; cbn; lra). replace (Q2R 90) with 90%R in B by (unfold Q2R; cbn; lra).
  unfold way. destruct (Rlt_dec (cos (Q2R lat * PI / 180)) 0) as [C|_]; [|reflexivity]. exfalso. pose proof PI_RGT_0 as PP. assert (0 <= cos (Q2R lat * PI / 180))%R; [|lra]. apply cos_ge_0; nra.
Qed.
Lemma value_measured lats days i j lat hs : nth_error lats i = Some lat -> (-90 <= lat <= 90)%Q -> DaysAt days i j hs -> Measured days i j ->
  exists r, times (nanstd hs) (way lat) = Some r /\ Activity lats days i j r.
Proof.
  intros NL LA D M. apply (measured_numbers _ _ _ _ D) in M. destruct (std_value hs M) as (s & E & SP). rewrite E, way_value by exact LA. cbn [times]. eexists. split; [reflexivity|].
  exists lat, hs, (some_numbers hs), s. split; [exact NL|]. split; [exact D|]. split; [apply present_some_numbers|]. split; [exact M|]. split; [exact SP|reflexivity].
Qed.
Lemma value_missing days i j lat hs : DaysAt days i j hs -> ~ Measured days i j -> times (nanstd hs) (way lat) = None.
Proof. intros D M. unfold nanstd. destruct (some_numbers hs) as [|q qs] eqn:E; [reflexivity|]. exfalso. apply M. apply (measured_numbers _ _ _ _ D). rewrite E. discriminate. Qed.
Lemma value_activity lats days i j lat hs w : nth_error lats i = Some lat -> (-90 <= lat <= 90)%Q -> DaysAt days i j hs -> Activity lats days i j w -> times (nanstd hs) (way lat) = Some w.
Proof.
  intros NL LA D (lat' & hs' & qs & s & NL' & D' & P & NE & SP & ->). assert (lat' = lat) as -> by congruence. rewrite (days_same _ _ _ _ _ D' D) in P. rewrite (present_same _ _ P) in NE, SP.
  destruct (std_value hs NE) as (s' & E & SP'). rewrite E, way_value by exact LA. cbn [times]. rewrite (spread_same _ _ _ SP SP'). reflexivity.
Qed.
Definition weighed (lats : list Q) (days : heights) (ws : list (list (option R))) : Prop :=
  length ws = length lats /\ forall i line, nth_error ws i = Some line -> length line = 360%nat /\
    forall j x, nth_error line j = Some x -> exists lat hs, nth_error lats i = Some lat /\ DaysAt days i j hs /\ x = times (nanstd hs) (way lat).
Lemma mhweight_rule lats days : grid (length lats) days -> exists ws, mhweight lats 360 days = Ok ws /\ weighed lats days ws.
Proof.
  intro G. unfold mhweight.
  destruct (mapM_all (fun p : nat * Q => mapM (fun j => hs <- mapM (fun day => row <- item (Z.of_nat (fst p)) day ;; item (Z.of_nat j) row) days ;; Ok (times (nanstd hs) (way (snd p)))) (seq 0 360))
    (fun p line => Forall2 (fun j x => exists hs, DaysAt days (fst p) j hs /\ x = times (nanstd hs) (way (snd p))) (seq 0 360) line) (combine (seq 0 (length lats)) lats)) as (ws & E & F).
  { intros p I. apply combine_in_inv in I. apply mapM_all. intros j J. apply in_seq in J. destruct (days_there (length lats) days (fst p) j G) as (hs & E & D); [apply nth_error_Some; congruence|lia|].
    rewrite E. cbn [bind]. eexists. split; [reflexivity|]. exists hs. split; [exact D|reflexivity]. }
  exists ws. split; [exact E|]. split; [rewrite <- (forall2_len _ _ _ F), combine_length, seq_length; lia|].
  intros i line N. destruct (forall2_nth_l _ _ _ _ _ F N) as (p & NP & K). apply combine_nth_inv in NP. destruct NP as (<- & NP). cbv beta in K. split; [rewrite <- (forall2_len _ _ _ K); apply seq_length|].
  intros j x NJ. destruct (forall2_nth_l _ _ _ _ _ K NJ) as (j' & EJ & hs & D & V). apply seq_nth_inv in EJ. destruct EJ as (-> & _). exists (snd p), hs. split; [exact NP|]. split; [exact D|exact V].
Qed.

(* ---------- argmax ---------- *)
Lemma first_max_rule : forall l pre best place, nth_error pre place = Some (Some best) ->
  (forall k r, nth_error pre k = Some (Some r) -> (r <= best)%R /\ ((k < place)%nat -> (r < best)%R)) -> (forall x, In x l -> x <> None) ->
  exists b, nth_error (pre ++ l) (first_max best place (length pre) l) = Some (Some b) /\
    forall k r, nth_error (pre ++ l) k = Some (Some r) -> (r <= b)%R /\ ((k < first_max best place (length pre) l)%nat -> (r < b)%R).
Proof.
  induction l as [|x l IH]; intros pre best place N H A.
  - rewrite app_nil_r. exists best. split; [exact N|exact H].
  - destruct x as [r|]; [|exfalso; exact (A None (or_introl eq_refl) eq_refl)]. cbn [first_max].
    replace (pre ++ Some r :: l) with ((pre ++ [Some r]) ++ l) by (rewrite <- app_assoc; reflexivity). replace (S (length pre)) with (length (pre ++ [Some r])) by (rewrite app_length; cbn; lia).
    assert (place < length pre)%nat as LP by (apply nth_error_Some; congruence).
    destruct (Rlt_dec best r) as [L|L].
    + apply IH; [| |intros y I; apply A; right; exact I].
      * rewrite nth_error_app2 by lia. rewrite Nat.sub_diag. reflexivity.
      * intros k r' NK. destruct (Nat.lt_ge_cases k (length pre)) as [LK|LK].
        -- rewrite nth_error_app1 in NK by exact LK. destruct (H k r' NK) as (U & _). split; [lra|intros _; lra].
        -- rewrite nth_error_app2 in NK by exact LK. destruct (k - length pre)%nat as [|d] eqn:ED; [|destruct d; discriminate NK]. injection NK as <-. split; [lra|intro; lia].
    + apply IH; [| |intros y I; apply A; right; exact I].
      * rewrite nth_error_app1 by exact LP. exact N.
      * intros k r' NK. destruct (Nat.lt_ge_cases k (length pre)) as [LK|LK].
        -- rewrite nth_error_app1 in NK by exact LK. exact (H k r' NK).
        -- rewrite nth_error_app2 in NK by exact LK. destruct (k - length pre)%nat as [|d] eqn:ED; [|destruct d; discriminate NK]. injection NK as <-. split; [lra|intro; lia].
Qed.
Lemma no_nan : forall l k, (forall x, In x l -> x <> None) -> first_nan k l = None.
Proof. induction l as [|[r|] l IH]; intros k H; [reflexivity| |exfalso; exact (H None (or_introl eq_refl) eq_refl)]. cbn [first_nan]. apply IH. intros x I. apply H. right. exact I. Qed.
Lemma some_nan : forall l k i, nth_error l i = Some None -> (forall i', (i' < i)%nat -> nth_error l i' <> Some None) -> first_nan k l = Some (k + i)%nat.
Proof.
  induction l as [|x l IH]; intros k i N H; [destruct i; discriminate N|]. destruct i as [|i].
  - injection N as ->. cbn [first_nan]. rewrite Nat.add_0_r. reflexivity.
  - destruct x as [r|]; [|exfalso; exact (H 0%nat ltac:(lia) eq_refl)]. cbn [first_nan]. rewrite (IH (S k) i N); [f_equal; lia|]. intros i' L. exact (H (S i') ltac:(lia)).
Qed.
Lemma argmax_rule l : l <> [] -> (forall x, In x l -> x <> None) -> exists k b, argmax l = Ok k /\ nth_error l k = Some (Some b) /\
  forall k' r, nth_error l k' = Some (Some r) -> (r <= b)%R /\ ((k' < k)%nat -> (r < b)%R).
Proof.
  intros N A. unfold argmax. rewrite no_nan by exact A. destruct l as [|[r|] l]; [contradiction| |exfalso; exact (A None (or_introl eq_refl) eq_refl)].
  destruct (first_max_rule l [Some r] r 0) as (b & E & H); [reflexivity| |intros x I; apply A; right; exact I|].
  - intros [|k] r' E; [injection E as <-; split; [lra|intro; lia]|destruct k; discriminate E].
  - exists (first_max r 0 1 l), b. split; [reflexivity|]. split; [exact E|exact H].
Qed.
Lemma argmax_nan l i : nth_error l i = Some None -> (forall i', (i' < i)%nat -> nth_error l i' <> Some None) -> argmax l = Ok i.
Proof. intros N H. unfold argmax. rewrite (some_nan l 0 i N H). reflexivity. Qed.
Lemma argmax_total l : l <> [] -> exists k, argmax l = Ok k /\ (k < length l)%nat.
Proof.
  intro N. destruct (first_nan 0 l) as [k|] eqn:E.
  - exists k. unfold argmax. rewrite E. split; [reflexivity|]. assert (forall l k i, first_nan k l = Some i -> (k <= i < k + length l)%nat) as G; [|apply G in E; lia].
    clear. induction l as [|[r|] l IH]; intros k i E; [discriminate E|apply IH in E; cbn [length]; lia|injection E as <-; cbn [length]; lia].
  - destruct (argmax_rule l N) as (k & b & EK & NK & _).
    + assert (forall l k, first_nan k l = None -> forall x, In x l -> x <> None) as G; [|exact (G l 0%nat E)].
      clear. induction l as [|[r|] l IH]; intros k E x I; [destruct I| |discriminate E]. destruct I as [<-|I]; [discriminate|exact (IH _ E x I)].
    + exists k. split; [exact EK|]. apply nth_error_Some. congruence.
Qed.

(* ---------- a year ---------- *)
Lemma weighed_column lats days ws j : weighed lats days ws -> (j < 360)%nat -> exists w, column j ws = Ok w /\ length w = length lats /\
  forall i x, nth_error w i = Some x -> exists lat hs, nth_error lats i = Some lat /\ DaysAt days i j hs /\ x = times (nanstd hs) (way lat).
Proof.
  intros (LW & H) LJ. destruct (mapM_all (item (Z.of_nat j)) (fun line x => nth_error line j = Some x) ws) as (w & E & F).
  { intros line I. apply In_nth_error in I. destruct I as (i & I). destruct (item_there j line) as (x & EX & NX); [rewrite (proj1 (H i line I)); exact LJ|]. exists x. split; assumption. }
  exists w. split; [exact E|]. split; [rewrite <- (forall2_len _ _ _ F); exact LW|]. intros i x NX. destruct (forall2_nth_l _ _ _ _ _ F NX) as (line & NL & K). destruct (H i line NL) as (_ & G). exact (G j x K).
Qed.
Lemma cbl_year_rule lats days ws : lats <> [] -> weighed lats days ws -> exists track, cbl_year lats 360 ws = Ok track /\ length track = 360%nat /\
  forall j lat, nth_error track j = Some lat -> exists w k, column j ws = Ok w /\ argmax w = Ok k /\ nth_error lats k = Some lat.
Proof.
  intros NE W. unfold cbl_year.
  destruct (mapM_all (fun j => w <- column j ws ;; k <- argmax w ;; item (Z.of_nat k) lats) (fun j lat => exists w k, column j ws = Ok w /\ argmax w = Ok k /\ nth_error lats k = Some lat) (seq 0 360)) as (track & E & F).
  { intros j J. apply in_seq in J. destruct (weighed_column lats days ws j W) as (w & EW & LW & _); [lia|]. destruct (argmax_total w) as (k & EK & LK); [intros ->; destruct lats; [contradiction|discriminate LW]|].
    destruct (item_there k lats) as (lat & EL & NL); [lia|]. exists lat. rewrite EW. cbn [bind]. rewrite EK. cbn [bind]. split; [exact EL|]. exists w, k. split; [reflexivity|]. split; [exact EK|exact NL]. }
  exists track. split; [exact E|]. split; [rewrite <- (forall2_len _ _ _ F); apply seq_length|]. intros j lat N. destruct (forall2_nth_l _ _ _ _ _ F N) as (j' & EJ & K). apply seq_nth_inv in EJ. destruct EJ as (-> & _). exact K.
Qed.

(* ---------- the moving average ---------- *)
Lemma arange_nth a b k x : nth_error (arange a b) k = Some x -> x = a + Z.of_nat k.
Proof. unfold arange. rewrite nth_error_map. intro H. destruct (nth_error (seq 0 _) k) as [k'|] eqn:E; [|discriminate H]. injection H as <-. apply seq_nth_inv in E. destruct E as (-> & _). reflexivity. Qed.
Lemma arange_length a b : length (arange a b) = Z.to_nat (b - a + 1).
Proof. unfold arange. rewrite map_length. apply seq_length. Qed.
Lemma circle_item {A} (row : list A) x : length row = 360%nat -> -360 <= x < 720 -> exists q, item (if 360 <=? x then x - 360 else x) row = Ok q /\ nth_error row (Z.to_nat (x mod 360)) = Some q.
Proof.
  intros L B. assert (0 <= x mod 360 < 360) as MB by (apply Z.mod_pos_bound; lia). destruct (item_there (Z.to_nat (x mod 360)) row) as (q & E & N); [lia|]. exists q. split; [|exact N].
  rewrite Z2Nat.id in E by lia. rewrite <- E. destruct (360 <=? x) eqn:C1; [apply Z.leb_le in C1; f_equal; apply (Z.mod_unique x 360 1); lia|]. apply Z.leb_gt in C1.
  destruct (Z_lt_le_dec x 0) as [C2|C2]; [|f_equal; symmetry; apply Z.mod_small; lia].
  assert (x + 360 = x mod 360) as <- by (apply (Z.mod_unique x 360 (-1)); lia). unfold item. rewrite L. change (Z.of_nat 360) with 360.
  assert (x <? 0 = true) as -> by (apply Z.ltb_lt; lia). assert (x + 360 <? 0 = false) as -> by (apply Z.ltb_ge; lia). cbv zeta. assert (x + 360 <? 0 = false) as -> by (apply Z.ltb_ge; lia). reflexivity.
Qed.
Lemma moving_rule m row : length row = 360%nat -> 0 <= m <= 360 -> exists out, moving m row = Ok out /\ length out = 360%nat /\ forall j v, nth_error out j = Some v -> Smoothed row m j v.
Proof.
  intros L B. unfold moving. rewrite L. change (Z.of_nat 360) with 360.
  match goal with |- exists out, mapM ?f ?l = _ /\ _ => destruct (mapM_all f (fun i v => Smoothed row m i v) l) as (out & E & F) end.
  { intros i I. apply in_seq in I.
    destruct (mapM_all (fun x => item (if 360 <=? x then x - 360 else x) row) (fun x q => nth_error row (Z.to_nat (x mod 360)) = Some q) (arange (Z.of_nat i - m) (Z.of_nat i + m))) as (qs & EQ & FQ).
    { intros x X. apply arange_in in X. apply circle_item; [exact L|lia]. }
    assert (length qs = Z.to_nat (2 * m + 1)) as LQ by (rewrite <- (forall2_len _ _ _ FQ), arange_length; f_equal; lia).
    rewrite EQ. cbn [bind]. destruct qs as [|q0 qs0] eqn:EQS; [cbn [length] in LQ; lia|]. rewrite <- EQS in *. eexists. split; [reflexivity|]. exists qs. eexists. split; [exact LQ|]. split; [|split; [|reflexivity]].
    - intros k q NK. destruct (forall2_nth_l _ _ _ _ _ FQ NK) as (x & NX & K). apply arange_nth in NX. subst x. exact K.
    - replace (2 * m + 1) with (Z.of_nat (length qs)) by lia. apply trunc_whole. }
  exists out. split; [exact E|]. split; [rewrite <- (forall2_len _ _ _ F); apply seq_length|]. intros j v N. destruct (forall2_nth_l _ _ _ _ _ F N) as (j' & EJ & K). apply seq_nth_inv in EJ. destruct EJ as (-> & _). exact K.
Qed.
Lemma moving_fails m row : length row = 360%nat -> 360 < m -> moving m row = Err IndexError.
Proof.
  intros L B. unfold moving. rewrite L. change (seq 0 360) with (0%nat :: seq 1 359). cbn [mapM]. assert (arange (Z.of_nat 0 - m) (Z.of_nat 0 + m) = - m :: arange (Z.of_nat 0 - m + 1) (Z.of_nat 0 + m)) as ->.
  { unfold arange. replace (Z.to_nat (Z.of_nat 0 + m - (Z.of_nat 0 - m) + 1)) with (S (Z.to_nat (2 * m))) by lia. cbn [seq map]. f_equal; [lia|].
    replace (Z.to_nat (Z.of_nat 0 + m - (Z.of_nat 0 - m + 1) + 1)) with (Z.to_nat (2 * m)) by lia. rewrite <- seq_shift, map_map. apply map_ext. intro i. lia. }
  cbn [mapM]. change (Z.of_nat 360) with 360. assert (360 <=? - m = false) as -> by (apply Z.leb_gt; lia).
  assert (item (- m) row = Err IndexError) as ->; [|reflexivity]. unfold item. rewrite L. change (Z.of_nat 360) with 360. assert (- m <? 0 = true) as -> by (apply Z.ltb_lt; lia). cbv zeta. assert (- m + 360 <? 0 = true) as -> by (apply Z.ltb_lt; lia). reflexivity.
Qed.

(* ---------- all years ---------- *)
Lemma run_360 s lats years : Z.odd s = true -> lats <> [] -> years <> [] -> run_CBL s lats 360 years =
  (ws <- mapM (mhweight lats 360) years ;; cbl <- mapM (cbl_year lats 360) ws ;; cblf <- mapM (moving (Z.quot (s - 1) 2)) cbl ;; Ok (cblf, ws)).
Proof.
  intros O NL NY. unfold run_CBL. rewrite <- Z.negb_odd, O. change (Z.of_nat 360 =? 360) with true. cbn [negb orb]. destruct lats as [|l ls]; [contradiction|]. destruct years as [|y ys]; [contradiction|]. reflexivity.
Qed.
Lemma shape_grid lats years days : Shape lats years -> In days years -> grid (length lats) days.
Proof. intros H I day J. exact (H days day I J). Qed.
Lemma forall2_compose {A B C} (P : A -> B -> Prop) (R : B -> C -> Prop) (T : A -> C -> Prop) : (forall a b c, P a b -> R b c -> T a c) -> forall l m n, Forall2 P l m -> Forall2 R m n -> Forall2 T l n.
Proof. intros H l m n F. revert n. induction F as [|a b l m K F IH]; intros n G; inversion G; subst; constructor; [eapply H; eassumption|apply IH; assumption]. Qed.
Lemma run_rule s lats years : Z.odd s = true -> 1 <= s <= 721 -> lats <> [] -> years <> [] -> Shape lats years -> exists out ws tracks, run_CBL s lats 360 years = Ok (out, ws) /\
  Forall2 (weighed lats) years ws /\ Forall2 (fun w track => length track = 360%nat /\ forall j lat, nth_error track j = Some lat -> exists c k, column j w = Ok c /\ argmax c = Ok k /\ nth_error lats k = Some lat) ws tracks /\
  Forall2 (fun track row => length row = 360%nat /\ forall j v, nth_error row j = Some v -> Smoothed track ((s - 1) / 2) j v) tracks out.
Proof.
  intros O B NL NY SH. rewrite run_360 by assumption.
  destruct (mapM_all (mhweight lats 360) (weighed lats) years) as (ws & EW & FW).
  { intros days I. apply mhweight_rule. exact (shape_grid _ _ _ SH I). }
  rewrite EW. cbn [bind].
  destruct (mapM_all (cbl_year lats 360) (fun w track => length track = 360%nat /\ forall j lat, nth_error track j = Some lat -> exists c k, column j w = Ok c /\ argmax c = Ok k /\ nth_error lats k = Some lat) ws) as (tracks & ET & FT).
  { intros w I. apply In_nth_error in I. destruct I as (k & I). destruct (forall2_nth_l _ _ _ _ _ FW I) as (days & _ & W). exact (cbl_year_rule lats days w NL W). }
  rewrite ET. cbn [bind].
  destruct (mapM_all (moving (Z.quot (s - 1) 2)) (fun track row => length row = 360%nat /\ forall j v, nth_error row j = Some v -> Smoothed track ((s - 1) / 2) j v) tracks) as (out & EO & FO).
  { intros track I. apply In_nth_error in I. destruct I as (k & I). destruct (forall2_nth_l _ _ _ _ _ FT I) as (w & _ & LT & _). rewrite Z.quot_div_nonneg by lia. apply moving_rule; [exact LT|]. split; [apply Z.div_pos; lia|apply Z.div_le_upper_bound; lia]. }
  rewrite EO. cbn [bind]. exists out, ws, tracks. split; [reflexivity|]. split; [exact FW|]. split; [exact FT|exact FO].
Qed.
Lemma track_storm lats days ws j lat c k : lats <> [] -> (forall lat, In lat lats -> (-90 <= lat <= 90)%Q) -> weighed lats days ws -> (j < 360)%nat ->
  (forall i, (i < length lats)%nat -> Measured days i j) -> column j ws = Ok c -> argmax c = Ok k -> nth_error lats k = Some lat -> StormTrack lats days j lat.
Proof.
  intros NE LA W LJ M EC EK NK. destruct (weighed_column lats days ws j W LJ) as (c' & EC' & LC & H). rewrite EC in EC'. injection EC' as <-.
  assert (forall i x, nth_error c i = Some x -> exists r, x = Some r /\ Activity lats days i j r) as V.
  { intros i x N. destruct (H i x N) as (lat' & hs & NL & D & ->). apply (value_measured lats days i j lat' hs NL); [apply LA; exact (nth_error_In _ _ NL)|exact D|]. apply M. apply nth_error_Some. congruence. }
  destruct (argmax_rule c) as (k' & b & EK' & NB & G).
  - intros ->. destruct lats; [contradiction|discriminate LC].
  - intros x I E. apply In_nth_error in I. destruct I as (i & I). destruct (V i x I) as (r & -> & _). discriminate E.
  - assert (k' = k) as -> by congruence. exists k, b. split; [exact NK|]. destruct (V k _ NB) as (r & ER & AC). injection ER as <-. split; [exact AC|]. intros i' w' A'.
    apply G. destruct (nth_error c i') as [x|] eqn:EX.
    + destruct (H i' x EX) as (lat' & hs & NL & D & ->). f_equal. apply (value_activity lats days i' j lat' hs w' NL); [apply LA; exact (nth_error_In _ _ NL)|exact D|exact A'].
    + exfalso. apply nth_error_None in EX. destruct A' as (lat' & hs & qs & s & NL & _). assert (i' < length lats)%nat by (apply nth_error_Some; congruence). lia.
Qed.
Lemma two_rows north south j : (j < 360)%nat -> (row <- item (Z.of_nat 0) (two_lats north south) ;; item (Z.of_nat j) row) = Ok north /\ (row <- item (Z.of_nat 1) (two_lats north south) ;; item (Z.of_nat j) row) = Ok south.
Proof. intro L. unfold two_lats. split; [change (item (Z.of_nat 0) [repeat north 360; repeat south 360]) with (Ok (repeat north 360))|change (item (Z.of_nat 1) [repeat north 360; repeat south 360]) with (Ok (repeat south 360))]; cbn [bind]; apply item_nat, nth_repeat; exact L. Qed.
Lemma two_weights a b n1 s1 n2 s2 : mhweight [a; b] 360 [two_lats n1 s1; two_lats n2 s2] = Ok [repeat (times (nanstd [n1; n2]) (way a)) 360; repeat (times (nanstd [s1; s2]) (way b)) 360].
Proof.
  unfold mhweight. change (combine (seq 0 (length [a; b])) [a; b]) with [(0%nat, a); (1%nat, b)]. cbn [mapM fst snd].
  rewrite (mapM_const _ (times (nanstd [n1; n2]) (way a)) (seq 0 360)), (mapM_const _ (times (nanstd [s1; s2]) (way b)) (seq 0 360)).
  - cbn [bind]. rewrite seq_length. reflexivity.
  - intros j J. apply in_seq in J. destruct (two_rows n1 s1 j) as (_ & ->); [lia|]. destruct (two_rows n2 s2 j) as (_ & ->); [lia|]. reflexivity.
  - intros j J. apply in_seq in J. destruct (two_rows n1 s1 j) as (-> & _); [lia|]. destruct (two_rows n2 s2 j) as (-> & _); [lia|]. reflexivity.
Qed.
Lemma two_track a b x y k lat : argmax [x; y] = Ok k -> nth_error [a; b] k = Some lat -> cbl_year [a; b] 360 [repeat x 360; repeat y 360] = Ok (repeat lat 360).
Proof.
  intros E N. unfold cbl_year. rewrite (mapM_const _ lat (seq 0 360)); [rewrite seq_length; reflexivity|]. intros j J. apply in_seq in J.
  assert (column j [repeat x 360; repeat y 360] = Ok [x; y]) as -> by (apply column_nth; constructor; [apply nth_repeat; lia|]; constructor; [apply nth_repeat; lia|constructor]).
  cbn [bind]. rewrite E. cbn [bind]. apply item_nat. exact N.
Qed.

(** The statements of PropertiesCbl.v. *)
Lemma C67_central_proof : forall smoothing_pts lats years, Z.odd smoothing_pts = true -> 1 <= smoothing_pts <= 721 ->
  lats <> [] -> (forall lat, In lat lats -> (-90 <= lat <= 90)%Q) -> years <> [] -> Shape lats years ->
  (forall days i j, In days years -> (i < length lats)%nat -> (j < 360)%nat -> Measured days i j) ->
  exists out ws, run_CBL smoothing_pts lats 360 years = Ok (out, ws) /\
    Forall2 (fun days row => length row = 360%nat /\ exists track, length track = 360%nat /\
      (forall j lat, nth_error track j = Some lat -> StormTrack lats days j lat) /\
      forall j v, nth_error row j = Some v -> Smoothed track ((smoothing_pts - 1) / 2) j v) years out /\
    Forall2 (fun days w => length w = length lats /\ forall i line, nth_error w i = Some line -> length line = 360%nat /\
      forall j x, nth_error line j = Some x -> exists r, x = Some r /\ Activity lats days i j r) years ws.
Proof.
  intros s lats years O B NL LA NY SH M. destruct (run_rule s lats years O B NL NY SH) as (out & ws & tracks & E & FW & FT & FO). exists out, ws. split; [exact E|].
  assert (forall days w, In days years -> weighed lats days w -> forall j c k lat, (j < 360)%nat -> column j w = Ok c -> argmax c = Ok k -> nth_error lats k = Some lat -> StormTrack lats days j lat) as ST.
  { intros days w I W j c k lat LJ EC EK NK. apply (track_storm lats days w j lat c k); try assumption. intros i LI. apply M; assumption. }
  split.
  - clear E. revert ws tracks out FW FT FO. clear SH. induction years as [|days years IH]; intros ws tracks out FW FT FO; inversion FW as [|? w ? ws' W FW']; subst; inversion FT as [|? track ? tracks' (LT & T) FT']; subst; inversion FO as [|? row ? out' (LR & SM) FO']; subst; [constructor|].
    constructor.
    + split; [exact LR|]. exists track. split; [exact LT|]. split; [|exact SM]. intros j lat N. destruct (T j lat N) as (c & k & EC & EK & NK). apply (ST days w (or_introl eq_refl) W j c k lat); try assumption. rewrite <- LT. apply nth_error_Some. congruence.
    + destruct years as [|y ys]; [inversion FW'; subst; inversion FT'; subst; inversion FO'; subst; constructor|]. apply (IH ltac:(discriminate)) with ws' tracks'; [| |exact FW'|exact FT'|exact FO'].
      * intros d i j I. apply M. right. exact I.
      * intros d w' I. apply ST. right. exact I.
  - clear - FW M LA. induction FW as [|days w years ws W F IH]; constructor; [|apply IH; intros d i j I; apply M; right; exact I]. destruct W as (LW & H). split; [exact LW|]. intros i line N. destruct (H i line N) as (LL & G). split; [exact LL|].
    intros j x NX. destruct (G j x NX) as (lat & hs & NL & D & ->). apply (value_measured lats days i j lat hs NL); [apply LA; exact (nth_error_In _ _ NL)|exact D|]. apply M; [left; reflexivity|apply nth_error_Some; congruence|]. rewrite <- LL. apply nth_error_Some. congruence.
Qed.

Lemma C67_central_case_proof :
  Shape [60%Q; 30%Q] [[two_lats (Some 0%Q) (Some 5%Q); two_lats (Some 2%Q) (Some 5%Q)]] /\
  exists ws, run_CBL 9 [60%Q; 30%Q] 360 [[two_lats (Some 0%Q) (Some 5%Q); two_lats (Some 2%Q) (Some 5%Q)]] = Ok ([repeat 60%Q 360], ws).
Proof.
  split.
  - intros days day [<-|[]] I. assert (length day = 2%nat /\ (exists a b, day = two_lats a b)) as (L & a & b & ->) by (destruct I as [<-|[<-|[]]]; (split; [reflexivity|eexists; eexists; reflexivity])).
    split; [exact L|]. intros row [<-|[<-|[]]]; apply repeat_length.
  - eexists. rewrite run_360 by (reflexivity || discriminate). cbn [mapM]. rewrite two_weights. cbn [bind mapM].
    rewrite (two_track 60 30 _ _ 0 60); [| |reflexivity].
    + cbn [bind mapM]. assert (moving (Z.quot (9 - 1) 2) (repeat 60%Q 360) = Ok (repeat 60%Q 360)) as -> by (vm_compute; reflexivity). reflexivity.
    + rewrite (way_value 60), (way_value 30) by (split; discriminate). destruct (std_value [Some 0%Q; Some 2%Q]) as (s & -> & P & m & EM & ES); [discriminate|]. destruct (std_value [Some 5%Q; Some 5%Q]) as (s' & -> & P' & m' & EM' & ES'); [discriminate|].
      assert (s = 1%R) as ->.
      { apply Rsqr_inj; [exact P|lra|]. unfold Rsqr. rewrite ES. rewrite Rmult_1_l. rewrite (Qeq_eqR _ 1); [unfold Q2R; cbn; lra|]. cbn [some_numbers flat_map app length map qsum fold_right] in *. rewrite EM. reflexivity. }
      assert (s' = 0%R) as ->.
      { apply Rsqr_inj; [exact P'|lra|]. unfold Rsqr. rewrite ES'. rewrite Rmult_0_l. rewrite (Qeq_eqR _ 0); [unfold Q2R; cbn; lra|]. cbn [some_numbers flat_map app length map qsum fold_right] in *. rewrite EM'. reflexivity. }
      cbn [times]. unfold argmax. cbn [first_nan first_max]. destruct (Rlt_dec _ _) as [C|_]; [|reflexivity]. exfalso. rewrite Rmult_0_l in C. pose proof (sqrt_pos (cos (Q2R 60 * PI / 180))). lra.
Qed.

Lemma C67_missing_refuted_proof : forall lats years out ws k days i j lat, Shape lats years ->
  (forall lat, In lat lats -> (-90 <= lat <= 90)%Q) ->
  run_CBL 1 lats 360 years = Ok (out, ws) -> nth_error years k = Some days -> nth_error lats i = Some lat -> (j < 360)%nat ->
  ~ Measured days i j -> (forall i', (i' < i)%nat -> Measured days i' j) ->
  exists row z, nth_error out k = Some row /\ WholePart lat z /\ nth_error row j = Some (inject_Z z).
Proof.
  intros lats years out ws k days i j lat SH LA H NK NL LJ MI ME. assert (lats <> []) as NE by (intros ->; destruct i; discriminate NL). assert (years <> []) as NY by (intros ->; destruct k; discriminate NK).
  destruct (run_rule 1 lats years eq_refl ltac:(lia) NE NY SH) as (out' & ws' & tracks & E & FW & FT & FO). rewrite H in E. injection E as <- <-.
  destruct (nth_error ws k) as [w|] eqn:NW; [|apply nth_error_None in NW; rewrite <- (forall2_len _ _ _ FW) in NW; apply nth_error_None in NW; congruence].
  destruct (nth_error tracks k) as [track|] eqn:NT; [|apply nth_error_None in NT; rewrite <- (forall2_len _ _ _ FT) in NT; apply nth_error_None in NT; congruence].
  destruct (nth_error out k) as [row|] eqn:NO; [|apply nth_error_None in NO; rewrite <- (forall2_len _ _ _ FO) in NO; apply nth_error_None in NO; congruence].
  pose proof (forall2_nth _ _ _ _ _ _ FW NK NW) as W. destruct (forall2_nth _ _ _ _ _ _ FT NW NT) as (LT & T). destruct (forall2_nth _ _ _ _ _ _ FO NT NO) as (LR & SM).
  destruct (nth_error row j) as [v|] eqn:NV; [|apply nth_error_None in NV; lia]. destruct (SM j v NV) as (qs & z & LQ & QS & WP & ->). change ((1 - 1) / 2) with 0 in *. change (Z.to_nat (2 * 0 + 1)) with 1%nat in LQ. destruct qs as [|q [|? ?]]; try discriminate LQ.
  exists row, z. split; [reflexivity|]. split; [|exact NV].
  pose proof (QS 0%nat q eq_refl) as NQ. replace ((Z.of_nat j - 0 + Z.of_nat 0) mod 360) with (Z.of_nat j) in NQ by (rewrite Z.mod_small; lia). rewrite Nat2Z.id in NQ.
  destruct (T j q NQ) as (c & kk & EC & EK & NKK). destruct (weighed_column lats days w j W LJ) as (c' & EC' & LC & G). rewrite EC in EC'. injection EC' as <-.
  rewrite (argmax_nan c i) in EK.
  - injection EK as <-. assert (q = lat) as -> by congruence. unfold WholePart in *. assert (qsum [lat] / inject_Z (2 * 0 + 1) == lat)%Q as EQ by (unfold qsum; cbn [fold_right]; change (inject_Z (2 * 0 + 1)) with 1%Q; field). rewrite EQ in WP. exact WP.
  - destruct (nth_error c i) as [x|] eqn:EX; [|apply nth_error_None in EX; assert (i < length lats)%nat by (apply nth_error_Some; congruence); lia]. destruct (G i x EX) as (lat' & hs & _ & D & ->). f_equal. exact (value_missing days i j lat' hs D MI).
  - intros i' L' EX. destruct (G i' None EX) as (lat' & hs & NL' & D & EN). destruct (value_measured lats days i' j lat' hs NL') as (r & ER & _); [apply LA; exact (nth_error_In _ _ NL')|exact D|exact (ME i' L')|]. congruence.
Qed.

Lemma C67_missing_case_proof : exists ws,
  run_CBL 1 [60%Q; 30%Q] 360 [[two_lats (Some 0%Q) None; two_lats (Some 2%Q) None]] = Ok ([repeat 30%Q 360], ws).
Proof.
  eexists. rewrite run_360 by (reflexivity || discriminate). cbn [mapM]. rewrite two_weights. cbn [bind mapM].
  rewrite (two_track 60 30 _ _ 1 30); [| |reflexivity].
  - cbn [bind mapM]. assert (moving (Z.quot (1 - 1) 2) (repeat 30%Q 360) = Ok (repeat 30%Q 360)) as -> by (vm_compute; reflexivity). reflexivity.
  - apply argmax_nan; [reflexivity|]. intros [|i'] L; [|lia]. cbn [nth_error]. rewrite (way_value 60) by (split; discriminate). destruct (std_value [Some 0%Q; Some 2%Q]) as (s & -> & _); discriminate.
Qed.

Lemma C67_exceptions_proof : forall smoothing_pts lats nlon years,
  (Z.even smoothing_pts = true -> run_CBL smoothing_pts lats nlon years = Err SystemExit) /\
  (Z.odd smoothing_pts = true -> nlon <> 360%nat -> years <> [] -> run_CBL smoothing_pts lats nlon years = Err ValueError) /\
  (Z.odd smoothing_pts = true -> run_CBL smoothing_pts [] 360 years = Err ValueError) /\
  (Z.odd smoothing_pts = true -> lats <> [] -> run_CBL smoothing_pts lats 360 [] = Err IndexError) /\
  (Z.odd smoothing_pts = true -> 721 < smoothing_pts -> lats <> [] -> years <> [] -> Shape lats years -> run_CBL smoothing_pts lats 360 years = Err IndexError).
Proof.
  intros s lats nlon years. split; [|split; [|split; [|split]]].
  - intro E. unfold run_CBL. rewrite E. reflexivity.
  - intros O N NY. unfold run_CBL. rewrite <- Z.negb_odd, O. cbn [negb]. assert (Z.of_nat nlon =? 360 = false) as -> by (apply Z.eqb_neq; lia). cbn [orb negb]. destruct (Z.of_nat nlon =? 1); cbn [negb]; [|reflexivity].
    destruct lats; [reflexivity|]. destruct years; [contradiction|reflexivity].
  - intro O. unfold run_CBL. rewrite <- Z.negb_odd, O. reflexivity.
  - intros O NL. unfold run_CBL. rewrite <- Z.negb_odd, O. change (Z.of_nat 360 =? 360) with true. cbn [negb orb]. destruct lats; [contradiction|reflexivity].
  - intros O B NL NY SH. rewrite run_360 by assumption. destruct (mapM_all (mhweight lats 360) (weighed lats) years) as (ws & EW & FW); [intros days I; apply mhweight_rule; exact (shape_grid _ _ _ SH I)|]. rewrite EW. cbn [bind].
    destruct (mapM_all (cbl_year lats 360) (fun w track => length track = 360%nat) ws) as (tracks & ET & FT).
    { intros w I. apply In_nth_error in I. destruct I as (k & I). destruct (forall2_nth_l _ _ _ _ _ FW I) as (days & _ & W). destruct (cbl_year_rule lats days w NL W) as (track & E & L & _). exists track. split; assumption. }
    rewrite ET. cbn [bind]. destruct tracks as [|track tracks]; [inversion FT; subst; inversion FW; subst; contradiction|]. cbn [mapM]. rewrite moving_fails; [reflexivity|inversion FT; subst; assumption|]. rewrite Z.quot_div_nonneg by lia.
    assert (361 <= (s - 1) / 2) by (apply Z.div_le_lower_bound; [lia|]; assert (s <> 722) by (intros ->; discriminate O); lia). lia.
Qed.

