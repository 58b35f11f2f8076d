(** Proofs about vertical interpolation and heights of pressure levels. *)
From Verif Require Import PyBase TostModel TostProofs MctsModel MctsProofs VertModel VertSpec.
From Coq Require Import Reals Lra Lia.
From Coq Require Import List.
Open Scope R_scope.

(* ---------- the weights ---------- *)
Lemma nth_set_same {A} i (v d : A) l : (i < length l)%nat -> nth i (set_nth i v l) d = v.
Proof. intro H. apply nth_error_nth. apply set_nth_same. assumption. Qed.
Lemma nth_set_other {A} i j (v d : A) l : i <> j -> nth j (set_nth i v l) d = nth j l d.
Proof.
  intro H. pose proof (set_nth_other i j v l H) as E.
  destruct (nth_error l j) as [x|] eqn:F.
  - rewrite (nth_error_nth _ _ _ E), (nth_error_nth _ _ _ F). reflexivity.
  - rewrite !nth_overflow; [reflexivity| |]; apply nth_error_None; assumption.
Qed.

Section Weights.
Variables (z : list nan) (c eta : R).
Notation n := (length z).
Definition bracket (k : nat) : bool := above z c eta k && below z c eta (k - 1).
Definition expected (m i : nat) : R :=
  if Nat.leb (S i) m && bracket (S i) then 1 - weight_above z c eta (S i)
  else if Nat.leb 1 i && Nat.leb i m && bracket i then weight_above z c eta i
  else if Nat.eqb i 0 && above z c eta 0 then 1 else 0.
Lemma step_length w k : length (weight_step z c eta w k) = length w.
Proof. unfold weight_step. rewrite !set_nth_length. reflexivity. Qed.
Lemma weights_fold w0 : length w0 = n -> (forall i, (i < n)%nat -> nth i w0 0 = expected 0 i) ->
  forall m, (m < n)%nat ->
  length (fold_left (weight_step z c eta) (seq 1 m) w0) = n /\
  forall i, (i < n)%nat -> nth i (fold_left (weight_step z c eta) (seq 1 m) w0) 0 = expected m i.
Proof.
  intros L0 H0. induction m as [|m IH]; intro Hm; [split; [exact L0|exact H0]|].
  destruct IH as [IL IE]; [lia|]. rewrite seq_S, fold_left_app. cbn [fold_left].
  set (w := fold_left (weight_step z c eta) (seq 1 m) w0) in *.
  split; [rewrite step_length; exact IL|]. intros i Hi. unfold weight_step. replace (1 + m)%nat with (S m) by lia.
  replace (S m - 1)%nat with m by lia. fold (bracket (S m)).
  replace (above z c eta (S m) && below z c eta m) with (bracket (S m)) by (unfold bracket; replace (S m - 1)%nat with m by lia; reflexivity).
  assert (Em : expected (S m) m = if bracket (S m) then 1 - weight_above z c eta (S m) else expected m m).
  { unfold expected. rewrite Nat.leb_refl, (proj2 (Nat.leb_gt (S m) m)) by lia. cbn [andb].
    destruct (bracket (S m)); [reflexivity|]. rewrite (Nat.leb_refl m). rewrite (proj2 (Nat.leb_le m (S m))) by lia. reflexivity. }
  assert (ES : expected (S m) (S m) = if bracket (S m) then weight_above z c eta (S m) else expected m (S m)).
  { unfold expected. rewrite (proj2 (Nat.leb_gt (S (S m)) (S m))), (proj2 (Nat.leb_gt (S (S m)) m)), (Nat.leb_refl (S m)), (proj2 (Nat.leb_gt (S m) m)) by lia.
    cbn [andb Nat.leb]. destruct (bracket (S m)); reflexivity. }
  destruct (Nat.eq_dec i m) as [->|N1]; [|destruct (Nat.eq_dec i (S m)) as [->|N2]].
  - rewrite nth_set_same by (rewrite set_nth_length; lia). rewrite Em.
    destruct (bracket (S m)); [reflexivity|]. rewrite nth_set_other by lia. apply IE. lia.
  - rewrite nth_set_other by lia. rewrite nth_set_same by lia. rewrite ES.
    destruct (bracket (S m)); [reflexivity|]. apply IE. lia.
  - rewrite !nth_set_other by lia. rewrite IE by lia. unfold expected.
    destruct (Nat.ltb_spec i m) as [C|C].
    + rewrite (proj2 (Nat.leb_le (S i) m)), (proj2 (Nat.leb_le (S i) (S m))) by lia.
      rewrite (proj2 (Nat.leb_le i m)), (proj2 (Nat.leb_le i (S m))) by lia. reflexivity.
    + rewrite (proj2 (Nat.leb_gt (S i) m)), (proj2 (Nat.leb_gt (S i) (S m))) by lia.
      rewrite (proj2 (Nat.leb_gt i m)), (proj2 (Nat.leb_gt i (S m))) by lia. reflexivity.
Qed.
Lemma weights_value i : (i < n)%nat ->
  nth i (layer_weights z c eta) 0 =
  if Nat.eqb i (n - 1) then if below z c eta (n - 1) then 1 else 0
  else if bracket (S i) then 1 - weight_above z c eta (S i)
  else if Nat.leb 1 i && bracket i then weight_above z c eta i
  else if Nat.eqb i 0 && above z c eta 0 then 1 else 0.
Proof.
  intro Hi. unfold layer_weights.
  destruct (weights_fold (set_nth 0 (if above z c eta 0 then 1 else 0) (repeat 0 n))) with (m := (n - 1)%nat) as [L E].
  - rewrite set_nth_length, repeat_length. reflexivity.
  - intros j Hj. unfold expected. cbn [Nat.leb andb]. destruct j as [|j].
    + rewrite nth_set_same by (rewrite repeat_length; lia). cbn [Nat.leb Nat.eqb andb]. reflexivity.
    + rewrite nth_set_other by lia. cbn [Nat.leb Nat.eqb andb]. rewrite nth_repeat. reflexivity.
  - lia.
  - destruct (Nat.eqb_spec i (n - 1)) as [->|N].
    + rewrite nth_set_same by lia. reflexivity.
    + rewrite nth_set_other by lia. rewrite E by lia. unfold expected.
      rewrite (proj2 (Nat.leb_le (S i) (n - 1))), (proj2 (Nat.leb_le i (n - 1))) by lia. cbn [andb].
      rewrite andb_true_r. reflexivity.
Qed.
End Weights.

(* ---------- the weighted sum ---------- *)
Lemma sum_skip w f ks acc : (forall k, In k ks -> nth k w 0 <= 0) -> fold_left (sum_step w f) ks acc = acc.
Proof.
  revert acc. induction ks as [|k t IH]; intros acc H; [reflexivity|]. cbn [fold_left].
  unfold sum_step at 2. rewrite Rltb_no by (apply H; left; reflexivity). apply IH. intros; apply H; right; assumption.
Qed.
Lemma sum_take w f k acc : 0 < nth k w 0 ->
  sum_step w f acc k = (nan_map2 Rplus (fst acc) (nan_map2 Rmult (Some (nth k w 0)) (nth k f None)), S (snd acc)).
Proof. intro H. unfold sum_step. rewrite Rltb_yes by assumption. reflexivity. Qed.
Lemma interp_unfold z c eta f : z <> [] ->
  interp_level z c eta f =
  (let acc := fold_left (sum_step (layer_weights z c eta) f) (seq 0 (length z)) (Some 0, O) in
   Ok (if Nat.ltb 0 (snd acc) then fst acc else None)).
Proof. intro H. unfold interp_level. destruct z; [congruence|reflexivity]. Qed.
Lemma interp_none z c eta f : z <> [] -> (forall k, (k < length z)%nat -> nth k (layer_weights z c eta) 0 <= 0) ->
  interp_level z c eta f = Ok None.
Proof.
  intros N H. rewrite interp_unfold by assumption. cbv zeta. rewrite sum_skip; [reflexivity|].
  intros k Hk. apply in_seq in Hk. apply H. lia.
Qed.
Lemma nan_scale (w : R) (x : nan) : nan_map2 Rplus (Some 0) (nan_map2 Rmult (Some w) x) = nan_map2 Rmult (Some w) x.
Proof. destruct x; cbn; [f_equal; ring|reflexivity]. Qed.
Lemma seq_around n i : (i < n)%nat -> seq 0 n = (seq 0 i ++ i :: seq (S i) (n - S i))%list.
Proof.
  intro H. replace n with (i + S (n - S i))%nat at 1 by lia. rewrite seq_app. reflexivity.
Qed.
(** One level with a positive weight. *)
Lemma interp_one z c eta f i : (i < length z)%nat -> 0 < nth i (layer_weights z c eta) 0 ->
  (forall k, (k < length z)%nat -> k <> i -> nth k (layer_weights z c eta) 0 <= 0) ->
  interp_level z c eta f = Ok (nan_map2 Rmult (Some (nth i (layer_weights z c eta) 0)) (nth i f None)).
Proof.
  intros Hi P H. rewrite interp_unfold by (intros ->; cbn in Hi; lia). cbv zeta.
  rewrite (seq_around _ i Hi), fold_left_app.
  rewrite (sum_skip _ _ (seq 0 i)) by (intros k Hk; apply in_seq in Hk; apply H; lia).
  cbn [fold_left]. rewrite sum_take by assumption.
  rewrite sum_skip by (intros k Hk; apply in_seq in Hk; apply H; lia). cbn [fst snd Nat.ltb Nat.leb].
  rewrite nan_scale. reflexivity.
Qed.
(** Two of them. *)
Lemma interp_two z c eta f i j : (i < j < length z)%nat -> 0 < nth i (layer_weights z c eta) 0 ->
  0 < nth j (layer_weights z c eta) 0 ->
  (forall k, (k < length z)%nat -> k <> i -> k <> j -> nth k (layer_weights z c eta) 0 <= 0) ->
  interp_level z c eta f =
  Ok (nan_map2 Rplus (nan_map2 Rmult (Some (nth i (layer_weights z c eta) 0)) (nth i f None))
                     (nan_map2 Rmult (Some (nth j (layer_weights z c eta) 0)) (nth j f None))).
Proof.
  intros Hi P P' H. rewrite interp_unfold by (intros ->; cbn in Hi; lia). cbv zeta.
  rewrite (seq_around _ i), fold_left_app by lia.
  rewrite (sum_skip _ _ (seq 0 i)) by (intros k Hk; apply in_seq in Hk; apply H; lia).
  cbn [fold_left]. rewrite sum_take by assumption. cbn [fst snd]. rewrite nan_scale.
  replace (length z - S i)%nat with ((j - S i) + S (length z - S j))%nat by lia.
  rewrite seq_app, fold_left_app. replace (S i + (j - S i))%nat with j by lia.
  rewrite (sum_skip _ _ (seq (S i) (j - S i))) by (intros k Hk; apply in_seq in Hk; apply H; lia).
  cbn [seq fold_left]. rewrite sum_take by assumption. cbn [fst snd].
  rewrite sum_skip by (intros k Hk; apply in_seq in Hk; apply H; lia). reflexivity.
Qed.

(* ---------- levels above and below ---------- *)
Lemma nth_At z k : {h | nth k z None = Some h /\ At z k h} + {nth k z None = None /\ forall h, ~ At z k h}.
Proof.
  unfold At. destruct (nth_error z k) as [[h|]|] eqn:E.
  - left. exists h. split; [apply nth_error_nth with (1 := E)|reflexivity].
  - right. split; [apply nth_error_nth with (1 := E)|]. intros h C. discriminate C.
  - right. split; [apply nth_overflow; apply nth_error_None; assumption|]. intros h C. discriminate C.
Qed.
Lemma At_nth z k h : At z k h -> nth k z None = Some h.
Proof. intro H. apply nth_error_nth with (1 := H). Qed.
Lemma At_fun z k h h' : At z k h -> At z k h' -> h = h'.
Proof. unfold At. congruence. Qed.
Lemma At_lt z k h : At z k h -> (k < length z)%nat.
Proof. intro H. apply nth_error_Some. unfold At in H. congruence. Qed.
Lemma above_iff z c eta k : above z c eta k = true <-> exists h, At z k h /\ eta < c * h.
Proof.
  unfold above, distance. destruct (nth_At z k) as [(h & E & A)|(E & A)]; rewrite E.
  - rewrite Rltb_iff. split; [intro H; exists h; split; [assumption|lra]|].
    intros (h' & A' & H). rewrite (At_fun _ _ _ _ A A'). lra.
  - split; [discriminate|]. intros (h & A' & _). destruct (A _ A').
Qed.
Lemma below_iff z c eta k : below z c eta k = true <-> exists h, At z k h /\ c * h < eta.
Proof.
  unfold below, distance. destruct (nth_At z k) as [(h & E & A)|(E & A)]; rewrite E.
  - rewrite Rltb_iff. split; [intro H; exists h; split; [assumption|lra]|].
    intros (h' & A' & H). rewrite (At_fun _ _ _ _ A A'). lra.
  - split; [discriminate|]. intros (h & A' & _). destruct (A _ A').
Qed.
Lemma bracket_iff z c eta k :
  bracket z c eta (S k) = true <-> exists h0 h1, At z k h0 /\ At z (S k) h1 /\ c * h0 < eta < c * h1.
Proof.
  unfold bracket. rewrite andb_true_iff, above_iff, below_iff. replace (S k - 1)%nat with k by lia. split.
  - intros ((h1 & A1 & B1) & (h0 & A0 & B0)). exists h0, h1. auto.
  - intros (h0 & h1 & A0 & A1 & B). split; [exists h1|exists h0]; split; tauto.
Qed.
Lemma weight_above_value z c eta k h0 h1 : At z k h0 -> At z (S k) h1 ->
  weight_above z c eta (S k) = (eta - c * h0) / ((h1 - h0) * c).
Proof.
  intros A0 A1. unfold weight_above, distance. replace (S k - 1)%nat with k by lia.
  rewrite (At_nth _ _ _ A0), (At_nth _ _ _ A1). reflexivity.
Qed.

Lemma bool_no (b : bool) : b <> true -> b = false.
Proof. destruct b; congruence. Qed.
Lemma other_zero z c eta k : (k < length z)%nat ->
  (k = (length z - 1)%nat -> below z c eta k = false) ->
  (k <> (length z - 1)%nat -> bracket z c eta (S k) = false) ->
  ((1 <= k)%nat -> bracket z c eta k = false) -> (k = O -> above z c eta 0 = false) ->
  nth k (layer_weights z c eta) 0 = 0.
Proof.
  intros Hk A B C D. rewrite weights_value by assumption.
  destruct (Nat.eqb_spec k (length z - 1)) as [E|E]; [rewrite <- E, A by assumption; reflexivity|].
  rewrite B by assumption.
  destruct (Nat.leb_spec 1 k) as [L|L]; [rewrite C by assumption; cbn [andb]|cbn [andb]].
  - destruct (Nat.eqb_spec k 0); [lia|reflexivity].
  - replace k with O by lia. cbn [Nat.eqb andb]. rewrite D by lia. reflexivity.
Qed.
Section Rise.
Variables (z : list nan) (c eta : R).
Hypothesis (HR : Rising z) (HC : 0 < c).
Lemma rising_le i j a b : (i <= j)%nat -> At z i a -> At z j b -> a <= b.
Proof.
  intros L A B. destruct (Nat.eq_dec i j) as [->|N]; [rewrite (At_fun _ _ _ _ A B); lra|].
  left. apply (HR i j); [lia|assumption|assumption].
Qed.
Lemma scale_le a b : a <= b -> c * a <= c * b.
Proof. intro. apply Rmult_le_compat_l; lra. Qed.
Lemma bracket_one i h0 h1 k : At z i h0 -> At z (S i) h1 -> c * h0 < eta < c * h1 ->
  bracket z c eta (S k) = true -> k = i.
Proof.
  intros A0 A1 B H. apply bracket_iff in H. destruct H as (g0 & g1 & C0 & C1 & D).
  destruct (Nat.lt_trichotomy k i) as [L|[L|L]]; [exfalso|assumption|exfalso].
  - pose proof (scale_le _ _ (rising_le (S k) i _ _ L C1 A0)). lra.
  - pose proof (scale_le _ _ (rising_le (S i) k _ _ L A1 C0)). lra.
Qed.
Lemma inner_zero i h0 h1 k : At z i h0 -> At z (S i) h1 -> c * h0 < eta < c * h1 ->
  (k < length z)%nat -> k <> i -> k <> S i -> nth k (layer_weights z c eta) 0 = 0.
Proof.
  intros A0 A1 B Hk N1 N2. apply other_zero; [assumption|..].
  - intro E. apply bool_no. intro C. apply below_iff in C. destruct C as (h & A & L).
    pose proof (At_lt _ _ _ A1). pose proof (scale_le _ _ (rising_le (S i) k _ _ ltac:(lia) A1 A)). lra.
  - intros _. apply bool_no. intro C. apply (bracket_one i h0 h1) in C; [congruence|assumption..].
  - intro L. destruct k as [|k]; [lia|]. apply bool_no. intro C. apply (bracket_one i h0 h1) in C; [congruence|assumption..].
  - intros ->. apply bool_no. intro C. apply above_iff in C. destruct C as (h & A & L).
    pose proof (scale_le _ _ (rising_le 0 i _ _ ltac:(lia) A A0)). lra.
Qed.
Lemma bracket_yes i h0 h1 : At z i h0 -> At z (S i) h1 -> c * h0 < eta < c * h1 -> bracket z c eta (S i) = true.
Proof. intros. apply bracket_iff. exists h0, h1. auto. Qed.
Lemma lower_weight i h0 h1 : At z i h0 -> At z (S i) h1 -> c * h0 < eta < c * h1 ->
  nth i (layer_weights z c eta) 0 = (c * h1 - eta) / (c * h1 - c * h0).
Proof.
  intros A0 A1 B. pose proof (At_lt _ _ _ A1). rewrite weights_value by lia.
  rewrite (proj2 (Nat.eqb_neq i (length z - 1))) by lia. rewrite (bracket_yes i h0 h1), (weight_above_value z c eta i h0 h1) by assumption.
  field. split; [lra|]. assert (h0 < h1) by (apply (HR i (S i)); [lia|assumption|assumption]). lra.
Qed.
Lemma upper_weight i h0 h1 : At z i h0 -> At z (S i) h1 -> c * h0 < eta < c * h1 -> (S (S i) < length z)%nat ->
  nth (S i) (layer_weights z c eta) 0 = (eta - c * h0) / (c * h1 - c * h0).
Proof.
  intros A0 A1 B H. rewrite weights_value by lia.
  rewrite (proj2 (Nat.eqb_neq (S i) (length z - 1))) by lia.
  rewrite (bool_no (bracket z c eta (S (S i)))) by (intro C; apply (bracket_one i h0 h1) in C; [lia|assumption..]).
  cbn [Nat.leb andb]. rewrite (bracket_yes i h0 h1), (weight_above_value z c eta i h0 h1) by assumption.
  field. assert (h0 < h1) by (apply (HR i (S i)); [lia|assumption|assumption]). split; lra.
Qed.
End Rise.

Lemma div_pos' a b : 0 < a -> 0 < b -> 0 < a / b.
Proof. intros. apply Rdiv_lt_0_compat; assumption. Qed.
Lemma between_lem z c f eta i h0 h1 :
  Rising z -> 0 < c -> length f = length z -> (S (S i) < length z)%nat ->
  At z i h0 -> At z (S i) h1 -> c * h0 < eta < c * h1 ->
  (forall a b, At f i a -> At f (S i) b ->
     interp_level z c eta f = Ok (Some (line_through (c * h0) (c * h1) a b eta)) /\
     Rmin a b <= line_through (c * h0) (c * h1) a b eta <= Rmax a b) /\
  (Gap f i \/ Gap f (S i) -> interp_level z c eta f = Ok None).
Proof.
  intros HR HC HF HT A0 A1 B.
  assert (D : 0 < c * h1 - c * h0) by lra.
  pose proof (lower_weight z c eta HR HC i h0 h1 A0 A1 B) as W0. pose proof (upper_weight z c eta HR HC i h0 h1 A0 A1 B HT) as W1.
  assert (P0 : 0 < (c * h1 - eta) / (c * h1 - c * h0)) by (apply div_pos'; lra).
  assert (P1 : 0 < (eta - c * h0) / (c * h1 - c * h0)) by (apply div_pos'; lra).
  assert (E : interp_level z c eta f =
    Ok (nan_map2 Rplus (nan_map2 Rmult (Some ((c * h1 - eta) / (c * h1 - c * h0))) (nth i f None))
                     (nan_map2 Rmult (Some ((eta - c * h0) / (c * h1 - c * h0))) (nth (S i) f None)))).
  { rewrite <- W0, <- W1. apply interp_two; [lia|rewrite W0; assumption|rewrite W1; assumption|].
    intros k Hk N1 N2. right. apply (inner_zero z c eta HR HC i h0 h1); assumption. }
  split.
  - intros a b Fa Fb. rewrite (At_nth _ _ _ Fa), (At_nth _ _ _ Fb) in E. cbn [nan_map2] in E.
    assert (V : (c * h1 - eta) / (c * h1 - c * h0) * a + (eta - c * h0) / (c * h1 - c * h0) * b = line_through (c * h0) (c * h1) a b eta)
      by (unfold line_through; field; lra).
    rewrite V in E. split; [exact E|].
    unfold line_through. set (w := (eta - c * h0) / (c * h1 - c * h0)) in *.
    assert (W : w < 1). { unfold w. apply Rmult_lt_reg_r with (c * h1 - c * h0); [lra|]. unfold Rdiv. rewrite Rmult_assoc, Rinv_l by lra. lra. }
    unfold Rmin, Rmax. destruct (Rle_dec a b) as [L|L].
    + assert (0 <= w * (b - a)) by (apply Rmult_le_pos; lra). assert (0 <= (1 - w) * (b - a)) by (apply Rmult_le_pos; lra). lra.
    + assert (0 <= w * (a - b)) by (apply Rmult_le_pos; lra). assert (0 <= (1 - w) * (a - b)) by (apply Rmult_le_pos; lra). lra.
  - intros G. rewrite E. f_equal. destruct G as [G|G]; rewrite (nth_error_nth _ _ None G); [reflexivity|].
    destruct (nth i f None); reflexivity.
Qed.
Lemma linear_lem z c f eta i h0 h1 alpha beta :
  Rising z -> 0 < c -> length f = length z -> (S (S i) < length z)%nat ->
  At z i h0 -> At z (S i) h1 -> c * h0 < eta < c * h1 ->
  (forall j h, At z j h -> At f j (alpha + beta * (c * h))) ->
  interp_level z c eta f = Ok (Some (alpha + beta * eta)).
Proof.
  intros HR HC HF HT A0 A1 B HL. destruct (between_lem z c f eta i h0 h1 HR HC HF HT A0 A1 B) as [E _].
  destruct (E _ _ (HL _ _ A0) (HL _ _ A1)) as [F _]. rewrite F. f_equal. f_equal. unfold line_through. field. lra.
Qed.
Lemma top_lem z c f eta i h0 h1 a :
  Rising z -> 0 < c -> length f = length z -> (S (S i) = length z)%nat ->
  At z i h0 -> At z (S i) h1 -> c * h0 < eta < c * h1 -> At f i a ->
  interp_level z c eta f = Ok (Some ((c * h1 - eta) / (c * h1 - c * h0) * a)).
Proof.
  intros HR HC HF HT A0 A1 B Fa.
  pose proof (lower_weight z c eta HR HC i h0 h1 A0 A1 B) as W0.
  assert (P0 : 0 < (c * h1 - eta) / (c * h1 - c * h0)) by (apply div_pos'; lra).
  rewrite (interp_one z c eta f i); [rewrite W0, (At_nth _ _ _ Fa); reflexivity|lia|rewrite W0; assumption|].
  intros k Hk N. right. destruct (Nat.eq_dec k (S i)) as [->|N2].
  - rewrite weights_value by assumption. rewrite (proj2 (Nat.eqb_eq (S i) (length z - 1))) by lia.
    rewrite (bool_no (below z c eta (length z - 1))); [reflexivity|]. intro C. apply below_iff in C. destruct C as (h & A & L).
    replace (length z - 1)%nat with (S i) in A by lia. rewrite (At_fun _ _ _ _ A A1) in L. lra.
  - apply (inner_zero z c eta HR HC i h0 h1); assumption.
Qed.
Lemma nowhere_lem z c f eta :
  0 < c -> length f = length z -> z <> [] ->
  (forall i h0 h1, At z i h0 -> At z (S i) h1 -> ~ (c * h0 < eta < c * h1)) ->
  (forall h, At z 0 h -> c * h <= eta) -> (forall h, At z (length z - 1) h -> eta <= c * h) ->
  interp_level z c eta f = Ok None.
Proof.
  intros HC HF HN H1 H2 H3. apply interp_none; [assumption|]. intros k Hk. right.
  assert (B : forall j, bracket z c eta (S j) = false).
  { intro j. apply bool_no. intro C. apply bracket_iff in C. destruct C as (h0 & h1 & A0 & A1 & L). exact (H1 _ _ _ A0 A1 L). }
  apply other_zero; [assumption| | | |].
  - intros ->. apply bool_no. intro C. apply below_iff in C. destruct C as (h & A & L). specialize (H3 _ A). lra.
  - intros _. apply B.
  - intro L. destruct k; [lia|apply B].
  - intros _. apply bool_no. intro C. apply above_iff in C. destruct C as (h & A & L). specialize (H2 _ A). lra.
Qed.
Lemma on_level_lem z c f i h :
  Rising z -> 0 < c -> length f = length z -> At z i h -> interp_level z c (c * h) f = Ok None.
Proof.
  intros HR HC HF A. assert (S1 : forall a b, a < b -> c * a < c * b) by (intros; apply Rmult_lt_compat_l; assumption).
  assert (S2 : forall a b, a <= b -> c * a <= c * b) by (intros; apply Rmult_le_compat_l; lra).
  pose proof (At_lt _ _ _ A) as Hi.
  apply nowhere_lem; [assumption|assumption|intros ->; cbn in Hi; lia|..].
  - intros j h0 h1 A0 A1 [L0 L1].
    destruct (Nat.le_gt_cases j i) as [C|C].
    + destruct (Nat.eq_dec i j) as [->|N]; [rewrite (At_fun _ _ _ _ A A0) in L0; lra|].
      pose proof (S2 _ _ (rising_le z HR (S j) i _ _ ltac:(lia) A1 A)). lra.
    + pose proof (S2 _ _ (rising_le z HR i j _ _ ltac:(lia) A A0)). lra.
  - intros g G. apply S2. apply (rising_le z HR 0 i); [lia|assumption|assumption].
  - intros g G. apply S2. apply (rising_le z HR i (length z - 1)); [lia|assumption|assumption].
Qed.
Lemma nan_one (x : nan) : nan_map2 Rmult (Some 1) x = x.
Proof. destruct x; cbn; [f_equal; ring|reflexivity]. Qed.
Lemma outside_lem z c f eta h :
  Rising z -> 0 < c -> length f = length z -> (2 <= length z)%nat ->
  (At z 0 h -> eta < c * h -> interp_level z c eta f = Ok (nth 0 f None)) /\
  (At z (length z - 1) h -> c * h < eta -> interp_level z c eta f = Ok (nth (length z - 1) f None)).
Proof.
  intros HR HC HF HL. assert (S2 : forall a b, a <= b -> c * a <= c * b) by (intros; apply Rmult_le_compat_l; lra).
  split; intros A L.
  - assert (B : forall j, bracket z c eta (S j) = false).
    { intro j. apply bool_no. intro C. apply bracket_iff in C. destruct C as (h0 & h1 & A0 & A1 & K).
      pose proof (S2 _ _ (rising_le z HR 0 j _ _ ltac:(lia) A A0)). lra. }
    assert (W : nth 0 (layer_weights z c eta) 0 = 1).
    { rewrite weights_value by lia. rewrite (proj2 (Nat.eqb_neq 0 (length z - 1))) by lia. rewrite B. cbn [Nat.leb andb Nat.eqb].
      rewrite (proj2 (above_iff z c eta 0)); [reflexivity|exists h; auto]. }
    rewrite (interp_one z c eta f 0); [rewrite W, nan_one; reflexivity|lia|rewrite W; lra|].
    intros k Hk N. right. apply other_zero; [assumption| | | |].
    + intros _. apply bool_no. intro C. apply below_iff in C. destruct C as (g & G & K).
      pose proof (S2 _ _ (rising_le z HR 0 k _ _ ltac:(lia) A G)). lra.
    + intros _. apply B.
    + intro L1. destruct k; [lia|apply B].
    + intro E. contradiction.
  - assert (B : forall j, bracket z c eta (S j) = false).
    { intro j. apply bool_no. intro C. apply bracket_iff in C. destruct C as (h0 & h1 & A0 & A1 & K). pose proof (At_lt _ _ _ A1).
      pose proof (S2 _ _ (rising_le z HR (S j) (length z - 1) _ _ ltac:(lia) A1 A)). lra. }
    assert (W : nth (length z - 1) (layer_weights z c eta) 0 = 1).
    { rewrite weights_value by lia. rewrite Nat.eqb_refl. rewrite (proj2 (below_iff z c eta (length z - 1))); [reflexivity|exists h; auto]. }
    rewrite (interp_one z c eta f (length z - 1)); [rewrite W, nan_one; reflexivity|lia|rewrite W; lra|].
    intros k Hk N. right. apply other_zero; [assumption| | | |].
    + intro E. contradiction.
    + intros _. apply B.
    + intro L1. destruct k; [lia|apply B].
    + intros ->. apply bool_no. intro C. apply above_iff in C. destruct C as (g & G & K).
      pose proof (S2 _ _ (rising_le z HR 0 (length z - 1) _ _ ltac:(lia) G A)). lra.
Qed.
Lemma single_lem h c f eta :
  interp_level [Some h] c eta [f] = Ok (if Rlt_dec (c * h) eta then f else None).
Proof.
  assert (W : nth 0 (layer_weights [Some h] c eta) 0 = if Rlt_dec (c * h) eta then 1 else 0).
  { rewrite weights_value by (cbn; lia). cbn [length Nat.sub Nat.eqb]. destruct (Rlt_dec (c * h) eta) as [L|L].
    - rewrite (proj2 (below_iff [Some h] c eta 0)); [reflexivity|]. exists h. split; [reflexivity|assumption].
    - rewrite (bool_no (below [Some h] c eta 0)); [reflexivity|]. intro C. apply below_iff in C. destruct C as (g & G & K). injection G as <-. contradiction. }
  destruct (Rlt_dec (c * h) eta).
  - rewrite (interp_one [Some h] c eta [f] 0); [rewrite W, nan_one; reflexivity|cbn; lia|rewrite W; lra|].
    cbn [length]. intros; lia.
  - apply interp_none; [discriminate|]. cbn [length]. intros k Hk. replace k with O by lia. rewrite W. lra.
Qed.
Lemma falling_lem z c f eta top bottom a b :
  Falling z -> (forall i, (i < length z)%nat -> exists h, At z i h) -> 0 < c -> length f = length z ->
  At z 0 top -> At z (length z - 1) bottom -> (2 <= length z)%nat ->
  c * bottom < eta < c * top ->
  At f 0 a -> At f (length z - 1) b ->
  interp_level z c eta f = Ok (Some (a + b)).
Proof.
  intros HR HA HC HF A0 A1 HL B Fa Fb.
  assert (NB : forall j, bracket z c eta (S j) = false).
  { intro j. apply bool_no. intro C. apply bracket_iff in C. destruct C as (h0 & h1 & C0 & C1 & K).
    assert (h1 < h0) by (apply (HR j (S j)); [lia|assumption|assumption]).
    assert (c * h1 < c * h0) by (apply Rmult_lt_compat_l; assumption). lra. }
  assert (W0 : nth 0 (layer_weights z c eta) 0 = 1).
  { rewrite weights_value by lia. rewrite (proj2 (Nat.eqb_neq 0 (length z - 1))) by lia. rewrite NB. cbn [Nat.leb andb Nat.eqb].
    rewrite (proj2 (above_iff z c eta 0)); [reflexivity|exists top; tauto]. }
  assert (W1 : nth (length z - 1) (layer_weights z c eta) 0 = 1).
  { rewrite weights_value by lia. rewrite Nat.eqb_refl. rewrite (proj2 (below_iff z c eta (length z - 1))); [reflexivity|exists bottom; tauto]. }
  rewrite (interp_two z c eta f 0 (length z - 1)); [|lia|rewrite W0; lra|rewrite W1; lra|].
  - rewrite W0, W1, !nan_one, (At_nth _ _ _ Fa), (At_nth _ _ _ Fb). reflexivity.
  - intros k Hk N1 N2. right. apply other_zero; [assumption|congruence| | |congruence].
    + intros _. apply NB.
    + intros _. destruct k; [congruence|apply NB].
Qed.
Lemma At_scale z c k h : At (map (option_map (Rmult c)) z) k h <-> exists g, At z k g /\ h = c * g.
Proof.
  unfold At. rewrite nth_error_map. destruct (nth_error z k) as [[g|]|]; cbn [option_map].
  - split; [intro E; injection E as <-; exists g; auto|]. intros (g' & E & ->). injection E as <-. reflexivity.
  - split; [discriminate|]. intros (g' & E & _). discriminate E.
  - split; [discriminate|]. intros (g' & E & _). discriminate E.
Qed.
Lemma units_lem z c f eta : interp_level z c eta f = interp_level (map (option_map (Rmult c)) z) 1 eta f.
Proof.
  destruct z as [|z0 t]; [reflexivity|]. set (z := z0 :: t).
  set (z' := map (option_map (Rmult c)) z).
  assert (EN : forall k, nth k z' None = option_map (Rmult c) (nth k z None)).
  { intro k. unfold z'. change None with (option_map (Rmult c) None) at 1. apply map_nth. }
  assert (EL : length z' = length z) by apply map_length.
  assert (ED : forall k, distance z' 1 eta k = distance z c eta k).
  { intro k. unfold distance. rewrite EN. destruct (nth k z None); cbn [option_map]; [f_equal; ring|reflexivity]. }
  assert (EA : forall k, above z' 1 eta k = above z c eta k) by (intro k; unfold above; rewrite ED; reflexivity).
  assert (EB : forall k, below z' 1 eta k = below z c eta k) by (intro k; unfold below; rewrite ED; reflexivity).
  assert (EWA : forall k, weight_above z' 1 eta k = weight_above z c eta k).
  { intro k. unfold weight_above. rewrite ED, !EN. destruct (distance z c eta (k - 1)); [|reflexivity].
    destruct (nth k z None); [|reflexivity]. destruct (nth (k - 1) z None); [|reflexivity]. cbn [option_map]. f_equal. ring. }
  assert (ES : forall w k, weight_step z' 1 eta w k = weight_step z c eta w k).
  { intros w k. unfold weight_step. rewrite EA, EB, EWA. reflexivity. }
  assert (EF : forall ks w, fold_left (weight_step z' 1 eta) ks w = fold_left (weight_step z c eta) ks w).
  { induction ks as [|k ks IH]; intro w; [reflexivity|]. cbn [fold_left]. rewrite ES. apply IH. }
  assert (EW : layer_weights z' 1 eta = layer_weights z c eta).
  { unfold layer_weights. rewrite EL, EA, EB, EF. reflexivity. }
  rewrite !interp_unfold by (unfold z', z; discriminate). rewrite EW, EL. reflexivity.
Qed.
Lemma targets_lem z c f targets :
  (z <> [] -> exists values, vertical_interp z c f targets = Ok values /\
     Forall2 (fun eta v => interp_level z c eta f = Ok v) targets values) /\
  (targets <> [] -> vertical_interp [] c f targets = Err IndexError).
Proof.
  split.
  - intro H. induction targets as [|e t IH]; [exists []; split; [reflexivity|constructor]|].
    destruct IH as (vs & E & F). cbn [vertical_interp]. rewrite interp_unfold, E by assumption. cbv zeta. cbn [bind].
    eexists. split; [reflexivity|]. constructor; [apply interp_unfold; assumption|assumption].
  - intro H. destruct targets; [congruence|]. reflexivity.
Qed.

(* ---------- heights ---------- *)
Notation lift := (map (fun l : R * R => (fst l, Some (snd l)))).
Lemma atm_tail x l : Atmosphere (x :: l) -> Atmosphere l.
Proof. destruct x as [p t]. cbn [Atmosphere]. tauto. Qed.
Lemma atm_all p t l : Atmosphere ((p, t) :: l) -> forall q u, In (q, u) l -> 0 < q < p /\ 0 < u.
Proof.
  revert p t. induction l as [|[p' t'] l IH]; intros p t H q u Hq; [destruct Hq|].
  cbn [Atmosphere] in H. destruct H as (H1 & H2 & H3 & H4). destruct Hq as [E|Hq].
  - injection E as <- <-. cbn [Atmosphere] in H4. tauto.
  - destruct (IH _ _ H4 _ _ Hq). cbn [Atmosphere] in H4. lra.
Qed.
Lemma atm_app l1 l2 : Atmosphere (l1 ++ l2) -> Atmosphere l2.
Proof. induction l1 as [|x l1 IH]; [trivial|]. intro H. apply IH. apply (atm_tail x). exact H. Qed.
Lemma thickness_value ratio t lower upper : 0 < ratio -> 0 < t -> 0 < upper < lower ->
  thickness ratio (Some t) lower upper = hypsometric ratio t lower upper /\ 0 < hypsometric ratio t lower upper.
Proof.
  intros HR HT HP. unfold thickness, hypsometric.
  assert (Q1 : 1 < lower / upper).
  { apply Rmult_lt_reg_r with upper; [lra|]. unfold Rdiv. rewrite Rmult_assoc, Rinv_l by lra. lra. }
  assert (L : 0 < ln (lower / upper)) by (rewrite <- ln_1; apply ln_increasing; lra).
  rewrite Rltb_yes by lra.
  assert (P : 0 < ratio * t * ln (lower / upper)) by (apply Rmult_lt_0_compat; [apply Rmult_lt_0_compat; assumption|assumption]).
  rewrite Rmax_left by lra. auto.
Qed.
Lemma At_cons x l k v : At (x :: l) (S k) v <-> At l k v.
Proof. reflexivity. Qed.
Lemma rising_cons x l : Rising l -> (forall h k v, x = Some h -> At l k v -> h < v) -> Rising (x :: l).
Proof.
  intros H K i j a b L A B. destruct j as [|j]; [lia|]. destruct i as [|i].
  - injection A as A. eapply K; [exact A|exact B].
  - apply (H i j); [lia|exact A|exact B].
Qed.
Section Heights.
Variables (ratio sh surface : R).
Hypothesis HR : 0 < ratio.
Notation above' := (heights_above ratio sh surface).
Lemma heights_length prev h l : length (above' prev h l) = length l.
Proof. revert prev h. induction l as [|[p t] l IH]; intros; [reflexivity|]. cbn [heights_above length]. rewrite IH. reflexivity. Qed.
Lemma upper_heights l : forall prev tp h, Atmosphere ((prev, tp) :: l) -> prev <= surface ->
  (forall k, (k < length l)%nat -> At (above' prev (Some h) (lift l)) k (h + column_thickness ratio prev (firstn (S k) l))) /\
  (forall k v, At (above' prev (Some h) (lift l)) k v -> h < v) /\ Rising (above' prev (Some h) (lift l)).
Proof.
  induction l as [|[p t] l IH]; intros prev tp h HA HP.
  - split; [cbn; intros; lia|]. split; [intros k v H; destruct k; discriminate H|]. intros i j a b L A B. destruct i; discriminate A.
  - cbn [map fst snd heights_above]. rewrite Rltb_no by assumption. cbn [andb nan_map2].
    assert (D : 0 < p < prev /\ 0 < t) by (apply (atm_all prev tp _ HA); left; reflexivity).
    destruct (thickness_value ratio t prev p HR) as [E P]; [tauto|tauto|]. rewrite E. set (d := hypsometric ratio t prev p) in *.
    destruct (IH p t (h + d)) as (I1 & I2 & I3); [apply (atm_tail (prev, tp)); assumption|lra|].
    split; [|split].
    + intros [|k] Hk; [|rewrite (firstn_cons (S k))]; cbn [column_thickness].
      * cbn [firstn column_thickness]. unfold At. cbn [nth_error]. f_equal. f_equal. fold d. ring.
      * unfold At. cbn [nth_error]. specialize (I1 k ltac:(cbn in Hk; lia)). unfold At in I1. rewrite I1. f_equal. f_equal. fold d. ring.
    + intros [|k] v A; [injection A as <-; lra|]. apply At_cons in A. specialize (I2 _ _ A). lra.
    + apply rising_cons; [exact I3|]. intros g k v Eg A. injection Eg as <-. exact (I2 _ _ A).
Qed.
Lemma none_low low lower rest : Forall (fun l => surface < fst l) (low ++ [lower]) ->
  forall prev, above' prev None (lift (low ++ lower :: rest)) =
    (repeat None (S (length low)) ++ above' (fst lower) None (lift rest))%list.
Proof.
  induction low as [|[p t] low IH]; intros HF prev.
  - cbn [app] in *. apply Forall_inv in HF. destruct lower as [p t]. cbn [map fst snd heights_above nan_map2] in *.
    rewrite (Rltb_no p surface) by lra. rewrite andb_false_r. reflexivity.
  - cbn [app map fst snd heights_above] in *. pose proof (Forall_inv HF) as H1. cbn [fst] in H1. apply Forall_inv_tail in HF.
    rewrite (Rltb_no p surface) by lra. rewrite andb_false_r. cbn [nan_map2 length repeat app]. f_equal.
    rewrite IH by assumption. reflexivity.
Qed.
Lemma lost1 l : forall prev tp, Atmosphere ((prev, tp) :: l) -> prev <= surface ->
  above' prev None (lift l) = repeat None (length l).
Proof.
  induction l as [|[p t] l IH]; intros prev tp HA HP; [reflexivity|].
  cbn [map fst snd heights_above]. rewrite Rltb_no by assumption. cbn [andb nan_map2 length repeat]. f_equal.
  apply (IH p t); [apply (atm_tail (prev, tp)); assumption|].
  assert (D : 0 < p < prev /\ 0 < t) by (apply (atm_all prev tp _ HA); left; reflexivity). lra.
Qed.
Lemma lost_first p t l : Atmosphere ((p, t) :: l) ->
  (exists u, In (surface, u) ((p, t) :: l)) \/ (forall q u, In (q, u) ((p, t) :: l) -> surface <= q) -> surface <= p.
Proof.
  intros HA [(u & [E|H])|H].
  - injection E as -> _. lra.
  - destruct (atm_all _ _ _ HA _ _ H). lra.
  - apply (H p t). left. reflexivity.
Qed.
Lemma lost2 l : forall prev, Atmosphere l ->
  (exists u, In (surface, u) l) \/ (forall q u, In (q, u) l -> surface <= q) ->
  above' prev None (lift l) = repeat None (length l).
Proof.
  induction l as [|[p t] l IH]; intros prev HA H; [reflexivity|].
  pose proof (lost_first _ _ _ HA H) as L. cbn [map fst snd heights_above].
  rewrite (Rltb_no p surface) by lra. rewrite andb_false_r. cbn [nan_map2 length repeat]. f_equal.
  destruct (Rle_lt_dec p surface) as [C|C]; [apply (lost1 l p t); assumption|].
  apply IH; [apply (atm_tail (p, t)); assumption|]. destruct H as [(u & [E|H])|H].
  - injection E as -> _. lra.
  - left. exists u. assumption.
  - right. intros q u Hq. apply (H q u). right. assumption.
Qed.
End Heights.

Lemma all_above_lem ratio g geopotential c ps p t levels :
  0 < ratio -> Atmosphere ((p, t) :: levels) -> p < c * ps ->
  exists heights,
    height_from_pressure ratio g geopotential c ps (lift ((p, t) :: levels)) = Ok heights /\
    length heights = S (length levels) /\
    (forall k, (k <= length levels)%nat ->
       At heights k (geopotential / g + column_thickness ratio (c * ps) (firstn (S k) ((p, t) :: levels)))) /\
    Rising heights.
Proof.
  intros HR HA HP. cbn [map fst snd]. unfold height_from_pressure. rewrite Rltb_yes by assumption.
  assert (D : 0 < p /\ 0 < t) by (cbn [Atmosphere] in HA; tauto).
  destruct (thickness_value ratio t (c * ps) p HR) as [E P]; [tauto|lra|]. rewrite E. set (d := hypsometric ratio t (c * ps) p) in *.
  destruct (upper_heights ratio (geopotential / g) (c * ps) HR levels p t (geopotential / g + d) HA) as (I1 & I2 & I3); [lra|].
  eexists. split; [reflexivity|]. split; [cbn [length]; rewrite heights_length, map_length; reflexivity|]. split.
  - intros [|k] Hk; [|rewrite (firstn_cons (S k))]; unfold At; cbn [nth_error column_thickness].
    + cbn [firstn column_thickness]. f_equal. f_equal. fold d. ring.
    + specialize (I1 k ltac:(lia)). unfold At in I1. rewrite I1. f_equal. f_equal. fold d. ring.
  - apply rising_cons; [exact I3|]. intros h k v Eg A. injection Eg as <-. exact (I2 _ _ A).
Qed.
Lemma gap_repeat n l k : (k < n)%nat -> Gap (repeat None n ++ l) k.
Proof.
  intro H. unfold Gap. rewrite nth_error_app1 by (rewrite repeat_length; assumption).
  rewrite (nth_error_nth' _ None) by (rewrite repeat_length; assumption). rewrite nth_repeat. reflexivity.
Qed.
Lemma rising_gaps n l : Rising l -> Rising (repeat None n ++ l).
Proof.
  intro H. induction n as [|n IH]; [exact H|]. cbn [repeat app]. apply rising_cons; [exact IH|]. discriminate.
Qed.
Lemma below_ground_lem ratio g geopotential c ps low lower p t upper :
  0 < ratio -> Atmosphere (low ++ lower :: (p, t) :: upper) -> p < c * ps < fst lower ->
  exists heights,
    height_from_pressure ratio g geopotential c ps (lift (low ++ lower :: (p, t) :: upper)) = Ok heights /\
    length heights = length (low ++ lower :: (p, t) :: upper) /\
    (forall k, (k <= length low)%nat -> Gap heights k) /\
    (forall k, (k <= length upper)%nat ->
       At heights (S (length low) + k)
         (geopotential / g + column_thickness ratio (fst lower) (firstn (S k) ((p, t) :: upper)))) /\
    Rising heights.
Proof.
  intros HR HA HP. set (sh := geopotential / g). set (surface := c * ps) in *.
  assert (HF : Forall (fun l => surface < fst l) (low ++ [lower])).
  { clear -HA HP. apply Forall_app. split; [|constructor; [lra|constructor]].
    induction low as [|[q u] low IH]; [constructor|]. constructor.
    - cbn [fst]. destruct lower as [l tl]. pose proof (atm_all _ _ _ HA l tl) as K. cbn [fst] in HP.
      specialize (K ltac:(apply in_or_app; right; left; reflexivity)). lra.
    - apply IH. apply (atm_tail (q, u)). exact HA. }
  pose proof (atm_app low _ HA) as HA2. pose proof (atm_tail _ _ HA2) as HA3.
  destruct lower as [l tl]. cbn [fst] in *.
  assert (D : 0 < p < l /\ 0 < t) by (apply (atm_all l tl _ HA2); left; reflexivity).
  set (rest := heights_above ratio sh surface l None (lift ((p, t) :: upper))).
  assert (E : height_from_pressure ratio g geopotential c ps (lift (low ++ (l, tl) :: (p, t) :: upper)) =
    Ok (repeat None (S (length low)) ++ rest)%list).
  { unfold height_from_pressure. fold sh surface. destruct low as [|[q u] low].
    - cbn [app map fst snd length repeat]. apply Forall_inv in HF. cbn [fst] in HF.
      rewrite (Rltb_no l surface) by lra. reflexivity.
    - cbn [app map fst snd length]. cbn [app] in HF. pose proof (Forall_inv HF) as H1. cbn [fst] in H1. apply Forall_inv_tail in HF.
      rewrite (Rltb_no q surface) by lra. f_equal. cbn [repeat app]. f_equal. 
      rewrite (none_low ratio sh surface low (l, tl)) by assumption. reflexivity. }
  assert (ER : rest = Some (sh + hypsometric ratio t l p) :: heights_above ratio sh surface p (Some (sh + hypsometric ratio t l p)) (lift upper)).
  { unfold rest. cbn [map fst snd heights_above]. rewrite !Rltb_yes by tauto. cbn [andb].
    rewrite (proj1 (thickness_value ratio t l p HR ltac:(tauto) ltac:(tauto))). reflexivity. }
  set (d := hypsometric ratio t l p) in *.
  assert (Pd : 0 < d) by (apply (thickness_value ratio t l p HR); tauto).
  destruct (upper_heights ratio sh surface HR upper p t (sh + d) HA3) as (I1 & I2 & I3); [lra|].
  eexists. split; [exact E|]. split; [|split; [|split]].
  - rewrite !app_length, repeat_length. unfold rest. rewrite heights_length, map_length. cbn [length]. lia.
  - intros k Hk. apply gap_repeat. lia.
  - intros k Hk. unfold At. rewrite nth_error_app2 by (rewrite repeat_length; lia). rewrite repeat_length.
    replace (S (length low) + k - S (length low))%nat with k by lia. rewrite ER. destruct k as [|k]; [|rewrite (firstn_cons (S k))]; cbn [nth_error column_thickness].
    + cbn [firstn column_thickness]. f_equal. f_equal. fold d. ring.
    + specialize (I1 k ltac:(lia)). unfold At in I1. rewrite I1. f_equal. f_equal. fold d. ring.
  - apply rising_gaps. rewrite ER. apply rising_cons; [exact I3|]. intros h k v Eg A. injection Eg as <-. exact (I2 _ _ A).
Qed.
Lemma on_level_heights ratio g geopotential c ps levels :
  Atmosphere levels -> levels <> [] ->
  (exists t, In (c * ps, t) levels) \/ (forall p t, In (p, t) levels -> c * ps <= p) ->
  exists heights,
    height_from_pressure ratio g geopotential c ps (lift levels) = Ok heights /\
    length heights = length levels /\ forall k, (k < length levels)%nat -> Gap heights k.
Proof.
  intros HA HN H. destruct levels as [|[p t] l]; [congruence|]. cbn [map fst snd]. unfold height_from_pressure.
  pose proof (lost_first (c * ps) p t l HA H) as L. rewrite Rltb_no by lra.
  assert (E : heights_above ratio (geopotential / g) (c * ps) p None (lift l) = repeat None (length l)).
  { destruct (Rle_lt_dec p (c * ps)) as [C|C]; [apply (lost1 ratio (geopotential / g) (c * ps) l p t); assumption|].
    apply lost2; [apply (atm_tail (p, t)); assumption|]. destruct H as [(u & [E|H])|H].
    - injection E as -> _. lra.
    - left. exists u. assumption.
    - right. intros q u Hq. apply (H q u). right. assumption. }
  rewrite E. eexists. split; [reflexivity|]. split; [cbn [length]; rewrite repeat_length; reflexivity|].
  intros k Hk. pose proof (gap_repeat (S (length l)) [] k Hk) as G. rewrite app_nil_r in G. exact G.
Qed.

(** The statements of PropertiesVert.v. *)
Lemma C32_between_proof : forall z c f eta i h0 h1,
  Rising z -> 0 < c -> length f = length z -> (S (S i) < length z)%nat ->
  At z i h0 -> At z (S i) h1 -> c * h0 < eta < c * h1 ->
  (forall a b, At f i a -> At f (S i) b ->
     interp_level z c eta f = Ok (Some (line_through (c * h0) (c * h1) a b eta)) /\
     Rmin a b <= line_through (c * h0) (c * h1) a b eta <= Rmax a b) /\
  (Gap f i \/ Gap f (S i) -> interp_level z c eta f = Ok None).
Proof.
  exact between_lem.
Qed.

Lemma C32_linear_proof : forall z c f eta i h0 h1 alpha beta,
  Rising z -> 0 < c -> length f = length z -> (S (S i) < length z)%nat ->
  At z i h0 -> At z (S i) h1 -> c * h0 < eta < c * h1 ->
  (forall j h, At z j h -> At f j (alpha + beta * (c * h))) ->
  interp_level z c eta f = Ok (Some (alpha + beta * eta)).
Proof.
  exact linear_lem.
Qed.

Lemma C32_top_layer_proof : forall z c f eta i h0 h1 a,
  Rising z -> 0 < c -> length f = length z -> (S (S i) = length z)%nat ->
  At z i h0 -> At z (S i) h1 -> c * h0 < eta < c * h1 -> At f i a ->
  interp_level z c eta f = Ok (Some ((c * h1 - eta) / (c * h1 - c * h0) * a)).
Proof.
  exact top_lem.
Qed.

Lemma C32_on_level_proof : forall z c f i h,
  Rising z -> 0 < c -> length f = length z -> At z i h ->
  interp_level z c (c * h) f = Ok None.
Proof.
  exact on_level_lem.
Qed.

Lemma C32_outside_proof : forall z c f eta h,
  Rising z -> 0 < c -> length f = length z -> (2 <= length z)%nat ->
  (At z 0 h -> eta < c * h -> interp_level z c eta f = Ok (nth 0 f None)) /\
  (At z (length z - 1) h -> c * h < eta -> interp_level z c eta f = Ok (nth (length z - 1) f None)).
Proof.
  exact outside_lem.
Qed.

Lemma C32_single_proof : forall h c f eta,
  interp_level [Some h] c eta [f] = Ok (if Rlt_dec (c * h) eta then f else None).
Proof.
  exact single_lem.
Qed.

Lemma C32_nowhere_proof : forall z c f eta,
  0 < c -> length f = length z -> z <> [] ->
  (forall i h0 h1, At z i h0 -> At z (S i) h1 -> ~ (c * h0 < eta < c * h1)) ->
  (forall h, At z 0 h -> c * h <= eta) -> (forall h, At z (length z - 1) h -> eta <= c * h) ->
  interp_level z c eta f = Ok None.
Proof.
  exact nowhere_lem.
Qed.

Lemma C32_falling_proof : forall z c f eta top bottom a b,
  Falling z -> (forall i, (i < length z)%nat -> exists h, At z i h) -> 0 < c -> length f = length z ->
  At z 0 top -> At z (length z - 1) bottom -> (2 <= length z)%nat ->
  c * bottom < eta < c * top ->
  At f 0 a -> At f (length z - 1) b ->
  interp_level z c eta f = Ok (Some (a + b)).
Proof.
  exact falling_lem.
Qed.

Lemma C32_units_and_targets_proof : forall z c f targets,
  (forall eta, interp_level z c eta f = interp_level (map (option_map (Rmult c)) z) 1 eta f) /\
  (z <> [] -> exists values, vertical_interp z c f targets = Ok values /\
     Forall2 (fun eta v => interp_level z c eta f = Ok v) targets values) /\
  (targets <> [] -> vertical_interp [] c f targets = Err IndexError).
Proof.
  intros z c f targets. split; [intro; apply units_lem|apply targets_lem].
Qed.

Lemma C32_between_case_proof :
  let z := [None; Some 1; Some 2; Some 4] in
  Rising z /\ 0 < 1000 /\ At z 1 1 /\ At z 2 2 /\ 1000 * 1 < 1500 < 1000 * 2 /\
  line_through (1000 * 1) (1000 * 2) 10 20 1500 = 15.
Proof.
  intro z. split; [|split; [lra|split; [reflexivity|split; [reflexivity|split; [lra|unfold line_through; field]]]]].
  intros i j a b L A B. unfold At, z in A, B.
  do 5 (destruct i as [|i]; [do 5 (destruct j as [|j]; [try lia; cbn in A, B; try discriminate A; try discriminate B; injection A as <-; injection B as <-; lra|]); destruct j; cbn in B; discriminate B|]).
  destruct i; cbn in A; discriminate A.
Qed.

Lemma C32_outside_case_proof : Rising [Some 1; Some 2] /\ At [Some 1; Some 2] 0 1 /\ At [Some 1; Some 2] 1 2.
Proof.
  split; [|split; reflexivity]. intros i j a b L A B. unfold At in A, B.
  do 3 (destruct i as [|i]; [do 3 (destruct j as [|j]; [try lia; cbn in A, B; try discriminate A; try discriminate B; injection A as <-; injection B as <-; lra|]); destruct j; cbn in B; discriminate B|]).
  destruct i; cbn in A; discriminate A.
Qed.

Lemma C32_falling_case_proof :
  let z := [Some 3; Some 2; Some 1] in
  Falling z /\ (forall i, (i < 3)%nat -> exists h, At z i h).
Proof.
  intro z. split.
  - intros i j a b L A B. unfold At, z in A, B.
  do 4 (destruct i as [|i]; [do 4 (destruct j as [|j]; [try lia; cbn in A, B; try discriminate A; try discriminate B; injection A as <-; injection B as <-; lra|]); destruct j; cbn in B; discriminate B|]).
  destruct i; cbn in A; discriminate A.
  - intros i Hi. destruct i as [|[|[|i]]]; [exists 3|exists 2|exists 1|lia]; reflexivity.
Qed.

Lemma C32_nowhere_case_proof :
  let z := [None; Some 2; Some 3] in
  (forall i h0 h1, At z i h0 -> At z (S i) h1 -> ~ (1 * h0 < 1 < 1 * h1)) /\
  (forall h, At z 0 h -> 1 * h <= 1) /\ (forall h, At z 2 h -> 1 <= 1 * h).
Proof.
  intro z. split; [|split].
  - intros i h0 h1 A B. unfold At, z in A, B. destruct i as [|[|[|i]]]; cbn in A, B; try discriminate A; try discriminate B.
    + injection A as <-. injection B as <-. lra.
  - intros h A. discriminate A.
  - intros h A. injection A as <-. lra.
Qed.

Lemma C32_top_layer_refuted_proof :
  exists z f eta v, Rising z /\ At z 0 1 /\ At z 1 2 /\ 1 < eta < 2 /\
    (forall j, (j < 2)%nat -> At f j 1) /\ length f = length z /\
    interp_level z 1 eta f = Ok (Some v) /\ v <> 1.
Proof.
  exists [Some 1; Some 2], [Some 1; Some 1], (3 / 2), (1 / 2).
  assert (HR : Rising [Some 1; Some 2]) by apply C32_outside_case_proof.
  split; [exact HR|]. split; [reflexivity|]. split; [reflexivity|]. split; [lra|].
  split; [intros j Hj; destruct j as [|[|j]]; [reflexivity|reflexivity|lia]|]. split; [reflexivity|]. split; [|lra].
  rewrite (top_lem [Some 1; Some 2] 1 [Some 1; Some 1] (3 / 2) 0 1 2 1 HR); [f_equal; f_equal; field|lra|reflexivity|reflexivity|reflexivity|reflexivity|lra|reflexivity].
Qed.

Lemma C46_all_above_proof : forall ratio g geopotential c ps p t levels,
  0 < ratio -> Atmosphere ((p, t) :: levels) -> p < c * ps ->
  exists heights,
    height_from_pressure ratio g geopotential c ps (map (fun l => (fst l, Some (snd l))) ((p, t) :: levels)) = Ok heights /\
    length heights = S (length levels) /\
    (forall k, (k <= length levels)%nat ->
       At heights k (geopotential / g + column_thickness ratio (c * ps) (firstn (S k) ((p, t) :: levels)))) /\
    Rising heights.
Proof.
  intros; apply all_above_lem; assumption.
Qed.

Lemma C46_partly_below_ground_proof : forall ratio g geopotential c ps low lower p t upper,
  0 < ratio -> Atmosphere (low ++ lower :: (p, t) :: upper) -> p < c * ps < fst lower ->
  exists heights,
    height_from_pressure ratio g geopotential c ps
      (map (fun l => (fst l, Some (snd l))) (low ++ lower :: (p, t) :: upper)) = Ok heights /\
    length heights = length (low ++ lower :: (p, t) :: upper) /\
    (forall k, (k <= length low)%nat -> Gap heights k) /\
    (forall k, (k <= length upper)%nat ->
       At heights (S (length low) + k)
         (geopotential / g + column_thickness ratio (fst lower) (firstn (S k) ((p, t) :: upper)))) /\
    Rising heights.
Proof.
  intros; apply below_ground_lem; assumption.
Qed.

Lemma C46_on_level_proof : forall ratio g geopotential c ps levels,
  Atmosphere levels -> levels <> [] ->
  (exists t, In (c * ps, t) levels) \/ (forall p t, In (p, t) levels -> c * ps <= p) ->
  exists heights,
    height_from_pressure ratio g geopotential c ps (map (fun l => (fst l, Some (snd l))) levels) = Ok heights /\
    length heights = length levels /\ forall k, (k < length levels)%nat -> Gap heights k.
Proof.
  intros; apply on_level_heights; assumption.
Qed.

Lemma C46_all_above_case_proof : Atmosphere [(1000, 280); (500, 250)] /\ 1000 < 1 / 100 * 101000.
Proof.
  cbn [Atmosphere]. lra.
Qed.

Lemma C46_partly_below_ground_case_proof :
  Atmosphere ([(1000, 280)] ++ (850, 270) :: (700, 260) :: [(500, 250)]) /\ 700 < 1 * 720 < 850.
Proof.
  cbn [Atmosphere app]. lra.
Qed.

Lemma C46_on_level_case_proof :
  Atmosphere [(1000, 280); (850, 270); (500, 250)] /\ In (1 / 100 * 85000, 270) [(1000, 280); (850, 270); (500, 250)].
Proof.
  split; [cbn [Atmosphere]; lra|]. right. left. f_equal. field.
Qed.

Lemma C46_thickness_refuted_proof :
  exists ratio levels ps ps' h h' k, ps <> ps' /\ 0 < ratio /\ Atmosphere levels /\
    height_from_pressure ratio 1 0 1 ps (map (fun l => (fst l, Some (snd l))) levels) = Ok h /\
    height_from_pressure ratio 1 0 1 ps' (map (fun l => (fst l, Some (snd l))) levels) = Ok h' /\
    (k < length levels)%nat /\ h = h' /\ exists v, At h k v.
Proof.
  exists 1, [(1000, 1); (500, 1)], 600, 900.
  destruct (below_ground_lem 1 1 0 1 600 [] (1000, 1) 500 1 []) as (h & E & L & G & A & _); [lra|cbn [Atmosphere app]; lra|cbn [fst]; lra|].
  destruct (below_ground_lem 1 1 0 1 900 [] (1000, 1) 500 1 []) as (h' & E' & L' & G' & A' & _); [lra|cbn [Atmosphere app]; lra|cbn [fst]; lra|].
  exists h, h', 1%nat. split; [lra|]. split; [lra|]. split; [cbn [Atmosphere]; lra|]. split; [exact E|]. split; [exact E'|]. split; [cbn; lia|].
  specialize (G O (le_n _)). specialize (G' O (le_n _)). specialize (A O (le_n _)). specialize (A' O (le_n _)).
  split; [|eexists; exact A].
  destruct h as [|x [|y [|w h]]]; try discriminate L. destruct h' as [|x' [|y' [|w' h']]]; try discriminate L'.
  unfold Gap in G, G'. cbn [nth_error] in G, G'. injection G as ->. injection G' as ->.
  unfold At in A, A'. cbn [nth_error length Nat.add] in A, A'. injection A as ->. injection A' as ->. reflexivity.
Qed.

