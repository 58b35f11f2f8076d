(** Proofs about the spectra of one time segment. *)
From Coq Require Import Reals.
From Verif Require Import PyBase ColumnModel WavesModel WavesSpec BlockProofs WavesProofs KfModel KfSpec SpectraModel SegModel SegSpec.
From Verif Require KfProofs SpectraProofs.
From Coq Require Import List Lia Lra.
Import ListNotations.
Open Scope nat_scope.
Open Scope list_scope.
Notation S2 := KfProofs.S2.

(* ---------- tables ---------- *)
Lemma tab_ext {A} n m (f h : nat -> nat -> A) : (forall i c, i < n -> c < m -> f i c = h i c) -> tabulate n m f = tabulate n m h.
Proof. intro H. unfold tabulate. apply map_ext_in. intros i I. apply in_seq in I. apply map_ext_in. intros c J. apply in_seq in J. apply H; lia. Qed.
Lemma tab_app {A} n m (f : nat -> nat -> A) h : tabulate n m f ++ [map h (seq 0 m)] = tabulate (n + 1) m (fun i c => if i <? n then f i c else h c).
Proof.
  unfold tabulate. rewrite Nat.add_1_r, seq_S, map_app. cbn [map Nat.add]. rewrite Nat.ltb_irrefl. f_equal. apply map_ext_in. intros i I. apply in_seq in I.
  destruct (Nat.ltb_spec i n); [reflexivity|lia].
Qed.
Lemma row_cons {A} (z : A) m h : z :: map h (seq 0 m) = map (fun c => match c with O => z | S c' => h c' end) (seq 0 (m + 1)).
Proof. rewrite Nat.add_1_r. cbn [seq map]. f_equal. rewrite <- seq_shift, map_map. reflexivity. Qed.
Lemma tab_cons {A} (z : A) n m f : map (cons z) (tabulate n m f) = tabulate n (m + 1) (fun i c => match c with O => z | S c' => f i c' end).
Proof. unfold tabulate. rewrite map_map. apply map_ext. intro i. apply row_cons. Qed.
Lemma tab_wrap n m (f : nat -> nat -> R) :
  map (fun r => last r 0%R :: tl r) (tabulate n (m + 1) f) = tabulate n (m + 1) (fun i c => f i (if c =? 0 then m else c)).
Proof.
  unfold tabulate. rewrite map_map. apply map_ext. intro i. replace (last (map (f i) (seq 0 (m + 1))) 0%R) with (f i m).
  - rewrite Nat.add_1_r. cbn [seq map tl Nat.eqb]. f_equal. apply map_ext_in. intros c I. apply in_seq in I. destruct (Nat.eqb_spec c 0); [lia|reflexivity].
  - rewrite Nat.add_1_r, seq_S, map_app. cbn [map Nat.add]. rewrite last_last. reflexivity.
Qed.
Lemma tab_first {A} n m (f : nat -> nat -> A) : 0 < n -> nth 0 (tabulate n m f) [] = map (f 0) (seq 0 m).
Proof. intro H. destruct n; [lia|]. reflexivity. Qed.
Lemma repeat_row m : repeat 0%R m = map (fun _ => 0%R) (seq 0 m).
Proof. generalize 0%nat. induction m as [|m IH]; intro s; [reflexivity|]. cbn. f_equal. apply IH. Qed.

(* ---------- congruent places ---------- *)
Definition Cong (n j : nat) (f : Z) : Prop := exists u, Z.of_nat j = (f + Z.of_nat n * u)%Z.
Lemma shifted_cong n i : 0 < n -> Cong n (shifted n i) (Z.of_nat i - Z.of_nat (n / 2)).
Proof.
  intro N. unfold shifted. pose proof (Nat.div_mod (i + (n - n / 2)) n ltac:(lia)) as D. set (q := (i + (n - n / 2)) / n) in *.
  pose proof (Nat.div_lt n 2 N ltac:(lia)). exists (1 - Z.of_nat q)%Z. nia.
Qed.
Lemma cong_eq n j f g u : Cong n j f -> (f = g + Z.of_nat n * u)%Z -> Cong n j g.
Proof. intros [v E] ->. exists (u + v)%Z. lia. Qed.

(* ---------- the place of a spectrum ---------- *)
Definition column (NL c : nat) : nat := if Nat.odd NL then c else if c =? 0 then NL - 1 else c - 1.
Lemma framed_tab which NT NL (F : nat -> nat -> R) : 0 < NT -> 0 < NL ->
  framed which NT NL (spectrum NT NL F) = tabulate (OddSize NT) (OddSize NL) (fun i c =>
    if i <? NT then F (shifted NT i) (shifted NL (NL - 1 - column NL c))
    else if Nat.odd NL || (which =? 0) then F (shifted NT 0) (shifted NL (NL - 1 - column NL c)) else 0%R).
Proof.
  intros HT HL. unfold framed, spectrum, OddSize, column. destruct (Nat.odd NL) eqn:OL; cbn [orb].
  - destruct (Nat.odd NT) eqn:OT.
    + apply tab_ext. intros i c I J. destruct (Nat.ltb_spec i NT); [reflexivity|lia].
    + rewrite tab_first by exact HT. rewrite tab_app. apply tab_ext. reflexivity.
  - rewrite tab_cons. assert (E : forall i c, c < NL + 1 -> (match (if c =? 0 then NL else c) with 0 => 0%R | S c' => F (shifted NT i) (shifted NL (NL - 1 - c')) end)
      = F (shifted NT i) (shifted NL (NL - 1 - (if c =? 0 then NL - 1 else c - 1)))).
    { intros i c J. destruct (Nat.eqb_spec c 0) as [->|N].
      - destruct NL as [|n]; [lia|]. do 2 f_equal. lia.
      - destruct c as [|c]; [lia|]. do 2 f_equal. lia. }
    destruct (Nat.odd NT) eqn:OT.
    + rewrite tab_wrap. apply tab_ext. intros i c I J. cbv beta. rewrite E by exact J. destruct (Nat.ltb_spec i NT); [reflexivity|lia].
    + destruct (which =? 0).
      * rewrite tab_first by exact HT. rewrite tab_app, tab_wrap. apply tab_ext. intros i c I J. cbv beta. rewrite !E by exact J. reflexivity.
      * rewrite repeat_row. rewrite tab_app, tab_wrap. apply tab_ext. intros i c I J. cbv beta. rewrite !E by exact J. reflexivity.
Qed.
Lemma odd_half n : Nat.odd n = true -> n = 2 * (n / 2) + 1.
Proof. intro H. apply Nat.odd_spec in H. destruct H as [k ->]. replace (2 * k + 1) with (1 + k * 2) by lia. rewrite Nat.div_add by lia. change (1 / 2) with 0. lia. Qed.
Lemma even_half n : Nat.odd n = false -> n = 2 * (n / 2).
Proof.
  intro H. rewrite <- Nat.negb_even in H. apply Bool.negb_false_iff in H. apply Nat.even_spec in H. destruct H as [k ->]. rewrite (Nat.mul_comm 2 k), Nat.div_mul by lia. lia.
Qed.
Lemma place_bound n f : 0 < n -> InRange n f -> PlaceOf n f < OddSize n /\ Z.of_nat (PlaceOf n f) = (f + Z.of_nat (n / 2))%Z.
Proof.
  intros N [A B]. unfold PlaceOf, OddSize. destruct (Nat.odd n) eqn:O.
  - pose proof (odd_half n O). split; lia.
  - pose proof (even_half n O). split; lia.
Qed.
Lemma column_cong n k : 0 < n -> InRange n k -> Cong n (shifted n (n - 1 - column n (PlaceOf n k))) (- k).
Proof.
  intros N H. destruct (place_bound n k N H) as [B E]. unfold column. unfold OddSize in B. destruct (Nat.odd n) eqn:O.
  - pose proof (odd_half n O). refine (cong_eq _ _ _ _ 0 (shifted_cong n _ N) _). lia.
  - pose proof (even_half n O). destruct (Nat.eqb_spec (PlaceOf n k) 0) as [Z0|NZ].
    + refine (cong_eq _ _ _ _ (-1) (shifted_cong n _ N) _). lia.
    + refine (cong_eq _ _ _ _ 0 (shifted_cong n _ N) _). lia.
Qed.
Definition Last (NT NL : nat) (f : Z) : Prop := Nat.Even NT /\ Nat.Even NL /\ (2 * f = Z.of_nat NT)%Z.
Lemma framed_entry which NT NL F G f k : 0 < NT -> 0 < NL ->
  (forall j r f k, Cong NT j f -> Cong NL r (- k) -> F j r = G f k) -> InRange NT f -> InRange NL k ->
  (which = 0 \/ ~ Last NT NL f -> Entry (framed which NT NL (spectrum NT NL F)) (PlaceOf NT f) (PlaceOf NL k) (G f k)) /\
  (which <> 0 -> Last NT NL f -> Entry (framed which NT NL (spectrum NT NL F)) (PlaceOf NT f) (PlaceOf NL k) 0%R).
Proof.
  intros HT HL HF RF RK. rewrite framed_tab by assumption. destruct (place_bound NT f HT RF) as [BF EF]. destruct (place_bound NL k HL RK) as [BK EK].
  pose proof (column_cong NL k HL RK) as CK. pose proof (KfProofs.tabulate_entry (OddSize NT) (OddSize NL) (fun i c =>
    if i <? NT then F (shifted NT i) (shifted NL (NL - 1 - column NL c))
    else if Nat.odd NL || (which =? 0) then F (shifted NT 0) (shifted NL (NL - 1 - column NL c)) else 0%R) _ _ BF BK) as T. cbv beta in T.
  match type of T with Entry ?M _ _ _ => set (tab := M) in * end. clearbody tab.
  unfold OddSize in BF. destruct (Nat.ltb_spec (PlaceOf NT f) NT) as [L|L].
  - rewrite (HF _ _ f k) in T; [|refine (cong_eq _ _ _ _ 0 (shifted_cong NT _ HT) _); lia|exact CK]. split; [intros _; exact T|].
    intros _ (E1 & _ & E3). exfalso. assert (O : Nat.odd NT = false) by (rewrite <- Nat.negb_even; apply Bool.negb_false_iff, Nat.even_spec; exact E1). pose proof (even_half NT O). lia.
  - destruct (Nat.odd NT) eqn:O; [lia|]. pose proof (even_half NT O) as HE. assert (Ef : (2 * f = Z.of_nat NT)%Z) by lia.
    assert (EvT : Nat.Even NT) by (apply Nat.even_spec, Bool.negb_false_iff; rewrite Nat.negb_even; exact O).
    assert (CF : Cong NT (shifted NT 0) f) by (refine (cong_eq _ _ _ _ (-1) (shifted_cong NT _ HT) _); lia).
    rewrite (HF _ _ f k CF CK) in T. split.
    + intros W. replace (Nat.odd NL || (which =? 0)) with true in T; [exact T|]. symmetry. destruct W as [->|W]; [apply Bool.orb_true_r|].
      apply Bool.orb_true_iff. left. destruct (Nat.odd NL) eqn:OL; [reflexivity|]. exfalso. apply W. repeat split; [exact EvT| |exact Ef].
      apply Nat.even_spec, Bool.negb_false_iff. rewrite Nat.negb_even. exact OL.
    + intros W (_ & E2 & _). replace (Nat.odd NL || (which =? 0)) with false in T; [exact T|]. symmetry. apply Bool.orb_false_iff. split.
      * rewrite <- Nat.negb_even. apply Bool.negb_false_iff, Nat.even_spec. exact E2.
      * apply Nat.eqb_neq. exact W.
Qed.

(* ---------- waves with integer numbers ---------- *)
Open Scope R_scope.
Lemma cos_turns x z : cos (x + 2 * PI * IZR z) = cos x.
Proof.
  destruct z as [|p|p].
  - f_equal. lra.
  - replace (2 * PI * IZR (Z.pos p)) with (2 * INR (Pos.to_nat p) * PI). apply cos_period. rewrite INR_IZR_INZ, positive_nat_Z. ring.
  - rewrite <- (cos_period (x + 2 * PI * IZR (Z.neg p)) (Pos.to_nat p)). f_equal. rewrite INR_IZR_INZ, positive_nat_Z.
    change (Z.neg p) with (- Z.pos p)%Z. rewrite opp_IZR. ring.
Qed.
Lemma sin_turns x z : sin (x + 2 * PI * IZR z) = sin x.
Proof. rewrite <- !cos_shift. rewrite <- (cos_turns (PI / 2 - x) (- z)). f_equal. rewrite opp_IZR. ring. Qed.
(** A full sum of cosines. *)
Lemma tot_cosZ n (m : Z) b : (0 < n)%nat ->
  Total (map (fun x => cos (2 * PI * (IZR m * INR x / INR n) + b)) (seq 0 n)) = if (m mod Z.of_nat n =? 0)%Z then INR n * cos b else 0.
Proof.
  intro N. assert (NZ := INR_nz n N). pose proof (Z.div_mod m (Z.of_nat n) ltac:(lia)) as D. pose proof (Z.mod_pos_bound m (Z.of_nat n) ltac:(lia)) as B.
  set (q := (m / Z.of_nat n)%Z) in *. set (r := (m mod Z.of_nat n)%Z) in *. clearbody q r.
  rewrite (tot_ext _ (fun x => cos (Turn n (Z.to_nat r) x + b))).
  - destruct (Z.eqb_spec r 0) as [->|R0].
    + rewrite (tot_ext _ (fun _ => cos b)); [apply tot_const|]. intros x _. f_equal. unfold Turn. change (INR (Z.to_nat 0)) with 0. field. exact NZ.
    + apply tot_cos. lia.
  - intros x _. rewrite <- (cos_turns (Turn n (Z.to_nat r) x + b) (q * Z.of_nat x)). f_equal. unfold Turn. subst m.
    rewrite plus_IZR, !mult_IZR, <- !INR_IZR_INZ. rewrite (INR_IZR_INZ (Z.to_nat r)), Z2Nat.id by lia. field. exact NZ.
Qed.
Lemma sum2_is n m g : Sum2 n m g = S2 n m g.
Proof. unfold Sum2. apply KfProofs.s2_eq. Qed.
Lemma tot_cos2 (f h : nat -> R) b n m :
  S2 n m (fun i j => cos (f i + h j + b)) =
  Total (map (fun i => Total (map (fun j => cos (h j + (f i + b))) (seq 0 m))) (seq 0 n)).
Proof. rewrite KfProofs.s2_eq. apply KfProofs.s2_ext. intros i j _ _. f_equal. ring. Qed.
Lemma s2_cosZ NT NL (f k : Z) b : (0 < NT)%nat -> (0 < NL)%nat ->
  S2 NT NL (fun t x => cos (Phase NT NL f k t x + b)) =
  if (f mod Z.of_nat NT =? 0)%Z && (k mod Z.of_nat NL =? 0)%Z then INR NT * INR NL * cos b else 0.
Proof.
  intros HT HL. assert (NZT := INR_nz _ HT). assert (NZL := INR_nz _ HL).
  rewrite (KfProofs.s2_ext _ _ _ (fun t x => cos (2 * PI * (IZR f * INR t / INR NT) + 2 * PI * (IZR (- k) * INR x / INR NL) + b))).
  - rewrite (tot_cos2 (fun t => 2 * PI * (IZR f * INR t / INR NT)) (fun x => 2 * PI * (IZR (- k) * INR x / INR NL))).
    assert (EK : ((- k) mod Z.of_nat NL =? 0)%Z = (k mod Z.of_nat NL =? 0)%Z).
    { destruct (Z.eqb_spec (k mod Z.of_nat NL) 0) as [E|E].
      - apply Z.eqb_eq. apply Z.mod_opp_l_z; [lia|exact E].
      - apply Z.eqb_neq. intro X. apply E. rewrite <- (Z.opp_involutive k). apply Z.mod_opp_l_z; [lia|exact X]. }
    rewrite (tot_ext _ (fun t => (if (k mod Z.of_nat NL =? 0)%Z then INR NL else 0) * cos (2 * PI * (IZR f * INR t / INR NT) + b))).
    + rewrite tot_scale, tot_cosZ by exact HT. destruct (f mod Z.of_nat NT =? 0)%Z, (k mod Z.of_nat NL =? 0)%Z; cbn [andb]; ring.
    + intros t _. rewrite tot_cosZ by exact HL. rewrite EK. destruct (k mod Z.of_nat NL =? 0)%Z; ring.
  - intros t x _ _. f_equal. unfold Phase. rewrite opp_IZR. field. split; assumption.
Qed.
(** The two parts, from the transform. *)
Lemma fft2_parts NT NL M m j r f k : (0 < NT)%nat -> (0 < NL)%nat -> Cong NT j f -> Cong NL r (- k) ->
  fft2 NT NL M m j r = (CosPart NT NL M f k m, - SinPart NT NL M f k m).
Proof.
  intros HT HL [u EU] [v EV]. assert (NZT := INR_nz _ HT). assert (NZL := INR_nz _ HL).
  assert (P : forall t x, turn NT j t + turn NL r x = Phase NT NL f k t x + 2 * PI * IZR (u * Z.of_nat t + v * Z.of_nat x)).
  { intros t x. unfold turn, Phase. rewrite plus_IZR, !mult_IZR, <- !INR_IZR_INZ. rewrite (INR_IZR_INZ j), (INR_IZR_INZ r), EU, EV.
    rewrite !plus_IZR, !mult_IZR, opp_IZR, <- !INR_IZR_INZ. field. split; assumption. }
  unfold fft2, CosPart, SinPart. change rsum with Total. change at3 with Value. rewrite !KfProofs.s2_eq, !sum2_is.
  rewrite (KfProofs.s2_ext _ _ _ (fun t x => Value M t m x * cos (Phase NT NL f k t x))).
  rewrite (KfProofs.s2_ext _ _ (fun t x => Value M t m x * sin _) (fun t x => Value M t m x * sin (Phase NT NL f k t x))).
  - f_equal. field. split; assumption.
  - intros t x _ _. rewrite P, sin_turns. reflexivity.
  - intros t x _ _. rewrite P, cos_turns. reflexivity.
Qed.

(* ---------- the run ---------- *)
Definition FP (NT NM NL : nat) (XX : list (list (list R))) (j r : nat) : R := average NM (fun m => let '(a, b) := fft2 NT NL XX m j r in (a * a + b * b)%R).
Definition FC (NT NM NL : nat) (XX YY : list (list (list R))) (j r : nat) : R :=
  average NM (fun m => let '(a, b) := fft2 NT NL XX m j r in let '(c, d) := fft2 NT NL YY m j r in (c * a + d * b)%R).
Definition FQ (NT NM NL : nat) (XX YY : list (list (list R))) (j r : nat) : R :=
  average NM (fun m => let '(a, b) := fft2 NT NL XX m j r in let '(c, d) := fft2 NT NL YY m j r in (c * b - d * a)%R).
Definition Stc (NT NM NL : nat) (XX YY : list (list (list R))) : list (list (list R)) :=
  [framed 0 NT NL (spectrum NT NL (FP NT NM NL XX)); framed 1 NT NL (spectrum NT NL (FP NT NM NL YY));
   framed 2 NT NL (spectrum NT NL (FC NT NM NL XX YY)); framed 3 NT NL (spectrum NT NL (FQ NT NM NL XX YY))]
  ++ repeat (repeat (repeat 0%R (OddSize NL)) (OddSize NT)) 4.
Lemma grid_regular NT NM NL XX : Grid3 NT NM NL XX -> regular NT NM NL XX = true.
Proof.
  intros [E F]. unfold regular. rewrite E, Nat.eqb_refl. cbn [andb]. apply forallb_forall. intros p I. rewrite Forall_forall in F. destruct (F p I) as [EP FP'].
  rewrite EP, Nat.eqb_refl. cbn [andb]. apply forallb_forall. intros r I'. rewrite Forall_forall in FP'. rewrite (FP' r I'). apply Nat.eqb_refl.
Qed.
Lemma grid_shape NT NM NL XX : (0 < NT)%nat -> (0 < NM)%nat -> Grid3 NT NM NL XX -> shape3 XX = (NT, NM, NL).
Proof.
  intros HT HM [E F]. destruct XX as [|p XX]; [cbn in E; lia|]. unfold shape3. inversion F as [|? ? [EP FP'] _]; subst. destruct p as [|r p]; [cbn in HM; lia|].
  inversion FP'; subst. reflexivity.
Qed.
Lemma seg_run XX YY NT NM NL : (0 < NT)%nat -> (0 < NM)%nat -> (0 < NL)%nat -> Grid3 NT NM NL XX -> Grid3 NT NM NL YY ->
  mjo_cross_segment XX YY = Ok (Stc NT NM NL XX YY).
Proof.
  intros HT HM HL GX GY. unfold mjo_cross_segment. rewrite (grid_shape _ _ _ _ HT HM GX), (grid_shape _ _ _ _ HT HM GY).
  rewrite (grid_regular _ _ _ _ GX), (grid_regular _ _ _ _ GY). cbn [negb orb].
  destruct (Nat.eqb_spec NT 0); [lia|]. destruct (Nat.eqb_spec NM 0); [lia|]. destruct (Nat.eqb_spec NL 0); [lia|]. rewrite !Nat.eqb_refl. reflexivity.
Qed.
Lemma framed_shape which NT NL F : (0 < NT)%nat -> (0 < NL)%nat -> Shape (OddSize NT) (OddSize NL) (framed which NT NL (spectrum NT NL F)).
Proof. intros. rewrite framed_tab by assumption. apply KfProofs.tabulate_shape. Qed.
Lemma FP_cong NT NM NL XX j r f k : (0 < NT)%nat -> (0 < NL)%nat -> Cong NT j f -> Cong NL r (- k) -> FP NT NM NL XX j r = PowerOf NT NM NL XX f k.
Proof. intros. unfold FP, PowerOf, LatMean, average. change rsum with Total. f_equal. apply tot_ext. intros m _. rewrite (fft2_parts NT NL XX m j r f k) by assumption. ring. Qed.
Lemma FC_cong NT NM NL XX YY j r f k : (0 < NT)%nat -> (0 < NL)%nat -> Cong NT j f -> Cong NL r (- k) -> FC NT NM NL XX YY j r = CoOf NT NM NL XX YY f k.
Proof. intros. unfold FC, CoOf, LatMean, average. change rsum with Total. f_equal. apply tot_ext. intros m _. rewrite (fft2_parts NT NL XX m j r f k), (fft2_parts NT NL YY m j r f k) by assumption. ring. Qed.
Lemma FQ_cong NT NM NL XX YY j r f k : (0 < NT)%nat -> (0 < NL)%nat -> Cong NT j f -> Cong NL r (- k) -> FQ NT NM NL XX YY j r = QuadOf NT NM NL XX YY f k.
Proof. intros. unfold FQ, QuadOf, LatMean, average. change rsum with Total. f_equal. apply tot_ext. intros m _. rewrite (fft2_parts NT NL XX m j r f k), (fft2_parts NT NL YY m j r f k) by assumption. ring. Qed.
Lemma stc_at XX YY NT NM NL f k : (0 < NT)%nat -> (0 < NL)%nat -> InRange NT f -> InRange NL k ->
  let i := PlaceOf NT f in let c := PlaceOf NL k in let STC := Stc NT NM NL XX YY in
  At STC 0 i c (PowerOf NT NM NL XX f k) /\
  (~ Last NT NL f -> At STC 1 i c (PowerOf NT NM NL YY f k) /\ At STC 2 i c (CoOf NT NM NL XX YY f k) /\ At STC 3 i c (QuadOf NT NM NL XX YY f k)) /\
  (Last NT NL f -> At STC 1 i c 0 /\ At STC 2 i c 0 /\ At STC 3 i c 0).
Proof.
  intros HT HL RF RK i c STC.
  destruct (framed_entry 0 NT NL (FP NT NM NL XX) (PowerOf NT NM NL XX) f k HT HL (fun j r f k => FP_cong NT NM NL XX j r f k HT HL) RF RK) as [A0 _].
  destruct (framed_entry 1 NT NL (FP NT NM NL YY) (PowerOf NT NM NL YY) f k HT HL (fun j r f k => FP_cong NT NM NL YY j r f k HT HL) RF RK) as [A1 B1].
  destruct (framed_entry 2 NT NL (FC NT NM NL XX YY) (CoOf NT NM NL XX YY) f k HT HL (fun j r f k => FC_cong NT NM NL XX YY j r f k HT HL) RF RK) as [A2 B2].
  destruct (framed_entry 3 NT NL (FQ NT NM NL XX YY) (QuadOf NT NM NL XX YY) f k HT HL (fun j r f k => FQ_cong NT NM NL XX YY j r f k HT HL) RF RK) as [A3 B3].
  split; [|split].
  - eexists. split; [reflexivity|]. apply A0. left. reflexivity.
  - intro N. split; [|split]; (eexists; split; [reflexivity|]); [apply A1|apply A2|apply A3]; right; exact N.
  - intro N. split; [|split]; (eexists; split; [reflexivity|]); [apply B1|apply B2|apply B3]; solve [discriminate|exact N].
Qed.
Lemma stc_shape XX YY NT NM NL : (0 < NT)%nat -> (0 < NL)%nat -> Forall (Shape (OddSize NT) (OddSize NL)) (Stc NT NM NL XX YY).
Proof.
  intros HT HL. unfold Stc. cbn [app]. repeat constructor; try (apply framed_shape; assumption).
  all: try (apply repeat_length). all: apply Forall_forall; intros r I; apply repeat_spec in I; subst; apply repeat_length.
Qed.
Lemma at_fun STC v i c x y : At STC v i c x -> At STC v i c y -> x = y.
Proof. intros (M & E & A) (M' & E' & A'). rewrite E in E'. injection E' as <-. exact (KfProofs.entry_fun _ _ _ _ _ A A'). Qed.
Lemma place_back n i : (0 < n)%nat -> (i < OddSize n)%nat -> InRange n (Z.of_nat i - Z.of_nat (n / 2)) /\ PlaceOf n (Z.of_nat i - Z.of_nat (n / 2)) = i.
Proof.
  intros N I. unfold OddSize in I. unfold InRange, PlaceOf. destruct (Nat.odd n) eqn:O; [pose proof (odd_half n O)|pose proof (even_half n O)]; split; lia.
Qed.
Lemma at_place XX YY NT NM NL v i c y : (0 < NT)%nat -> (0 < NL)%nat -> At (Stc NT NM NL XX YY) v i c y ->
  exists f k, InRange NT f /\ InRange NL k /\ i = PlaceOf NT f /\ c = PlaceOf NL k.
Proof.
  intros HT HL (M & E & A). pose proof (stc_shape XX YY NT NM NL HT HL) as F. rewrite Forall_forall in F. specialize (F M (nth_error_In _ _ E)).
  destruct (KfProofs.entry_bounds _ _ _ _ _ _ F A) as [BI BC]. destruct (place_back NT i HT BI) as [R1 P1]. destruct (place_back NL c HL BC) as [R2 P2].
  exists (Z.of_nat i - Z.of_nat (NT / 2))%Z, (Z.of_nat c - Z.of_nat (NL / 2))%Z. auto.
Qed.
Lemma not_last NT NL f : (0 < NT)%nat -> InRange NT f -> (PlaceOf NT f < NT)%nat -> ~ Last NT NL f.
Proof.
  intros HT RF P (E1 & _ & E3). destruct (place_bound NT f HT RF) as [_ E].
  assert (O : Nat.odd NT = false) by (rewrite <- Nat.negb_even; apply Bool.negb_false_iff, Nat.even_spec; exact E1). pose proof (even_half NT O). lia.
Qed.
Lemma not_last2 NT NL f : (2 * f < Z.of_nat NT)%Z -> ~ Last NT NL f.
Proof. intros H (_ & _ & E). lia. Qed.
(** The averages of the other function. *)
Lemma cross_sums (l : list ((R * R) * (R * R))) (g : nat -> R * R) (h : nat -> R * R) ms : l = map (fun m => (g m, h m)) ms ->
  cross l = (Total (map (fun m => fst (g m) * fst (g m) + snd (g m) * snd (g m)) ms) / INR (length ms),
             Total (map (fun m => fst (h m) * fst (h m) + snd (h m) * snd (h m)) ms) / INR (length ms),
             Total (map (fun m => fst (g m) * fst (h m) + snd (g m) * snd (h m)) ms) / INR (length ms),
             Total (map (fun m => fst (g m) * snd (h m) - snd (g m) * fst (h m)) ms) / INR (length ms)).
Proof.
  intros ->. unfold cross. rewrite map_length. cbv zeta.
  assert (E : forall ms, fold_right (fun p s => quad_plus (match p with ((a, b), (c, d)) => (a * a + b * b, c * c + d * d, a * c + b * d, a * d - b * c) end) s) (0, 0, 0, 0) (map (fun m => (g m, h m)) ms)
    = (Total (map (fun m => fst (g m) * fst (g m) + snd (g m) * snd (g m)) ms), Total (map (fun m => fst (h m) * fst (h m) + snd (h m) * snd (h m)) ms),
       Total (map (fun m => fst (g m) * fst (h m) + snd (g m) * snd (h m)) ms), Total (map (fun m => fst (g m) * snd (h m) - snd (g m) * fst (h m)) ms))).
  { clear ms. induction ms as [|m ms IH]; [reflexivity|]. cbn [map fold_right]. rewrite IH. destruct (g m) as [a b], (h m) as [c d]. reflexivity. }
  rewrite E. cbn [quad_times]. unfold Rdiv. rewrite !(Rmult_comm (/ _)). reflexivity.
Qed.
Definition coefs_at (NT NM NL : nat) (XX YY : list (list (list R))) (f k : Z) :=
  map (fun m => ((CosPart NT NL XX f k m, - SinPart NT NL XX f k m), (CosPart NT NL YY f k m, - SinPart NT NL YY f k m))) (seq 0 NM).
Lemma cross_at XX YY NT NM NL f k :
  cross (coefs_at NT NM NL XX YY f k) = (PowerOf NT NM NL XX f k, PowerOf NT NM NL YY f k, CoOf NT NM NL XX YY f k, - QuadOf NT NM NL XX YY f k).
Proof.
  unfold coefs_at. rewrite (cross_sums _ (fun m => (CosPart NT NL XX f k m, - SinPart NT NL XX f k m)) (fun m => (CosPart NT NL YY f k m, - SinPart NT NL YY f k m)) (seq 0 NM) eq_refl).
  cbn [fst snd]. rewrite seq_length. unfold PowerOf, CoOf, QuadOf, LatMean.
  assert (N : forall g, - (Total (map g (seq 0 NM)) / INR NM) = Total (map (fun m => - g m) (seq 0 NM)) / INR NM).
  { intro g. rewrite (tot_ext (fun m => - g m) (fun m => -1 * g m)) by (intros; ring). rewrite tot_scale. unfold Rdiv. ring. }
  rewrite N. repeat match goal with |- (_, _) = (_, _) => f_equal end; f_equal; apply tot_ext; intros m _; ring.
Qed.
Lemma seg_cone XX YY NT NM NL f k : (0 < NM)%nat ->
  0 <= PowerOf NT NM NL XX f k /\ 0 <= PowerOf NT NM NL YY f k /\
  CoOf NT NM NL XX YY f k * CoOf NT NM NL XX YY f k + QuadOf NT NM NL XX YY f k * QuadOf NT NM NL XX YY f k <= PowerOf NT NM NL XX f k * PowerOf NT NM NL YY f k.
Proof.
  intro HM. assert (NE : coefs_at NT NM NL XX YY f k <> []) by (destruct NM; [lia|discriminate]). pose proof (SpectraProofs.cross_cone _ NE) as K. rewrite cross_at in K.
  destruct K as (A & B & D). split; [exact A|]. split; [exact B|]. lra.
Qed.
Lemma part_neg NT NL XX f k m : CosPart NT NL XX (- f) (- k) m = CosPart NT NL XX f k m /\ SinPart NT NL XX (- f) (- k) m = - SinPart NT NL XX f k m.
Proof.
  assert (P : forall t x, Phase NT NL (- f) (- k) t x = - Phase NT NL f k t x) by (intros; unfold Phase; rewrite !opp_IZR; unfold Rdiv; ring).
  unfold CosPart, SinPart. rewrite !sum2_is. split.
  - f_equal. apply KfProofs.s2_ext. intros t x _ _. rewrite P, cos_neg. reflexivity.
  - rewrite (KfProofs.s2_ext _ _ _ (fun t x => -1 * (Value XX t m x * sin (Phase NT NL f k t x)))).
    + rewrite KfProofs.s2_scale. unfold Rdiv. ring.
    + intros t x _ _. rewrite P, sin_neg. ring.
Qed.
Lemma lat_ext NM g h : (forall m, (m < NM)%nat -> g m = h m) -> LatMean NM g = LatMean NM h.
Proof. intro H. unfold LatMean. f_equal. apply tot_ext. intros m I. apply in_seq in I. apply H. lia. Qed.
Lemma lat_opp NM g : LatMean NM (fun m => - g m) = - LatMean NM g.
Proof. unfold LatMean. rewrite (tot_ext _ (fun m => -1 * g m)) by (intros; ring). rewrite tot_scale. unfold Rdiv. ring. Qed.
Lemma lat_zero NM g : (forall m, (m < NM)%nat -> g m = 0) -> LatMean NM g = 0.
Proof. intro H. unfold LatMean. rewrite tot_zero; [unfold Rdiv; ring|]. intros m I. apply in_seq in I. apply H. lia. Qed.
Lemma lat_const NM c : (0 < NM)%nat -> LatMean NM (fun _ => c) = c.
Proof. intro H. unfold LatMean. rewrite tot_const. field. apply INR_nz. exact H. Qed.

(* ---------- sums over the spectrum ---------- *)
Definition freq_of (n i : nat) : Z := (Z.of_nat i - Z.of_nat (n / 2))%Z.
Definition wave_of (n c : nat) : Z := (Z.of_nat (c + (OddSize n - n)) - Z.of_nat (n / 2))%Z.
Lemma same_mod n a b : (a < n)%nat -> (b < n)%nat -> ((Z.of_nat a - Z.of_nat b) mod Z.of_nat n =? 0)%Z = (b =? a)%nat.
Proof.
  intros A B. destruct (Nat.eqb_spec b a) as [->|D].
  - rewrite Z.sub_diag, Z.mod_0_l by lia. reflexivity.
  - apply Z.eqb_neq. intro X. apply Z.mod_divide in X; [|lia]. destruct X as [q E]. assert (q = 0)%Z by nia. subst. lia.
Qed.
Lemma kernel NT NL t x t' x' b : (t < NT)%nat -> (x < NL)%nat -> (t' < NT)%nat -> (x' < NL)%nat ->
  S2 NT NL (fun i c => cos (Phase NT NL (freq_of NT i) (wave_of NL c) t x - Phase NT NL (freq_of NT i) (wave_of NL c) t' x' + b)) =
  if (t' =? t)%nat && (x' =? x)%nat then INR NT * INR NL * cos b else 0.
Proof.
  intros HT HX HT' HX'. assert (NT0 : (0 < NT)%nat) by lia. assert (NL0 : (0 < NL)%nat) by lia. assert (NZT := INR_nz _ NT0). assert (NZL := INR_nz _ NL0).
  set (dt := (Z.of_nat t - Z.of_nat t')%Z). set (dx := (Z.of_nat x - Z.of_nat x')%Z). set (off := (Z.of_nat (OddSize NL - NL) - Z.of_nat (NL / 2))%Z).
  set (b' := 2 * PI * (- IZR (Z.of_nat (NT / 2)) * IZR dt / INR NT - IZR off * IZR dx / INR NL) + b).
  rewrite (KfProofs.s2_ext _ _ _ (fun i c => cos (Phase NT NL dt dx i c + b'))).
  - rewrite s2_cosZ by assumption. unfold dt, dx. rewrite !same_mod by assumption. destruct (Nat.eqb_spec t' t) as [->|]; [|reflexivity].
    destruct (Nat.eqb_spec x' x) as [->|]; [|reflexivity]. cbn [andb]. f_equal. f_equal. unfold b', dt, dx. rewrite !Z.sub_diag. field. split; assumption.
  - intros i c _ _. f_equal. unfold Phase, b', freq_of, wave_of, dt, dx, off. rewrite Nat2Z.inj_add, !minus_IZR, plus_IZR, <- !INR_IZR_INZ. field. split; assumption.
Qed.
Lemma s2_mul n m n' m' f h : S2 n m f * S2 n' m' h = S2 n m (fun i j => S2 n' m' (fun i' j' => f i j * h i' j')).
Proof.
  rewrite Rmult_comm, <- KfProofs.s2_scale. apply KfProofs.s2_ext. intros i j _ _. rewrite KfProofs.s2_scale. ring.
Qed.
(** The sum over the whole spectrum of the product of two coefficients, one of them turned by [b]. *)
Lemma part_turn NT NL XX YY f k m b : (0 < NT)%nat -> (0 < NL)%nat ->
  (CosPart NT NL XX f k m * CosPart NT NL YY f k m + SinPart NT NL XX f k m * SinPart NT NL YY f k m) * cos b
  + (CosPart NT NL XX f k m * SinPart NT NL YY f k m - SinPart NT NL XX f k m * CosPart NT NL YY f k m) * sin b
  = S2 NT NL (fun t x => S2 NT NL (fun t' x' => Value XX t m x * Value YY t' m x' * cos (Phase NT NL f k t x - Phase NT NL f k t' x' + b)))
    * (/ (INR NT * INR NL) * / (INR NT * INR NL)).
Proof.
  intros HT HL. unfold CosPart, SinPart. rewrite !sum2_is. unfold Rdiv. set (w := / (INR NT * INR NL)).
  set (vc := fun t x => Value XX t m x * cos (Phase NT NL f k t x)). set (vs := fun t x => Value XX t m x * sin (Phase NT NL f k t x)).
  set (yc := fun t x => Value YY t m x * cos (Phase NT NL f k t x)). set (ys := fun t x => Value YY t m x * sin (Phase NT NL f k t x)).
  transitivity ((S2 NT NL vc * S2 NT NL yc * cos b + S2 NT NL vs * S2 NT NL ys * cos b + S2 NT NL vc * S2 NT NL ys * sin b + (-1) * sin b * (S2 NT NL vs * S2 NT NL yc)) * (w * w)); [ring|].
  f_equal. rewrite !s2_mul. rewrite !(Rmult_comm _ (cos b)), !(Rmult_comm _ (sin b)), <- !KfProofs.s2_scale, <- !KfProofs.s2_plus.
  apply KfProofs.s2_ext. intros t x _ _. rewrite <- !KfProofs.s2_scale, <- !KfProofs.s2_plus. apply KfProofs.s2_ext. intros t' x' _ _.
  unfold vc, vs, yc, ys. rewrite cos_plus, cos_minus, sin_minus. ring.
Qed.
Lemma whole_sum NT NL XX YY m b : (0 < NT)%nat -> (0 < NL)%nat ->
  S2 NT NL (fun i c => let f := freq_of NT i in let k := wave_of NL c in
    (CosPart NT NL XX f k m * CosPart NT NL YY f k m + SinPart NT NL XX f k m * SinPart NT NL YY f k m) * cos b
    + (CosPart NT NL XX f k m * SinPart NT NL YY f k m - SinPart NT NL XX f k m * CosPart NT NL YY f k m) * sin b)
  = cos b * (S2 NT NL (fun t x => Value XX t m x * Value YY t m x) / (INR NT * INR NL)).
Proof.
  intros HT HL. assert (NZT := INR_nz _ HT). assert (NZL := INR_nz _ HL). cbv zeta.
  rewrite (KfProofs.s2_ext _ _ _ (fun i c => (/ (INR NT * INR NL) * / (INR NT * INR NL)) * S2 NT NL (fun t x => S2 NT NL (fun t' x' =>
     Value XX t m x * Value YY t' m x' * cos (Phase NT NL (freq_of NT i) (wave_of NL c) t x - Phase NT NL (freq_of NT i) (wave_of NL c) t' x' + b))))).
  2:{ intros i c _ _. rewrite part_turn by assumption. ring. }
  rewrite KfProofs.s2_scale, KfProofs.s2_swap.
  rewrite (KfProofs.s2_ext _ _ _ (fun t x => INR NT * INR NL * cos b * (Value XX t m x * Value YY t m x))).
  - rewrite KfProofs.s2_scale. field. split; assumption.
  - intros t x T X. rewrite KfProofs.s2_swap.
    rewrite (KfProofs.s2_ext _ _ _ (fun t' x' => if (t' =? t)%nat && (x' =? x)%nat then INR NT * INR NL * cos b * (Value XX t m x * Value YY t' m x') else 0)).
    + rewrite (KfProofs.s2_one NT NL (fun t' x' => INR NT * INR NL * cos b * (Value XX t m x * Value YY t' m x'))) by assumption. reflexivity.
    + intros t' x' T' X'. rewrite KfProofs.s2_scale, kernel by assumption. destruct ((t' =? t)%nat && (x' =? x)%nat); ring.
Qed.
Lemma lat_sum NT NL NM (g : nat -> nat -> nat -> R) : S2 NT NL (fun i c => LatMean NM (g i c)) = LatMean NM (fun m => S2 NT NL (fun i c => g i c m)).
Proof.
  unfold LatMean. unfold Rdiv. rewrite (KfProofs.s2_ext _ _ _ (fun i c => / INR NM * Total (map (g i c) (seq 0 NM)))) by (intros; ring).
  rewrite KfProofs.s2_scale, Rmult_comm. f_equal. unfold KfProofs.S2. apply (tot_swap (fun p m => g (fst p) (snd p) m)).
Qed.
Lemma once_entry NT NL which F G : (0 < NT)%nat -> (0 < NL)%nat -> (forall j r f k, Cong NT j f -> Cong NL r (- k) -> F j r = G f k) ->
  Sum2 NT NL (fun i c => nth (c + (OddSize NL - NL)) (nth i (framed which NT NL (spectrum NT NL F)) []) 0) = S2 NT NL (fun i c => G (freq_of NT i) (wave_of NL c)).
Proof.
  intros HT HL HF. rewrite sum2_is. apply KfProofs.s2_ext. intros i c I J.
  assert (OT : (NT <= OddSize NT)%nat) by (unfold OddSize; destruct (Nat.odd NT); lia). assert (OL : (NL <= OddSize NL)%nat) by (unfold OddSize; destruct (Nat.odd NL); lia).
  destruct (place_back NT i HT ltac:(lia)) as [R1 P1]. destruct (place_back NL (c + (OddSize NL - NL)) HL ltac:(lia)) as [R2 P2].
  destruct (framed_entry which NT NL F G _ _ HT HL HF R1 R2) as [A _].
  destruct A as (row & E1 & E2); [right; apply not_last; [exact HT|exact R1|rewrite P1; exact I]|]. rewrite P1 in E1. rewrite P2 in E2.
  rewrite (nth_error_nth _ _ _ E1), (nth_error_nth _ _ _ E2). reflexivity.
Qed.

(* ---------- one wave ---------- *)
Lemma phase_plus NT NL f k f' k' t x : Phase NT NL f k t x + Phase NT NL f' k' t x = Phase NT NL (f + f') (k + k') t x.
Proof. unfold Phase. rewrite !plus_IZR. unfold Rdiv. ring. Qed.
Lemma phase_minus NT NL f k f' k' t x : Phase NT NL f k t x - Phase NT NL f' k' t x = Phase NT NL (f - f') (k - k') t x.
Proof. unfold Phase. rewrite !minus_IZR. unfold Rdiv. ring. Qed.
Definition zero_mod (n : nat) (z : Z) : bool := (z mod Z.of_nat n =? 0)%Z.
Lemma wave_parts NT NM NL a f0 k0 phi XX f k m : (0 < NT)%nat -> (0 < NL)%nat -> EastwardWave NT NM NL a f0 k0 phi XX -> (m < NM)%nat ->
  let plus := zero_mod NT (f0 + f) && zero_mod NL (k0 + k) in let minus := zero_mod NT (f0 - f) && zero_mod NL (k0 - k) in
  CosPart NT NL XX f k m = a / 2 * cos phi * ((if plus then 1 else 0) + (if minus then 1 else 0)) /\
  SinPart NT NL XX f k m = a / 2 * sin phi * ((if minus then 1 else 0) - (if plus then 1 else 0)).
Proof.
  intros HT HL [_ W] HM plus minus. assert (NZT := INR_nz _ HT). assert (NZL := INR_nz _ HL).
  assert (V : forall t x, (t < NT)%nat -> (x < NL)%nat -> Value XX t m x = a * cos (Phase NT NL f0 k0 t x - phi)).
  { intros t x T X. rewrite W by assumption. f_equal. rewrite <- cos_neg. f_equal. unfold Phase. ring. }
  unfold CosPart, SinPart. rewrite !sum2_is. split.
  - rewrite (KfProofs.s2_ext _ _ _ (fun t x => a / 2 * (cos (Phase NT NL (f0 + f) (k0 + k) t x + - phi) + cos (Phase NT NL (f0 - f) (k0 - k) t x + - phi)))).
    + rewrite KfProofs.s2_scale, KfProofs.s2_plus, !s2_cosZ by assumption. fold (zero_mod NT (f0 + f)) (zero_mod NT (f0 - f)) (zero_mod NL (k0 + k)) (zero_mod NL (k0 - k)).
      fold plus minus. rewrite cos_neg. destruct plus, minus; field; split; assumption.
    + intros t x T X. rewrite V by assumption. rewrite <- phase_plus, <- phase_minus. set (p := Phase NT NL f0 k0 t x). set (q := Phase NT NL f k t x).
      replace (p + q + - phi) with ((p - phi) + q) by ring. replace (p - q + - phi) with ((p - phi) - q) by ring. set (u := p - phi). rewrite cos_plus, cos_minus. field.
  - rewrite (KfProofs.s2_ext _ _ _ (fun t x => a / 2 * (cos (Phase NT NL (f0 + f) (k0 + k) t x + (- phi - PI / 2)) + -1 * cos (Phase NT NL (f0 - f) (k0 - k) t x + (- phi - PI / 2))))).
    + rewrite KfProofs.s2_scale, KfProofs.s2_plus, KfProofs.s2_scale, !s2_cosZ by assumption. fold (zero_mod NT (f0 + f)) (zero_mod NT (f0 - f)) (zero_mod NL (k0 + k)) (zero_mod NL (k0 - k)).
      fold plus minus. replace (cos (- phi - PI / 2)) with (- sin phi). destruct plus, minus; field; split; assumption.
      replace (- phi - PI / 2) with (- (PI / 2 + phi)) by ring. rewrite cos_neg, cos_plus, cos_PI2, sin_PI2. ring.
    + assert (S' : forall y, cos (y - PI / 2) = sin y) by (intro y; rewrite cos_minus, cos_PI2, sin_PI2; ring).
      intros t x T X. rewrite V by assumption. rewrite <- phase_plus, <- phase_minus. set (p := Phase NT NL f0 k0 t x). set (q := Phase NT NL f k t x).
      replace (p + q + (- phi - PI / 2)) with (((p - phi) + q) - PI / 2) by ring. replace (p - q + (- phi - PI / 2)) with (((p - phi) - q) - PI / 2) by ring.
      set (u := p - phi). rewrite !S', sin_plus, sin_minus. field.
Qed.
Lemma zero_mod_small n z : (0 < n)%nat -> (- Z.of_nat n < z < Z.of_nat n)%Z -> zero_mod n z = true <-> z = 0%Z.
Proof.
  intros N B. unfold zero_mod. rewrite Z.eqb_eq. split.
  - intro X. apply Z.mod_divide in X; [|lia]. destruct X as [q E]. assert (q = 0)%Z by nia. subst. lia.
  - intros ->. apply Z.mod_0_l. lia.
Qed.

(** The statements of PropertiesSeg.v. *)
Lemma C127_spectra_proof : forall XX YY NT NM NL, (0 < NT)%nat -> (0 < NM)%nat -> (0 < NL)%nat -> Grid3 NT NM NL XX -> Grid3 NT NM NL YY ->
  exists STC, mjo_cross_segment XX YY = Ok STC /\ length STC = 8%nat /\ Forall (Shape (OddSize NT) (OddSize NL)) STC /\
    (forall f k, InRange NT f -> InRange NL k ->
       let i := PlaceOf NT f in let c := PlaceOf NL k in
       let last := Nat.Even NT /\ Nat.Even NL /\ (2 * f = Z.of_nat NT)%Z in
       At STC 0 i c (PowerOf NT NM NL XX f k) /\
       (~ last -> At STC 1 i c (PowerOf NT NM NL YY f k) /\ At STC 2 i c (CoOf NT NM NL XX YY f k) /\ At STC 3 i c (QuadOf NT NM NL XX YY f k)) /\
       (last -> At STC 1 i c 0 /\ At STC 2 i c 0 /\ At STC 3 i c 0)) /\
    (forall v i c y, (4 <= v)%nat -> At STC v i c y -> y = 0).
Proof.
  intros XX YY NT NM NL HT HM HL GX GY. exists (Stc NT NM NL XX YY). split; [apply seg_run; assumption|]. split; [reflexivity|].
  split; [apply stc_shape; assumption|]. split.
  - intros f k RF RK. apply stc_at; assumption.
  - intros v i c y V (M & E & row & E1 & E2). assert (M = repeat (repeat 0 (OddSize NL)) (OddSize NT)).
    { unfold Stc in E. do 4 (destruct v as [|v]; [lia|]). cbn [app nth_error] in E. apply nth_error_In in E. apply repeat_spec in E. exact E. }
    subst. apply nth_error_In in E1. apply repeat_spec in E1. subst. apply nth_error_In in E2. apply repeat_spec in E2. exact E2.
Qed.

Lemma C127_spectra_case_proof : Grid3 2 1 3 [[[1; 2; 3]]; [[4; 5; 6]]] /\ InRange 2 1 /\ InRange 3 (-1) /\
  ~ (Nat.Even 2 /\ Nat.Even 3 /\ (2 * 1 = Z.of_nat 2)%Z) /\ Nat.Even 2 /\ Nat.Even 4 /\ (2 * 1 = Z.of_nat 2)%Z.
Proof.
  repeat split; try (repeat constructor); try (unfold InRange; lia); try (exists 1%nat; reflexivity); try (exists 2%nat; reflexivity).
  intros (_ & E & _). apply Nat.even_spec in E. discriminate.
Qed.

Lemma C127_last_refuted_proof : ~ (forall XX YY NT NM NL STC f k, (0 < NT)%nat -> (0 < NM)%nat -> (0 < NL)%nat -> Grid3 NT NM NL XX ->
  Grid3 NT NM NL YY -> mjo_cross_segment XX YY = Ok STC -> InRange NT f -> InRange NL k ->
  At STC 1 (PlaceOf NT f) (PlaceOf NL k) (PowerOf NT NM NL YY f k)).
Proof.
  intro H. set (XX := [[[1; 0]]; [[0; 0]]]). assert (G : Grid3 2 1 2 XX) by (repeat split; repeat constructor).
  assert (RF : InRange 2 1) by (unfold InRange; lia). assert (RK : InRange 2 0) by (unfold InRange; lia).
  specialize (H XX XX 2%nat 1%nat 2%nat (Stc 2 1 2 XX XX) 1%Z 0%Z ltac:(lia) ltac:(lia) ltac:(lia) G G (seg_run XX XX 2 1 2 ltac:(lia) ltac:(lia) ltac:(lia) G G) RF RK).
  destruct (stc_at XX XX 2 1 2 1 0 ltac:(lia) ltac:(lia) RF RK) as (_ & _ & L). destruct L as (L & _); [repeat split; exists 1%nat; reflexivity|].
  pose proof (at_fun _ _ _ _ _ _ H L) as E. unfold PowerOf, LatMean in E. cbn [seq map] in E.
  assert (EC : CosPart 2 2 XX 1 0 0 = 1 / 4).
  { unfold CosPart, Sum2. cbn [seq map Total fold_right]. unfold Value, XX. cbn [nth]. replace (Phase 2 2 1 0 0 0) with 0. rewrite cos_0. replace (INR 2) with 2 by (cbn; lra). field.
    unfold Phase. cbn [INR]. lra. }
  rewrite EC in E. unfold Total in E. cbn [fold_right INR] in E. pose proof (Rle_0_sqr (SinPart 2 2 XX 1 0 0)) as P. unfold Rsqr in P. lra.
Qed.

Lemma C127_refused_proof : forall XX YY NT NM NL NT' NM' NL', Grid3 NT NM NL XX -> Grid3 NT' NM' NL' YY ->
  (0 < NM)%nat -> (0 < NM')%nat ->
  ((1 < NT)%nat -> (1 < NM)%nat -> (1 < NL)%nat -> (1 < NT')%nat -> (1 < NM')%nat -> (1 < NL')%nat -> (NT, NM, NL) <> (NT', NM', NL') ->
   mjo_cross_segment XX YY = Err ValueError) /\
  ((0 < NT)%nat -> NL = 0%nat -> mjo_cross_segment XX YY = Err ValueError) /\ (NT = 0%nat -> mjo_cross_segment XX YY = Err ValueError).
Proof.
  intros XX YY NT NM NL NT' NM' NL' GX GY HM HM'. split; [|split].
  - intros A1 A2 A3 B1 B2 B3 NE. unfold mjo_cross_segment. rewrite (grid_shape NT NM NL XX), (grid_shape NT' NM' NL' YY) by (assumption || lia).
    rewrite (grid_regular _ _ _ _ GX), (grid_regular _ _ _ _ GY). cbn [negb orb existsb].
    repeat match goal with |- context [(?n =? 0)%nat] => destruct (Nat.eqb_spec n 0); [lia|] end. cbn [orb].
    replace ((NT =? NT')%nat && (NM =? NM')%nat && (NL =? NL')%nat) with false.
    + cbn [negb]. repeat match goal with |- context [(1 =? ?n)%nat] => destruct (Nat.eqb_spec 1 n); [lia|] end. reflexivity.
    + destruct (Nat.eqb_spec NT NT'); [|reflexivity]. destruct (Nat.eqb_spec NM NM'); [|reflexivity]. destruct (Nat.eqb_spec NL NL'); [|reflexivity]. subst. destruct (NE eq_refl).
  - intros HT ->. unfold mjo_cross_segment. rewrite (grid_shape NT NM 0 XX) by assumption. rewrite (grid_regular _ _ _ _ GX).
    destruct NT' as [|n].
    + destruct GY as [EY FY]. destruct YY; [|discriminate]. cbn [shape3]. cbn. destruct NT; [lia|]. cbn. reflexivity.
    + rewrite (grid_shape (S n) NM' NL' YY) by (assumption || lia). rewrite (grid_regular _ _ _ _ GY). cbn [negb orb].
      destruct NT; [lia|]. destruct NM; [lia|]. destruct NM'; [lia|]. reflexivity.
  - intros ->. destruct GX as [EX FX]. destruct XX; [|discriminate]. unfold mjo_cross_segment. cbn [shape3]. change (regular 0 0 0 []) with true. cbn [negb orb].
    destruct NT' as [|n].
    + destruct GY as [EY FY]. destruct YY; [|discriminate]. reflexivity.
    + rewrite (grid_shape (S n) NM' NL' YY) by (assumption || lia). rewrite (grid_regular _ _ _ _ GY). reflexivity.
Qed.

Lemma C127_refused_case_proof : Grid3 2 2 2 [[[1; 2]; [2; 3]]; [[4; 5]; [5; 6]]] /\ Grid3 2 2 3 [[[1; 2; 3]; [1; 2; 3]]; [[4; 5; 6]; [4; 5; 6]]] /\
  (2, 2, 2)%nat <> (2, 2, 3)%nat /\ Grid3 1 1 0 [[[]]] /\ Grid3 0 1 1 [].
Proof.
  split; [repeat split; repeat constructor|]. split; [repeat split; repeat constructor|]. split; [discriminate|]. repeat split; repeat constructor.
Qed.

Lemma C128_bounds_proof : forall XX YY NT NM NL STC i c px py co qu, (0 < NT)%nat -> (0 < NM)%nat -> (0 < NL)%nat -> Grid3 NT NM NL XX ->
  Grid3 NT NM NL YY -> mjo_cross_segment XX YY = Ok STC -> At STC 0 i c px -> At STC 1 i c py -> At STC 2 i c co -> At STC 3 i c qu ->
  0 <= px /\ 0 <= py /\ co * co + qu * qu <= px * py.
Proof.
  intros XX YY NT NM NL STC i c px py co qu HT HM HL GX GY E A0 A1 A2 A3. rewrite (seg_run XX YY NT NM NL) in E by assumption. injection E as <-.
  destruct (at_place _ _ _ _ _ _ _ _ _ HT HL A0) as (f & k & RF & RK & -> & ->). destruct (stc_at XX YY NT NM NL f k HT HL RF RK) as (B0 & B & L).
  pose proof (seg_cone XX YY NT NM NL f k HM) as (K1 & K2 & K3). rewrite (at_fun _ _ _ _ _ _ A0 B0).
  assert (D : Last NT NL f \/ ~ Last NT NL f).
  { unfold Last. destruct (Z.eq_dec (2 * f) (Z.of_nat NT)); [|right; tauto]. destruct (Nat.Even_or_Odd NT) as [|O]; [|right; intros (V & _); destruct (Nat.Even_Odd_False _ V O)].
    destruct (Nat.Even_or_Odd NL) as [|O]; [left; auto|right; intros (_ & V & _); destruct (Nat.Even_Odd_False _ V O)]. }
  destruct D as [D|D].
  - destruct (L D) as (B1 & B2 & B3). rewrite (at_fun _ _ _ _ _ _ A1 B1), (at_fun _ _ _ _ _ _ A2 B2), (at_fun _ _ _ _ _ _ A3 B3). lra.
  - destruct (B D) as (B1 & B2 & B3). rewrite (at_fun _ _ _ _ _ _ A1 B1), (at_fun _ _ _ _ _ _ A2 B2), (at_fun _ _ _ _ _ _ A3 B3). auto.
Qed.

Lemma C128_bounds_case_proof : exists STC px py co qu, Grid3 1 1 1 [[[2]]] /\ Grid3 1 1 1 [[[3]]] /\ mjo_cross_segment [[[2]]] [[[3]]] = Ok STC /\
  At STC 0 0 0 px /\ At STC 1 0 0 py /\ At STC 2 0 0 co /\ At STC 3 0 0 qu.
Proof.
  assert (G1 : Grid3 1 1 1 [[[2]]]) by (repeat split; repeat constructor). assert (G2 : Grid3 1 1 1 [[[3]]]) by (repeat split; repeat constructor).
  destruct (stc_at [[[2]]] [[[3]]] 1 1 1 0 0 ltac:(lia) ltac:(lia)) as (B0 & B & _); [unfold InRange; lia|unfold InRange; lia|].
  destruct B as (B1 & B2 & B3); [apply not_last2; lia|]. change (PlaceOf 1 0) with 0%nat in *.
  exists (Stc 1 1 1 [[[2]]] [[[3]]]), (PowerOf 1 1 1 [[[2]]] 0 0), (PowerOf 1 1 1 [[[3]]] 0 0), (CoOf 1 1 1 [[[2]]] [[[3]]] 0 0), (QuadOf 1 1 1 [[[2]]] [[[3]]] 0 0).
  split; [exact G1|]. split; [exact G2|]. split; [apply seg_run; (assumption || lia)|]. auto.
Qed.

Lemma C128_symmetry_proof : forall XX YY NT NM NL STC, (0 < NT)%nat -> (0 < NM)%nat -> (0 < NL)%nat -> Grid3 NT NM NL XX -> Grid3 NT NM NL YY ->
  mjo_cross_segment XX YY = Ok STC ->
  (XX = YY -> forall i c p, (i < NT)%nat -> At STC 0 i c p -> At STC 1 i c p /\ At STC 2 i c p /\ At STC 3 i c 0) /\
  (exists STC', mjo_cross_segment YY XX = Ok STC' /\ forall i c px py co qu, (i < NT)%nat ->
     At STC 0 i c px -> At STC 1 i c py -> At STC 2 i c co -> At STC 3 i c qu ->
     At STC' 0 i c py /\ At STC' 1 i c px /\ At STC' 2 i c co /\ At STC' 3 i c (- qu)) /\
  (forall f k px py co qu, (- Z.of_nat NT < 2 * f < Z.of_nat NT)%Z -> InRange NL k ->
     At STC 0 (PlaceOf NT f) (PlaceOf NL k) px -> At STC 1 (PlaceOf NT f) (PlaceOf NL k) py ->
     At STC 2 (PlaceOf NT f) (PlaceOf NL k) co -> At STC 3 (PlaceOf NT f) (PlaceOf NL k) qu ->
     At STC 0 (PlaceOf NT (- f)) (PlaceOf NL (- k)) px /\ At STC 1 (PlaceOf NT (- f)) (PlaceOf NL (- k)) py /\
     At STC 2 (PlaceOf NT (- f)) (PlaceOf NL (- k)) co /\ At STC 3 (PlaceOf NT (- f)) (PlaceOf NL (- k)) (- qu)).
Proof.
  intros XX YY NT NM NL STC HT HM HL GX GY E. rewrite (seg_run XX YY NT NM NL) in E by assumption. injection E as <-. split; [|split].
  - intros <- i c p I A. destruct (at_place _ _ _ _ _ _ _ _ _ HT HL A) as (f & k & RF & RK & -> & ->).
    destruct (stc_at XX XX NT NM NL f k HT HL RF RK) as (B0 & B & _). destruct (B (not_last _ _ _ HT RF I)) as (B1 & B2 & B3).
    rewrite (at_fun _ _ _ _ _ _ A B0). split; [exact B1|]. split; [exact B2|]. replace 0 with (QuadOf NT NM NL XX XX f k); [exact B3|].
    apply lat_zero. intros m _. ring.
  - exists (Stc NT NM NL YY XX). split; [apply seg_run; assumption|]. intros i c px py co qu I A0 A1 A2 A3.
    destruct (at_place _ _ _ _ _ _ _ _ _ HT HL A0) as (f & k & RF & RK & -> & ->). pose proof (not_last _ NL _ HT RF I) as NLst.
    destruct (stc_at XX YY NT NM NL f k HT HL RF RK) as (B0 & B & _). destruct (B NLst) as (B1 & B2 & B3).
    destruct (stc_at YY XX NT NM NL f k HT HL RF RK) as (D0 & D & _). destruct (D NLst) as (D1 & D2 & D3).
    rewrite (at_fun _ _ _ _ _ _ A0 B0), (at_fun _ _ _ _ _ _ A1 B1), (at_fun _ _ _ _ _ _ A2 B2), (at_fun _ _ _ _ _ _ A3 B3).
    split; [exact D0|]. split; [exact D1|]. split.
    + replace (CoOf NT NM NL XX YY f k) with (CoOf NT NM NL YY XX f k); [exact D2|]. apply lat_ext. intros m _. ring.
    + replace (- QuadOf NT NM NL XX YY f k) with (QuadOf NT NM NL YY XX f k); [exact D3|]. unfold QuadOf. rewrite <- lat_opp. apply lat_ext. intros m _. ring.
  - intros f k px py co qu RF RK A0 A1 A2 A3. assert (RF1 : InRange NT f) by (unfold InRange; lia). assert (RF2 : InRange NT (- f)) by (unfold InRange; lia).
    assert (RK2 : InRange NL (- k)) by (unfold InRange in *; lia).
    destruct (stc_at XX YY NT NM NL f k HT HL RF1 RK) as (B0 & B & _). destruct B as (B1 & B2 & B3); [apply not_last2; lia|].
    destruct (stc_at XX YY NT NM NL (- f) (- k) HT HL RF2 RK2) as (D0 & D & _). destruct D as (D1 & D2 & D3); [apply not_last2; lia|].
    rewrite (at_fun _ _ _ _ _ _ A0 B0), (at_fun _ _ _ _ _ _ A1 B1), (at_fun _ _ _ _ _ _ A2 B2), (at_fun _ _ _ _ _ _ A3 B3).
    assert (P : forall ZZ, PowerOf NT NM NL ZZ (- f) (- k) = PowerOf NT NM NL ZZ f k).
    { intro ZZ. apply lat_ext. intros m _. destruct (part_neg NT NL ZZ f k m) as [-> ->]. ring. }
    rewrite !P in *. split; [exact D0|]. split; [exact D1|]. split.
    + replace (CoOf NT NM NL XX YY f k) with (CoOf NT NM NL XX YY (- f) (- k)); [exact D2|]. apply lat_ext. intros m _.
      destruct (part_neg NT NL XX f k m) as [-> ->]. destruct (part_neg NT NL YY f k m) as [-> ->]. ring.
    + replace (- QuadOf NT NM NL XX YY f k) with (QuadOf NT NM NL XX YY (- f) (- k)); [exact D3|]. unfold QuadOf. rewrite <- lat_opp. apply lat_ext. intros m _.
      destruct (part_neg NT NL XX f k m) as [-> ->]. destruct (part_neg NT NL YY f k m) as [-> ->]. ring.
Qed.

Lemma C128_symmetry_case_proof : exists STC, Grid3 3 1 3 (repeat [[1; 2; 3]] 3) /\ mjo_cross_segment (repeat [[1; 2; 3]] 3) (repeat [[1; 2; 3]] 3) = Ok STC /\
  (- Z.of_nat 3 < 2 * 1 < Z.of_nat 3)%Z /\ InRange 3 1 /\ exists p, At STC 0 1 1 p.
Proof.
  assert (G : Grid3 3 1 3 (repeat [[1; 2; 3]] 3)) by (repeat split; repeat constructor).
  exists (Stc 3 1 3 (repeat [[1; 2; 3]] 3) (repeat [[1; 2; 3]] 3)). split; [exact G|]. split; [apply seg_run; (assumption || lia)|]. split; [lia|]. split; [unfold InRange; lia|].
  destruct (stc_at (repeat [[1; 2; 3]] 3) (repeat [[1; 2; 3]] 3) 3 1 3 0 0 ltac:(lia) ltac:(lia)) as (B0 & _); [unfold InRange; lia|unfold InRange; lia|].
  eexists. exact B0.
Qed.

Lemma C128_sign_refuted_proof : forall XX YY NT NM NL STC f k qu, (0 < NT)%nat -> (0 < NM)%nat -> (0 < NL)%nat -> Grid3 NT NM NL XX ->
  Grid3 NT NM NL YY -> mjo_cross_segment XX YY = Ok STC -> (- Z.of_nat NT < 2 * f < Z.of_nat NT)%Z -> InRange NL k ->
  At STC 3 (PlaceOf NT f) (PlaceOf NL k) qu ->
  let coefficients := map (fun m => ((CosPart NT NL XX f k m, - SinPart NT NL XX f k m), (CosPart NT NL YY f k m, - SinPart NT NL YY f k m))) (seq 0 NM) in
  exists px py co, cross coefficients = (px, py, co, - qu) /\
    At STC 0 (PlaceOf NT f) (PlaceOf NL k) px /\ At STC 1 (PlaceOf NT f) (PlaceOf NL k) py /\ At STC 2 (PlaceOf NT f) (PlaceOf NL k) co.
Proof.
  intros XX YY NT NM NL STC f k qu HT HM HL GX GY E RF RK A coefficients. rewrite (seg_run XX YY NT NM NL) in E by assumption. injection E as <-.
  assert (RF1 : InRange NT f) by (unfold InRange; lia). destruct (stc_at XX YY NT NM NL f k HT HL RF1 RK) as (B0 & B & _). destruct B as (B1 & B2 & B3); [apply not_last2; lia|].
  rewrite (at_fun _ _ _ _ _ _ A B3). exists (PowerOf NT NM NL XX f k), (PowerOf NT NM NL YY f k), (CoOf NT NM NL XX YY f k). split; [apply cross_at|]. auto.
Qed.

Lemma C128_sign_refuted_case_proof : exists STC qu, Grid3 3 1 3 (repeat [[1; 2; 3]] 3) /\ mjo_cross_segment (repeat [[1; 2; 3]] 3) (repeat [[1; 2; 3]] 3) = Ok STC /\
  (- Z.of_nat 3 < 2 * 1 < Z.of_nat 3)%Z /\ InRange 3 1 /\ At STC 3 (PlaceOf 3 1) (PlaceOf 3 1) qu.
Proof.
  assert (G : Grid3 3 1 3 (repeat [[1; 2; 3]] 3)) by (repeat split; repeat constructor).
  destruct (stc_at (repeat [[1; 2; 3]] 3) (repeat [[1; 2; 3]] 3) 3 1 3 1 1 ltac:(lia) ltac:(lia)) as (_ & B & _); [unfold InRange; lia|unfold InRange; lia|].
  destruct B as (_ & _ & B3); [apply not_last2; lia|].
  exists (Stc 3 1 3 (repeat [[1; 2; 3]] 3) (repeat [[1; 2; 3]] 3)). eexists. split; [exact G|]. split; [apply seg_run; (assumption || lia)|]. split; [lia|]. split; [unfold InRange; lia|].
  exact B3.
Qed.

Lemma C129_sums_proof : forall XX YY NT NM NL STC px py co qu, (0 < NT)%nat -> (0 < NM)%nat -> (0 < NL)%nat -> Grid3 NT NM NL XX ->
  Grid3 NT NM NL YY -> mjo_cross_segment XX YY = Ok STC ->
  nth_error STC 0 = Some px -> nth_error STC 1 = Some py -> nth_error STC 2 = Some co -> nth_error STC 3 = Some qu ->
  let once (M : list (list R)) := Sum2 NT NL (fun i c => nth (c + (OddSize NL - NL)) (nth i M []) 0) in
  let mean (g : nat -> nat -> nat -> R) := LatMean NM (fun m => Sum2 NT NL (fun t x => g t m x) / (INR NT * INR NL)) in
  once px = mean (fun t m x => Value XX t m x * Value XX t m x) /\
  once py = mean (fun t m x => Value YY t m x * Value YY t m x) /\
  once co = mean (fun t m x => Value XX t m x * Value YY t m x) /\
  once qu = 0.
Proof.
  intros XX YY NT NM NL STC px py co qu HT HM HL GX GY E E0 E1 E2 E3 once mean. rewrite (seg_run XX YY NT NM NL) in E by assumption. injection E as <-.
  cbn [Stc app nth_error] in E0, E1, E2, E3. injection E0 as <-. injection E1 as <-. injection E2 as <-. injection E3 as <-. unfold once, mean. clear once mean.
  rewrite (once_entry NT NL 0 _ _ HT HL (fun j r f k => FP_cong NT NM NL XX j r f k HT HL)).
  rewrite (once_entry NT NL 1 _ _ HT HL (fun j r f k => FP_cong NT NM NL YY j r f k HT HL)).
  rewrite (once_entry NT NL 2 _ _ HT HL (fun j r f k => FC_cong NT NM NL XX YY j r f k HT HL)).
  rewrite (once_entry NT NL 3 _ _ HT HL (fun j r f k => FQ_cong NT NM NL XX YY j r f k HT HL)).
  assert (P : forall XX YY, S2 NT NL (fun i c => CoOf NT NM NL XX YY (freq_of NT i) (wave_of NL c)) = LatMean NM (fun m => Sum2 NT NL (fun t x => Value XX t m x * Value YY t m x) / (INR NT * INR NL))).
  { intros X Y. unfold CoOf. rewrite lat_sum. apply lat_ext. intros m _. rewrite sum2_is. pose proof (whole_sum NT NL X Y m 0 HT HL) as W. cbv zeta in W.
    rewrite cos_0, sin_0, Rmult_1_l in W. rewrite <- W. apply KfProofs.s2_ext. intros i c _ _. ring. }
  split; [exact (P XX XX)|]. split; [exact (P YY YY)|]. split; [exact (P XX YY)|].
  unfold QuadOf. rewrite lat_sum. apply lat_zero. intros m _. pose proof (whole_sum NT NL XX YY m (PI / 2) HT HL) as W. cbv zeta in W.
  rewrite cos_PI2, sin_PI2, Rmult_0_l in W. rewrite <- W. apply KfProofs.s2_ext. intros i c _ _. ring.
Qed.

Lemma C129_sums_case_proof : exists STC, Grid3 2 1 2 [[[1; 2]]; [[3; 4]]] /\ mjo_cross_segment [[[1; 2]]; [[3; 4]]] [[[1; 2]]; [[3; 4]]] = Ok STC.
Proof.
  assert (G : Grid3 2 1 2 [[[1; 2]]; [[3; 4]]]) by (repeat split; repeat constructor). eexists. split; [exact G|]. apply (seg_run _ _ 2 1 2); (assumption || lia).
Qed.

Lemma C129_wave_proof : forall XX YY NT NM NL a f0 k0 phi STC f k p, (0 < NM)%nat -> EastwardWave NT NM NL a f0 k0 phi XX -> Grid3 NT NM NL YY ->
  (0 < 2 * f0 < Z.of_nat NT)%Z -> (- Z.of_nat NL < 2 * k0 < Z.of_nat NL)%Z ->
  mjo_cross_segment XX YY = Ok STC -> InRange NT f -> InRange NL k -> At STC 0 (PlaceOf NT f) (PlaceOf NL k) p ->
  ((f = f0 /\ k = k0) \/ (f = - f0 /\ k = - k0)%Z -> p = a * a / 4) /\
  (~ ((f = f0 /\ k = k0) \/ (f = - f0 /\ k = - k0)%Z) -> p = 0).
Proof.
  intros XX YY NT NM NL a f0 k0 phi STC f k p HM W GY RF0 RK0 E RF RK A. assert (HT : (0 < NT)%nat) by lia. assert (HL : (0 < NL)%nat) by lia.
  rewrite (seg_run XX YY NT NM NL) in E by (assumption || exact (proj1 W)). injection E as <-.
  destruct (stc_at XX YY NT NM NL f k HT HL RF RK) as (B0 & _). rewrite (at_fun _ _ _ _ _ _ A B0). clear A B0.
  assert (MT : zero_mod NT (f0 + f) = true <-> f = (- f0)%Z).
  { rewrite zero_mod_small by (unfold InRange in RF; lia). lia. }
  assert (MT' : zero_mod NT (f0 - f) = true <-> f = f0).
  { rewrite zero_mod_small by (unfold InRange in RF; lia). lia. }
  assert (ML : zero_mod NL (k0 + k) = true <-> k = (- k0)%Z).
  { rewrite zero_mod_small by (unfold InRange in RK; lia). lia. }
  assert (ML' : zero_mod NL (k0 - k) = true <-> k = k0).
  { rewrite zero_mod_small by (unfold InRange in RK; lia). lia. }
  assert (P : PowerOf NT NM NL XX f k = if (zero_mod NT (f0 + f) && zero_mod NL (k0 + k)) || (zero_mod NT (f0 - f) && zero_mod NL (k0 - k)) then a * a / 4 else 0).
  { unfold PowerOf. rewrite <- (lat_const NM (if (zero_mod NT (f0 + f) && zero_mod NL (k0 + k)) || (zero_mod NT (f0 - f) && zero_mod NL (k0 - k)) then a * a / 4 else 0) HM). apply lat_ext. intros m M. destruct (wave_parts NT NM NL a f0 k0 phi XX f k m HT HL W M) as [-> ->].
    assert (D : zero_mod NT (f0 + f) && zero_mod NL (k0 + k) && (zero_mod NT (f0 - f) && zero_mod NL (k0 - k)) = false).
    { destruct (zero_mod NT (f0 + f)) eqn:Z1; [|reflexivity]. destruct (zero_mod NT (f0 - f)) eqn:Z2; [|rewrite Bool.andb_false_r; reflexivity].
      pose proof (proj1 MT eq_refl). pose proof (proj1 MT' eq_refl). lia. }
    pose proof (sin2_cos2 phi) as SC. unfold Rsqr in SC.
    destruct (zero_mod NT (f0 + f) && zero_mod NL (k0 + k)), (zero_mod NT (f0 - f) && zero_mod NL (k0 - k)); try discriminate D; cbn [orb].
    - transitivity (a * a / 4 * (sin phi * sin phi + cos phi * cos phi)); [field|rewrite SC; ring].
    - transitivity (a * a / 4 * (sin phi * sin phi + cos phi * cos phi)); [field|rewrite SC; ring].
    - field. }
  rewrite P. split.
  - intros [[-> ->]|[-> ->]].
    + rewrite (proj2 MT' eq_refl), (proj2 ML' eq_refl). rewrite Bool.orb_true_r. reflexivity.
    + rewrite (proj2 MT eq_refl), (proj2 ML eq_refl). reflexivity.
  - intro N. destruct (zero_mod NT (f0 + f) && zero_mod NL (k0 + k)) eqn:Z1.
    + exfalso. apply Bool.andb_true_iff in Z1. destruct Z1 as [Z1 Z2]. apply N. right. split; [apply MT; exact Z1|apply ML; exact Z2].
    + destruct (zero_mod NT (f0 - f) && zero_mod NL (k0 - k)) eqn:Z2; [|reflexivity]. exfalso. apply Bool.andb_true_iff in Z2. destruct Z2 as [Z2 Z3].
      apply N. left. split; [apply MT'; exact Z2|apply ML'; exact Z3].
Qed.

Lemma C129_wave_case_proof : exists XX STC p, EastwardWave 4 1 5 2 1 2 0 XX /\ Grid3 4 1 5 XX /\ mjo_cross_segment XX XX = Ok STC /\ InRange 4 1 /\ InRange 5 2 /\
  At STC 0 (PlaceOf 4 1) (PlaceOf 5 2) p.
Proof.
  set (XX := map (fun t => [map (fun x => 2 * cos (2 * PI * (IZR 2 * INR x / INR 5 - IZR 1 * INR t / INR 4) + 0)) (seq 0 5)]) (seq 0 4)).
  assert (G : Grid3 4 1 5 XX) by (repeat split; repeat constructor).
  destruct (stc_at XX XX 4 1 5 1 2 ltac:(lia) ltac:(lia)) as (B0 & _); [unfold InRange; lia|unfold InRange; lia|].
  exists XX, (Stc 4 1 5 XX XX), (PowerOf 4 1 5 XX 1 2). split; [|split; [exact G|split; [apply seg_run; (assumption || lia)|split; [unfold InRange; lia|split; [unfold InRange; lia|exact B0]]]]].
  split; [exact G|]. intros t m x T M X. assert (m = 0%nat) by lia. subst m. do 4 (destruct t as [|t]; [do 5 (destruct x as [|x]; [reflexivity|]); lia|]). lia.
Qed.

