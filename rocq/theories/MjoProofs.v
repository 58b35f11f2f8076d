(** Proofs about the filter of the OMI index. *)
From Coq Require Import Reals Qreals QArith String.
From Verif Require Import PyBase ColumnModel TropicsModel SpectraModel SpectraSpec WavesModel WavesSpec BlockProofs TropicsProofs WavesProofs SpectraProofs KfModel KfSpec KfProofs MjoModel MjoSpec.
From Coq Require Import List Lia Lqa Lra.
Import ListNotations.
Open Scope nat_scope.
Open Scope list_scope.

(** ** Exchanging halves *)
Lemma roll_fwd {A} k (l : list A) i : i < length l -> nth_error (roll k l) ((i + k) mod length l) = nth_error l i.
Proof.
  intros H. set (n := length l) in *. assert (N : n <> 0) by lia. pose proof (Nat.mod_upper_bound (i + k) n N) as B. rewrite roll_nth by exact B. fold n. f_equal.
  rewrite Nat2Z.inj_mod. rewrite Zminus_mod_idemp_l. replace (Z.of_nat (i + k) - Z.of_nat k)%Z with (Z.of_nat i) by lia. rewrite Z.mod_small by lia. apply Nat2Z.id.
Qed.
Lemma unroll_fwd {A} k (l : list A) i : i < length l -> nth_error (unroll k l) ((i + (length l - k mod length l)) mod length l) = nth_error l i.
Proof. intros H. unfold unroll. apply roll_fwd. exact H. Qed.
Lemma unroll_len {A} k (l : list A) : length (unroll k l) = length l. Proof. apply roll_len. Qed.
Lemma map_shape {A} nt nl (M : list (list A)) (f : list A -> list A) : (forall l, length (f l) = length l) -> Shape nt nl M -> Shape nt nl (map f M).
Proof. intros H [L F]. split; [rewrite map_length; exact L|]. apply Forall_map. rewrite Forall_forall in F |- *. intros row I. rewrite H. apply F. exact I. Qed.
Lemma roll_in {A} k (l : list A) x : In x (roll k l) -> In x l.
Proof.
  unfold roll. destruct (length l) as [|n] eqn:E; [auto|]. intros H. apply in_app_iff in H. rewrite <- (firstn_skipn (S n - Nat.modulo k (S n)) l). apply in_or_app. tauto.
Qed.
Lemma roll_shape {A} k nt nl (M : list (list A)) : Shape nt nl M -> Shape nt nl (roll k M).
Proof. intros [L F]. split; [rewrite roll_len; exact L|]. rewrite Forall_forall in F |- *. intros row I. apply F. exact (roll_in _ _ _ I). Qed.
Lemma roll_entry {A} k nt nl (M : list (list A)) i j v : Shape nt nl M -> Entry M i j v -> Entry (roll k M) ((i + k) mod nt) j v.
Proof.
  intros [L F] (row & R1 & R2). exists row. split; [|exact R2]. rewrite <- L, roll_fwd; [exact R1|]. apply nth_error_Some. congruence.
Qed.
Lemma rolls_entry {A} k nt nl (M : list (list A)) i j v : Shape nt nl M -> Entry M i j v -> Entry (map (roll k) M) i ((j + k) mod nl) v.
Proof.
  intros S0 (row & R1 & R2). exists (roll k row). split; [apply map_nth_error; exact R1|]. rewrite <- (shape_len _ _ _ _ _ S0 R1), roll_fwd; [exact R2|]. apply nth_error_Some. congruence.
Qed.
Lemma unroll_shape {A} k nt nl (M : list (list A)) : Shape nt nl M -> Shape nt nl (unroll k M). Proof. apply roll_shape. Qed.
Lemma unroll_entry {A} k nt nl (M : list (list A)) i j v : Shape nt nl M -> Entry M i j v -> Entry (unroll k M) ((i + (nt - k mod nt)) mod nt) j v.
Proof. intros S0 E. unfold unroll. replace (length M) with nt by (symmetry; apply S0). exact (roll_entry _ nt nl M i j v S0 E). Qed.
Lemma unrolls_entry {A} k nt nl (M : list (list A)) i j v : Shape nt nl M -> Entry M i j v -> Entry (map (unroll k) M) i ((j + (nl - k mod nl)) mod nl) v.
Proof.
  intros S0 (row & R1 & R2). exists (unroll k row). split; [apply map_nth_error; exact R1|]. rewrite <- (shape_len _ _ _ _ _ S0 R1), unroll_fwd; [exact R2|]. apply nth_error_Some. congruence.
Qed.
Lemma exchange_there n i : ((i + n / 2) mod n + n / 2) mod n = Exchanged n i.
Proof. unfold Exchanged. destruct n as [|n]; [cbn; lia|]. rewrite Nat.add_mod_idemp_l by lia. f_equal. lia. Qed.
Lemma exchange_back n i : i < n -> (((Exchanged n i + (n - (n / 2) mod n)) mod n) + (n - (n / 2) mod n)) mod n = i.
Proof.
  intros H. unfold Exchanged. assert (D : n / 2 < n) by (apply Nat.div_lt; lia). rewrite (Nat.mod_small (n / 2) n) by exact D. rewrite Nat.add_mod_idemp_l by lia. rewrite <- Nat.add_assoc. rewrite Nat.add_mod_idemp_l by lia.
  replace (i + 2 * (n / 2) + (n - n / 2 + (n - n / 2))) with (i + 2 * n) by lia. rewrite Nat.mod_add by lia. apply Nat.mod_small. exact H.
Qed.
Lemma exchanged_lt n i : 0 < n -> Exchanged n i < n. Proof. intros H. apply Nat.mod_upper_bound. lia. Qed.
Lemma exchanged_even n i : Nat.Even n -> i < n -> Exchanged n i = i.
Proof. intros E H. unfold Exchanged. rewrite (even_half n E). replace (i + n) with (i + 1 * n) by lia. rewrite Nat.mod_add by lia. apply Nat.mod_small. exact H. Qed.
Lemma odd_half n : Nat.Odd n -> 2 * (n / 2) + 1 = n.
Proof. intros [h ->]. replace ((2 * h + 1) / 2) with h; [reflexivity|]. apply (Nat.div_unique _ 2 h 1); lia. Qed.
Lemma exchanged_odd n i : Nat.Odd n -> 0 < i < n -> Exchanged n i = i - 1.
Proof. intros E H. pose proof (odd_half n E) as O. unfold Exchanged. replace (i + 2 * (n / 2)) with (i - 1 + 1 * n) by lia. rewrite Nat.mod_add by lia. apply Nat.mod_small. lia. Qed.

(** ** The mask *)
Lemma zero_cell_shape nt nl p q M : Shape nt nl M -> Shape nt nl (zero_cell p q M).
Proof.
  intros [L F]. unfold zero_cell. split; [rewrite map_combine_len; exact L|]. apply Forall_forall. intros row I. apply in_map_iff in I. destruct I as ((i & r) & E & I). apply in_combine_r in I. rewrite Forall_forall in F. specialize (F r I). destruct (i =? p); subst row; [rewrite map_combine_len; exact F|exact F].
Qed.
Lemma zero_cell_entry p q M i j v : Entry M i j v -> Entry (zero_cell p q M) i j (if (i =? p) && (j =? q) then (0, 0)%R else v).
Proof.
  intros (row & R1 & R2). unfold zero_cell. eexists. rewrite map_combine_nth. unfold cplx in *. rewrite R1. cbn [option_map]. split; [reflexivity|]. destruct (i =? p); cbn [andb]; [|exact R2]. rewrite map_combine_nth, R2. reflexivity.
Qed.
Definition zero_both (nt nl p q : nat) (M : list (list cplx)) : list (list cplx) := zero_other nt nl p q (zero_cell p q M).
Lemma zero_both_shape nt nl p q M : Shape nt nl M -> Shape nt nl (zero_both nt nl p q M).
Proof.
  intros H. unfold zero_both, zero_other. pose proof (zero_cell_shape nt nl p q M H) as H1. destruct ((q =? 0) && (p =? 0)); [exact H1|]. destruct (q =? 0); [destruct (_ <? _); [apply zero_cell_shape|]; exact H1|]. destruct (p =? 0); [destruct (_ <? _); [apply zero_cell_shape|]; exact H1|]. destruct (_ && _); [apply zero_cell_shape|]; exact H1.
Qed.
Definition hits (nt nl i j : nat) (c : nat * nat) : bool :=
  ((i =? fst c) && (j =? snd c)) || ((i =? Opposite nt (fst c)) && (j =? Opposite nl (snd c))).
Lemma zero_both_entry nt nl p q M i j v : 0 < nt -> 0 < nl -> Entry M i j v -> Entry (zero_both nt nl p q M) i j (if hits nt nl i j (p, q) then (0, 0)%R else v).
Proof.
  intros T L E. unfold zero_both, zero_other, hits, Opposite. cbn [fst snd]. apply (zero_cell_entry p q) in E.
  assert (Z : forall a b, Entry (zero_cell a b (zero_cell p q M)) i j (if (i =? p) && (j =? q) || (i =? a) && (j =? b) then (0, 0)%R else v)).
  { intros a b. pose proof (zero_cell_entry a b _ i j _ E) as E2. destruct ((i =? p) && (j =? q)); cbn [orb]; [|exact E2]. destruct ((i =? a) && (j =? b)); exact E2. }
  destruct (Nat.eqb_spec q 0) as [->|Q]; destruct (Nat.eqb_spec p 0) as [->|P]; cbn [andb].
  - destruct ((i =? 0) && (j =? 0)); exact E.
  - destruct (Nat.ltb_spec (nt - p) nt); [apply Z|lia].
  - destruct (Nat.ltb_spec (nl - q) nl); [apply Z|lia].
  - destruct (Nat.ltb_spec (nt - p) nt); [|lia]. destruct (Nat.ltb_spec (nl - q) nl); [|lia]. cbn [andb]. apply Z.
Qed.
Lemma loop_entry nt nl (pass : nat -> nat -> bool) : 0 < nt -> 0 < nl -> forall (cells : list (nat * nat)) (M : list (list cplx)) i j v, Shape nt nl M -> Entry M i j v ->
  let out := fold_left (fun (M : list (list cplx)) (c : nat * nat) => let '(a, b) := c in if pass a b then M else zero_other nt nl a b (zero_cell a b M)) cells M in
  Shape nt nl out /\ Entry out i j (if existsb (fun c => negb (pass (fst c) (snd c)) && hits nt nl i j c) cells then (0, 0)%R else v).
Proof.
  intros T L. induction cells as [|[a b] cells IH]; intros M i j v S0 E; [split; assumption|]. cbn [fold_left existsb fst snd]. destruct (pass a b); cbn [negb andb orb]; [apply IH; assumption|].
  pose proof (zero_both_shape nt nl a b M S0) as S1. pose proof (zero_both_entry nt nl a b M i j v T L E) as E1. unfold zero_both in S1, E1. destruct (IH _ i j _ S1 E1) as [S2 E2]. split; [exact S2|]. destruct (hits nt nl i j (a, b)); cbn [orb]; [|exact E2]. destruct (existsb _ cells); exact E2.
Qed.
Lemma opposite_lt n i : i < n -> Opposite n i < n. Proof. unfold Opposite. destruct (Nat.eqb_spec i 0); lia. Qed.
Lemma opposite_twice n i : i < n -> Opposite n (Opposite n i) = i.
Proof. intros H. unfold Opposite. destruct (Nat.eqb_spec i 0) as [->|]; [reflexivity|]. destruct (Nat.eqb_spec (n - i) 0); lia. Qed.
Lemma loop_kept nt nl pass i j : i < nt -> j < nl ->
  existsb (fun c => negb (pass (fst c) (snd c)) && hits nt nl i j c) (list_prod (seq 0 (nt / 2 + 1)) (seq 0 nl)) = negb (Kept nt nl pass i j).
Proof.
  intros I J. assert (RNG : forall a b, In (a, b) (list_prod (seq 0 (nt / 2 + 1)) (seq 0 nl)) <-> 2 * a <= nt /\ b < nl).
  { intros a b. rewrite in_prod_iff, !in_seq. pose proof (Nat.div_mod nt 2 ltac:(lia)). pose proof (Nat.mod_upper_bound nt 2 ltac:(lia)). lia. }
  apply Bool.eq_true_iff_eq. rewrite existsb_exists, Bool.negb_true_iff. unfold Kept. split.
  - intros ((a & b) & IN & X). apply RNG in IN. cbn [fst snd] in X. apply Bool.andb_true_iff in X. destruct X as [X Y]. apply Bool.negb_true_iff in X. unfold hits in Y. cbn [fst snd] in Y. rewrite Bool.orb_true_iff, !Bool.andb_true_iff, !Nat.eqb_eq in Y. apply Bool.andb_false_iff. destruct Y as [[-> ->]|[-> ->]].
    + left. rewrite X. apply Bool.orb_false_iff. split; [apply Nat.ltb_ge; lia|reflexivity].
    + right. rewrite !opposite_twice by lia. rewrite X. apply Bool.orb_false_iff. split; [apply Nat.ltb_ge; lia|reflexivity].
  - intros X. apply Bool.andb_false_iff in X. destruct X as [X|X]; apply Bool.orb_false_iff in X; destruct X as [X Y]; apply Nat.ltb_ge in X.
    + exists (i, j). split; [apply RNG; lia|]. cbn [fst snd]. rewrite Y. unfold hits. cbn [fst snd]. rewrite !Nat.eqb_refl. reflexivity.
    + exists (Opposite nt i, Opposite nl j). split; [apply RNG; pose proof (opposite_lt nl j J); lia|]. cbn [fst snd]. rewrite Y. unfold hits. cbn [fst snd]. rewrite !opposite_twice by assumption. rewrite !Nat.eqb_refl. cbn [andb]. rewrite Bool.orb_true_r. reflexivity.
Qed.

(** ** One latitude *)
Definition cf (nt nl : nat) (v : nat -> nat -> R) (p q : nat) : cplx :=
  (S2 nt nl (fun t x => v t x * cos (Turn nt p t + Turn nl q x))%R, (- S2 nt nl (fun t x => v t x * sin (Turn nt p t + Turn nl q x)))%R).
Lemma fft2_is nt nl v : fft2 nt nl v = tabulate nt nl (cf nt nl v).
Proof. unfold fft2. apply tabulate_ext. intros p q _ _. unfold cf. rewrite <- !s2_eq. reflexivity. Qed.
Lemma part_cf nt nl v p q t x : 0 < nt -> 0 < nl ->
  ((fst (cf nt nl v p q) * cos (Turn nt p t + Turn nl q x) - snd (cf nt nl v p q) * sin (Turn nt p t + Turn nl q x)) / (INR nt * INR nl))%R = Part nt nl v p q t x.
Proof.
  intros T L. unfold Part. f_equal. change (DoubleSum nt nl) with (S2 nt nl). unfold cf. cbn [fst snd].
  rewrite (s2_ext nt nl (fun t' x' => v t' x' * cos (2 * PI * INR p * (INR t - INR t') / INR nt + 2 * PI * INR q * (INR x - INR x') / INR nl))%R
    (fun t' x' => cos (Turn nt p t + Turn nl q x) * (v t' x' * cos (Turn nt p t' + Turn nl q x')) + sin (Turn nt p t + Turn nl q x) * (v t' x' * sin (Turn nt p t' + Turn nl q x')))%R).
  - rewrite s2_plus, !s2_scale. ring.
  - intros t' x' _ _. replace (2 * PI * INR p * (INR t - INR t') / INR nt + 2 * PI * INR q * (INR x - INR x') / INR nl)%R with ((Turn nt p t + Turn nl q x) - (Turn nt p t' + Turn nl q x'))%R by (unfold Turn; field; split; apply INR_nz; assumption). rewrite cos_minus. ring.
Qed.
Lemma field_run nt nl dpd f1 f2 s1 s2 v : 0 < nt -> 1 < nl ->
  let pass i_f i_wn := passes f1 f2 s1 s2 (freq_axis nt dpd i_f) (wn_axis nl i_wn) in
  filter_field nt nl dpd f1 f2 s1 s2 v = Ok (tabulate nt nl (fun t x => DoubleSum nt nl (fun p q =>
    if Kept nt nl pass (Exchanged nt p) (Exchanged nl q) then Part nt nl (fun t x => entry 0%R v t x) p q t x else 0%R))).
Proof.
  intros T L pass. unfold filter_field. destruct (Nat.eqb_spec nl 0); [lia|]. destruct (Nat.eqb_spec nl 1); [lia|]. cbv zeta. rewrite fft2_is. fold pass.
  set (F := tabulate nt nl (cf nt nl (fun t x => entry 0%R v t x))). pose proof (tabulate_shape nt nl (cf nt nl (fun t x => entry 0%R v t x))) as SF. fold F in SF.
  pose proof (roll_shape (nt / 2) nt nl F SF) as SA. set (A := roll (nt / 2) F) in *. pose proof (map_shape nt nl A (roll (nl / 2)) (roll_len _) SA) as SB. set (B := map (roll (nl / 2)) A) in *.
  pose proof (roll_shape (nt / 2) nt nl B SB) as SC. set (D := roll (nt / 2) B) in *. pose proof (map_shape nt nl D (roll (nl / 2)) (roll_len _) SC) as SE. set (E := map (roll (nl / 2)) D) in *.
  pose proof (fun i j v0 => loop_entry nt nl pass T ltac:(lia) (list_prod (seq 0 (nt / 2 + 1)) (seq 0 nl)) E i j v0 SE) as LE. cbv zeta in LE. fold (mask_loop nt nl pass E) in LE. set (G := mask_loop nt nl pass E) in *.
  assert (ENF : forall p q, p < nt -> q < nl -> Entry E (Exchanged nt p) (Exchanged nl q) (cf nt nl (fun t x => entry 0%R v t x) p q)).
  { intros p q P Q. pose proof (tabulate_entry nt nl (cf nt nl (fun t x => entry 0%R v t x)) p q P Q) as X. fold F in X. apply (roll_entry (nt / 2) nt nl F _ _ _ SF) in X. fold A in X. apply (rolls_entry (nl / 2) nt nl A _ _ _ SA) in X. fold B in X. apply (roll_entry (nt / 2) nt nl B _ _ _ SB) in X. fold D in X. apply (rolls_entry (nl / 2) nt nl D _ _ _ SC) in X. fold E in X. rewrite !exchange_there in X. exact X. }
  assert (SG : Shape nt nl G). { pose proof (ENF 0 0 T ltac:(lia)) as X. apply LE in X. apply X. }
  pose proof (unroll_shape (nt / 2) nt nl G SG) as SH. set (H := unroll (nt / 2) G) in *. pose proof (map_shape nt nl H (unroll (nl / 2)) (unroll_len _) SH) as SI. set (I := map (unroll (nl / 2)) H) in *.
  pose proof (unroll_shape (nt / 2) nt nl I SI) as SJ. set (J := unroll (nt / 2) I) in *. pose proof (map_shape nt nl J (unroll (nl / 2)) (unroll_len _) SJ) as SK. set (K := map (unroll (nl / 2)) J) in *.
  assert (ENK : forall p q, p < nt -> q < nl -> Entry K p q (if Kept nt nl pass (Exchanged nt p) (Exchanged nl q) then cf nt nl (fun t x => entry 0%R v t x) p q else (0, 0)%R)).
  { intros p q P Q. pose proof (ENF p q P Q) as X. apply LE in X. destruct X as [_ X]. rewrite loop_kept in X by (apply exchanged_lt; lia). set (val := if Kept nt nl pass _ _ then _ else _). replace (if negb _ then _ else _) with val in X by (unfold val; destruct (Kept _ _ _ _ _); reflexivity).
    apply (unroll_entry (nt / 2) nt nl G _ _ _ SG) in X. fold H in X. apply (unrolls_entry (nl / 2) nt nl H _ _ _ SH) in X. fold I in X. apply (unroll_entry (nt / 2) nt nl I _ _ _ SI) in X. fold J in X. apply (unrolls_entry (nl / 2) nt nl J _ _ _ SJ) in X. fold K in X. rewrite !exchange_back in X by assumption. exact X. }
  unfold ifft2_real. f_equal. apply tabulate_ext. intros t x _ _. unfold Rdiv. rewrite Rmult_comm. change (DoubleSum nt nl) with (S2 nt nl).
  set (inn := fun p q => let '(a, b) := entry (0, 0)%R K p q in (a * cos (turn nt p t + turn nl q x) - b * sin (turn nt p t + turn nl q x))%R).
  change (rsum (map (fun p => rsum (map (inn p) (seq 0 nl))) (seq 0 nt))) with (Total (map (fun p => Total (map (inn p) (seq 0 nl))) (seq 0 nt))). rewrite s2_eq, <- s2_scale. apply s2_ext. intros p q P Q. unfold inn. rewrite (entry_at _ _ _ _ _ (ENK p q P Q)).
  destruct (Kept nt nl pass _ _); [|cbn [fst snd]; ring]. rewrite <- part_cf by lia. destruct (cf nt nl _ p q) as [a b]. cbn [fst snd]. change turn with Turn. unfold Rdiv. ring.
Qed.

(** ** Limits *)
Lemma quot_is a b c : ~ (b == 0)%Q -> (a == c * b)%Q -> exists y, quotient a b = Some y /\ (y == c)%Q.
Proof.
  intros B A. unfold quotient. destruct (Qeq_bool b 0) eqn:E; [apply Qeq_bool_iff in E; contradiction|]. eexists. split; [reflexivity|]. rewrite A. field. exact B.
Qed.
Lemma passes_is f1 f2 s1 s2 ff ss : ~ (f1 == f2)%Q -> ~ (s1 == s2)%Q -> passes f1 f2 s1 s2 ff ss = Qle_bool f1 ff && Qle_bool ff f2 && Qle_bool s1 ss && Qle_bool ss s2.
Proof.
  intros F G. assert (F' : ~ (f2 - f1 == 0)%Q) by (intros X; apply F; Lqa.lra). assert (G' : ~ (s1 - s2 == 0)%Q) by (intros X; apply G; Lqa.lra). unfold passes. cbv zeta.
  destruct (quot_is (ss * (f1 - f1) + f1 * s1 - f1 * s2) (s1 - s2) f1 G' ltac:(ring)) as (y1 & -> & E1).
  destruct (quot_is (ss * (f2 - f2) + f2 * s1 - f2 * s2) (s1 - s2) f2 G' ltac:(ring)) as (y2 & -> & E2).
  destruct (quot_is (ff * (s1 - s1) - f1 * s1 + f2 * s1) (f2 - f1) s1 F' ltac:(ring)) as (y3 & -> & E3).
  destruct (quot_is (ff * (s2 - s2) - f1 * s2 + f2 * s2) (f2 - f1) s2 F' ltac:(ring)) as (y4 & -> & E4).
  unfold at_least, at_most. rewrite E1, E2, E3, E4. reflexivity.
Qed.
Lemma passes_equal f1 f2 s1 s2 ff ss : (f1 == f2)%Q \/ (s1 == s2)%Q -> passes f1 f2 s1 s2 ff ss = false.
Proof.
  intros H. unfold passes. cbv zeta. destruct H as [H|H].
  - assert (E : forall a, quotient a (f2 - f1) = None). { intros a. unfold quotient. replace (Qeq_bool (f2 - f1) 0) with true; [reflexivity|]. symmetry. apply Qeq_bool_iff. rewrite H. ring. } rewrite !E. cbn [at_least at_most]. rewrite Bool.andb_false_r. reflexivity.
  - assert (E : forall a, quotient a (s1 - s2) = None). { intros a. unfold quotient. replace (Qeq_bool (s1 - s2) 0) with true; [reflexivity|]. symmetry. apply Qeq_bool_iff. rewrite H. ring. } rewrite !E. reflexivity.
Qed.
Lemma nat_nz n : 0 < n -> ~ (inject_Z (Z.of_nat n) == 0)%Q.
Proof. intros H E. unfold Qeq in E. cbn [Qnum Qden inject_Z] in E. lia. Qed.
Lemma freq_signed nt d i : (freq_axis nt d i == inject_Z (Signed nt i) * d / inject_Z (Z.of_nat nt))%Q.
Proof.
  unfold freq_axis, Signed. destruct (2 * i <=? nt); [reflexivity|]. replace (Z.of_nat i - Z.of_nat nt)%Z with (- (Z.of_nat nt - Z.of_nat i))%Z by lia. rewrite inject_Z_opp. unfold Qdiv. ring.
Qed.
Lemma wn_signed nl i : (wn_axis nl i == inject_Z (- Signed nl i))%Q.
Proof. unfold wn_axis, Signed. destruct (2 * i <=? nl); [rewrite inject_Z_opp; ring|]. replace (- (Z.of_nat i - Z.of_nat nl))%Z with (Z.of_nat nl - Z.of_nat i)%Z by lia. reflexivity. Qed.
Lemma kept_ext nt nl f g p q : (forall a b, f a b = g a b) -> Kept nt nl f p q = Kept nt nl g p q.
Proof. intros H. unfold Kept. rewrite !H. reflexivity. Qed.
Lemma band_is nt nl spacing p1 p2 s1 s2 i j : 0 < nt -> ~ (spacing == 0)%Q -> ~ (p1 == 0)%Q -> ~ (p2 == 0)%Q -> ~ (p1 == p2)%Q -> ~ (s1 == s2)%Q ->
  passes (1 / p2) (1 / p1) s1 s2 (freq_axis nt (1 / spacing) i) (wn_axis nl j) = Band nt nl spacing p1 p2 s1 s2 i j.
Proof.
  intros T S0 A B D E. rewrite passes_is; [|intros X; apply D|exact E].
  - unfold Band. cbv zeta. rewrite wn_signed. assert (F : (freq_axis nt (1 / spacing) i == inject_Z (Signed nt i) / (inject_Z (Z.of_nat nt) * spacing))%Q). { rewrite freq_signed. field. split; [exact S0|apply nat_nz; exact T]. } rewrite F. reflexivity.
  - assert (Y : (1 / (1 / p2) == 1 / (1 / p1))%Q) by (rewrite X; reflexivity). transitivity (1 / (1 / p1))%Q; [field; exact A|]. rewrite <- Y. field. exact B.
Qed.

(** ** Waves *)
Lemma opposite_turn n q x b : 0 < n -> q < n -> cos (Turn n q x + b) = cos (b - Turn n (Opposite n q) x).
Proof.
  intros N Q. unfold Opposite, Turn. destruct (Nat.eqb_spec q 0) as [->|H].
  - f_equal. cbn [INR]. field. apply INR_nz. exact N.
  - rewrite minus_INR by lia. rewrite <- (cos_period (b - _) x). f_equal. field. apply INR_nz. exact N.
Qed.
Lemma part_wave nt nl k j a phi p q t x : j < nt -> k < nl -> p < nt -> q < nl ->
  Part nt nl (fun t x => a * cos (Turn nl k x + Turn nt j t + phi))%R p q t x =
  ((if (p =? j) && (q =? k) then a / 2 * cos (Turn nl k x + Turn nt j t + phi) else 0) +
   (if (p =? Opposite nt j) && (q =? Opposite nl k) then a / 2 * cos (Turn nl k x + Turn nt j t + phi) else 0))%R.
Proof.
  intros J K P Q. assert (NZ : INR nt <> 0%R /\ INR nl <> 0%R) by (split; apply INR_nz; lia). unfold Part. change (DoubleSum nt nl) with (S2 nt nl). set (ph := (Turn nt p t + Turn nl q x)%R).
  pose proof (opposite_lt nt p P) as P'. pose proof (opposite_lt nl q Q) as Q'.
  rewrite (s2_ext nt nl _ (fun t' x' => a / 2 * (cos (Turn nt j t' + Turn nl k x' - (Turn nt p t' + Turn nl q x') + (ph + phi)) + cos (Turn nt j t' + Turn nl k x' - (Turn nt (Opposite nt p) t' + Turn nl (Opposite nl q) x') + (phi - ph))))%R).
  - rewrite s2_scale, s2_plus, !wave_minus by assumption.
    assert (E : (p =? Opposite nt j) && (q =? Opposite nl k) = (Opposite nt p =? j) && (Opposite nl q =? k)).
    { apply Bool.eq_true_iff_eq. rewrite !Bool.andb_true_iff, !Nat.eqb_eq. split; intros [A B]; subst; rewrite !opposite_twice by assumption; split; reflexivity. }
    rewrite E. replace (cos (phi - ph)) with (cos (phi + Turn nt (Opposite nt p) t + Turn nl (Opposite nl q) x)).
    2:{ unfold ph. symmetry. rewrite <- cos_neg. replace (- (phi - (Turn nt p t + Turn nl q x)))%R with (Turn nt p t + (Turn nl q x - phi))%R by ring. rewrite opposite_turn by lia. replace (Turn nl q x - phi - Turn nt (Opposite nt p) t)%R with (Turn nl q x + (- phi - Turn nt (Opposite nt p) t))%R by ring. rewrite opposite_turn by lia. rewrite <- cos_neg. f_equal. ring. }
    destruct (Nat.eqb_spec p j) as [A|]; destruct (Nat.eqb_spec q k) as [B|]; destruct (Nat.eqb_spec (Opposite nt p) j) as [A'|]; destruct (Nat.eqb_spec (Opposite nl q) k) as [B'|]; cbn [andb]; try (field; tauto);
      try rewrite A'; try rewrite B'; unfold ph; try rewrite A; try rewrite B; try rewrite (Rplus_comm (Turn nt j t) (Turn nl k x)); try (replace (phi + Turn nt j t + Turn nl k x)%R with (Turn nl k x + Turn nt j t + phi)%R by ring); field; tauto.
  - intros t' x' _ _. set (w := (Turn nt j t' + Turn nl k x')%R).
    replace (cos (w - (Turn nt (Opposite nt p) t' + Turn nl (Opposite nl q) x') + (phi - ph))) with (cos (w + phi + (Turn nt p t' + Turn nl q x' - ph))).
    2:{ replace (w + phi + (Turn nt p t' + Turn nl q x' - ph))%R with (Turn nt p t' + (Turn nl q x' + (w + phi - ph)))%R by ring. rewrite opposite_turn by lia. replace (Turn nl q x' + (w + phi - ph) - Turn nt (Opposite nt p) t')%R with (Turn nl q x' + (w + phi - ph - Turn nt (Opposite nt p) t'))%R by ring. rewrite opposite_turn by lia. f_equal. ring. }
    replace (w - (Turn nt p t' + Turn nl q x') + (ph + phi))%R with (w + phi - (Turn nt p t' + Turn nl q x' - ph))%R by ring. rewrite (cos_plus (w + phi)), (cos_minus (w + phi)).
    replace (2 * PI * INR p * (INR t - INR t') / INR nt + 2 * PI * INR q * (INR x - INR x') / INR nl)%R with (- (Turn nt p t' + Turn nl q x' - ph))%R by (unfold ph, Turn; field; tauto). rewrite cos_neg. replace (Turn nl k x' + Turn nt j t' + phi)%R with (w + phi)%R by (unfold w; ring). field.
Qed.
Definition share_of (b : bool) : R := if b then (1 / 2)%R else 0%R.
Lemma kept_wave nt nl chi k j a phi t x : 0 < nt -> j < nt -> k < nl ->
  S2 nt nl (fun p q => if (chi p q : bool) then Part nt nl (fun t x => a * cos (Turn nl k x + Turn nt j t + phi))%R p q t x else 0%R) =
  ((share_of (chi j k) + share_of (chi (Opposite nt j) (Opposite nl k))) * a * cos (Turn nl k x + Turn nt j t + phi))%R.
Proof.
  intros T J K. set (w := cos (Turn nl k x + Turn nt j t + phi)).
  rewrite (s2_ext nt nl _ (fun p q => (if (p =? j) && (q =? k) then share_of (chi p q) * a * w else 0) + (if (p =? Opposite nt j) && (q =? Opposite nl k) then share_of (chi p q) * a * w else 0))%R).
  - rewrite s2_plus. rewrite (s2_one nt nl (fun p q => share_of (chi p q) * a * w)%R) by assumption. rewrite (s2_one nt nl (fun p q => share_of (chi p q) * a * w)%R) by (apply opposite_lt; assumption). ring.
  - intros p q P Q. rewrite part_wave by assumption. fold w. unfold share_of. destruct (chi p q); destruct (_ && _); destruct (_ && _); field.
Qed.
Lemma part_ext nt nl v w p q t x : (forall t x, t < nt -> x < nl -> v t x = w t x) -> Part nt nl v p q t x = Part nt nl w p q t x.
Proof. intros H. unfold Part. f_equal. change (DoubleSum nt nl) with (S2 nt nl). apply s2_ext. intros t' x' T X. rewrite H by assumption. reflexivity. Qed.
Lemma west_run nt nl k j a phi d f1 f2 s1 s2 : 0 < nt -> 1 < nl -> j < nt -> k < nl ->
  let chi p q := Kept nt nl (fun i_f i_wn => passes f1 f2 s1 s2 (freq_axis nt d i_f) (wn_axis nl i_wn)) (Exchanged nt p) (Exchanged nl q) in
  filter_field nt nl d f1 f2 s1 s2 (WestWave nl nt k j a phi) = Ok (WestWave nl nt k j ((share_of (chi j k) + share_of (chi (Opposite nt j) (Opposite nl k))) * a) phi).
Proof.
  intros T L J K chi. rewrite field_run by assumption. f_equal. etransitivity; [|symmetry; exact (tabulate_all 0%R nt nl _ (west_shape nl nt k j _ phi))]. apply tabulate_ext. intros t x T' X'. rewrite west_entry by assumption. rewrite <- kept_wave by assumption. change (DoubleSum nt nl) with (S2 nt nl). apply s2_ext. intros p q _ _. fold (chi p q). destruct (chi p q); [|reflexivity]. apply part_ext. intros t' x' A B. rewrite west_entry by assumption. reflexivity.
Qed.
Lemma east_opposite nk nt k j a phi : k < nk -> EastWave nk nt k j a phi = WestWave nk nt (Opposite nk k) j a (- phi).
Proof.
  intros K. unfold Opposite. destruct (Nat.eqb_spec k 0) as [->|H]; [|apply east_west; lia]. unfold EastWave, WestWave. apply map_ext. intros t. apply map_ext. intros x. f_equal. rewrite <- cos_neg. f_equal. cbn [INR]. unfold Rdiv. ring.
Qed.
Lemma zero_wave nk nt k j phi : WestWave nk nt k j 0 phi = Zeros nk nt.
Proof. unfold WestWave, Zeros. apply map_ext. intros t. apply map_ext. intros x. ring. Qed.
Lemma even_kept nt nl band k j : 0 < 2 * j < nt -> k < nl -> Kept nt nl band j k = band j k /\ Kept nt nl band (Opposite nt j) (Opposite nl k) = band j k.
Proof.
  intros J K. unfold Kept. rewrite !opposite_twice by lia. assert (O : Opposite nt j = nt - j) by (unfold Opposite; destruct (Nat.eqb_spec j 0); lia). rewrite O.
  replace (nt <? 2 * j) with false by (symmetry; apply Nat.ltb_ge; lia). replace (nt <? 2 * (nt - j)) with true by (symmetry; apply Nat.ltb_lt; lia). cbn [orb]. rewrite Bool.andb_true_r. split; reflexivity.
Qed.
Lemma inside_iff4 a b c d e g : Qle_bool a b && Qle_bool b c && Qle_bool d e && Qle_bool e g = true <-> ((a <= b <= c)%Q /\ (d <= e <= g)%Q).
Proof. rewrite !Bool.andb_true_iff, !Qle_bool_iff. tauto. Qed.
Lemma even_run nt nl k j a phi d f1 f2 s1 s2 : Nat.Even nt -> Nat.Even nl -> 1 < nl -> 0 < 2 * j < nt -> k < nl -> ~ (f1 == f2)%Q -> ~ (s1 == s2)%Q ->
  let f := (inject_Z (Z.of_nat j) * d / inject_Z (Z.of_nat nt))%Q in
  let inside := (f1 <= f <= f2)%Q /\ (s1 <= inject_Z (- Signed nl k) <= s2)%Q in
  (inside -> filter_field nt nl d f1 f2 s1 s2 (WestWave nl nt k j a phi) = Ok (WestWave nl nt k j a phi)) /\
  (~ inside -> filter_field nt nl d f1 f2 s1 s2 (WestWave nl nt k j a phi) = Ok (Zeros nl nt)).
Proof.
  intros E1 E2 L J K F S0 f inside. rewrite west_run by lia. pose proof (opposite_lt nt j ltac:(lia)) as OJ. pose proof (opposite_lt nl k K) as OK. rewrite !exchanged_even by (assumption || lia).
  destruct (even_kept nt nl (fun i_f i_wn => passes f1 f2 s1 s2 (freq_axis nt d i_f) (wn_axis nl i_wn)) k j J K) as [-> ->]. rewrite passes_is by assumption. rewrite freq_signed, wn_signed. replace (Signed nt j) with (Z.of_nat j) by (unfold Signed; destruct (Nat.leb_spec (2 * j) nt); [reflexivity|lia]). fold f.
  split; intros H.
  - rewrite (proj2 (inside_iff4 _ _ _ _ _ _) H). f_equal. unfold share_of. f_equal. field.
  - destruct (_ && Qle_bool _ s2) eqn:X; [apply inside_iff4 in X; contradiction|]. f_equal. unfold share_of. rewrite <- (zero_wave nl nt k j phi). f_equal. ring.
Qed.

(** ** Trend *)
Lemma list_seq (y : list R) : y = map (fun t => nth t y 0%R) (seq 0 (length y)).
Proof. apply nth_ext_all; [rewrite map_length, seq_length; reflexivity|]. intros i v H. assert (I : i < length y) by (apply nth_error_Some; congruence). rewrite nth_map_seq by exact I. f_equal. apply nth_error_nth. exact H. Qed.
Lemma pts_seq (y : list R) : combine (map INR (seq 0 (length y))) y = map (fun t => (INR t, nth t y 0%R)) (seq 0 (length y)).
Proof. rewrite (list_seq y) at 2. apply combine_seq. Qed.
Lemma idx_seq (y : list R) : combine (seq 0 (length y)) y = map (fun t => (t, nth t y 0%R)) (seq 0 (length y)).
Proof. rewrite (list_seq y) at 2. apply combine_seq'. Qed.
Lemma sq_zero {A} (h : A -> R) l : Total (map (fun t => h t * h t)%R l) = 0%R -> forall t, In t l -> h t = 0%R.
Proof.
  assert (P : forall l, (0 <= Total (map (fun t => h t * h t)%R l))%R). { induction l0 as [|b l0 IH]; cbn; [lra|]. unfold Total in IH. pose proof (Rle_0_sqr (h b)) as Q. unfold Rsqr in Q. lra. }
  induction l as [|b l IH]; intros E t I; [destruct I|]. cbn in E. specialize (P l). unfold Total in P, IH. pose proof (Rle_0_sqr (h b)) as Q. unfold Rsqr in Q. destruct I as [<-|I]; [|apply IH; [lra|exact I]]. apply Rsqr_0_uniq. unfold Rsqr. lra.
Qed.
Definition moment (n : nat) (h : nat -> R) : R := Total (map h (seq 0 n)).
Lemma detrended_iff y z : Detrended y z <-> length z = length y /\ (exists a b : R, forall t : nat, t < length y -> nth t z 0%R = (nth t y 0 - (a + b * INR t))%R) /\ moment (length y) (fun t => nth t z 0%R) = 0%R /\ moment (length y) (fun t => INR t * nth t z 0)%R = 0%R.
Proof.
  unfold Detrended, moment. rewrite idx_seq, map_map. change (fold_right Rplus 0%R) with Total. assert (TZ : Total z = Total (map (fun t => nth t z 0%R) (seq 0 (length z)))) by (f_equal; apply list_seq). rewrite TZ. clear TZ. split; intros (L & (a & b & H) & M1 & M2); rewrite L in *; cbn [fst snd] in *; (split; [reflexivity|]); (split; [|split; assumption]); exists a, b.
  - intros t T. apply (H t); apply nth_error_nth'; lia.
  - intros t v w E1 E2. assert (T : t < length y) by (apply nth_error_Some; congruence). rewrite <- (nth_error_nth y t 0%R E1), <- (nth_error_nth z t 0%R E2). apply H. exact T.
Qed.
Lemma detrend_unique y z z' : Detrended y z -> Detrended y z' -> z = z'.
Proof.
  intros A B. apply detrended_iff in A. apply detrended_iff in B. destruct A as (L & (a & b & H) & M1 & M2). destruct B as (L' & (a' & b' & H') & M1' & M2'). rewrite (list_seq z), (list_seq z'), L, L'. apply map_ext_in. intros t I. apply Rminus_diag_uniq. refine (sq_zero (fun t => nth t z 0 - nth t z' 0)%R _ _ t I).
  rewrite (tot_ext _ (fun t => (a' - a) * (nth t z 0 + (-1) * nth t z' 0) + (b' - b) * (INR t * nth t z 0 + (-1) * (INR t * nth t z' 0)))%R).
  - unfold moment in *. rewrite tot_plus, !tot_scale, !tot_plus, !tot_scale. rewrite M1, M2, M1', M2'. ring.
  - intros s J. apply in_seq in J. rewrite (H s), (H' s) by lia. ring.
Qed.
Lemma detrend_is y : Detrended y (detrend y).
Proof.
  destruct y as [|y0 y1] eqn:EY.
  { split; [reflexivity|]. split; [exists 0%R, 0%R; intros [|t] v w X; discriminate|]. split; reflexivity. }
  rewrite <- EY. assert (N : INR (length y) <> 0%R) by (apply INR_nz; subst y; cbn; lia). clear EY y0 y1. set (n := length y) in *.
  unfold detrend. cbv zeta. fold n. assert (P : combine (map INR (seq 0 n)) y = map (fun t => (INR t, nth t y 0%R)) (seq 0 n)) by exact (pts_seq y). rewrite !P. rewrite !map_map. cbn [fst snd]. change rsum with Total.
  set (tm := (Total (map (fun x => INR x) (seq 0 n)) / INR n)%R). set (ym := (Total (map (fun x => nth x y 0%R) (seq 0 n)) / INR n)%R).
  set (v := Total (map (fun x => ((INR x - tm) * (INR x - tm))%R) (seq 0 n))). set (c := Total (map (fun x => ((INR x - tm) * (nth x y 0 - ym))%R) (seq 0 n))). set (b := (c / v)%R).
  assert (T0 : Total (map (fun x => INR x - tm)%R (seq 0 n)) = 0%R). { rewrite (tot_ext _ (fun x => INR x + - tm)%R) by (intros; ring). rewrite tot_plus, tot_const. unfold tm. change (fun x : nat => INR x) with INR. field. exact N. }
  assert (Y0 : Total (map (fun x => nth x y 0 - ym)%R (seq 0 n)) = 0%R). { rewrite (tot_ext _ (fun x => nth x y 0 + - ym)%R) by (intros; ring). rewrite tot_plus, tot_const. unfold ym. field. exact N. }
  assert (CV : (c = b * v)%R). { destruct (Req_dec v 0) as [V|V]; [|unfold b; field; exact V]. rewrite V. unfold c. rewrite tot_zero; [ring|]. intros t I. rewrite (sq_zero (fun x => INR x - tm)%R _ V t I). ring. }
  assert (NTH : forall t, t < n -> nth t (map (fun x => (nth x y 0 - (ym + b * (INR x - tm)))%R) (seq 0 n)) 0%R = (nth t y 0 - (ym + b * (INR t - tm)))%R). { intros t I. apply nth_error_nth. exact (nth_map_seq (fun x => (nth x y 0 - (ym + b * (INR x - tm)))%R) n t I). }
  apply detrended_iff. fold n. split; [rewrite map_length, seq_length; reflexivity|]. split; [exists (ym - b * tm)%R, b; intros t I; rewrite NTH by exact I; ring|].
  assert (Z0 : moment n (fun t => nth t (map (fun x => (nth x y 0 - (ym + b * (INR x - tm)))%R) (seq 0 n)) 0%R) = 0%R).
  { unfold moment. rewrite (tot_ext _ (fun x => (nth x y 0 - ym) + (- b) * (INR x - tm))%R); [|intros t I; apply in_seq in I; rewrite NTH by lia; ring]. rewrite tot_plus, tot_scale, T0, Y0. ring. }
  split; [exact Z0|]. unfold moment in *. rewrite (tot_ext _ (fun t => tm * nth t (map (fun x => (nth x y 0 - (ym + b * (INR x - tm)))%R) (seq 0 n)) 0 + ((INR t - tm) * (nth t y 0 - ym) + (- b) * ((INR t - tm) * (INR t - tm))))%R); [|intros t I; apply in_seq in I; rewrite NTH by lia; ring].
  rewrite tot_plus, tot_scale, tot_plus, tot_scale, Z0. fold c v. rewrite CV. ring.
Qed.

(** ** All latitudes *)
Lemma pad_z : Z.of_nat pad = 1000%Z. Proof. unfold pad. rewrite Z2Nat.id; lia. Qed.
Definition one_latitude (orig_nt nl w : nat) (d f1 f2 s1 s2 : Q) (field : list (list R)) : res (list (list R)) :=
  cols <- mapM (fun x => taper_vector_to_zero (detrend (map (fun t => entry 0%R field t x) (seq 0 orig_nt)) ++ repeat 0%R pad) w) (seq 0 nl) ;;
  out <- filter_field (orig_nt + pad) nl d f1 f2 s1 s2 (tabulate (orig_nt + pad) nl (fun t x => entry 0%R cols x t)) ;;
  Ok (firstn orig_nt out).
Lemma qdiv_pos a b : (0 < a)%Q -> (0 < b)%Q -> (0 < a / b)%Q.
Proof. intros A B. apply Qlt_shift_div_l; [exact B|]. rewrite Qmult_0_l. exact A. Qed.
Lemma main_run orig_nt nl data spacing p1 p2 s1 s2 w : (0 < spacing)%Q -> ~ (p1 == 0)%Q -> ~ (p2 == 0)%Q -> (Z.of_nat orig_nt <= 131072)%Z ->
  (inject_Z (Z.of_nat w) <= 10 / spacing)%Q -> (10 / spacing < inject_Z (Z.of_nat w + 1))%Q ->
  perform_3dim_spectral_filtering orig_nt nl data spacing p1 p2 s1 s2 = mapM (one_latitude orig_nt nl w (1 / spacing) (1 / p2) (1 / p1) s1 s2) data.
Proof.
  intros S0 A B N L H. unfold perform_3dim_spectral_filtering. assert (Q0 : forall q, ~ (q == 0)%Q -> Qeq_bool q 0 = false) by (intros q X; destruct (Qeq_bool q 0) eqn:E; [apply Qeq_bool_iff in E; contradiction|reflexivity]).
  rewrite !Q0 by (assumption || Lqa.lra). cbn [orb]. destruct (Z.ltb_spec 131072 (Z.of_nat orig_nt)); [lia|].
  assert (W : trunc (10 * (1 / spacing)) = Z.of_nat w).
  { assert (E : (10 * (1 / spacing) == 10 / spacing)%Q) by (field; Lqa.lra). rewrite trunc_floor by (rewrite E; apply Qlt_le_weak; apply qdiv_pos; [reflexivity|exact S0]). rewrite E.
    pose proof (Qfloor_le (10 / spacing)) as F1. pose proof (Qlt_floor (10 / spacing)) as F2. assert (G1 : (inject_Z (Z.of_nat w) < inject_Z (Qfloor (10 / spacing) + 1))%Q) by (eapply Qle_lt_trans; [exact L|exact F2]). assert (G2 : (inject_Z (Qfloor (10 / spacing)) < inject_Z (Z.of_nat w + 1))%Q) by (eapply Qle_lt_trans; [exact F1|exact H]). apply Zlt_Qlt in G1 || rewrite <- Zlt_Qlt in G1. rewrite <- Zlt_Qlt in G2. lia. }
  cbv zeta. rewrite W. destruct (Z.ltb_spec (Z.of_nat w) 0); [lia|]. rewrite Nat2Z.id. reflexivity.
Qed.
Lemma column_is orig_nt nl field x : Shape orig_nt nl field -> map (fun t => entry 0%R field t x) (seq 0 orig_nt) = Column x field.
Proof.
  intros [L F]. unfold Column, entry. symmetry. rewrite <- L. clear L F. induction field as [|r field IH]; [reflexivity|]. cbn [map length]. rewrite IH. cbn [seq map nth]. f_equal. rewrite <- seq_shift, map_map. reflexivity.
Qed.
Lemma first_tabulate {A} n k m (f : nat -> nat -> A) : firstn n (tabulate (n + k) m f) = tabulate n m f.
Proof. unfold tabulate. rewrite seq_app, map_app, firstn_app, map_length, seq_length, Nat.sub_diag. cbn [firstn]. rewrite app_nil_r. apply firstn_all2. rewrite map_length, seq_length. lia. Qed.
Lemma detrend_len y : length (detrend y) = length y.
Proof. destruct (detrend_is y) as [L _]. exact L. Qed.
Lemma filled_nth z k t n : length z = n -> t < n + k -> nth_error (z ++ repeat 0%R k) t = Some (nth t z 0%R).
Proof.
  intros L T. destruct (Nat.lt_ge_cases t n) as [H|H].
  - rewrite nth_error_app1 by lia. apply nth_error_nth'. lia.
  - rewrite nth_error_app2 by lia. rewrite (nth_overflow z) by lia. rewrite nth_error_repeat by lia. reflexivity.
Qed.
Lemma tapered orig_nt nl w field : Shape orig_nt nl field -> w <= orig_nt + pad ->
  exists h : nat -> list R, (forall x, taper_vector_to_zero (detrend (map (fun t => entry 0%R field t x) (seq 0 orig_nt)) ++ repeat 0%R pad) w = Ok (h x)) /\
    forall x t, t < orig_nt + pad -> nth t (h x) 0%R = (nth t (detrend (Column x field)) 0 * BothEnds RiseFromZero (orig_nt + pad) w t)%R.
Proof.
  intros S0 W. exists (fun x => match taper_vector_to_zero (detrend (Column x field) ++ repeat 0%R pad) w with Ok o => o | Err _ => [] end).
  assert (K : forall x, length (detrend (Column x field)) = orig_nt) by (intros x; rewrite detrend_len; unfold Column; rewrite map_length; apply S0).
  assert (LEN : forall x, length (detrend (Column x field) ++ repeat 0%R pad) = orig_nt + pad) by (intros x; rewrite app_length, repeat_length, K; reflexivity).
  split.
  - intros x. rewrite (column_is orig_nt nl) by exact S0. destruct (taper_spec (detrend (Column x field) ++ repeat 0%R pad) w ltac:(rewrite LEN; exact W)) as (o & E & _). rewrite E. reflexivity.
  - intros x t T. destruct (taper_spec (detrend (Column x field) ++ repeat 0%R pad) w ltac:(rewrite LEN; exact W)) as (o & E & L & H). rewrite E. rewrite LEN in H. apply nth_error_nth. apply H. apply (filled_nth _ _ _ orig_nt); [apply K|exact T].
Qed.
Lemma latitude_ok orig_nt nl w spacing p1 p2 s1 s2 field : 1 < nl -> Shape orig_nt nl field -> w <= orig_nt + pad -> ~ (spacing == 0)%Q -> ~ (p1 == 0)%Q -> ~ (p2 == 0)%Q -> ~ (p1 == p2)%Q -> ~ (s1 == s2)%Q ->
  let nt := orig_nt + pad in
  exists new, one_latitude orig_nt nl w (1 / spacing) (1 / p2) (1 / p1) s1 s2 field = Ok new /\ Shape orig_nt nl new /\
    exists z, (forall x, x < nl -> Detrended (Column x field) (z x)) /\
        let padded t x := (nth t (z x) 0 * BothEnds RiseFromZero nt w t)%R in
        forall t x, t < orig_nt -> x < nl ->
          Entry new t x (DoubleSum nt nl (fun p q =>
            if Kept nt nl (Band nt nl spacing p1 p2 s1 s2) (Exchanged nt p) (Exchanged nl q)
            then Part nt nl padded p q t x else 0%R)).
Proof.
  intros NL S0 W SP P1 P2 PP SS nt. pose proof pad_z as PZ. assert (NT : 0 < nt) by (unfold nt; lia). destruct (tapered orig_nt nl w field S0 W) as (h & H1 & H2). unfold one_latitude. rewrite (mapM_ok_seq _ h nl) by (intros x _; apply H1). cbn [bind]. fold nt. rewrite field_run by assumption. cbn [bind]. assert (FT : forall g : nat -> nat -> R, firstn orig_nt (tabulate nt nl g) = tabulate orig_nt nl g) by (intros g; apply first_tabulate). rewrite FT. eexists. split; [reflexivity|]. split; [apply tabulate_shape|].
  exists (fun x => detrend (Column x field)). split; [intros x _; apply detrend_is|]. cbv zeta. intros t x T X.
  match goal with |- Entry (tabulate _ _ ?g) _ _ ?r => replace r with (g t x); [exact (tabulate_entry orig_nt nl g t x T X)|] end. cbv beta. change (DoubleSum nt nl) with (S2 nt nl). apply s2_ext. intros p q _ _. rewrite (kept_ext nt nl _ (Band nt nl spacing p1 p2 s1 s2)) by (intros a b; apply band_is; assumption). destruct (Kept _ _ _ _ _); [|reflexivity]. apply part_ext. intros t' x' T' X'. rewrite entry_tab by assumption. unfold entry.
  rewrite (nth_error_nth (map h (seq 0 nl)) x' [] (nth_map_seq h nl x' X')). apply H2. exact T'.
Qed.

(** The statements of PropertiesMjo.v. *)
Lemma C98_detrend_proof : forall y z, detrend y = z <-> Detrended y z.
Proof.
  intros y z. split; [intros <-; apply detrend_is|]. intros H. exact (detrend_unique y _ _ (detrend_is y) H).
Qed.

Lemma C98_any_proof : forall orig_nt nl data spacing period_min period_max wn_min wn_max w,
  1 < nl -> (Z.of_nat orig_nt <= 131072)%Z -> Forall (Shape orig_nt nl) data ->
  (0 < spacing)%Q -> ~ (period_min == 0)%Q -> ~ (period_max == 0)%Q -> ~ (period_min == period_max)%Q -> ~ (wn_min == wn_max)%Q ->
  (inject_Z (Z.of_nat w) <= 10 / spacing)%Q -> (10 / spacing < inject_Z (Z.of_nat w + 1))%Q ->
  let nt := orig_nt + Z.to_nat 1000 in w <= nt ->
  exists out, perform_3dim_spectral_filtering orig_nt nl data spacing period_min period_max wn_min wn_max = Ok out /\
    Forall2 (fun field new => Shape orig_nt nl new /\
      exists z, (forall x, x < nl -> Detrended (Column x field) (z x)) /\
        let padded t x := (nth t (z x) 0 * BothEnds RiseFromZero nt w t)%R in
        forall t x, t < orig_nt -> x < nl ->
          Entry new t x (DoubleSum nt nl (fun p q =>
            if Kept nt nl (Band nt nl spacing period_min period_max wn_min wn_max) (Exchanged nt p) (Exchanged nl q)
            then Part nt nl padded p q t x else 0%R))) data out.
Proof.
  intros orig_nt nl data spacing p1 p2 s1 s2 w NL N F SP P1 P2 PP SS L H. change (Z.to_nat 1000) with pad. intros nt W. rewrite (main_run orig_nt nl data spacing p1 p2 s1 s2 w) by assumption. apply mapM_all. intros field I. rewrite Forall_forall in F. specialize (F field I).
  apply latitude_ok; try assumption. intros E. rewrite E in SP. discriminate SP.
Qed.

Lemma C98_filter_proof : forall orig_nt nl data spacing period_min period_max wn_min wn_max w,
  1 < nl -> Nat.Even orig_nt -> Nat.Even nl -> (Z.of_nat orig_nt <= 131072)%Z -> Forall (Shape orig_nt nl) data ->
  (0 < spacing)%Q -> ~ (period_min == 0)%Q -> ~ (period_max == 0)%Q -> ~ (period_min == period_max)%Q -> ~ (wn_min == wn_max)%Q ->
  (inject_Z (Z.of_nat w) <= 10 / spacing)%Q -> (10 / spacing < inject_Z (Z.of_nat w + 1))%Q ->
  let nt := orig_nt + Z.to_nat 1000 in w <= nt ->
  exists out, perform_3dim_spectral_filtering orig_nt nl data spacing period_min period_max wn_min wn_max = Ok out /\
    Forall2 (fun field new => Shape orig_nt nl new /\
      exists z, (forall x, x < nl -> Detrended (Column x field) (z x)) /\
        let padded t x := (nth t (z x) 0 * BothEnds RiseFromZero nt w t)%R in
        forall t x, t < orig_nt -> x < nl ->
          Entry new t x (DoubleSum nt nl (fun p q =>
            if Kept nt nl (Band nt nl spacing period_min period_max wn_min wn_max) p q then Part nt nl padded p q t x else 0%R))) data out.
Proof.
  intros orig_nt nl data spacing p1 p2 s1 s2 w NL E1 E2 N F SP P1 P2 PP SS L H nt W.
  destruct (C98_any_proof orig_nt nl data spacing p1 p2 s1 s2 w NL N F SP P1 P2 PP SS L H W) as (out & E & FF). exists out. split; [exact E|]. clear E F. induction FF as [|field new data out (S0 & z & Z1 & Z2) FF IH]; constructor; [|exact IH]. split; [exact S0|]. exists z. split; [exact Z1|]. cbv zeta in *. intros t x T X. specialize (Z2 t x T X). fold nt in Z2.
  assert (EV : Nat.Even nt). { unfold nt. destruct E1 as [h ->]. exists (h + Z.to_nat 500). lia. }
  match goal with |- Entry _ _ _ ?r => match type of Z2 with Entry _ _ _ ?r' => replace r with r'; [exact Z2|] end end. change (DoubleSum nt nl) with (S2 nt nl). apply s2_ext. intros p q P Q. rewrite !exchanged_even by assumption. reflexivity.
Qed.

Lemma C98_filter_case_proof : Forall (Shape 2 2) [[[1; 5]; [2; 4]]; [[0; 3]; [7; 7]]]%R /\ Nat.Even 2 /\ (inject_Z (Z.of_nat 10) <= 10 / 1)%Q /\ (10 / 1 < inject_Z (Z.of_nat 10 + 1))%Q /\ 10 <= 2 + Z.to_nat 1000.
Proof.
  split; [repeat constructor|]. split; [exists 1; reflexivity|]. split; [intro X; discriminate X|]. split; [reflexivity|lia].
Qed.

Lemma C98_waves_proof : forall nt nl k j a phi dataperday freq_min freq_max wn_min wn_max,
  Nat.Even nt -> Nat.Even nl -> 1 < nl -> 0 < 2 * j < nt -> 2 * k < nl -> ~ (freq_min == freq_max)%Q -> ~ (wn_min == wn_max)%Q ->
  let f := (inject_Z (Z.of_nat j) * dataperday / inject_Z (Z.of_nat nt))%Q in
  let run v := filter_field nt nl dataperday freq_min freq_max wn_min wn_max v in
  let inside s := (freq_min <= f <= freq_max)%Q /\ (wn_min <= inject_Z s <= wn_max)%Q in
  (inside (Z.of_nat k) -> run (EastWave nl nt k j a phi) = Ok (EastWave nl nt k j a phi)) /\
  (~ inside (Z.of_nat k) -> run (EastWave nl nt k j a phi) = Ok (Zeros nl nt)) /\
  (inside (- Z.of_nat k)%Z -> run (WestWave nl nt k j a phi) = Ok (WestWave nl nt k j a phi)) /\
  (~ inside (- Z.of_nat k)%Z -> run (WestWave nl nt k j a phi) = Ok (Zeros nl nt)).
Proof.
  intros nt nl k j a phi d f1 f2 s1 s2 E1 E2 L J K F S0 f run inside.
  assert (G : k < nl) by lia. pose proof (even_run nt nl k j a phi d f1 f2 s1 s2 E1 E2 L J G F S0) as WR. pose proof (even_run nt nl (Opposite nl k) j a (- phi) d f1 f2 s1 s2 E1 E2 L J (opposite_lt nl k G) F S0) as ER.
  assert (SK : Signed nl k = Z.of_nat k) by (unfold Signed; destruct (Nat.leb_spec (2 * k) nl); [reflexivity|lia]).
  assert (SO : Signed nl (Opposite nl k) = (- Z.of_nat k)%Z). { unfold Opposite. destruct (Nat.eqb_spec k 0) as [->|]; [reflexivity|]. unfold Signed. destruct (Nat.leb_spec (2 * (nl - k)) nl); lia. }
  cbv zeta in WR, ER. rewrite SK in WR. rewrite SO, Z.opp_involutive in ER. rewrite <- east_opposite in ER by exact G. fold f in WR, ER. destruct WR as [W1 W2]. destruct ER as [X1 X2]. split; [exact X1|]. split; [exact X2|]. split; [exact W1|exact W2].
Qed.

Lemma C98_odd_proof : forall nt nl k j a phi dataperday freq_min freq_max wn_min wn_max,
  Nat.Odd nt -> Nat.Even nl -> 1 < nl -> 0 < j -> 2 * (j + 1) < nt -> 0 < 2 * k < nl -> (0 < freq_min)%Q -> ~ (freq_min == freq_max)%Q -> ~ (wn_min == wn_max)%Q ->
  let f i := (inject_Z (Z.of_nat i) * dataperday / inject_Z (Z.of_nat nt))%Q in
  let half i := if Qle_bool freq_min (f i) && Qle_bool (f i) freq_max && Qle_bool wn_min (inject_Z (Z.of_nat k)) && Qle_bool (inject_Z (Z.of_nat k)) wn_max
                then (1 / 2)%R else 0%R in
  filter_field nt nl dataperday freq_min freq_max wn_min wn_max (EastWave nl nt k j a phi) =
  Ok (EastWave nl nt k j ((half (j - 1)%nat + half (j + 1)%nat) * a)%R phi).
Proof.
  intros nt nl k j a phi d f1 f2 s1 s2 O E L J J2 K F0 F S0 f half. assert (G : k < nl) by lia. rewrite !east_opposite by exact G. rewrite west_run by (lia || (apply opposite_lt; lia)). f_equal. f_equal. f_equal.
  assert (OK : Opposite nl k = nl - k) by (unfold Opposite; destruct (Nat.eqb_spec k 0); lia). assert (OJ : Opposite nt j = nt - j) by (unfold Opposite; destruct (Nat.eqb_spec j 0); lia).
  rewrite !opposite_twice by exact G. rewrite OK, OJ. rewrite !(exchanged_even nl) by (assumption || lia). rewrite !exchanged_odd by (assumption || lia).
  set (band := fun i_f i_wn => passes f1 f2 s1 s2 (freq_axis nt d i_f) (wn_axis nl i_wn)).
  assert (SK : (- Signed nl (nl - k))%Z = Z.of_nat k) by (unfold Signed; destruct (Nat.leb_spec (2 * (nl - k)) nl); lia).
  assert (B : forall i, 2 * i <= nt -> share_of (band i (nl - k)) = half i).
  { intros i I. unfold band. rewrite passes_is by assumption. rewrite freq_signed, wn_signed, SK. replace (Signed nt i) with (Z.of_nat i) by (unfold Signed; destruct (Nat.leb_spec (2 * i) nt); [reflexivity|lia]). reflexivity. }
  assert (Z0 : forall q, band 0 q = false).
  { intros q. unfold band. rewrite passes_is by assumption. replace (Qle_bool f1 (freq_axis nt d 0)) with false; [reflexivity|]. symmetry. apply Bool.not_true_iff_false. intros X. apply Qle_bool_iff in X. assert (Y : (freq_axis nt d 0 == 0)%Q). { rewrite freq_signed. change (Signed nt 0) with 0%Z. unfold Qdiv. change (inject_Z 0) with 0%Q. ring. } rewrite Y in X. apply (Qlt_not_le _ _ F0 X). }
  apply (f_equal2 Rplus).
  - rewrite <- B by lia. f_equal. unfold Kept. replace (nt <? 2 * (j - 1)) with false by (symmetry; apply Nat.ltb_ge; lia). cbn [orb]. destruct (Nat.eq_dec j 1) as [->|N]; [cbn [Nat.sub]; rewrite Z0; reflexivity|].
    assert (OP : Opposite nt (j - 1) = nt - (j - 1)) by (unfold Opposite; destruct (Nat.eqb_spec (j - 1) 0); lia). rewrite OP. replace (nt <? 2 * (nt - (j - 1))) with true by (symmetry; apply Nat.ltb_lt; lia). cbn [orb]. apply Bool.andb_true_r.
  - rewrite <- B by lia. f_equal. unfold Kept. assert (OP : Opposite nt (nt - j - 1) = j + 1) by (unfold Opposite; destruct (Nat.eqb_spec (nt - j - 1) 0); lia). rewrite OP. assert (OQ : Opposite nl k = nl - k) by (unfold Opposite; destruct (Nat.eqb_spec k 0); lia). rewrite OQ.
    replace (nt <? 2 * (nt - j - 1)) with true by (symmetry; apply Nat.ltb_lt; lia). replace (nt <? 2 * (j + 1)) with false by (symmetry; apply Nat.ltb_ge; lia). reflexivity.
Qed.

Lemma C98_odd_refuted_proof :
  filter_field 9 4 1 (2 # 9) (4 # 9) (-1) 1 (EastWave 4 9 1 2 1 0) = Ok (EastWave 4 9 1 2 (1 / 2) 0) /\
  filter_field 9 4 1 (2 # 9) (4 # 9) (-1) 1 (EastWave 4 9 1 1 1 0) = Ok (EastWave 4 9 1 1 (1 / 2) 0) /\
  EastWave 4 9 1 2 1 0 <> EastWave 4 9 1 2 (1 / 2) 0.
Proof.
  assert (O : Nat.Odd 9) by (exists 4; reflexivity). assert (E : Nat.Even 4) by (exists 2; reflexivity). split; [|split].
  - rewrite (C98_odd_proof 9 4 1 2 1 0 1 (2 # 9) (4 # 9) (-1) 1 O E) by (lia || reflexivity || (intros X; discriminate X)). f_equal. f_equal. cbv [Nat.sub Nat.add]. cbn. field.
  - rewrite (C98_odd_proof 9 4 1 1 1 0 1 (2 # 9) (4 # 9) (-1) 1 O E) by (lia || reflexivity || (intros X; discriminate X)). f_equal. f_equal. cbv [Nat.sub Nat.add]. cbn. field.
  - assert (E0 : forall b, entry 0%R (EastWave 4 9 1 2 b 0) 0 0 = b).
    { intros b. rewrite east_opposite by lia. rewrite west_entry by lia. unfold Turn. replace (2 * PI * INR (Opposite 4 1) * INR 0 / INR 4 + 2 * PI * INR 2 * INR 0 / INR 9 + - 0)%R with 0%R by (change (INR 0) with 0%R; unfold Rdiv; ring). rewrite cos_0. ring. }
    intros X. apply (f_equal (fun M => entry 0%R M 0 0)) in X. rewrite !E0 in X. lra.
Qed.

Lemma C98_equal_refuted_proof : forall nt nl v dataperday freq_min freq_max wn_min wn_max, 1 < nl -> 0 < nt ->
  (freq_min == freq_max)%Q \/ (wn_min == wn_max)%Q ->
  filter_field nt nl dataperday freq_min freq_max wn_min wn_max v = Ok (Zeros nl nt).
Proof.
  intros nt nl v d f1 f2 s1 s2 L T H. rewrite field_run by assumption. f_equal. unfold Zeros. change (map (fun _ : nat => map (fun _ : nat => 0%R) (seq 0 nl)) (seq 0 nt)) with (tabulate nt nl (fun _ _ => 0%R)). apply tabulate_ext. intros t x _ _. apply s2_zero. intros p q P Q.
  assert (X : forall i k, i < nt -> Kept nt nl (fun i_f i_wn => passes f1 f2 s1 s2 (freq_axis nt d i_f) (wn_axis nl i_wn)) i k = false); [|rewrite X by (apply exchanged_lt; exact T); reflexivity].
  intros i k I. unfold Kept. rewrite !passes_equal by exact H. rewrite !Bool.orb_false_r. apply Bool.andb_false_iff. unfold Opposite. destruct (Nat.ltb_spec nt (2 * i)); [right|left; reflexivity]. destruct (Nat.eqb_spec i 0); apply Nat.ltb_ge; lia.
Qed.

Lemma C98_exceptions_proof : forall orig_nt nl data spacing period_min period_max wn_min wn_max,
  let run := perform_3dim_spectral_filtering orig_nt nl data spacing period_min period_max wn_min wn_max in
  ((spacing == 0)%Q \/ (period_min == 0)%Q \/ (period_max == 0)%Q -> run = Err ZeroDivisionError) /\
  ((0 < spacing)%Q -> ~ (period_min == 0)%Q -> ~ (period_max == 0)%Q ->
     ((131072 < Z.of_nat orig_nt)%Z -> run = Err ValueError) /\
     ((Z.of_nat orig_nt <= 131072)%Z -> data <> [] ->
        (nl = 0 -> run = Err ValueError) /\
        (0 < nl -> (inject_Z (Z.of_nat orig_nt + 1001) <= 10 / spacing)%Q -> run = Err ValueError) /\
        (nl = 1 -> (10 / spacing < inject_Z (Z.of_nat orig_nt + 1001))%Q -> run = Err IndexError))).
Proof.
  intros orig_nt nl data spacing p1 p2 s1 s2 run. split.
  - intros H. unfold run, perform_3dim_spectral_filtering. replace (Qeq_bool spacing 0 || Qeq_bool p2 0 || Qeq_bool p1 0) with true; [reflexivity|]. symmetry. rewrite !Bool.orb_true_iff, !Qeq_bool_iff. tauto.
  - intros SP P1 P2. split.
    + intros H. unfold run, perform_3dim_spectral_filtering. assert (Q0 : forall q, ~ (q == 0)%Q -> Qeq_bool q 0 = false) by (intros q X; destruct (Qeq_bool q 0) eqn:E; [apply Qeq_bool_iff in E; contradiction|reflexivity]). rewrite !Q0 by (assumption || (intros X; rewrite X in SP; discriminate SP)). cbn [orb]. destruct (Z.ltb_spec 131072 (Z.of_nat orig_nt)); [reflexivity|lia].
    + intros N D. pose proof pad_z as PZ.
      assert (PO : (0 < 10 / spacing)%Q) by (apply qdiv_pos; [reflexivity|exact SP]).
      pose proof (Qfloor_le (10 / spacing)) as F1. pose proof (Qlt_floor (10 / spacing)) as F2.
      assert (FN : (0 <= Qfloor (10 / spacing))%Z). { assert (X : (inject_Z 0 < inject_Z (Qfloor (10 / spacing) + 1))%Q) by (eapply Qlt_trans; [exact PO|exact F2]). rewrite <- Zlt_Qlt in X. lia. }
      set (w := Z.to_nat (Qfloor (10 / spacing))). assert (WZ : Z.of_nat w = Qfloor (10 / spacing)) by (apply Z2Nat.id; exact FN).
      assert (RUN : run = mapM (one_latitude orig_nt nl w (1 / spacing) (1 / p2) (1 / p1) s1 s2) data) by (apply main_run; try assumption; rewrite WZ; assumption).
      assert (ALL : forall e, (forall field, one_latitude orig_nt nl w (1 / spacing) (1 / p2) (1 / p1) s1 s2 field = Err e) -> run = Err e). { intros e X. rewrite RUN. destruct data as [|field data]; [contradiction|]. cbn [mapM]. rewrite X. reflexivity. }
      assert (LEN : forall field x, length (detrend (map (fun t => entry 0%R field t x) (seq 0 orig_nt)) ++ repeat 0%R pad) = orig_nt + pad) by (intros field x; rewrite app_length, detrend_len, map_length, seq_length, repeat_length; reflexivity).
      split; [|split].
      * intros ->. apply ALL. intros field. reflexivity.
      * intros L H. apply ALL. intros field. unfold one_latitude. destruct nl as [|nl]; [lia|]. cbn [seq mapM]. rewrite taper_short; [reflexivity| |].
        -- rewrite LEN. assert (X : (inject_Z (Z.of_nat orig_nt + 1001) < inject_Z (Qfloor (10 / spacing) + 1))%Q) by (eapply Qle_lt_trans; [exact H|exact F2]). rewrite <- Zlt_Qlt in X. lia.
        -- intros [X _]. apply (f_equal (@length R)) in X. rewrite LEN in X. cbn [length] in X. lia.
      * intros -> H. apply ALL. intros field. assert (X : (inject_Z (Qfloor (10 / spacing)) < inject_Z (Z.of_nat orig_nt + 1001))%Q) by (eapply Qle_lt_trans; [exact F1|exact H]). rewrite <- Zlt_Qlt in X. unfold one_latitude. cbn [seq mapM].
        destruct (taper_spec (detrend (map (fun t => entry 0%R field t 0) (seq 0 orig_nt)) ++ repeat 0%R pad) w) as (o & E & _); [rewrite LEN; lia|]. rewrite E. reflexivity.
Qed.

