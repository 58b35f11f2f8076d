(** Proofs about the bootstrap of derived curves. *)
From Verif Require Import PyBase ColumnModel UtilModel EclvModel EclvSpec EclvProofs BootModel BootSpec BootProofs DriveModel PairModel PairSpec.
From Coq Require Import String List Permutation Lqa Lia.
Import ListNotations.
Open Scope nat_scope.
Open Scope list_scope.

Lemma map_res_lift {X Y Z} (k : Y -> Z) (f : X -> res Y) (f' : X -> res Z) l : (forall x, f' x = match f x with Ok y => Ok (k y) | Err e => Err e end) ->
  map_res f' l = match map_res f l with Ok s => Ok (map k s) | Err e => Err e end.
Proof. intros H. induction l as [|x l IH]; [reflexivity|]. cbn [map_res]. rewrite H, IH. destruct (f x); [|reflexivity]. cbn [bind]. destruct (map_res f l); reflexivity. Qed.
(** ** The same draws for all arrays of one length *)
Section Draws.
Variable gen : Type.
Variable randint : gen -> nat -> nat * gen.
Variable seed_gen : Z -> gen.
Hypothesis below : forall g n, 0 < n -> fst (randint g n) < n.
Variable n : nat.
Hypothesis some : 0 < n.
Variables A T : Type.
Variable h : nat -> A.
Variable stat : array A -> res (list T).
Variable f : list nat -> T.
Definition fair (ids : list nat) : Prop := ids <> [] /\ Forall (fun i => i < n) ids.
Hypothesis stat_is : forall l, Forall fair l -> stat (Samples (map (map h) l)) = Ok (map f l).
Definition same (a : array nat) : res (list (list nat)) := match a with Samples l => Ok l | Data l => Ok [l] end.
Notation GEN0 := (generate_distributions_cbb gen randint nat (seq 0 n)).
Notation GENA := (generate_distributions_cbb gen randint A (map h (seq 0 n))).

Lemma take_map ids : take A (map h (seq 0 n)) ids = match take nat (seq 0 n) ids with Ok s => Ok (map h s) | Err e => Err e end.
Proof.
  unfold take. apply map_res_lift. intros i. rewrite nth_error_map. destruct (nth_error (seq 0 n) i); reflexivity.
Qed.
Lemma sample_map bl row : sample_of A (map h (seq 0 n)) bl row = match sample_of nat (seq 0 n) bl row with Ok s => Ok (map h s) | Err e => Err e end.
Proof. unfold sample_of. destruct (if (1 <? bl)%Z then _ else _) as [ids|]; [|reflexivity]. cbn [bind]. apply take_map. Qed.
Lemma samples_map bl rows : map_res (sample_of A (map h (seq 0 n)) bl) rows = match map_res (sample_of nat (seq 0 n) bl) rows with Ok s => Ok (map (map h) s) | Err e => Err e end.
Proof. apply map_res_lift. apply sample_map. Qed.
Lemma resample_fair bl s : BlockResample bl (seq 0 n) s -> fair s.
Proof.
  intros [L (start & S1 & S2)]. rewrite seq_length in *. split; [intros ->; cbn in L; lia|]. apply Forall_forall. intros x X. apply In_nth_error in X. destruct X as (p & X). assert (P : p < n) by (rewrite <- L; apply nth_error_Some; congruence). rewrite (S2 p P) in X. apply nth_error_In in X. apply in_seq in X. lia.
Qed.
Lemma gen_both g k bl : (0 <= k)%Z -> exists s g', GEN0 g k bl = Ok (s, g') /\ Forall fair s /\ GENA g k bl = Ok (map (map h) s, g').
Proof.
  intros K. destruct (gen_ok gen randint nat (seq 0 n) below) with (g := g) (k := k) (bl := bl) as (s & g' & E & F); [destruct n; [lia|discriminate]|exact K|]. exists s, g'. split; [exact E|]. split; [eapply Forall_impl; [|exact F]; intros a X; exact (resample_fair _ _ X)|].
  rewrite gen_eq in E by exact K. rewrite gen_eq by exact K. rewrite map_length. destruct (draw_matrix gen randint g _ (Z.to_nat k)) as (ids & g1). rewrite samples_map. destruct (map_res _ ids) as [s0|]; [|discriminate E]. cbn [bind] in *. injection E as <- <-. reflexivity.
Qed.
Lemma loop_both N B bl : forall rngs g acc r g', sim_loop gen randint nat (list nat) (seq 0 n) same g N B bl rngs acc = Ok (r, g') ->
  sim_loop gen randint A T (map h (seq 0 n)) stat g N B bl rngs (map f acc) = Ok (map f r, g').
Proof.
  induction rngs as [|rng rngs IH]; intros g acc r g' E; cbn [sim_loop] in *; [injection E as <- <-; reflexivity|].
  destruct (Z.ltb_spec (Z.min B (N - rng)) 0) as [X|X].
  - unfold generate_distributions_cbb in E. rewrite (proj2 (Z.ltb_lt _ _) X) in E. discriminate E.
  - destruct (gen_both g (Z.min B (N - rng)) bl X) as (s & g1 & E0 & F & EA). rewrite E0 in E. rewrite EA. cbn [bind same] in *. rewrite stat_is by exact F. cbn [bind]. rewrite <- map_app. apply IH. exact E.
Qed.
Lemma boot_both g N batch threads cpu seeds bl r : bootstrap_distribution_cbb gen randint seed_gen nat (list nat) (seq 0 n) same g N batch threads cpu seeds bl = Ok r ->
  bootstrap_distribution_cbb gen randint seed_gen A T (map h (seq 0 n)) stat g N batch threads cpu seeds bl = Ok (map f r).
Proof.
  unfold bootstrap_distribution_cbb. set (b := match batch with Some b => b | None => N end). set (th := if (threads =? -1)%Z then cpu else threads).
  assert (G : forall g N r g', bootstrap_sim_cbb gen randint nat (list nat) (seq 0 n) same g N b bl = Ok (r, g') -> bootstrap_sim_cbb gen randint A T (map h (seq 0 n)) stat g N b bl = Ok (map f r, g')).
  { clear r. intros g0 N0 r g' E. unfold bootstrap_sim_cbb in *. destruct (py_range N0 b) as [rngs|]; [|discriminate E]. cbn [bind] in *. exact (loop_both N0 b bl rngs g0 [] r g' E). }
  destruct (th <=? 1)%Z.
  - intros E. destruct (bootstrap_sim_cbb gen randint nat _ _ same g N b bl) as [[r0 g']|] eqn:E0; [|discriminate E]. cbn [bind fst] in E. injection E as <-. rewrite (G _ _ _ _ E0). reflexivity.
  - generalize (firstn (Z.to_nat th) seeds) as sd. generalize (- (- N / th))%Z as share. intros share sd. revert r. induction sd as [|s sd IH]; intros r E; cbn [map_res] in *; [injection E as <-; reflexivity|].
    destruct (bootstrap_sim_cbb gen randint nat _ _ same (seed_gen s) share b bl) as [[r0 g']|] eqn:E0; [|discriminate E]. rewrite (G _ _ _ _ E0). cbn [bind] in *. destruct (map_res _ sd) as [rs|] in E, IH; [|discriminate E]. cbn [bind] in E. injection E as <-. specialize (IH _ eq_refl). destruct (map_res _ sd) as [rsA|] in IH |- *; [|discriminate IH]. cbn [bind map concat fst] in *. injection IH as IH. rewrite IH, map_app. reflexivity.
Qed.
End Draws.
Lemma draws_exist gen randint seed_gen : (forall (g : gen) n, 0 < n -> fst (randint g n) < n) -> forall n g N batch threads cpu seeds bl,
  0 < n -> (0 < N)%Z -> match batch with Some b => (0 < b)%Z | None => True end -> (threads <= Z.of_nat (length seeds) /\ cpu <= Z.of_nat (length seeds))%Z ->
  exists draws, bootstrap_distribution_cbb gen randint seed_gen nat (list nat) (seq 0 n) same g N batch threads cpu seeds bl = Ok draws /\
    Forall (BlockResample (Nat.max 1 (Z.to_nat bl)) (seq 0 n)) draws.
Proof.
  intros B n g N batch threads cpu seeds bl P HN HB HT. destruct (C21_block_resamples_proof gen randint seed_gen nat (list nat) (seq 0 n) same (fun x => x) g N batch threads cpu seeds bl) as (s & E & F); try assumption.
  - intros l. cbn. rewrite map_id. reflexivity.
  - destruct n; [lia|discriminate].
  - rewrite map_id in E. exists s. split; assumption.
Qed.

(** ** The derived statistic of joined rows *)
Lemma index_first name columns k : nth_error columns k = Some name -> (forall j, j < k -> nth_error columns j <> Some name) -> index_of name columns = Some k.
Proof.
  revert k. induction columns as [|c cs IH]; intros k E N; [destruct k; discriminate E|]. cbn [index_of]. destruct (String.eqb_spec c name) as [->|X].
  - destruct k; [reflexivity|]. exfalso. exact (N 0 ltac:(lia) eq_refl).
  - destruct k; [cbn in E; congruence|]. rewrite (IH k E) by (intros j J; exact (N (S j) ltac:(lia))). reflexivity.
Qed.
Lemma index_none name columns : ~ In name columns -> index_of name columns = None.
Proof. induction columns as [|c cs IH]; intros N; [reflexivity|]. cbn [index_of]. destruct (String.eqb_spec c name) as [->|X]; [exfalso; apply N; left; reflexivity|]. rewrite IH by (intros I; apply N; right; exact I). reflexivity. Qed.
Definition joined (v1 v2 : tdata) (op : string) (i : nat) : list cell := nth i v1 [] ++ nth i v2 [] ++ [CStr op].
Lemma join_is v1 v2 op : length v1 = length v2 -> join v1 v2 op = Ok (map (joined v1 v2 op) (seq 0 (length v1))).
Proof.
  intros L. unfold join. rewrite L, Nat.eqb_refl. f_equal. rewrite <- L. revert v2 L. induction v1 as [|a v1 IH]; intros [|b v2] L; try discriminate L; [reflexivity|]. cbn [combine map length seq fst snd]. f_equal. rewrite IH by (cbn in L; lia). rewrite <- seq_shift, map_map. reflexivity.
Qed.
Lemma rows_incl v ids : Forall (fun i => i < length v) ids -> incl (RowsAt v ids) v.
Proof. intros F r R. unfold RowsAt in R. apply in_map_iff in R. destruct R as (i & <- & I). rewrite Forall_forall in F. apply nth_In. apply F. exact I. Qed.
Lemma derive_is (equivalence : list Q -> list Q -> res unit) op a b : op <> "ETB"%string ->
  (d <- calc_derived_curve_value equivalence (Some [a]) (Some [b]) op ;;
   match d with Undefined => Ok None | Values (x :: _) => Ok (Some x) | Values [] | Equivalence _ => Err NotModelled end) = Ok (Derive op a b).
Proof.
  intros N. unfold calc_derived_curve_value, Derive. destruct a as [x|], b as [y|]; cbn [all_present length Nat.eqb]; try reflexivity. unfold zip_with, has_zero. cbn [combine map existsb fst snd].
  destruct (String.eqb op "DIFF" || String.eqb op "DIFF_SIG"); [reflexivity|]. destruct (String.eqb op "RATIO"); [rewrite Bool.orb_false_r; destruct (Qeq_bool y 0); reflexivity|]. destruct (String.eqb op "SS"); [rewrite Bool.orb_false_r; destruct (Qeq_bool x 0); reflexivity|]. destruct (String.eqb op "SINGLE"); [reflexivity|]. destruct (String.eqb_spec op "ETB"); [contradiction|]. reflexivity.
Qed.
Section Stat.
Variable calculate : string -> option (tdata -> res pyval).
Variable equivalence : list Q -> list Q -> res unit.
Variable columns : list string.
Variables (v1 v2 : tdata) (op x y : string).
Hypothesis L12 : length v1 = length v2.
Hypothesis N1 : Named columns x v1.
Hypothesis N2 : Named columns y v2.
Lemma half_rows ids : Forall (fun i => i < length v1) ids ->
  let values := map (joined v1 v2 op) ids in
  let half := length columns in
  map (firstn half) values = RowsAt v1 ids /\ map (fun r => firstn half (skipn half r)) values = RowsAt v2 ids.
Proof.
  intros F values half. destruct N1 as (k1 & _ & _ & W1). destruct N2 as (k2 & _ & _ & W2). rewrite Forall_forall in W1, W2, F. unfold values, RowsAt. rewrite !map_map. split; apply map_ext_in; intros i I; specialize (F i I); pose proof F as F2; rewrite L12 in F2; destruct (W1 (nth i v1 []) (nth_In _ _ F)) as [A1 _]; destruct (W2 (nth i v2 []) (nth_In _ _ F2)) as [A2 _]; unfold joined, half.
  - rewrite <- A1. rewrite firstn_app, Nat.sub_diag, firstn_all. cbn [firstn]. apply app_nil_r.
  - rewrite skipn_app. rewrite (skipn_all2 (nth i v1 [])) by lia. rewrite A1, Nat.sub_diag. cbn [skipn app]. rewrite <- A2. rewrite firstn_app, Nat.sub_diag, firstn_all. cbn [firstn]. apply app_nil_r.
Qed.
Lemma width_of i : i < length v1 -> length (joined v1 v2 op i) = length columns + length columns + 1.
Proof.
  intros I. pose proof I as I2. rewrite L12 in I2. destruct N1 as (k1 & _ & _ & W1). destruct N2 as (k2 & _ & _ & W2). rewrite Forall_forall in W1, W2. unfold joined. rewrite !app_length. cbn [length]. rewrite (proj1 (W1 (nth i v1 []) (nth_In _ _ I))), (proj1 (W2 (nth i v2 []) (nth_In _ _ I2))). lia.
Qed.
Lemma stat_prefix ids : ids <> [] -> Forall (fun i => i < length v1) ids ->
  derived_stat calculate equivalence columns (map (joined v1 v2 op) ids) =
  (f1 <- function calculate (lower x) ;; f2 <- function calculate (lower y) ;; s1 <- f1 (RowsAt v1 ids) ;; s2 <- f2 (RowsAt v2 ids) ;;
   d <- calc_derived_curve_value equivalence (Some [s1]) (Some [s2]) op ;;
   match d with Undefined => Ok None | Values (x :: _) => Ok (Some x) | Values [] | Equivalence _ => Err NotModelled end).
Proof.
  intros NE F. destruct ids as [|i ids]; [contradiction|]. set (all := i :: ids) in *. destruct (half_rows all F) as [H1 H2]. pose proof (Forall_inv F) as I. cbv beta in I. pose proof I as I2. rewrite L12 in I2. unfold derived_stat. change (match map (joined v1 v2 op) all with r :: _ => length r - 1 | [] => 0 end) with (length (joined v1 v2 op i) - 1). rewrite (width_of i I). replace (length columns + length columns + 1 - 1) with (length columns * 2) by lia. rewrite Nat.div_mul by lia. replace (length columns * 2 - length columns) with (length columns) by lia. cbv zeta. rewrite H1, H2.
  destruct N1 as (k & K1 & K2 & W1). destruct N2 as (k' & K1' & K2' & W2). assert (k' = k) as -> by (destruct (Nat.lt_trichotomy k k') as [Q|[Q|Q]]; [exfalso; exact (K2' _ Q K1)|symmetry; exact Q|exfalso; exact (K2 _ Q K1')]). rewrite (index_first _ _ _ K1 K2). cbn [bind]. rewrite Forall_forall in W1, W2. unfold all at 1 2. cbn [RowsAt map name_in]. rewrite (proj2 (W1 (nth i v1 []) (nth_In _ _ I))). cbn [bind]. rewrite (proj2 (W2 (nth i v2 []) (nth_In _ _ I2))). cbn [bind].
  replace (match map (joined v1 v2 op) all with r :: _ => match last r CMiss with CStr op0 => op0 | _ => ""%string end | [] => ""%string end) with op; [reflexivity|]. unfold all. cbn [map]. unfold joined. rewrite app_assoc, last_last. reflexivity.
Qed.
Variables f1 f2 : tdata -> res pyval.
Variables F1 F2 : tdata -> pyval.
Hypothesis C1 : calculate (lower x) = Some f1.
Hypothesis C2 : calculate (lower y) = Some f2.
Hypothesis O1 : OnRows v1 f1 F1.
Hypothesis O2 : OnRows v2 f2 F2.
Hypothesis NETB : op <> "ETB"%string.
Lemma stat_of ids : ids <> [] -> Forall (fun i => i < length v1) ids ->
  derived_stat calculate equivalence columns (map (joined v1 v2 op) ids) = Ok (Derive op (F1 (RowsAt v1 ids)) (F2 (RowsAt v2 ids))).
Proof.
  intros NE F. rewrite (stat_prefix ids NE F). unfold function. rewrite C1, C2. cbn [bind]. rewrite (O1 _ (rows_incl v1 ids F)). cbn [bind]. assert (F' : Forall (fun i => i < length v2) ids) by (rewrite <- L12; exact F). rewrite (O2 _ (rows_incl v2 ids F')). cbn [bind]. apply derive_is. exact NETB.
Qed.
End Stat.
Lemma rows_all v : RowsAt v (seq 0 (length v)) = v.
Proof. unfold RowsAt. induction v as [|a v IH]; [reflexivity|]. cbn [length seq map nth]. f_equal. rewrite <- seq_shift, map_map. exact IH. Qed.

(** ** The whole call *)
Lemma block_size (cbb : bool) n : 0 < n -> Nat.max 1 (Z.to_nat (if cbb then Z.sqrt (Z.of_nat n) else 1%Z)) = if cbb then Nat.sqrt n else 1.
Proof.
  intros P. destruct cbb; [|reflexivity]. replace (Z.sqrt (Z.of_nat n)) with (Z.of_nat (Nat.sqrt n)).
  - rewrite Nat2Z.id. pose proof (Nat.sqrt_le_mono 1 n P) as M. change (Nat.sqrt 1) with 1 in M. lia.
  - symmetry. apply Z.sqrt_unique. pose proof (Nat.sqrt_spec n ltac:(lia)) as [A B]. rewrite <- Nat2Z.inj_succ. split; [rewrite <- Nat2Z.inj_mul; lia|]. rewrite <- Nat2Z.inj_mul. lia.
Qed.
Lemma all_draws (gen : Type) randint seed_gen : (forall (g : gen) n, 0 < n -> fst (randint g n) < n) ->
  forall n g N threads cpu seeds (is_cbb : bool), 0 < n -> (0 < N)%Z -> (threads <= Z.of_nat (length seeds) /\ cpu <= Z.of_nat (length seeds))%Z ->
  exists draws, Forall (BlockResample (if is_cbb then Nat.sqrt n else 1) (seq 0 n)) draws /\
    forall calculate equivalence columns alpha method operation v1 v2 x y f1 f2 F1 F2, length v1 = n -> length v2 = n ->
    Named columns x v1 -> Named columns y v2 -> calculate (lower x) = Some f1 -> calculate (lower y) = Some f2 ->
    OnRows v1 f1 F1 -> OnRows v2 f2 F2 -> operation <> "ETB"%string ->
    let dist := map (fun ids => Derive operation (F1 (RowsAt v1 ids)) (F2 (RowsAt v2 ids))) draws in
    derived_bootstrap gen randint seed_gen calculate equivalence columns alpha g N threads cpu seeds method is_cbb operation v1 v2 =
    (r <- get_confidence_interval_and_value dist (Derive operation (F1 v1) (F2 v2)) alpha method ;; Ok (r, dist)).
Proof.
  intros B n g N threads cpu seeds is_cbb P HN HT.
  destruct (draws_exist gen randint seed_gen B n g N None threads cpu seeds (if is_cbb then Z.sqrt (Z.of_nat n) else 1%Z) P HN I HT) as (draws & E & F).
  exists draws. split; [rewrite <- (block_size is_cbb n P); exact F|].
  intros calculate equivalence columns alpha method operation v1 v2 x y f1 f2 F1 F2 L1 L2 N1 N2 C1 C2 O1 O2 NE dist.
  assert (L12 : length v1 = length v2) by lia.
  unfold derived_bootstrap. rewrite (join_is v1 v2 operation L12), L1. cbn [bind]. rewrite map_length, seq_length. unfold bootstrap_and_value.
  assert (S0 : calc_stats_derived calculate equivalence columns (Data (map (joined v1 v2 operation) (seq 0 n))) = Ok [Derive operation (F1 v1) (F2 v2)]).
  { cbn [calc_stats_derived]. rewrite (stat_of calculate equivalence columns v1 v2 operation x y L12 N1 N2 f1 f2 F1 F2 C1 C2 O1 O2 NE).
    - cbn [bind]. rewrite <- L1 at 1. rewrite rows_all, <- L2, rows_all. reflexivity.
    - destruct n; [lia|discriminate].
    - rewrite L1. apply Forall_forall. intros i I. apply in_seq in I. lia. }
  rewrite S0. cbn [bind]. replace ((if is_cbb then Z.sqrt (Z.of_nat n) else 1) =? 0)%Z with false.
  2:{ symmetry. apply Z.eqb_neq. destruct is_cbb; [|discriminate]. pose proof (Z.sqrt_le_mono 1 (Z.of_nat n) ltac:(lia)) as M. change (Z.sqrt 1) with 1%Z in M. lia. }
  rewrite (boot_both gen randint seed_gen B n P (list cell) pyval (joined v1 v2 operation) (calc_stats_derived calculate equivalence columns)
    (fun ids => Derive operation (F1 (RowsAt v1 ids)) (F2 (RowsAt v2 ids)))) with (r := draws); [reflexivity| |exact E].
  intros l. induction l as [|ids l IH]; intros FA; [reflexivity|]. cbn [calc_stats_derived map map_res] in *. inversion FA as [|? ? [Q1 Q2] FB]; subst.
  rewrite (stat_of calculate equivalence columns v1 v2 operation x y L12 N1 N2 f1 f2 F1 F2 C1 C2 O1 O2 NE); [|exact Q1|exact Q2].
  cbn [bind]. rewrite (IH FB). reflexivity.
Qed.
Lemma draw_below n bl ids : 0 < n -> BlockResample bl (seq 0 n) ids -> Forall (fun i => i < n) ids.
Proof. intros P R. exact (proj2 (resample_fair n P bl ids R)). Qed.
(** ** Quantiles of the negative numbers *)
Open Scope Q_scope.
Lemma count_opp x l : (smaller (- x) (map Qopp l) + not_larger x l = length l)%nat /\ (not_larger (- x) (map Qopp l) + smaller x l = length l)%nat.
Proof.
  unfold smaller, not_larger. induction l as [|y l [A B]]; [split; reflexivity|]. cbn [map filter length].
  assert (E1 : Qle_bool (- x) (- y) = Qle_bool y x) by (apply Bool.eq_iff_eq_true; rewrite !Qle_bool_iff; split; lra).
  assert (E2 : Qle_bool (- y) (- x) = Qle_bool x y) by (apply Bool.eq_iff_eq_true; rewrite !Qle_bool_iff; split; lra).
  rewrite E1, E2. destruct (Qle_bool y x), (Qle_bool x y); cbn [negb length]; lia.
Qed.
Lemma order_opp l k x : OrderStatistic l k x -> OrderStatistic (map Qopp l) (length l - 1 - k) (- x).
Proof.
  intros O. pose proof (order_len _ _ _ O) as K. destruct O as (I & A & B). destruct (count_opp x l) as [C D]. split; [apply in_map; exact I|]. lia.
Qed.
Lemma order_exists l k : (k < length l)%nat -> exists x, OrderStatistic l k x.
Proof.
  intros K. pose proof (sortQ_perm l) as P. assert (K' : (k < length (sortQ l))%nat) by (rewrite (Permutation_length P); exact K).
  destruct (nth_error (sortQ l) k) as [x|] eqn:E; [|apply nth_error_None in E; lia]. exists x. apply (order_perm _ _ _ _ P). exact (order_of_sorted _ (sortQ_asc l) _ _ E).
Qed.
Lemma quantile_opp l f p : Quantile l f p -> Quantile (map Qopp l) (1 - f) (- p).
Proof.
  intros (k & t & a & b & E & T & OA & OB & V). pose proof (order_len _ _ _ OA) as K. unfold Quantile. rewrite map_length. set (n := length l) in *.
  assert (W : forall m : nat, (m <= n - 1)%nat -> inject_Z (Z.of_nat (n - 1 - m)) == inject_Z (Z.of_nat n - 1) - inject_Z (Z.of_nat m)).
  { intros m M. replace (Z.of_nat (n - 1 - m)) with (Z.of_nat n - 1 - Z.of_nat m)%Z by lia. unfold Z.sub at 1. rewrite inject_Z_plus, inject_Z_opp. lra. }
  destruct (Qeq_dec t 0) as [T0|T0].
  - exists (n - 1 - k)%nat, 0, (- a). destruct (Nat.eq_dec k 0) as [->|K0].
    + exists (- a). rewrite (W 0%nat ltac:(lia)). split; [lra|]. split; [lra|]. split; [apply order_opp; exact OA|]. split; [right; split; [reflexivity|split; [lia|reflexivity]]|]. rewrite V, T0. lra.
    + destruct (order_exists l (k - 1) ltac:(lia)) as (c & OC). exists (- c). rewrite (W k ltac:(lia)). split; [lra|]. split; [lra|]. split; [apply order_opp; exact OA|]. split; [|rewrite V, T0; lra].
      left. replace (S (n - 1 - k)) with (n - 1 - (k - 1))%nat by lia. apply order_opp. exact OC.
  - destruct OB as [OB|[Z _]]; [|contradiction]. pose proof (order_len _ _ _ OB) as K2. fold n in K2. exists (n - 1 - S k)%nat, (1 - t), (- b), (- a). rewrite (W (S k) ltac:(lia)).
    assert (Sk : inject_Z (Z.of_nat (S k)) == inject_Z (Z.of_nat k) + 1) by (rewrite Nat2Z.inj_succ; unfold Z.succ; rewrite inject_Z_plus; reflexivity).
    assert (t1 : 0 < t) by (destruct (Qlt_le_dec 0 t); [assumption|exfalso; apply T0; lra]).
    split; [rewrite Sk; lra|]. split; [lra|]. split; [apply order_opp; exact OB|]. split; [left; replace (S (n - 1 - S k)) with (n - 1 - k)%nat by lia; apply order_opp; exact OA|]. rewrite V. ring.
Qed.
Lemma known_opp d : known (map Negative d) = map Qopp (known d).
Proof. induction d as [|[x|] d IH]; cbn; [reflexivity|f_equal; exact IH|exact IH]. Qed.
Lemma in_opp d x : In (Some x) d -> In (Some (- x)) (map Negative d).
Proof. intros I. change (Some (- x)) with (Negative (Some x)). apply in_map. exact I. Qed.
Lemma values_cases d : {x & {y | In x (known d) /\ In y (known d) /\ ~ x == y}} + (forall x y, In x (known d) -> In y (known d) -> x == y).
Proof.
  induction (known d) as [|x l [(a & b & A & B & N)|IH]]; [right; intros x y []| |].
  - left. exists a, b. repeat split; try right; assumption.
  - destruct l as [|y l]; [right; intros a b [<-|[]] [<-|[]]; reflexivity|]. destruct (Qeq_dec x y) as [Q|Q].
    + right. assert (X : forall a, In a (x :: y :: l) -> a == y) by (intros a [<-|I]; [exact Q|apply IH; [exact I|left; reflexivity]]). intros a b Ia Ib. rewrite (X a Ia), (X b Ib). reflexivity.
    + left. exists x, y. repeat split; [left; reflexivity|right; left; reflexivity|exact Q].
Qed.
Lemma opp_opp (q : Q) : - - q = q.
Proof. destruct q. unfold Qopp. cbn. f_equal. lia. Qed.
Lemma limits_negative dist v alpha r : 0 <= alpha <= 1 -> get_confidence_interval_and_value dist v alpha Perc = Ok r ->
  exists r', get_confidence_interval_and_value (map Negative dist) (Negative v) alpha Perc = Ok r' /\ value r' = Negative (value r) /\
    SameValue (lower_bound r') (Negative (upper_bound r)) /\ SameValue (upper_bound r') (Negative (lower_bound r)).
Proof.
  intros A E. destruct v as [v|]; [|cbn in E; injection E as <-; exists (Results None None None); repeat split].
  destruct dist as [|d0 dist0]; [cbn in E; injection E as <-; exists (Results None (Some (- v)) None); repeat split|]. set (dist := d0 :: dist0) in *. assert (NE : dist <> []) by discriminate. clearbody dist. cbn [Negative option_map].
  destruct (values_cases dist) as [(x & y & X & Y & XY)|S].
  - apply in_known in X, Y. destruct (C22_percentile_limits_proof dist v alpha x y X Y XY A) as (lo & hi & E1 & Q1 & Q2). rewrite E1 in E. injection E as <-.
    assert (XY' : ~ - x == - y) by (intros Z; apply XY; lra).
    destruct (C22_percentile_limits_proof (map Negative dist) (- v) alpha (- x) (- y) (in_opp _ _ X) (in_opp _ _ Y) XY' A) as (lo' & hi' & E2 & Q1' & Q2').
    exists (Results (Some lo') (Some (- v)) (Some hi')). rewrite known_opp in Q1', Q2'. split; [exact E2|]. split; [reflexivity|]. cbn. split.
    + apply (quantile_unique _ _ _ _ Q1'). apply quantile_opp in Q2. refine (quantile_ext _ _ _ _ _ Q2). lra.
    + apply (quantile_unique _ _ _ _ Q2'). apply quantile_opp in Q1. refine (quantile_ext _ _ _ _ _ Q1). lra.
  - destruct (known dist) as [|x l] eqn:EK.
    + exfalso. destruct (C22_all_missing_raises_proof dist v alpha NE) as (e & EE); [|rewrite EE in E; discriminate E]. intros [z|] I; [|reflexivity]. apply in_known in I. rewrite EK in I. contradiction.
    + assert (X : In (Some x) dist) by (apply in_known; rewrite EK; left; reflexivity).
      rewrite (C22_constant_no_limits_proof dist v alpha x X) in E.
      2:{ intros y Y. apply in_known in Y. rewrite EK in Y. apply S; [exact Y|left; reflexivity]. }
      injection E as <-. exists (Results None (Some (- v)) None). split; [|repeat split]. apply (C22_constant_no_limits_proof _ _ _ (- x) (in_opp _ _ X)). intros y Y. apply in_known in Y. rewrite known_opp, EK in Y. apply in_map_iff in Y. destruct Y as (z & <- & Z). rewrite (S z x Z (or_introl eq_refl)). reflexivity.
Qed.
Lemma derive_swap a b : Derive "DIFF" b a = Negative (Derive "DIFF" a b).
Proof. destruct a as [[an ad]|], b as [[bn bd]|]; cbn; try reflexivity. f_equal. unfold Qminus, Qplus, Qopp. cbn. f_equal; [lia|apply Pos.mul_comm]. Qed.
Close Scope Q_scope.

Lemma percentile_key l q : percentile l q <> Err KeyError.
Proof. unfold percentile. destruct (negb _); [discriminate|]. destruct (nth_error _ _); [|discriminate]. destruct (nth_error _ _); discriminate. Qed.
Lemma no_key_error dist v alpha method : get_confidence_interval_and_value dist v alpha method <> Err KeyError.
Proof.
  unfold get_confidence_interval_and_value. destruct v as [v|]; [|discriminate]. destruct method; [| |discriminate].
  - unfold percentile_any. destruct (negb _); [discriminate|]. destruct (existsb _ dist); [discriminate|]. pose proof (percentile_key (not_none dist) (100 * (1 - alpha / 2))) as K1. destruct (percentile _ (100 * (1 - _))) as [a|]; cbn [bind]; [|intros X; apply K1; congruence]. destruct (negb _); [discriminate|]. pose proof (percentile_key (not_none dist) (100 * (alpha / 2))) as K2. destruct (percentile _ (100 * _)) as [b|]; cbn [bind]; [discriminate|intros X; apply K2; congruence].
  - destruct (all_the_same dist); [discriminate|]. cbv zeta. pose proof (percentile_key (not_none dist) (100 * (alpha / 2))) as K2. destruct (percentile _ (100 * (alpha / 2))) as [b|]; cbn [bind]; [|intros X; apply K2; congruence]. pose proof (percentile_key (not_none dist) (100 * (1 - alpha / 2))) as K1. destruct (percentile _ (100 * (1 - _))) as [a|]; cbn [bind]; [discriminate|intros X; apply K1; congruence].
Qed.

(** The statements of PropertiesPair.v. *)
Lemma C107_paired_proof : forall (gen : Type) randint seed_gen, (forall (g : gen) n, 0 < n -> fst (randint g n) < n) ->
  forall n g N threads cpu seeds (is_cbb : bool), 0 < n -> (0 < N)%Z -> (threads <= Z.of_nat (length seeds) /\ cpu <= Z.of_nat (length seeds))%Z ->
  exists draws, Forall (BlockResample (if is_cbb then Nat.sqrt n else 1) (seq 0 n)) draws /\
    forall calculate equivalence columns alpha method operation v1 v2 x y f1 f2 F1 F2, length v1 = n -> length v2 = n ->
    Named columns x v1 -> Named columns y v2 -> calculate (lower x) = Some f1 -> calculate (lower y) = Some f2 ->
    OnRows v1 f1 F1 -> OnRows v2 f2 F2 -> operation <> "ETB"%string ->
    let dist := map (fun ids => Derive operation (F1 (RowsAt v1 ids)) (F2 (RowsAt v2 ids))) draws in
    derived_bootstrap gen randint seed_gen calculate equivalence columns alpha g N threads cpu seeds method is_cbb operation v1 v2 =
    (r <- get_confidence_interval_and_value dist (Derive operation (F1 v1) (F2 v2)) alpha method ;; Ok (r, dist)).
Proof.
  exact all_draws.
Qed.

Lemma C107_driver_proof : forall (gen : Type) randint seed_gen, (forall (g : gen) n, 0 < n -> fst (randint g n) < n) ->
  forall n g N threads cpu seeds (is_cbb : bool), 0 < n -> (0 < N)%Z -> (threads <= Z.of_nat (length seeds) /\ cpu <= Z.of_nat (length seeds))%Z ->
  exists draws, Forall (BlockResample (if is_cbb then Nat.sqrt n else 1) (seq 0 n)) draws /\
    forall e calculate columns alpha method statistic operation v1 v2 x y f1 f2 F1 F2, length v1 = n -> length v2 = n ->
    Named columns x v1 -> Named columns y v2 -> calculate (lower x) = Some f1 -> calculate (lower y) = Some f2 ->
    OnRows v1 f1 F1 -> OnRows v2 f2 F2 -> operation <> "ETB"%string ->
    let dist := map (fun ids => Derive operation (F1 (RowsAt v1 ids)) (F2 (RowsAt v2 ids))) draws in
    derived_boot (with_bootstrap gen randint seed_gen e calculate columns alpha g N threads cpu seeds method is_cbb) statistic operation v1 v2 =
    (r <- get_confidence_interval_and_value dist (Derive operation (F1 v1) (F2 v2)) alpha method ;;
     Ok (r, if String.eqb operation "DIFF_SIG" then Some dist else None)).
Proof.
  intros gen randint seed_gen B n g N threads cpu seeds is_cbb P HN HT. destruct (all_draws gen randint seed_gen B n g N threads cpu seeds is_cbb P HN HT) as (draws & D & W). exists draws. split; [exact D|].
  intros e calculate columns alpha method statistic operation v1 v2 x y f1 f2 F1 F2 L1 L2 N1 N2 C1 C2 O1 O2 NE dist. unfold derived_boot. rewrite L1, L2, Nat.eqb_refl. cbn [with_bootstrap boot_derived].
  rewrite (W calculate (DriveModel.equivalence e) columns alpha method operation v1 v2 x y f1 f2 F1 F2 L1 L2 N1 N2 C1 C2 O1 O2 NE). fold dist. pose proof (no_key_error dist (Derive operation (F1 v1) (F2 v2)) alpha method) as K.
  destruct (get_confidence_interval_and_value dist _ alpha method) as [r|[]]; cbn [bind]; try reflexivity. contradiction.
Qed.

Lemma C107_paired_case_proof : Named ["stat_name"; "total"]%string "ME" [[CStr "ME"; CNum 3]; [CStr "ME"; CNum 4]] /\
  BlockResample 2 (seq 0 4) [3; 0; 1; 2].
Proof.
  split.
  - exists 0. split; [reflexivity|]. split; [intros j J; lia|]. repeat constructor.
  - split; [reflexivity|]. exists (fun b => if b =? 0 then 3 else 1). split; [intros b; destruct (b =? 0); cbn; lia|]. intros p P. cbn in P. destruct p as [|[|[|[|p]]]]; try reflexivity; lia.
Qed.

Lemma C107_same_proof : forall (gen : Type) randint seed_gen, (forall (g : gen) n, 0 < n -> fst (randint g n) < n) ->
  forall g N threads cpu seeds is_cbb calculate equivalence columns alpha v x f F, v <> [] -> (0 < N)%Z ->
  (threads <= Z.of_nat (length seeds) /\ cpu <= Z.of_nat (length seeds))%Z ->
  Named columns x v -> calculate (lower x) = Some f -> OnRows v f F -> (forall d, incl d v -> F d <> None) ->
  exists z d, derived_bootstrap gen randint seed_gen calculate equivalence columns alpha g N threads cpu seeds Perc is_cbb "DIFF" v v =
    Ok (Results None (Some z) None, d) /\ (z == 0)%Q.
Proof.
  intros gen randint seed_gen B g N threads cpu seeds is_cbb calculate equivalence columns alpha v x f F NE HN HT NA C O K.
  assert (P : 0 < length v) by (destruct v; [contradiction|cbn; lia]).
  destruct (all_draws gen randint seed_gen B (length v) g N threads cpu seeds is_cbb P HN HT) as (draws & D & E).
  rewrite (E calculate equivalence columns alpha Perc "DIFF"%string v v x x f f F F eq_refl eq_refl NA NA C C O O) by discriminate. clear E.
  assert (Z : forall d, incl d v -> exists z, Derive "DIFF" (F d) (F d) = Some z /\ (z == 0)%Q).
  { intros d I. specialize (K d I). destruct (F d) as [q|]; [|contradiction]. exists (q - q)%Q. split; [reflexivity|ring]. }
  destruct (Z v (incl_refl v)) as (z & Ez & Hz). rewrite Ez. set (dist := map _ draws).
  assert (DZ : forall a, In a dist -> exists z, a = Some z /\ (z == 0)%Q).
  { intros a I. apply in_map_iff in I. destruct I as (ids & <- & I). rewrite Forall_forall in D. apply Z. apply rows_incl. exact (draw_below _ _ _ P (D _ I)). }
  clearbody dist. exists z, dist. split; [|exact Hz]. destruct dist as [|a dist]; [reflexivity|]. destruct (DZ a (or_introl eq_refl)) as (z0 & -> & H0).
  rewrite (C22_constant_no_limits_proof _ z alpha z0); [reflexivity|left; reflexivity|]. intros y Y. destruct (DZ _ Y) as (z1 & E1 & H1). injection E1 as ->. rewrite H0, H1. reflexivity.
Qed.

Lemma C107_swap_proof : forall (gen : Type) randint seed_gen, (forall (g : gen) n, 0 < n -> fst (randint g n) < n) ->
  forall g N threads cpu seeds is_cbb calculate equivalence columns alpha v1 v2 x y f1 f2 F1 F2 r d, v1 <> [] -> length v1 = length v2 -> (0 < N)%Z ->
  (threads <= Z.of_nat (length seeds) /\ cpu <= Z.of_nat (length seeds))%Z -> (0 <= alpha <= 1)%Q ->
  Named columns x v1 -> Named columns y v2 -> calculate (lower x) = Some f1 -> calculate (lower y) = Some f2 ->
  OnRows v1 f1 F1 -> OnRows v2 f2 F2 ->
  let run := derived_bootstrap gen randint seed_gen calculate equivalence columns alpha g N threads cpu seeds Perc is_cbb "DIFF" in
  run v1 v2 = Ok (r, d) ->
  exists r', run v2 v1 = Ok (r', map Negative d) /\ value r' = Negative (value r) /\
    SameValue (lower_bound r') (Negative (upper_bound r)) /\ SameValue (upper_bound r') (Negative (lower_bound r)).
Proof.
  intros gen randint seed_gen B g N threads cpu seeds is_cbb calculate equivalence columns alpha v1 v2 x y f1 f2 F1 F2 r d NE L HN HT HA N1 N2 C1 C2 O1 O2 run E.
  assert (P : 0 < length v1) by (destruct v1; [contradiction|cbn; lia]).
  destruct (all_draws gen randint seed_gen B (length v1) g N threads cpu seeds is_cbb P HN HT) as (draws & D & W).
  assert (ND : "DIFF"%string <> "ETB"%string) by discriminate.
  unfold run in *. rewrite (W calculate equivalence columns alpha Perc "DIFF"%string v1 v2 x y f1 f2 F1 F2 eq_refl (eq_sym L) N1 N2 C1 C2 O1 O2 ND) in E.
  rewrite (W calculate equivalence columns alpha Perc "DIFF"%string v2 v1 y x f2 f1 F2 F1 (eq_sym L) eq_refl N2 N1 C2 C1 O2 O1 ND). cbv zeta in *.
  set (dist := map _ draws) in E. destruct (get_confidence_interval_and_value dist _ alpha Perc) as [r0|] eqn:E0 in E; [|discriminate E]. cbn [bind] in E. injection E as -> <-.
  destruct (limits_negative _ _ _ _ HA E0) as (r' & E' & R). exists r'. split; [|exact R].
  replace (map (fun ids => Derive "DIFF" (F2 (RowsAt v2 ids)) (F1 (RowsAt v1 ids))) draws) with (map Negative dist).
  - rewrite derive_swap, E'. reflexivity.
  - unfold dist. rewrite map_map. apply map_ext. intros ids. symmetry. apply derive_swap.
Qed.

Lemma C107_rounding_refuted_proof : forall e columns statistic operation r1 r2 v1 v2 q, operation <> "ETB"%string ->
  Derive operation (value (outcome r1)) (value (outcome r2)) = Some q ->
  derived_one e columns statistic operation r1 r2 v1 v2 = Ok (Some (round_half_up q 5)) /\
  forall (gen : Type) randint seed_gen, (forall (g : gen) n, 0 < n -> fst (randint g n) < n) ->
    forall g N threads cpu seeds is_cbb calculate equivalence alpha method x y f1 f2 F1 F2 r d, v1 <> [] -> length v1 = length v2 -> (0 < N)%Z ->
    (threads <= Z.of_nat (length seeds) /\ cpu <= Z.of_nat (length seeds))%Z -> method <> OtherMethod ->
    Named columns x v1 -> Named columns y v2 -> calculate (lower x) = Some f1 -> calculate (lower y) = Some f2 ->
    OnRows v1 f1 F1 -> OnRows v2 f2 F2 -> F1 v1 = value (outcome r1) -> F2 v2 = value (outcome r2) ->
    derived_bootstrap gen randint seed_gen calculate equivalence columns alpha g N threads cpu seeds method is_cbb operation v1 v2 = Ok (r, d) ->
    value r = Some q.
Proof.
  intros e columns statistic operation r1 r2 v1 v2 q NE E. split.
  - pose proof (derive_is (DriveModel.equivalence e) operation (value (outcome r1)) (value (outcome r2)) NE) as D. rewrite E in D. unfold derived_one. destruct (String.eqb_spec operation "ETB") as [X|_]; [contradiction|]. cbn [bind fst snd].
    destruct (calc_derived_curve_value _ _ _ operation) as [d|]; [|discriminate D]. cbn [bind] in *. destruct d as [|[|x l]|]; try discriminate D. injection D as ->. reflexivity.
  - intros gen randint seed_gen B g N threads cpu seeds is_cbb calculate equivalence alpha method x y f1 f2 F1 F2 r d NN L HN HT HM N1 N2 C1 C2 O1 O2 V1 V2 W.
    assert (P : 0 < length v1) by (destruct v1; [contradiction|cbn; lia]).
    destruct (all_draws gen randint seed_gen B (length v1) g N threads cpu seeds is_cbb P HN HT) as (draws & D & X).
    rewrite (X calculate equivalence columns alpha method operation v1 v2 x y f1 f2 F1 F2 eq_refl (eq_sym L) N1 N2 C1 C2 O1 O2 NE) in W. cbv zeta in W. rewrite V1, V2, E in W.
    set (dist := map _ draws) in W. clearbody dist. unfold get_confidence_interval_and_value in W. destruct method; [| |contradiction].
    + destruct (percentile_any dist (100 * (1 - alpha / 2))) as [a|]; [|discriminate W]. cbn [bind] in W. destruct (percentile_any dist _) as [b|] in W; [|discriminate W]. cbn [bind] in W. injection W as <- _. unfold BootstrapResults. destruct (Qlt_bool _ _); reflexivity.
    + destruct (all_the_same dist); [cbn in W; injection W as <- _; reflexivity|]. cbv zeta in W. destruct (percentile _ _) as [a|] in W; [|discriminate W]. cbn [bind] in W. destruct (percentile _ _) as [b|] in W; [|discriminate W]. cbn [bind] in W. injection W as <- _. unfold BootstrapResults. destruct (Qlt_bool _ _); reflexivity.
Qed.

Lemma C107_rounding_case_proof : Derive "DIFF" (Some (500004 # 1000000)%Q) (Some (1 # 2)%Q) = Some (8 # 2000000)%Q /\
  (round_half_up (8 # 2000000) 5 == 0)%Q.
Proof.
  split; reflexivity.
Qed.

Lemma C107_statistic_refuted_proof : forall gen randint seed_gen e calculate columns alpha g N threads cpu seeds method is_cbb statistic operation v1 v2,
  length v1 = length v2 -> ~ In "stat_name"%string columns ->
  derived_boot (with_bootstrap gen randint seed_gen e calculate columns alpha g N threads cpu seeds method is_cbb) statistic operation v1 v2 = Err IndexError.
Proof.
  intros gen randint seed_gen e calculate columns alpha g N threads cpu seeds method is_cbb statistic operation v1 v2 L NI. unfold derived_boot. rewrite L, Nat.eqb_refl. cbn [with_bootstrap boot_derived]. unfold derived_bootstrap. rewrite (join_is _ _ _ L). cbn [bind]. unfold bootstrap_and_value. cbn [calc_stats_derived]. unfold derived_stat. rewrite (index_none _ _ NI). reflexivity.
Qed.

Lemma C107_exceptions_proof : forall gen randint seed_gen e calculate columns alpha g N threads cpu seeds method is_cbb statistic operation v1 v2,
  let run := derived_boot (with_bootstrap gen randint seed_gen e calculate columns alpha g N threads cpu seeds method is_cbb) statistic operation v1 v2 in
  (length v1 <> length v2 -> run = Err ValueError /\ forall equivalence,
     derived_bootstrap gen randint seed_gen calculate equivalence columns alpha g N threads cpu seeds method is_cbb operation v1 v2 = Err ValueError) /\
  (forall x y, v1 <> [] -> length v1 = length v2 -> Named columns x v1 -> Named columns y v2 -> calculate (lower x) = None \/ calculate (lower y) = None ->
     run = Ok (Results None None None, None)).
Proof.
  intros gen randint seed_gen e calculate columns alpha g N threads cpu seeds method is_cbb statistic operation v1 v2 run. unfold run, derived_boot. split.
  - intros L. unfold derived_bootstrap, join. destruct (Nat.eqb_spec (length v1) (length v2)); [contradiction|]. split; reflexivity.
  - intros x y NE L N1 N2 U. rewrite L, Nat.eqb_refl. cbn [with_bootstrap boot_derived]. unfold derived_bootstrap. rewrite (join_is _ _ _ L). cbn [bind]. unfold bootstrap_and_value. cbn [calc_stats_derived].
    rewrite (stat_prefix calculate (DriveModel.equivalence e) columns v1 v2 operation x y L N1 N2 (seq 0 (length v1))).
    + unfold function. destruct U as [U|U]; [rewrite U; reflexivity|]. destruct (calculate (lower x)); [|reflexivity]. cbn [bind]. rewrite U. reflexivity.
    + destruct v1; [contradiction|discriminate].
    + apply Forall_forall. intros i I. apply in_seq in I. lia.
Qed.

