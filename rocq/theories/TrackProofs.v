(** Proofs about blocks that last. *)
From Verif Require Import PyBase ColumnModel BlockModel BlockSpec BlockProofs TrackModel TrackSpec.
From Coq Require Import List Sorted Lia.
Import ListNotations.
Open Scope Z_scope.
Open Scope list_scope.

(** ** Arrays *)
Lemma assign_ok {A} i (v : A) l : - Z.of_nat (length l) <= i < Z.of_nat (length l) ->
  exists l', assign i v l = Ok l' /\ length l' = length l /\
    forall p d, nth p l' d = if (Z.of_nat p =? i mod Z.of_nat (length l)) then v else nth p l d.
Proof.
  intros I. unfold assign. set (n := Z.of_nat (length l)) in *. set (k := if i <? 0 then i + n else i).
  assert (K : 0 <= k < n) by (unfold k; destruct (Z.ltb_spec i 0); lia).
  assert (M : i mod n = k). { unfold k. destruct (Z.ltb_spec i 0). - symmetry. apply (Z.mod_unique_pos i n (-1)); lia. - apply Z.mod_small. lia. }
  replace ((k <? 0) || (n <=? k)) with false by (symmetry; apply Bool.orb_false_iff; split; [apply Z.ltb_ge; lia|apply Z.leb_gt; lia]).
  eexists. split; [reflexivity|]. rewrite M. assert (KL : (Z.to_nat k < length l)%nat) by lia. split.
  - rewrite app_length, firstn_length. cbn [length]. rewrite skipn_length. lia.
  - intros p d. destruct (Z.eqb_spec (Z.of_nat p) k) as [E|E].
    + replace p with (Z.to_nat k) by lia. rewrite app_nth2; rewrite firstn_length; [|lia]. replace (Z.to_nat k - Nat.min (Z.to_nat k) (length l))%nat with O by lia. reflexivity.
    + destruct (Nat.lt_ge_cases p (Z.to_nat k)) as [L|L].
      * rewrite app_nth1 by (rewrite firstn_length; lia). rewrite <- (firstn_skipn (Z.to_nat k) l) at 2. rewrite app_nth1 by (rewrite firstn_length; lia). reflexivity.
      * rewrite app_nth2; rewrite firstn_length; [|lia]. replace (p - Nat.min (Z.to_nat k) (length l))%nat with (S (p - S (Z.to_nat k))) by lia. cbn [nth].
        rewrite <- (firstn_skipn (S (Z.to_nat k)) l) at 2. rewrite app_nth2; rewrite firstn_length; [|lia]. f_equal. lia.
Qed.
Lemma item_pos {A} i (l : list A) d : 0 <= i < Z.of_nat (length l) -> item i l = Ok (nth (Z.to_nat i) l d).
Proof.
  intros I. unfold item. replace (i <? 0) with false by (symmetry; apply Z.ltb_ge; lia). replace (i <? 0) with false by (symmetry; apply Z.ltb_ge; lia). rewrite (nth_error_nth' l d) by lia. reflexivity.
Qed.
Lemma item_neg {A} i (l : list A) d : - Z.of_nat (length l) <= i < 0 -> item i l = Ok (nth (Z.to_nat (i + Z.of_nat (length l))) l d).
Proof.
  intros I. unfold item. replace (i <? 0) with true by (symmetry; apply Z.ltb_lt; lia). replace (i + Z.of_nat (length l) <? 0) with false by (symmetry; apply Z.ltb_ge; lia). rewrite (nth_error_nth' l d) by lia. reflexivity.
Qed.
Lemma sorted_ext : forall l m : list Z, StronglySorted Z.lt l -> StronglySorted Z.lt m -> (forall x, In x l <-> In x m) -> l = m.
Proof.
  induction l as [|a l IH]; intros [|b m] SL SM E; [reflexivity|exfalso; exact (proj2 (E b) (or_introl eq_refl))|exfalso; exact (proj1 (E a) (or_introl eq_refl))|].
  inversion SL as [|? ? SL' FL]; inversion SM as [|? ? SM' FM]; subst. rewrite Forall_forall in FL, FM.
  assert (a = b). { destruct (proj1 (E a) (or_introl eq_refl)) as [X|X]; [congruence|]. destruct (proj2 (E b) (or_introl eq_refl)) as [Y|Y]; [congruence|]. specialize (FM _ X). specialize (FL _ Y). lia. }
  subst b. f_equal. apply IH; try assumption. intros x. split; intros I.
  - destruct (proj1 (E x) (or_intror I)) as [<-|X]; [specialize (FL _ I); lia|exact X].
  - destruct (proj2 (E x) (or_intror I)) as [<-|X]; [specialize (FM _ I); lia|exact X].
Qed.

(** ** The loop that counts *)
Fixpoint link (V : Z -> Z) (l : list Z) : Prop :=
  match l with
  | x :: ((y :: _) as t) => V y = (if y - x =? 1 then V x + 1 else 1) /\ link V t
  | _ => True
  end.
Definition has (x : Z) (l : list Z) : bool := existsb (Z.eqb x) l.
Lemma has_in x l : has x l = true <-> In x l.
Proof. unfold has. rewrite existsb_exists. split; [intros (y & I & E); apply Z.eqb_eq in E; subst; exact I|intros I; exists x; split; [exact I|apply Z.eqb_refl]]. Qed.
Lemma has_not x l : has x l = false <-> ~ In x l.
Proof. rewrite <- has_in. destruct (has x l); split; congruence. Qed.
Lemma counts_rule n V : 0 < n -> forall L c, StronglySorted Z.lt L -> (forall x, In x L -> 0 <= x < 2 * n) -> link V L -> Z.of_nat (length c) = n ->
  exists c', counts n L (match L with x :: _ => V x | [] => 0 end) c = Ok c' /\ length c' = length c /\
    forall i, (i < length c)%nat -> nth i c' 0 = if has (Z.of_nat i + n) (removelast L) then V (Z.of_nat i + n) else if has (Z.of_nat i) (removelast L) then V (Z.of_nat i) else nth i c 0.
Proof.
  intros P. induction L as [|x L IH]; intros c SS R LK LC; [exists c; split; [reflexivity|split; reflexivity]|]. destruct L as [|y t]; [exists c; split; [reflexivity|split; reflexivity]|].
  set (L := y :: t) in *. change (counts n (x :: L) (V x) c) with (c' <- assign (if n <=? x then x - n else x) (V x) c ;; counts n L (if y - x =? 1 then V x + 1 else 1) c').
  change (link V (x :: L)) with (V y = (if y - x =? 1 then V x + 1 else 1) /\ link V L) in LK. destruct LK as [LY LK]. rewrite <- LY.
  apply StronglySorted_inv in SS. destruct SS as [SS' FA]. rewrite Forall_forall in FA. pose proof (R x (or_introl eq_refl)) as RX. set (b := if n <=? x then x - n else x).
  assert (B : 0 <= b < n) by (unfold b; destruct (Z.leb_spec n x); lia).
  destruct (assign_ok b (V x) c ltac:(lia)) as (c1 & E1 & L1 & N1). rewrite E1. cbn [bind].
  destruct (IH c1 SS' (fun z I => R z (or_intror I)) LK ltac:(lia)) as (c2 & E2 & L2 & N2). change (match L with x0 :: _ => V x0 | [] => 0 end) with (V y) in E2. rewrite E2.
  exists c2. split; [reflexivity|]. split; [lia|]. intros i I. rewrite (N2 i ltac:(lia)). change (removelast (x :: L)) with (x :: removelast L). unfold has in *. cbn [existsb]. fold (has (Z.of_nat i + n) (removelast L)). fold (has (Z.of_nat i) (removelast L)).
  rewrite N1, LC, (Z.mod_small b n B). assert (IR : forall z, In z (removelast L) -> x < z). { intros z Z. apply FA. rewrite (app_removelast_last 0 (l := L)) by discriminate. apply in_or_app. left. exact Z. }
  assert (H1 : forall z, z <= x -> has z (removelast L) = false) by (intros z Z; apply has_not; intros Q; specialize (IR _ Q); lia).
  unfold b. destruct (Z.leb_spec n x) as [G|G].
  - destruct (Z.eqb_spec (Z.of_nat i + n) x) as [E|E].
    + rewrite (H1 (Z.of_nat i + n)) by lia. rewrite (H1 (Z.of_nat i)) by lia. replace (Z.of_nat i =? x - n) with true by (symmetry; apply Z.eqb_eq; lia). cbn [orb]. rewrite E. reflexivity.
    + cbn [orb]. destruct (has (Z.of_nat i + n) (removelast L)); [reflexivity|]. replace (Z.of_nat i =? x) with false by (symmetry; apply Z.eqb_neq; lia). cbn [orb]. replace (Z.of_nat i =? x - n) with false by (symmetry; apply Z.eqb_neq; lia). reflexivity.
  - replace (Z.of_nat i + n =? x) with false by (symmetry; apply Z.eqb_neq; lia). cbn [orb]. destruct (has (Z.of_nat i + n) (removelast L)); [reflexivity|]. destruct (Z.eqb_spec (Z.of_nat i) x) as [E|E]; cbn [orb]; [rewrite (H1 (Z.of_nat i)) by lia; rewrite E; reflexivity|reflexivity].
Qed.

(** ** Lengths of runs *)
Definition bits (a : list Q) : list bool := map (fun v => Qeq_bool v 1) a.
(** The blocked places of a circle. *)
Definition on (b : list bool) (x : Z) : bool := nth (Z.to_nat (x mod Z.of_nat (length b))) b false.
(** Blocked places up to [k], not going below 0. *)
Fixpoint run_to (b : list bool) (k : nat) : Z :=
  if on b (Z.of_nat k) then 1 + match k with O => 0 | S k' => run_to b k' end else 0.
Lemma on_On a x : a <> [] -> (on (bits a) x = true <-> On a x).
Proof.
  intros NE. assert (P : (0 < length a)%nat) by (destruct a; [contradiction|cbn; lia]). unfold on, On, bits. rewrite map_length. pose proof (Z.mod_pos_bound x (Z.of_nat (length a)) ltac:(lia)) as B. set (k := Z.to_nat _) in *. assert (K : (k < length a)%nat) by lia.
  assert (E : nth k (map (fun v => Qeq_bool v 1) a) false = Qeq_bool (nth k a 0%Q) 1) by (rewrite (nth_indep _ false (Qeq_bool 0 1)) by (rewrite map_length; exact K); exact (map_nth (fun v => Qeq_bool v 1) a 0%Q k)). rewrite E.
  split; [intros Q; exists (nth k a 0%Q); split; [apply nth_error_nth'; exact K|apply Qeq_bool_iff; exact Q]|intros (v & E1 & E2); rewrite (nth_error_nth _ _ _ E1); apply Qeq_bool_iff; exact E2].
Qed.
Lemma on_shift b x : b <> [] -> on b (x + Z.of_nat (length b)) = on b x.
Proof. intros NE. unfold on. assert (length b <> O) by (destruct b; [contradiction|cbn; lia]). replace (x + Z.of_nat (length b)) with (x + 1 * Z.of_nat (length b)) by lia. rewrite Z.mod_add by lia. reflexivity. Qed.
Lemma run_nonneg b k : 0 <= run_to b k.
Proof. induction k as [|k IH]; cbn [run_to]; destruct (on b _); lia. Qed.
Lemma run_pos b k : 0 < run_to b k <-> on b (Z.of_nat k) = true.
Proof. pose proof (run_nonneg b (pred k)). destruct k as [|k]; cbn [run_to pred] in *; destruct (on b _); split; intros; try lia; try congruence. Qed.
Lemma run_step b k : run_to b (S k) = if on b (Z.of_nat (S k)) then run_to b k + 1 else 0.
Proof. cbn [run_to]. destruct (on b _); lia. Qed.
(** One turn later the count is the same, if somewhere a place is free. *)
Lemma run_turn b k : b <> [] -> (exists q, (q <= k)%nat /\ on b (Z.of_nat q) = false) -> run_to b (k + length b) = run_to b k.
Proof.
  intros NE (q & Q & F). induction k as [|k IH].
  - assert (q = O) as -> by lia. replace (run_to b 0) with 0 by (cbn [run_to]; rewrite F; reflexivity). cbn [Nat.add]. assert (L : (0 < length b)%nat) by (destruct b; [contradiction|cbn; lia]). replace (length b) with (S (length b - 1)) at 1 by lia. rewrite run_step. replace (on b (Z.of_nat (S (length b - 1)))) with false; [reflexivity|]. rewrite <- F. replace (Z.of_nat (S (length b - 1))) with (Z.of_nat 0 + Z.of_nat (length b)) by lia. symmetry. apply on_shift. exact NE.
  - cbn [Nat.add]. rewrite !run_step. replace (on b (Z.of_nat (S (k + length b)))) with (on b (Z.of_nat (S k))) by (rewrite <- (on_shift b (Z.of_nat (S k)) NE); f_equal; lia).
    destruct (on b (Z.of_nat (S k))) eqn:E; [|reflexivity]. rewrite IH; [reflexivity|]. destruct (Nat.eq_dec q (S k)) as [->|N]; [congruence|lia].
Qed.
(** The count of a day. *)
Definition count_of (b : list bool) (p : nat) : Z := run_to b (p + length b).
Lemma ones_bits a x : a <> [] -> (In x (ones 0 a) <-> 0 <= x < Z.of_nat (length a) /\ on (bits a) x = true).
Proof.
  intros NE. rewrite ones_in, on_On by exact NE. rewrite Z.sub_0_r. unfold On. split.
  - intros (X & v & E & V). assert (L : (Z.to_nat x < length a)%nat) by (apply nth_error_Some; congruence). split; [lia|]. rewrite Z.mod_small by lia. exists v. split; assumption.
  - intros (X & v & E & V). rewrite Z.mod_small in E by lia. split; [lia|]. exists v. split; assumption.
Qed.
Lemma double_in a x : a <> [] -> (In x (ones 0 a ++ map (fun x => x + Z.of_nat (length a)) (ones 0 a)) <-> 0 <= x < 2 * Z.of_nat (length a) /\ on (bits a) x = true).
Proof.
  intros NE. assert (BL : length (bits a) = length a) by apply map_length. assert (BN : bits a <> []) by (destruct a; [contradiction|discriminate]). rewrite in_app_iff, in_map_iff. split.
  - intros [I|(y & <- & I)]; apply ones_bits in I; try exact NE; [split; [lia|apply I]|]. split; [lia|]. rewrite <- BL, on_shift by exact BN. apply I.
  - intros (B & E). destruct (Z.lt_ge_cases x (Z.of_nat (length a))) as [G|G]; [left; apply ones_bits; [exact NE|split; [lia|exact E]]|]. right. exists (x - Z.of_nat (length a)). split; [lia|]. apply ones_bits; [exact NE|]. split; [lia|]. rewrite <- (on_shift (bits a) _ BN), BL. replace (x - Z.of_nat (length a) + Z.of_nat (length a)) with x by lia. exact E.
Qed.
Lemma double_sorted a : StronglySorted Z.lt (ones 0 a ++ map (fun x => x + Z.of_nat (length a)) (ones 0 a)).
Proof. apply sorted_app; [apply ones_sorted|apply sorted_shift; apply ones_sorted|]. intros x y X Y. apply in_map_iff in Y. destruct Y as (z & <- & Z). apply ones_range in X, Z. lia. Qed.
Lemma last_default {A} (l : list A) a b : l <> [] -> last l a = last l b.
Proof. intros N. rewrite (app_removelast_last a N) at 1. rewrite last_last. rewrite (app_removelast_last a N) at 2. rewrite last_last. reflexivity. Qed.
Lemma run_link b : forall L lo, StronglySorted Z.lt L -> (forall x, In x L -> 0 <= x) -> (forall x, lo <= x < last L lo -> on b x = true -> In x L) -> (forall x, In x L -> on b x = true) ->
  match L with x :: _ => lo <= x | [] => True end -> link (fun x => run_to b (Z.to_nat x)) L.
Proof.
  induction L as [|x L IH]; intros lo SS NN CL ON LO; [exact I|]. destruct L as [|y t]; [exact I|]. set (L := y :: t) in *. inversion SS as [|? ? SS' FA]; subst. rewrite Forall_forall in FA. assert (XY : x < y) by (apply FA; left; reflexivity).
  change (link (fun x => run_to b (Z.to_nat x)) (x :: L)) with (run_to b (Z.to_nat y) = (if y - x =? 1 then run_to b (Z.to_nat x) + 1 else 1) /\ link (fun x => run_to b (Z.to_nat x)) L). pose proof (NN x (or_introl eq_refl)) as X0.
  assert (YL : y <= last L lo). { assert (G : forall (l : list Z) z d, StronglySorted Z.lt (z :: l) -> z <= last (z :: l) d). { intros l. induction l as [|w l IHl]; intros z d G; [cbn; lia|]. inversion G as [|? ? G1 G2]; subst. apply Forall_inv in G2. specialize (IHl w d G1). change (last (z :: w :: l) d) with (last (w :: l) d). lia. } apply G. exact SS'. }
  split.
  - replace (Z.to_nat y) with (S (Z.to_nat (y - 1))) by lia. rewrite run_step. replace (Z.of_nat (S (Z.to_nat (y - 1)))) with y by lia. rewrite (ON y (or_intror (or_introl eq_refl))). destruct (Z.eqb_spec (y - x) 1) as [E|E].
    + replace (y - 1) with x by lia. reflexivity.
    + assert (Z0 : run_to b (Z.to_nat (y - 1)) = 0). { destruct (Z.eq_dec (run_to b (Z.to_nat (y - 1))) 0) as [Q|Q]; [exact Q|exfalso]. pose proof (run_nonneg b (Z.to_nat (y - 1))). assert (O1 : on b (y - 1) = true). { replace (y - 1) with (Z.of_nat (Z.to_nat (y - 1))) by lia. apply run_pos. lia. }
        assert (I : In (y - 1) (x :: L)). { apply CL; [|exact O1]. change (last (x :: L) lo) with (last L lo). lia. }
        destruct I as [I|[I|I]]; [lia|lia|]. inversion SS' as [|? ? _ F2]; subst. rewrite Forall_forall in F2. specialize (F2 _ I). lia. }
      rewrite Z0. reflexivity.
  - apply (IH y); [exact SS'|intros z Z; apply NN; right; exact Z| |intros z Z; apply ON; right; exact Z|subst L; cbn; lia].
    intros z Z O1. change (last (x :: L) lo) with (last L lo) in CL. assert (LL : last L lo = last L y) by (apply last_default; discriminate).
    destruct (CL z ltac:(rewrite LL; lia) O1) as [Q|Q]; [lia|exact Q].
Qed.
Lemma run_restart b : b <> [] -> on b (Z.of_nat (length b) - 1) = false -> forall k, run_to b (k + length b) = run_to b k.
Proof.
  intros NE F. assert (L : (0 < length b)%nat) by (destruct b; [contradiction|cbn; lia]). induction k as [|k IH].
  - cbn [Nat.add]. replace (length b) with (S (length b - 1)) at 1 by lia. rewrite run_step. replace (on b (Z.of_nat (S (length b - 1)))) with (on b (Z.of_nat 0)) by (rewrite <- (on_shift b (Z.of_nat 0) NE); f_equal; lia).
    assert (Z0 : run_to b (length b - 1) = 0). { pose proof (run_nonneg b (length b - 1)). destruct (Z.eq_dec (run_to b (length b - 1)) 0) as [Q|Q]; [exact Q|exfalso]. assert (X : on b (Z.of_nat (length b - 1)) = true) by (apply run_pos; lia). replace (Z.of_nat (length b - 1)) with (Z.of_nat (length b) - 1) in X by lia. congruence. }
    rewrite Z0. cbn [run_to]. destruct (on b (Z.of_nat 0)); reflexivity.
  - cbn [Nat.add]. rewrite !run_step, IH. replace (on b (Z.of_nat (S (k + length b)))) with (on b (Z.of_nat (S k))) by (rewrite <- (on_shift b (Z.of_nat (S k)) NE); f_equal; lia). reflexivity.
Qed.
Lemma nth_ext0 (l m : list Z) : length l = length m -> (forall i, (i < length l)%nat -> nth i l 0 = nth i m 0) -> l = m.
Proof. intros L E. apply (nth_ext l m 0 0 L). exact E. Qed.
Lemma count_values a : a <> [] -> exists c, count_day (Z.of_nat (length a)) a = Ok c /\ length c = length a /\
  forall i, (i < length a)%nat -> nth i c 0 = (if on (bits a) (Z.of_nat i) then if has (Z.of_nat i + Z.of_nat (length a)) (removelast (ones 0 a ++ map (fun x => x + Z.of_nat (length a)) (ones 0 a))) then run_to (bits a) (i + length a) else run_to (bits a) i else 0).
Proof.
  intros NE. set (b := bits a). set (L := ones 0 a ++ map (fun x => x + Z.of_nat (length a)) (ones 0 a)). assert (P : (0 < length a)%nat) by (destruct a; [contradiction|cbn; lia]).
  assert (IN : forall x, In x L <-> 0 <= x < 2 * Z.of_nat (length a) /\ on b x = true) by (intros x; apply double_in; exact NE).
  pose proof (double_sorted a) as SS. fold L in SS.
  assert (LK : link (fun x => run_to b (Z.to_nat x)) L). { apply (run_link b L 0 SS); [intros x X; apply IN in X; lia| |intros x X; apply IN in X; apply X|destruct L as [|x t]; [exact I|]; specialize (proj1 (IN x) (or_introl eq_refl)); lia].
    intros x X O. apply IN. split; [|exact O]. destruct L as [|y t]; [cbn in X; lia|]. assert (LI : In (last (y :: t) 0) (y :: t)). { rewrite (app_removelast_last 0 (l := y :: t)) at 2 by discriminate. apply in_or_app. right. left. reflexivity. } apply IN in LI. lia. }
  assert (HD : match L with x :: _ => run_to b (Z.to_nat x) = 1 | [] => True end). { destruct L as [|x t] eqn:EL; [exact I|]. rewrite <- EL in *. destruct (proj1 (IN x) ltac:(rewrite EL; left; reflexivity)) as (X & O). destruct (Z.eq_dec x 0) as [->|N].
    - cbn [Z.to_nat run_to]. change (Z.of_nat 0) with 0. rewrite O. reflexivity.
    - replace (Z.to_nat x) with (S (Z.to_nat (x - 1))) by lia. rewrite run_step. replace (Z.of_nat (S (Z.to_nat (x - 1)))) with x by lia. rewrite O. pose proof (run_nonneg b (Z.to_nat (x - 1))). destruct (Z.eq_dec (run_to b (Z.to_nat (x - 1))) 0) as [Q|Q]; [lia|exfalso]. assert (X1 : on b (Z.of_nat (Z.to_nat (x - 1))) = true) by (apply run_pos; lia). replace (Z.of_nat (Z.to_nat (x - 1))) with (x - 1) in X1 by lia.
      assert (I1 : In (x - 1) L) by (apply IN; split; [lia|exact X1]). rewrite EL in I1, SS. apply StronglySorted_inv in SS. destruct SS as [_ FA]. rewrite Forall_forall in FA. destruct I1 as [I1|I1]; [lia|]. specialize (FA _ I1). lia. }
  destruct (counts_rule (Z.of_nat (length a)) (fun x => run_to b (Z.to_nat x)) ltac:(lia) L (map (fun _ => 0) a) SS) as (c & E & LC & N); [intros x X; apply IN in X; lia|exact LK|rewrite map_length; reflexivity|].
  exists c. rewrite map_length in *. split; [|split; [exact LC|]].
  - unfold count_day. fold L. destruct L as [|x t]; [exact E|]. rewrite HD in E. exact E.
  - intros i I. rewrite (N i I). assert (Z0 : nth i (map (fun _ : Q => 0) a) 0 = 0). { exact (map_nth (fun _ : Q => 0) a 0%Q i). } rewrite Z0. rewrite Nat2Z.id. replace (Z.to_nat (Z.of_nat i + Z.of_nat (length a))) with (i + length a)%nat by lia.
    assert (BL : length b = length a) by apply map_length. assert (BN : b <> []) by (unfold b; destruct a; [contradiction|discriminate]). pose proof (on_shift b (Z.of_nat i) BN) as SH. rewrite BL in SH.
    assert (RI : forall z, In z (removelast L) -> In z L). { intros z Z. destruct L as [|w t]; [contradiction|]. rewrite (app_removelast_last 0 (l := w :: t)) by discriminate. apply in_or_app. left. exact Z. }
    destruct (on b (Z.of_nat i)) eqn:O.
    + destruct (has (Z.of_nat i + Z.of_nat (length a)) (removelast L)) eqn:H1; [reflexivity|]. replace (has (Z.of_nat i) (removelast L)) with true; [reflexivity|]. symmetry. apply has_in. apply has_not in H1.
      assert (I1 : In (Z.of_nat i + Z.of_nat (length a)) L) by (apply IN; split; [lia|exact SH]). assert (I2 : In (Z.of_nat i) L) by (apply IN; split; [lia|exact O]).
      destruct L as [|w t]; [contradiction|]. rewrite (app_removelast_last 0 (l := w :: t)) in I1, I2 by discriminate. apply in_app_or in I1, I2. destruct I1 as [I1|[I1|[]]]; [contradiction|]. destruct I2 as [I2|[I2|[]]]; [exact I2|]. lia.
    + replace (has (Z.of_nat i + Z.of_nat (length a)) (removelast L)) with false; [|symmetry; apply has_not; intros Q; apply RI, IN in Q; destruct Q; congruence]. replace (has (Z.of_nat i) (removelast L)) with false; [reflexivity|]. symmetry. apply has_not. intros Q. apply RI, IN in Q. destruct Q; congruence.
Qed.
Lemma count_day_is a : a <> [] -> (exists q, (q < length a)%nat /\ on (bits a) (Z.of_nat q) = false) ->
  count_day (Z.of_nat (length a)) a = Ok (map (count_of (bits a)) (seq 0 (length a))).
Proof.
  intros NE (q & Q & F). destruct (count_values a NE) as (c & -> & LC & N). f_equal. set (b := bits a) in *. assert (BL : length b = length a) by apply map_length. assert (BN : b <> []) by (unfold b; destruct a; [contradiction|discriminate]).
  apply nth_ext0; [rewrite map_length, seq_length; exact LC|]. intros i I. rewrite LC in I. rewrite (N i I). rewrite (nth_indep _ 0 (count_of b 0)) by (rewrite map_length, seq_length; exact I). rewrite map_nth, seq_nth by exact I. cbn [Nat.add]. unfold count_of. rewrite BL.
  set (L := ones 0 a ++ map (fun x => x + Z.of_nat (length a)) (ones 0 a)) in *. pose proof (on_shift b (Z.of_nat i) BN) as SH. rewrite BL in SH.
  assert (IN : forall x, In x L <-> 0 <= x < 2 * Z.of_nat (length a) /\ on b x = true) by (intros x; apply double_in; exact NE).
  destruct (on b (Z.of_nat i)) eqn:O.
  - destruct (has (Z.of_nat i + Z.of_nat (length a)) (removelast L)) eqn:H1; [reflexivity|]. apply has_not in H1. destruct (Nat.le_gt_cases q i) as [G|G].
    + rewrite <- BL. symmetry. apply run_turn; [exact BN|]. exists q. split; [exact G|exact F].
    + rewrite <- BL. symmetry. apply run_restart; [exact BN|]. destruct (on b (Z.of_nat (length b) - 1)) eqn:O1; [|reflexivity]. exfalso.
      assert (I1 : In (Z.of_nat i + Z.of_nat (length a)) L) by (apply IN; split; [lia|exact SH]). assert (I2 : In (Z.of_nat (length b) - 1 + Z.of_nat (length a)) L) by (apply IN; split; [lia|]; rewrite <- BL, on_shift by exact BN; exact O1).
      pose proof (double_sorted a) as SS. fold L in SS. destruct L as [|w t]; [contradiction|]. rewrite (app_removelast_last 0 (l := w :: t)) in I1, I2, SS by discriminate. apply in_app_or in I1, I2. destruct I1 as [I1|[I1|[]]]; [contradiction|].
      destruct I2 as [I2|[I2|[]]].
      * assert (G2 : forall (l : list Z) y x, StronglySorted Z.lt (l ++ [y]) -> In x l -> x < y). { clear. induction l as [|z l IH]; intros y x S I; [contradiction|]; apply StronglySorted_inv in S; destruct S as [S1 S2]; destruct I as [<-|I]; [rewrite Forall_forall in S2; apply S2; apply in_or_app; right; left; reflexivity|apply IH; assumption]. }
        specialize (G2 _ _ _ SS I2). lia.
      * assert (i = length b - 1)%nat by lia. lia.
  - symmetry. replace (i + length a)%nat with (S (i + length a - 1)) by lia. rewrite run_step. replace (Z.of_nat (S (i + length a - 1))) with (Z.of_nat i + Z.of_nat (length a)) by lia. rewrite SH. reflexivity.
Qed.

(** ** Ends of runs *)
Fixpoint scan (v : Z) (l : list bool) : list Z :=
  match l with [] => [] | x :: t => let w := if x then v + 1 else 0 in w :: scan w t end.
Fixpoint ends (k v : Z) (l : list bool) : list (Z * Z) :=
  match l with [] => [] | x :: t => (if negb x && (0 <? v) then [(k - 1, v)] else []) ++ ends (k + 1) (if x then v + 1 else 0) t end.
Definition pend (v k : Z) : list Z := if 0 <? v then [k - v] else [].
Lemma scan_length v l : length (scan v l) = length l.
Proof. revert v. induction l as [|x l IH]; intros v; [reflexivity|]. cbn [scan length]. rewrite IH. reflexivity. Qed.
Lemma scan_nonneg l : forall v, 0 <= v -> forall i, 0 <= nth i (scan v l) 0.
Proof. induction l as [|x l IH]; intros v V i; [destruct i; cbn; lia|]. destruct i as [|i]; cbn [scan nth]; [destruct x; lia|apply IH; destruct x; lia]. Qed.
Lemma scan_nth l : forall v i, (i < length l)%nat -> nth i (scan v l) 0 = if nth i l false then nth i (v :: scan v l) 0 + 1 else 0.
Proof. induction l as [|x l IH]; intros v i I; [cbn in I; lia|]. destruct i as [|i]; [reflexivity|]. cbn [length] in I. cbn [scan]. cbv zeta. set (w := if x then v + 1 else 0). change (nth i (scan w l) 0 = if nth i l false then nth i (w :: scan w l) 0 + 1 else 0). apply IH. lia. Qed.
Lemma scan_is b v : b <> [] -> v = run_to b (length b - 1) -> scan v b = map (fun i => run_to b (i + length b)) (seq 0 (length b)).
Proof.
  intros NE V. assert (L : (0 < length b)%nat) by (destruct b; [contradiction|cbn; lia]). apply nth_ext0; [rewrite scan_length, map_length, seq_length; reflexivity|]. rewrite scan_length. intros i. induction i as [|i IH]; intros I; rewrite scan_nth by exact I; (rewrite (nth_indep (map _ _) 0 (run_to b (0 + length b))) by (rewrite map_length, seq_length; exact I)); rewrite (map_nth (fun i => run_to b (i + length b))), seq_nth by exact I; cbn [Nat.add].
  - replace (length b) with (S (length b - 1)) at 1 by lia. rewrite run_step. cbn [nth]. rewrite <- V. replace (on b (Z.of_nat (S (length b - 1)))) with (nth 0 b false); [reflexivity|]. unfold on. replace (Z.of_nat (S (length b - 1))) with (0 + 1 * Z.of_nat (length b)) by lia. rewrite Z.mod_add, Z.mod_0_l by lia. reflexivity.
  - rewrite run_step. change (nth (S i) (v :: scan v b) 0) with (nth i (scan v b) 0). rewrite IH by lia. rewrite (nth_indep (map _ _) 0 (run_to b (0 + length b))) by (rewrite map_length, seq_length; lia). rewrite (map_nth (fun i => run_to b (i + length b))), seq_nth by lia. cbn [Nat.add].
    replace (on b (Z.of_nat (S (i + length b)))) with (nth (S i) b false); [reflexivity|]. unfold on. replace (Z.of_nat (S (i + length b))) with (Z.of_nat (S i) + 1 * Z.of_nat (length b)) by lia. rewrite Z.mod_add by lia. rewrite Z.mod_small by lia. rewrite Nat2Z.id. reflexivity.
Qed.
Lemma starts_ends l : forall k v, 0 <= v -> pend v k ++ where_ (Z.eqb 1) k (scan v l) = map (fun p => fst p - snd p + 1) (ends k v l) ++ pend (last (scan v l) v) (k + Z.of_nat (length l)).
Proof.
  induction l as [|x l IH]; intros k v V; [cbn [scan where_ ends map last length app]; rewrite app_nil_r, Z.add_0_r; reflexivity|]. cbn [scan ends length]. set (w := if x then v + 1 else 0). assert (W : 0 <= w) by (unfold w; destruct x; lia). specialize (IH (k + 1) w W).
  replace (last (w :: scan w l) v) with (last (scan w l) w). 2:{ destruct (scan w l) eqn:E; [reflexivity|]. change (last (w :: z :: l0) v) with (last (z :: l0) v). apply last_default. discriminate. }
  replace (k + Z.of_nat (S (length l))) with (k + 1 + Z.of_nat (length l)) by lia. cbn [where_]. rewrite map_app, <- app_assoc, <- IH. unfold pend, w. destruct x; cbn [negb andb map app].
  - destruct (Z.ltb_spec 0 v) as [G|G].
    + replace (1 =? v + 1) with false by (symmetry; apply Z.eqb_neq; lia). replace (0 <? v + 1) with true by (symmetry; apply Z.ltb_lt; lia). cbn [app]. f_equal. lia.
    + assert (v = 0) as -> by lia. cbn [Z.add Z.eqb Z.ltb app]. replace (1 =? 0 + 1) with true by reflexivity. cbn. f_equal. lia.
  - change (1 =? 0) with false. change (0 <? 0) with false. cbn [app]. destruct (Z.ltb_spec 0 v) as [G|G]; [|reflexivity]. cbn [map app fst snd]. f_equal. lia.
Qed.
Lemma count_ends crit l : 1 <= crit -> forall k v, 0 <= v -> (forall p w, In (p, w) (ends k v l) -> crit <= w) ->
  (length (where_ (Z.eqb crit) k (scan v l)) + (if Z.leb crit v then 1 else 0) = length (ends k v l) + (if Z.leb crit (last (scan v l) v) then 1 else 0))%nat.
Proof.
  intros C1. induction l as [|x l IH]; intros k v V H; [reflexivity|]. cbn [scan ends where_] in *. set (w := if x then v + 1 else 0) in *. assert (W : 0 <= w) by (unfold w; destruct x; lia).
  specialize (IH (k + 1) w W (fun p w' I => H p w' (in_or_app _ _ _ (or_intror I)))).
  replace (last (w :: scan w l) v) with (last (scan w l) w). 2:{ destruct (scan w l) eqn:E; [reflexivity|]. change (last (w :: z :: l0) v) with (last (z :: l0) v). apply last_default. discriminate. }
  rewrite app_length. unfold w in *. clear w. destruct x; cbn [negb andb length app] in *.
  - destruct (Z.eqb_spec crit (v + 1)) as [E|E].
    + cbn [length]. replace (crit <=? v + 1) with true in IH by (symmetry; apply Z.leb_le; lia). replace (crit <=? v) with false by (symmetry; apply Z.leb_gt; lia). lia.
    + replace (crit <=? v + 1) with (crit <=? v) in IH; [lia|]. apply Bool.eq_iff_eq_true. rewrite !Z.leb_le. lia.
  - replace (crit =? 0) with false by (symmetry; apply Z.eqb_neq; lia). replace (crit <=? 0) with false in IH by (symmetry; apply Z.leb_gt; lia). destruct (Z.ltb_spec 0 v) as [G|G].
    + specialize (H (k - 1) v (or_introl eq_refl)). replace (crit <=? v) with true by (symmetry; apply Z.leb_le; lia). cbn [length]. lia.
    + replace (crit <=? v) with false by (symmetry; apply Z.leb_gt; lia). cbn [length]. lia.
Qed.
Lemma ends_in l : forall k v p w, In (p, w) (ends k v l) <-> exists i, (i < length l)%nat /\ p = k - 1 + Z.of_nat i /\ nth i (v :: scan v l) 0 = w /\ 0 < w /\ nth i l false = false.
Proof.
  induction l as [|x l IH]; intros k v p w; [split; [intros []|intros (i & I & _); cbn in I; lia]|]. cbn [ends scan length]. cbv zeta. rewrite in_app_iff, IH. set (u := if x then v + 1 else 0). split.
  - intros [I|(i & I & P & N & W & F)].
    + destruct x; cbn [negb andb] in I; [contradiction|]. destruct (Z.ltb_spec 0 v); [|contradiction]. destruct I as [I|[]]. injection I as <- <-. exists O. split; [lia|]. split; [lia|]. split; [reflexivity|]. split; [assumption|reflexivity].
    + exists (S i). split; [lia|]. split; [lia|]. split; [exact N|]. split; [exact W|exact F].
  - intros (i & I & P & N & W & F). destruct i as [|i].
    + left. cbn [nth] in *. subst x w p. cbn [negb andb]. replace (0 <? v) with true by (symmetry; apply Z.ltb_lt; lia). left. f_equal. lia.
    + right. exists i. split; [lia|]. split; [lia|]. split; [exact N|]. split; [exact W|exact F].
Qed.
Lemma ends_sorted l : forall k v, StronglySorted Z.lt (map fst (ends k v l)).
Proof.
  induction l as [|x l IH]; intros k v; [constructor|]. cbn [ends]. rewrite map_app. specialize (IH (k + 1) (if x then v + 1 else 0)). destruct (negb x && (0 <? v)); [|exact IH]. cbn [map app fst]. constructor; [exact IH|]. apply Forall_forall. intros q Q. apply in_map_iff in Q. destruct Q as ((p & w) & <- & I). apply ends_in in I. destruct I as (i & _ & -> & _). cbn [fst]. lia.
Qed.
Lemma maxima_in c p : (0 < length c)%nat -> (In p (maxima c) <-> 0 <= p < Z.of_nat (length c) /\ nth ((Z.to_nat p + 1) mod length c) c 0 < nth (Z.to_nat p) c 0 /\ nth ((Z.to_nat p + length c - 1) mod length c) c 0 < nth (Z.to_nat p) c 0).
Proof.
  intros L. unfold maxima. rewrite in_map_iff. split.
  - intros (i & <- & I). apply filter_In in I. destruct I as (I & T). apply in_seq in I. apply andb_prop in T. rewrite !Z.ltb_lt in T. rewrite Nat2Z.id. split; [lia|exact T].
  - intros (B & T1 & T2). exists (Z.to_nat p). split; [lia|]. apply filter_In. split; [apply in_seq; lia|]. apply andb_true_intro. rewrite !Z.ltb_lt. split; assumption.
Qed.
Lemma seq_sorted n : forall s, StronglySorted lt (seq s n).
Proof. induction n as [|n IH]; intros s; constructor; [apply IH|]. apply Forall_forall. intros x X. apply in_seq in X. lia. Qed.
Lemma filter_sorted {A} (R : A -> A -> Prop) f l : StronglySorted R l -> StronglySorted R (filter f l).
Proof. induction 1 as [|x l S IH F]; [constructor|]. cbn [filter]. destruct (f x); [|exact IH]. constructor; [exact IH|]. rewrite Forall_forall in *. intros y Y. apply filter_In in Y. apply F. apply Y. Qed.
Lemma maxima_sorted c : StronglySorted Z.lt (maxima c).
Proof. unfold maxima. set (f := fun i => _). assert (S := filter_sorted _ f _ (seq_sorted (length c) 0)). induction S as [|x l S IH F]; [constructor|]. cbn [map]. constructor; [exact IH|]. rewrite Forall_forall in *. intros y Y. apply in_map_iff in Y. destruct Y as (z & <- & Z). specialize (F _ Z). lia. Qed.
Lemma where_in (c : list Z) v : forall k x, In x (where_ (Z.eqb v) k c) <-> exists i, (i < length c)%nat /\ x = k + Z.of_nat i /\ nth i c 0 = v.
Proof.
  induction c as [|z c IH]; intros k x; cbn [where_ length]; [split; [intros []|intros (i & I & _); lia]|]. split.
  - intros I. destruct (Z.eqb_spec v z) as [E|E].
    + destruct I as [<-|I]; [exists O; split; [lia|]; split; [lia|symmetry; exact E]|]. apply IH in I. destruct I as (i & I & X & N). exists (S i). split; [lia|]. split; [lia|exact N].
    + apply IH in I. destruct I as (i & I & X & N). exists (S i). split; [lia|]. split; [lia|exact N].
  - intros (i & I & X & N). destruct i as [|i].
    + cbn [nth] in N. subst z. rewrite Z.eqb_refl. left. lia.
    + assert (J : In x (where_ (Z.eqb v) (k + 1) c)) by (apply IH; exists i; split; [lia|]; split; [lia|exact N]). destruct (v =? z); [right; exact J|exact J].
Qed.
Lemma head_false (l : list bool) : (0 < length l)%nat -> nth 0 l false = false -> exists t, l = false :: t.
Proof. destruct l as [|x t]; intros L E; [cbn in L; lia|]. cbn in E. subst x. exists t. reflexivity. Qed.
Section Ends.
Variable b : list bool.
Hypothesis some : (0 < length b)%nat.
Hypothesis free : exists q, (q < length b)%nat /\ on b (Z.of_nat q) = false.
Let n := length b.
Let v := run_to b (n - 1).
Let c := scan v b.
Lemma b_some : b <> [].
Proof. intros E. rewrite E in some. cbn in some. lia. Qed.
Lemma c_len : length c = n.
Proof. apply scan_length. Qed.
Lemma v_nonneg : 0 <= v.
Proof. apply run_nonneg. Qed.
Lemma c_is : c = map (count_of b) (seq 0 n).
Proof. exact (scan_is b v b_some eq_refl). Qed.
Lemma c_last : nth (n - 1) c 0 = v.
Proof.
  rewrite c_is. rewrite (nth_indep _ 0 (count_of b 0)) by (rewrite map_length, seq_length; unfold n; lia). rewrite map_nth, seq_nth by (unfold n; lia). cbn [Nat.add]. unfold count_of, v. apply run_turn; [exact b_some|]. destruct free as (q & Q & F). exists q. split; [unfold n; lia|exact F].
Qed.
Lemma last_c d : last c d = v.
Proof.
  rewrite <- c_last. assert (L := c_len). destruct c as [|z l] eqn:E; [cbn in L; unfold n in L; lia|]. assert (NE : z :: l <> []) by discriminate. rewrite (app_removelast_last d NE) at 2. rewrite app_nth2; [|rewrite <- L, (app_removelast_last d NE) at 1; rewrite app_length; cbn; lia].
  assert (RL : length (removelast (z :: l)) = (n - 1)%nat) by (rewrite <- L; rewrite (app_removelast_last d NE) at 2; rewrite app_length; cbn; lia). rewrite RL, Nat.sub_diag. reflexivity.
Qed.
Lemma c_prev i : (i < n)%nat -> nth i c 0 = if nth i b false then nth ((i + n - 1) mod n) c 0 + 1 else 0.
Proof.
  intros I. unfold c at 1. rewrite scan_nth by exact I. destruct i as [|i].
  - cbn [nth Nat.add]. rewrite Nat.mod_small by lia. rewrite c_last. reflexivity.
  - replace (S i + n - 1)%nat with (i + 1 * n)%nat by lia. rewrite Nat.mod_add by lia. rewrite Nat.mod_small by lia. reflexivity.
Qed.
Lemma c_nonneg i : 0 <= nth i c 0.
Proof. apply scan_nonneg. exact v_nonneg. Qed.
Lemma max_in p : In p (maxima c) <-> 0 <= p < Z.of_nat n /\ 0 < nth (Z.to_nat p) c 0 /\ nth ((Z.to_nat p + 1) mod n) b false = false.
Proof.
  rewrite maxima_in by (rewrite c_len; exact some). rewrite c_len. assert (N1 : forall i, (i < n)%nat -> (((i + 1) mod n + n - 1) mod n = i)%nat).
  { intros i I. destruct (Nat.eq_dec i (n - 1)) as [->|Q]. - replace (n - 1 + 1)%nat with n by lia. rewrite Nat.mod_same by lia. cbn [Nat.add]. apply Nat.mod_small. lia.
    - rewrite (Nat.mod_small (i + 1)) by lia. replace (i + 1 + n - 1)%nat with (i + 1 * n)%nat by lia. rewrite Nat.mod_add by lia. apply Nat.mod_small. lia. }
  split.
  - intros (B & T1 & T2). assert (P : (Z.to_nat p < n)%nat) by lia. pose proof (c_prev ((Z.to_nat p + 1) mod n) (Nat.mod_upper_bound _ n ltac:(lia))) as C. rewrite (N1 _ P) in C. pose proof (c_nonneg ((Z.to_nat p + 1) mod n)). split; [lia|]. destruct (nth ((Z.to_nat p + 1) mod n) b false); [lia|]. split; [lia|reflexivity].
  - intros (B & T1 & T2). assert (P : (Z.to_nat p < n)%nat) by lia. pose proof (c_prev ((Z.to_nat p + 1) mod n) (Nat.mod_upper_bound _ n ltac:(lia))) as C. rewrite T2 in C. split; [lia|]. split; [lia|]. pose proof (c_prev (Z.to_nat p) P) as C2. destruct (nth (Z.to_nat p) b false); lia.
Qed.
Definition phi (p : Z) : Z := (p - nth (Z.to_nat p) c 0 + 1) mod Z.of_nat n.
Lemma ends_of : exists mx, maxima c = mx /\ ends_day (Z.of_nat n) c = Ok (mx, map phi mx) /\
  forall crit, 1 <= crit -> (forall p, In p mx -> crit <= nth (Z.to_nat p) c 0) -> length (where_ (Z.eqb crit) 0 c) = length mx.
Proof.
  exists (maxima c). split; [reflexivity|].
  pose proof (starts_ends b 0 v v_nonneg) as SE. fold c in SE. rewrite last_c in SE. cbn [Z.add] in SE. fold n in SE. set (E := ends 0 v b) in *. set (mini := where_ (Z.eqb 1) 0 c) in *.
  assert (EI : forall p w, In (p, w) E <-> exists i, (i < n)%nat /\ p = 0 - 1 + Z.of_nat i /\ nth i (v :: c) 0 = w /\ 0 < w /\ nth i b false = false) by (intros p w; apply ends_in).
  assert (ES : StronglySorted Z.lt (map fst E)) by apply ends_sorted.
  assert (EW : forall p w, In (p, w) E -> 0 <= p -> nth (Z.to_nat p) c 0 = w /\ In p (maxima c)). { intros p w I P0. apply EI in I. destruct I as (i & I & Pi & N & W & F). destruct i as [|i]; [lia|]. cbn [nth] in N. replace (Z.to_nat p) with i by lia. split; [exact N|]. apply max_in. split; [lia|]. replace (Z.to_nat p) with i by lia. split; [lia|]. rewrite Nat.mod_small by lia. replace (i + 1)%nat with (S i) by lia. exact F. }
  assert (ME : forall p, In p (maxima c) -> p < Z.of_nat n - 1 -> In p (map fst E)). { intros p I Q. apply max_in in I. destruct I as (B & C & F). apply in_map_iff. exists (p, nth (Z.to_nat p) c 0). split; [reflexivity|]. apply EI. exists (S (Z.to_nat p)). split; [lia|]. split; [lia|]. split; [reflexivity|]. split; [exact C|]. rewrite Nat.mod_small in F by lia. replace (S (Z.to_nat p)) with (Z.to_nat p + 1)%nat by lia. exact F. }
  assert (MI : forall x, In x mini -> 0 <= x < Z.of_nat n) by (intros x X; apply where_in in X; destruct X as (i & I & -> & _); rewrite c_len in I; lia).
  assert (PH : forall p, In p (maxima c) -> In (p - nth (Z.to_nat p) c 0 + 1) mini -> phi p = p - nth (Z.to_nat p) c 0 + 1) by (intros p _ I; apply MI in I; unfold phi; apply Z.mod_small; exact I).
  assert (CNT : forall crit, 1 <= crit -> (forall p w, In (p, w) E -> crit <= w) -> length (where_ (Z.eqb crit) 0 c) = length E). { intros crit C1 H. pose proof (count_ends crit b C1 0 v v_nonneg H) as K. fold c in K. rewrite last_c in K. fold E in K. lia. }
  assert (FI : item 0 c = Ok (nth 0 c 0)) by (apply item_pos; rewrite c_len; unfold n; lia).
  assert (LI : item (Z.of_nat n - 1) c = Ok v). { rewrite (item_pos _ c 0) by (rewrite c_len; unfold n in *; lia). replace (Z.to_nat (Z.of_nat n - 1)) with (n - 1)%nat by lia. rewrite c_last. reflexivity. }
  unfold ends_day. fold mini. rewrite LI, FI. cbn [bind].
  assert (C0 : nth 0 c 0 = if nth 0 b false then v + 1 else 0). { rewrite (c_prev 0 some). cbn [Nat.add]. rewrite Nat.mod_small by (unfold n in *; lia). rewrite c_last. reflexivity. }
  pose proof v_nonneg as V0. destruct (Z.eq_dec v 0) as [VZ|VP].
  - (* nothing at the last place *)
    assert (MX : maxima c = map fst E). { apply sorted_ext; [apply maxima_sorted|exact ES|]. intros p. split.
      - intros I. apply ME; [exact I|]. pose proof (proj1 (max_in p) I) as (B & C & _). destruct (Z.eq_dec p (Z.of_nat n - 1)) as [->|]; [|lia]. replace (Z.to_nat (Z.of_nat n - 1)) with (n - 1)%nat in C by lia. rewrite c_last in C. lia.
      - intros I. apply in_map_iff in I. destruct I as ((q & w) & <- & I). cbn [fst]. apply (EW q w I). apply EI in I. destruct I as (i & _ & -> & N & W & _). destruct i; [cbn in N; lia|lia]. }
    replace (v =? 0) with true by (symmetry; apply Z.eqb_eq; exact VZ). cbn [negb andb]. unfold pend in SE. replace (0 <? v) with false in SE by (symmetry; apply Z.ltb_ge; lia). cbn [app] in SE. rewrite app_nil_r in SE. split.
    + f_equal. f_equal. rewrite SE, MX, map_map. apply map_ext_in. intros (p & w) I. cbn [fst snd]. assert (P0 : 0 <= p). { apply EI in I. destruct I as (i & _ & -> & N & W & _). destruct i; [cbn in N; lia|lia]. } destruct (EW p w I P0) as [W M]. rewrite <- W. symmetry. apply PH; [exact M|]. rewrite W, SE. apply in_map_iff. exists (p, w). split; [reflexivity|exact I].
    + intros crit C1 H. rewrite MX, map_length. apply CNT; [exact C1|]. intros p w I. assert (P0 : 0 <= p). { apply EI in I. destruct I as (i & _ & -> & N & W & _). destruct i; [cbn in N; lia|lia]. } destruct (EW p w I P0) as [W M]. rewrite <- W. apply H. exact M.
  - assert (VV : 0 < v) by lia. replace (v =? 0) with false by (symmetry; apply Z.eqb_neq; exact VP). cbn [negb andb]. unfold pend in SE. replace (0 <? v) with true in SE by (symmetry; apply Z.ltb_lt; exact VV). cbn [app] in SE. rewrite C0. destruct (nth 0 b false) eqn:B0.
    + (* a run across the first place *)
      replace (v + 1 =? 0) with false by (symmetry; apply Z.eqb_neq; lia). cbn [negb].
      assert (PE : forall p w, In (p, w) E -> 0 <= p). { intros p w I. apply EI in I. destruct I as (i & _ & -> & N & W & F). destruct i; [congruence|lia]. }
      assert (MX : maxima c = map fst E). { apply sorted_ext; [apply maxima_sorted|exact ES|]. intros p. split.
        - intros I. apply ME; [exact I|]. pose proof (proj1 (max_in p) I) as (B & C & F). destruct (Z.eq_dec p (Z.of_nat n - 1)) as [->|]; [|lia]. replace (Z.to_nat (Z.of_nat n - 1) + 1)%nat with n in F by (unfold n in *; lia). rewrite Nat.mod_same in F by (unfold n in *; lia). congruence.
        - intros I. apply in_map_iff in I. destruct I as ((q & w) & <- & I). apply (EW q w I). exact (PE _ _ I). }
      destruct E as [|(p0 & w0) E'] eqn:EE.
      * exfalso. destruct free as (q & Q & F). cbn [map app] in SE. injection SE as X _. unfold n in *. lia.
      * rewrite <- EE in *. assert (SE' : mini = map (fun p => fst p - snd p + 1) E' ++ [Z.of_nat n - v]) by (rewrite EE in SE; cbn [map app] in SE; injection SE as _ X; exact X). assert (P0 : p0 - w0 + 1 = - v) by (rewrite EE in SE; cbn [map app fst snd] in SE; injection SE as X _; lia).
        assert (MN : mini <> []) by (rewrite SE'; destruct (map _ E'); discriminate). assert (IM : item (-1) mini = Ok (Z.of_nat n - v)). { rewrite (item_neg _ mini 0) by (destruct mini; [contradiction|cbn [length]; lia]). f_equal. rewrite SE'. set (m := map _ E'). rewrite app_length. cbn [length]. replace (Z.to_nat (-1 + Z.of_nat (length m + 1))) with (length m) by lia. rewrite app_nth2, Nat.sub_diag by lia. reflexivity. }
        rewrite IM. cbn [bind]. split.
        -- f_equal. f_equal. rewrite MX, EE. cbn [map fst]. f_equal.
           ++ destruct (EW p0 w0 ltac:(rewrite EE; left; reflexivity) (PE p0 w0 ltac:(rewrite EE; left; reflexivity))) as [W M]. unfold phi. rewrite W, P0. assert (VN : 0 <= Z.of_nat n - v < Z.of_nat n) by (apply MI; rewrite SE'; apply in_or_app; right; left; reflexivity). apply (Z.mod_unique_pos (- v) (Z.of_nat n) (-1)); lia.
           ++ rewrite SE', removelast_app by discriminate. cbn [removelast]. rewrite app_nil_r, map_map. apply map_ext_in. intros (p & w) I. cbn [fst snd]. assert (I2 : In (p, w) E) by (rewrite EE; right; exact I). destruct (EW p w I2 (PE _ _ I2)) as [W M]. rewrite <- W. symmetry. apply PH; [exact M|]. rewrite W, SE'. apply in_or_app. left. apply in_map_iff. exists (p, w). split; [reflexivity|exact I].
        -- intros crit C1 H. rewrite MX, map_length. apply CNT; [exact C1|]. intros p w I. destruct (EW p w I (PE _ _ I)) as [W M]. rewrite <- W. apply H. exact M.
    + (* a run up to the last place *)
      cbn [Z.eqb negb andb]. destruct (head_false b some B0) as (bt & EB).
      assert (EE : E = (-1, v) :: ends 1 0 bt). { unfold E. rewrite EB. cbn [ends negb andb]. replace (0 <? v) with true by (symmetry; apply Z.ltb_lt; exact VV). reflexivity. }
      set (E' := ends 1 0 bt) in *. rewrite EE in SE. cbn [map app fst snd] in SE. injection SE as _ SE.
      assert (PE : forall p w, In (p, w) E' -> 0 <= p). { intros p w I. apply ends_in in I. destruct I as (i & _ & -> & N & W & F). lia. }
      assert (EM : forall p w, In (p, w) E' -> In (p, w) E) by (intros p w I; rewrite EE; right; exact I).
      assert (ML : In (Z.of_nat n - 1) (maxima c)). { apply max_in. split; [unfold n in *; lia|]. replace (Z.to_nat (Z.of_nat n - 1)) with (n - 1)%nat by lia. rewrite c_last. split; [exact VV|]. replace (n - 1 + 1)%nat with n by (unfold n in *; lia). rewrite Nat.mod_same by (unfold n in *; lia). exact B0. }
      assert (MX : maxima c = map fst E' ++ [Z.of_nat n - 1]). { rewrite EE in ES. cbn [map] in ES. apply StronglySorted_inv in ES. destruct ES as [ES _]. apply sorted_ext; [apply maxima_sorted| |].
        - apply sorted_app; [exact ES|constructor; constructor|]. intros x y X [<-|[]]. apply in_map_iff in X. destruct X as ((p & w) & <- & I). cbn [fst]. apply EM, EI in I. destruct I as (i & I & -> & _). lia.
        - intros p. rewrite in_app_iff. split.
          + intros I. destruct (Z.eq_dec p (Z.of_nat n - 1)) as [->|Q]; [right; left; reflexivity|]. left. pose proof (proj1 (max_in p) I) as (B & _). specialize (ME p I ltac:(lia)). rewrite EE in ME. destruct ME as [X|X]; [cbn in X; lia|exact X].
          + intros [I|[<-|[]]]; [|exact ML]. apply in_map_iff in I. destruct I as ((q & w) & <- & I). apply (EW q w (EM _ _ I)). exact (PE _ _ I). }
      split.
      * f_equal. f_equal. rewrite SE, MX, map_app, map_map. f_equal.
        -- apply map_ext_in. intros (p & w) I. cbn [fst snd]. destruct (EW p w (EM _ _ I) (PE _ _ I)) as [W M]. rewrite <- W. symmetry. apply PH; [exact M|]. rewrite W, SE. apply in_or_app. left. apply in_map_iff. exists (p, w). split; [reflexivity|exact I].
        -- cbn [map]. f_equal. unfold phi. replace (Z.to_nat (Z.of_nat n - 1)) with (n - 1)%nat by lia. rewrite c_last. assert (I : In (Z.of_nat n - v) mini) by (rewrite SE; apply in_or_app; right; left; reflexivity). apply MI in I. symmetry. replace (Z.of_nat n - 1 - v + 1) with (Z.of_nat n - v) by lia. apply Z.mod_small. lia.
      * intros crit C1 H. rewrite MX, app_length, map_length. cbn [length]. rewrite CNT; [rewrite EE; cbn [length]; lia|exact C1|]. intros p w I. rewrite EE in I. destruct I as [I|I].
        -- injection I as <- <-. specialize (H _ ML). replace (Z.to_nat (Z.of_nat n - 1)) with (n - 1)%nat in H by lia. rewrite c_last in H. exact H.
        -- destruct (EW p w (EM _ _ I) (PE _ _ I)) as [W M]. rewrite <- W. apply H. exact M.
Qed.
End Ends.

(** ** Runs *)
Lemma run_on b k : forall j, 0 <= j < run_to b k -> on b (Z.of_nat k - j) = true.
Proof.
  induction k as [|k IH]; intros j J; cbn [run_to] in J; destruct (on b (Z.of_nat _)) eqn:O; try lia.
  - replace (Z.of_nat 0 - j) with (Z.of_nat 0) by lia. exact O.
  - destruct (Z.eq_dec j 0) as [->|N]; [rewrite Z.sub_0_r; exact O|]. replace (Z.of_nat (S k) - j) with (Z.of_nat k - (j - 1)) by lia. apply IH. lia.
Qed.
Lemma run_bound b k : run_to b k <= Z.of_nat k + 1.
Proof. induction k as [|k IH]; cbn [run_to]; destruct (on b _); lia. Qed.
Lemma run_stop b k : run_to b k <= Z.of_nat k -> on b (Z.of_nat k - run_to b k) = false.
Proof.
  induction k as [|k IH]; intros L; cbn [run_to] in *; destruct (on b (Z.of_nat _)) eqn:O; try lia.
  - rewrite Z.sub_0_r. exact O.
  - replace (Z.of_nat (S k) - (1 + run_to b k)) with (Z.of_nat k - run_to b k) by lia. apply IH. lia.
  - rewrite Z.sub_0_r. exact O.
Qed.
Lemma on_mod b x y : b <> [] -> x mod Z.of_nat (length b) = y mod Z.of_nat (length b) -> on b x = on b y.
Proof. intros _ E. unfold on. rewrite E. reflexivity. Qed.
Lemma run_less b k : b <> [] -> (exists q, (q < length b)%nat /\ on b (Z.of_nat q) = false) -> (length b <= k)%nat -> run_to b k < Z.of_nat (length b).
Proof.
  intros NE (q & Q & F) K. destruct (Z.lt_ge_cases (run_to b k) (Z.of_nat (length b))) as [G|G]; [exact G|exfalso]. set (n := Z.of_nat (length b)) in *.
  pose proof (Z.mod_pos_bound (Z.of_nat k - Z.of_nat q) n ltac:(lia)) as B. pose proof (run_on b k ((Z.of_nat k - Z.of_nat q) mod n) ltac:(lia)) as O. rewrite (on_mod b _ (Z.of_nat q) NE) in O; [congruence|]. fold n. rewrite Zminus_mod_idemp_r. f_equal. lia.
Qed.
Lemma inside_iff n s e x : 0 < n -> 0 <= x < n -> e - s < n -> (Inside n s e x = true <-> exists i, s <= i <= e /\ i mod n = x).
Proof.
  intros P X L. unfold Inside. rewrite Z.leb_le. split.
  - intros H. exists (s + (x - s) mod n). pose proof (Z.mod_pos_bound (x - s) n P). split; [lia|]. rewrite Zplus_mod_idemp_r. replace (s + (x - s)) with x by lia. apply Z.mod_small. exact X.
  - intros (i & I & <-). rewrite Zminus_mod_idemp_l. rewrite Z.mod_small; lia.
Qed.
Lemma mark_rule n : forall bl l, Z.of_nat (length l) = n -> (forall i, In i bl -> - n <= i < n) ->
  exists l', mark bl l = Ok l' /\ length l' = length l /\ forall p, nth p l' false = (nth p l false || existsb (fun i => Z.of_nat p =? i mod n) bl)%bool.
Proof.
  induction bl as [|i bl IH]; intros l L H; [exists l; split; [reflexivity|]; split; [reflexivity|]; intros p; cbn; rewrite Bool.orb_false_r; reflexivity|].
  destruct (assign_ok i true l ltac:(rewrite L; apply H; left; reflexivity)) as (l1 & E1 & L1 & N1). cbn [mark]. rewrite E1. cbn [bind]. destruct (IH l1 ltac:(lia) (fun j J => H j (or_intror J))) as (l2 & E2 & L2 & N2). exists l2. split; [exact E2|]. split; [lia|]. intros p. rewrite N2, N1, L. cbn [existsb]. destruct (Z.of_nat p =? i mod n); [cbn; rewrite Bool.orb_true_r; reflexivity|reflexivity].
Qed.
Definition row_of (n s e : Z) : list bool := map (fun i => Inside n s e (Z.of_nat i)) (seq 0 (Z.to_nat n)).
Lemma row_nth n s e p : (p < Z.to_nat n)%nat -> nth p (row_of n s e) false = Inside n s e (Z.of_nat p).
Proof. intros P. unfold row_of. rewrite (nth_indep _ false (Inside n s e (Z.of_nat 0))) by (rewrite map_length, seq_length; exact P). rewrite (map_nth (fun i => Inside n s e (Z.of_nat i))), seq_nth by exact P. reflexivity. Qed.
Lemma row_length n s e : length (row_of n s e) = Z.to_nat n.
Proof. unfold row_of. rewrite map_length, seq_length. reflexivity. Qed.
Lemma mark_row n s e bl (lon : list Z) : 0 < n -> Z.of_nat (length lon) = n -> e - s < n -> (forall i, In i bl -> - n <= i < n) ->
  (forall x, 0 <= x < n -> ((exists i, s <= i <= e /\ i mod n = x) <-> exists i, In i bl /\ i mod n = x)) -> mark bl (map (fun _ => false) lon) = Ok (row_of n s e).
Proof.
  intros P L SE R H. destruct (mark_rule n bl (map (fun _ => false) lon) ltac:(rewrite map_length; exact L) R) as (l & E & L1 & N1). rewrite E. f_equal. rewrite map_length in L1. apply (nth_ext _ _ false false); [rewrite row_length; lia|]. intros p Q. rewrite N1, row_nth by lia.
  replace (nth p (map (fun _ : Z => false) lon) false) with false by (symmetry; exact (map_nth (fun _ : Z => false) lon 0 p)). cbn [orb]. apply Bool.eq_iff_eq_true. rewrite inside_iff by lia. rewrite (H (Z.of_nat p) ltac:(lia)), existsb_exists. split; intros (i & I & X); exists i; split; try exact I; [apply Z.eqb_eq in X; lia|apply Z.eqb_eq; lia].
Qed.
Section Groups.
Variable a : list Q.
Let b := bits a.
Let n := Z.of_nat (length a).
Hypothesis some : a <> [].
Hypothesis free : exists q, (q < length a)%nat /\ on b (Z.of_nat q) = false.
Let c := map (count_of b) (seq 0 (length a)).
Lemma bl_len : length b = length a.
Proof. apply map_length. Qed.
Lemma b_ne : b <> [].
Proof. unfold b. destruct a; [contradiction|discriminate]. Qed.
Lemma n_pos : 0 < n.
Proof. unfold n. destruct a; [contradiction|cbn [length]; lia]. Qed.
Lemma b_pos : (0 < length b)%nat.
Proof. rewrite bl_len. pose proof n_pos. unfold n in *. lia. Qed.
Lemma b_free : exists q, (q < length b)%nat /\ on b (Z.of_nat q) = false.
Proof. rewrite bl_len. exact free. Qed.
Lemma c_scan : scan (run_to b (length b - 1)) b = c.
Proof. unfold c. rewrite <- bl_len. apply scan_is; [exact b_ne|reflexivity]. Qed.
Lemma c_at p : 0 <= p < n -> nth (Z.to_nat p) c 0 = run_to b (Z.to_nat p + length b).
Proof. intros P. unfold c. rewrite (nth_indep _ 0 (count_of b 0)) by (rewrite map_length, seq_length; unfold n in P; lia). rewrite map_nth, seq_nth by (unfold n in P; lia). reflexivity. Qed.
Lemma c_lt p : 0 <= p < n -> nth (Z.to_nat p) c 0 < n.
Proof. intros P. rewrite (c_at p P). unfold n. rewrite <- bl_len. apply run_less; [exact b_ne|exact b_free|lia]. Qed.
(** The right ends are those of the runs. *)
Lemma on_at p : 0 <= p < n -> on b p = nth (Z.to_nat p) b false.
Proof. intros P. unfold on. rewrite bl_len. fold n. rewrite Z.mod_small by exact P. reflexivity. Qed.
Lemma run_max s e : Run a s e <-> In e (maxima c) /\ s = e - nth (Z.to_nat e) c 0 + 1.
Proof.
  pose proof n_pos as NP. rewrite <- c_scan, (max_in b b_pos b_free), c_scan, bl_len. fold n. unfold Run. fold n.
  assert (ONN : forall x, On a x <-> on b x = true) by (intros x; symmetry; apply on_On; exact some).
  assert (NX : forall e, 0 <= e < n -> (nth ((Z.to_nat e + 1) mod length a) b false = on b (e + 1))). { intros e0 E0. unfold on. rewrite bl_len. fold n. f_equal. replace (e0 + 1) with (Z.of_nat (Z.to_nat e0 + 1)) by lia. unfold n. rewrite <- Nat2Z.inj_mod. rewrite Nat2Z.id. reflexivity. }
  split.
  - intros (E & SE & H & HL & HR). rewrite ONN in HL, HR. rewrite (c_at e E). rewrite NX by exact E.
    assert (LT : run_to b (Z.to_nat e + length b) < n) by (rewrite <- (c_at e E); apply c_lt; exact E).
    set (k := run_to b (Z.to_nat e + length b)) in *. assert (EN : Z.of_nat (Z.to_nat e + length b) = e + n) by (rewrite bl_len; unfold n in *; lia).
    assert (SH : forall x, on b (x + n) = on b x) by (intros x; unfold n; rewrite <- bl_len; apply on_shift; exact b_ne).
    assert (K : k = e - s + 1).
    { destruct (Z.lt_trichotomy k (e - s + 1)) as [G|[G|G]]; [exfalso|exact G|exfalso].
      - pose proof (run_stop b (Z.to_nat e + length b) ltac:(fold k; lia)) as ST. fold k in ST. rewrite EN in ST. replace (e + n - k) with (e - k + n) in ST by lia. rewrite SH in ST. assert (X : On a (e - k)) by (apply H; pose proof (run_nonneg b (Z.to_nat e + length b)); fold k in H0; lia). apply ONN in X. congruence.
      - pose proof (run_on b (Z.to_nat e + length b) (e - s + 1) ltac:(fold k; lia)) as R. rewrite EN in R. replace (e + n - (e - s + 1)) with (s - 1 + n) in R by lia. rewrite SH in R. contradiction. }
    split; [|lia]. split; [lia|]. split; [lia|]. destruct (on b (e + 1)); [exfalso; apply HR; reflexivity|reflexivity].
  - intros ((E & C & F) & ->). rewrite NX in F by exact E. rewrite (c_at e E) in *. set (k := run_to b (Z.to_nat e + length b)) in *. assert (EN : Z.of_nat (Z.to_nat e + length b) = e + n) by (rewrite bl_len; unfold n in *; lia).
    assert (LT : k < n) by (unfold k; rewrite <- (c_at e E); apply c_lt; exact E).
    assert (SH : forall x, on b (x + n) = on b x) by (intros x; unfold n; rewrite <- bl_len; apply on_shift; exact b_ne).
    split; [lia|]. split; [lia|]. split; [|split].
    + intros x X. apply ONN. rewrite <- SH. replace (x + n) with (e + n - (e - x)) by lia. rewrite <- EN. apply run_on. fold k. lia.
    + rewrite ONN. replace (e - k + 1 - 1) with (e - k) by lia. rewrite <- SH. replace (e - k + n) with (e + n - k) by lia. rewrite <- EN. unfold k. rewrite run_stop; [discriminate|]. fold k. lia.
    + rewrite ONN, F. discriminate.
Qed.
Lemma group_rule lon p bl : lon = map Z.of_nat (seq 0 (length a)) -> In p (maxima c) -> 2 <= nth (Z.to_nat p) c 0 ->
  exists bl', group lon a c p ((p - nth (Z.to_nat p) c 0 + 1) mod n) bl = Ok bl' /\ mark bl' (map (fun _ => false) lon) = Ok (row_of n (p - nth (Z.to_nat p) c 0 + 1) p).
Proof.
  intros EL M C2. pose proof n_pos as NP. assert (LL : Z.of_nat (length lon) = n) by (rewrite EL, map_length, seq_length; reflexivity). assert (CL : Z.of_nat (length c) = n) by (unfold c; rewrite map_length, seq_length; reflexivity).
  pose proof M as P. apply maxima_in in P; [|lia]. destruct P as (P & _). rewrite CL in P. pose proof (c_lt p P) as LT. set (k := nth (Z.to_nat p) c 0) in *.
  assert (LN : forall i, (i < length a)%nat -> nth i lon 0 = Z.of_nat i). { intros i I. rewrite EL. rewrite (nth_indep _ 0 (Z.of_nat 0)) by (rewrite map_length, seq_length; exact I). rewrite map_nth, seq_nth by exact I. reflexivity. }
  unfold group. rewrite (item_pos p c 0) by lia. fold k. cbn [bind]. rewrite LL. rewrite (item_pos (n - 1) a 0%Q) by (fold n; lia). rewrite (item_pos p lon 0) by lia.
  assert (DIRECT : mark (arange (p - k + 1) p) (map (fun _ => false) lon) = Ok (row_of n (p - k + 1) p)). { apply mark_row; try lia. - intros i I. apply arange_in in I. lia. - intros x X. split; intros (i & I & E); exists i; split; try exact E; apply arange_in; exact I. }
  destruct (Z.lt_ge_cases (p - k + 1) 0) as [W|W].
  - replace ((p - k + 1) mod n) with (p - k + 1 + n) by (apply (Z.mod_unique_pos (p - k + 1) n (-1)); lia). replace (p <? p - k + 1 + n) with true by (symmetry; apply Z.ltb_lt; lia). rewrite (item_neg _ lon 0) by lia. rewrite LL, LN by (unfold n in *; lia). cbn [bind]. replace (p - k + 1 + n <? p) with false by (symmetry; apply Z.ltb_ge; lia).
    destruct (Qeq_bool _ 1 && (200 <? p)); cbn [bind]; eexists; (split; [reflexivity|]); [exact DIRECT|]. rewrite Z2Nat.id by lia. apply mark_row; try lia.
    + intros i I. apply in_app_or in I. rewrite !arange_in in I. lia.
    + intros x X. split.
      * intros (i & I & E). destruct (Z.lt_ge_cases i 0) as [G|G].
        -- exists (i + n). split; [apply in_or_app; right; apply arange_in; lia|]. rewrite <- E. replace (i + n) with (i + 1 * n) by lia. apply Z.mod_add. lia.
        -- exists i. split; [apply in_or_app; left; apply arange_in; lia|exact E].
      * intros (i & I & E). apply in_app_or in I. rewrite !arange_in in I. destruct I as [I|I]; [exists i; split; [lia|exact E]|]. exists (i - n). split; [lia|]. rewrite <- E. replace (i - n) with (i + (-1) * n) by lia. apply Z.mod_add. lia.
  - rewrite Z.mod_small by lia. replace (p <? p - k + 1) with false by (symmetry; apply Z.ltb_ge; lia). replace (p - k + 1 <? p) with true by (symmetry; apply Z.ltb_lt; lia). cbn [bind]. destruct (Qeq_bool _ 1 && (200 <? p)); cbn [bind]; eexists; (split; [reflexivity|]); exact DIRECT.
Qed.
End Groups.

(** ** All groups *)
Definition cs_of (a : list Q) : list Z := map (count_of (bits a)) (seq 0 (length a)).
Definition left_of (a : list Q) (p : Z) : Z := p - nth (Z.to_nat p) (cs_of a) 0 + 1.
Definition good (n crit : Z) (a : list Q) : Prop := Z.of_nat (length a) = n /\ a <> [] /\ Wide crit a /\ exists q, (q < length a)%nat /\ on (bits a) (Z.of_nat q) = false.
Lemma free_place a : a <> [] -> (exists x, ~ On a x) -> exists q, (q < length a)%nat /\ on (bits a) (Z.of_nat q) = false.
Proof.
  intros NE (x & X). assert (P : 0 < Z.of_nat (length a)) by (destruct a; [contradiction|cbn [length]; lia]). pose proof (Z.mod_pos_bound x _ P) as B. exists (Z.to_nat (x mod Z.of_nat (length a))). split; [lia|]. rewrite Z2Nat.id by lia. destruct (on (bits a) (x mod _)) eqn:E; [exfalso|reflexivity]. apply X. apply on_On; [exact NE|].
  rewrite <- E. apply on_mod; [destruct a; [contradiction|discriminate]|]. unfold bits. rewrite map_length. rewrite Zmod_mod. reflexivity.
Qed.
Lemma good_wide n crit a p : 1 <= crit -> good n crit a -> In p (maxima (cs_of a)) -> crit <= nth (Z.to_nat p) (cs_of a) 0.
Proof.
  intros C (L & NE & W & F) M. assert (RN : Run a (left_of a p) p) by (apply (run_max a NE F); split; [exact M|reflexivity]).
  destruct RN as (P & LE & ON & HL & HR). destruct (W p) as (s & S1 & S2); [apply ON; lia|].
  assert (s + crit - 1 <= p). { destruct (Z.le_gt_cases (s + crit - 1) p) as [G|G]; [exact G|]. exfalso. apply HR. apply S2. lia. }
  assert (left_of a p <= s). { destruct (Z.le_gt_cases (left_of a p) s) as [G|G]; [exact G|]. exfalso. apply HL. apply S2. lia. }
  unfold left_of in *. lia.
Qed.
Definition day_entries (n : Z) (x : Z * Z * list Q) : list entry := map (fun p => Entry (fst (fst x)) (snd (fst x)) (row_of n (left_of (snd x) p) p)) (maxima (cs_of (snd x))).
Definition day_groups_of (x : Z * Z * list Q) : list grp := map (fun p => (fst (fst x), snd (fst x), left_of (snd x) p, p)) (maxima (cs_of (snd x))).
Lemma split_day n crit a y d lon : 2 <= crit -> good n crit a -> lon = map Z.of_nat (seq 0 (Z.to_nat n)) -> forall mx (L : list Z) rest mx' mn' bl, length L = length mx -> (forall p, In p mx -> In p (maxima (cs_of a))) ->
  exists bl', TrackModel.split lon (map (fun _ => (y, d, (a, cs_of a))) L ++ rest) (mx ++ mx') (map (fun p => left_of a p mod n) mx ++ mn') bl =
    (more <- TrackModel.split lon rest mx' mn' bl' ;; Ok (map (fun p => Entry y d (row_of n (left_of a p) p)) mx ++ more)).
Proof.
  intros C G EL. induction mx as [|p mx IH]; intros L rest mx' mn' bl LL H.
  - destruct L; [|discriminate LL]. exists bl. cbn [map app]. destruct (TrackModel.split lon rest mx' mn' bl); reflexivity.
  - destruct L as [|x L]; [discriminate LL|]. injection LL as LL. cbn [map app TrackModel.split].
    pose proof (good_wide n crit a p ltac:(lia) G (H p (or_introl eq_refl))) as W. destruct G as (LN & NE & WD & F). subst n. rewrite Nat2Z.id in EL.
    destruct (group_rule a NE F lon p bl EL (H p (or_introl eq_refl)) ltac:(unfold cs_of in W; lia)) as (b & GB & MB). change (group lon a (cs_of a) p (left_of a p mod Z.of_nat (length a)) bl = Ok b) in GB. rewrite GB. cbn [bind]. rewrite MB. cbn [bind].
    destruct (IH L rest mx' mn' (Some b) LL (fun q Q => H q (or_intror Q))) as (bl' & E). rewrite E. exists bl'. destruct (TrackModel.split lon rest mx' mn' bl'); reflexivity.
Qed.
Lemma split_days n crit lon : 2 <= crit -> lon = map Z.of_nat (seq 0 (Z.to_nat n)) -> forall ds bl, (forall x, In x ds -> good n crit (snd x)) ->
  TrackModel.split lon (flat_map (fun x => places_day crit (fst (fst x)) (snd (fst x)) (snd x, cs_of (snd x))) ds) (flat_map (fun x => maxima (cs_of (snd x))) ds)
    (flat_map (fun x => map (fun p => left_of (snd x) p mod n) (maxima (cs_of (snd x)))) ds) bl = Ok (flat_map (day_entries n) ds).
Proof.
  intros C EL. induction ds as [|x ds IH]; intros bl H; [reflexivity|]. cbn [flat_map]. pose proof (H x (or_introl eq_refl)) as G. unfold places_day at 1. cbn [snd].
  assert (LL : length (where_ (Z.eqb crit) 0 (cs_of (snd x))) = length (maxima (cs_of (snd x)))).
  { pose proof (fun p => good_wide n crit (snd x) p ltac:(lia) G) as W. destruct G as (_ & NE & _ & F). destruct (ends_of (bits (snd x)) (b_pos _ NE F) (b_free _ F)) as (mx & E1 & _ & E3). rewrite (c_scan (snd x) NE F) in E1, E3. fold (cs_of (snd x)) in E1, E3. rewrite E1 in *. apply E3; [lia|exact W]. }
  destruct (split_day n crit (snd x) (fst (fst x)) (snd (fst x)) lon C G EL (maxima (cs_of (snd x))) (where_ (Z.eqb crit) 0 (cs_of (snd x))) (flat_map (fun x => places_day crit (fst (fst x)) (snd (fst x)) (snd x, cs_of (snd x))) ds)
    (flat_map (fun x => maxima (cs_of (snd x))) ds) (flat_map (fun x => map (fun p => left_of (snd x) p mod n) (maxima (cs_of (snd x)))) ds) bl LL (fun p P => P)) as (bl' & E).
  rewrite E. rewrite (IH bl' (fun z Z => H z (or_intror Z))). reflexivity.
Qed.
Lemma mapM_same {A B} (f : A -> res B) (g : A -> B) l : (forall x, In x l -> f x = Ok (g x)) -> mapM f l = Ok (map g l).
Proof. induction l as [|a l IH]; intros H; [reflexivity|]. cbn [mapM map]. rewrite (H a) by (left; reflexivity). cbn [bind]. rewrite IH by (intros; apply H; right; assumption). reflexivity. Qed.
Lemma mapM_map1 {A B C} (g : A -> B) (f : B -> res C) l : mapM f (map g l) = mapM (fun x => f (g x)) l.
Proof. induction l as [|a l IH]; [reflexivity|]. cbn [map mapM]. rewrite IH. reflexivity. Qed.
Lemma groups_are n crit lon gibl : 2 <= crit -> lon = map Z.of_nat (seq 0 (Z.to_nat n)) -> 0 < n -> (forall x, In x (days_of gibl) -> good n crit (snd x)) ->
  groups n crit lon gibl = Ok (flat_map (day_entries n) (days_of gibl)).
Proof.
  intros C EL P H. unfold groups. set (ds := days_of gibl) in *. clearbody ds.
  rewrite (mapM_same _ (fun x => cs_of (snd x)) ds). 2:{ intros x X. destruct (H x X) as (L & NE & _ & F). rewrite <- L. apply count_day_is; assumption. } cbn [bind].
  assert (LN : Z.of_nat (length lon) = n) by (rewrite EL, map_length, seq_length; lia). rewrite LN.
  assert (E : mapM (ends_day n) (map (fun x => cs_of (snd x)) ds) = Ok (map (fun x => (maxima (cs_of (snd x)), map (fun p => left_of (snd x) p mod n) (maxima (cs_of (snd x))))) ds)).
  { rewrite mapM_map1. apply mapM_same. intros x X. destruct (H x X) as (L & NE & _ & F). destruct (ends_of (bits (snd x)) (b_pos _ NE F) (b_free _ F)) as (mx & E1 & E2 & _). unfold phi in E2. rewrite (c_scan (snd x) NE F) in E1, E2. rewrite bl_len in E2. rewrite L in E2. fold (cs_of (snd x)) in E1, E2. rewrite E1. exact E2. }
  rewrite E. cbn [bind]. rewrite <- (split_days n crit lon C EL ds None H). f_equal.
  - clear. induction ds as [|x ds IH]; [reflexivity|]. cbn [map combine flat_map]. rewrite <- IH. destruct x as ((y & d) & a). reflexivity.
  - clear. induction ds as [|x ds IH]; [reflexivity|]. cbn [map flat_map fst]. rewrite IH. reflexivity.
  - clear. induction ds as [|x ds IH]; [reflexivity|]. cbn [map flat_map snd]. rewrite IH. reflexivity.
Qed.
Lemma numbered_in {A} (l : list A) k v : In (k, v) (numbered l) <-> 0 <= k /\ nth_error l (Z.to_nat k) = Some v.
Proof.
  unfold numbered. assert (G : forall l s, In (k, v) (combine (map Z.of_nat (seq s (length l))) l) <-> Z.of_nat s <= k /\ nth_error l (Z.to_nat k - s) = Some v).
  { induction l0 as [|x l0 IH]; intros s; cbn [length seq map combine In]; [split; [tauto|intros (_ & X); destruct (_ - _)%nat; discriminate X]|]. rewrite IH. split.
    - intros [E|(L & E)]; [injection E as <- <-; split; [lia|]; rewrite Nat2Z.id, Nat.sub_diag; reflexivity|]. split; [lia|]. replace (Z.to_nat k - s)%nat with (S (Z.to_nat k - S s)) by lia. exact E.
    - intros (L & E). destruct (Z.eq_dec k (Z.of_nat s)) as [->|N]; [left; rewrite Nat2Z.id, Nat.sub_diag in E; cbn in E; injection E as ->; reflexivity|]. right. split; [lia|]. replace (Z.to_nat k - s)%nat with (S (Z.to_nat k - S s)) in E by lia. exact E. }
  rewrite G, Nat.sub_0_r. cbn. split; intros (L & E); split; try exact E; lia.
Qed.
Lemma days_in gibl y d a : In (y, d, a) (days_of gibl) <-> Row gibl y d a.
Proof.
  unfold days_of, Row. rewrite in_flat_map. split.
  - intros ((y' & days) & I & J). apply in_map_iff in J. destruct J as ((d' & a') & E & J). cbn in E. injection E as <- <- <-. cbn in J. apply numbered_in in I, J. split; [lia|]. split; [lia|]. exists days. tauto.
  - intros (Y & D & days & E1 & E2). exists (y, days). split; [apply numbered_in; tauto|]. apply in_map_iff. exists (d, a). split; [reflexivity|]. cbn. apply numbered_in. tauto.
Qed.
Lemma numbered_sorted {A} (l : list A) : StronglySorted (fun x y => fst x < fst y) (numbered l).
Proof.
  unfold numbered. generalize 0%nat as s. induction l as [|x l IH]; intros s; cbn [length seq map combine]; constructor; [apply IH|]. apply Forall_forall. intros (k & v) I. apply in_combine_l in I. apply in_map_iff in I. destruct I as (i & <- & I). apply in_seq in I. cbn. lia.
Qed.
Lemma flat_sorted {A B} (R : A -> A -> Prop) (Q : B -> B -> Prop) (f : A -> list B) l : StronglySorted R l -> (forall x, In x l -> StronglySorted Q (f x)) ->
  (forall x y u v, R x y -> In u (f x) -> In v (f y) -> Q u v) -> StronglySorted Q (flat_map f l).
Proof.
  intros SR H K. induction SR as [|x l SR IH F]; [constructor|]. cbn [flat_map].
  assert (G : forall m r, StronglySorted Q m -> StronglySorted Q r -> (forall u v, In u m -> In v r -> Q u v) -> StronglySorted Q (m ++ r)).
  { clear. induction 1 as [|u m HS IH F]; intros HR K; [exact HR|]. cbn. constructor; [apply IH; [exact HR|]; intros; apply K; [right|]; assumption|]. apply Forall_app. split; [exact F|]. apply Forall_forall. intros v V. apply K; [left; reflexivity|exact V]. }
  apply G; [apply H; left; reflexivity|apply IH; intros; apply H; right; assumption|]. intros u v U V. apply in_flat_map in V. destruct V as (y & Y & V). rewrite Forall_forall in F. exact (K x y u v (F y Y) U V).
Qed.
Lemma map_sorted {A B} (R : A -> A -> Prop) (Q : B -> B -> Prop) (f : A -> B) l : StronglySorted R l -> (forall x y, R x y -> Q (f x) (f y)) -> StronglySorted Q (map f l).
Proof. intros SR H. induction SR as [|x l SR IH F]; [constructor|]. cbn. constructor; [exact IH|]. apply Forall_forall. intros y Y. apply in_map_iff in Y. destruct Y as (z & <- & Z). rewrite Forall_forall in F. apply H. apply F. exact Z. Qed.
Lemma days_sorted {A} (gibl : list (list A)) : StronglySorted (fun x y => fst (fst x) < fst (fst y) \/ (fst (fst x) = fst (fst y) /\ snd (fst x) < snd (fst y))) (days_of gibl).
Proof.
  unfold days_of. apply (flat_sorted _ _ _ _ (numbered_sorted gibl)).
  - intros x _. apply (map_sorted _ _ _ _ (numbered_sorted (snd x))). intros u v L. right. cbn. split; [reflexivity|exact L].
  - intros x y u v L U V. apply in_map_iff in U, V. destruct U as (u' & <- & _), V as (v' & <- & _). left. exact L.
Qed.
Definition groups_of (gibl : list (list (list Q))) : list grp := flat_map day_groups_of (days_of gibl).
Lemma groups_of_all n crit gibl : (forall x, In x (days_of gibl) -> good n crit (snd x)) -> AllGroups gibl (groups_of gibl).
Proof.
  intros H. split.
  - apply (flat_sorted _ _ _ _ (days_sorted gibl)).
    + intros x _. apply (map_sorted _ _ _ _ (maxima_sorted _)). intros p q L. right. split; [reflexivity|]. right. split; [reflexivity|exact L].
    + intros x y u v L U V. apply in_map_iff in U, V. destruct U as (p & <- & _), V as (q & <- & _). destruct L as [L|(E & L)]; [left; exact L|]. right. split; [exact E|]. left. exact L.
  - intros (((y & d) & s) & e). unfold groups_of, IsGroup. rewrite in_flat_map. cbn [gyear gday gleft gright fst snd]. split.
    + intros (((y' & d') & a) & I & J). pose proof (H _ I) as (_ & NE & _ & F). cbn [snd] in *. apply in_map_iff in J. destruct J as (p & E & J). cbn [fst snd] in *. injection E as <- <- <- <-. exists a. split; [apply days_in; exact I|]. apply (run_max a NE F). split; [exact J|reflexivity].
    + intros (a & I & RN). apply days_in in I. exists (y, d, a). split; [exact I|]. pose proof (H _ I) as (_ & NE & _ & F). cbn [snd] in *. apply (run_max a NE F) in RN. destruct RN as (M & ->). apply in_map_iff. exists e. split; [reflexivity|exact M].
Qed.

(** ** Groups close in time *)
Definition ent (n : Z) (g : grp) : entry := Entry (gyear g) (gday g) (row_of n (gleft g) (gright g)).
Lemma entries_are n gibl : flat_map (day_entries n) (days_of gibl) = map (ent n) (groups_of gibl).
Proof. unfold groups_of. induction (days_of gibl) as [|x l IH]; [reflexivity|]. cbn [flat_map]. rewrite map_app, <- IH. f_equal. unfold day_entries, day_groups_of. rewrite map_map. reflexivity. Qed.
Fixpoint gclose (prev : grp) (ct : Z) (rest : list grp) : list grp :=
  match rest with
  | [] => []
  | cur :: rest' => if 2 <? gday cur - gday prev then gclose cur 0 rest' else (if ct =? 0 then [prev] else []) ++ cur :: gclose cur 1 rest'
  end.
Lemma close_map n rest : forall p ct, close (ent n p) ct (map (ent n) rest) = map (ent n) (gclose p ct rest).
Proof.
  induction rest as [|cur rest IH]; intros p ct; [reflexivity|]. cbn [map close gclose]. change (day (ent n cur)) with (gday cur). change (day (ent n p)) with (gday p).
  destruct (2 <? gday cur - gday p); [apply IH|]. rewrite map_app. cbn [map]. rewrite IH. destruct (ct =? 0); reflexivity.
Qed.
Lemma gclose_in rest : forall p ct g, In g (gclose p ct rest) -> In g rest \/ (g = p /\ ct = 0).
Proof.
  induction rest as [|cur rest IH]; intros p ct g H; cbn [gclose] in H; [contradiction|]. destruct (2 <? gday cur - gday p).
  - apply IH in H. left. destruct H as [H|(-> & _)]; [right; exact H|left; reflexivity].
  - apply in_app_or in H. destruct H as [H|[<-|H]]; [|left; left; reflexivity|apply IH in H; left; destruct H as [H|(-> & _)]; [right; exact H|left; reflexivity]].
    destruct (Z.eqb_spec ct 0); [|contradiction]. destruct H as [<-|[]]. right. split; [reflexivity|assumption].
Qed.
Lemma before_trans g h k : Before g h -> Before h k -> Before g k.
Proof. unfold Before. intros. lia. Qed.
Lemma before_irr g : ~ Before g g.
Proof. unfold Before. lia. Qed.
Lemma gclose_sorted rest : forall p ct, StronglySorted Before (p :: rest) -> StronglySorted Before (gclose p ct rest).
Proof.
  induction rest as [|cur rest IH]; intros p ct SS; cbn [gclose]; [constructor|]. apply StronglySorted_inv in SS. destruct SS as [SS F]. destruct (2 <? gday cur - gday p); [apply IH; exact SS|].
  assert (TL : StronglySorted Before (cur :: gclose cur 1 rest)). { constructor; [apply IH; exact SS|]. apply StronglySorted_inv in SS. destruct SS as [_ F']. rewrite Forall_forall in *. intros h H. apply gclose_in in H. destruct H as [H|(_ & H)]; [apply F'; exact H|discriminate H]. }
  destruct (ct =? 0); [|exact TL]. cbn [app]. constructor; [exact TL|]. rewrite Forall_forall in *. intros h [<-|H]; [apply F; left; reflexivity|]. apply gclose_in in H. destruct H as [H|(_ & H)]; [apply F; right; exact H|discriminate H].
Qed.
Lemma gclose_keeps rest : forall p ct g h, StronglySorted Before (p :: rest) -> In g (p :: rest) -> In h (p :: rest) -> Before g h -> gyear g = gyear h -> gday h - gday g <= 2 ->
  (In g (gclose p ct rest) \/ (g = p /\ ct <> 0)) /\ In h (gclose p ct rest).
Proof.
  induction rest as [|cur rest IH]; intros p ct g h SS G H B Y D.
  - destruct G as [<-|[]], H as [<-|[]]. exfalso. exact (before_irr _ B).
  - pose proof SS as SP. apply StronglySorted_inv in SS. destruct SS as [SS F]. rewrite Forall_forall in F. pose proof SS as SC. apply StronglySorted_inv in SC. destruct SC as [_ F']. rewrite Forall_forall in F'.
    destruct H as [<-|H]. { exfalso. destruct G as [<-|G]; [exact (before_irr _ B)|]. exact (before_irr _ (before_trans _ _ _ B (F g G))). }
    cbn [gclose]. destruct (Z.ltb_spec 2 (gday cur - gday p)) as [L|L].
    + destruct G as [<-|G]; [exfalso|]. 
      * pose proof (F cur (or_introl eq_refl)) as B1. destruct H as [<-|H]; [lia|]. pose proof (F' h H) as B2. unfold Before in *. lia.
      * destruct (IH cur 0 g h SS G H B Y D) as ([K|(_ & K)] & K2); [|contradiction]. split; [left; exact K|exact K2].
    + assert (GC : In g (cur :: rest) -> In g (cur :: gclose cur 1 rest) /\ In h (cur :: gclose cur 1 rest)). { intros G'. destruct (IH cur 1 g h SS G' H B Y D) as ([K|(-> & _)] & K2); split; try (right; assumption). left; reflexivity. }
      destruct G as [<-|G].
      * split. { destruct (Z.eqb_spec ct 0); [left; left; reflexivity|right; split; [reflexivity|assumption]]. }
        apply in_or_app. right. destruct H as [<-|H]; [left; reflexivity|]. right. destruct (IH cur 1 cur h SS (or_introl eq_refl) (or_intror H) (F' h H)) as (_ & K); [| |exact K]; pose proof (F cur (or_introl eq_refl)) as B1; pose proof (F' h H) as B2; unfold Before in *; lia.
      * destruct (GC G) as (K1 & K2). split; [left|]; apply in_or_app; right; assumption.
Qed.
Definition kept (gs : list grp) : list grp := match gs with [] => [] | g :: rest => gclose g 0 rest end.
Lemma consecutive_is n gs : consecutive (map (ent n) gs) = match gs with [] => Err IndexError | _ => match kept gs with [] => Err TypeError | _ => Ok (map (ent n) (kept gs)) end end.
Proof. destruct gs as [|g gs]; [reflexivity|]. unfold kept. cbn [map consecutive]. rewrite close_map. destruct (gclose g 0 gs); reflexivity. Qed.
Lemma kept_in gs g : In g (kept gs) -> In g gs.
Proof. destruct gs as [|p gs]; [tauto|]. cbn [kept]. intros H. apply gclose_in in H. destruct H as [H|(-> & _)]; [right; exact H|left; reflexivity]. Qed.
Lemma kept_sorted gs : StronglySorted Before gs -> StronglySorted Before (kept gs).
Proof. destruct gs as [|p gs]; [trivial|]. apply gclose_sorted. Qed.
Lemma kept_both gs g h : StronglySorted Before gs -> In g gs -> In h gs -> Before g h -> gyear g = gyear h -> gday h - gday g <= 2 -> In g (kept gs) /\ In h (kept gs).
Proof. destruct gs as [|p gs]; [contradiction|]. intros SS G H B Y D. destruct (gclose_keeps gs p 0 g h SS G H B Y D) as ([K|(_ & K)] & K2); [|contradiction]. split; assumption. Qed.

(** ** Tracks *)
Lemma places_from (E : list entry) (test : entry -> bool) : forall s j, In j (map fst (filter (fun p => test (snd p)) (combine (seq s (length E)) E))) <-> (s <= j)%nat /\ exists e, nth_error E (j - s) = Some e /\ test e = true.
Proof.
  induction E as [|x E IH]; intros s j; cbn [length seq combine filter map In].
  - split; [tauto|]. intros (_ & e & X & _). destruct (j - s)%nat; discriminate X.
  - cbn [snd]. assert (ST : forall e, (S s <= j)%nat /\ nth_error E (j - S s) = Some e <-> (s <= j)%nat /\ j <> s /\ nth_error (x :: E) (j - s) = Some e).
    { intros e. destruct (Nat.eq_dec j s) as [->|N]; [split; [lia|tauto]|]. destruct (Nat.le_gt_cases s j); [|split; lia]. replace (j - s)%nat with (S (j - S s)) by lia. cbn [nth_error]. split; intros; repeat split; try tauto; lia. }
    destruct (test x) eqn:T; cbn [map In fst]; rewrite IH.
    + split.
      * intros [<-|(L & e & X & Y)]; [split; [lia|]; exists x; rewrite Nat.sub_diag; split; [reflexivity|exact T]|]. destruct (proj1 (ST e) (conj L X)) as (A & B & C). split; [exact A|]. exists e. split; assumption.
      * intros (L & e & X & Y). destruct (Nat.eq_dec j s) as [->|N]; [left; reflexivity|right]. destruct (proj2 (ST e) (conj L (conj N X))) as (A & B). split; [exact A|]. exists e. split; assumption.
    + split.
      * intros (L & e & X & Y). destruct (proj1 (ST e) (conj L X)) as (A & B & C). split; [exact A|]. exists e. split; assumption.
      * intros (L & e & X & Y). destruct (Nat.eq_dec j s) as [->|N]; [rewrite Nat.sub_diag in X; cbn in X; congruence|]. destruct (proj2 (ST e) (conj L (conj N X))) as (A & B). split; [exact A|]. exists e. split; assumption.
Qed.
Lemma places_in E test j : In j (places E test) <-> exists e, nth_error E j = Some e /\ test e = true.
Proof. unfold places. rewrite places_from, Nat.sub_0_r. split; [intros (_ & H); exact H|intros H; split; [lia|exact H]]. Qed.
Lemma places_sorted E test : StronglySorted lt (places E test).
Proof.
  unfold places. generalize 0%nat as s. induction E as [|x E IH]; intros s; cbn [length seq combine filter map]; [constructor|]. cbn [snd]. destruct (test x); [|apply IH]. cbn [map fst]. constructor; [apply IH|].
  apply Forall_forall. intros j J. apply places_from in J. lia.
Qed.
Lemma sorted_nodup {A} (R : A -> A -> Prop) l : (forall x, ~ R x x) -> StronglySorted R l -> NoDup l.
Proof. intros I. induction 1 as [|x l SS IH F]; constructor; [|exact IH]. intros X. rewrite Forall_forall in F. exact (I x (F x X)). Qed.
Lemma mem_in j l : mem j l = true <-> In j l.
Proof. unfold mem. rewrite existsb_exists. split; [intros (x & I & E); apply Nat.eqb_eq in E; subst; exact I|intros I; exists j; split; [exact I|apply Nat.eqb_refl]]. Qed.
Lemma mem_not j l : negb (mem j l) = true <-> ~ In j l.
Proof. rewrite <- mem_in. destruct (mem j l); split; try discriminate; try tauto; intros _ X; discriminate X. Qed.
Lemma dups_gen l : forall acc, NoDup acc -> let r := fold_left (fun final num => if existsb (Z.eqb num) final then final else final ++ [num]) l acc in NoDup r /\ forall x, In x r <-> In x acc \/ In x l.
Proof.
  induction l as [|a l IH]; intros acc N; cbn [fold_left]; [split; [exact N|]; intros x; cbn; tauto|].
  destruct (existsb (Z.eqb a) acc) eqn:E.
  - destruct (IH acc N) as (N1 & I1). split; [exact N1|]. intros x. rewrite I1. cbn. split; [tauto|]. intros [H|[<-|H]]; [left; exact H| |right; exact H]. left. apply existsb_exists in E. destruct E as (y & Y & E). apply Z.eqb_eq in E. subst. exact Y.
  - assert (NI : ~ In a acc). { intros I. assert (existsb (Z.eqb a) acc = true); [|congruence]. apply existsb_exists. exists a. split; [exact I|apply Z.eqb_refl]. }
    destruct (IH (acc ++ [a])) as (N1 & I1). { clear - N NI. induction acc as [|y acc IH]; cbn; [constructor; [tauto|constructor]|]. inversion N; subst. constructor; [rewrite in_app_iff; cbn; cbn in NI; intuition congruence|]. apply IH; [assumption|cbn in NI; tauto]. } split; [exact N1|]. intros x. rewrite I1, in_app_iff. cbn. tauto.
Qed.
Lemma dups_in l x : In x (remove_duplicates l) <-> In x l.
Proof. destruct (dups_gen l [] ltac:(constructor)) as (_ & H). unfold remove_duplicates. rewrite H. cbn. tauto. Qed.
Lemma dups_nodup l : NoDup (remove_duplicates l).
Proof. destruct (dups_gen l [] ltac:(constructor)) as (H & _). exact H. Qed.
Lemma near_ok l : forall last prev, In last l -> exists r, near_days last prev l = Ok r /\ (forall x t, l = x :: t -> In x r).
Proof.
  induction l as [|x l IH]; intros last prev I; [contradiction|]. cbn [near_days]. destruct (Z.eqb_spec x last) as [->|N]; [exists [last]; split; [reflexivity|]; intros ? ? E; injection E as <- _; left; reflexivity|].
  destruct (2 <? x - prev); [exists [x]; split; [reflexivity|]; intros ? ? E; injection E as <- _; left; reflexivity|]. destruct (IH last x) as (r & E & _); [destruct I; [contradiction|assumption]|]. rewrite E. cbn [bind]. exists (x :: r). split; [reflexivity|]. intros ? ? E'. injection E' as <- _. left. reflexivity.
Qed.
Lemma nodup_flat {A B} (f : A -> list B) l : NoDup l -> (forall x, In x l -> NoDup (f x)) -> (forall x y u, In u (f x) -> In u (f y) -> x = y) -> NoDup (flat_map f l).
Proof.
  intros N H D. induction N as [|x l NI N IH]; [constructor|]. cbn. assert (G : forall m r : list B, NoDup m -> NoDup r -> (forall u, In u m -> ~ In u r) -> NoDup (m ++ r)).
  { clear. induction 1 as [|u m NU N IH]; intros R K; [exact R|]. cbn. constructor; [|apply IH; [exact R|]; intros; apply K; right; assumption]. rewrite in_app_iff. intros [X|X]; [contradiction|]. exact (K u (or_introl eq_refl) X). }
  apply G; [apply H; left; reflexivity|apply IH; intros; apply H; right; assumption|]. intros u U V. apply in_flat_map in V. destruct V as (y & Y & V). rewrite (D x y u U V) in NI. contradiction.
Qed.
Section Track.
Variables (n overlap btime : Z) (gs : list grp) (g0 : grp).
Hypothesis over : 0 <= overlap.
Hypothesis npos : 0 < n.
Let E := map (ent n) gs.
Let G (j : nat) : grp := nth j gs g0.
Lemma entry_at j : (j < length gs)%nat -> nth_error E j = Some (ent n (G j)).
Proof. intros J. unfold E, G. rewrite nth_error_map. rewrite (nth_error_nth' gs g0 J). reflexivity. Qed.
Lemma entry_some j e : nth_error E j = Some e -> (j < length gs)%nat /\ e = ent n (G j).
Proof. intros H. assert (J : (j < length gs)%nat) by (assert (X : nth_error E j <> None) by congruence; apply nth_error_Some in X; unfold E in X; rewrite map_length in X; exact X). split; [exact J|]. rewrite (entry_at j J) in H. congruence. Qed.
Lemma common_is g h : common (row_of n (gleft g) (gright g)) (row_of n (gleft h) (gright h)) = Overlap n g h.
Proof.
  unfold common, Overlap, row_of. f_equal. induction (seq 0 (Z.to_nat n)) as [|i l IH]; [reflexivity|]. cbn [map combine filter fst snd]. destruct (_ && _); cbn [length]; rewrite IH; reflexivity.
Qed.
Lemma chain_ok y : forall locb last k, k <= overlap -> (last < length gs)%nat -> gyear (G last) = y -> (forall j, In j locb -> (j < length gs)%nat /\ gyear (G j) = y) ->
  exists more, chain E overlap last k locb = Ok more /\ incl more locb /\ (NoDup (last :: locb) -> NoDup (last :: more)) /\ Linked n overlap (map G (last :: more)).
Proof.
  induction locb as [|j t IH]; intros last k K L Y H; [exists []; split; [reflexivity|]; split; [intros x X; exact X|]; split; [trivial|exact I]|].
  cbn [chain]. rewrite (entry_at last L). destruct (H j (or_introl eq_refl)) as (J & YJ). rewrite (entry_at j J). cbn [ent day mask]. rewrite common_is. cbv zeta.
  assert (HT : forall i, In i t -> (i < length gs)%nat /\ gyear (G i) = y) by (intros i I; apply H; right; exact I).
  set (k' := if _ && _ then _ else k). destruct (Z.ltb_spec overlap k') as [A|A].
  - destruct (IH j 0 over J YJ HT) as (more & EM & IM & ND & LK). rewrite EM. cbn [bind]. exists (j :: more). split; [reflexivity|]. split; [|split].
    + intros x [<-|X]; [left; reflexivity|right; apply IM; exact X].
    + intros N. inversion N as [|? ? N1 N2]; subst. constructor; [|apply ND; exact N2]. intros [<-|X]; [apply N1; left; reflexivity|apply N1; right; apply IM; exact X].
    + cbn [map Linked]. split; [|exact LK]. unfold k' in A. destruct (Z.leb_spec 1 (gday (G j) - gday (G last))); cbn [andb] in A; [|lia]. destruct (Z.leb_spec (gday (G j) - gday (G last)) 2); [|lia]. split; [congruence|]. split; [lia|exact A].
  - destruct (IH last (if k' <? overlap then 0 else k')) as (more & EM & IM & ND & LK); [destruct (k' <? overlap); lia|exact L|exact Y|exact HT|]. exists more. split; [exact EM|]. split; [intros x X; right; apply IM; exact X|]. split; [|exact LK].
    intros N. inversion N as [|? ? N1 N2]; subst. inversion N2; subst. apply ND. constructor; [intros X; apply N1; right; exact X|assumption].
Qed.
(** What a block is, by the numbers of its groups. *)
Definition block (y : Z) (bl : list nat) : Prop := (4 < length bl)%nat /\ (forall j, In j bl -> (j < length gs)%nat /\ gyear (G j) = y) /\ Linked n overlap (map G bl).
Definition sound (noloc : list nat) (fin : list (list nat)) : Prop := NoDup (concat fin) /\ incl (concat fin) noloc /\ Forall (fun bl => exists y, block y bl) fin /\ forall j, In j noloc -> (j < length gs)%nat.
Lemma year_places y j : In j (places E (fun e => year e =? y)) <-> (j < length gs)%nat /\ gyear (G j) = y.
Proof. rewrite places_in. split. - intros (e & X & T). apply entry_some in X. destruct X as (J & ->). apply Z.eqb_eq in T. split; assumption. - intros (J & T). exists (ent n (G j)). split; [apply entry_at; exact J|]. apply Z.eqb_eq. exact T. Qed.
Lemma day_places y d j : In j (places E (fun e => (year e =? y) && (day e =? d))) <-> (j < length gs)%nat /\ gyear (G j) = y /\ gday (G j) = d.
Proof. rewrite places_in. split. - intros (e & X & T). apply entry_some in X. destruct X as (J & ->). apply andb_prop in T. destruct T as (T1 & T2). apply Z.eqb_eq in T1, T2. repeat split; assumption. - intros (J & T1 & T2). exists (ent n (G j)). split; [apply entry_at; exact J|]. apply andb_true_intro. split; apply Z.eqb_eq; assumption. Qed.
Definition days_left (y : Z) (rem : list nat) : list Z :=
  flat_map (fun j => match nth_error E j with Some e => [day e] | None => [] end) (filter (fun j => negb (mem j rem)) (places E (fun e => year e =? y))).
Lemma days_left_is y rem : days_left y rem = map (fun j => gday (G j)) (filter (fun j => negb (mem j rem)) (places E (fun e => year e =? y))).
Proof.
  unfold days_left. assert (H : forall j, In j (filter (fun j => negb (mem j rem)) (places E (fun e => year e =? y))) -> (j < length gs)%nat) by (intros j J; apply filter_In in J; destruct J as (J & _); apply year_places in J; apply J).
  induction (filter _ _) as [|j l IH]; [reflexivity|]. cbn [flat_map map]. rewrite (entry_at j) by (apply H; left; reflexivity). cbn [app ent day]. rewrite IH by (intros; apply H; right; assumption). reflexivity.
Qed.
Lemma turn_ok y noloc fin rem : 1 <= btime -> sound noloc fin -> (forall j, In j noloc -> gyear (G j) = y -> In j rem) -> incl rem noloc ->
  exists noloc' fin' rem', turn E overlap btime y (noloc, fin, rem) = Ok (noloc', fin', rem') /\ sound noloc' fin' /\ (forall j, In j noloc' -> gyear (G j) = y -> In j rem') /\ incl rem' noloc' /\
    (forall j, In j noloc' -> In j noloc \/ gyear (G j) = y) /\ incl fin fin'.
Proof.
  intros BT (ND & IC & FB & LT) HR HN. unfold turn. fold (days_left y rem). rewrite days_left_is. set (fl := filter _ (places E (fun e => year e =? y))).
  destruct (Z.ltb_spec (Z.of_nat (length (map (fun j => gday (G j)) fl))) btime) as [SM|SM].
  { exists noloc, fin, rem. split; [reflexivity|]. split; [repeat split; assumption|]. split; [exact HR|]. split; [exact HN|]. split; [intros; left; assumption|intros x X; exact X]. }
  destruct fl as [|j1 fl'] eqn:EF; [cbn in SM; lia|]. cbn [map]. set (dd := gday (G j1) :: map (fun j => gday (G j)) fl'). assert (J1 : In j1 fl) by (rewrite EF; left; reflexivity). apply filter_In in J1. destruct J1 as (J1 & NR). apply mem_not in NR. apply year_places in J1. destruct J1 as (J1 & Y1).
  destruct (near_ok dd (last dd 0) (gday (G j1) - 1)) as (days & EN & HD). { assert (NE : dd <> []) by discriminate. rewrite (app_removelast_last 0 NE) at 2. apply in_or_app. right. left. reflexivity. }
  specialize (HD _ _ eq_refl). rewrite EN. cbn [bind]. set (all := flat_map _ (remove_duplicates days)).
  assert (AL : forall j, In j all -> (j < length gs)%nat /\ gyear (G j) = y). { intros j J. apply in_flat_map in J. destruct J as (d & _ & J). apply day_places in J. tauto. }
  assert (AN : NoDup all). { apply nodup_flat; [apply dups_nodup|intros d _; exact (sorted_nodup _ _ Nat.lt_irrefl (places_sorted _ _))|]. intros d d' u U V. apply day_places in U, V. destruct U as (_ & _ & U), V as (_ & _ & V). congruence. }
  assert (JA : In j1 (filter (fun j => negb (mem j noloc)) all)). { apply filter_In. split; [|apply mem_not; intros X; apply NR; apply HR; assumption]. apply in_flat_map. exists (gday (G j1)). split; [apply dups_in; exact HD|]. apply day_places. repeat split; assumption. }
  destruct (filter (fun j => negb (mem j noloc)) all) as [|j0 t] eqn:EL; [contradiction|]. assert (LB : forall j, In j (j0 :: t) -> (j < length gs)%nat /\ gyear (G j) = y /\ ~ In j noloc). { intros j J. rewrite <- EL in J. apply filter_In in J. destruct J as (J & M). apply mem_not in M. destruct (AL j J). repeat split; assumption. }
  assert (LN : NoDup (j0 :: t)) by (rewrite <- EL; apply NoDup_filter; exact AN).
  destruct (LB j0 (or_introl eq_refl)) as (L0 & Y0 & _). destruct (chain_ok y t j0 0 over L0 Y0) as (more & EC & IM & NM & LK); [intros j J; destruct (LB j (or_intror J)) as (A & B & _); split; assumption|].
  rewrite EC. cbn [bind]. specialize (NM LN). assert (IB : incl (j0 :: more) (j0 :: t)) by (intros j [<-|J]; [left; reflexivity|right; apply IM; exact J]).
  exists (noloc ++ j0 :: more), (if (4 <? length (j0 :: more))%nat then fin ++ [j0 :: more] else fin), (rem ++ j0 :: more). split; [reflexivity|]. split; [|split; [|split; [|split]]].
  - assert (LA : forall j, In j (noloc ++ j0 :: more) -> (j < length gs)%nat). { intros j J. apply in_app_or in J. destruct J as [J|J]; [apply LT; exact J|]. exact (proj1 (LB j (IB j J))). }
    destruct (Nat.ltb_spec 4 (length (j0 :: more))) as [B|B].
    + split; [|split; [|split; [|exact LA]]].
      * rewrite concat_app. cbn [concat]. rewrite app_nil_r. clear - ND NM IC LB IB. assert (D : forall j, In j (concat fin) -> ~ In j (j0 :: more)). { intros j J K. destruct (LB j (IB j K)) as (_ & _ & X). apply X. apply IC. exact J. }
        induction (concat fin) as [|u m IH]; [exact NM|]. inversion ND; subst. cbn [app]. constructor; [rewrite in_app_iff; intros [X|X]; [contradiction|exact (D u (or_introl eq_refl) X)]|]. apply IH; [assumption|intros x X; apply IC; right; exact X|intros j J; apply D; right; exact J].
      * rewrite concat_app. cbn [concat]. rewrite app_nil_r. intros j J. apply in_or_app. apply in_app_or in J. destruct J as [J|J]; [left; apply IC; exact J|right; exact J].
      * apply Forall_app. split; [exact FB|]. constructor; [|constructor]. exists y. split; [exact B|]. split; [intros j J; destruct (LB j (IB j J)) as (A1 & A2 & _); split; assumption|exact LK].
    + split; [exact ND|]. split; [intros j J; apply in_or_app; left; apply IC; exact J|]. split; [exact FB|exact LA].
  - intros j J Y. apply in_or_app. apply in_app_or in J. destruct J as [J|J]; [left; apply HR; assumption|right; exact J].
  - intros j J. apply in_or_app. apply in_app_or in J. destruct J as [J|J]; [left; apply HN; exact J|right; exact J].
  - intros j J. apply in_app_or in J. destruct J as [J|J]; [left; exact J|right]. destruct (LB j (IB j J)) as (_ & A & _). exact A.
  - destruct (4 <? length (j0 :: more))%nat; [|intros x X; exact X]. intros x X. apply in_or_app. left. exact X.
Qed.
Lemma turns_ok y : 1 <= btime -> forall times noloc fin rem, sound noloc fin -> (forall j, In j noloc -> gyear (G j) = y -> In j rem) -> incl rem noloc ->
  exists noloc' fin' rem', turns E overlap btime y times (noloc, fin, rem) = Ok (noloc', fin', rem') /\ sound noloc' fin' /\ (forall j, In j noloc' -> In j noloc \/ gyear (G j) = y) /\ incl fin fin'.
Proof.
  intros BT. induction times as [|times IH]; intros noloc fin rem SD HR HN; [exists noloc, fin, rem; split; [reflexivity|]; split; [exact SD|]; split; [intros; left; assumption|intros x X; exact X]|].
  cbn [turns]. destruct (turn_ok y noloc fin rem BT SD HR HN) as (nl & fn & rm & ET & SD' & HR' & HN' & HY & HF). rewrite ET. cbn [bind].
  destruct (IH nl fn rm SD' HR' HN') as (nl' & fn' & rm' & EU & SD'' & HY' & HF'). exists nl', fn', rm'. split; [exact EU|]. split; [exact SD''|]. split; [|intros x X; apply HF', HF; exact X].
  intros j J. destruct (HY' j J) as [J'|J']; [apply HY; exact J'|right; exact J'].
Qed.
Lemma track_ok : 1 <= btime -> forall years noloc fin, NoDup years -> sound noloc fin -> (forall j, In j noloc -> ~ In (gyear (G j)) years) ->
  exists fin' noloc', track E overlap btime years noloc fin = Ok fin' /\ sound noloc' fin' /\ incl fin fin'.
Proof.
  intros BT. induction years as [|y years IH]; intros noloc fin N SD H; [exists fin, noloc; split; [reflexivity|]; split; [exact SD|intros x X; exact X]|].
  cbn [track]. inversion N as [|? ? N1 N2]; subst. destruct (turns_ok y BT (length (places E (fun e => year e =? y))) noloc fin [] SD) as (nl & fn & rm & ET & SD' & HY & HF); [intros j J Y; exfalso; apply (H j J); left; symmetry; exact Y|intros j []|].
  rewrite ET. cbn [bind]. destruct (IH nl fn N2 SD') as (fn' & nl' & EU & SD'' & HF'); [|exists fn', nl'; split; [exact EU|]; split; [exact SD''|]; intros x X; apply HF', HF; exact X].
  intros j J X. destruct (HY j J) as [J'|J']; [apply (H j J'); right; exact X|]. rewrite J' in X. contradiction.
Qed.
(** *** A year with one chain *)
Lemma near_all : forall l prev, l <> [] -> (forall x t, l = x :: t -> x - prev <= 2) -> (forall i, (S i < length l)%nat -> 1 <= nth (S i) l 0 - nth i l 0 <= 2) -> near_days (last l 0) prev l = Ok l.
Proof.
  assert (IN : forall (l : list Z) i, (forall i, (S i < length l)%nat -> 1 <= nth (S i) l 0 - nth i l 0 <= 2) -> (S i < length l)%nat -> nth 0 l 0 < nth (S i) l 0).
  { intros l i H. induction i as [|i IH]; intros L; [specialize (H 0%nat L); lia|]. specialize (IH ltac:(lia)). specialize (H (S i) L). lia. }
  induction l as [|x l IH]; intros prev NE H ST; [contradiction|]. cbn [near_days]. specialize (H x l eq_refl). destruct l as [|z l].
  - cbn [last]. rewrite Z.eqb_refl. reflexivity.
  - assert (LT : x < last (x :: z :: l) 0). { assert (LA : forall (m : list Z), last m 0 = nth (length m - 1) m 0). { clear. induction m as [|a m IH]; [reflexivity|]. destruct m as [|b m]; [reflexivity|]. change (last (a :: b :: m) 0) with (last (b :: m) 0). rewrite IH. cbn [length]. replace (S (S (length m)) - 1)%nat with (S (length m)) by lia. replace (S (length m) - 1)%nat with (length m) by lia. reflexivity. }
      rewrite LA. cbn [length]. replace (S (S (length l)) - 1)%nat with (S (length l)) by lia. apply (IN (x :: z :: l) (length l) ST). cbn [length]. lia. }
    replace (x =? last (x :: z :: l) 0) with false by (symmetry; apply Z.eqb_neq; lia). replace (2 <? x - prev) with false by (symmetry; apply Z.ltb_ge; lia).
    change (last (x :: z :: l) 0) with (last (z :: l) 0). rewrite (IH x); [reflexivity|discriminate| |].
    + intros a t EQ. injection EQ as <- _. specialize (ST 0%nat ltac:(cbn [length]; lia)). cbn [nth] in ST. lia.
    + intros i I. specialize (ST (S i) ltac:(cbn [length] in *; lia)). exact ST.
Qed.
Lemma dups_id l : NoDup l -> remove_duplicates l = l.
Proof.
  intros N. unfold remove_duplicates. assert (K : forall l acc, NoDup (acc ++ l) -> fold_left (fun final num => if existsb (Z.eqb num) final then final else final ++ [num]) l acc = acc ++ l).
  { clear. induction l as [|a l IH]; intros acc N; cbn [fold_left]; [rewrite app_nil_r; reflexivity|]. pose proof (NoDup_remove_2 _ _ _ N) as NI. destruct (existsb (Z.eqb a) acc) eqn:E1; [exfalso; apply NI; apply existsb_exists in E1; destruct E1 as (y & Y & E1); apply Z.eqb_eq in E1; subst; apply in_or_app; left; exact Y|].
    rewrite IH; rewrite <- app_assoc; [reflexivity|exact N]. }
  exact (K l [] N).
Qed.
Lemma linked_days ps : Linked n overlap (map G ps) -> forall i, (S i < length (map (fun j => gday (G j)) ps))%nat -> 1 <= nth (S i) (map (fun j => gday (G j)) ps) 0 - nth i (map (fun j => gday (G j)) ps) 0 <= 2.
Proof.
  induction ps as [|a ps IH]; intros LK i I; [cbn in I; lia|]. destruct ps as [|b ps]; [cbn in I; lia|]. cbn [map Linked] in LK. destruct LK as ((_ & D & _) & LK). destruct i as [|i]; [exact D|]. apply (IH LK i). cbn [map length] in *. lia.
Qed.
Lemma steps_nodup (l : list Z) : (forall i, (S i < length l)%nat -> 1 <= nth (S i) l 0 - nth i l 0 <= 2) -> StronglySorted Z.lt l.
Proof.
  induction l as [|x l IH]; intros H; constructor; [apply IH; intros i I; apply (H (S i)); cbn; lia|]. apply Forall_forall. intros z Zi. destruct (In_nth _ _ 0 Zi) as (k & K & <-). clear Zi. induction k as [|k IK]; [specialize (H 0%nat); cbn in H; cbn [length] in K; specialize (H ltac:(lia)); lia|].
  specialize (IK ltac:(lia)). specialize (H (S k) ltac:(cbn; lia)). cbn [nth] in H. cbn [nth] in H. lia.
Qed.
Lemma chain_all : forall t last k, (forall j, In j (last :: t) -> (j < length gs)%nat) -> Linked n overlap (map G (last :: t)) -> chain E overlap last k t = Ok t.
Proof.
  induction t as [|j t IH]; intros last k H LK; [reflexivity|]. cbn [chain]. rewrite (entry_at last), (entry_at j) by (apply H; cbn; tauto). cbn [ent day mask]. rewrite common_is. cbv zeta. cbn [map Linked] in LK. destruct LK as ((_ & D & O) & LK).
  replace (1 <=? gday (G j) - gday (G last)) with true by (symmetry; apply Z.leb_le; lia). replace (gday (G j) - gday (G last) <=? 2) with true by (symmetry; apply Z.leb_le; lia). cbn [andb]. replace (overlap <? Overlap n (G last) (G j)) with true by (symmetry; apply Z.ltb_lt; exact O).
  rewrite (IH j 0); [reflexivity|intros i I; apply H; right; exact I|exact LK].
Qed.
Section Year.
Variable y : Z.
Let ps := places E (fun e => year e =? y).
Hypothesis linked : Linked n overlap (map G ps).
Hypothesis enough : (4 < length ps)%nat.
Hypothesis time : 1 <= btime <= Z.of_nat (length ps).
Lemma turn_finds noloc fin : (forall j, In j noloc -> gyear (G j) <> y) -> turn E overlap btime y (noloc, fin, []) = Ok (noloc ++ ps, fin ++ [ps], ps).
Proof.
  intros NO. unfold turn. fold (days_left y []). rewrite days_left_is. fold ps.
  assert (F0 : forall l : list nat, filter (fun j => negb (mem j [])) l = l) by (induction l as [|x l IH]; [reflexivity|cbn in *; rewrite IH; reflexivity]). rewrite F0. set (dd := map (fun j => gday (G j)) ps).
  assert (LD : length dd = length ps) by apply map_length. destruct (Z.ltb_spec (Z.of_nat (length dd)) btime) as [X|_]; [lia|]. pose proof (linked_days ps linked) as ST. fold dd in ST. assert (NE : dd <> []) by (intros X; rewrite X in LD; cbn in LD; lia).
  assert (PG : forall j, In j ps <-> (j < length gs)%nat /\ gyear (G j) = y) by (intros j; apply year_places).
  assert (DN : NoDup dd) by (apply (sorted_nodup Z.lt); [exact Z.lt_irrefl|apply steps_nodup; exact ST]).
  assert (AL : flat_map (fun ll => places E (fun e => (year e =? y) && (day e =? ll))) dd = ps).
  { assert (K : forall m, incl m ps -> flat_map (fun ll => places E (fun e => (year e =? y) && (day e =? ll))) (map (fun j => gday (G j)) m) = m); [|apply K; intros x X; exact X].
    induction m as [|j m IH]; intros I; [reflexivity|]. cbn [map flat_map]. rewrite IH by (intros x X; apply I; right; exact X). assert (JP : In j ps) by (apply I; left; reflexivity).
    assert (SG : forall x, In x (places E (fun e => (year e =? y) && (day e =? gday (G j)))) <-> x = j). { intros x. rewrite day_places. split; [|intros ->; apply PG in JP; tauto]. intros (X1 & X2 & X3). assert (XP : In x ps) by (apply PG; tauto). destruct (In_nth _ _ 0%nat XP) as (u & U & EU), (In_nth _ _ 0%nat JP) as (w & W & EW).
      assert (u = w); [|congruence]. apply (proj1 (NoDup_nth dd 0) DN); [lia|lia|]. unfold dd. rewrite (nth_indep _ 0 (gday (G 0))) by (rewrite map_length; lia). rewrite (nth_indep (map _ ps) 0 (gday (G 0))) by (rewrite map_length; lia). rewrite !(map_nth (fun j => gday (G j))). rewrite EU, EW. exact X3. }
    pose proof (sorted_nodup _ _ Nat.lt_irrefl (places_sorted E (fun e => (year e =? y) && (day e =? gday (G j))))) as N. destruct (places E (fun e => (year e =? y) && (day e =? gday (G j)))) as [|a [|b r]].
    - exfalso. apply (proj2 (SG j) eq_refl).
    - rewrite (proj1 (SG a) (or_introl eq_refl)). reflexivity.
    - exfalso. inversion N as [|? ? N1 N2]; subst. apply N1. left. rewrite (proj1 (SG a) (or_introl eq_refl)), (proj1 (SG b) (or_intror (or_introl eq_refl))). reflexivity. }
  destruct dd as [|d0 dd'] eqn:ED; [contradiction|]. rewrite <- ED in *. rewrite (near_all dd (d0 - 1) NE); [|intros a t EQ; rewrite EQ in ED; injection ED as -> _; lia|exact ST]. cbn [bind]. rewrite (dups_id dd DN), AL.
  assert (FL : filter (fun j => negb (mem j noloc)) ps = ps). { assert (K : forall m, incl m ps -> filter (fun j => negb (mem j noloc)) m = m); [|apply K; intros x X; exact X]. induction m as [|j m IH]; intros I; [reflexivity|]. cbn [filter]. replace (negb (mem j noloc)) with true; [rewrite IH by (intros x X; apply I; right; exact X); reflexivity|]. symmetry. apply mem_not. intros X. apply (NO j X). apply PG. apply I. left. reflexivity. }
  rewrite FL. destruct ps as [|j0 t] eqn:EP; [cbn in enough; lia|]. rewrite (chain_all t j0 0); [|intros j J; apply PG; exact J|exact linked]. cbn [bind]. destruct (Nat.ltb_spec 4 (length (j0 :: t))); [reflexivity|lia].
Qed.
Lemma turns_idle times noloc fin : turns E overlap btime y times (noloc, fin, ps) = Ok (noloc, fin, ps).
Proof.
  induction times as [|times IH]; [reflexivity|]. cbn [turns]. unfold turn. fold (days_left y ps). rewrite days_left_is. fold ps.
  assert (F0 : filter (fun j => negb (mem j ps)) ps = []). { assert (K : forall m, incl m ps -> filter (fun j => negb (mem j ps)) m = []); [|apply K; intros x X; exact X]. induction m as [|j m IHm]; intros I; [reflexivity|]. cbn [filter]. rewrite (proj2 (mem_in j ps)) by (apply I; left; reflexivity). cbn [negb]. apply IHm. intros x X. apply I. right. exact X. }
  rewrite F0. cbn [map length]. destruct (Z.ltb_spec (Z.of_nat 0) btime); [|lia]. cbn [bind]. exact IH.
Qed.
Lemma track_finds : forall years noloc fin, NoDup years -> In y years -> sound noloc fin -> (forall j, In j noloc -> ~ In (gyear (G j)) years) ->
  exists fin' noloc', track E overlap btime years noloc fin = Ok fin' /\ sound noloc' fin' /\ In ps fin'.
Proof.
  assert (BT : 1 <= btime) by lia. induction years as [|z years IH]; intros noloc fin N I SD H; [contradiction|]. inversion N as [|? ? N1 N2]; subst. cbn [track].
  assert (H0 : forall j, In j noloc -> gyear (G j) <> z) by (intros j J Y; apply (H j J); left; symmetry; exact Y).
  destruct (turns_ok z BT (length (places E (fun e => year e =? z))) noloc fin [] SD) as (nl & fn & rm & ET & SD' & HY & HF); [intros j J Y; exfalso; exact (H0 j J Y)|intros j []|].
  assert (HN : forall j, In j nl -> ~ In (gyear (G j)) years). { intros j J X. destruct (HY j J) as [J'|J']; [apply (H j J'); right; exact X|]. rewrite J' in X. contradiction. }
  rewrite ET. cbn [bind]. destruct (Z.eq_dec z y) as [->|NZ].
  - fold ps in ET. assert (EL : exists m, length ps = S m) by (exists (length ps - 1)%nat; lia). destruct EL as (m & EL). rewrite EL in ET. cbn [turns] in ET. rewrite (turn_finds noloc fin H0) in ET. cbn [bind] in ET. rewrite turns_idle in ET. injection ET as <- <- _.
    destruct (track_ok BT years _ _ N2 SD' HN) as (fn' & nl' & EU & SD'' & HF'). exists fn', nl'. split; [exact EU|]. split; [exact SD''|]. apply HF'. apply in_or_app. right. left. reflexivity.
  - apply (IH nl fn N2); [destruct I; [contradiction|assumption]|exact SD'|exact HN].
Qed.
End Year.
End Track.

(** ** Centers *)
Lemma where_bool (l : list bool) : forall k x, In x (where_ (fun b => b) k l) <-> exists i, (i < length l)%nat /\ x = k + Z.of_nat i /\ nth i l false = true.
Proof.
  induction l as [|b l IH]; intros k x; cbn [where_ length]; [split; [contradiction|intros (i & I & _); lia]|].
  assert (T : In x (where_ (fun b => b) (k + 1) l) <-> exists i, (S i < S (length l))%nat /\ x = k + Z.of_nat (S i) /\ nth (S i) (b :: l) false = true). { rewrite IH. split; intros (i & I & X & N); exists i; repeat split; try exact N; lia. }
  destruct b; cbn [In]; rewrite T; split.
  - intros [<-|(i & I)]; [exists 0%nat; repeat split; cbn; lia|exists (S i); exact I].
  - intros ([|i] & I & X & N); [left; lia|right; exists i; repeat split; assumption].
  - intros (i & I); exists (S i); exact I.
  - intros ([|i] & I & X & N); [discriminate N|exists i; repeat split; assumption].
Qed.
Lemma where_bool_sorted (l : list bool) : forall k, StronglySorted Z.lt (where_ (fun b => b) k l).
Proof.
  induction l as [|b l IH]; intros k; cbn [where_]; [constructor|]. destruct b; [|apply IH]. constructor; [apply IH|]. apply Forall_forall. intros x X. apply where_bool in X. destruct X as (i & _ & -> & _). lia.
Qed.
Lemma arange_sorted a b : StronglySorted Z.lt (arange a b).
Proof.
  unfold arange. induction (Z.to_nat (b - a + 1)) as [|m IH] in a |- *; [constructor|]. cbn [seq map]. rewrite <- seq_shift, map_map. constructor.
  - specialize (IH (a + 1)). erewrite map_ext; [exact IH|]. intros i. cbn. lia.
  - apply Forall_forall. intros x X. apply in_map_iff in X. destruct X as (i & <- & _). lia.
Qed.
Lemma arange_nth a b i : (i < Z.to_nat (b - a + 1))%nat -> nth i (arange a b) 0 = a + Z.of_nat i.
Proof. intros I. unfold arange. rewrite (nth_indep _ 0 (a + Z.of_nat 0)) by (rewrite map_length, seq_length; exact I). rewrite (map_nth (fun i => a + Z.of_nat i)), seq_nth by exact I. reflexivity. Qed.
Lemma where_row n s e : 0 < n -> 0 <= e -> s <= e < n -> e - s < n -> where_ (fun b => b) 0 (row_of n s e) = if 0 <=? s then arange s e else arange 0 e ++ arange (n + s) (n - 1).
Proof.
  intros P S1 E1 L. assert (IN : forall x, In x (where_ (fun b => b) 0 (row_of n s e)) <-> 0 <= x < n /\ exists i, s <= i <= e /\ i mod n = x).
  { intros x. rewrite where_bool. rewrite row_length. split.
    - intros (i & I & -> & N). rewrite row_nth in N by exact I. split; [lia|]. apply inside_iff in N; try lia. exact N.
    - intros (X & H). apply inside_iff in H; try lia. exists (Z.to_nat x). split; [lia|]. split; [lia|]. rewrite row_nth by lia. rewrite Z2Nat.id by lia. exact H. }
  apply sorted_ext; [apply where_bool_sorted| |].
  - destruct (Z.leb_spec 0 s); [apply arange_sorted|]. apply BlockProofs.sorted_app; [apply arange_sorted|apply arange_sorted|]. intros x z X Zz. apply arange_in in X, Zz. lia.
  - intros x. rewrite IN. destruct (Z.leb_spec 0 s) as [S0|S0].
    + rewrite arange_in. split; [intros (X & i & I & <-); rewrite Z.mod_small by lia; exact I|]. intros X. split; [lia|]. exists x. split; [exact X|]. apply Z.mod_small. lia.
    + rewrite in_app_iff, !arange_in. split.
      * intros (X & i & I & <-). destruct (Z.lt_ge_cases i 0) as [K|K]; [right; replace (i mod n) with (i + n) by (apply (Z.mod_unique_pos i n (-1)); lia); lia|left; rewrite Z.mod_small by lia; lia].
      * intros [X|X]; (split; [lia|]); [exists x; split; [lia|apply Z.mod_small; lia]|]. exists (x - n). split; [lia|]. symmetry. apply (Z.mod_unique_pos (x - n) n (-1)); lia.
Qed.
Lemma center_is n g : 0 < n -> 0 <= gright g -> gleft g <= gright g < n -> gright g - gleft g + 1 < n -> center (row_of n (gleft g) (gright g)) = Ok (Center n g).
Proof.
  intros P S1 E1 L. unfold center. rewrite where_row by lia. set (s := gleft g) in *. set (e := gright g) in *. set (T := if 0 <=? s then _ else _).
  assert (TL : length T = Z.to_nat (e - s + 1)). { unfold T. destruct (Z.leb_spec 0 s). - unfold arange. rewrite map_length, seq_length. reflexivity. - rewrite app_length. unfold arange. rewrite !map_length, !seq_length. lia. }
  assert (TN : forall i, 0 <= i <= e - s -> nth (Z.to_nat i) T 0 = if 0 <=? s then s + i else if i <=? e then i else n + s + (i - e - 1)).
  { intros i I. unfold T. destruct (Z.leb_spec 0 s). - rewrite arange_nth by lia. lia. - destruct (Z.leb_spec i e).
    + rewrite app_nth1 by (unfold arange; rewrite map_length, seq_length; lia). rewrite arange_nth by lia. lia.
    + assert (AL : length (arange 0 e) = Z.to_nat (e + 1)) by (unfold arange; rewrite map_length, seq_length; lia). rewrite app_nth2 by lia. rewrite AL. rewrite arange_nth by lia. lia. }
  assert (CT : Center n g = nth (Z.to_nat ((e - s) / 2)) T 0). { rewrite TN. 2:{ split; [apply Z.div_pos; lia|]. pose proof (Z.mul_div_le (e - s) 2 ltac:(lia)). lia. } unfold Center. fold s e. cbv zeta. destruct (0 <=? s); [reflexivity|]. destruct (_ <=? e); lia. }
  rewrite CT. destruct (Nat.even (length T)) eqn:EV.
  - apply Nat.even_spec in EV. destruct EV as (m & EM). assert (M : e - s + 1 = 2 * Z.of_nat m) by lia. assert (MP : (0 < m)%nat) by lia. cbn [length]. rewrite EM. replace (S (2 * m) / 2)%nat with m by (apply (Nat.div_unique (S (2 * m)) 2 m 1); lia).
    rewrite (item_pos _ _ 0) by (cbn [length]; lia). f_equal. rewrite Nat2Z.id. destruct m as [|m]; [lia|]. cbn [nth]. f_equal. assert (Q : (e - s) / 2 = Z.of_nat m) by (symmetry; apply (Z.div_unique (e - s) 2 (Z.of_nat m) 1); lia). rewrite Q, Nat2Z.id. reflexivity.
  - assert (OD : Nat.odd (length T) = true) by (rewrite <- Nat.negb_even, EV; reflexivity). apply Nat.odd_spec in OD. destruct OD as (m & EM). assert (M : e - s = 2 * Z.of_nat m) by lia. rewrite EM. replace ((2 * m + 1) / 2)%nat with m by (apply (Nat.div_unique (2 * m + 1) 2 m 1); lia).
    rewrite (item_pos _ _ 0) by lia. f_equal. rewrite Nat2Z.id. f_equal. assert (Q : (e - s) / 2 = Z.of_nat m) by (symmetry; apply (Z.div_unique (e - s) 2 (Z.of_nat m) 0); lia). rewrite Q, Nat2Z.id. reflexivity.
Qed.

(** ** Blocks that travel *)
Definition sits (n limit : Z) (a : Z) (h : grp) : Prop := Z.abs (a - Center n h) <= limit.
Lemma near_rule n limit (G : nat -> grp) start : forall bb, exists p q, bb = p ++ q /\ near start limit (map (fun j => (j, Center n (G j))) bb) = p /\ Forall (fun j => sits n limit start (G j)) p /\
  (forall j t, q = j :: t -> ~ sits n limit start (G j)).
Proof.
  induction bb as [|j bb IH]; [exists [], []; repeat split; try constructor; intros ? ? X; discriminate X|]. cbn [map near]. destruct (Z.ltb_spec limit (Z.abs (start - Center n (G j)))) as [A|A].
  - exists [], (j :: bb). repeat split; [constructor|]. intros ? ? X. injection X as <- _. unfold sits. lia.
  - destruct IH as (p & q & E & N & F & Q). exists (j :: p), q. rewrite E at 1. rewrite N. repeat split; [constructor; [exact A|exact F]|exact Q].
Qed.
Lemma travel_is n limit gs g0 bb : bb <> [] -> (forall j, In j bb -> (j < length gs)%nat) -> let G j := nth j gs g0 in
  exists r, travel (map (Center n) gs) limit bb = Ok r /\ (Stays n limit (map G bb) -> r = [bb]) /\ (r = [] \/ exists p q, bb = p ++ q /\ r = [p] /\ Stays n limit (map G p) /\ ((4 < length bb)%nat -> (4 < length p)%nat)).
Proof.
  intros NE H G. unfold travel. rewrite (mapM_same _ (fun j => (j, Center n (G j))) bb). 2:{ intros j J. specialize (H j J). rewrite (item_pos _ _ (Center n g0)) by (rewrite map_length; lia). rewrite Nat2Z.id, map_nth. reflexivity. }
  cbn [bind]. destruct bb as [|j0 bb]; [contradiction|]. set (b := j0 :: bb) in *. change (map (fun j => (j, Center n (G j))) b) with ((j0, Center n (G j0)) :: map (fun j => (j, Center n (G j))) bb) at 1.
  cbv iota beta. set (m := map (fun j => (j, Center n (G j))) b). destruct (near_rule n limit G (Center n (G j0)) b) as (p & q & E & N & F & Q). fold m in N. rewrite N.
  assert (ST : forall p', p' = [] \/ (exists p'', p' = j0 :: p'') -> Forall (fun j => sits n limit (Center n (G j0)) (G j)) p' -> Stays n limit (map G p')).
  { intros p' [->|(p'' & ->)] FF; [exact I|]. cbn [map Stays]. change (G j0 :: map G p'') with (map G (j0 :: p'')). apply Forall_map. exact FF. }
  assert (PH : p = [] \/ exists p'', p = j0 :: p''). { destruct p as [|j1 p]; [left; reflexivity|right]. unfold b in E. injection E as -> _. exists p. reflexivity. }
  eexists. split; [reflexivity|]. split.
  - intros SB. destruct (Nat.eqb_spec (length p) (length b)) as [L|L]; [reflexivity|exfalso]. destruct q as [|j q]; [rewrite E, app_nil_r in L; lia|]. apply (Q j q eq_refl). unfold b in SB. cbn [map Stays] in SB. change (G j0 :: map G bb) with (map G b) in SB. rewrite Forall_map, Forall_forall in SB. apply SB. rewrite E. apply in_or_app. right. left. reflexivity.
  - destruct (Nat.eqb_spec (length p) (length b)) as [L|L].
    + right. exists b, []. rewrite app_nil_r. split; [reflexivity|]. split; [reflexivity|]. split; [|tauto]. assert (q = []) by (destruct q as [|j q]; [reflexivity|exfalso; rewrite E, app_length in L; cbn in L; lia]). subst q. rewrite app_nil_r in E. rewrite E. apply ST; assumption.
    + destruct (Nat.ltb_spec 4 (length p)) as [L4|L4]; [|left; reflexivity]. right. exists p, q. split; [exact E|]. split; [reflexivity|]. split; [apply ST; assumption|]. intros _. exact L4.
Qed.

(** ** The array *)
Definition val (freq : list (list (list Z))) (y d x : Z) : Z := nth (Z.to_nat x) (nth (Z.to_nat d) (nth (Z.to_nat y) freq []) []) 0.
Definition shaped (ny nd n : nat) (freq : list (list (list Z))) : Prop := length freq = ny /\ forall y, (y < ny)%nat -> length (nth y freq []) = nd /\ forall d, (d < nd)%nat -> length (nth d (nth y freq []) []) = n.
Lemma assign_nth {A} i (v dflt : A) l : 0 <= i < Z.of_nat (length l) -> exists l', assign i v l = Ok l' /\ length l' = length l /\ forall p, (p < length l)%nat -> nth p l' dflt = if Z.of_nat p =? i then v else nth p l dflt.
Proof.
  intros I. destruct (assign_ok i v l ltac:(lia)) as (l' & E & L & N). exists l'. split; [exact E|]. split; [exact L|]. intros p P. rewrite N. rewrite Z.mod_small by exact I. reflexivity.
Qed.
Lemma add_row_is ny nd n freq g : 0 < n -> shaped ny nd (Z.to_nat n) freq -> 0 <= gyear g < Z.of_nat ny -> 0 <= gday g < Z.of_nat nd ->
  exists freq', add_row (gyear g) (gday g) (row_of n (gleft g) (gright g)) freq = Ok freq' /\ shaped ny nd (Z.to_nat n) freq' /\
    forall y d x, 0 <= y < Z.of_nat ny -> 0 <= d < Z.of_nat nd -> 0 <= x < n -> val freq' y d x = val freq y d x + (if Covers n y d x g then 1 else 0).
Proof.
  intros P (L1 & S1) Y D. unfold add_row. rewrite (item_pos _ _ []) by lia. cbn [bind]. destruct (S1 (Z.to_nat (gyear g)) ltac:(lia)) as (L2 & S2). rewrite (item_pos _ _ []) by lia. cbn [bind]. specialize (S2 (Z.to_nat (gday g)) ltac:(lia)). rewrite S2, row_length, Nat.eqb_refl.
  set (rows := nth (Z.to_nat (gyear g)) freq []) in *. set (old := nth (Z.to_nat (gday g)) rows []) in *. set (new := map _ (combine old _)).
  assert (LN : length new = Z.to_nat n) by (unfold new; rewrite map_length, combine_length, row_length; lia).
  destruct (assign_nth (gday g) new [] rows ltac:(lia)) as (rows' & E1 & L3 & N1). rewrite E1. cbn [bind]. destruct (assign_nth (gyear g) rows' [] freq ltac:(lia)) as (freq' & E2 & L4 & N2). rewrite E2. exists freq'. split; [reflexivity|]. split.
  - split; [lia|]. intros y Hy. rewrite N2 by lia. destruct (Z.eqb_spec (Z.of_nat y) (gyear g)) as [Q|Q]; [|apply S1; exact Hy]. split; [lia|]. intros d Hd. rewrite N1 by lia. destruct (Z.eqb_spec (Z.of_nat d) (gday g)) as [Q2|Q2]; [exact LN|]. destruct (S1 y Hy) as (_ & S3). unfold rows. replace (Z.to_nat (gyear g)) with y by lia. apply S3. exact Hd.
  - intros y d x Hy Hd Hx. unfold val. rewrite N2 by lia. rewrite Z2Nat.id by lia. unfold Covers. destruct (Z.eqb_spec y (gyear g)) as [->|Q].
    + rewrite N1 by lia. rewrite Z2Nat.id by lia. rewrite (Z.eqb_refl (gyear g)). destruct (Z.eqb_spec d (gday g)) as [->|Q2].
      * fold rows. fold old. rewrite (Z.eqb_refl (gday g)). cbn [andb]. unfold new. rewrite (nth_indep _ 0 ((fun p : Z * bool => fst p + (if snd p then 1 else 0)) (0, false))) by (fold new; lia). rewrite (map_nth (fun p : Z * bool => fst p + (if snd p then 1 else 0))). rewrite combine_nth by (rewrite row_length; exact S2). cbn [fst snd]. rewrite row_nth by lia. rewrite Z2Nat.id by lia. reflexivity.
      * fold rows. replace (gday g =? d) with false by (symmetry; apply Z.eqb_neq; lia). cbn [andb]. lia.
    + replace (gyear g =? y) with false by (symmetry; apply Z.eqb_neq; lia). cbn [andb]. lia.
Qed.
Lemma add_all_is ny nd n gs g0 : 0 < n -> (forall g, In g gs -> 0 <= gyear g < Z.of_nat ny /\ 0 <= gday g < Z.of_nat nd) -> let G j := nth j gs g0 in
  forall js freq, (forall j, In j js -> (j < length gs)%nat) -> shaped ny nd (Z.to_nat n) freq ->
  exists freq', add_all (map (ent n) gs) js freq = Ok freq' /\ shaped ny nd (Z.to_nat n) freq' /\
    forall y d x, 0 <= y < Z.of_nat ny -> 0 <= d < Z.of_nat nd -> 0 <= x < n -> val freq' y d x = val freq y d x + Z.of_nat (length (filter (Covers n y d x) (map G js))).
Proof.
  intros P H G. induction js as [|j js IH]; intros freq J SH; [exists freq; split; [reflexivity|]; split; [exact SH|]; intros; cbn; lia|].
  cbn [add_all]. rewrite (entry_at n gs g0 j) by (apply J; left; reflexivity). cbn [ent year day mask]. fold (G j). assert (JI : In (G j) gs) by (apply nth_In; apply J; left; reflexivity). destruct (H _ JI) as (Y & D).
  destruct (add_row_is ny nd n freq (G j) P SH Y D) as (f1 & E1 & S1 & V1). rewrite E1. cbn [bind]. destruct (IH f1) as (f2 & E2 & S2 & V2); [intros i I; apply J; right; exact I|exact S1|]. exists f2. split; [exact E2|]. split; [exact S2|].
  intros y d x Hy Hd Hx. rewrite V2, V1 by assumption. cbn [map filter]. destruct (Covers n y d x (G j)); cbn [length]; lia.
Qed.

(** ** The whole run *)
Lemma linked_app n overlap p q : Linked n overlap (p ++ q) -> Linked n overlap p.
Proof. induction p as [|a p IH]; [intros; exact I|]. destruct p as [|b p]; [intros; exact I|]. cbn [app Linked]. intros (H & T). split; [exact H|]. apply IH. exact T. Qed.
Lemma nodup_app_l {A} (l m : list A) : NoDup (l ++ m) -> NoDup l /\ NoDup m /\ forall x, In x l -> ~ In x m.
Proof.
  induction l as [|a l IH]; cbn [app]; intros N; [repeat split; [constructor|exact N|intros ? []]|]. inversion N as [|? ? N1 N2]; subst. destruct (IH N2) as (A1 & A2 & A3). split; [constructor; [intros X; apply N1; apply in_or_app; left; exact X|exact A1]|]. split; [exact A2|].
  intros x [<-|X]; [intros Y; apply N1; apply in_or_app; right; exact Y|apply A3; exact X].
Qed.
Lemma nodup_app_r {A} (l m : list A) : NoDup l -> NoDup m -> (forall x, In x l -> ~ In x m) -> NoDup (l ++ m).
Proof. induction 1 as [|a l NI N IH]; intros M D; [exact M|]. cbn [app]. constructor; [|apply IH; [exact M|]; intros; apply D; right; assumption]. rewrite in_app_iff. intros [X|X]; [contradiction|]. exact (D a (or_introl eq_refl) X). Qed.
Lemma kept_blocks n overlap limit gs g0 fin : (forall bb, In bb fin -> exists y, block n overlap gs g0 y bb) -> NoDup (concat fin) -> let G j := nth j gs g0 in
  exists rs, mapM (travel (map (Center n) gs) limit) fin = Ok rs /\ NoDup (concat (concat rs)) /\ incl (concat (concat rs)) (concat fin) /\
    Forall (fun p => (4 < length p)%nat /\ (forall j, In j p -> (j < length gs)%nat) /\ Linked n overlap (map G p) /\ Stays n limit (map G p)) (concat rs) /\
    (forall bb, In bb fin -> Stays n limit (map G bb) -> In bb (concat rs)).
Proof.
  intros H N G. induction fin as [|bb fin IH]; [exists []; split; [reflexivity|]; split; [constructor|]; split; [intros x []|]; split; [constructor|intros ? []]|].
  cbn [concat] in N. apply nodup_app_l in N. destruct N as (N1 & N2 & D). destruct (H bb (or_introl eq_refl)) as (y & L4 & HB & LK). destruct IH as (rs & E & ND & IC & FA & KP); [intros; apply H; right; assumption|exact N2|].
  destruct (travel_is n limit gs g0 bb) as (r & ER & RS & RC); [intros X; subst bb; cbn in L4; lia|intros j J; apply HB; exact J|]. cbn [mapM]. rewrite ER. cbn [bind]. rewrite E. exists (r :: rs). split; [reflexivity|]. cbn [concat]. fold G in RS, RC.
  assert (INC : incl (concat (concat rs)) (concat (bb :: fin))) by (intros x X; cbn [concat]; apply in_or_app; right; apply IC; exact X).
  assert (KP2 : forall b, In b (bb :: fin) -> Stays n limit (map G b) -> In b (r ++ concat rs)). { intros b [<-|B] SB; apply in_or_app; [left; rewrite (RS SB); left; reflexivity|right; apply KP; assumption]. }
  destruct RC as [->|(p & q & EB & -> & ST & L4')].
  - cbn [app]. repeat split; try assumption.
  - cbn [app concat]. split; [|split; [|split; [|exact KP2]]].
    + apply nodup_app_r; [rewrite EB in N1; apply nodup_app_l in N1; apply N1|exact ND|]. intros x X Y. apply (D x); [rewrite EB; apply in_or_app; left; exact X|apply IC; exact Y].
    + intros x X. apply in_app_or in X. destruct X as [X|X]; [apply in_or_app; left; rewrite EB; apply in_or_app; left; exact X|apply INC; exact X].
    + constructor; [|exact FA]. split; [apply L4'; exact L4|]. split; [intros j J; apply HB; rewrite EB; apply in_or_app; left; exact J|]. split; [|exact ST]. rewrite EB, map_app in LK. exact (linked_app _ _ _ _ LK).
Qed.
Lemma repeat_shaped n ny nd : shaped ny nd n (repeat (repeat (repeat 0 n) nd) ny).
Proof.
  split; [apply repeat_length|]. intros y Y. assert (E : nth y (repeat (repeat (repeat 0 n) nd) ny) [] = repeat (repeat 0 n) nd). { apply (repeat_spec ny (repeat (repeat 0 n) nd)). apply nth_In. rewrite repeat_length. exact Y. }
  rewrite E. split; [apply repeat_length|]. intros d D. assert (E2 : nth d (repeat (repeat 0 n) nd) [] = repeat 0 n). { apply (repeat_spec nd (repeat 0 n)). apply nth_In. rewrite repeat_length. exact D. } rewrite E2. apply repeat_length.
Qed.
Lemma repeat_val n ny nd y d x : val (repeat (repeat (repeat 0 n) nd) ny) y d x = 0.
Proof.
  unfold val. assert (R1 : forall {A} (a : A) m i dflt, (i < m)%nat -> nth i (repeat a m) dflt = a). { intros A a m i dflt I. apply (repeat_spec m a). apply nth_In. rewrite repeat_length. exact I. }
  destruct (Nat.lt_ge_cases (Z.to_nat y) ny) as [Y|Y]; [rewrite R1 by exact Y|rewrite (nth_overflow (repeat (repeat (repeat 0 n) nd) ny)) by (rewrite repeat_length; exact Y); destruct (Z.to_nat d), (Z.to_nat x); reflexivity].
  destruct (Nat.lt_ge_cases (Z.to_nat d) nd) as [D|D]; [rewrite R1 by exact D|rewrite (nth_overflow (repeat (repeat 0 n) nd)) by (rewrite repeat_length; exact D); destruct (Z.to_nat x); reflexivity].
  destruct (Nat.lt_ge_cases (Z.to_nat x) n) as [X|X]; [apply R1; exact X|apply nth_overflow; rewrite repeat_length; exact X].
Qed.
Lemma zseq_nodup m : NoDup (map Z.of_nat (seq 0 m)).
Proof. apply FinFun.Injective_map_NoDup; [intros a b; lia|apply seq_NoDup]. Qed.
Lemma consecutive_ok n l : kept l <> [] -> consecutive (map (ent n) l) = Ok (map (ent n) (kept l)).
Proof. intros NE. rewrite consecutive_is. destruct l as [|g l]; [contradiction|]. destruct (kept (g :: l)); [contradiction|reflexivity]. Qed.
Section Whole.
Variables (n crit overlap btime limit : Z) (ny nd : nat) (gibl : list (list (list Q))).
Hypothesis npos : 0 < n.
Hypothesis crit2 : 2 <= crit.
Hypothesis over : 0 <= overlap.
Hypothesis time : 1 <= btime.
Hypothesis shape : Shape ny nd gibl.
Hypothesis proper : Proper n crit gibl.
Let gs := kept (groups_of gibl).
Variable g0 : grp.
Let G (j : nat) : grp := nth j gs g0.
Let lon := map Z.of_nat (seq 0 (Z.to_nat n)).
Lemma all_good : forall x, In x (days_of gibl) -> good n crit (snd x).
Proof.
  intros ((y & d) & a) I. apply days_in in I. destruct (proper y d a I) as (L & W & F). cbn [snd]. assert (NE : a <> []) by (intros ->; cbn in L; lia). split; [exact L|]. split; [exact NE|]. split; [exact W|]. apply free_place; assumption.
Qed.
Lemma all_groups : AllGroups gibl (groups_of gibl).
Proof. exact (groups_of_all n crit gibl all_good). Qed.
Lemma gs_group g : In g gs -> IsGroup gibl g.
Proof. intros H. apply all_groups. apply kept_in. exact H. Qed.
Lemma gs_sorted : StronglySorted Before gs.
Proof. apply kept_sorted. apply all_groups. Qed.
Lemma group_bounds g : IsGroup gibl g -> 0 <= gyear g < Z.of_nat ny /\ 0 <= gday g < Z.of_nat nd /\ 0 <= gright g < n /\ gleft g <= gright g /\ gright g - gleft g + 1 < n.
Proof.
  intros (a & RW & RN). destruct (proper _ _ _ RW) as (L & _ & X0 & FX). destruct RW as (Y & D & days & E1 & E2). destruct shape as (S1 & S2).
  assert (Y2 : (Z.to_nat (gyear g) < length gibl)%nat) by (apply nth_error_Some; congruence). assert (D2 : (Z.to_nat (gday g) < length days)%nat) by (apply nth_error_Some; congruence). rewrite Forall_forall in S2. rewrite (S2 days (nth_error_In _ _ E1)) in D2.
  destruct RN as (R1 & R2 & R3 & R4 & R5). rewrite L in R1. repeat split; try lia. destruct (Z.lt_ge_cases (gright g - gleft g + 1) n) as [K|K]; [exact K|exfalso]. apply FX.
  assert (P : On a (gleft g + (X0 - gleft g) mod n)). { apply R3. pose proof (Z.mod_pos_bound (X0 - gleft g) n npos). lia. }
  unfold On in *. rewrite L in *. rewrite Zplus_mod_idemp_r in P. replace (gleft g + (X0 - gleft g)) with X0 in P by lia. exact P.
Qed.
Lemma whole : gs <> [] -> forall y,
  exists fin noloc rs freq, track (map (ent n) gs) overlap btime (map Z.of_nat (seq 0 (length gibl))) [] [] = Ok fin /\ sound n overlap gs g0 noloc fin /\ mapM (travel (map (Center n) gs) limit) fin = Ok rs /\
    blocks_on n crit overlap btime limit ny nd gibl lon = Ok freq /\ shaped ny nd (Z.to_nat n) freq /\
    (forall y d x, 0 <= y < Z.of_nat ny -> 0 <= d < Z.of_nat nd -> 0 <= x < n -> val freq y d x = Z.of_nat (length (filter (Covers n y d x) (map G (concat (concat rs)))))) /\
    (let ps := places (map (ent n) gs) (fun e => year e =? y) in
     0 <= y < Z.of_nat ny -> Linked n overlap (map G ps) -> (4 < length ps)%nat -> btime <= Z.of_nat (length ps) -> In ps fin).
Proof.
  intros NE y. set (ps := places (map (ent n) gs) (fun e => year e =? y)).
  assert (SD0 : sound n overlap gs g0 [] []) by (split; [constructor|]; split; [intros x []|]; split; [constructor|intros ? []]).
  assert (TR : exists fin noloc, track (map (ent n) gs) overlap btime (map Z.of_nat (seq 0 (length gibl))) [] [] = Ok fin /\ sound n overlap gs g0 noloc fin /\ (0 <= y < Z.of_nat ny -> Linked n overlap (map G ps) -> (4 < length ps)%nat -> btime <= Z.of_nat (length ps) -> In ps fin)).
  { destruct (track_ok n overlap btime gs g0 over time (map Z.of_nat (seq 0 (length gibl))) [] [] (zseq_nodup _) SD0) as (fin & noloc & ET & SD & _); [intros j []|]. exists fin, noloc. split; [exact ET|]. split; [exact SD|]. intros Y LK L4 BT.
    destruct (track_finds n overlap btime gs g0 over y LK L4 (conj time BT) (map Z.of_nat (seq 0 (length gibl))) [] [] (zseq_nodup _)) as (fin' & noloc' & ET' & _ & IP); [|exact SD0|intros j []|].
    - apply in_map_iff. exists (Z.to_nat y). split; [lia|]. apply in_seq. destruct shape as (S1 & _). lia.
    - rewrite ET in ET'. injection ET' as <-. exact IP. }
  destruct TR as (fin & noloc & ET & SD & FP). pose proof SD as (ND & IC & FB & LT).
  destruct (kept_blocks n overlap limit gs g0 fin) as (rs & ER & ND2 & IC2 & FA & KP); [intros bb B; rewrite Forall_forall in FB; apply FB; exact B|exact ND|].
  destruct (add_all_is ny nd n gs g0 npos (fun g I => let B := group_bounds g (gs_group g I) in conj (proj1 B) (proj1 (proj2 B))) (concat (concat rs)) (repeat (repeat (repeat 0 (Z.to_nat n)) nd) ny)) as (freq & EF & SH & VL); [intros j J; apply LT, IC, IC2; exact J|apply repeat_shaped|].
  exists fin, noloc, rs, freq. split; [exact ET|]. split; [exact SD|]. split; [exact ER|]. split.
  - unfold blocks_on. rewrite (groups_are n crit lon gibl crit2 eq_refl npos all_good). cbn [bind]. rewrite entries_are, (consecutive_ok n (groups_of gibl) NE). fold gs. cbn [bind].
    rewrite mapM_map1. rewrite (mapM_same _ (Center n) gs). 2:{ intros g I. destruct (group_bounds g (gs_group g I)) as (_ & _ & B1 & B2 & B3). apply center_is; lia. }
    cbn [bind]. rewrite ET. cbn [bind]. rewrite ER. cbn [bind]. exact EF.
  - split; [exact SH|]. split; [|exact FP]. intros y' d x Y D X. rewrite VL by assumption. rewrite repeat_val. reflexivity.
Qed.
End Whole.

(** ** Statements *)
Lemma at_val ny nd n freq y d x : shaped ny nd (Z.to_nat n) freq -> 0 <= y < Z.of_nat ny -> 0 <= d < Z.of_nat nd -> 0 <= x < n -> At freq y d x (val freq y d x).
Proof.
  intros (L & H) Y D X. destruct (H (Z.to_nat y) ltac:(lia)) as (L1 & H1). specialize (H1 (Z.to_nat d) ltac:(lia)). exists (nth (Z.to_nat y) freq []), (nth (Z.to_nat d) (nth (Z.to_nat y) freq []) []). split; [apply nth_error_nth'; lia|]. split; [apply nth_error_nth'; lia|]. apply nth_error_nth'. lia.
Qed.
Lemma covers_unique gibl n g h y d x : 0 < n -> (forall y d a, Row gibl y d a -> Z.of_nat (length a) = n) -> 0 <= x < n -> IsGroup gibl g -> IsGroup gibl h -> gright g - gleft g < n -> gright h - gleft h < n -> Covers n y d x g = true -> Covers n y d x h = true -> g = h.
Proof.
  intros P LN X (a & RA & RG) (b & RB & RH) WG WH CG CH. unfold Covers in CG, CH. apply andb_prop in CG, CH. destruct CG as (CG & IG), CH as (CH & IH). apply andb_prop in CG, CH. destruct CG as (Y1 & D1), CH as (Y2 & D2). apply Z.eqb_eq in Y1, D1, Y2, D2.
  destruct g as (((gy & gd) & gl) & gr), h as (((hy & hd) & hl) & hr). cbn [gyear gday gleft gright fst snd] in *. subst gy gd hy hd.
  assert (a = b). { destruct RA as (_ & _ & da & E1 & E2), RB as (_ & _ & db & E3 & E4). congruence. } subst b. pose proof (LN _ _ _ RA) as L.
  apply inside_iff in IG; try lia. apply inside_iff in IH; try lia. destruct IG as (i & I & EI), IH as (k & K & EK).
  assert (PER : forall z m, On a (z + m * n) <-> On a z) by (intros z m; unfold On; rewrite L, Z.mod_add by lia; tauto).
  assert (SH : exists m, i = k + m * n). { exists (i / n - k / n). pose proof (Z.div_mod i n ltac:(lia)). pose proof (Z.div_mod k n ltac:(lia)). nia. } destruct SH as (m & ->).
  destruct RG as (G1 & G2 & G3 & G4 & G5), RH as (H1 & H2 & H3 & H4 & H5). rewrite L in G1, H1.
  assert (E1 : gr = hr + m * n). { destruct (Z.lt_trichotomy gr (hr + m * n)) as [Q|[Q|Q]]; [exfalso|exact Q|exfalso].
    - apply G5. replace (gr + 1) with (gr + 1 - m * n + m * n) by lia. apply PER. apply H3. lia.
    - apply H5. apply (PER _ m). apply G3. lia. }
  assert (E2 : gl = hl + m * n). { destruct (Z.lt_trichotomy gl (hl + m * n)) as [Q|[Q|Q]]; [exfalso|exact Q|exfalso].
    - apply H4. apply (PER _ m). apply G3. lia.
    - apply G4. replace (gl - 1) with (gl - 1 - m * n + m * n) by lia. apply PER. apply H3. lia. }
  assert (m = 0) by nia. subst m. rewrite Z.mul_0_l, Z.add_0_r in *. subst. reflexivity.
Qed.
Lemma unique_length {A} (l : list A) : NoDup l -> (forall x y, In x l -> In y l -> x = y) -> (length l <= 1)%nat.
Proof. destruct l as [|a [|b l]]; cbn; intros N H; try lia. inversion N as [|? ? N1 _]; subst. exfalso. apply N1. left. symmetry. apply H; cbn; tauto. Qed.
Lemma kept_some n crit overlap btime limit ny nd gibl freq : 0 < n -> 2 <= crit -> Proper n crit gibl -> blocks_on n crit overlap btime limit ny nd gibl (map Z.of_nat (seq 0 (Z.to_nat n))) = Ok freq -> kept (groups_of gibl) <> [].
Proof.
  intros P C PR E K. unfold blocks_on in E. rewrite (groups_are n crit _ gibl C eq_refl P (all_good n crit gibl P PR)) in E. cbn [bind] in E. rewrite entries_are, consecutive_is, K in E. destruct (groups_of gibl); discriminate E.
Qed.
Lemma sorted_nth {A} (R : A -> A -> Prop) d l : StronglySorted R l -> forall i j, (i < j)%nat -> (j < length l)%nat -> R (nth i l d) (nth j l d).
Proof.
  induction 1 as [|a l SS IH F]; intros i j I J; [cbn in J; lia|]. destruct j as [|j]; [lia|]. cbn [length] in J. destruct i as [|i]; cbn [nth].
  - rewrite Forall_forall in F. apply F. apply nth_In. lia.
  - apply IH; lia.
Qed.
Lemma before_ext : forall l m : list grp, StronglySorted Before l -> StronglySorted Before m -> (forall g, In g l <-> In g m) -> l = m.
Proof.
  induction l as [|a l IH]; intros m SL SM H; [destruct m as [|b m]; [reflexivity|]; exfalso; apply (H b); left; reflexivity|]. destruct m as [|b m]; [exfalso; apply (H a); left; reflexivity|].
  apply StronglySorted_inv in SL. destruct SL as [SL FL]. apply StronglySorted_inv in SM. destruct SM as [SM FM]. rewrite Forall_forall in FL, FM.
  assert (a = b). { destruct (proj1 (H a) (or_introl eq_refl)) as [X|X]; [symmetry; exact X|]. destruct (proj2 (H b) (or_introl eq_refl)) as [Y|Y]; [exact Y|]. exfalso. exact (before_irr _ (before_trans _ _ _ (FM _ X) (FL _ Y))). } subst b. f_equal. apply IH; [exact SL|exact SM|].
  intros g. split; intros X; [destruct (proj1 (H g) (or_intror X)) as [<-|Y]; [exfalso; exact (before_irr _ (FL _ X))|exact Y]|destruct (proj2 (H g) (or_intror X)) as [<-|Y]; [exfalso; exact (before_irr _ (FM _ X))|exact Y]].
Qed.
Lemma linked_sorted n overlap l : Linked n overlap l -> StronglySorted Before l.
Proof.
  intros LK. apply Sorted_StronglySorted; [intros a b c; apply before_trans|]. induction l as [|a l IH]; [constructor|]. destruct l as [|b l]; [constructor; constructor|]. cbn [Linked] in LK. destruct LK as ((Y & D & _) & LK). constructor; [apply IH; exact LK|]. constructor. unfold Before. lia.
Qed.
Lemma linked_kept n crit overlap gibl : 0 < n -> Proper n crit gibl -> forall l, Linked n overlap l -> (2 <= length l)%nat -> (forall g, In g l -> IsGroup gibl g) -> forall g, In g l -> In g (kept (groups_of gibl)).
Proof.
  intros P PR. pose proof (all_groups n crit gibl P PR) as (SS & AG). assert (K : forall g h, Continues n overlap g h -> IsGroup gibl g -> IsGroup gibl h -> In g (kept (groups_of gibl)) /\ In h (kept (groups_of gibl))). { intros g h (Y & D & _) IG IH. apply kept_both; [exact SS|apply AG; exact IG|apply AG; exact IH| |exact Y|lia]. unfold Before. lia. }
  induction l as [|a l IH]; intros LK L2 H g I; [contradiction|]. destruct l as [|b l]; [cbn in L2; lia|]. cbn [Linked] in LK. destruct LK as (CT & LK). destruct (K a b CT) as (KA & KB); [apply H; left; reflexivity|apply H; right; left; reflexivity|].
  destruct I as [<-|[<-|I]]; [exact KA|exact KB|]. apply IH; [exact LK|destruct l; [contradiction|cbn; lia]|intros; apply H; right; assumption|right; exact I].
Qed.
Lemma result n crit overlap btime limit ny nd gibl freq : 0 < n -> 2 <= crit -> 0 <= overlap -> 1 <= btime -> Shape ny nd gibl -> Proper n crit gibl ->
  blocks_on n crit overlap btime limit ny nd gibl (map Z.of_nat (seq 0 (Z.to_nat n))) = Ok freq ->
  exists blocks, NoDup (concat blocks) /\
    Forall (fun b => (5 <= length b)%nat /\ Forall (IsGroup gibl) b /\ Linked n overlap b /\ Stays n limit b) blocks /\
    (forall y d x, 0 <= y < Z.of_nat ny -> 0 <= d < Z.of_nat nd -> 0 <= x < n -> At freq y d x (Z.of_nat (length (filter (Covers n y d x) (concat blocks))))) /\
    forall y l, (forall g, In g l <-> IsGroup gibl g /\ gyear g = y) -> Linked n overlap l -> Stays n limit l -> (5 <= length l)%nat -> btime <= Z.of_nat (length l) -> 0 <= y < Z.of_nat ny -> incl l (concat blocks).
Proof.
  intros P C O T SH PR E. pose proof (kept_some n crit overlap btime limit ny nd gibl freq P C PR E) as NE. set (gs := kept (groups_of gibl)) in *. set (g0 := (0, 0, 0, 0) : grp). set (G := fun j => nth j gs g0).
  destruct (whole n crit overlap btime limit ny nd gibl P C O T SH PR g0 NE 0) as (fin & noloc & rs & freq' & ET & SD & ER & EB & FS & VL & _). fold gs in ET, SD, ER, VL. rewrite E in EB. injection EB as <-.
  pose proof SD as (ND & IC & FB & LT). destruct (kept_blocks n overlap limit gs g0 fin) as (rs' & ER' & ND2 & IC2 & FA & KP); [intros bb B; rewrite Forall_forall in FB; apply FB; exact B|exact ND|]. rewrite ER in ER'. injection ER' as <-.
  assert (CM : concat (map (map G) (concat rs)) = map G (concat (concat rs))) by (symmetry; apply concat_map). assert (GS : StronglySorted Before gs) by (exact (gs_sorted n crit gibl P PR)). assert (GN : NoDup gs) by (exact (sorted_nodup _ _ before_irr GS)).
  exists (map (map G) (concat rs)). rewrite CM. split; [|split; [|split]].
  - assert (JL : forall j, In j (concat (concat rs)) -> (j < length gs)%nat) by (intros j J; apply LT, IC, IC2; exact J). clear - ND2 JL GN. induction (concat (concat rs)) as [|j l IH]; [constructor|]. inversion ND2 as [|? ? N1 N2]; subst. cbn [map]. constructor; [|apply IH; [exact N2|intros; apply JL; right; assumption]].
    intros X. apply in_map_iff in X. destruct X as (k & EQ & K). assert (k = j); [|subst; contradiction]. apply (proj1 (NoDup_nth gs g0) GN); [apply JL; right; exact K|apply JL; left; reflexivity|exact EQ].
  - apply Forall_map. apply (Forall_impl _ (P := fun p => (4 < length p)%nat /\ (forall j, In j p -> (j < length gs)%nat) /\ Linked n overlap (map G p) /\ Stays n limit (map G p))); [|exact FA]. intros p (L4 & JL & LK & ST). rewrite map_length. split; [lia|]. split; [|split; assumption]. apply Forall_map. apply Forall_forall. intros j J. apply (gs_group n crit gibl P PR). apply nth_In. apply JL. exact J.
  - intros y d x Y D X. unfold G. rewrite <- VL by assumption. exact (at_val ny nd n freq y d x FS Y D X).
  - intros y l HL LK ST L5 BT Y. destruct (whole n crit overlap btime limit ny nd gibl P C O T SH PR g0 NE y) as (fin' & noloc' & rs' & freq' & ET' & _ & ER' & EB' & _ & _ & FP). fold gs in ET', ER', FP. rewrite ET in ET'. injection ET' as <-. cbv zeta in FP. set (ps := places _ _) in FP.
    assert (EQ : map (fun j => nth j gs g0) ps = l).
    { apply before_ext.
      - assert (PS : StronglySorted lt ps) by apply places_sorted. assert (PL : forall j, In j ps -> (j < length gs)%nat) by (intros j J; apply (year_places n gs g0) in J; apply J). clear - PS PL GS. induction PS as [|j ps PS IH F]; [constructor|]. cbn [map]. constructor; [apply IH; intros; apply PL; right; assumption|]. apply Forall_map. rewrite Forall_forall in *. intros k K. apply (sorted_nth _ g0 gs GS); [apply F; exact K|apply PL; right; exact K].
      - exact (linked_sorted n overlap l LK).
      - intros g. rewrite in_map_iff, HL. split.
        + intros (j & <- & J). apply (year_places n gs g0) in J. destruct J as (J & YJ). split; [|exact YJ]. apply (gs_group n crit gibl P PR). apply nth_In. exact J.
        + intros (IG & YG). assert (GI : In g gs). { apply (linked_kept n crit overlap gibl P PR l LK); [lia| |apply HL; split; assumption]. intros h H. apply HL. exact H. }
          destruct (In_nth _ _ g0 GI) as (j & J & EJ). exists j. split; [exact EJ|]. apply (year_places n gs g0). rewrite EJ. split; assumption. }
    assert (LP : length ps = length l) by (rewrite <- EQ, map_length; reflexivity). assert (IP : In ps fin) by (apply FP; [exact Y|rewrite EQ; exact LK|lia|rewrite LP; exact BT]).
    assert (IR : In ps (concat rs)) by (apply KP; [exact IP|rewrite EQ; exact ST]). intros g GL. rewrite <- EQ in GL. apply in_map_iff in GL. destruct GL as (j & <- & J). apply in_map_iff. exists j. split; [reflexivity|]. apply in_concat. exists ps. split; assumption.
Qed.
(** *** Examples *)
Lemma zone_length s e : length (Zone s e) = 360%nat.
Proof. unfold Zone. rewrite map_length, seq_length. reflexivity. Qed.
Lemma zone_on s e x : On (Zone s e) x <-> Inside 360 s e x = true.
Proof.
  unfold On. rewrite zone_length. change (Z.of_nat 360) with 360. pose proof (Z.mod_pos_bound x 360 ltac:(lia)) as B.
  assert (E : nth_error (Zone s e) (Z.to_nat (x mod 360)) = Some (if Inside 360 s e x then 1%Q else 0%Q)).
  { unfold Zone. rewrite nth_error_map. rewrite (nth_error_nth' (seq 0 360) 0%nat) by (rewrite seq_length; lia). rewrite seq_nth by lia. cbn [option_map]. rewrite Nat.add_0_l, Z2Nat.id by lia. unfold Inside. rewrite Zminus_mod_idemp_l. reflexivity. }
  rewrite E. split.
  - intros (v & EV & QV). destruct (Inside 360 s e x); [reflexivity|]. injection EV as <-. discriminate QV.
  - intros ->. exists 1%Q. split; reflexivity.
Qed.
Lemma zone_inside s e x m : s <= x <= e -> Inside 360 s e (x + m * 360) = true.
Proof. intros X. unfold Inside. apply Z.leb_le. replace (x + m * 360 - s) with (x - s + m * 360) by lia. rewrite Z.mod_add by lia. pose proof (Z.mod_le (x - s) 360 ltac:(lia) ltac:(lia)). lia. Qed.
Lemma zone_run s e : 0 <= e < 360 -> s <= e -> e - s < 359 -> Run (Zone s e) s e.
Proof.
  intros E S1 L. unfold Run. rewrite zone_length. split; [lia|]. split; [exact S1|]. split; [|split].
  - intros x X. apply zone_on. rewrite <- (Z.add_0_r x). change 0 with (0 * 360). apply zone_inside. exact X.
  - rewrite zone_on. unfold Inside. replace ((s - 1 - s) mod 360) with 359 by (apply (Z.mod_unique_pos _ _ (-1)); lia). rewrite Z.leb_le. lia.
  - rewrite zone_on. unfold Inside. rewrite Z.leb_le, Z.mod_small by lia. lia.
Qed.
Lemma zone_wide s e crit : 1 <= crit -> crit <= e - s + 1 -> Wide crit (Zone s e).
Proof.
  intros C L x X. apply zone_on in X. unfold Inside in X. apply Z.leb_le in X. pose proof (Z.mod_pos_bound (x - s) 360 ltac:(lia)) as B. pose proof (Z.div_mod (x - s) 360 ltac:(lia)) as DM. set (q := (x - s) / 360) in *. set (r := (x - s) mod 360) in *.
  exists (Z.min (s + r) (e - crit + 1) + q * 360). split; [lia|]. intros y Y. apply zone_on. replace y with (y - q * 360 + q * 360) by lia. apply zone_inside. lia.
Qed.
Lemma clear_off x : ~ On Clear x.
Proof.
  intros (v & E & Q1). unfold Clear in E. rewrite nth_error_map in E. destruct (nth_error (seq 0 360) _); cbn in E; [|discriminate E]. injection E as <-. discriminate Q1.
Qed.
Lemma moving_nth s days k a : nth_error (Moving s days) k = Some a -> a = Zone (s + Z.of_nat k) (s + Z.of_nat k + 19).
Proof.
  unfold Moving. rewrite nth_error_map. destruct (nth_error (seq 0 days) k) as [i|] eqn:E; [|discriminate]. cbn. intros H. injection H as <-. assert (i = k); [|subst; reflexivity]. pose proof E as E2. apply (nth_error_nth _ _ 0%nat) in E2. rewrite seq_nth in E2; [cbn in E2; lia|]. assert (X : nth_error (seq 0 days) k <> None) by congruence. apply nth_error_Some in X. rewrite seq_length in X. exact X.
Qed.
Lemma moving_proper s days : Proper 360 15 [Moving s days].
Proof.
  intros y d a (Y & D & dl & E1 & E2). destruct (Z.to_nat y) as [|[|m]]; [|discriminate E1|discriminate E1]. injection E1 as <-. apply moving_nth in E2. subst a. rewrite zone_length. split; [reflexivity|]. split; [apply zone_wide; lia|].
  exists (s + Z.of_nat (Z.to_nat d) + 20). rewrite zone_on. unfold Inside. rewrite Z.leb_le, Z.mod_small; lia.
Qed.
Lemma clear_proper k : Proper 360 15 [repeat Clear k].
Proof.
  intros y d a (Y & D & dl & E1 & E2). destruct (Z.to_nat y) as [|[|m]]; [|discriminate E1|discriminate E1]. injection E1 as <-. apply nth_error_In, repeat_spec in E2. subst a. split; [reflexivity|]. split; [intros x X; exfalso; exact (clear_off x X)|]. exists 0. apply clear_off.
Qed.
Definition has_value (f : list (list (list Z))) (v : Z) (y d x : nat) : bool :=
  match nth_error f y with Some days => match nth_error days d with Some row => match nth_error row x with Some w => Z.eqb w v | None => false end | None => false end | None => false end.
Lemma has_value_at f v y d x : has_value f v (Z.to_nat y) (Z.to_nat d) (Z.to_nat x) = true -> At f y d x v.
Proof.
  unfold has_value, At. destruct (nth_error f _) as [days|] eqn:E1; [|discriminate]. destruct (nth_error days _) as [row|] eqn:E2; [|discriminate]. destruct (nth_error row _) as [w|] eqn:E3; [|discriminate]. intros H. apply Z.eqb_eq in H. subst w. exists days, row. repeat split; assumption.
Qed.
Lemma values_at f v d1 d2 x1 x2 : forallb (fun d => forallb (has_value f v 0 d) (seq x1 x2)) (seq d1 d2) = true ->
  forall d x, Z.of_nat d1 <= d < Z.of_nat d1 + Z.of_nat d2 -> Z.of_nat x1 <= x < Z.of_nat x1 + Z.of_nat x2 -> At f 0 d x v.
Proof.
  intros H d x D X. apply has_value_at. rewrite forallb_forall in H. specialize (H (Z.to_nat d) ltac:(apply in_seq; lia)). rewrite forallb_forall in H. apply H. apply in_seq. lia.
Qed.
Lemma result_with (r : res (list (list (list Z)))) (P : list (list (list Z)) -> Prop) (test : list (list (list Z)) -> bool) : match r with Ok f => test f | Err _ => false end = true -> (forall f, test f = true -> P f) -> exists f, r = Ok f /\ P f.
Proof. destruct r as [f|]; [|discriminate]. intros H K. exists f. split; [reflexivity|]. apply K. exact H. Qed.
(** *** A day with all longitudes *)
Lemma all_on_run b : (forall x, on b x = true) -> forall k, run_to b k = Z.of_nat k + 1.
Proof. intros H. induction k as [|k IH]; cbn [run_to]; rewrite H; [reflexivity|lia]. Qed.
Lemma full_ends a : (2 <= length a)%nat -> (forall x, On a x) -> exists c, count_day (Z.of_nat (length a)) a = Ok c /\ ends_day (Z.of_nat (length a)) c = Err IndexError.
Proof.
  intros L H. assert (NE : a <> []) by (intros ->; cbn in L; lia). destruct (count_values a NE) as (c & E & LC & V). exists c. split; [exact E|].
  assert (ON : forall x, on (bits a) x = true) by (intros x; apply on_On; [exact NE|apply H]).
  assert (NV : forall i, (i < length a)%nat -> nth i c 0 <> 0 /\ nth i c 0 <> 1).
  { intros i I. rewrite (V i I), ON. destruct (has _ _) eqn:HS; [rewrite (all_on_run _ ON); lia|]. rewrite (all_on_run _ ON). destruct (Nat.eq_dec i 0) as [->|N]; [exfalso|lia]. apply has_not in HS. apply HS. set (LL := ones 0 a ++ _). pose proof (double_sorted a) as SS. fold LL in SS.
    assert (IN : forall x, 0 <= x < 2 * Z.of_nat (length a) -> In x LL) by (intros x X; apply double_in; [exact NE|]; split; [exact X|apply ON]).
    pose proof (IN (Z.of_nat 0 + Z.of_nat (length a)) ltac:(lia)) as I1. pose proof (IN (2 * Z.of_nat (length a) - 1) ltac:(lia)) as I2. clearbody LL. destruct LL as [|w t]; [contradiction|]. rewrite (app_removelast_last 0 (l := w :: t)) in I1, I2, SS by discriminate. set (rl := removelast (w :: t)) in *. set (la := last (w :: t) 0) in *. clearbody rl la.
    apply in_app_or in I1. destruct I1 as [I1|[I1|[]]]; [exact I1|exfalso]. apply in_app_or in I2. destruct I2 as [I2|[I2|[]]]; [|lia]. assert (LTL : forall r z, StronglySorted Z.lt (r ++ [z]) -> forall u, In u r -> u < z). { clear. induction r as [|u r IH]; intros z SS v V; [contradiction|]; destruct V as [EV|H].
      - subst. apply StronglySorted_inv in SS. destruct SS as [_ F]. rewrite Forall_forall in F. apply F. apply in_or_app. right. left. reflexivity.
      - apply StronglySorted_inv in SS. destruct SS as [SS _]. exact (IH z SS v H). }
    specialize (LTL rl la SS _ I2). lia. }
  unfold ends_day. rewrite (item_pos _ c 0) by lia. cbn [bind]. rewrite (item_pos 0 c 0) by lia. cbn [bind]. destruct (NV (Z.to_nat (Z.of_nat (length a) - 1)) ltac:(lia)) as (N1 & _). destruct (NV (Z.to_nat 0) ltac:(cbn; lia)) as (N2 & _).
  destruct (Z.eqb_spec (nth (Z.to_nat (Z.of_nat (length a) - 1)) c 0) 0); [contradiction|]. destruct (Z.eqb_spec (nth (Z.to_nat 0) c 0) 0); [contradiction|]. cbn [negb andb].
  destruct (where_ (Z.eqb 1) 0 c) as [|w t] eqn:EW; [reflexivity|]. exfalso. assert (W : In w (where_ (Z.eqb 1) 0 c)) by (rewrite EW; left; reflexivity). apply where_in in W. destruct W as (i & I & _ & X). apply (NV i ltac:(lia)). exact X.
Qed.
Lemma ends_or n c : 0 < n -> Z.of_nat (length c) = n -> (exists r, ends_day n c = Ok r) \/ ends_day n c = Err IndexError.
Proof.
  intros P L. unfold ends_day. rewrite (item_pos _ c 0) by lia. cbn [bind]. rewrite (item_pos 0 c 0) by lia. cbn [bind]. destruct (_ && _); [|left; eexists; reflexivity].
  destruct (where_ (Z.eqb 1) 0 c) as [|w t]; [right; reflexivity|left]. rewrite (item_neg (-1) _ 0) by (cbn [length]; lia). cbn [bind]. eexists. reflexivity.
Qed.
Lemma mapM_index {A B} (f : A -> res B) l : (forall x, In x l -> (exists r, f x = Ok r) \/ f x = Err IndexError) -> (exists x, In x l /\ f x = Err IndexError) -> mapM f l = Err IndexError.
Proof.
  induction l as [|a l IH]; intros H (x & X & E); [contradiction|]. cbn [mapM]. destruct (H a (or_introl eq_refl)) as [(r & ER)|ER]; rewrite ER; cbn [bind]; [|reflexivity]. destruct X as [<-|X]; [congruence|]. rewrite IH; [reflexivity|intros; apply H; right; assumption|exists x; split; assumption].
Qed.
(** The statements of PropertiesTrack.v. *)
Lemma C108_blocks_proof : forall crit overlap btime limit ny nd gibl freq, 2 <= crit -> 0 <= overlap -> 1 <= btime ->
  Shape ny nd gibl -> Proper 360 crit gibl ->
  run_Calc_Blocks crit overlap btime limit ny nd gibl Degrees = Ok freq ->
  exists blocks, NoDup (concat blocks) /\
    Forall (fun b => (5 <= length b)%nat /\ Forall (IsGroup gibl) b /\ Linked 360 overlap b /\ Stays 360 limit b) blocks /\
    forall y d x, 0 <= y < Z.of_nat ny -> 0 <= d < Z.of_nat nd -> 0 <= x < 360 ->
      At freq y d x (Z.of_nat (length (filter (Covers 360 y d x) (concat blocks)))).
Proof.
  intros crit overlap btime limit ny nd gibl freq C O T SH PR E. destruct (result 360 crit overlap btime limit ny nd gibl freq ltac:(lia) C O T SH PR E) as (blocks & N & F & V & _). exists blocks. repeat split; assumption.
Qed.

Lemma C108_values_proof : forall crit overlap btime limit ny nd gibl freq, 2 <= crit -> 0 <= overlap -> 1 <= btime ->
  Shape ny nd gibl -> Proper 360 crit gibl ->
  run_Calc_Blocks crit overlap btime limit ny nd gibl Degrees = Ok freq ->
  forall y d a x, Row gibl y d a -> 0 <= x < 360 -> At freq y d x 0 \/ (At freq y d x 1 /\ On a x).
Proof.
  intros crit overlap btime limit ny nd gibl freq C O T SH PR E y d a x RW X. destruct (result 360 crit overlap btime limit ny nd gibl freq ltac:(lia) C O T SH PR E) as (blocks & N & F & V & _).
  assert (Y : 0 <= y < Z.of_nat ny /\ 0 <= d < Z.of_nat nd). { destruct RW as (Y & D & days & E1 & E2), SH as (S1 & S2). assert (Y2 : (Z.to_nat y < length gibl)%nat) by (apply nth_error_Some; congruence). assert (D2 : (Z.to_nat d < length days)%nat) by (apply nth_error_Some; congruence). rewrite Forall_forall in S2. rewrite (S2 days (nth_error_In _ _ E1)) in D2. lia. }
  specialize (V y d x (proj1 Y) (proj2 Y) X). set (l := filter (Covers 360 y d x) (concat blocks)) in *.
  assert (IG : forall g, In g l -> IsGroup gibl g /\ Covers 360 y d x g = true). { intros g G. apply filter_In in G. destruct G as (G & K). split; [|exact K]. apply in_concat in G. destruct G as (b & B & G). rewrite Forall_forall in F. destruct (F b B) as (_ & FG & _). rewrite Forall_forall in FG. apply FG. exact G. }
  assert (LE : (length l <= 1)%nat). { apply unique_length; [apply NoDup_filter; exact N|]. intros g h G H. destruct (IG g G) as (G1 & G2), (IG h H) as (H1 & H2). destruct (group_bounds 360 crit ny nd gibl ltac:(lia) SH PR g G1) as (_ & _ & _ & _ & BG). destruct (group_bounds 360 crit ny nd gibl ltac:(lia) SH PR h H1) as (_ & _ & _ & _ & BH).
    apply (covers_unique gibl 360 g h y d x); try assumption; try lia. intros y' d' a' RA. apply (PR _ _ _ RA). }
  clearbody l. destruct l as [|g [|h l]]; [left; exact V| |cbn in LE; lia]. right. split; [exact V|]. destruct (IG g (or_introl eq_refl)) as ((b & RB & RN) & K). unfold Covers in K. apply andb_prop in K. destruct K as (K & IN). apply andb_prop in K. destruct K as (K1 & K2). apply Z.eqb_eq in K1, K2. rewrite K1, K2 in RB.
  assert (a = b). { destruct RW as (_ & _ & da & E1 & E2), RB as (_ & _ & db & E3 & E4). congruence. } subst b. destruct (PR _ _ _ RW) as (LA & _ & X0 & FX). unfold Inside in IN. apply Z.leb_le in IN. destruct RN as (_ & _ & R3 & _). specialize (R3 (gleft g + (x - gleft g) mod 360)). pose proof (Z.mod_pos_bound (x - gleft g) 360 ltac:(lia)) as B. specialize (R3 ltac:(lia)).
  unfold On in *. rewrite LA in *. rewrite Zplus_mod_idemp_r in R3. replace (gleft g + (x - gleft g)) with x in R3 by lia. exact R3.
Qed.

Lemma C108_total_proof : forall crit overlap btime limit ny nd gibl g h, 2 <= crit -> 0 <= overlap -> 1 <= btime ->
  Shape ny nd gibl -> Proper 360 crit gibl ->
  IsGroup gibl g -> IsGroup gibl h -> g <> h -> gyear g = gyear h -> 0 <= gday h - gday g <= 2 ->
  exists freq, run_Calc_Blocks crit overlap btime limit ny nd gibl Degrees = Ok freq.
Proof.
  intros crit overlap btime limit ny nd gibl g h C O T SH PR IG IH NE Y D. assert (P : 0 < 360) by lia. pose proof (all_groups 360 crit gibl P PR) as (SS & AG).
  assert (K : kept (groups_of gibl) <> []).
  { assert (BB : Before g h \/ Before h g). { destruct (Z.lt_trichotomy (gday g) (gday h)) as [Q|[Q|Q]]; [left; unfold Before; lia| |lia]. destruct (Z.lt_trichotomy (gright g) (gright h)) as [R|[R|R]]; [left; unfold Before; lia| |right; unfold Before; lia]. exfalso. apply NE.
      destruct (group_bounds 360 crit ny nd gibl P SH PR g IG) as (_ & _ & G1 & G2 & G3). destruct (group_bounds 360 crit ny nd gibl P SH PR h IH) as (_ & _ & H1 & H2 & H3).
      apply (covers_unique gibl 360 g h (gyear g) (gday g) (gright g)); try assumption; try lia. 1: intros y' d' a' RA; apply (PR _ _ _ RA). 1,2: unfold Covers; rewrite <- ?Y, <- ?Q, !Z.eqb_refl; cbn [andb]; apply inside_iff; try lia; exists (gright g); (split; [lia|apply Z.mod_small; lia]). }
    destruct BB as [B|B].
    - destruct (kept_both _ g h SS (proj2 (AG g) IG) (proj2 (AG h) IH) B Y ltac:(lia)) as (X & _). intros E. rewrite E in X. exact X.
    - destruct (kept_both _ h g SS (proj2 (AG h) IH) (proj2 (AG g) IG) B (eq_sym Y) ltac:(lia)) as (X & _). intros E. rewrite E in X. exact X. }
  destruct (whole 360 crit overlap btime limit ny nd gibl P C O T SH PR g K 0) as (fin & noloc & rs & freq & _ & _ & _ & E & _). exists freq. exact E.
Qed.

Lemma C108_case_proof : Shape 1 6 [Moving 20 6] /\ Proper 360 15 [Moving 20 6] /\ IsGroup [Moving 20 6] (0, 2, 22, 41) /\
  exists freq, run_Calc_Blocks 15 10 5 45 1 6 [Moving 20 6] Degrees = Ok freq /\ At freq 0 2 22 1 /\ At freq 0 2 41 1 /\ At freq 0 2 42 0.
Proof.
  split; [split; [reflexivity|repeat constructor]|]. split; [apply moving_proper|]. split.
  - exists (Zone 22 41). split; [|apply zone_run; cbn; lia]. split; [cbn; lia|]. split; [cbn; lia|]. exists (Moving 20 6). split; reflexivity.
  - apply (result_with _ _ (fun f => has_value f 1 0 2 22 && has_value f 1 0 2 41 && has_value f 0 0 2 42)); [vm_compute; reflexivity|]. intros f H. apply andb_prop in H. destruct H as (H & H3). apply andb_prop in H. destruct H as (H1 & H2). split; [|split]; apply has_value_at; assumption.
Qed.

Lemma C108_gibl_proof : forall ibl_dist crit ibl gibl y d a, 2 <= crit -> (forall days a, In days ibl -> In a days -> length a = 360%nat) ->
  run_Calc_GIBL ibl_dist crit ibl = Ok gibl -> Row gibl y d a -> length a = 360%nat /\ Wide crit a.
Proof.
  intros ibl_dist crit ibl gibl y d a C L E RW. destruct (C65_days_proof ibl_dist crit ibl C L) as (out & E' & F). rewrite E in E'. injection E' as <-. destruct RW as (_ & _ & days & E1 & E2). destruct (forall2_nth_l _ _ _ _ _ F E1) as (idays & E3 & F2). destruct (forall2_nth_l _ _ _ _ _ F2 E2) as (a0 & E4 & DG).
  assert (LA : length a0 = 360%nat) by (apply (L idays a0); [exact (nth_error_In _ _ E3)|exact (nth_error_In _ _ E4)]). destruct DG as (LG & members & N & M & MK). rewrite LA in LG. split; [exact LG|].
  assert (ON : forall z, 0 <= z < 720 -> InGroup (Blocked a0) crit 720 z -> 2 * crit <= Z.of_nat (length members) -> On a z).
  { intros z Hz IG EN. unfold On. rewrite LG. change (Z.of_nat 360) with 360. pose proof (Z.mod_pos_bound z 360 ltac:(lia)) as B. destruct (nth_error a (Z.to_nat (z mod 360))) as [v|] eqn:EV; [|apply nth_error_None in EV; lia]. exists v. split; [reflexivity|]. destruct (MK _ _ EV) as [(-> & _)|(_ & NT)]; [reflexivity|]. exfalso. apply NT. split; [|exact EN]. rewrite Z2Nat.id by lia.
    destruct (Z.lt_ge_cases z 360) as [Q|Q]; [left; rewrite Z.mod_small by lia; exact IG|right]. replace (z mod 360) with (z - 360) by (apply (Z.mod_unique_pos z 360 1); lia). replace (z - 360 + 360) with z by lia. exact IG. }
  intros x (v & EV & QV). rewrite LG in EV. change (Z.of_nat 360) with 360 in EV. pose proof (Z.mod_pos_bound x 360 ltac:(lia)) as B. destruct (MK _ _ EV) as [(_ & IG & EN)|(-> & _)]; [|discriminate QV]. rewrite Z2Nat.id in IG by lia.
  assert (W : exists w m, 0 <= w < 720 /\ x = w + m * 360 /\ InGroup (Blocked a0) crit 720 w). { pose proof (Z.div_mod x 360 ltac:(lia)). destruct IG as [IG|IG]; [exists (x mod 360), (x / 360)|exists (x mod 360 + 360), (x / 360 - 1)]; repeat split; try exact IG; lia. }
  destruct W as (w & m & W & -> & s & e & S1 & S2 & CH & LE).
  exists (Z.min w (e - crit + 1) + m * 360). split; [lia|]. intros z Hz. assert (OZ : On a (z - m * 360)). { apply ON; [lia| |exact EN]. exists s, e. repeat split; try lia; apply CH. }
  unfold On in *. rewrite LG in *. change (Z.of_nat 360) with 360 in *. replace z with (z - m * 360 + m * 360) by lia. rewrite Z.mod_add by lia. exact OZ.
Qed.

Lemma C108_gibl_case_proof : run_Calc_GIBL 7 15 [Moving 20 2] = Ok [Moving 20 2].
Proof.
  vm_compute. reflexivity.
Qed.

Lemma C109_one_chain_proof : forall crit overlap btime limit ny nd gibl freq y l, 2 <= crit -> 0 <= overlap -> 1 <= btime ->
  Shape ny nd gibl -> Proper 360 crit gibl ->
  run_Calc_Blocks crit overlap btime limit ny nd gibl Degrees = Ok freq ->
  (forall g, In g l <-> IsGroup gibl g /\ gyear g = y) -> Linked 360 overlap l -> Stays 360 limit l ->
  (5 <= length l)%nat -> btime <= Z.of_nat (length l) -> 0 <= y < Z.of_nat ny ->
  forall d x, 0 <= d < Z.of_nat nd -> 0 <= x < 360 -> At freq y d x (if existsb (Covers 360 y d x) l then 1 else 0).
Proof.
  intros crit overlap btime limit ny nd gibl freq y l C O T SH PR E HL LK ST L5 BT Y d x D X. destruct (result 360 crit overlap btime limit ny nd gibl freq ltac:(lia) C O T SH PR E) as (blocks & N & F & V & K). specialize (K y l HL LK ST L5 BT Y). specialize (V y d x Y D X). set (m := filter (Covers 360 y d x) (concat blocks)) in *.
  assert (IG : forall g, In g m -> IsGroup gibl g /\ Covers 360 y d x g = true). { intros g G. apply filter_In in G. destruct G as (G & Q). split; [|exact Q]. apply in_concat in G. destruct G as (b & B & G). rewrite Forall_forall in F. destruct (F b B) as (_ & FG & _). rewrite Forall_forall in FG. apply FG. exact G. }
  assert (LE : (length m <= 1)%nat). { apply unique_length; [apply NoDup_filter; exact N|]. intros g h G H. destruct (IG g G) as (G1 & G2), (IG h H) as (H1 & H2). destruct (group_bounds 360 crit ny nd gibl ltac:(lia) SH PR g G1) as (_ & _ & _ & _ & BG). destruct (group_bounds 360 crit ny nd gibl ltac:(lia) SH PR h H1) as (_ & _ & _ & _ & BH).
    apply (covers_unique gibl 360 g h y d x); try assumption; try lia. intros y' d' a' RA. apply (PR _ _ _ RA). }
  destruct (existsb (Covers 360 y d x) l) eqn:EX.
  - apply existsb_exists in EX. destruct EX as (g & G & Q). assert (IM : In g m) by (apply filter_In; split; [apply K; exact G|exact Q]). clearbody m. destruct m as [|h [|k m]]; [contradiction|exact V|cbn in LE; lia].
  - clearbody m. destruct m as [|g m]; [exact V|exfalso]. destruct (IG g (or_introl eq_refl)) as (G1 & G2). assert (existsb (Covers 360 y d x) l = true); [|congruence]. apply existsb_exists. exists g. split; [|exact G2]. apply HL. split; [exact G1|]. unfold Covers in G2. apply andb_prop in G2. destruct G2 as (G2 & _). apply andb_prop in G2. destruct G2 as (G2 & _). apply Z.eqb_eq. exact G2.
Qed.

Lemma C109_one_chain_case_proof : Linked 360 10 (map (fun k => (0, k, 20 + k, 39 + k)) [0; 1; 2; 3; 4; 5]) /\
  Stays 360 45 (map (fun k => (0, k, 20 + k, 39 + k)) [0; 1; 2; 3; 4; 5]).
Proof.
  split.
  - cbn [map Linked]. repeat split; try (cbn; lia); vm_compute; reflexivity.
  - cbn [map Stays]. repeat constructor; vm_compute; discriminate.
Qed.

Lemma C109_duration_refuted_proof :
  (exists freq, run_Calc_Blocks 15 10 3 45 1 4 [Moving 20 4] Degrees = Ok freq /\
    forall d x, 0 <= d < 4 -> 0 <= x < 360 -> At freq 0 d x 0) /\
  (exists freq, let gibl := Moving 20 5 ++ repeat Clear 5 ++ Moving 20 5 in
    run_Calc_Blocks 15 10 7 45 1 15 [gibl] Degrees = Ok freq /\
    (forall d, 0 <= d < 5 -> At freq 0 d 30 1) /\ (forall d, 10 <= d < 15 -> At freq 0 d 30 0)).
Proof.
  split.
  - apply (result_with _ _ (fun f => forallb (fun d => forallb (has_value f 0 0 d) (seq 0 360)) (seq 0 4))); [vm_compute; reflexivity|]. intros f H d x D X. apply (values_at f 0 0 4 0 360 H); lia.
  - apply (result_with _ _ (fun f => forallb (fun d => forallb (has_value f 1 0 d) (seq 30 1)) (seq 0 5) && forallb (fun d => forallb (has_value f 0 0 d) (seq 30 1)) (seq 10 5))); [vm_compute; reflexivity|]. intros f H. apply andb_prop in H. destruct H as (H1 & H2). split; intros d D; [apply (values_at f 1 0 5 30 1 H1)|apply (values_at f 0 10 5 30 1 H2)]; lia.
Qed.

Lemma C110_crossing_refuted_proof :
  Linked 360 10 (map (fun k => (0, k, k - 11, k + 8)) [0; 1; 2; 3; 4]) /\ (forall k, In k [0; 1; 2; 3; 4] -> IsGroup [Moving (-11) 5] (0, k, k - 11, k + 8)) /\
  (exists freq, run_Calc_Blocks 15 10 5 45 1 5 [Moving (-11) 5] Degrees = Ok freq /\ forall d x, 0 <= d < 5 -> 0 <= x < 360 -> At freq 0 d x 0) /\
  (exists freq, run_Calc_Blocks 15 10 5 45 1 5 [Moving 20 5] Degrees = Ok freq /\ forall d, 0 <= d < 5 -> At freq 0 d 30 1).
Proof.
  split; [cbn [map Linked]; repeat split; try (cbn; lia); vm_compute; reflexivity|]. split; [|split].
  - intros k K. exists (Zone (k - 11) (k + 8)). split.
    + split; [cbn; lia|]. split; [cbn in *; lia|]. exists (Moving (-11) 5). split; [reflexivity|]. cbn [In] in K. destruct K as [<-|[<-|[<-|[<-|[<-|[]]]]]]; reflexivity.
    + apply zone_run; cbn in *; lia.
  - apply (result_with _ _ (fun f => forallb (fun d => forallb (has_value f 0 0 d) (seq 0 360)) (seq 0 5))); [vm_compute; reflexivity|]. intros f H d x D X. apply (values_at f 0 0 5 0 360 H); lia.
  - apply (result_with _ _ (fun f => forallb (fun d => forallb (has_value f 1 0 d) (seq 30 1)) (seq 0 5))); [vm_compute; reflexivity|]. intros f H d D. apply (values_at f 1 0 5 30 1 H); lia.
Qed.

Lemma C110_longitudes_refuted_proof : exists freq,
  run_Calc_Blocks 15 10 5 45 1 5 [repeat (Zone (-14) 5) 5] (map (fun x => x - 180) Degrees) = Ok freq /\
  forall d, 0 <= d < 5 -> At freq 0 d 200 1 /\ ~ On (Zone (-14) 5) 200.
Proof.
  apply (result_with _ _ (fun f => forallb (fun d => forallb (has_value f 1 0 d) (seq 200 1)) (seq 0 5))); [vm_compute; reflexivity|]. intros f H d D. split; [apply (values_at f 1 0 5 200 1 H); lia|]. rewrite zone_on. vm_compute. discriminate.
Qed.

Lemma C110_empty_refuted_proof : forall crit overlap btime limit ny nd gibl, 2 <= crit -> Proper 360 crit gibl ->
  let run := run_Calc_Blocks crit overlap btime limit ny nd gibl Degrees in
  ((forall g, ~ IsGroup gibl g) -> run = Err IndexError) /\
  ((exists g, IsGroup gibl g) -> (forall g h, IsGroup gibl g -> IsGroup gibl h -> Before g h -> 2 < gday h - gday g) -> run = Err TypeError).
Proof.
  intros crit overlap btime limit ny nd gibl C PR run. assert (P : 0 < 360) by lia. pose proof (all_groups 360 crit gibl P PR) as (SS & AG).
  assert (ER : run = (entries <- consecutive (map (ent 360) (groups_of gibl)) ;; middle <- mapM (fun e => center (mask e)) entries ;; blocks <- track entries overlap btime (map Z.of_nat (seq 0 (length gibl))) [] [] ;; kept <- mapM (travel middle limit) blocks ;; add_all entries (concat (concat kept)) (repeat (repeat (repeat 0 (Z.to_nat 360)) nd) ny))).
  { unfold run, run_Calc_Blocks, blocks_on. change Degrees with (map Z.of_nat (seq 0 (Z.to_nat 360))). rewrite (groups_are 360 crit _ gibl C eq_refl P (all_good 360 crit gibl P PR)). cbn [bind]. rewrite entries_are. reflexivity. }
  rewrite ER. clear ER run. rewrite consecutive_is. split.
  - intros H. destruct (groups_of gibl) as [|g gs]; [reflexivity|]. exfalso. apply (H g). apply AG. left. reflexivity.
  - intros (g0 & G0) H. apply AG in G0. assert (K : kept (groups_of gibl) = []).
    { destruct (groups_of gibl) as [|g gs]; [reflexivity|]. cbn [kept]. assert (Q : forall a b, In a (g :: gs) -> In b (g :: gs) -> Before a b -> 2 < gday b - gday a) by (intros a b A B; apply H; apply AG; assumption). clear H AG G0. generalize 0 as ct. revert g SS Q. induction gs as [|h gs IH]; intros g SS Q ct; [reflexivity|]. cbn [gclose]. apply StronglySorted_inv in SS. destruct SS as [SS F]. rewrite Forall_forall in F.
      replace (2 <? gday h - gday g) with true. 2:{ symmetry. apply Z.ltb_lt. apply Q; [left; reflexivity|right; left; reflexivity|apply F; left; reflexivity]. } apply IH; [exact SS|]. intros a b A B. apply Q; right; assumption. }
    rewrite K. destruct (groups_of gibl); [contradiction|reflexivity].
Qed.

Lemma C110_full_day_proof : forall crit overlap btime limit ny nd gibl y d a, (forall y d a, Row gibl y d a -> length a = 360%nat) ->
  Row gibl y d a -> (forall x, On a x) -> run_Calc_Blocks crit overlap btime limit ny nd gibl Degrees = Err IndexError.
Proof.
  intros crit overlap btime limit ny nd gibl y d a L RW H. unfold run_Calc_Blocks, blocks_on, groups. 
  assert (LR : forall x, In x (days_of gibl) -> length (snd x) = 360%nat) by (intros ((y' & d') & a') I; apply (L y' d' a'); apply days_in; exact I).
  assert (DA : In (y, d, a) (days_of gibl)) by (apply days_in; exact RW). set (ds := days_of gibl) in *. clearbody ds.
  assert (CN : forall x, In x ds -> exists c, count_day 360 (snd x) = Ok c /\ length c = 360%nat). { intros x X. specialize (LR x X). destruct (count_values (snd x)) as (c & E & LC & _); [intros Q; rewrite Q in LR; discriminate LR|]. rewrite LR in E, LC. exists c. split; assumption. }
  destruct (mapM_all (fun yda => count_day 360 (snd yda)) (fun x c => count_day 360 (snd x) = Ok c /\ length c = 360%nat) ds) as (cs & EC & F); [intros x X; destruct (CN x X) as (c & E & LC); exists c; split; [exact E|split; assumption]|].
  rewrite EC. cbn [bind]. change (Z.of_nat (length Degrees)) with 360. rewrite (mapM_index (ends_day 360) cs); [reflexivity| |].
  - intros c IC. apply ends_or; [lia|]. clear - F IC. induction F as [|x c' ds cs (_ & H) F IH]; [contradiction|]. destruct IC as [<-|IC]; [rewrite H; reflexivity|apply IH; exact IC].
  - pose proof (LR _ DA) as LA. cbn [snd] in LA. destruct (full_ends a) as (c & E1 & E2); [rewrite LA; lia|exact H|]. rewrite LA in E1, E2. exists c. split; [|exact E2]. clear - F DA E1. induction F as [|x c' ds cs (H & _) F IH]; [contradiction|]. destruct DA as [->|DA]; [left; cbn [snd] in *; change (Z.of_nat 360) with 360 in E1; congruence|right; apply IH; exact DA].
Qed.

Lemma C110_case_proof : Proper 360 15 [[Clear; Clear]] /\ Proper 360 15 [Moving 20 1] /\
  run_Calc_Blocks 15 10 5 45 1 2 [[Clear; Clear]] Degrees = Err IndexError /\ run_Calc_Blocks 15 10 5 45 1 1 [Moving 20 1] Degrees = Err TypeError /\
  run_Calc_Blocks 15 10 5 45 1 2 [[Zone 0 359; Clear]] Degrees = Err IndexError.
Proof.
  split; [exact (clear_proper 2)|]. split; [exact (moving_proper 20 1)|]. split; [|split]; vm_compute; reflexivity.
Qed.

