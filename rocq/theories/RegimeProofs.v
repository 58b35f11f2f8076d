(** Proofs about weather regimes. *)
From Verif Require Import PyBase ColumnModel BaseSpec BlockModel BlockSpec BlockProofs CblModel CblSpec CblProofs RegimeModel RegimeSpec.
From Coq Require Import Reals Qreals Permutation Lra.
From Coq Require Import List Sorting.Sorted.
Open Scope Z_scope.

(* ---------- lists ---------- *)
Lemma forall2_rev {A B} (P : A -> B -> Prop) l m : Forall2 P l m -> Forall2 P (rev l) (rev m).
Proof. intro F. induction F as [|a b l m H F IH]; [constructor|]. cbn [rev]. apply Forall2_app; [exact IH|]. constructor; [exact H|constructor]. Qed.
Lemma forall2_nth_r {A B} (P : A -> B -> Prop) l m k x : Forall2 P l m -> nth_error l k = Some x -> exists y, nth_error m k = Some y /\ P x y.
Proof. intro F. revert k. induction F as [|a b l m H F IH]; intros [|k] N; try discriminate N; [injection N as <-; exists b; split; [reflexivity|exact H]|exact (IH k N)]. Qed.
Lemma forall2_of_nth {A B} (P : A -> B -> Prop) : forall l m, length l = length m -> (forall k x y, nth_error l k = Some x -> nth_error m k = Some y -> P x y) -> Forall2 P l m.
Proof.
  induction l as [|x l IH]; intros [|y m] L H; try discriminate L; [constructor|]. constructor; [exact (H 0%nat x y eq_refl eq_refl)|]. apply IH; [injection L as L; exact L|]. intros k a b A' B'. exact (H (S k) a b A' B').
Qed.
Lemma same_nth {A} : forall l m : list A, (forall k, nth_error l k = nth_error m k) -> l = m.
Proof. induction l as [|x l IH]; intros [|y m] H; [reflexivity|discriminate (H 0%nat)|discriminate (H 0%nat)|]. pose proof (H 0%nat) as E. injection E as ->. f_equal. apply IH. intro k. exact (H (S k)). Qed.
Lemma rev_nth_error {A} (l : list A) k x : nth_error (rev l) k = Some x -> nth_error l (length l - S k) = Some x.
Proof.
  intro H. assert (k < length l)%nat as L by (rewrite <- rev_length; apply nth_error_Some; congruence). rewrite (nth_error_nth' _ x) in H by (rewrite rev_length; exact L). rewrite rev_nth in H by exact L.
  rewrite (nth_error_nth' _ x) by lia. exact H.
Qed.
Lemma perm_nodup n order : Permutation order (seq 0 n) -> NoDup order.
Proof. intro P. apply (Permutation_NoDup (Permutation_sym P)). apply seq_NoDup. Qed.
Lemma nodup_nth {A} (l : list A) i j x : NoDup l -> nth_error l i = Some x -> nth_error l j = Some x -> i = j.
Proof. intros N I J. apply (proj1 (NoDup_nth_error l) N); [apply nth_error_Some; congruence|congruence]. Qed.
Lemma assign_nth {A B} (test : A -> bool) (v : B) : forall old new d x y, nth_error old d = Some x -> nth_error new d = Some y -> nth_error (assign test v old new) d = Some (if test x then v else y).
Proof. unfold assign. induction old as [|a old IH]; intros [|b new] [|d] x y N M; try discriminate N; try discriminate M; [injection N as ->; injection M as ->; reflexivity|]. exact (IH new d x y N M). Qed.
Lemma assign_length {A B} (test : A -> bool) (v : B) old new : length new = length old -> length (assign test v old new) = length old.
Proof. intro L. unfold assign. rewrite map_length, combine_length. lia. Qed.

(* ---------- order by insertion ---------- *)
Lemma insert_perm l i order : Permutation (sort_insert l i order) (i :: order).
Proof. induction order as [|k t IH]; cbn [sort_insert]; [reflexivity|]. destruct (Qle_bool _ _); [|reflexivity]. rewrite IH. apply perm_swap. Qed.
Lemma insert_sorted l i order : StronglySorted (fun a b => (nth a l 0 <= nth b l 0)%Q) order -> StronglySorted (fun a b => (nth a l 0 <= nth b l 0)%Q) (sort_insert l i order).
Proof.
  induction order as [|k t IH]; intro H; cbn [sort_insert]; [constructor; [constructor|constructor]|]. inversion H as [|? ? HT HK]; subst. destruct (Qle_bool (nth k l 0%Q) (nth i l 0%Q)) eqn:E.
  - constructor; [exact (IH HT)|]. apply Forall_forall. intros x I. apply (Permutation_in _ (insert_perm l i t)) in I. destruct I as [<-|I]; [apply Qle_bool_iff; exact E|]. rewrite Forall_forall in HK. exact (HK x I).
  - assert (nth i l 0 <= nth k l 0)%Q as LE. { destruct (Qlt_le_dec (nth i l 0%Q) (nth k l 0%Q)) as [L|L]; [apply Qlt_le_weak; exact L|]. apply Qle_bool_iff in L. congruence. }
    constructor; [exact H|]. constructor; [exact LE|]. rewrite Forall_forall in HK |- *. intros x I. exact (Qle_trans _ _ _ LE (HK x I)).
Qed.
Lemma sort_fold l : forall todo acc, StronglySorted (fun a b => (nth a l 0 <= nth b l 0)%Q) acc ->
  StronglySorted (fun a b => (nth a l 0 <= nth b l 0)%Q) (fold_left (fun acc i => sort_insert l i acc) todo acc) /\ Permutation (fold_left (fun acc i => sort_insert l i acc) todo acc) (todo ++ acc).
Proof.
  induction todo as [|i todo IH]; intros acc H; cbn [fold_left]; [split; [exact H|reflexivity]|]. destruct (IH (sort_insert l i acc) (insert_sorted l i acc H)) as (S1 & P1). split; [exact S1|]. rewrite P1. rewrite insert_perm. cbn [app]. symmetry. apply Permutation_middle.
Qed.
Lemma sorted_nth {A} (P : A -> A -> Prop) : forall l i j x y, StronglySorted P l -> (i < j)%nat -> nth_error l i = Some x -> nth_error l j = Some y -> P x y.
Proof.
  induction l as [|a l IH]; intros i j x y H L I J; [destruct i; discriminate I|]. inversion H as [|? ? HT HA]; subst. destruct j as [|j]; [lia|]. destruct i as [|i].
  - injection I as <-. rewrite Forall_forall in HA. exact (HA y (nth_error_In l j J)).
  - exact (IH i j x y HT ltac:(lia) I J).
Qed.
Lemma sort_order_sorts l : Sorts l (sort_order l).
Proof.
  unfold sort_order. destruct (sort_fold l (seq 0 (length l)) [] (SSorted_nil _)) as (S1 & P1). rewrite app_nil_r in P1. split; [exact P1|]. intros k1 k2 i1 i2 q1 q2 L N1 N2 Q1 Q2.
  pose proof (sorted_nth _ _ _ _ _ _ S1 L N1 N2) as H. cbv beta in H. rewrite (nth_error_nth _ _ _ Q1), (nth_error_nth _ _ _ Q2) in H. exact H.
Qed.

(* ---------- regimes ---------- *)
Lemma relabel_rule wr ord : (forall l, In l wr -> 0 <= l) -> forall m s wrc, (s + m = length ord)%nat -> length wrc = length wr -> exists out, relabel wr ord (seq s m) wrc = Ok out /\ length out = length wr /\
  forall d l v, nth_error wr d = Some l -> nth_error wrc d = Some v -> exists v', nth_error out d = Some v' /\
    ((exists i, nth_error ord i = Some (Z.to_nat l) /\ v' = inject_Z (Z.of_nat i + 1)) \/ ((forall i, (s <= i)%nat -> nth_error ord i <> Some (Z.to_nat l)) /\ v' = v)).
Proof.
  intro POS. induction m as [|m IH]; intros s wrc LS LW; cbn [seq relabel].
  - exists wrc. split; [reflexivity|]. split; [exact LW|]. intros d l v N M. exists v. split; [exact M|]. right. split; [|reflexivity]. intros i LI E. assert (i < length ord)%nat by (apply nth_error_Some; congruence). lia.
  - destruct (item_there s ord) as (t & ET & NT); [lia|]. rewrite ET. cbn [bind].
    destruct (IH (S s) (assign (fun l => l =? Z.of_nat t) (inject_Z (Z.of_nat s + 1)) wr wrc)) as (out & E & LO & H); [lia|apply assign_length; exact LW|]. exists out. split; [exact E|]. split; [exact LO|].
    intros d l v N M. destruct (H d l _ N (assign_nth _ _ _ _ _ _ _ N M)) as (v' & NV & C). exists v'. split; [exact NV|]. destruct C as [C|(C & ->)]; [left; exact C|]. cbv beta.
    pose proof (POS l (nth_error_In _ _ N)) as PL. destruct (Z.eqb_spec l (Z.of_nat t)) as [->|NE].
    + left. exists s. rewrite Nat2Z.id. split; [exact NT|reflexivity].
    + right. split; [|reflexivity]. intros i LI EI. destruct (Nat.eq_dec i s) as [->|D]; [|exact (C i ltac:(lia) EI)]. rewrite NT in EI. injection EI as ->. lia.
Qed.
Lemma count_marks (labels : list Z) t : length (filter (fun l => l =? t) labels) = list_sum (map (fun l => if l =? t then 1%nat else 0%nat) labels).
Proof. induction labels as [|l labels IH]; [reflexivity|]. cbn [filter map list_sum fold_right]. unfold list_sum in *. destruct (l =? t); cbn [length fold_right]; rewrite IH; reflexivity. Qed.

(* ---------- reordering ---------- *)
Lemma store_rule {A} k (v : A) l : (k < length l)%nat -> exists l', store k v l = Ok l' /\ length l' = length l /\ nth_error l' k = Some (Some v) /\ forall j, j <> k -> nth_error l' j = nth_error l j.
Proof.
  intro L. unfold store. assert (k <? length l = true)%nat as -> by (apply Nat.ltb_lt; exact L). eexists. split; [reflexivity|]. assert (length (firstn k l) = k) as LF by (rewrite firstn_length; lia). split; [|split].
  - rewrite app_length. cbn [length]. rewrite LF, skipn_length. lia.
  - rewrite nth_error_app2 by lia. rewrite LF, Nat.sub_diag. reflexivity.
  - intros j D. rewrite <- (firstn_skipn k l) at 3. destruct (Nat.lt_ge_cases j k) as [C|C]; [rewrite !nth_error_app1 by lia; reflexivity|]. rewrite !nth_error_app2 by lia. rewrite LF.
    assert (skipn k l = nth k l None :: skipn (S k) l) as ->; [|destruct (j - k)%nat as [|e] eqn:EE; [lia|reflexivity]].
    clear - L. revert l L. induction k as [|k IH]; intros [|x l] L; cbn [length] in L; try lia; [reflexivity|]. exact (IH l ltac:(lia)).
Qed.
Lemma item_pos {A} o (l : list A) : 1 <= o <= Z.of_nat (length l) -> exists x, item (o - 1) l = Ok x /\ nth_error l (Z.to_nat (o - 1)) = Some x.
Proof. intro B. destruct (item_there (Z.to_nat (o - 1)) l) as (x & E & N); [lia|]. rewrite Z2Nat.id in E by lia. exists x. split; assumption. Qed.
Section Reorder.
Context {A : Type} (kmeans : list A) (perc wrc : list Q) (order : list Z).
Hypothesis LP : length perc = length kmeans.
Hypothesis LO : (length order <= length kmeans)%nat.
Hypothesis RO : forall o, In o order -> 1 <= o <= Z.of_nat (length kmeans).
Lemma reorder_rule : forall m s knew pnew wnew, (s + m = length order)%nat -> length knew = length kmeans -> length pnew = length perc -> length wnew = length wrc ->
  exists K P W, reorder_loop kmeans perc wrc order (seq s m) (knew, pnew, wnew) = Ok (K, P, W) /\ length K = length kmeans /\ length P = length perc /\ length W = length wrc /\
    (forall w o, (s <= w)%nat -> nth_error order w = Some o -> exists x, nth_error kmeans (Z.to_nat (o - 1)) = Some x /\ nth_error K w = Some (Some x)) /\ (forall w, (w < s)%nat -> nth_error K w = nth_error knew w) /\
    (forall w o, (s <= w)%nat -> nth_error order w = Some o -> exists x, nth_error perc (Z.to_nat (o - 1)) = Some x /\ nth_error P w = Some (Some x)) /\ (forall w, (w < s)%nat -> nth_error P w = nth_error pnew w) /\
    (forall d v old, nth_error wrc d = Some v -> nth_error wnew d = Some old -> exists v', nth_error W d = Some v' /\
      ((exists w o, (s <= w)%nat /\ nth_error order w = Some o /\ (v == inject_Z o)%Q /\ v' = Some (inject_Z (Z.of_nat w + 1)) /\ forall w' o', (w < w')%nat -> nth_error order w' = Some o' -> ~ (v == inject_Z o')%Q) \/
       ((forall w o, (s <= w)%nat -> nth_error order w = Some o -> ~ (v == inject_Z o)%Q) /\ v' = old))).
Proof.
  induction m as [|m IH]; intros s knew pnew wnew LS LK LPN LW; cbn [seq reorder_loop].
  - exists knew, pnew, wnew. assert (forall w o, (s <= w)%nat -> nth_error order w = Some o -> False) as NO. { intros w o L N. assert (w < length order)%nat by (apply nth_error_Some; congruence). lia. }
    split; [reflexivity|]. split; [exact LK|]. split; [exact LPN|]. split; [exact LW|]. split; [intros w o L N; destruct (NO w o L N)|]. split; [reflexivity|]. split; [intros w o L N; destruct (NO w o L N)|]. split; [reflexivity|].
    intros d v old N M. exists old. split; [exact M|]. right. split; [|reflexivity]. intros w o L N'. destruct (NO w o L N').
  - destruct (item_there s order) as (o & EO & NO); [lia|]. rewrite EO. cbn [bind]. pose proof (RO o (nth_error_In _ _ NO)) as BO.
    destruct (item_pos o perc) as (p & EP & NP); [lia|]. rewrite EP. cbn [bind]. destruct (store_rule s p pnew) as (pnew' & EPN & LPN' & SP & OP); [lia|]. rewrite EPN. cbn [bind].
    destruct (item_pos o kmeans) as (k & EK & NK); [lia|]. rewrite EK. cbn [bind]. destruct (store_rule s k knew) as (knew' & EKN & LKN' & SK & OK); [lia|]. rewrite EKN. cbn [bind].
    destruct (IH (S s) knew' pnew' (assign (fun v => Qeq_bool v (inject_Z o)) (Some (inject_Z (Z.of_nat s + 1))) wrc wnew)) as (K & P & W & E & L1 & L2 & L3 & HK & HK' & HP & HP' & HW); [lia|lia|lia|apply assign_length; exact LW|].
    exists K, P, W. split; [exact E|]. split; [exact L1|]. split; [exact L2|]. split; [exact L3|]. split; [|split; [|split; [|split]]].
    + intros w o' L N. destruct (Nat.eq_dec w s) as [->|D]; [|apply HK; [lia|exact N]]. assert (o' = o) as -> by congruence. exists k. split; [exact NK|]. rewrite HK' by lia. exact SK.
    + intros w L. rewrite HK' by lia. apply OK. lia.
    + intros w o' L N. destruct (Nat.eq_dec w s) as [->|D]; [|apply HP; [lia|exact N]]. assert (o' = o) as -> by congruence. exists p. split; [exact NP|]. rewrite HP' by lia. exact SP.
    + intros w L. rewrite HP' by lia. apply OP. lia.
    + intros d v old N M. destruct (HW d v _ N (assign_nth _ _ _ _ _ _ _ N M)) as (v' & NV & C). exists v'. split; [exact NV|]. destruct C as [(w & o' & L & NW & EV & V & LA)|(C & ->)].
      * left. exists w, o'. split; [lia|]. split; [exact NW|]. split; [exact EV|]. split; [exact V|exact LA].
      * cbv beta. destruct (Qeq_bool v (inject_Z o)) eqn:EQ.
        -- left. exists s, o. split; [lia|]. split; [exact NO|]. split; [apply Qeq_bool_iff; exact EQ|]. split; [reflexivity|]. intros w' o' L' N'. apply (C w' o'); [lia|exact N'].
        -- right. split; [|reflexivity]. intros w o' L N'. destruct (Nat.eq_dec w s) as [->|D]; [|apply (C w o'); [lia|exact N']]. assert (o' = o) as -> by congruence. intro EV. apply Qeq_bool_iff in EV. congruence.
Qed.
Lemma reorder_all : exists new, reorder_fcst_regimes kmeans perc wrc (length order) order = Ok new /\ Reordered order kmeans perc wrc new.
Proof.
  unfold reorder_fcst_regimes. destruct (reorder_rule (length order) 0 (map (fun _ => None) kmeans) (map (fun _ => None) perc) (map (fun _ => None) wrc)) as (K & P & W & E & L1 & L2 & L3 & HK & _ & HP & _ & HW); [reflexivity|apply map_length|apply map_length|apply map_length|].
  exists (K, P, W). split; [exact E|]. split; [|split]; cbn [fst snd].
  - split; [exact L1|]. intros w o N. apply HK; [lia|exact N].
  - split; [exact L2|]. intros w o N. apply HP; [lia|exact N].
  - apply forall2_of_nth; [symmetry; exact L3|]. intros d v v' N M. assert (nth_error (map (fun _ : Q => None (A := Q)) wrc) d = Some None) as NN by (rewrite nth_error_map, N; reflexivity).
    destruct (HW d v None N NN) as (v2 & NV & C). assert (v2 = v') as -> by congruence. destruct C as [(w & o & _ & NW & EV & -> & LA)|(C & ->)].
    + exists w, o. split; [exact NW|]. split; [exact EV|]. split; [reflexivity|exact LA].
    + intros o I. apply In_nth_error in I. destruct I as (w & I). apply (C w o); [lia|exact I].
Qed.
End Reorder.
Lemma reorder_errors {A} (kmeans : list A) perc wrc order : forall todo st, (exists new, reorder_loop kmeans perc wrc order todo st = Ok new) \/ reorder_loop kmeans perc wrc order todo st = Err IndexError.
Proof.
  assert (forall B i (l : list B), (exists x, item i l = Ok x) \/ item i l = Err IndexError) as IT. { intros B i l. unfold item. cbv zeta. destruct (_ <? 0); [right; reflexivity|]. destruct (nth_error l _); [left; eexists; reflexivity|right; reflexivity]. }
  assert (forall B k (v : B) l, (exists x, store k v l = Ok x) \/ store k v l = Err IndexError) as ST. { intros B k v l. unfold store. destruct (_ <? _)%nat; [left; eexists; reflexivity|right; reflexivity]. }
  induction todo as [|w todo IH]; intros [[knew pnew] wnew]; cbn [reorder_loop]; [left; eexists; reflexivity|].
  destruct (IT _ (Z.of_nat w) order) as [(o & ->)| -> ]; [|right; reflexivity]. cbn [bind]. destruct (IT _ (o - 1) perc) as [(p & ->)| -> ]; [|right; reflexivity]. cbn [bind]. destruct (ST _ w p pnew) as [(p' & ->)| -> ]; [|right; reflexivity]. cbn [bind].
  destruct (IT _ (o - 1) kmeans) as [(k & ->)| -> ]; [|right; reflexivity]. cbn [bind]. destruct (ST _ w k knew) as [(k' & ->)| -> ]; [|right; reflexivity]. cbn [bind]. apply IH.
Qed.
Lemma reorder_ok {A} (kmeans : list A) perc wrc order : forall todo st new, reorder_loop kmeans perc wrc order todo st = Ok new -> forall w, In w todo -> exists o p, item (Z.of_nat w) order = Ok o /\ item (o - 1) perc = Ok p.
Proof.
  induction todo as [|w todo IH]; intros [[knew pnew] wnew] new H w' I; [destruct I|]. cbn [reorder_loop] in H. destruct (item (Z.of_nat w) order) as [o|] eqn:EO; [|discriminate H]. cbn [bind] in H. destruct (item (o - 1) perc) as [p|] eqn:EP; [|discriminate H]. cbn [bind] in H.
  destruct (store w p pnew) as [p'|]; [|discriminate H]. cbn [bind] in H. destruct (item (o - 1) kmeans) as [k|]; [|discriminate H]. cbn [bind] in H. destruct (store w k knew) as [k'|]; [|discriminate H]. cbn [bind] in H.
  destruct I as [<-|I]; [exists o, p; split; [exact EO|exact EP]|exact (IH _ _ H w' I)].
Qed.
Lemma all_set {A} : forall l : list (option A), (forall w, (w < length l)%nat -> exists x, nth_error l w = Some (Some x)) -> exists xs, l = map Some xs.
Proof.
  induction l as [|c l IH]; intro H; [exists []; reflexivity|]. destruct (H 0%nat ltac:(cbn [length]; lia)) as (x & E). injection E as ->. destruct IH as (xs & ->); [intros w L; exact (H (S w) ltac:(cbn [length]; lia))|]. exists (x :: xs). reflexivity.
Qed.
Lemma perm_length n (order : list Z) : Permutation order (map Z.of_nat (seq 1 n)) -> length order = n.
Proof. intro P. rewrite (Permutation_length P), map_length. apply seq_length. Qed.
Lemma perm_in n (order : list Z) o : Permutation order (map Z.of_nat (seq 1 n)) -> In o order -> 1 <= o <= Z.of_nat n.
Proof. intros P I. apply (Permutation_in _ P) in I. apply in_map_iff in I. destruct I as (k & <- & I). apply in_seq in I. lia. Qed.
Lemma perm_nodup_z n (order : list Z) : Permutation order (map Z.of_nat (seq 1 n)) -> NoDup order.
Proof. intro P. apply (Permutation_NoDup (Permutation_sym P)). apply FinFun.Injective_map_NoDup; [intros a b; lia|apply seq_NoDup]. Qed.
Lemma taken_perm {A} n order (old : list A) new : Permutation order (map Z.of_nat (seq 1 n)) -> length old = n -> Taken order old new -> exists xs, new = map Some xs /\ Permutation xs old /\ Forall2 (fun o x => nth_error old (Z.to_nat (o - 1)) = Some x) order xs.
Proof.
  intros P LO (LN & H). pose proof (perm_length _ _ P) as LOR. destruct (all_set new) as (xs & ->).
  { intros w L. destruct (nth_error order w) as [o|] eqn:E; [|apply nth_error_None in E; lia]. destruct (H w o E) as (x & _ & N). exists x. exact N. }
  rewrite map_length in LN. assert (Forall2 (fun o x => nth_error old (Z.to_nat (o - 1)) = Some x) order xs) as F.
  { apply forall2_of_nth; [lia|]. intros k o x N M. destruct (H k o N) as (x' & N' & M'). rewrite nth_error_map, M in M'. injection M' as ->. exact N'. }
  exists xs. split; [reflexivity|]. split; [|exact F]. destruct (Permutation_Forall2 P F) as (ys & PY & FY). rewrite PY. clear - FY LO.
  assert (ys = old) as ->; [|reflexivity]. apply same_nth. intro k. destruct (nth_error old k) as [x|] eqn:EX.
  - destruct (forall2_nth_r _ _ _ k (Z.of_nat (S k)) FY) as (y & NY & K); [|replace (Z.to_nat (Z.of_nat (S k) - 1)) with k in K by lia; congruence].
    rewrite nth_error_map. assert (k < n)%nat as L by (rewrite <- LO; apply nth_error_Some; congruence). rewrite (nth_error_nth' _ 0%nat) by (rewrite seq_length; exact L). rewrite seq_nth by exact L. reflexivity.
  - apply nth_error_None. apply nth_error_None in EX. rewrite <- (forall2_len _ _ _ FY), map_length, seq_length. lia.
Qed.

(* ---------- correlation ---------- *)
Lemma comoment_spec x y : Comoment x y (comoment x y).
Proof. unfold comoment. eexists. eexists. split; [reflexivity|]. split; [reflexivity|]. reflexivity. Qed.
Lemma comoment_same x y c c' : Comoment x y c -> Comoment x y c' -> (c == c')%Q.
Proof.
  intros (mx & my & X & Y & E) (mx' & my' & X' & Y' & E'). rewrite E, E'. generalize (combine x y) as l. induction l as [|p l IH]; [reflexivity|]. cbn [map qsum fold_right]. unfold qsum in *. cbn [fold_right]. rewrite IH. apply Qplus_comp; [|reflexivity].
  rewrite X, Y, X', Y'. reflexivity.
Qed.
Lemma square_pos m : forall l : list Q, (exists q, In q l /\ ~ (q == m)%Q) -> (0 < plus_all (map (fun p => (fst p - m) * (snd p - m)) (combine l l)))%Q.
Proof.
  assert (forall l : list Q, (0 <= plus_all (map (fun p => (fst p - m) * (snd p - m)) (combine l l)))%Q) as NN.
  { induction l as [|q l IH]; [apply Qle_refl|]. cbn [combine map plus_all fold_right fst snd]. unfold plus_all in IH. apply (Qle_trans _ (0 + 0)); [discriminate|]. apply Qplus_le_compat; [|exact IH]. destruct (q - m)%Q as [n d]. unfold Qle, Qmult. cbn [Qnum Qden]. nia. }
  induction l as [|q l IH]; intros (p & I & D); [destruct I|]. cbn [combine map plus_all fold_right fst snd]. fold (plus_all (map (fun p => ((fst p - m) * (snd p - m))%Q) (combine l l))). destruct I as [->|I].
  - pose proof (NN l) as H. apply (Qle_lt_trans _ (0 + 0)); [discriminate|]. apply Qplus_lt_le_compat; [|exact H]. assert (~ (p - m == 0)%Q) as Z0. { intro Z0. apply D. rewrite <- (Qplus_0_r m), <- Z0. ring. }
    destruct (p - m)%Q as [n d]. unfold Qlt, Qmult, Qeq in *. cbn [Qnum Qden] in *. nia.
  - specialize (IH (ex_intro _ p (conj I D))). rewrite (Qplus_comm ((q - m) * (q - m))). apply (Qle_lt_trans _ (0 + 0)); [discriminate|]. apply Qplus_lt_le_compat; [exact IH|]. destruct (q - m)%Q as [n d]. unfold Qle, Qmult. cbn [Qnum Qden]. nia.
Qed.
Lemma varies_pos x : Varies x -> (0 < comoment x x)%Q.
Proof.
  intros (p & q & IP & IQ & D). unfold comoment. apply square_pos. destruct (Qeq_dec p (plus_all x / inject_Z (Z.of_nat (length x)))) as [E|E]; [|exists p; split; assumption]. exists q. split; [exact IQ|]. intro E'. apply D. rewrite E, E'. reflexivity.
Qed.
Lemma varies_constant x : Varies x -> same_values x = false /\ (2 <= length x)%nat.
Proof.
  intros (p & q & IP & IQ & D). destruct x as [|a t]; [destruct IP|]. cbn [same_values]. destruct (forallb (fun p => Qeq_bool p a) t) eqn:F.
  - exfalso. rewrite forallb_forall in F. assert (forall z, In z (a :: t) -> (z == a)%Q) as G. { intros z [<-|I]; [reflexivity|]. apply Qeq_bool_iff. exact (F z I). } apply D. rewrite (G p IP), (G q IQ). reflexivity.
  - split; [reflexivity|]. destruct t; [discriminate F|cbn [length]; lia].
Qed.
Lemma root_pos c : (0 < c)%Q -> (0 < sqrt (Q2R c))%R.
Proof. intro H. apply sqrt_lt_R0. apply Qlt_Rlt in H. replace (Q2R 0) with 0%R in H by (unfold Q2R; cbn; lra). exact H. Qed.
Lemma pearson_value x y : length x = length y -> Varies x -> Varies y -> exists r, pearsonr x y = Ok (Some r) /\ Correlation x y r.
Proof.
  intros L VX VY. destruct (varies_constant x VX) as (CX & LX). destruct (varies_constant y VY) as (CY & _). unfold pearsonr. rewrite L, Nat.eqb_refl. cbn [negb]. assert (length y <? 2 = false)%nat as -> by (apply Nat.ltb_ge; lia). rewrite CX, CY. cbn [orb].
  eexists. split; [reflexivity|]. split; [exact L|]. exists (comoment x y), (comoment x x), (comoment y y). split; [apply comoment_spec|]. split; [apply comoment_spec|]. split; [apply comoment_spec|]. split; [apply varies_pos; exact VX|]. split; [apply varies_pos; exact VY|].
  pose proof (root_pos _ (varies_pos x VX)). pose proof (root_pos _ (varies_pos y VY)). field. split; lra.
Qed.
Lemma correlation_same x y r r' : Correlation x y r -> Correlation x y r' -> r = r'.
Proof.
  intros (_ & a & b & c & A & B & C & PB & PC & E) (_ & a' & b' & c' & A' & B' & C' & PB' & PC' & E'). rewrite (Qeq_eqR _ _ (comoment_same _ _ _ _ A A')), (Qeq_eqR _ _ (comoment_same _ _ _ _ B B')), (Qeq_eqR _ _ (comoment_same _ _ _ _ C C')) in E.
  pose proof (root_pos _ PB'). pose proof (root_pos _ PC'). rewrite <- E' in E. apply Rmult_eq_reg_r in E; [exact E|]. apply Rmult_integral_contrapositive. split; lra.
Qed.
Lemma correlation_sign x y r : Correlation x y r -> ((0 < comoment x y)%Q -> (0 < r)%R) /\ ((comoment x y < 0)%Q -> (r < 0)%R).
Proof.
  intros (_ & a & b & c & A & B & C & PB & PC & E). rewrite (Qeq_eqR _ _ (comoment_same _ _ _ _ A (comoment_spec x y))) in E. pose proof (root_pos _ PB) as RB. pose proof (root_pos _ PC) as RC. pose proof (Rmult_lt_0_compat _ _ RB RC) as RM.
  assert (Q2R 0 = 0)%R as Z0 by (unfold Q2R; cbn; lra). split; intro H; apply Qlt_Rlt in H; rewrite Z0 in H; rewrite <- E in H; nra.
Qed.
Lemma best_rule obs fcst points w : length obs = length fcst -> (forall x, In x obs \/ In x fcst -> length x = points /\ Varies x) -> (w < length fcst)%nat -> exists o, best_match obs fcst (length fcst) w = Ok o /\ 1 <= o <= Z.of_nat (length fcst) /\ BestMatch obs fcst w o.
Proof.
  intros L H LW. unfold best_match. destruct (item_there w obs) as (x & EX & NX); [lia|]. destruct (H x (or_introl (nth_error_In _ _ NX))) as (LX & VX).
  destruct (mapM_all (fun owr => x <- item (Z.of_nat w) obs ;; y <- item (Z.of_nat owr) fcst ;; pearsonr x y) (fun k c => exists y r, nth_error fcst k = Some y /\ c = Some r /\ Correlation x y r) (seq 0 (length fcst))) as (corr & EC & FC).
  { intros k I. apply in_seq in I. rewrite EX. cbn [bind]. destruct (item_there k fcst) as (y & EY & NY); [lia|]. rewrite EY. cbn [bind]. destruct (H y (or_intror (nth_error_In _ _ NY))) as (LY & VY). destruct (pearson_value x y) as (r & ER & CR); [congruence|exact VX|exact VY|].
    exists (Some r). split; [exact ER|]. exists y, r. split; [exact NY|]. split; [reflexivity|exact CR]. }
  assert (length corr = length fcst) as LC by (rewrite <- (forall2_len _ _ _ FC); apply seq_length).
  assert (forall k c, nth_error corr k = Some c -> exists y r, nth_error fcst k = Some y /\ c = Some r /\ Correlation x y r) as G. { intros k c N. destruct (forall2_nth_l _ _ _ _ _ FC N) as (k' & EK & C). apply seq_nth_inv in EK. destruct EK as (-> & _). exact C. }
  rewrite EC. cbn [bind]. destruct (argmax_rule corr) as (k & b & EK & NK & M).
  - intros ->. cbn [length] in LC. lia.
  - intros c I E. apply In_nth_error in I. destruct I as (k & I). destruct (G k c I) as (y & r & _ & -> & _). discriminate E.
  - rewrite EK. cbn [bind]. exists (Z.of_nat k + 1). split; [reflexivity|]. assert (k < length corr)%nat as LK by (apply nth_error_Some; congruence). split; [lia|]. destruct (G k _ NK) as (y & r & NY & EB & CR). injection EB as ->.
    exists x, y, r. split; [exact NX|]. split; [lia|]. replace (Z.to_nat (Z.of_nat k + 1 - 1)) with k by lia. split; [exact NY|]. split; [exact CR|]. intros k' y' r' N' C'.
    destruct (nth_error corr k') as [c|] eqn:EC'; [|apply nth_error_None in EC'; assert (k' < length fcst)%nat by (apply nth_error_Some; congruence); lia]. destruct (G k' c EC') as (y2 & r2 & N2 & -> & C2). assert (y2 = y') as -> by congruence. rewrite (correlation_same _ _ _ _ C' C2).
    destruct (M k' r2 EC') as (M1 & M2). split; [exact M1|]. intro LT. apply M2. lia.
Qed.
Lemma correlate_rule obs fcst perc labels points : length obs = length fcst -> length perc = length fcst -> (forall x, In x obs \/ In x fcst -> length x = points /\ Varies x) ->
  exists order new, reorder_fcst_regimes_correlate obs fcst perc labels (length fcst) = Ok new /\ length order = length fcst /\ (forall w o, nth_error order w = Some o -> BestMatch obs fcst w o) /\ Reordered order fcst perc labels new.
Proof.
  intros L LP H. unfold reorder_fcst_regimes_correlate.
  destruct (mapM_all (best_match obs fcst (length fcst)) (fun w o => 1 <= o <= Z.of_nat (length fcst) /\ BestMatch obs fcst w o) (seq 0 (length fcst))) as (order & EO & FO).
  { intros w I. apply in_seq in I. destruct (best_rule obs fcst points w L H) as (o & E & B & M); [lia|]. exists o. split; [exact E|]. split; assumption. }
  rewrite EO. cbn [bind]. assert (length order = length fcst) as LO by (rewrite <- (forall2_len _ _ _ FO); apply seq_length).
  assert (forall w o, nth_error order w = Some o -> 1 <= o <= Z.of_nat (length fcst) /\ BestMatch obs fcst w o) as G. { intros w o N. destruct (forall2_nth_l _ _ _ _ _ FO N) as (w' & EW & C). apply seq_nth_inv in EW. destruct EW as (-> & _). exact C. }
  destruct (reorder_all fcst perc labels order LP) as (new & E & RE); [lia|intros o I; apply In_nth_error in I; destruct I as (w & I); exact (proj1 (G w o I))|]. rewrite LO in E. exists order, new. split; [exact E|]. split; [exact LO|]. split; [intros w o N; exact (proj2 (G w o N))|exact RE].
Qed.
Lemma argmax_two a b : (b <= a)%R -> argmax [Some a; Some b] = Ok 0%nat.
Proof. intro H. unfold argmax. cbn [first_nan first_max]. destruct (Rlt_dec a b) as [C|_]; [lra|reflexivity]. Qed.

(* ---------- frequencies ---------- *)
Lemma slice_window {A} (l : list A) a b : 0 <= a <= b -> b <= Z.of_nat (length l) -> exists before window after, l = (before ++ window ++ after)%list /\ Z.of_nat (length before) = a /\ Z.of_nat (length window) = b - a /\ slice a b l = window.
Proof.
  intros AB BL. unfold slice. assert (a <? 0 = false) as -> by (apply Z.ltb_ge; lia). assert (b <? 0 = false) as -> by (apply Z.ltb_ge; lia). cbv zeta. rewrite !Z.min_l by lia.
  exists (firstn (Z.to_nat a) l), (firstn (Z.to_nat (b - a)) (skipn (Z.to_nat a) l)), (skipn (Z.to_nat (b - a)) (skipn (Z.to_nat a) l)). rewrite !firstn_skipn. split; [reflexivity|]. rewrite !firstn_length, skipn_length. split; [lia|]. split; [lia|reflexivity].
Qed.
Lemma count_days label l : Z.of_nat (length (filter (fun v => Qeq_bool v label) l)) = days_with label l.
Proof. induction l as [|v l IH]; [reflexivity|]. cbn [filter days_with]. destruct (Qeq_bool v label); cbn [length]; lia. Qed.
Lemma freq_table wrnum tstep wr n : wr <> [] -> (forall row, In row wr -> length row = n) -> 1 <= wrnum -> 1 <= tstep <= Z.of_nat n ->
  compute_wr_freq wrnum tstep wr = Ok (map (fun w => map (fun days => map (fun d => days_with (inject_Z (Z.of_nat w + 1)) (slice (Z.of_nat d) (tstep + Z.of_nat d) days)) (seq 0 (Z.to_nat (Z.of_nat n - tstep + 1)))) wr) (seq 0 (Z.to_nat wrnum)), Z.of_nat n - tstep + 1, tstep).
Proof.
  intros NE LR W T. unfold compute_wr_freq. destruct wr as [|row wr']; [contradiction|]. pose proof (LR row (or_introl eq_refl)) as LN. destruct row as [|q row']; [cbn [length] in LN; lia|]. rewrite LN.
  assert (Z.of_nat n - tstep + 1 <? 0 = false) as -> by (apply Z.ltb_ge; lia). assert (wrnum <? 0 = false) as -> by (apply Z.ltb_ge; lia). assert (Z.of_nat n - tstep + 1 =? 0 = false) as -> by (apply Z.eqb_neq; lia). assert (wrnum =? 0 = false) as -> by (apply Z.eqb_neq; lia). cbn [orb].
  do 3 f_equal. apply map_ext. intro w. apply map_ext. intro days. apply map_ext. intro d. apply count_days.
Qed.
Lemma one_regime wrnum v : (exists w, 1 <= w <= wrnum /\ (v == inject_Z w)%Q) -> fold_right Z.add 0 (map (fun w => if Qeq_bool v (inject_Z (Z.of_nat w + 1)) then 1 else 0) (seq 0 (Z.to_nat wrnum))) = 1.
Proof.
  intros (w & B & E). assert (forall m s, fold_right Z.add 0 (map (fun i => if Qeq_bool v (inject_Z (Z.of_nat i + 1)) then 1 else 0) (seq s m)) = if (Z.of_nat s <? w) && (w <=? Z.of_nat s + Z.of_nat m) then 1 else 0) as G.
  { induction m as [|m IH]; intro s; cbn [seq map fold_right].
    - destruct (Z.ltb_spec (Z.of_nat s) w), (Z.leb_spec w (Z.of_nat s + Z.of_nat 0)); cbn [andb]; lia.
    - rewrite IH. destruct (Qeq_bool v (inject_Z (Z.of_nat s + 1))) eqn:EQ.
      + apply Qeq_bool_iff in EQ. rewrite E in EQ. apply eq_sym in EQ. unfold Qeq, inject_Z in EQ. cbn [Qnum Qden] in EQ. destruct (Z.ltb_spec (Z.of_nat s) w), (Z.leb_spec w (Z.of_nat s + Z.of_nat (S m))), (Z.ltb_spec (Z.of_nat (S s)) w); cbn [andb]; lia.
      + assert (w <> Z.of_nat s + 1) as D. { intros ->. apply (proj2 (Qeq_bool_iff _ _)) in E. congruence. }
        destruct (Z.ltb_spec (Z.of_nat s) w), (Z.leb_spec w (Z.of_nat s + Z.of_nat (S m))), (Z.ltb_spec (Z.of_nat (S s)) w), (Z.leb_spec w (Z.of_nat (S s) + Z.of_nat m)); cbn [andb]; lia. }
  rewrite G. destruct (Z.ltb_spec (Z.of_nat 0) w), (Z.leb_spec w (Z.of_nat 0 + Z.of_nat (Z.to_nat wrnum))); cbn [andb]; lia.
Qed.
Lemma sum_plus (f g : nat -> Z) l : fold_right Z.add 0 (map (fun w => f w + g w) l) = fold_right Z.add 0 (map f l) + fold_right Z.add 0 (map g l).
Proof. induction l as [|x l IH]; [reflexivity|]. cbn [map fold_right]. lia. Qed.
Lemma all_regimes wrnum l : (forall v, In v l -> exists w, 1 <= w <= wrnum /\ (v == inject_Z w)%Q) -> fold_right Z.add 0 (map (fun w => days_with (inject_Z (Z.of_nat w + 1)) l) (seq 0 (Z.to_nat wrnum))) = Z.of_nat (length l).
Proof.
  induction l as [|v l IH]; intro H; cbn [days_with].
  - generalize (seq 0 (Z.to_nat wrnum)) as m. induction m as [|x m IHm]; [reflexivity|]. cbn [map fold_right]. exact IHm.
  - rewrite (sum_plus (fun w => if Qeq_bool v (inject_Z (Z.of_nat w + 1)) then 1 else 0)). rewrite one_regime by (apply H; left; reflexivity). rewrite IH by (intros x I; apply H; right; exact I). cbn [length]. lia.
Qed.

(* ---------- anomalies ---------- *)
Lemma mapM_index {A B} (f : nat * A -> res B) (P : nat -> A -> B -> Prop) l : (forall i x, nth_error l i = Some x -> exists y, f (i, x) = Ok y /\ P i x y) ->
  exists out, mapM f (combine (seq 0 (length l)) l) = Ok out /\ length out = length l /\ forall i x, nth_error l i = Some x -> exists y, nth_error out i = Some y /\ P i x y.
Proof.
  intro H. destruct (mapM_all f (fun p y => P (fst p) (snd p) y) (combine (seq 0 (length l)) l)) as (out & E & F).
  { intros [i x] I. apply H. exact (combine_in_inv l (i, x) I). }
  exists out. split; [exact E|]. split; [rewrite <- (forall2_len _ _ _ F), combine_length, seq_length; lia|]. intros i x N. destruct (forall2_nth_r _ _ _ _ _ F (seq_combine _ _ _ N)) as (y & NY & K). exists y. split; [exact NY|exact K].
Qed.
Lemma weightf_rows lats nlon : length (weightf (lat1 lats nlon)) = length lats /\ forall i lat, nth_error lats i = Some lat -> nth_error (weightf (lat1 lats nlon)) i = Some (repeat (cos (Q2R lat * PI / 180)) nlon).
Proof. split; [apply map_length|]. intros i lat N. cbn [weightf]. rewrite nth_error_map, N. reflexivity. Qed.
Definition mean_of (vs : list (option Q)) (weight : R) (v : option Q) : option R := match v, nanmean vs with Some q, Some m => Some (Q2R (q - m) * weight)%R | _, _ => None end.
Definition column_of (years : list heights) (d i j : nat) (vs : list (option Q)) : Prop := length vs = length years /\ forall y v, nth_error vs y = Some v -> At years y d i j v.
Lemma column_there ndays nlat nlon (years : list heights) d i j : Grid ndays nlat nlon years -> (d < ndays)%nat -> (i < nlat)%nat -> (j < nlon)%nat ->
  exists vs, mapM (fun days => day <- item (Z.of_nat d) days ;; row <- item (Z.of_nat i) day ;; item (Z.of_nat j) row) years = Ok vs /\ column_of years d i j vs.
Proof.
  intros G LD LI LJ. destruct (mapM_all (fun days => day <- item (Z.of_nat d) days ;; row <- item (Z.of_nat i) day ;; item (Z.of_nat j) row) (fun days v => exists day row, nth_error days d = Some day /\ nth_error day i = Some row /\ nth_error row j = Some v) years) as (vs & E & F).
  { intros days I. destruct (G days I) as (L1 & G1). destruct (item_there d days) as (day & E1 & N1); [lia|]. destruct (G1 day (nth_error_In _ _ N1)) as (L2 & G2). destruct (item_there i day) as (row & E2 & N2); [lia|]. destruct (item_there j row) as (v & E3 & N3); [rewrite (G2 row (nth_error_In _ _ N2)); exact LJ|].
    exists v. rewrite E1. cbn [bind]. rewrite E2. cbn [bind]. split; [exact E3|]. exists day, row. split; [exact N1|]. split; [exact N2|exact N3]. }
  exists vs. split; [exact E|]. split; [symmetry; exact (forall2_len _ _ _ F)|]. intros y v N. destruct (forall2_nth_l _ _ _ _ _ F N) as (days & ND & day & row & N1 & N2 & N3). exists days, day, row. split; [exact ND|]. split; [exact N1|]. split; [exact N2|exact N3].
Qed.
Lemma at_same {A} (data : list (list (list (list A)))) y d i j x x' : At data y d i j x -> At data y d i j x' -> x = x'.
Proof. intros (days & day & row & A1 & A2 & A3 & A4) (days' & day' & row' & B1 & B2 & B3 & B4). congruence. Qed.
Lemma column_same years d i j vs vs' : column_of years d i j vs -> column_of years d i j vs' -> vs = vs'.
Proof.
  intros (L & H) (L' & H'). apply same_nth. intro y. destruct (nth_error vs y) as [v|] eqn:E.
  - destruct (nth_error vs' y) as [v'|] eqn:E'; [|apply nth_error_None in E'; assert (y < length vs)%nat by (apply nth_error_Some; congruence); lia]. rewrite (at_same _ _ _ _ _ _ _ (H y v E) (H' y v' E')). reflexivity.
  - apply nth_error_None in E. symmetry. apply nth_error_None. lia.
Qed.
Definition loops (ws : list (list R)) (years : list heights) : res (list (list (list (list (option R))))) :=
  mapM (fun days => mapM (fun dd => mapM (fun ir => mapM (fun jw =>
             v <- item (Z.of_nat (fst jw)) (snd (snd ir)) ;; anomaly years (fst dd) (fst ir) (fst jw) (snd jw) v)
             (combine (seq 0 (length (fst (snd ir)))) (fst (snd ir)))) (combine (seq 0 (length ws)) (combine ws (snd dd))))
             (combine (seq 0 (length days)) days)) years.
Lemma combine_both {A B} : forall (l : list A) (m : list B) i p, nth_error (combine l m) i = Some p -> nth_error l i = Some (fst p) /\ nth_error m i = Some (snd p).
Proof. induction l as [|a l IH]; intros [|b m] [|i] p N; try discriminate N; [injection N as <-; split; reflexivity|exact (IH m i p N)]. Qed.
Lemma combine_pair {A B} : forall (l : list A) (m : list B) i x y, nth_error l i = Some x -> nth_error m i = Some y -> nth_error (combine l m) i = Some (x, y).
Proof. induction l as [|a l IH]; intros [|b m] [|i] x y N M; try discriminate N; try discriminate M; [injection N as ->; injection M as ->; reflexivity|exact (IH m i x y N M)]. Qed.
Lemma loops_rule ws ndays nlat nlon years : length ws = nlat -> (forall row, In row ws -> length row = nlon) -> Grid ndays nlat nlon years -> exists a, loops ws years = Ok a /\ length a = length years /\ Grid ndays nlat nlon a /\
  forall y d i j v line w, At years y d i j v -> nth_error ws i = Some line -> nth_error line j = Some w -> exists vs, column_of years d i j vs /\ At a y d i j (mean_of vs w v).
Proof.
  intros LW RW G. unfold loops.
  destruct (mapM_all (fun days => mapM (fun dd => mapM (fun ir => mapM (fun jw =>
             v <- item (Z.of_nat (fst jw)) (snd (snd ir)) ;; anomaly years (fst dd) (fst ir) (fst jw) (snd jw) v)
             (combine (seq 0 (length (fst (snd ir)))) (fst (snd ir)))) (combine (seq 0 (length ws)) (combine ws (snd dd))))
             (combine (seq 0 (length days)) days))
    (fun days out => length out = length days /\ forall d day, nth_error days d = Some day -> exists out1, nth_error out d = Some out1 /\ length out1 = nlat /\ forall i row line, nth_error day i = Some row -> nth_error ws i = Some line -> exists out2, nth_error out1 i = Some out2 /\ length out2 = nlon /\
      forall j v w, nth_error row j = Some v -> nth_error line j = Some w -> exists vs, column_of years d i j vs /\ nth_error out2 j = Some (mean_of vs w v)) years) as (a & E & F).
  { intros days ID. destruct (G days ID) as (LD & GD). apply (mapM_index _ (fun d day out1 => length out1 = nlat /\ forall i row line, nth_error day i = Some row -> nth_error ws i = Some line -> exists out2, nth_error out1 i = Some out2 /\ length out2 = nlon /\
      forall j v w, nth_error row j = Some v -> nth_error line j = Some w -> exists vs, column_of years d i j vs /\ nth_error out2 j = Some (mean_of vs w v))).
    intros d day ND. destruct (GD day (nth_error_In _ _ ND)) as (LDA & GR). cbn [fst snd].
    assert (length ws = length (combine ws day)) as LCO by (rewrite combine_length; lia). rewrite LCO.
    destruct (mapM_index (fun ir => mapM (fun jw => v <- item (Z.of_nat (fst jw)) (snd (snd ir)) ;; anomaly years d (fst ir) (fst jw) (snd jw) v) (combine (seq 0 (length (fst (snd ir)))) (fst (snd ir))))
      (fun i p out2 => length out2 = nlon /\ forall j v w, nth_error (snd p) j = Some v -> nth_error (fst p) j = Some w -> exists vs, column_of years d i j vs /\ nth_error out2 j = Some (mean_of vs w v)) (combine ws day)) as (out1 & E1 & L1 & H1).
    { intros i [line row] NI. apply combine_both in NI. cbn [fst snd] in NI |- *. destruct NI as (NW & NR). pose proof (RW line (nth_error_In _ _ NW)) as LL. pose proof (GR row (nth_error_In _ _ NR)) as LR.
      destruct (mapM_index (fun jw => v <- item (Z.of_nat (fst jw)) row ;; anomaly years d i (fst jw) (snd jw) v) (fun j w c => forall v, nth_error row j = Some v -> exists vs, column_of years d i j vs /\ c = mean_of vs w v) line) as (out2 & E2 & L2 & H2).
      { intros j w NJ. cbn [fst snd]. assert (j < nlon)%nat as LJ by (rewrite <- LL; apply nth_error_Some; congruence). destruct (item_there j row) as (v & EV & NV); [lia|]. rewrite EV. cbn [bind]. unfold anomaly.
        destruct (column_there ndays nlat nlon years d i j G) as (vs & EVS & CO); [rewrite <- LD; apply nth_error_Some; congruence|rewrite <- LDA; apply nth_error_Some; congruence|exact LJ|]. rewrite EVS. cbn [bind]. eexists. split; [reflexivity|]. intros v' NV'. assert (v' = v) as -> by congruence. exists vs. split; [exact CO|reflexivity]. }
      exists out2. split; [exact E2|]. split; [lia|]. intros j v w NV NJ. destruct (H2 j w NJ) as (c & NC & K). destruct (K v NV) as (vs & CO & ->). exists vs. split; [exact CO|exact NC]. }
    exists out1. split; [exact E1|]. split; [lia|]. intros i row line NR NW. destruct (H1 i (line, row) (combine_pair _ _ _ _ _ NW NR)) as (out2 & N2 & L2 & K). exists out2. split; [exact N2|]. split; [exact L2|exact K]. }
  exists a. split; [exact E|]. split; [symmetry; exact (forall2_len _ _ _ F)|]. split.
  - intros outd I. apply In_nth_error in I. destruct I as (y & I). destruct (forall2_nth_l _ _ _ _ _ F I) as (days & ND & L & H). destruct (G days (nth_error_In _ _ ND)) as (LD & GD). split; [lia|].
    intros out1 I1. apply In_nth_error in I1. destruct I1 as (d & I1). destruct (nth_error days d) as [day|] eqn:EDAY; [|apply nth_error_None in EDAY; assert (d < length outd)%nat by (apply nth_error_Some; congruence); lia].
    destruct (H d day EDAY) as (out1' & N1 & L1 & H1). assert (out1' = out1) as -> by congruence. split; [exact L1|]. intros out2 I2. apply In_nth_error in I2. destruct I2 as (i & I2). destruct (GD day (nth_error_In _ _ EDAY)) as (LDA & _).
    assert (i < nlat)%nat as LI by (rewrite <- L1; apply nth_error_Some; congruence). destruct (nth_error day i) as [row|] eqn:ER; [|apply nth_error_None in ER; lia]. destruct (nth_error ws i) as [line|] eqn:EL; [|apply nth_error_None in EL; lia]. destruct (H1 i row line ER EL) as (out2' & N2 & L2 & _). assert (out2' = out2) as -> by congruence. exact L2.
  - intros y d i j v line w (days & day & row & N0 & N1 & N2 & N3) NW NL. destruct (forall2_nth_r _ _ _ _ _ F N0) as (outd & M0 & L & H). destruct (H d day N1) as (out1 & M1 & L1 & H1). destruct (H1 i row line N2 NW) as (out2 & M2 & L2 & H2). destruct (H2 j v w N3 NL) as (vs & CO & M3).
    exists vs. split; [exact CO|]. exists outd, out1, out2. split; [exact M0|]. split; [exact M1|]. split; [exact M2|exact M3].
Qed.
Lemma nth_concat {A} n : forall (l : list (list A)) k row j x, (forall r, In r l -> length r = n) -> nth_error l k = Some row -> nth_error row j = Some x -> nth_error (concat l) (k * n + j) = Some x.
Proof.
  induction l as [|r l IH]; intros [|k] row j x H N M; try discriminate N.
  - injection N as ->. cbn [concat]. rewrite nth_error_app1; [exact M|]. cbn [Nat.mul Nat.add]. apply nth_error_Some. congruence.
  - cbn [concat]. pose proof (H r (or_introl eq_refl)) as L. rewrite nth_error_app2 by (rewrite L; lia). rewrite L. replace (S k * n + j - n)%nat with (k * n + j)%nat by lia. apply (IH k row j x); [intros r' I; apply H; right; exact I|exact N|exact M].
Qed.
Lemma length_concat {A} n : forall l : list (list A), (forall r, In r l -> length r = n) -> length (concat l) = (length l * n)%nat.
Proof. induction l as [|r l IH]; intro H; [reflexivity|]. cbn [concat length]. rewrite app_length, (H r (or_introl eq_refl)), IH by (intros r' I; apply H; right; exact I). lia. Qed.
Lemma flat_concat {A B} (f : A -> list B) l : flat_map f l = concat (map f l).
Proof. induction l as [|x l IH]; [reflexivity|]. cbn [flat_map map concat]. rewrite IH. reflexivity. Qed.
Lemma weights_unfold l years n : years <> [] -> weightf l <> [] -> (0 < n)%nat -> (forall row, In row (weightf l) -> length row = n) ->
  weights_detrend l years = (a <- loops (weightf l) years ;; if (length (concat years) =? 0)%nat || (length (concat (weightf l)) =? columns_wanted l)%nat then Ok (a, flat_map (map (@concat _)) a) else Err ValueError).
Proof.
  intros NY NW P R. unfold weights_detrend, loops. destruct years as [|y ys]; [contradiction|]. destruct (weightf l) as [|[|w0 line] ws]; [contradiction| |reflexivity]. pose proof (R [] (or_introl eq_refl)) as C0. cbn [length] in C0. lia.
Qed.
Lemma weights_lat1 lats nlon ndays years : lats <> [] -> (0 < nlon)%nat -> years <> [] -> Grid ndays (length lats) nlon years -> exists a, weights_detrend (lat1 lats nlon) years = Ok (a, flat_map (map (@concat _)) a) /\ length a = length years /\ Grid ndays (length lats) nlon a /\
  forall y d i j v lat, At years y d i j v -> nth_error lats i = Some lat -> exists vs, column_of years d i j vs /\ At a y d i j (mean_of vs (cos (Q2R lat * PI / 180)) v).
Proof.
  intros NL PN NY G. destruct (weightf_rows lats nlon) as (LW & HW). assert (forall row, In row (weightf (lat1 lats nlon)) -> length row = nlon) as RW. { cbn [weightf]. intros row I. apply in_map_iff in I. destruct I as (q & <- & _). apply repeat_length. }
  destruct (loops_rule (weightf (lat1 lats nlon)) ndays (length lats) nlon years LW RW G) as (a & E & LA & GA & H). exists a. split; [|split; [exact LA|split; [exact GA|]]].
  - rewrite (weights_unfold _ _ nlon NY); [|intro C; rewrite C in LW; destruct lats; [contradiction|discriminate LW]|exact PN|exact RW]. rewrite E.
    assert (length (concat (weightf (lat1 lats nlon))) = columns_wanted (lat1 lats nlon)) as EC. { rewrite (length_concat nlon) by exact RW. rewrite LW. cbn [columns_wanted]. lia. }
    cbn [bind]. rewrite EC, Nat.eqb_refl, orb_true_r. reflexivity.
  - intros y d i j v lat AT N. destruct AT as (days & day & row & N0 & N1 & N2 & N3). assert (j < nlon)%nat as LJ. { destruct (G days (nth_error_In _ _ N0)) as (_ & G1). destruct (G1 day (nth_error_In _ _ N1)) as (_ & G2). rewrite <- (G2 row (nth_error_In _ _ N2)). apply nth_error_Some. congruence. }
    apply (H y d i j v (repeat (cos (Q2R lat * PI / 180)) nlon)); [exists days, day, row; split; [exact N0|]; split; [exact N1|]; split; [exact N2|exact N3]|apply HW; exact N|apply CblProofs.nth_repeat; exact LJ].
Qed.
Lemma mean_of_value years y d i j vs w v : column_of years d i j vs -> At years y d i j v -> match v with Some q => exists r, mean_of vs w v = Some r /\ AnomalyOf years d i j w q r | None => mean_of vs w v = None end.
Proof.
  intros (L & H) AT. destruct v as [q|]; [|reflexivity]. unfold mean_of, nanmean. assert (In (Some q) vs) as I.
  { destruct (nth_error vs y) as [v|] eqn:E; [rewrite (at_same _ _ _ _ _ _ _ AT (H y v E)); exact (nth_error_In _ _ E)|]. exfalso. apply nth_error_None in E. destruct AT as (days & day & row & N0 & _). assert (y < length years)%nat by (apply nth_error_Some; intro C0; change (nth_error years y = None) in C0; assert (Some days = None) as C1 by (rewrite <- N0; exact C0); discriminate C1). lia. }
  assert (In q (some_numbers vs)) as IN by (apply in_flat_map; exists (Some q); split; [exact I|left; reflexivity]). destruct (some_numbers vs) as [|q0 qs] eqn:EQ; [destruct IN|]. eexists. split; [reflexivity|]. exists vs, (q0 :: qs). eexists. split; [exact L|]. split; [exact H|]. split; [rewrite <- EQ; apply present_some_numbers|]. split; [|reflexivity]. reflexivity.
Qed.

(** The statements of PropertiesRegime.v. *)
Lemma C68_regimes_proof : forall (A : Type) argsort wrnum labels (centers : list A),
  (forall l, Sorts l (argsort l)) -> labels <> [] -> (forall l, In l labels -> 0 <= l < Z.of_nat wrnum) -> length centers = wrnum ->
  exists patterns perc wrc order, run_K_means argsort wrnum labels centers = Ok (patterns, perc, wrc) /\
    Permutation order (seq 0 wrnum) /\
    Forall2 (fun i c => nth_error centers i = Some c) order patterns /\
    Forall2 (fun l v => exists k, nth_error order k = Some (Z.to_nat l) /\ v = inject_Z (Z.of_nat k + 1)) labels wrc /\
    length perc = wrnum /\
    (forall k q, nth_error perc k = Some q -> Share wrc (inject_Z (Z.of_nat k + 1)) q) /\
    (forall k1 k2 q1 q2, (k1 < k2)%nat -> nth_error perc k1 = Some q1 -> nth_error perc k2 = Some q2 -> (q2 <= q1)%Q).
Proof.
  intros A argsort wrnum labels centers SO NE RL LC. unfold run_K_means. destruct labels as [|l0 ls] eqn:EL; [contradiction|]. rewrite <- EL in *. clear EL NE l0 ls.
  set (perc0 := map (fun i => get_cluster_fraction labels (Z.of_nat i)) (seq 0 wrnum)). assert (length perc0 = wrnum) as LP by (unfold perc0; rewrite map_length; apply seq_length).
  assert (forall i q, nth_error perc0 i = Some q -> q = get_cluster_fraction labels (Z.of_nat i)) as VP. { unfold perc0. intros i q N. rewrite nth_error_map in N. destruct (nth_error (seq 0 wrnum) i) as [i'|] eqn:EI; [|discriminate N]. injection N as <-. apply seq_nth_inv in EI. destruct EI as (-> & _). reflexivity. }
  destruct (SO perc0) as (PE & SR). rewrite LP in PE. cbv zeta. clearbody perc0. set (ii := argsort perc0) in *. clearbody ii.
  assert (forall i, In i ii -> (i < wrnum)%nat) as RI. { intros i I. apply (Permutation_in _ PE) in I. apply in_seq in I. lia. }
  destruct (mapM_all (fun i => item (Z.of_nat i) perc0) (fun i q => nth_error perc0 i = Some q) ii) as (perc & EP & FP). { intros i I. apply RI in I. apply item_there. lia. }
  destruct (mapM_all (fun i => item (Z.of_nat i) centers) (fun i c => nth_error centers i = Some c) ii) as (input & EI & FI). { intros i I. apply RI in I. apply item_there. lia. }
  assert (Permutation (rev ii) (seq 0 wrnum)) as PR by (rewrite <- PE; symmetry; apply Permutation_rev). pose proof (perm_nodup _ _ PR) as ND.
  assert (length (rev ii) = wrnum) as LR by (rewrite (Permutation_length PR); apply seq_length).
  destruct (relabel_rule labels (rev ii) (fun l I => proj1 (RL l I)) wrnum 0 (map inject_Z labels)) as (wrc & EW & LW & HW); [rewrite LR; reflexivity|apply map_length|].
  rewrite EP. cbn [bind]. rewrite EI. cbn [bind]. rewrite EW. cbn [bind]. exists (rev input), (rev perc), wrc, (rev ii). split; [reflexivity|]. split; [exact PR|]. split; [apply forall2_rev; exact FI|].
  assert (Forall2 (fun l v => exists k, nth_error (rev ii) k = Some (Z.to_nat l) /\ v = inject_Z (Z.of_nat k + 1)) labels wrc) as FW.
  { apply forall2_of_nth; [symmetry; exact LW|]. intros d l v N M. assert (nth_error (map inject_Z labels) d = Some (inject_Z l)) as NM by (rewrite nth_error_map, N; reflexivity). destruct (HW d l _ N NM) as (v' & NV & C). assert (v' = v) as -> by congruence.
    destruct C as [C|(C & _)]; [exact C|]. exfalso. pose proof (RL l (nth_error_In _ _ N)) as B. assert (In (Z.to_nat l) (rev ii)) as I by (apply (Permutation_in _ (Permutation_sym PR)); apply in_seq; lia). apply In_nth_error in I. destruct I as (k & I). exact (C k ltac:(lia) I). }
  split; [exact FW|]. split; [rewrite rev_length, <- (forall2_len _ _ _ FP), <- rev_length; exact LR|]. pose proof (forall2_rev _ _ _ FP) as FPR. split.
  - intros k q N. destruct (forall2_nth_l _ _ _ _ _ FPR N) as (t & NT & NQ). cbv beta in NQ. rewrite (VP _ _ NQ). exists (map (fun l => if l =? Z.of_nat t then 1%nat else 0%nat) labels). split.
    + clear - FW NT ND RL. assert (forall l, In l labels -> 0 <= l) as POS by (intros l I; exact (proj1 (RL l I))). clear RL. induction FW as [|l v labels wrc (i & NI & ->) F IH]; cbn [map]; constructor; [|apply IH; intros x I; apply POS; right; exact I].
      pose proof (POS l (or_introl eq_refl)) as PL. destruct (Z.eqb_spec l (Z.of_nat t)) as [->|D].
      * left. rewrite Nat2Z.id in NI. rewrite (nodup_nth _ _ _ _ ND NI NT). split; reflexivity.
      * right. split; [|reflexivity]. intro E. unfold Qeq, inject_Z in E. cbn [Qnum Qden] in E. assert (i = k) as -> by lia. rewrite NI in NT. injection NT as <-. lia.
    + unfold get_cluster_fraction. rewrite count_marks, <- (forall2_len _ _ _ FW). destruct labels as [|l ls]; [cbn; reflexivity|]. field. intro E. unfold Qeq, inject_Z in E. cbn [Qnum Qden length] in E. lia.
  - intros k1 k2 q1 q2 L N1 N2. assert (k2 < length perc)%nat as L2 by (rewrite <- rev_length; apply nth_error_Some; congruence). apply rev_nth_error in N1. apply rev_nth_error in N2.
    destruct (forall2_nth_l _ _ _ _ _ FP N1) as (i1 & I1 & Q1). destruct (forall2_nth_l _ _ _ _ _ FP N2) as (i2 & I2 & Q2). assert (length perc - S k2 < length perc - S k1)%nat as LL by lia. exact (SR _ _ _ _ _ _ LL I2 I1 Q2 Q1).
Qed.

Lemma C68_regimes_case_proof : (forall l, Sorts l (sort_order l)) /\
  run_K_means sort_order 3 [2; 0; 2; 1; 2; 0] ["a"; "b"; "c"]%string = Ok (["c"; "a"; "b"]%string, [(3#6)%Q; (2#6)%Q; (1#6)%Q], [1%Q; 2%Q; 1%Q; 3%Q; 1%Q; 2%Q]).
Proof.
  split; [exact sort_order_sorts|]. vm_compute. reflexivity.
Qed.

Lemma C69_order_proof : forall (A : Type) (patterns : list A) perc labels order,
  length perc = length patterns -> (length order <= length patterns)%nat -> (forall o, In o order -> 1 <= o <= Z.of_nat (length patterns)) ->
  exists new, reorder_fcst_regimes patterns perc labels (length order) order = Ok new /\ Reordered order patterns perc labels new.
Proof.
  intros A patterns perc labels order LP LO RO. exact (reorder_all patterns perc labels order LP LO RO).
Qed.

Lemma C69_order_case_proof :
  reorder_fcst_regimes ["a"; "b"; "c"]%string [(1#2)%Q; (1#4)%Q; (1#4)%Q] [1%Q; 2%Q; 1%Q; 3%Q] 3 [3; 1; 2] =
    Ok ([Some "c"; Some "a"; Some "b"]%string, [Some (1#4)%Q; Some (1#2)%Q; Some (1#4)%Q], [Some 2%Q; Some 3%Q; Some 2%Q; Some 1%Q]).
Proof.
  vm_compute. reflexivity.
Qed.

Lemma C69_shares_proof : forall (A : Type) (patterns : list A) perc labels order, Permutation order (map Z.of_nat (seq 1 (length patterns))) ->
  length perc = length patterns -> (forall v, In v labels -> exists o, In o order /\ (v == inject_Z o)%Q) ->
  (forall k q, nth_error perc k = Some q -> Share labels (inject_Z (Z.of_nat k + 1)) q) ->
  exists patterns' perc' labels', reorder_fcst_regimes patterns perc labels (length order) order = Ok (map Some patterns', map Some perc', map Some labels') /\
    Permutation patterns' patterns /\ Permutation perc' perc /\ length labels' = length labels /\
    (forall k q, nth_error perc' k = Some q -> Share labels' (inject_Z (Z.of_nat k + 1)) q).
Proof.
  intros A patterns perc labels order PE LP RL SH. pose proof (perm_length _ _ PE) as LO. destruct (reorder_all patterns perc labels order LP) as ([[K P] W] & E & TK & TP & TW); [lia|intros o I; exact (perm_in _ _ _ PE I)|]. cbn [fst snd] in *.
  destruct (taken_perm _ _ _ _ PE eq_refl TK) as (ks & -> & PK & _). destruct (taken_perm _ _ _ _ PE LP TP) as (ps & -> & PP & FP). pose proof (perm_nodup_z _ _ PE) as ND.
  destruct (all_set W) as (ws & ->).
  { intros d L. rewrite <- (forall2_len _ _ _ TW) in L. destruct (nth_error labels d) as [v|] eqn:EV; [|apply nth_error_None in EV; lia]. destruct (forall2_nth_r _ _ _ _ _ TW EV) as (v' & NV & LB). destruct v' as [q|]; [exists q; exact NV|]. exfalso. destruct (RL v (nth_error_In _ _ EV)) as (o & I & Q). exact (LB o I Q). }
  exists ks, ps, ws. split; [exact E|]. split; [exact PK|]. split; [exact PP|]. split; [rewrite (forall2_len _ _ _ TW), map_length; reflexivity|].
  intros k q N. destruct (forall2_nth_l _ _ _ _ _ FP N) as (o & NO & NQ). pose proof (perm_in _ _ _ PE (nth_error_In _ _ NO)) as BO. destruct (SH _ _ NQ) as (marks & FM & EM). replace (Z.of_nat (Z.to_nat (o - 1)) + 1) with o in FM by lia.
  assert (length labels = length ws) as LW by (rewrite (forall2_len _ _ _ TW), map_length; reflexivity). exists marks. split; [|rewrite <- LW; exact EM].
  apply forall2_of_nth; [rewrite <- LW; exact (forall2_len _ _ _ FM)|]. intros d v m NV NM. destruct (nth_error labels d) as [u|] eqn:EU; [|apply nth_error_None in EU; assert (d < length ws)%nat by (apply nth_error_Some; congruence); lia].
  pose proof (forall2_nth _ _ _ _ _ _ FM EU NM) as MK. assert (nth_error (map Some ws) d = Some (Some v)) as NS by (rewrite nth_error_map, NV; reflexivity). destruct (forall2_nth _ _ _ _ _ _ TW EU NS) as (w & o2 & NW & EO & -> & _).
  assert ((u == inject_Z o)%Q <-> (inject_Z (Z.of_nat w + 1) == inject_Z (Z.of_nat k + 1))%Q) as EQ.
  { split; intro H.
    - rewrite EO in H. unfold Qeq, inject_Z in H. cbn [Qnum Qden] in H. assert (o2 = o) as -> by lia. rewrite (nodup_nth _ _ _ _ ND NW NO). reflexivity.
    - unfold Qeq, inject_Z in H. cbn [Qnum Qden] in H. assert (w = k) as -> by lia. assert (o2 = o) as -> by congruence. exact EO. }
  destruct MK as [(X1 & X2)|(X1 & X2)]; [left; split; [apply EQ; exact X1|exact X2]|right; split; [intro Y; apply X1; apply EQ; exact Y|exact X2]].
Qed.

Lemma C69_correlate_proof : forall obs fcst perc labels points, length obs = length fcst -> length perc = length fcst ->
  (forall x, In x obs \/ In x fcst -> length x = points /\ Varies x) ->
  exists order new, reorder_fcst_regimes_correlate obs fcst perc labels (length fcst) = Ok new /\ length order = length fcst /\
    (forall w o, nth_error order w = Some o -> BestMatch obs fcst w o) /\ Reordered order fcst perc labels new.
Proof.
  exact correlate_rule.
Qed.

Lemma C69_unmatched_refuted_proof : forall obs fcst perc labels points new d l, length obs = length fcst -> length perc = length fcst ->
  (forall x, In x obs \/ In x fcst -> length x = points /\ Varies x) ->
  reorder_fcst_regimes_correlate obs fcst perc labels (length fcst) = Ok new ->
  nth_error labels d = Some (inject_Z l) -> (forall w, ~ BestMatch obs fcst w l) -> nth_error (snd new) d = Some None.
Proof.
  intros obs fcst perc labels points new d l L LP H E N NB. destruct (correlate_rule obs fcst perc labels points L LP H) as (order & new' & E' & _ & BM & (_ & _ & F)). rewrite E in E'. injection E' as <-.
  destruct (forall2_nth_r _ _ _ _ _ F N) as (v' & NV & LB). rewrite NV. destruct v' as [q|]; [|reflexivity]. exfalso. destruct LB as (w & o & NO & EO & _). unfold Qeq, inject_Z in EO. cbn [Qnum Qden] in EO. assert (l = o) as -> by lia. exact (NB w (BM w o NO)).
Qed.

Lemma C69_unmatched_case_proof : reorder_fcst_regimes_correlate [[1%Q; 2%Q; 3%Q]; [1%Q; 2%Q; 4%Q]] [[1%Q; 2%Q; 5%Q]; [(-1)%Q; (-2)%Q; (-5)%Q]] [(3#4)%Q; (1#4)%Q] [1%Q; 2%Q; 1%Q; 1%Q] 2 =
  Ok ([Some [1%Q; 2%Q; 5%Q]; Some [1%Q; 2%Q; 5%Q]], [Some (3#4)%Q; Some (3#4)%Q], [Some 2%Q; None; Some 2%Q; Some 2%Q]).
Proof.
  assert (forall x, In x [[1%Q; 2%Q; 3%Q]; [1%Q; 2%Q; 4%Q]] -> best_match [[1%Q; 2%Q; 3%Q]; [1%Q; 2%Q; 4%Q]] [[1%Q; 2%Q; 5%Q]; [(-1)%Q; (-2)%Q; (-5)%Q]] 2 (if Qeq_bool (nth 2 x 0%Q) 3 then 0 else 1) = Ok 1) as B.
  { assert (Varies [1%Q; 2%Q; 5%Q] /\ Varies [(-1)%Q; (-2)%Q; (-5)%Q]) as (V1 & V2) by (split; [exists 1%Q, 2%Q|exists (-1)%Q, (-2)%Q]; (split; [left; reflexivity|]; split; [right; left; reflexivity|discriminate])).
    intros x I. assert (Varies x /\ length x = 3%nat) as (VX & LX) by (destruct I as [<-|[<-|[]]]; (split; [exists 1%Q, 2%Q; split; [left; reflexivity|]; split; [right; left; reflexivity|discriminate]|reflexivity])).
    destruct (pearson_value x [1%Q; 2%Q; 5%Q]) as (r1 & E1 & C1); [rewrite LX; reflexivity|exact VX|exact V1|]. destruct (pearson_value x [(-1)%Q; (-2)%Q; (-5)%Q]) as (r2 & E2 & C2); [rewrite LX; reflexivity|exact VX|exact V2|].
    assert (r2 <= r1)%R as LE. { apply correlation_sign in C1. apply correlation_sign in C2. destruct C1 as (C1 & _). destruct C2 as (_ & C2). assert (0 < r1)%R by (apply C1; destruct I as [<-|[<-|[]]]; reflexivity). assert (r2 < 0)%R by (apply C2; destruct I as [<-|[<-|[]]]; reflexivity). lra. }
    unfold best_match. cbn [seq mapM]. change (item (Z.of_nat 0) [[1%Q; 2%Q; 5%Q]; [(-1)%Q; (-2)%Q; (-5)%Q]]) with (Ok [1%Q; 2%Q; 5%Q]). change (item (Z.of_nat 1) [[1%Q; 2%Q; 5%Q]; [(-1)%Q; (-2)%Q; (-5)%Q]]) with (Ok [(-1)%Q; (-2)%Q; (-5)%Q]).
    assert (item (Z.of_nat (if Qeq_bool (nth 2 x 0%Q) 3 then 0 else 1)) [[1%Q; 2%Q; 3%Q]; [1%Q; 2%Q; 4%Q]] = Ok x) as -> by (destruct I as [<-|[<-|[]]]; reflexivity). cbn [bind]. rewrite E1, E2. cbn [bind]. rewrite argmax_two by exact LE. reflexivity. }
  unfold reorder_fcst_regimes_correlate. cbn [seq mapM]. pose proof (B [1%Q; 2%Q; 3%Q] (or_introl eq_refl)) as B1. pose proof (B [1%Q; 2%Q; 4%Q] (or_intror (or_introl eq_refl))) as B2. cbn [nth] in B1, B2. change (Qeq_bool 3 3) with true in B1. change (Qeq_bool 4 3) with false in B2. cbv iota in B1, B2.
  rewrite B1. cbn [bind]. rewrite B2. cbn [bind]. vm_compute. reflexivity.
Qed.

Lemma C69_exceptions_proof : forall (A : Type) (patterns : list A) perc labels order wrnum, length perc = length patterns ->
  ((length order < wrnum)%nat -> reorder_fcst_regimes patterns perc labels wrnum order = Err IndexError) /\
  (forall w o, nth_error order w = Some o -> (w < wrnum)%nat -> Z.of_nat (length patterns) < o -> reorder_fcst_regimes patterns perc labels wrnum order = Err IndexError).
Proof.
  intros A patterns perc labels order wrnum LP. unfold reorder_fcst_regimes. set (st := (map (fun _ => None) patterns, map (fun _ => None) perc, map (fun _ => None) labels)). clearbody st. split.
  - intro L. destruct (reorder_errors patterns perc labels order (seq 0 wrnum) st) as [(new & E)|E]; [|exact E]. exfalso. destruct (reorder_ok _ _ _ _ _ _ _ E (length order)) as (o & p & EO & _); [apply in_seq; lia|]. apply item_nat in EO. assert (length order < length order)%nat; [apply nth_error_Some; congruence|lia].
  - intros w o N L B. destruct (reorder_errors patterns perc labels order (seq 0 wrnum) st) as [(new & E)|E]; [|exact E]. exfalso. destruct (reorder_ok _ _ _ _ _ _ _ E w) as (o' & p & EO & EP); [apply in_seq; lia|]. apply item_nat in EO. assert (o' = o) as -> by congruence.
    replace (o - 1) with (Z.of_nat (Z.to_nat (o - 1))) in EP by lia. apply item_nat in EP. assert (Z.to_nat (o - 1) < length perc)%nat; [apply nth_error_Some; congruence|lia].
Qed.

Lemma C70_windows_proof : forall wrnum tstep wr n, wr <> [] -> (forall row, In row wr -> length row = n) -> 1 <= wrnum -> 1 <= tstep <= Z.of_nat n ->
  exists freq, compute_wr_freq wrnum tstep wr = Ok (freq, Z.of_nat n - tstep + 1, tstep) /\ length freq = Z.to_nat wrnum /\
    (forall w table, nth_error freq w = Some table -> Forall2 (fun days counts => Z.of_nat (length counts) = Z.of_nat n - tstep + 1 /\
      forall d c, nth_error counts d = Some c -> exists before window after, days = before ++ window ++ after /\ length before = d /\
        Z.of_nat (length window) = tstep /\ c = days_with (inject_Z (Z.of_nat w + 1)) window) wr table).
Proof.
  intros wrnum tstep wr n NE LR W T. rewrite (freq_table wrnum tstep wr n NE LR W T). eexists. split; [reflexivity|]. split; [rewrite map_length; apply seq_length|]. intros w table N. rewrite nth_error_map in N. destruct (nth_error (seq 0 (Z.to_nat wrnum)) w) as [w'|] eqn:EW; [|discriminate N]. apply seq_nth_inv in EW. destruct EW as (-> & _). injection N as <-.
  clear NE. induction wr as [|days wr IH]; cbn [map]; constructor; [|apply IH; intros row I; apply LR; right; exact I]. pose proof (LR days (or_introl eq_refl)) as LD. split; [rewrite map_length, seq_length; lia|].
  intros d c ND. rewrite nth_error_map in ND. destruct (nth_error (seq 0 _) d) as [d'|] eqn:ED; [|discriminate ND]. apply seq_nth_inv in ED. destruct ED as (-> & LD'). injection ND as <-.
  destruct (slice_window days (Z.of_nat d) (tstep + Z.of_nat d)) as (before & window & after & E & LB & LW & SL); [lia|lia|]. exists before, window, after. split; [exact E|]. split; [lia|]. split; [lia|]. rewrite SL. reflexivity.
Qed.

Lemma C70_total_proof : forall wrnum tstep wr n freq nd t y d, wr <> [] -> (forall row, In row wr -> length row = n) -> 1 <= wrnum -> 1 <= tstep <= Z.of_nat n ->
  (forall row v, In row wr -> In v row -> exists w, 1 <= w <= wrnum /\ (v == inject_Z w)%Q) ->
  compute_wr_freq wrnum tstep wr = Ok (freq, nd, t) -> (y < length wr)%nat -> Z.of_nat d < nd ->
  exists cs, Forall2 (fun table c => exists counts, nth_error table y = Some counts /\ nth_error counts d = Some c) freq cs /\ fold_right Z.add 0 cs = tstep.
Proof.
  intros wrnum tstep wr n freq nd t y d NE LR W T RL H LY LD. rewrite (freq_table wrnum tstep wr n NE LR W T) in H. injection H as <- <- <-. destruct (nth_error wr y) as [days|] eqn:EY; [|apply nth_error_None in EY; lia]. pose proof (LR days (nth_error_In _ _ EY)) as LDA.
  exists (map (fun w => days_with (inject_Z (Z.of_nat w + 1)) (slice (Z.of_nat d) (tstep + Z.of_nat d) days)) (seq 0 (Z.to_nat wrnum))). split.
  - generalize (seq 0 (Z.to_nat wrnum)) as l. induction l as [|w l IH]; cbn [map]; constructor; [|exact IH]. eexists. split; [rewrite nth_error_map, EY; reflexivity|]. rewrite nth_error_map. rewrite (nth_error_nth' _ 0%nat) by (rewrite seq_length; lia). rewrite seq_nth by lia. reflexivity.
  - destruct (slice_window days (Z.of_nat d) (tstep + Z.of_nat d)) as (before & window & after & E & LB & LW & SL); [lia|lia|]. rewrite SL, all_regimes; [lia|]. intros v I. apply (RL days v (nth_error_In _ _ EY)). rewrite E. apply in_or_app. right. apply in_or_app. left. exact I.
Qed.

Lemma C70_case_proof : compute_wr_freq 2 3 [[1%Q; 2%Q; 1%Q; 1%Q; 2%Q]] = Ok ([[[2; 2; 2]]; [[1; 1; 1]]], 3, 3).
Proof.
  vm_compute. reflexivity.
Qed.

Lemma C70_exceptions_proof : forall wrnum tstep row wr, row <> [] ->
  compute_wr_freq wrnum tstep [] = Err IndexError /\ compute_wr_freq wrnum tstep ([] :: wr) = Err IndexError /\
  (Z.of_nat (length row) + 1 < tstep \/ wrnum < 0 -> compute_wr_freq wrnum tstep (row :: wr) = Err ValueError) /\
  (tstep = Z.of_nat (length row) + 1 -> 0 <= wrnum -> compute_wr_freq wrnum tstep (row :: wr) = Err IndexError) /\
  (tstep <= Z.of_nat (length row) + 1 -> wrnum = 0 -> compute_wr_freq wrnum tstep (row :: wr) = Err IndexError).
Proof.
  intros wrnum tstep row wr NE. split; [reflexivity|]. split; [reflexivity|]. destruct row as [|q row]; [contradiction|]. unfold compute_wr_freq. set (n := Z.of_nat (length (q :: row))). split; [|split].
  - intros [H|H]; [assert (n - tstep + 1 <? 0 = true) as -> by (apply Z.ltb_lt; lia); reflexivity|]. assert (wrnum <? 0 = true) as -> by (apply Z.ltb_lt; lia). rewrite orb_true_r. reflexivity.
  - intros E W. assert (n - tstep + 1 = 0) as -> by lia. assert (wrnum <? 0 = false) as -> by (apply Z.ltb_ge; lia). reflexivity.
  - intros L ->. assert (n - tstep + 1 <? 0 = false) as -> by (apply Z.ltb_ge; lia). rewrite orb_true_r. reflexivity.
Qed.

Lemma C71_anomalies_proof : forall lats nlon ndays years, lats <> [] -> (0 < nlon)%nat -> years <> [] -> Grid ndays (length lats) nlon years ->
  exists a a1, weights_detrend (lat1 lats nlon) years = Ok (a, a1) /\ length a1 = (length years * ndays)%nat /\
    forall y d i j v lat, At years y d i j v -> nth_error lats i = Some lat ->
      exists x row, At a y d i j x /\ nth_error a1 (y * ndays + d) = Some row /\ nth_error row (i * nlon + j) = Some x /\
        match v with Some q => exists r, x = Some r /\ AnomalyOf years d i j (cos (Q2R lat * PI / 180)) q r | None => x = None end.
Proof.
  intros lats nlon ndays years NL PN NY G. destruct (weights_lat1 lats nlon ndays years NL PN NY G) as (a & E & LA & GA & H). exists a. eexists. split; [exact E|].
  assert (forall table, In table (map (map (@concat _)) a) -> length table = ndays) as GT. { intros table I. apply in_map_iff in I. destruct I as (days & <- & I). rewrite map_length. exact (proj1 (GA days I)). }
  split; [rewrite flat_concat, (length_concat ndays) by exact GT; rewrite map_length; lia|]. intros y d i j v lat AT N. destruct (H y d i j v lat AT N) as (vs & CO & AA). pose proof (mean_of_value years y d i j vs (cos (Q2R lat * PI / 180)) v CO AT) as V.
  set (x := mean_of vs (cos (Q2R lat * PI / 180)) v) in *. clearbody x. destruct AA as (days & day & row & N0 & N1 & N2 & N3). exists x, (concat day). split; [exists days, day, row; split; [exact N0|]; split; [exact N1|]; split; [exact N2|exact N3]|]. split; [|split].
  - rewrite flat_concat. apply (nth_concat ndays _ y (map (@concat _) days)); [exact GT|rewrite nth_error_map, N0; reflexivity|rewrite nth_error_map, N1; reflexivity].
  - apply (nth_concat nlon _ i row); [|exact N2|exact N3]. intros r I. exact (proj2 (proj2 (GA days (nth_error_In _ _ N0)) day (nth_error_In _ _ N1)) r I).
  - destruct v as [q|]; [exact V|exact V].
Qed.

Lemma C71_anomalies_case_proof : Grid 1 2 2 anomaly_years /\ At anomaly_years 1 0 0 1 (Some 4%Q) /\ AnomalyOf anomaly_years 0 0 1 1 4 (Q2R (3 # 2)).
Proof.
  split; [|split].
  - intros days [<-|[<-|[]]]; (split; [reflexivity|]); intros day [<-|[]]; (split; [reflexivity|]); intros row [<-|[<-|[]]]; reflexivity.
  - eexists. eexists. eexists. repeat (split; [reflexivity|]). reflexivity.
  - exists [Some 1%Q; Some 4%Q], [1%Q; 4%Q], (5 # 2)%Q. split; [reflexivity|]. split.
    + intros [|[|y]] v N; [injection N as <-|injection N as <-|destruct y; discriminate N]; (eexists; eexists; eexists; repeat (split; [reflexivity|]); reflexivity).
    + split; [repeat constructor|]. split; [reflexivity|]. rewrite Rmult_1_r. apply Qeq_eqR. reflexivity.
Qed.

Lemma C71_trend_refuted_proof : forall lats nlon ndays years a a1 y d i j lat start slope x1 x2, lats <> [] -> (0 < nlon)%nat -> Grid ndays (length lats) nlon years ->
  weights_detrend (lat1 lats nlon) years = Ok (a, a1) -> nth_error lats i = Some lat -> (d < ndays)%nat -> (j < nlon)%nat ->
  (forall y v, At years y d i j v -> exists q, v = Some q /\ (q == start + slope * inject_Z (Z.of_nat y))%Q) ->
  At a y d i j (Some x1) -> At a (S y) d i j (Some x2) -> (x2 - x1 = Q2R slope * cos (Q2R lat * PI / 180))%R.
Proof.
  intros lats nlon ndays years a a1 y d i j lat start slope x1 x2 NL PN G E NLA LD LJ TR A1 A2. assert (i < length lats)%nat as LI by (apply nth_error_Some; congruence).
  assert (years <> []) as NY by (intros ->; discriminate E). destruct (weights_lat1 lats nlon ndays years NL PN NY G) as (a' & E' & LA & GA & H). rewrite E in E'. injection E' as <- _.
  destruct (column_there ndays (length lats) nlon years d i j G LD LI LJ) as (vs & _ & CO). pose proof CO as (LV & HV). unfold heights in LV, HV.
  assert (forall y x, At a y d i j (Some x) -> exists q m, (q == start + slope * inject_Z (Z.of_nat y))%Q /\ nanmean vs = Some m /\ x = (Q2R (q - m) * cos (Q2R lat * PI / 180))%R) as V.
  { intros y' x AX. assert (y' < length years)%nat as LY. { destruct AX as (days & day & row & N0 & _). rewrite <- LA. apply nth_error_Some. congruence. }
    destruct (nth_error vs y') as [v|] eqn:EV; [|apply nth_error_None in EV; lia]. pose proof (HV y' v EV) as AT. destruct (TR y' v AT) as (q & -> & EQ). destruct (H y' d i j (Some q) lat AT NLA) as (vs' & CO' & AA). rewrite (column_same _ _ _ _ _ _ CO' CO) in AA. pose proof (at_same _ _ _ _ _ _ _ AX AA) as EX. unfold mean_of in EX.
    destruct (nanmean vs) as [m|]; [|discriminate EX]. injection EX as ->. exists q, m. split; [exact EQ|]. split; reflexivity. }
  destruct (V y x1 A1) as (q1 & m1 & Q1 & M1 & ->). destruct (V (S y) x2 A2) as (q2 & m2 & Q2 & M2 & ->). rewrite M1 in M2. injection M2 as <-. rewrite <- Rmult_minus_distr_r. f_equal. rewrite <- Q2R_minus. apply Qeq_eqR. rewrite Q1, Q2. replace (Z.of_nat (S y)) with (Z.of_nat y + 1) by lia. rewrite inject_Z_plus. ring.
Qed.

Lemma C71_trend_case_proof : forall y v, At trend_years y 0 0 0 v -> exists q, v = Some q /\ (q == 1 + 2 * inject_Z (Z.of_nat y))%Q.
Proof.
  intros y v (days & day & row & N0 & N1 & N2 & N3). destruct y as [|[|[|y]]]; cbn in N0; try (destruct y; discriminate N0); injection N0 as <-; cbn in N1; injection N1 as <-; cbn in N2; injection N2 as <-; cbn in N3; injection N3 as <-; (eexists; split; [reflexivity|reflexivity]).
Qed.

Lemma C71_array_refuted_proof : forall lats ncol ndays years, lats <> [] -> (0 < ncol)%nat -> (forall row, In row lats -> length row = ncol) -> ncol <> length lats ->
  years <> [] -> (0 < ndays)%nat -> Grid ndays (length lats) ncol years -> weights_detrend (lat2 lats) years = Err ValueError.
Proof.
  intros lats ncol ndays years NL PN RL NE NY PD G. set (ws := weightf (lat2 lats)). assert (length ws = length lats) as LW by apply map_length. assert (forall row, In row ws -> length row = ncol) as RW. { unfold ws. cbn [weightf]. intros row I. apply in_map_iff in I. destruct I as (r & <- & I). rewrite map_length. exact (RL r I). }
  destruct (loops_rule ws ndays (length lats) ncol years LW RW G) as (a & E & LA & GA & _). rewrite (weights_unfold _ _ ncol NY); [fold ws|fold ws; intro C; rewrite C in LW; destruct lats; [contradiction|discriminate LW]|exact PN|exact RW]. rewrite E.
  assert (length (concat ws) =? columns_wanted (lat2 lats) = false)%nat as EC. { rewrite (length_concat ncol) by exact RW. rewrite LW. cbn [columns_wanted]. apply Nat.eqb_neq. intro C. apply NE. destruct lats as [|r rs]; [contradiction|]. cbn [length] in *. nia. }
  assert (length (concat years) =? 0 = false)%nat as EY. { apply Nat.eqb_neq. rewrite (length_concat ndays) by (intros days I; exact (proj1 (G days I))). destruct years as [|y ys]; [contradiction|]. cbn [length]. lia. }
  cbn [bind]. rewrite EC, EY. reflexivity.
Qed.

Lemma C71_array_case_proof : Grid 1 2 1 trend_years /\ weights_detrend (lat2 [[60%Q]; [30%Q]]) trend_years = Err ValueError.
Proof.
  assert (Grid 1 2 1 trend_years) as G. { intros days [<-|[<-|[<-|[]]]]; (split; [reflexivity|]); intros day [<-|[]]; (split; [reflexivity|]); intros row [<-|[<-|[]]]; reflexivity. }
  split; [exact G|]. apply (C71_array_refuted_proof _ 1 1); [discriminate|lia|intros row [<-|[<-|[]]]; reflexivity|discriminate|discriminate|lia|exact G].
Qed.

