(** Proofs about atmospheric blocking. *)
From Verif Require Import PyBase ColumnModel BaseSpec BlockModel BlockSpec.
From Coq Require Import FinFun.
From Coq Require Import List Sorting.Sorted.
Open Scope Z_scope.

(* ---------- ranges ---------- *)
Lemma arange_in a b x : In x (arange a b) <-> a <= x <= b.
Proof.
  unfold arange. rewrite in_map_iff. split.
  - intros (i & <- & I). apply in_seq in I. lia.
  - intro H. exists (Z.to_nat (x - a)). split; [lia|]. apply in_seq. lia.
Qed.
Lemma arange_nodup a b : NoDup (arange a b).
Proof. unfold arange. apply Injective_map_NoDup; [intros i j H; lia|apply seq_NoDup]. Qed.
Lemma arange_length a b : length (arange a b) = Z.to_nat (b - a + 1).
Proof. unfold arange. rewrite map_length, seq_length. reflexivity. Qed.
Lemma arange_one a : arange a a = [a].
Proof. unfold arange. replace (a - a + 1) with 1 by lia. change (seq 0 (Z.to_nat 1)) with [0%nat]. cbn [map]. rewrite Z.add_0_r. reflexivity. Qed.
Lemma arange_split a b c : a <= b + 1 -> b <= c -> arange a c = (arange a b ++ arange (b + 1) c)%list.
Proof.
  intros H K. unfold arange. replace (Z.to_nat (c - a + 1)) with (Z.to_nat (b - a + 1) + Z.to_nat (c - (b + 1) + 1))%nat by lia. rewrite seq_app, map_app. f_equal. cbn [plus].
  generalize (Z.to_nat (c - (b + 1) + 1)) as m. assert (b + 1 = a + Z.of_nat (Z.to_nat (b - a + 1))) as E by lia. rewrite E. generalize (Z.to_nat (b - a + 1)) as k. intros k m.
  replace (seq k m) with (map (fun i => (k + i)%nat) (seq 0 m)).
  - rewrite map_map. apply map_ext. intro i. lia.
  - assert (forall j, map (fun i => (k + i)%nat) (seq j m) = seq (k + j) m) as Q; [|rewrite (Q 0%nat), Nat.add_0_r; reflexivity].
    clear. induction m as [|m IH]; intro j; [reflexivity|]. cbn [seq map]. f_equal. rewrite IH. f_equal. lia.
Qed.
Lemma nodup_app {A} (l m : list A) : NoDup l -> NoDup m -> (forall x, In x l -> ~ In x m) -> NoDup (l ++ m).
Proof.
  induction l as [|a l IH]; intros N M D; [exact M|]. inversion N as [|? ? NI NL]; subst. cbn. constructor.
  - intro I. apply in_app_or in I. destruct I as [I|I]; [exact (NI I)|exact (D a (or_introl eq_refl) I)].
  - apply IH; [exact NL|exact M|]. intros x I. apply D. right. exact I.
Qed.

(* ---------- chains ---------- *)
Section Scan.
Variables (P : Z -> Prop) (crit last : Z).
Hypothesis big : 2 <= crit.
Notation group := (InGroup P crit last).
Lemma chain_tail s e x : Chain P crit s e -> s <= x <= e -> P x -> Chain P crit x e.
Proof. intros (L & S & E & G) H Px. repeat split; try assumption; try lia. intros y Hy Py. destruct (G y) as (z & A & B & D); [lia|exact Py|]. exists z. auto. Qed.
(** A chain has a step over every position inside. *)
Lemma crossing t : forall s e, Chain P crit s e -> s < t -> t <= e -> exists x y, s <= x < t /\ t <= y <= e /\ P x /\ P y /\ 2 * (y - x) <= crit.
Proof.
  intros s e. remember (Z.to_nat (t - s)) as n eqn:N. assert (Z.to_nat (t - s) <= n)%nat as LE by lia. clear N. revert s LE.
  induction n as [|n IH]; intros s LE H St Te; [lia|]. destruct H as (L & S & E & G). destruct (G s) as (y & A & B & D); [lia|exact S|]. destruct (Z_lt_le_dec y t) as [Y|Y].
  - destruct (IH y) as (x' & y' & K); [lia|apply (chain_tail s); [repeat split; assumption|lia|exact B]|exact Y|exact Te|]. exists x', y'. split; [lia|]. split; [lia|]. apply K.
  - exists s, y. repeat split; try assumption; lia.
Qed.
Lemma chain_one x : P x -> Chain P crit x x.
Proof. intro H. split; [lia|]. split; [exact H|]. split; [exact H|]. intros y Hy. lia. Qed.
Lemma chain_snoc s e c : Chain P crit s e -> P c -> e < c -> 2 * (c - e) <= crit -> Chain P crit s c.
Proof.
  intros (L & S & E & G) Pc H K. split; [lia|]. split; [exact S|]. split; [exact Pc|]. intros x Hx Px. destruct (Z_lt_le_dec x e) as [X|X].
  - destruct (G x) as (y & A & B & D); [lia|exact Px|]. exists y. split; [lia|]. auto.
  - exists c. split; [lia|]. split; [exact Pc|]. assert (x = e \/ e < x) as [->|M] by lia; [exact K|]. lia.
Qed.
Definition state (s prev : Z) (fin : list Z) : Prop :=
  0 <= s /\ prev < last /\ Chain P crit s prev /\ (forall y, 0 <= y < s -> P y -> crit < 2 * (s - y)) /\
  NoDup fin /\ (forall y, In y fin -> y < s) /\ (forall y, y < s -> (In y fin <-> group y)).
Definition settle (s prev : Z) (fin : list Z) : list Z := if crit <=? prev - s + 1 then (fin ++ arange s prev)%list else fin.
Lemma settle_rule s prev fin next : state s prev fin -> prev < next -> (forall y, prev < y < last -> P y -> next <= y /\ crit < 2 * (next - prev)) ->
  NoDup (settle s prev fin) /\ (forall y, In y (settle s prev fin) -> y <= prev) /\ (forall y, y < next -> (In y (settle s prev fin) <-> group y)).
Proof.
  intros (S0 & LT & CH & LG & ND & FS & FG) PN NX. destruct CH as (SP & Ps & Pp & G). assert (Chain P crit s prev) as CH by (repeat split; assumption).
  assert (forall s' e' y, 0 <= s' <= y -> y <= e' < last -> Chain P crit s' e' -> s <= y -> s <= s') as LEFT.
  { intros s' e' y A B K Y. destruct (Z_lt_le_dec s' s) as [X|X]; [|exact X]. exfalso. destruct (crossing s s' e' K) as (u & v & U & V & Pu & Pv & D); [lia|lia|]. specialize (LG u ltac:(lia) Pu). lia. }
  assert (forall s' e' y, 0 <= s' <= y -> y <= e' < last -> Chain P crit s' e' -> y <= prev -> e' <= prev) as RIGHT.
  { intros s' e' y A B K Y. destruct (Z_lt_le_dec prev e') as [X|X]; [|exact X]. exfalso. destruct (crossing (prev + 1) s' e' K) as (u & v & U & V & Pu & Pv & D); [lia|lia|]. specialize (NX v ltac:(lia) Pv). lia. }
  assert (forall y, s <= y < next -> (group y <-> crit <= prev - s + 1 /\ y <= prev)) as MID.
  { intros y Y. split.
    - intros (s' & e' & A & B & K & Z). assert (y <= prev) as YP.
      { destruct (Z_lt_le_dec prev y) as [X|X]; [|exact X]. exfalso. destruct (Z_lt_le_dec prev s') as [W|W].
        - pose proof (proj1 (proj2 K)) as Ps'. specialize (NX s' ltac:(lia) Ps'). lia.
        - destruct (crossing (prev + 1) s' e' K) as (u & v & U & V & Pu & Pv & D); [lia|lia|]. specialize (NX v ltac:(lia) Pv). lia. }
      split; [|exact YP]. pose proof (LEFT s' e' y A B K ltac:(lia)). pose proof (RIGHT s' e' y A B K YP). lia.
    - intros (C1 & C2). exists s, prev. split; [lia|]. split; [lia|]. split; [exact CH|exact C1]. }
  unfold settle. destruct (Z.leb_spec crit (prev - s + 1)) as [C1|C1].
  - split; [|split].
    + apply nodup_app; [exact ND|apply arange_nodup|]. intros x I J. apply arange_in in J. specialize (FS x I). lia.
    + intros y I. apply in_app_or in I. destruct I as [I|I]; [specialize (FS y I); lia|apply arange_in in I; lia].
    + intros y Y. rewrite in_app_iff, arange_in. destruct (Z_lt_le_dec y s) as [X|X].
      * rewrite <- (FG y X). split; [intros [I|I]; [exact I|lia]|auto].
      * rewrite (MID y ltac:(lia)). split; [intros [I|I]; [specialize (FS y I); lia|lia]|]. intros (_ & YP). right. lia.
  - split; [exact ND|]. split; [intros y I; specialize (FS y I); lia|]. intros y Y. destruct (Z_lt_le_dec y s) as [X|X]; [apply FG; exact X|]. rewrite (MID y ltac:(lia)). split; [intro I; specialize (FS y I); lia|lia].
Qed.
Lemma gather_rule : forall rest s prev fin, state s prev fin -> rest <> [] -> StronglySorted Z.lt rest -> (forall y, In y rest <-> prev < y < last /\ P y) ->
  NoDup (gather crit prev rest (arange s prev) (prev - s + 1) fin) /\
  forall y, In y (gather crit prev rest (arange s prev) (prev - s + 1) fin) <-> group y.
Proof.
  induction rest as [|cur rest IH]; intros s prev fin ST NE SO IN; [contradiction|]. clear NE.
  inversion SO as [|? ? SO' LE]; subst. assert (prev < cur < last /\ P cur) as (PC & Pc) by (apply IN; left; reflexivity).
  assert (forall y, In y rest <-> cur < y < last /\ P y) as IN'.
  { intro y. split.
    - intro I. assert (cur < y) by (rewrite Forall_forall in LE; apply LE; exact I). assert (prev < y < last /\ P y) as (A & B) by (apply IN; right; exact I). split; [lia|exact B].
    - intros (A & B). assert (In y (cur :: rest)) as [<-|I] by (apply IN; split; [lia|exact B]); [lia|exact I]. }
  assert (forall y, prev < y < last -> P y -> cur <= y) as FIRST.
  { intros y A B. assert (In y (cur :: rest)) as [<-|I] by (apply IN; split; assumption); [lia|]. rewrite Forall_forall in LE. specialize (LE y I). lia. }
  pose proof ST as (S0 & LT & CH & LG & ND & FS & FG). pose proof (proj1 CH) as SP.
  cbn [gather]. replace (Z.abs (cur - prev)) with (cur - prev) by lia. destruct (Z_le_gt_dec (2 * (cur - prev)) crit) as [NEAR|FAR].
  - set (bc := if cur - prev =? 1 then ((arange s prev ++ [cur])%list, prev - s + 1 + (cur - prev)) else (arange s prev, prev - s + 1)).
    assert ((let '(b1, c1) := bc in if (2 * (cur - prev) <=? crit) && negb (cur - prev =? 1) then ((b1 ++ arange (prev + 1) cur)%list, c1 + (cur - prev)) else (b1, c1)) = (arange s cur, cur - s + 1)) as E.
    { unfold bc. destruct (Z.eqb_spec (cur - prev) 1) as [O|O].
      - rewrite andb_false_r. f_equal; [|lia]. rewrite (arange_split s prev cur) by lia. f_equal. replace (prev + 1) with cur by lia. symmetry. apply arange_one.
      - rewrite (proj2 (Z.leb_le _ _) NEAR). cbn [andb negb]. f_equal; [|lia]. rewrite (arange_split s prev cur) by lia. reflexivity. }
    destruct bc as [b1 c1]. cbv beta iota in E. destruct ((2 * (cur - prev) <=? crit) && negb (cur - prev =? 1)); injection E as -> ->.
    all: rewrite (proj2 (Z.ltb_ge _ _) NEAR); cbn [orb].
    all: assert (state s cur fin) as ST' by (split; [exact S0|]; split; [lia|]; split; [apply (chain_snoc s prev cur CH Pc); lia|]; auto).
    all: destruct rest as [|r rest]; [|apply IH; [exact ST'|discriminate|exact SO'|exact IN']].
    all: cbn [gather]; destruct (settle_rule s cur fin last ST') as (X & _ & Y); [lia|intros y A B; exfalso; apply (proj2 (IN' y)); split; [lia|exact B]|].
    all: split; [exact X|]; intro y; destruct (Z_lt_le_dec y last) as [W|W]; [apply Y; exact W|].
    all: split; [intro I; assert (y <= cur) as Q by (unfold settle in I; destruct (crit <=? cur - s + 1); [apply in_app_or in I; destruct I as [I|I]; [specialize (FS y I); lia|apply arange_in in I; lia]|specialize (FS y I); lia]); lia|intros (s' & e' & A & B & _); lia].
  - assert (cur - prev =? 1 = false) as -> by (apply Z.eqb_neq; lia). assert (2 * (cur - prev) <=? crit = false) as -> by (apply Z.leb_gt; lia). cbn [andb].
    assert (crit <? 2 * (cur - prev) = true) as -> by (apply Z.ltb_lt; lia). cbn [orb]. fold (settle s prev fin).
    destruct (settle_rule s prev fin cur ST) as (X & Y & Z); [lia|intros y A B; split; [apply FIRST; assumption|lia]|].
    assert (state cur cur (settle s prev fin)) as ST'.
    { split; [lia|]. split; [lia|]. split; [apply chain_one; exact Pc|]. split.
      - intros y A B. assert (y <= prev) as YP by (destruct (Z_lt_le_dec prev y) as [W|W]; [specialize (FIRST y ltac:(lia) B); lia|exact W]). lia.
      - split; [exact X|]. split; [intros y I; specialize (Y y I); lia|exact Z]. }
    destruct rest as [|r rest].
    + cbn [gather]. split; [exact X|]. intro y. destruct (Z_lt_le_dec y cur) as [W|W]; [apply Z; exact W|]. split; [intro I; specialize (Y y I); lia|]. intros (s' & e' & A & B & K & L). exfalso.
      assert (e' <= cur) as EC. { destruct (Z_lt_le_dec cur e') as [V|V]; [|exact V]. exfalso. apply (proj2 (IN' e')). split; [lia|]. apply (proj1 (proj2 (proj2 K))). }
      assert (y = cur) by lia. assert (e' = cur) by lia. subst. destruct (Z_lt_le_dec s' cur) as [V|V]; [|lia].
      destruct (crossing cur s' cur K) as (u & v & U & V' & Pu & Pv & D); [lia|lia|]. destruct ST' as (_ & _ & _ & LG' & _). specialize (LG' u ltac:(lia) Pu). lia.
    + replace [cur] with (arange cur cur) by apply arange_one. replace 1 with (cur - cur + 1) by lia. apply IH; [exact ST'|discriminate|exact SO'|exact IN'].
Qed.
End Scan.


(* ---------- one day ---------- *)
Lemma ones_in : forall a k x, In x (ones k a) <-> k <= x /\ exists v, nth_error a (Z.to_nat (x - k)) = Some v /\ (v == 1)%Q.
Proof.
  induction a as [|w a IH]; intros k x.
  - split; [intros []|]. intros (_ & v & H & _). destruct (Z.to_nat (x - k)); discriminate H.
  - assert (In x (ones (k + 1) a) <-> k < x /\ exists v, nth_error (w :: a) (Z.to_nat (x - k)) = Some v /\ (v == 1)%Q) as K.
    { rewrite IH. split.
      - intros (A & B). split; [lia|]. replace (Z.to_nat (x - k)) with (S (Z.to_nat (x - (k + 1)))) by lia. exact B.
      - intros (A & B). split; [lia|]. replace (Z.to_nat (x - k)) with (S (Z.to_nat (x - (k + 1)))) in B by lia. exact B. }
    cbn [ones]. destruct (Qeq_bool w 1) eqn:E; cbn [In]; rewrite K.
    + apply Qeq_bool_iff in E. split.
      * intros [<-|(A & B)]; [split; [lia|]; exists w; rewrite Z.sub_diag; split; [reflexivity|exact E]|]. split; [lia|exact B].
      * intros (A & B). destruct (Z.eq_dec k x) as [->|N]; [left; reflexivity|]. right. split; [lia|exact B].
    + split; [intros (A & B); split; [lia|exact B]|]. intros (A & B). destruct (Z.eq_dec k x) as [->|N]; [|split; [lia|exact B]].
      exfalso. destruct B as (v & B & V). rewrite Z.sub_diag in B. injection B as ->. apply Qeq_bool_iff in V. congruence.
Qed.
Lemma ones_range a x : In x (ones 0 a) -> 0 <= x < Z.of_nat (length a).
Proof. intro I. apply ones_in in I. destruct I as (A & v & B & _). split; [exact A|]. assert (Z.to_nat (x - 0) < length a)%nat by (apply nth_error_Some; congruence). lia. Qed.
Lemma ones_sorted : forall a k, StronglySorted Z.lt (ones k a).
Proof.
  induction a as [|w a IH]; intro k; [constructor|]. cbn [ones]. destruct (Qeq_bool w 1); [|apply IH]. constructor; [apply IH|]. apply Forall_forall. intros x I. apply ones_in in I. lia.
Qed.
Lemma sorted_app (l m : list Z) : StronglySorted Z.lt l -> StronglySorted Z.lt m -> (forall x y, In x l -> In y m -> x < y) -> StronglySorted Z.lt (l ++ m).
Proof.
  induction l as [|a l IH]; intros SL SM H; [exact SM|]. inversion SL as [|? ? SL' F]; subst. cbn. constructor.
  - apply IH; [exact SL'|exact SM|]. intros x y I J. apply H; [right; exact I|exact J].
  - apply Forall_forall. intros y I. apply in_app_or in I. destruct I as [I|I]; [rewrite Forall_forall in F; apply F; exact I|apply H; [left; reflexivity|exact I]].
Qed.
Lemma sorted_shift (l : list Z) c : StronglySorted Z.lt l -> StronglySorted Z.lt (map (fun x => x + c) l).
Proof. induction 1 as [|x l S IH F]; constructor; [exact IH|]. apply Forall_forall. intros y I. apply in_map_iff in I. destruct I as (z & <- & I). rewrite Forall_forall in F. specialize (F z I). lia. Qed.
Lemma block_in a y : In y (ones 0 a ++ map (fun x => x + 360) (ones 0 a))%list <-> In y (ones 0 a) \/ In (y - 360) (ones 0 a).
Proof.
  rewrite in_app_iff, in_map_iff. split.
  - intros [I|(x & <- & I)]; [left; exact I|right]. replace (x + 360 - 360) with x by lia. exact I.
  - intros [I|I]; [left; exact I|right]. exists (y - 360). split; [lia|exact I].
Qed.
Lemma marked_zeros (test : Z -> Prop) (a : list Q) : (forall i, (i < length a)%nat -> ~ test (Z.of_nat i)) -> Marked test (map (fun _ => 0%Q) a).
Proof.
  intros N i v H. right. rewrite nth_error_map in H. destruct (nth_error a i) as [w|] eqn:E; [|discriminate H]. injection H as <-. split; [reflexivity|]. apply N. apply nth_error_Some. congruence.
Qed.
Lemma day_rule d crit a P : 2 <= crit -> (length a <= 360)%nat -> let n := Z.of_nat (length a) in
  (forall y, 0 <= y < 360 + n -> (P y <-> In y (ones 0 a) \/ In (y - 360) (ones 0 a))) ->
  (forall y, InGroup P crit (360 + n) y -> (if 360 <=? y then y - 360 else y) < n) ->
  exists g members, gibl_day d crit a = Ok g /\ length g = length a /\ NoDup members /\ (forall y, In y members <-> InGroup P crit (360 + n) y) /\
    Marked (fun x => (InGroup P crit (360 + n) x \/ InGroup P crit (360 + n) (x + 360)) /\ 2 * crit <= Z.of_nat (length members)) g.
Proof.
  intros BIG LA n HP FIT. unfold gibl_day. destruct (ones 0 a) as [|first more] eqn:EO.
  - assert (forall y, ~ InGroup P crit (360 + n) y) as NG.
    { intros y (s & e & A & B & (_ & Ps & _) & _). apply (HP s) in Ps; [|lia]. destruct Ps as [[]|[]]. }
    exists (map (fun _ => 0%Q) a), []. split; [reflexivity|]. split; [apply map_length|]. split; [constructor|]. split; [intro y; split; [intros []|intro G; exact (NG y G)]|].
    apply marked_zeros. intros i _ ([G|G] & _); exact (NG _ G).
  - rewrite <- EO in HP |- *. set (block := (ones 0 a ++ map (fun x => x + 360) (ones 0 a))%list). set (r := gather crit first (tl block) [first] 1 []).
    assert (StronglySorted Z.lt block) as SB.
    { apply sorted_app; [apply ones_sorted|apply sorted_shift; apply ones_sorted|]. intros x y I J. apply in_map_iff in J. destruct J as (z & <- & J). apply ones_range in I. apply ones_range in J. lia. }
    assert (forall y, In y block <-> 0 <= y < 360 + n /\ P y) as IB.
    { intro y. unfold block. rewrite block_in. split.
      - intro I. assert (0 <= y < 360 + n) as R by (destruct I as [I|I]; apply ones_range in I; unfold n; lia). split; [exact R|]. exact (proj2 (HP y R) I).
      - intros (R & Py). exact (proj1 (HP y R) Py). }
    assert (exists m2, tl block = m2 /\ block = first :: m2 /\ m2 <> []) as (m2 & TB & EB & NE).
    { exists (tl block). split; [reflexivity|]. unfold block. rewrite EO. cbn [app tl map]. split; [reflexivity|]. destruct more; discriminate. }
    assert (NoDup r /\ forall y, In y r <-> InGroup P crit (360 + n) y) as (ND & IR).
    { unfold r. rewrite TB. replace [first] with (arange first first) by apply arange_one. replace 1 with (first - first + 1) by lia. rewrite EB in SB. inversion SB as [|? ? SB' FL]; subst.
      assert (0 <= first < 360 + n /\ P first) as (RF & PF) by (apply IB; rewrite EB; left; reflexivity).
      assert (forall y, 0 <= y < first -> ~ P y) as NB. { intros y R Py. assert (In y block) as I by (apply IB; split; [lia|exact Py]). rewrite EB in I. destruct I as [<-|I]; [lia|]. rewrite Forall_forall in FL. specialize (FL y I). lia. }
      apply gather_rule; try assumption.
      - split; [lia|]. split; [lia|]. split; [apply chain_one; exact PF|]. split; [intros y R Py; exfalso; exact (NB y R Py)|]. split; [constructor|]. split; [intros y []|].
        intros y Y. split; [intros []|]. intros (s & e & A & B & (_ & Ps & _) & _). exact (NB s ltac:(lia) Ps).
      - intro y. split.
        + intro I. assert (In y block) as J by (rewrite EB; right; exact I). apply IB in J. rewrite Forall_forall in FL. specialize (FL y I). split; [lia|apply J].
        + intros (R & Py). assert (In y block) as J by (apply IB; split; [lia|exact Py]). rewrite EB in J. destruct J as [<-|J]; [lia|exact J]. }
    clearbody r. clear SB IB EB TB NE block.
    destruct (Z.ltb_spec (Z.of_nat (length r)) (2 * crit)) as [SMALL|ENOUGH].
    + exists (map (fun _ => 0%Q) a), r. split; [reflexivity|]. split; [apply map_length|]. split; [exact ND|]. split; [exact IR|]. apply marked_zeros. intros i _ (_ & K). lia.
    + assert (r <> []) as RN by (intros ->; cbn [length] in ENOUGH; lia). set (g1 := map (fun x => if 360 <=? x then x - 360 else x) r).
      assert (forallb (fun x => x <? Z.of_nat (length a)) g1 = true) as FB.
      { apply forallb_forall. intros x I. unfold g1 in I. apply in_map_iff in I. destruct I as (y & <- & I). apply Z.ltb_lt. apply FIT. apply IR. exact I. }
      assert (match r with [] => Ok (map (fun _ => 0%Q) a) | _ => if forallb (fun x => x <? Z.of_nat (length a)) g1 then Ok (map (fun i => if existsb (Z.eqb (Z.of_nat i)) g1 then 1%Q else 0%Q) (seq 0 (length a))) else Err IndexError end =
        Ok (map (fun i => if existsb (Z.eqb (Z.of_nat i)) g1 then 1%Q else 0%Q) (seq 0 (length a)))) as ER by (rewrite FB; destruct r; [contradiction|reflexivity]).
      eexists; exists r. split; [exact ER|]. split; [rewrite map_length, seq_length; reflexivity|]. split; [exact ND|]. split; [exact IR|].
      intros i v H. rewrite nth_error_map in H. destruct (nth_error (seq 0 (length a)) i) as [j|] eqn:EJ; [|discriminate H]. cbn [option_map] in H. injection H as <-.
      assert (i < length a)%nat as LI by (rewrite <- (seq_length (length a) 0); apply nth_error_Some; congruence).
      assert (j = i) as -> by (rewrite (nth_error_nth' _ 0%nat) in EJ by (rewrite seq_length; exact LI); injection EJ as <-; rewrite seq_nth by exact LI; reflexivity).
      assert (existsb (Z.eqb (Z.of_nat i)) g1 = true <-> InGroup P crit (360 + n) (Z.of_nat i) \/ InGroup P crit (360 + n) (Z.of_nat i + 360)) as EX.
      { rewrite existsb_exists. rewrite <- !IR. unfold g1. split.
        - intros (x & I & E). apply Z.eqb_eq in E. apply in_map_iff in I. destruct I as (y & Y & I). destruct (Z.leb_spec 360 y); [right|left]; [replace (Z.of_nat i + 360) with y by lia|replace (Z.of_nat i) with y by lia]; exact I.
        - intros [I|I]; exists (Z.of_nat i); (split; [|apply Z.eqb_refl]); apply in_map_iff.
          + exists (Z.of_nat i). split; [|exact I]. destruct (Z.leb_spec 360 (Z.of_nat i)); [lia|reflexivity].
          + exists (Z.of_nat i + 360). split; [|exact I]. destruct (Z.leb_spec 360 (Z.of_nat i + 360)); lia. }
      destruct (existsb (Z.eqb (Z.of_nat i)) g1); [left|right]; (split; [reflexivity|]).
      * split; [apply EX; reflexivity|exact ENOUGH].
      * intros (K & _). apply EX in K. discriminate K.
Qed.
Lemma blocked_ones a y : length a = 360%nat -> 0 <= y < 720 -> (Blocked a y <-> In y (ones 0 a) \/ In (y - 360) (ones 0 a)).
Proof.
  intros L R. unfold Blocked. destruct (Z_lt_le_dec y 360) as [Y|Y].
  - rewrite Z.mod_small by lia. split.
    + intro H. left. apply ones_in. split; [lia|]. rewrite Z.sub_0_r. exact H.
    + intros [I|I]; [|apply ones_range in I; lia]. apply ones_in in I. rewrite Z.sub_0_r in I. apply I.
  - replace (y mod 360) with (y - 360) by (replace y with (y - 360 + 1 * 360) at 2 by lia; rewrite Z.mod_add by lia; symmetry; apply Z.mod_small; lia). split.
    + intro H. right. apply ones_in. split; [lia|]. rewrite Z.sub_0_r. exact H.
    + intros [I|I]; [apply ones_range in I; lia|]. apply ones_in in I. rewrite Z.sub_0_r in I. apply I.
Qed.
Lemma day_groups d crit a : 2 <= crit -> length a = 360%nat -> exists g, gibl_day d crit a = Ok g /\ DayGroups crit a g.
Proof.
  intros BIG L. assert (Z.of_nat (length a) = 360) as LZ by lia. destruct (day_rule d crit a (Blocked a) BIG) as (g & members & A & B & N & M & K).
  - lia.
  - rewrite LZ. intros y R. apply blocked_ones; [exact L|lia].
  - rewrite LZ. intros y (s & e & X & Y & _). destruct (Z.leb_spec 360 y); lia.
  - rewrite LZ in *. exists g. split; [exact A|]. split; [exact B|]. exists members. auto.
Qed.

Lemma mapM_all {A B} (f : A -> res B) (R : A -> B -> Prop) l : (forall x, In x l -> exists y, f x = Ok y /\ R x y) -> exists out, mapM f l = Ok out /\ Forall2 R l out.
Proof.
  induction l as [|x l IH]; intro H; [exists []; split; [reflexivity|constructor]|]. destruct (H x (or_introl eq_refl)) as (y & E & K). destruct IH as (out & EO & F); [intros z I; apply H; right; exact I|].
  exists (y :: out). cbn [mapM]. rewrite E. cbn [bind]. rewrite EO. split; [reflexivity|]. constructor; assumption.
Qed.
Lemma day_same d crit a g : 2 <= crit -> length a = 360%nat -> gibl_day d crit a = Ok g -> DayGroups crit a g.
Proof. intros BIG L H. destruct (day_groups d crit a BIG L) as (g' & E & D). congruence. Qed.
Lemma blocked_shift a x : Blocked a (x + 360) <-> Blocked a x.
Proof. unfold Blocked. replace (x + 360) with (x + 1 * 360) by lia. rewrite Z.mod_add by lia. reflexivity. Qed.
Lemma chain_shift (P : Z -> Prop) crit s e c : (forall x, s <= x <= e -> (P (x + c) <-> P x)) -> Chain P crit s e -> Chain P crit (s + c) (e + c).
Proof.
  intros PS (L & S & E & G). split; [lia|]. split; [apply PS; [lia|exact S]|]. split; [apply PS; [lia|exact E]|]. intros x X Px.
  destruct (G (x - c)) as (y & A & B & D); [lia|apply PS; [lia|]; replace (x - c + c) with x by lia; exact Px|]. exists (y + c). split; [lia|]. split; [apply PS; [lia|exact B]|]. lia.
Qed.
Lemma chain_ext (P R : Z -> Prop) crit s e : (forall x, s <= x <= e -> (P x <-> R x)) -> Chain P crit s e -> Chain R crit s e.
Proof.
  intros PR (L & S & E & G). split; [exact L|]. split; [apply PR; [lia|exact S]|]. split; [apply PR; [lia|exact E]|]. intros x X Rx. destruct (G x X) as (y & A & B & D); [apply PR; [lia|exact Rx]|]. exists y. split; [exact A|]. split; [apply PR; [lia|exact B]|exact D].
Qed.
Lemma two_laps s e (members : list Z) : s <= e -> e < s + 360 -> (forall y, s <= y <= e \/ s + 360 <= y <= e + 360 -> In y members) -> 2 * (e - s + 1) <= Z.of_nat (length members).
Proof.
  intros L F H. assert (length (arange s e ++ arange (s + 360) (e + 360)) <= length members)%nat as K.
  { apply NoDup_incl_length.
    - apply nodup_app; try apply arange_nodup. intros x I J. apply arange_in in I. apply arange_in in J. lia.
    - intros y I. apply H. apply in_app_or in I. destruct I as [I|I]; apply arange_in in I; [left|right]; exact I. }
  rewrite app_length, !arange_length in K. lia.
Qed.
Lemma all_zero (a g : list Q) : length g = length a -> (forall i v, nth_error g i = Some v -> v = 0%Q) -> g = map (fun _ => 0%Q) a.
Proof.
  revert g. induction a as [|w a IH]; intros [|v g] L H; try discriminate L; [reflexivity|]. cbn [map]. f_equal; [exact (H 0%nat v eq_refl)|]. apply IH; [injection L as L; exact L|]. intros i u K. exact (H (S i) u K).
Qed.


(* ---------- instantaneous blocks ---------- *)
Lemma mapM_inv {A B} (f : A -> res B) : forall l r, mapM f l = Ok r -> Forall2 (fun x y => f x = Ok y) l r.
Proof.
  induction l as [|x l IH]; intros r H; cbn [mapM] in H; [injection H as <-; constructor|]. destruct (f x) as [y|] eqn:E; [|discriminate H]. cbn [bind] in H. destruct (mapM f l) as [ys|]; [|discriminate H].
  injection H as <-. constructor; [exact E|apply IH; reflexivity].
Qed.
Lemma mapM_fails {A B} (f : A -> res B) e x : forall l, (forall y, In y l -> (exists z, f y = Ok z) \/ f y = Err e) -> In x l -> f x = Err e -> mapM f l = Err e.
Proof.
  induction l as [|y l IH]; intros H I E; [destruct I|]. cbn [mapM]. destruct (H y (or_introl eq_refl)) as [(z & K)|K]; rewrite K; [|reflexivity]. cbn [bind].
  destruct I as [->|I]; [congruence|]. rewrite IH; [reflexivity|intros w J; apply H; right; exact J|exact I|exact E].
Qed.
Lemma forall2_nth {A B} (R : A -> B -> Prop) : forall l m k x y, Forall2 R l m -> nth_error l k = Some x -> nth_error m k = Some y -> R x y.
Proof. intros l m k x y F. revert k. induction F as [|a b l m H F IH]; intros [|k] X Y; try discriminate X; [injection X as <-; injection Y as <-; exact H|]. exact (IH k X Y). Qed.
Lemma trunc_whole q : WholePart q (trunc q).
Proof.
  destruct q as [n d]. unfold WholePart, trunc, inject_Z, Qle, Qlt. cbn [Qnum Qden]. rewrite !Z.mul_1_r.
  pose proof (Z.quot_rem' n (Z.pos d)) as E. split; intro H; [assert (0 <= n) as N by lia; pose proof (Z.rem_bound_pos n (Z.pos d) N ltac:(lia))|assert (n <= 0) as N by lia; pose proof (Z.rem_nonpos n (Z.pos d) ltac:(lia) N); pose proof (Z.rem_bound_abs n (Z.pos d) ltac:(lia))]; nia.
Qed.
Lemma whole_unique q z1 z2 : WholePart q z1 -> WholePart q z2 -> z1 = z2.
Proof.
  destruct q as [n d]. unfold WholePart, inject_Z, Qle, Qlt. cbn [Qnum Qden]. rewrite !Z.mul_1_r. intros (A & B) (A' & B').
  destruct (Z_le_gt_dec 0 n) as [N|N]; [specialize (A ltac:(lia)); specialize (A' ltac:(lia))|specialize (B ltac:(lia)); specialize (B' ltac:(lia))]; nia.
Qed.
Lemma slice_rows {A} lo hi (l cells : list A) : RowsOf lo hi l cells -> slice lo (hi + 1) l = cells.
Proof.
  intros (before & after & -> & LB & H). unfold slice. rewrite !app_length. assert (lo <? 0 = false) as -> by (apply Z.ltb_ge; lia).
  assert (hi + 1 <? 0 = false) as -> by (apply Z.ltb_ge; lia). cbv zeta.
  replace (Z.to_nat (Z.min lo (Z.of_nat (length before + (length cells + length after))))) with (length before) by lia.
  rewrite skipn_app, skipn_all, Nat.sub_diag. cbn [skipn app].
  destruct H as [H|(-> & H)].
  - match goal with |- firstn ?k _ = _ => replace k with (length cells + 0)%nat by lia end. rewrite firstn_app_2. cbn [firstn]. apply app_nil_r.
  - rewrite app_nil_r. cbn [length] in *. match goal with |- firstn ?k _ = _ => replace k with (length cells) by lia end. apply firstn_all.
Qed.
Lemma all_some qs : all_numbers (map Some qs) = Some qs.
Proof. induction qs as [|q qs IH]; [reflexivity|]. cbn [map all_numbers]. rewrite IH. reflexivity. Qed.
Lemma all_none l : In None l -> all_numbers l = None.
Proof. induction l as [|[q|] l IH]; intro I; [destruct I| |reflexivity]. cbn [all_numbers]. destruct I as [E|I]; [discriminate E|]. rewrite (IH I). reflexivity. Qed.
Lemma mean_value heights lo hi m : MeanOf heights lo hi m -> exists w, np_mean (slice lo (hi + 1) heights) = Some w /\ (w == m)%Q.
Proof.
  intros (qs & H & N & E). rewrite (slice_rows lo hi heights _ H). unfold np_mean. rewrite all_some. destruct qs as [|q qs]; [contradiction|]. eexists. split; [reflexivity|]. rewrite E. reflexivity.
Qed.
Lemma halves_north limits n s d0 : Halves limits n s -> 0 <= d0 - n -> Z.quot (2 * d0 - limits) 2 = d0 - n.
Proof. intros (E & A & B) H. symmetry. assert (n = s \/ n = s + 1) as [-> | -> ] by lia; [apply (Z.quot_unique _ _ _ 0)|apply (Z.quot_unique _ _ _ 1)]; lia. Qed.
Lemma halves_south limits n s d0 : Halves limits n s -> 0 <= d0 -> Z.quot (2 * d0 + limits) 2 = d0 + s.
Proof. intros (E & A & B) H. symmetry. assert (n = s \/ n = s + 1) as [-> | -> ] by lia; [apply (Z.quot_unique _ _ _ 0)|apply (Z.quot_unique _ _ _ 1)]; lia. Qed.
Lemma halves_pole limits n s d0 : Halves limits n s -> d0 < s -> Z.quot (2 * d0 - limits) 2 = d0 - s.
Proof.
  intros (E & A & B) H. replace (2 * d0 - limits) with (- (limits - 2 * d0)) by lia. rewrite Z.quot_opp_l by lia. enough (s - d0 = Z.quot (limits - 2 * d0) 2) by lia.
  assert (n = s \/ n = s + 1) as [-> | -> ] by lia; [apply (Z.quot_unique _ _ _ 0)|apply (Z.quot_unique _ _ _ 1)]; lia.
Qed.
Lemma gradient_value heights limits center l v : Difference heights limits center l v -> exists w, gradient limits center l heights = Some w /\ (w == v)%Q.
Proof.
  intros (n & s & north & south & H & MN & MS & E). unfold gradient.
  assert (0 <= center - l - n) as LO by (destruct MN as (qs & (b & a & _ & L & _) & _); lia). assert (0 <= n) by (destruct H; lia).
  replace (2 * center - limits - 2 * l) with (2 * (center - l) - limits) by lia. replace (2 * center + limits - 2 * l) with (2 * (center - l) + limits) by lia.
  rewrite (halves_north limits n s) by (try exact H; lia). rewrite (halves_south limits n s) by (try exact H; lia).
  destruct (mean_value _ _ _ _ MN) as (x & -> & X). destruct (mean_value _ _ _ _ MS) as (y & -> & Y). eexists. split; [reflexivity|]. rewrite X, Y, E. reflexivity.
Qed.
Lemma max_rule : forall qs q, let m := fold_left (fun a b => if Qle_bool a b then b else a) qs q in (m = q \/ In m qs) /\ (q <= m)%Q /\ forall x, In x qs -> (x <= m)%Q.
Proof.
  induction qs as [|x qs IH]; intros q; cbn [fold_left]; cbv zeta; [split; [left; reflexivity|split; [apply Qle_refl|intros y []]]|].
  destruct (IH (if Qle_bool q x then x else q)) as (A & B & D). set (m := fold_left _ qs _) in *.
  destruct (Qle_bool q x) eqn:E.
  - apply Qle_bool_iff in E. split; [destruct A as [->|A]; [right; left; reflexivity|right; right; exact A]|]. split; [exact (Qle_trans _ _ _ E B)|]. intros y [<-|I]; [exact B|exact (D y I)].
  - assert (x <= q)%Q as F by (destruct (Qlt_le_dec x q) as [K|K]; [apply Qlt_le_weak; exact K|apply Qle_bool_iff in K; congruence]).
    split; [destruct A as [->|A]; [left; reflexivity|right; right; exact A]|]. split; [exact B|]. intros y [<-|I]; [exact (Qle_trans _ _ _ F B)|exact (D y I)].
Qed.
Lemma difference_proper heights limits center l v w : (v == w)%Q -> Difference heights limits center l v -> Difference heights limits center l w.
Proof. intros E (n & s & a & b & H & M1 & M2 & V). exists n, s, a, b. repeat (split; [assumption|]). rewrite <- E. exact V. Qed.
Lemma difference_same heights limits center l v w : Difference heights limits center l v -> Difference heights limits center l w -> (v == w)%Q.
Proof. intros A B. apply gradient_value in A. apply gradient_value in B. destruct A as (x & X & EX). destruct B as (y & Y & EY). rewrite X in Y. injection Y as ->. rewrite <- EX. exact EY. Qed.
Lemma day_rule1 lat_delta limits c heights result : lat_delta <> [] -> blocked_day lat_delta limits c heights = Ok result -> BlockRule lat_delta limits (trunc (90 - c)) heights result.
Proof.
  intros NE H ALL. unfold blocked_day in H. set (center := trunc (90 - c)) in *. clearbody center.
  assert (exists ws, map (fun l => gradient limits center l heights) lat_delta = map Some ws /\ Forall2 (fun l w => Difference heights limits center l w) lat_delta ws) as (ws & EW & F).
  { clear H NE. induction lat_delta as [|l ls IH]; [exists []; split; [reflexivity|constructor]|]. destruct IH as (ws & E & F); [intros k I; apply ALL; right; exact I|].
    destruct (ALL l (or_introl eq_refl)) as (v & D). destruct (gradient_value _ _ _ _ _ D) as (w & G & V). exists (w :: ws). cbn [map]. rewrite G, E. split; [reflexivity|]. constructor; [|exact F]. apply (difference_proper _ _ _ _ v); [symmetry; exact V|exact D]. }
  rewrite EW in H. unfold np_max in H. rewrite all_some in H. destruct ws as [|w ws]; [inversion F; subst; contradiction|]. cbn [map bind] in H.
  pose proof (max_rule ws w) as (A & B & D). set (m := fold_left _ ws w) in *. cbn [bind] in H. injection H as <-. exists m. split; [reflexivity|]. split; [|split].
  - assert (In m (w :: ws)) as I by (destruct A as [->|A]; [left; reflexivity|right; exact A]). clear - F I. induction F as [|l x ls xs G F IH]; [destruct I|]. destruct I as [->|I]; [exists l; split; [left; reflexivity|exact G]|]. destruct (IH I) as (k & K & DK). exists k. split; [right; exact K|exact DK].
  - intros l v I DV. assert (exists x, In x (w :: ws) /\ Difference heights limits center l x) as (x & IX & DX).
    { clear - F I. induction F as [|k x ls xs G F IH]; [destruct I|]. destruct I as [->|I]; [exists x; split; [left; reflexivity|exact G]|]. destruct (IH I) as (y & K & DK). exists y. split; [right; exact K|exact DK]. }
    rewrite (difference_same _ _ _ _ _ _ DV DX). destruct IX as [<-|IX]; [exact B|exact (D x IX)].
  - cbn [fst]. destruct (Qle_bool m 0) eqn:Z; [right; split; [reflexivity|apply Qle_bool_iff; exact Z]|left; split; [reflexivity|]]. destruct (Qlt_le_dec 0 m) as [K|K]; [exact K|apply Qle_bool_iff in K; congruence].
Qed.
Lemma item_nat {A} j (l : list A) x : item (Z.of_nat j) l = Ok x <-> nth_error l j = Some x.
Proof.
  unfold item. assert (Z.of_nat j <? 0 = false) as -> by (apply Z.ltb_ge; lia). cbv zeta. assert (Z.of_nat j <? 0 = false) as -> by (apply Z.ltb_ge; lia). rewrite Nat2Z.id. destruct (nth_error l j); split; congruence.
Qed.
Lemma column_nth {A} j (rows : list (list A)) c : column j rows = Ok c <-> Forall2 (fun row x => nth_error row j = Some x) rows c.
Proof.
  unfold column. split.
  - intro H. apply mapM_inv in H. induction H as [|r x rows c E F IH]; constructor; [apply item_nat; exact E|exact IH].
  - induction 1 as [|r x rows c E F IH]; [reflexivity|]. cbn [mapM]. rewrite (proj2 (item_nat j r x) E), IH. reflexivity.
Qed.
Lemma forall2_fun {A B} (R : A -> B -> Prop) : (forall a b b', R a b -> R a b' -> b = b') -> forall l m m', Forall2 R l m -> Forall2 R l m' -> m = m'.
Proof. intro FU. induction l as [|a l IH]; intros m m' H K; inversion H; inversion K; subst; [reflexivity|]. f_equal; [eapply FU; eassumption|apply IH; assumption]. Qed.
Lemma seq_combine {A} (l : list A) j x : nth_error l j = Some x -> nth_error (combine (seq 0 (length l)) l) j = Some (j, x).
Proof.
  assert (forall k, nth_error l j = Some x -> nth_error (combine (seq k (length l)) l) j = Some ((k + j)%nat, x)) as K; [|intro H; rewrite (K 0%nat H); reflexivity].
  revert j. induction l as [|a l IH]; intros [|j] k H; try discriminate H; cbn [length seq combine nth_error] in *; [injection H as ->; rewrite Nat.add_0_r; reflexivity|]. rewrite IH by exact H. f_equal. f_equal. lia.
Qed.
Lemma in_slice {A} lo hi (l : list A) i x : 0 <= lo -> lo <= i <= hi -> nth_error l (Z.to_nat i) = Some x -> In x (slice lo (hi + 1) l).
Proof.
  intros L I H. unfold slice. assert (Z.to_nat i < length l)%nat as LI by (apply nth_error_Some; congruence).
  assert (lo <? 0 = false) as -> by (apply Z.ltb_ge; lia). assert (hi + 1 <? 0 = false) as -> by (apply Z.ltb_ge; lia). cbv zeta.
  assert (forall (l : list A) a k j, (a <= j < a + k)%nat -> nth_error l j = Some x -> In x (firstn k (skipn a l))) as K.
  { clear. induction l as [|y l IH]; intros a k j R H; [destruct j; discriminate H|]. destruct a as [|a].
    - cbn [skipn]. destruct k as [|k]; [lia|]. cbn [firstn]. destruct j as [|j]; [left; injection H as ->; reflexivity|right]. apply (IH 0%nat k j); [lia|exact H].
    - cbn [skipn]. destruct j as [|j]; [lia|]. apply (IH a k j); [lia|exact H]. }
  apply (K l _ _ (Z.to_nat i)); [lia|exact H].
Qed.
Lemma mean_missing l : In None l -> np_mean l = None.
Proof. intro I. unfold np_mean. rewrite (all_none l I). reflexivity. Qed.

Lemma some_some qs : some_numbers (map Some qs) = qs.
Proof. unfold some_numbers. induction qs as [|q qs IH]; [reflexivity|]. cbn [map flat_map app]. rewrite IH. reflexivity. Qed.
Lemma forall2_nth_l {A B} (R : A -> B -> Prop) : forall l m k y, Forall2 R l m -> nth_error m k = Some y -> exists x, nth_error l k = Some x /\ R x y.
Proof. intros l m k y F. revert k. induction F as [|a b l m H F IH]; intros [|k] Y; try discriminate Y; [injection Y as <-; exists a; split; [reflexivity|exact H]|]. exact (IH k Y). Qed.
Lemma central_value cbl j col c : column j (map (map (fun q : Q => Some q)) cbl) = Ok col -> nanmean col = Some c -> Central cbl j c.
Proof.
  intros H M. apply column_nth in H. assert (exists qs, col = map Some qs /\ Forall2 (fun row q => nth_error row j = Some q) cbl qs) as (qs & -> & F).
  { revert col H M. clear. induction cbl as [|row cbl IH]; intros col H M; inversion H as [|? x ? col' E F]; subst; [exists []; split; [reflexivity|constructor]|].
    rewrite nth_error_map in E. destruct (nth_error row j) as [q|] eqn:N; [|discriminate E]. injection E as <-.
    assert (exists qs, col' = map Some qs /\ Forall2 (fun row q => nth_error row j = Some q) cbl qs) as (qs & -> & F').
    { clear - F. revert col' F. induction cbl as [|row cbl IH]; intros col H; inversion H as [|? x ? col' E F]; subst; [exists []; split; [reflexivity|constructor]|].
      rewrite nth_error_map in E. destruct (nth_error row j) as [q|] eqn:N; [|discriminate E]. injection E as <-. destruct (IH col' F) as (qs & -> & F'). exists (q :: qs). split; [reflexivity|]. constructor; assumption. }
    exists (q :: qs). split; [reflexivity|]. constructor; assumption. }
  exists qs. split; [exact F|]. unfold nanmean in M. rewrite some_some in M. destruct qs as [|q qs]; [discriminate M|]. split; [discriminate|]. injection M as <-. reflexivity.
Qed.
Lemma ph_run lat_delta limits days cbl : run_mod_blocking1d lat_delta limits "PH" days cbl =
  mapM (fun day => mapM (fun jc => bind (column (fst jc) day) (fun heights => blocked_day lat_delta limits (snd jc) heights)) (combine (seq 0 (length cbl)) cbl)) days.
Proof. reflexivity. Qed.
Lemma ph_cell lat_delta limits day cbl row j result : mapM (fun jc => bind (column (fst jc) day) (fun heights => blocked_day lat_delta limits (snd jc) heights)) (combine (seq 0 (length cbl)) cbl) = Ok row ->
  nth_error row j = Some result -> exists c heights, nth_error cbl j = Some c /\ HeightsAt day j heights /\ blocked_day lat_delta limits c heights = Ok result.
Proof.
  intros H N. apply mapM_inv in H. destruct (forall2_nth_l _ _ _ _ _ H N) as ([k c] & E & K). cbv beta in K.
  assert (j < length cbl)%nat as LJ by (assert (j < length (combine (seq 0 (length cbl)) cbl))%nat as L by (apply nth_error_Some; congruence); rewrite combine_length, seq_length, Nat.min_id in L; exact L).
  destruct (nth_error cbl j) as [c'|] eqn:EC; [|apply nth_error_None in EC; lia]. rewrite (seq_combine _ _ _ EC) in E. injection E as <- <-. cbn [fst snd] in K.
  destruct (column j day) as [heights|] eqn:EH; [|discriminate K]. cbn [bind] in K. exists c', heights. split; [reflexivity|]. split; [apply column_nth; exact EH|exact K].
Qed.
Lemma heights_same day j h h' : HeightsAt day j h -> HeightsAt day j h' -> h = h'.
Proof. apply forall2_fun. intros a b b' X Y. congruence. Qed.
Lemma blocked_total lat_delta limits c heights : lat_delta <> [] -> exists r, blocked_day lat_delta limits c heights = Ok r.
Proof. intro N. unfold blocked_day, np_max. destruct lat_delta as [|l ls]; [contradiction|]. cbn [map bind]. eexists. reflexivity. Qed.
Lemma item_result {A} j (l : list A) : (exists x, item (Z.of_nat j) l = Ok x) \/ item (Z.of_nat j) l = Err IndexError.
Proof. unfold item. assert (Z.of_nat j <? 0 = false) as -> by (apply Z.ltb_ge; lia). cbv zeta. assert (Z.of_nat j <? 0 = false) as -> by (apply Z.ltb_ge; lia). destruct (nth_error l _); [left; eexists; reflexivity|right; reflexivity]. Qed.
Lemma column_result {A} j (rows : list (list A)) : (exists x, column j rows = Ok x) \/ column j rows = Err IndexError.
Proof.
  unfold column. induction rows as [|r rows IH]; [left; exists []; reflexivity|]. cbn [mapM]. destruct (item_result j r) as [(x & ->)| -> ]; [|right; reflexivity]. cbn [bind]. destruct IH as [(y & ->)| -> ]; [left; eexists; reflexivity|right; reflexivity].
Qed.

Lemma forall2_len {A B} (R : A -> B -> Prop) l m : Forall2 R l m -> length l = length m.
Proof. intro F. induction F as [|? ? ? ? _ _ IH]; [reflexivity|]. cbn [length]. rewrite IH. reflexivity. Qed.

(** The statements of PropertiesBlock.v. *)
Lemma C65_days_proof : forall ibl_dist crit ibl, 2 <= crit -> (forall days a, In days ibl -> In a days -> length a = 360%nat) ->
  exists out, run_Calc_GIBL ibl_dist crit ibl = Ok out /\ Forall2 (Forall2 (DayGroups crit)) ibl out.
Proof.
  intros d crit ibl BIG L. unfold run_Calc_GIBL. apply mapM_all. intros days ID. apply mapM_all. intros a IA. apply day_groups; [exact BIG|]. exact (L days a ID IA).
Qed.

Lemma C65_days_case_proof :
  run_Calc_GIBL 7 15 [[block_row 360 100 120; block_row 360 200 210]] = Ok [[block_row 360 100 120; block_row 360 1000 1001]].
Proof.
  vm_compute. reflexivity.
Qed.

Lemma C65_marked_proof : forall ibl_dist crit a g x, 2 <= crit -> length a = 360%nat -> gibl_day ibl_dist crit a = Ok g ->
  nth_error g x = Some 1%Q -> exists s e y, 0 <= s <= y /\ y <= e < 720 /\ y mod 360 = Z.of_nat x /\ Chain (Blocked a) crit s e /\ crit <= e - s + 1.
Proof.
  intros d crit a g x BIG L H G. destruct (day_same d crit a g BIG L H) as (LG & members & _ & _ & M). assert (x < length g)%nat as LX by (apply nth_error_Some; congruence).
  destruct (M x _ G) as [(_ & [(s & e & A & B & K & Z)|(s & e & A & B & K & Z)] & _)|(E & _)]; [| |discriminate E].
  - exists s, e, (Z.of_nat x). split; [exact A|]. split; [exact B|]. split; [apply Z.mod_small; lia|]. auto.
  - exists s, e, (Z.of_nat x + 360). split; [exact A|]. split; [exact B|]. split; [|auto]. replace (Z.of_nat x + 360) with (Z.of_nat x + 1 * 360) by lia. rewrite Z.mod_add by lia. apply Z.mod_small. lia.
Qed.

Lemma C65_found_proof : forall ibl_dist crit a g s e x, 2 <= crit -> length a = 360%nat -> gibl_day ibl_dist crit a = Ok g ->
  0 <= s -> e < 360 -> Chain (Blocked a) crit s e -> crit <= e - s + 1 -> s <= x <= e -> nth_error g (Z.to_nat x) = Some 1%Q.
Proof.
  intros d crit a g s e x BIG L H S0 E3 CH SZ X. destruct (day_same d crit a g BIG L H) as (LG & members & _ & IM & M). pose proof (proj1 CH) as SE.
  assert (Z.to_nat x < length g)%nat as LX by lia. destruct (nth_error g (Z.to_nat x)) as [v|] eqn:G; [|exfalso; apply nth_error_None in G; lia].
  destruct (M _ _ G) as [(-> & _)|(_ & N)]; [reflexivity|]. exfalso. apply N. rewrite Z2Nat.id by lia. split; [left; exists s, e; split; [lia|]; split; [lia|]; auto|].
  assert (2 * (e - s + 1) <= Z.of_nat (length members)); [|lia]. apply two_laps; [exact SE|lia|]. intros y [Y|Y]; apply IM.
  - exists s, e. split; [lia|]. split; [lia|]. auto.
  - exists (s + 360), (e + 360). split; [lia|]. split; [lia|]. split; [apply chain_shift; [intros z _; apply blocked_shift|exact CH]|lia].
Qed.

Lemma C65_found_case_proof : length (block_row 360 100 120) = 360%nat /\ Chain (Blocked (block_row 360 100 120)) 15 100 120.
Proof.
  split; [vm_compute; reflexivity|].
  assert (forall x, 0 <= x < 360 -> (Blocked (block_row 360 100 120) x <-> 100 <= x <= 120)) as K.
  { intros x X. unfold Blocked. rewrite Z.mod_small by lia. unfold block_row. rewrite nth_error_map, (nth_error_nth' _ 0%nat) by (rewrite seq_length; lia). rewrite seq_nth by lia. cbn [option_map]. replace (Z.of_nat (0 + Z.to_nat x)) with x by lia.
    change (100 <=? 120) with true. cbv beta iota zeta. destruct (Z.leb_spec 100 x), (Z.leb_spec x 120); cbn [andb]; split; try lia; intro H1.
    all: try (destruct H1 as (v & [= <-] & E); discriminate E).
    exists 1%Q. split; reflexivity. }
  split; [lia|]. split; [apply K; lia|]. split; [apply K; lia|]. intros x X _. exists (x + 1). split; [lia|]. split; [apply K; lia|lia].
Qed.

Lemma C65_crossing_refuted_proof : forall ibl_dist crit a west east, 2 <= crit -> length a = 360%nat ->
  (forall x, 0 <= x < 360 -> (Blocked a x <-> x < east \/ 360 - west <= x)) ->
  1 <= west < crit -> 1 <= east < crit -> crit <= west + east -> crit < 2 * (361 - west - east) ->
  Chain (Blocked a) crit (360 - west) (360 + east - 1) /\ gibl_day ibl_dist crit a = Ok (map (fun _ => 0%Q) a).
Proof.
  intros d crit a west east BIG L HB W E T G.
  assert (forall x, 0 <= x < 720 -> (Blocked a x <-> x < east \/ 360 - west <= x < 360 + east \/ 720 - west <= x)) as HB2.
  { intros x X. destruct (Z_lt_le_dec x 360) as [Y|Y]; [rewrite HB by lia; lia|]. replace x with (x - 360 + 360) at 1 by lia. rewrite blocked_shift, HB by lia. lia. }
  split.
  - split; [lia|]. split; [apply HB2; lia|]. split; [apply HB2; lia|]. intros x X _. exists (x + 1). split; [lia|]. split; [apply HB2; lia|lia].
  - destruct (day_groups d crit a BIG L) as (g & -> & LG & members & ND & IM & M). f_equal. apply all_zero; [exact LG|]. intros i v H. destruct (M i v H) as [(_ & _ & N)|(-> & _)]; [|reflexivity]. exfalso.
    assert (length members <= length (arange (360 - west) (359 + east)))%nat as K.
    { apply NoDup_incl_length; [exact ND|]. intros y I. apply IM in I. destruct I as (s & e & A & B & CH & SZ). apply arange_in. pose proof CH as (SE & Ps & Pe & _).
      apply HB2 in Ps; [|lia]. apply HB2 in Pe; [|lia].
      assert (forall t, t = east \/ t = 360 + east -> s < t -> t <= e -> False) as NC.
      { intros t HT S1 S2. destruct (crossing (Blocked a) crit t s e CH S1 S2) as (u & z & U & V & Pu & Pz & D). apply HB2 in Pu; [|lia]. apply HB2 in Pz; [|lia]. lia. }
      assert (s < east \/ 360 - west <= s < 360 + east \/ 720 - west <= s) as [S1|[S1|S1]] by exact Ps.
      - exfalso. destruct (Z_lt_le_dec e east) as [EE|EE]; [lia|]. exact (NC east (or_introl eq_refl) S1 EE).
      - destruct (Z_lt_le_dec e (360 + east)) as [EE|EE]; [lia|]. exfalso. apply (NC (360 + east) (or_intror eq_refl)); lia.
      - exfalso. lia. }
    rewrite arange_length in K. lia.
Qed.

Lemma C65_crossing_case_proof :
  gibl_day 7 15 (block_row 360 350 9) = Ok (block_row 360 1000 1001) /\
  gibl_day 7 15 (block_row 360 150 169) = Ok (block_row 360 150 169).
Proof.
  split; vm_compute; reflexivity.
Qed.

Lemma C65_distance_refuted_proof : forall d1 d2 crit ibl, run_Calc_GIBL d1 crit ibl = run_Calc_GIBL d2 crit ibl.
Proof.
  reflexivity.
Qed.

Lemma C65_grid_refuted_proof : forall ibl_dist crit a, 2 <= crit -> Z.of_nat (length a) < 360 -> crit < 2 * (361 - Z.of_nat (length a)) ->
  exists g, gibl_day ibl_dist crit a = Ok g /\ length g = length a /\
    Marked (InGroup (BlockedRow a) crit (Z.of_nat (length a))) g.
Proof.
  intros d crit a BIG L G. set (n := Z.of_nat (length a)) in *. set (P := fun y => BlockedRow a y \/ BlockedRow a (y - 360)).
  assert (forall x, BlockedRow a x <-> In x (ones 0 a)) as BO by (intro x; rewrite ones_in, Z.sub_0_r; reflexivity).
  assert (forall x, BlockedRow a x -> 0 <= x < n) as BR by (intros x B; apply BO in B; apply ones_range in B; exact B).
  assert (forall x, 0 <= x < 360 -> (BlockedRow a x <-> P x)) as P1 by (intros x X; unfold P; split; [left; assumption|intros [K|K]; [exact K|apply BR in K; lia]]).
  assert (forall x, 0 <= x < 360 -> (P (x + 360) <-> P x)) as P2.
  { intros x X. rewrite <- (P1 x X). unfold P. replace (x + 360 - 360) with x by lia. split; [intros [K|K]; [apply BR in K; lia|exact K]|right; assumption]. }
  assert (forall x, 0 <= x -> P x -> x < n \/ 360 <= x < 360 + n) as PR by (intros x X [K|K]; apply BR in K; lia).
  assert (forall s e, 0 <= s -> Chain P crit s e -> e < n \/ 360 <= s) as ONE.
  { intros s e S0 CH. pose proof CH as (SE & Ps & Pe & _). apply PR in Ps; [|exact S0]. apply PR in Pe; [|lia]. destruct Pe as [Pe|Pe]; [left; exact Pe|]. destruct Ps as [Ps|Ps]; [|right; lia]. exfalso.
    destruct (crossing P crit 360 s e CH) as (u & z & U & V & Pu & Pz & D); [lia|lia|]. apply PR in Pu; [|lia]. lia. }
  assert (forall x, 0 <= x < 360 -> (InGroup P crit (360 + n) x <-> InGroup (BlockedRow a) crit n x)) as G1.
  { intros x X. split; intros (s & e & A & B & CH & SZ); exists s, e.
    - destruct (ONE s e ltac:(lia) CH) as [EN|EN]; [|lia]. split; [exact A|]. split; [lia|]. split; [|exact SZ]. apply (chain_ext P); [|exact CH]. intros z Z. symmetry. apply P1. lia.
    - split; [exact A|]. split; [lia|]. split; [|exact SZ]. apply (chain_ext (BlockedRow a)); [|exact CH]. intros z Z. apply P1. lia. }
  assert (forall x, 0 <= x < 360 -> (InGroup P crit (360 + n) (x + 360) <-> InGroup (BlockedRow a) crit n x)) as G2.
  { intros x X. split; intros (s & e & A & B & CH & SZ).
    - destruct (ONE s e ltac:(lia) CH) as [EN|EN]; [lia|]. exists (s - 360), (e - 360). split; [lia|]. split; [lia|]. split; [|lia].
      apply (chain_ext P); [intros z Z; symmetry; apply P1; lia|]. replace (s - 360) with (s + -360) by lia. replace (e - 360) with (e + -360) by lia. apply chain_shift; [|exact CH].
      intros z Z. replace (z + -360) with (z - 360) by lia. rewrite <- (P2 (z - 360)) by lia. replace (z - 360 + 360) with z by lia. reflexivity.
    - exists (s + 360), (e + 360). split; [lia|]. split; [lia|]. split; [|lia]. apply chain_shift; [intros z Z; apply P2; lia|]. apply (chain_ext (BlockedRow a)); [|exact CH]. intros z Z. apply P1. lia. }
  destruct (day_rule d crit a P BIG) as (g & members & E & LG & ND & IM & M).
  - lia.
  - intros y Y. unfold P. rewrite !BO. reflexivity.
  - intros y (s & e & A & B & CH & SZ). destruct (ONE s e ltac:(lia) CH) as [EN|EN]; [|pose proof (proj1 CH)]; destruct (Z.leb_spec 360 y); lia.
  - exists g. split; [exact E|]. split; [exact LG|]. intros i v H. assert (i < length g)%nat as LI by (apply nth_error_Some; congruence).
    destruct (M i v H) as [(-> & [K|K] & _)|(-> & N)]; [left; split; [reflexivity|apply G1; [lia|exact K]]|left; split; [reflexivity|apply G2; [lia|exact K]]|].
    right. split; [reflexivity|]. intro K. apply N. split; [left; apply G1; [lia|exact K]|]. destruct K as (s & e & A & B & CH & SZ).
    assert (2 * (e - s + 1) <= Z.of_nat (length members)); [|lia]. apply two_laps; [lia|lia|]. intros y [Y|Y]; apply IM.
    + apply G1; [lia|]. exists s, e. split; [lia|]. split; [lia|]. auto.
    + replace y with (y - 360 + 360) by lia. apply G2; [lia|]. exists s, e. split; [lia|]. split; [lia|]. auto.
Qed.

Lemma C65_grid_case_proof :
  gibl_day 7 15 (block_row 144 130 13) = Ok (block_row 144 1000 1001) /\ gibl_day 7 15 (block_row 144 130 14) = Ok (block_row 144 0 14).
Proof.
  split; vm_compute; reflexivity.
Qed.

Lemma C66_blocked_proof : forall lat_delta limits days cbl out k day j c center heights result,
  lat_delta <> [] -> 0 <= limits -> run_mod_blocking1d lat_delta limits "PH"%string days cbl = Ok out ->
  nth_error days k = Some day -> nth_error cbl j = Some c -> WholePart (90 - c) center -> HeightsAt day j heights ->
  (exists row, nth_error out k = Some row /\ nth_error row j = Some result) -> BlockRule lat_delta limits center heights result.
Proof.
  intros lat_delta limits days cbl out k day j c center heights result NE LI H ND NC W HH (row & NO & NR). rewrite ph_run in H. apply mapM_inv in H.
  pose proof (forall2_nth _ _ _ _ _ _ H ND NO) as K. cbv beta in K. destruct (ph_cell _ _ _ _ _ _ _ K NR) as (c' & h' & EC & HH' & B). rewrite NC in EC. injection EC as <-. rewrite (heights_same _ _ _ _ HH HH').
  rewrite (whole_unique _ _ _ W (trunc_whole _)). apply day_rule1; assumption.
Qed.

Lemma C66_blocked_case_proof : exists bi1 bi2, run_mod_blocking1d [-5; 0; 5] 30 "PH"%string [block_day] [50%Q; 51%Q] = Ok [[(1%Q, Some bi1); (0%Q, Some bi2)]] /\
  (bi1 == 15)%Q /\ WholePart (90 - 50) 40 /\ Difference (map (fun i => Some (inject_Z (100 - Z.of_nat i))) (seq 0 91)) 30 40 (-5) 15.
Proof.
  eexists. eexists. split; [vm_compute; reflexivity|]. split; [reflexivity|]. split; [exact (trunc_whole (90 - 50))|].
  exists 15, 15. eexists. eexists. split; [split; [reflexivity|lia]|]. split; [|split].
  - exists (map (fun i => inject_Z (100 - Z.of_nat i)) (seq 30 16)). split; [|split; [discriminate|reflexivity]].
    exists (map (fun i => Some (inject_Z (100 - Z.of_nat i))) (seq 0 30)), (map (fun i => Some (inject_Z (100 - Z.of_nat i))) (seq 46 45)). split; [reflexivity|]. split; [reflexivity|left; reflexivity].
  - exists (map (fun i => inject_Z (100 - Z.of_nat i)) (seq 45 16)). split; [|split; [discriminate|reflexivity]].
    exists (map (fun i => Some (inject_Z (100 - Z.of_nat i))) (seq 0 45)), (map (fun i => Some (inject_Z (100 - Z.of_nat i))) (seq 61 30)). split; [reflexivity|]. split; [reflexivity|left; reflexivity].
  - vm_compute. reflexivity.
Qed.

Lemma C66_years_proof : forall lat_delta limits cbl nlon years out, lat_delta <> [] -> 0 <= limits ->
  run_Calc_IBL lat_delta limits "PH"%string cbl nlon years = Ok out ->
  Forall2 (Forall2 (fun day row => length row = nlon /\ forall j v, nth_error row j = Some v ->
    exists c center heights bi, Central cbl j c /\ WholePart (90 - c) center /\ HeightsAt day j heights /\ BlockRule lat_delta limits center heights (v, bi))) years out.
Proof.
  intros lat_delta limits cbl nlon years out NE LI H. unfold run_Calc_IBL in H.
  match type of H with bind ?x _ = _ => destruct x as [means|] eqn:EM; [|discriminate H] end. cbn [bind] in H. apply mapM_inv in H. apply mapM_inv in EM.
  assert (length means = nlon) as LM by (rewrite <- (forall2_len _ _ _ EM); apply seq_length).
  assert (forall j c, nth_error means j = Some c -> Central cbl j c) as CE.
  { intros j c NJ. destruct (forall2_nth_l _ _ _ _ _ EM NJ) as (j' & EJ & K). cbv beta in K.
    assert (j < nlon)%nat as LJ by (rewrite <- LM; apply nth_error_Some; congruence).
    assert (j' = j) as -> by (rewrite (nth_error_nth' _ 0%nat) in EJ by (rewrite seq_length; exact LJ); injection EJ as <-; rewrite seq_nth by exact LJ; reflexivity).
    destruct (column j (map (map (fun q : Q => Some q)) cbl)) as [col|] eqn:EC; [|discriminate K]. cbn [bind] in K. destruct (nanmean col) as [q|] eqn:EQ; [|discriminate K]. injection K as ->. exact (central_value _ _ _ _ EC EQ). }
  clear EM. induction H as [|days o years out E F IH]; constructor; [|exact IH]. clear IH F. cbv beta in E. rewrite ph_run in E.
  match type of E with bind ?x _ = _ => destruct x as [rows|] eqn:ER; [|discriminate E] end. cbn [bind] in E. injection E as <-. apply mapM_inv in ER.
  induction ER as [|day row days rows K F IH]; cbn [map]; constructor; [|exact IH]. cbv beta in K. split.
  - rewrite map_length. apply mapM_inv in K. rewrite <- (forall2_len _ _ _ K), combine_length, seq_length, Nat.min_id. exact LM.
  - intros j v NV. rewrite nth_error_map in NV. destruct (nth_error row j) as [[v' bi]|] eqn:NR; [|discriminate NV]. injection NV as <-. destruct (ph_cell _ _ _ _ _ _ _ K NR) as (c & heights & NC & HH & B).
    exists c, (trunc (90 - c)), heights, bi. split; [apply CE; exact NC|]. split; [apply trunc_whole|]. split; [exact HH|]. apply day_rule1; assumption.
Qed.

Lemma C66_years_case_proof : run_Calc_IBL [-5; 0; 5] 30 "PH"%string [[49%Q; 50%Q]; [51%Q; 50%Q]] 2 [[block_day; block_day]] = Ok [[[1%Q; 0%Q]; [1%Q; 0%Q]]].
Proof.
  vm_compute. reflexivity.
Qed.

Lemma C66_missing_refuted_proof : forall lat_delta limits c center heights l n s, In l lat_delta -> WholePart (90 - c) center -> Halves limits n s ->
  ((0 <= center - l < s /\ s < Z.of_nat (length heights)) \/
   (exists i, nth_error heights (Z.to_nat i) = Some None /\ 0 <= center - l - n /\ center - l - n <= i <= center - l + s)) ->
  blocked_day lat_delta limits c heights = Ok (0%Q, None).
Proof.
  intros lat_delta limits c center heights l n s IL W H M. unfold blocked_day. rewrite (whole_unique _ _ _ (trunc_whole (90 - c)) W).
  assert (gradient limits center l heights = None) as G.
  { unfold gradient. replace (2 * center - limits - 2 * l) with (2 * (center - l) - limits) by lia. replace (2 * center + limits - 2 * l) with (2 * (center - l) + limits) by lia. destruct M as [(A & B)|(i & NI & A & B)].
    - rewrite (halves_pole limits n s) by (try exact H; lia). replace (slice (center - l - s) (center - l + 1) heights) with ([] : list (option Q)); [reflexivity|]. symmetry. unfold slice.
      assert (center - l - s <? 0 = true) as -> by (apply Z.ltb_lt; lia). assert (center - l + 1 <? 0 = false) as -> by (apply Z.ltb_ge; lia). cbv zeta.
      match goal with |- firstn ?k _ = _ => replace k with 0%nat by lia end. reflexivity.
    - assert (0 <= n) by (destruct H; lia). rewrite (halves_north limits n s) by (try exact H; lia). rewrite (halves_south limits n s) by (try exact H; lia).
      destruct (Z_le_gt_dec i (center - l)) as [K|K].
      + rewrite (mean_missing (slice (center - l - n) (center - l + 1) heights)); [reflexivity|]. apply (in_slice _ _ _ i); [exact A|lia|exact NI].
      + rewrite (mean_missing (slice (center - l) (center - l + s + 1) heights)); [destruct (np_mean _); reflexivity|]. apply (in_slice _ _ _ i); [lia|lia|exact NI]. }
  unfold np_max. destruct lat_delta as [|l0 ls]; [destruct IL|]. rewrite (all_none (map _ (l0 :: ls))); [reflexivity|]. rewrite <- G. apply (in_map (fun l => gradient limits center l heights)). exact IL.
Qed.

Lemma C66_missing_case_proof :
  let heights := map (fun i => Some (inject_Z (100 - Z.of_nat i))) (seq 0 91) in
  (exists q, blocked_day [0] 30 73 heights = Ok (1%Q, Some q)) /\ blocked_day [0; 5] 30 73 heights = Ok (0%Q, None).
Proof.
  cbv zeta. split; [eexists|]; vm_compute; reflexivity.
Qed.

Lemma C66_method_refuted_proof : forall lat_delta limits method days cbl, method <> "PH"%string ->
  exists out, run_mod_blocking1d lat_delta limits method days cbl = Ok out /\
    forall row x, In row out -> In x row -> fst x = 0%Q.
Proof.
  intros lat_delta limits method days cbl N. unfold run_mod_blocking1d. destruct (String.eqb_spec method "PH") as [E|_]; [contradiction|]. eexists. split; [reflexivity|].
  intros row x I J. apply in_map_iff in I. destruct I as (d & <- & _). apply in_map_iff in J. destruct J as (c & <- & _). reflexivity.
Qed.

Lemma C66_exceptions_proof : forall lat_delta limits day days cbl c,
  ((forall row, In row day -> row <> []) -> run_mod_blocking1d [] limits "PH"%string (day :: days) (c :: cbl) = Err ValueError) /\
  (forall row, lat_delta <> [] -> In row day -> (length row < length (c :: cbl))%nat -> run_mod_blocking1d lat_delta limits "PH"%string (day :: days) (c :: cbl) = Err IndexError).
Proof.
  intros lat_delta limits day days cbl c. rewrite !ph_run. split.
  - intro H. cbn [mapM length seq combine fst snd].
    assert (exists h, column 0 day = Ok h) as (h & ->).
    { destruct (column_result 0 day) as [K|K]; [exact K|]. exfalso. unfold column in K. revert H K. clear. induction day as [|r day IH]; intros H K; [discriminate K|]. cbn [mapM] in K.
      destruct r as [|x r]; [exact (H [] (or_introl eq_refl) eq_refl)|]. change (item (Z.of_nat 0) (x :: r)) with (Ok x) in K. cbn [bind] in K. destruct (mapM (item (Z.of_nat 0)) day) eqn:E; [discriminate K|]. injection K as ->. apply IH; [intros w I; apply H; right; exact I|reflexivity]. }
    reflexivity.
  - intros row NE IR LR. destruct (nth_error (c :: cbl) (length row)) as [q|] eqn:EQ; [|apply nth_error_None in EQ; lia]. cbn [mapM]. rewrite (mapM_fails _ IndexError (length row, q)); [reflexivity| | |].
    + intros [j q0] _. cbn [fst snd]. destruct (column_result j day) as [(h & ->)| -> ]; [|right; reflexivity]. cbn [bind]. left. exact (blocked_total lat_delta limits q0 h NE).
    + eapply nth_error_In. exact (seq_combine _ _ _ EQ).
    + cbn [fst snd]. destruct (column_result (length row) day) as [(h & K)|K]; [|rewrite K; reflexivity]. exfalso. apply column_nth in K. clear - K IR. induction K as [|r x rows c' E F IH]; [destruct IR|]. destruct IR as [->|IR]; [|exact (IH IR)].
      assert (length row < length row)%nat; [apply nth_error_Some; congruence|lia].
Qed.

Lemma C66_exceptions_case_proof : run_mod_blocking1d [] 30 "PH"%string [[[Some 1%Q]]] [50%Q] = Err ValueError /\
  run_mod_blocking1d [0] 30 "PH"%string [[[Some 1%Q]]] [50%Q; 50%Q] = Err IndexError.
Proof.
  split; reflexivity.
Qed.

