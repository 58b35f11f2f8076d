(** Proofs about tropical diagnostics. *)
From Coq Require Import QArith Lia String List Lqa.
From Verif Require Import PyBase ColumnModel TropicsModel TropicsSpec.
Import ListNotations.
Open Scope nat_scope.

Lemma ext_nth {A : Type} : forall a b : list A, (forall i, nth_error a i = nth_error b i) -> a = b.
Proof.
  induction a as [|x a IH]; intros [|y b] E; auto.
  - specialize (E 0). discriminate.
  - specialize (E 0). discriminate.
  - pose proof (E 0) as E0. cbn in E0. injection E0 as ->. f_equal. apply IH. intro i. exact (E (S i)).
Qed.

(** Longitudes. *)
Lemma select_app {A : Type} m1 m2 (a b : list A) : length m1 = length a ->
  select (m1 ++ m2) (a ++ b) = (select m1 a ++ select m2 b)%list.
Proof.
  unfold select. revert a. induction m1 as [|c m1 IH]; intros [|x a] H; try discriminate; auto.
  cbn. injection H as H. destruct c; cbn; rewrite IH; auto.
Qed.
Lemma select_true {A : Type} (f : Q -> bool) : forall l (l' : list A), Forall (fun x => f x = true) l ->
  length l' = length l -> select (map f l) l' = l'.
Proof.
  unfold select. induction l as [|x l IH]; intros [|y l'] F H; try discriminate; auto.
  inversion F; subst. cbn. rewrite H2. cbn. f_equal. apply IH; auto.
Qed.
Lemma select_false {A : Type} (f : Q -> bool) : forall l (l' : list A), Forall (fun x => f x = false) l ->
  select (map f l) l' = [].
Proof.
  unfold select. induction l as [|x l IH]; intros [|y l'] F; auto.
  inversion F; subst. cbn. rewrite H1. apply IH; auto.
Qed.
Lemma ltb_neg x : (x < 0)%Q -> Qlt_bool x 0 = true.
Proof. intro H. unfold Qlt_bool. apply Bool.negb_true_iff, Bool.not_true_iff_false. rewrite Qle_bool_iff. lra. Qed.
Lemma ltb_lt x y : Qlt_bool x y = true <-> (x < y)%Q.
Proof. unfold Qlt_bool. rewrite Bool.negb_true_iff, <- Bool.not_true_iff_false, Qle_bool_iff. split; intro; lra. Qed.
Lemma ltb_ge x y : Qlt_bool x y = false <-> (y <= x)%Q.
Proof. unfold Qlt_bool. rewrite Bool.negb_false_iff, Qle_bool_iff. reflexivity. Qed.
Lemma leb_gt x y : Qle_bool x y = false <-> (y < x)%Q.
Proof. rewrite <- Bool.not_true_iff_false, Qle_bool_iff. split; intro; lra. Qed.

Lemma forall_impl {A : Type} (P Q : A -> Prop) l : (forall x, P x -> Q x) -> Forall P l -> Forall Q l.
Proof. intros H. apply Forall_impl. exact H. Qed.

Lemma wide_b {A : Type} n (data : list (list (list A))) :
  forallb (forallb (fun row => length row =? n)) data = true <-> Wide n data.
Proof.
  unfold Wide. rewrite forallb_forall, Forall_forall. split; intros H x I.
  - apply Forall_forall. intros r J. apply H in I. rewrite forallb_forall in I. apply Nat.eqb_eq, I, J.
  - apply forallb_forall. intros r J. apply Nat.eqb_eq. apply H in I. rewrite Forall_forall in I. apply I, J.
Qed.

Lemma roll_swap {A : Type} k (row : list A) s n : length row = n -> 0 < n -> Nat.modulo k n = s ->
  roll k row = (skipn (n - s) row ++ firstn (n - s) row)%list.
Proof. intros L P E. unfold roll. destruct row as [|x row]; [cbn in L; lia|]. rewrite L. destruct n; [lia|]. rewrite E. reflexivity. Qed.

Lemma east_run {A : Type} shared (data : list (list (list A))) (west east : list Q) :
  west <> [] -> Forall (fun x => x < 0)%Q west -> Forall (fun x => 0 <= x)%Q east ->
  Wide (length west + length east) data ->
  lonFlip shared data (west ++ east) =
  Ok (map (map (roll (length west))) data,
      (east ++ map (fun x => x + 360)%Q (if shared then firstn (length west) (east ++ skipn (length east) (west ++ east)) else west))%list).
Proof.
  intros NE FW FE W. unfold lonFlip. destruct west as [|w0 west0]; [congruence|].
  set (west := w0 :: west0) in *. cbn [app]. change (w0 :: (west0 ++ east))%list with (west ++ east)%list.
  assert (EX : existsb (fun x => Qlt_bool x 0) (west ++ east) = true).
  { apply existsb_exists. exists w0. split; [left; auto|]. inversion FW; subst. apply ltb_neg; auto. }
  rewrite EX.
  assert (A1 : Forall (fun x => Qlt_bool x 0 = true) west).
  { eapply Forall_impl; [|exact FW]. intros x H. apply ltb_neg. exact H. }
  assert (A2 : Forall (fun x => Qlt_bool x 0 = false) east).
  { eapply Forall_impl; [|exact FE]. intros x H. apply ltb_ge. exact H. }
  assert (A3 : Forall (fun x => Qle_bool 0 x = false) west).
  { eapply Forall_impl; [|exact FW]. intros x H. apply leb_gt. exact H. }
  assert (A4 : Forall (fun x => Qle_bool 0 x = true) east).
  { eapply Forall_impl; [|exact FE]. intros x H. apply Qle_bool_iff. exact H. }
  rewrite !map_app.
  assert (S1 : select (map (fun x => Qle_bool 0 x) west ++ map (fun x => Qle_bool 0 x) east) (west ++ east) = east).
  { rewrite select_app by (rewrite map_length; auto). rewrite (select_false _ west west), (select_true _ east east); auto. }
  assert (S2 : select (map (fun x => Qlt_bool x 0) west ++ map (fun x => Qlt_bool x 0) east) (west ++ east) = west).
  { rewrite select_app by (rewrite map_length; auto). rewrite (select_true _ west west), (select_false _ east east), app_nil_r; auto. }
  rewrite S1, S2, map_id.
  assert (S3 : select (map (fun x => Qlt_bool x 0) west ++ map (fun x => Qlt_bool x 0) east)
             (if shared then (east ++ skipn (length east) (west ++ east))%list else (west ++ east)%list) =
           if shared then firstn (length west) (east ++ skipn (length east) (west ++ east)) else west).
  { destruct shared; [|exact S2].
    set (st := (east ++ skipn (length east) (west ++ east))%list).
    assert (LS : length st = length west + length east).
    { unfold st. rewrite app_length, skipn_length, app_length. lia. }
    rewrite <- (firstn_skipn (length west) st) at 1.
    rewrite select_app by (rewrite map_length, firstn_length; lia).
    rewrite (select_true _ west), (select_false _ east), app_nil_r; auto. rewrite firstn_length; lia. }
  rewrite S3.
  match goal with |- context [forallb ?g data] => assert (B : forallb g data = true) end.
  { apply wide_b. rewrite app_length, map_length.
    replace (length (if shared then _ else west)) with (length west); [rewrite Nat.add_comm; exact W|].
    destruct shared; auto. rewrite firstn_length, app_length, skipn_length, app_length. lia. }
  rewrite B. reflexivity.
Qed.

Lemma west_run {A : Type} (data : list (list (list A))) (east west : list Q) :
  (east ++ west)%list <> [] -> Forall (fun x => 0 <= x /\ x < 180)%Q east -> Forall (fun x => 180 <= x)%Q west ->
  Wide (length east + length west) data ->
  lonFlip false data (east ++ west) =
  Ok (map (map (roll (length east))) data, (map (fun x => x - 360)%Q west ++ east)%list).
Proof.
  intros NE FE FW W. unfold lonFlip. remember (east ++ west)%list as lon eqn:EL. destruct lon as [|l0 lon0]; [congruence|].
  rewrite EL in *. clear EL l0 lon0 NE.
  assert (EX : existsb (fun x => Qlt_bool x 0) (east ++ west) = false).
  { apply Bool.not_true_iff_false. rewrite existsb_exists. intros (x & I & H). apply ltb_lt in H. apply in_app_or in I.
    rewrite Forall_forall in FE, FW. destruct I as [I|I]; [specialize (FE _ I)|specialize (FW _ I)]; lra. }
  rewrite EX.
  assert (A1 : Forall (fun x => Qlt_bool x 180 = true) east).
  { eapply Forall_impl; [|exact FE]. intros x H. apply ltb_lt, H. }
  assert (A2 : Forall (fun x => Qlt_bool x 180 = false) west).
  { eapply Forall_impl; [|exact FW]. intros x H. apply ltb_ge. exact H. }
  assert (A3 : Forall (fun x => Qle_bool 180 x = false) east).
  { eapply Forall_impl; [|exact FE]. intros x H. apply leb_gt, H. }
  assert (A4 : Forall (fun x => Qle_bool 180 x = true) west).
  { eapply Forall_impl; [|exact FW]. intros x H. apply Qle_bool_iff. exact H. }
  rewrite !map_app.
  assert (S1 : select (map (fun x => Qle_bool 180 x) east ++ map (fun x => Qle_bool 180 x) west) (east ++ west) = west).
  { rewrite select_app by (rewrite map_length; auto). rewrite (select_false _ east east), (select_true _ west west); auto. }
  assert (S2 : select (map (fun x => Qlt_bool x 180) east ++ map (fun x => Qlt_bool x 180) west) (east ++ west) = east).
  { rewrite select_app by (rewrite map_length; auto). rewrite (select_true _ east east), (select_false _ west west), app_nil_r; auto. }
  rewrite S1, S2, map_id.
  match goal with |- context [forallb ?g data] => assert (B : forallb g data = true) end.
  { apply wide_b. rewrite app_length, map_length, Nat.add_comm. exact W. }
  rewrite B. reflexivity.
Qed.

Lemma map_rows {A : Type} n (f g : list A -> list A) data : Wide n data -> (forall row, length row = n -> f row = g row) ->
  map (map f) data = map (map g) data.
Proof.
  unfold Wide. intros W E. apply map_ext_in. intros rows I. apply map_ext_in. intros row J. apply E.
  rewrite Forall_forall in W. specialize (W _ I). rewrite Forall_forall in W. exact (W _ J).
Qed.

Lemma roll_west {A : Type} (row : list A) w e : length row = w + e -> 0 < w -> w = e \/ e = 0 ->
  roll w row = (skipn w row ++ firstn w row)%list.
Proof.
  intros L P [H|H].
  - rewrite (roll_swap w row w (w + e)); try lia. 2:{ apply Nat.mod_small. lia. }
    replace (w + e - w) with w by lia. reflexivity.
  - rewrite (roll_swap w row 0 w); try lia. 2:{ apply Nat.mod_same. lia. }
    rewrite Nat.sub_0_r. reflexivity.
Qed.
Lemma roll_east {A : Type} (row : list A) w e : length row = e + w -> 0 < e + w -> w = e \/ e = 0 \/ w = 0 ->
  roll e row = (skipn e row ++ firstn e row)%list.
Proof.
  intros L P [H|[H|H]].
  - rewrite (roll_swap e row e (e + w)); try lia. 2:{ apply Nat.mod_small. lia. }
    replace (e + w - e) with e by lia. reflexivity.
  - subst e. rewrite (roll_swap 0 row 0 w); try lia. 2:{ apply Nat.mod_small. lia. }
    rewrite Nat.sub_0_r. cbn [skipn firstn]. rewrite app_nil_r. rewrite skipn_all2, firstn_all2 by lia. reflexivity.
  - subst w. rewrite (roll_swap e row 0 e); try lia. 2:{ apply Nat.mod_same. lia. }
    rewrite Nat.sub_0_r. reflexivity.
Qed.

Lemma at_place {A : Type} (a b : list Q) (row : list A) (f g : Q -> Q) : length row = length a + length b ->
  (forall x, SamePlace (f x) x) -> (forall x, SamePlace (g x) x) ->
  AtPlace (a ++ b) row (map f b ++ map g a) (skipn (length a) row ++ firstn (length a) row).
Proof.
  intros L F G. split.
  { rewrite !app_length, !map_length, skipn_length, firstn_length. lia. }
  intros i x v N1 N2. destruct (Nat.lt_ge_cases i (length b)) as [C|C].
  - rewrite nth_error_app1 in N1 by (rewrite map_length; auto).
    rewrite nth_error_app1 in N2 by (rewrite skipn_length; lia).
    rewrite nth_error_map in N1. destruct (nth_error b i) as [y|] eqn:E; [|discriminate]. injection N1 as <-.
    exists (length a + i), y. split; [|split].
    + rewrite nth_error_app2 by lia. replace (length a + i - length a) with i by lia. exact E.
    + rewrite <- N2. rewrite <- (firstn_skipn (length a) row) at 1. rewrite nth_error_app2 by (rewrite firstn_length; lia).
      f_equal. rewrite firstn_length. lia.
    + apply F.
  - rewrite nth_error_app2 in N1 by (rewrite map_length; auto). rewrite map_length in N1.
    rewrite nth_error_app2 in N2 by (rewrite skipn_length; lia). rewrite skipn_length in N2.
    replace (length row - length a) with (length b) in N2 by lia.
    rewrite nth_error_map in N1. destruct (nth_error a (i - length b)) as [y|] eqn:E; [|discriminate]. injection N1 as <-.
    assert (LT : i - length b < length a) by (apply nth_error_Some; congruence).
    exists (i - length b), y. split; [|split].
    + rewrite nth_error_app1 by lia. exact E.
    + rewrite <- N2. rewrite <- (firstn_skipn (length a) row) at 1. rewrite nth_error_app1 by (rewrite firstn_length; lia).
      reflexivity.
    + apply G.
Qed.
Lemma same_refl x : SamePlace x x. Proof. exists 0%Z. change (inject_Z 0) with 0%Q. ring. Qed.
Lemma same_up x : SamePlace (x + 360) x. Proof. exists 1%Z. change (inject_Z 1) with 1%Q. ring. Qed.
Lemma same_down x : SamePlace (x - 360) x. Proof. exists (-1)%Z. change (inject_Z (-1)) with (-1)%Q. ring. Qed.
Lemma same_up2 x y : SamePlace (x - 360) y -> SamePlace x y.
Proof. intros [k E]. exists (k + 1)%Z. rewrite inject_Z_plus. change (inject_Z 1) with 1%Q. lra. Qed.

Lemma meridians_case : Meridians ([(-90)%Q] ++ [0%Q; 90%Q])%list.
Proof.
  intros i j x y A B S.
  destruct i as [|[|[|i]]], j as [|[|[|j]]]; cbn in A, B; try (destruct i; discriminate); try (destruct j; discriminate);
    try reflexivity; injection A as <-; injection B as <-; exfalso; unfold SamePlace in S;
    destruct S as [k S]; unfold Qeq, Qplus, Qmult, inject_Z in S; cbn [Qnum Qden] in S; lia.
Qed.

Lemma wide_one {A : Type} n (row : list A) : length row = n -> Wide n [[row]].
Proof. intro H. repeat constructor. exact H. Qed.

Lemma seq_at n i v : nth_error (seq 0 n) i = Some v -> v = i.
Proof.
  intro H. assert (L : i < length (seq 0 n)) by (apply nth_error_Some; congruence). rewrite seq_length in L.
  apply nth_error_nth with (d := 0) in H. rewrite seq_nth in H by auto. lia.
Qed.
Lemma seq_there n i : i < n -> nth_error (seq 0 n) i = Some i.
Proof. intro H. rewrite (nth_error_nth' _ 0) by (rewrite seq_length; auto). rewrite seq_nth; auto. Qed.
Lemma roll_head n k : 0 < k < n -> nth_error (roll k (seq 0 n)) 0 = Some (n - k).
Proof.
  intro H. rewrite (roll_swap k (seq 0 n) k n); try lia; try (rewrite seq_length; lia).
  2:{ apply Nat.mod_small. lia. }
  rewrite nth_error_app1 by (rewrite skipn_length, seq_length; lia).
  rewrite <- (firstn_skipn (n - k) (seq 0 n)) in *.
  assert (E : nth_error (firstn (n - k) (seq 0 n) ++ skipn (n - k) (seq 0 n)) (n - k) = Some (n - k)).
  { rewrite firstn_skipn. apply seq_there. lia. }
  rewrite nth_error_app2 in E by (rewrite firstn_length, seq_length; lia).
  rewrite firstn_length, seq_length in E. replace (n - k - Nat.min (n - k) n) with 0 in E by lia.
  rewrite firstn_skipn. exact E.
Qed.

(** Two parts of a list. *)
Lemma part_le {A : Type} : forall (m : list bool) (l : list A), length m = length l -> length (select m l) <= length l.
Proof.
  unfold select. induction m as [|c m IH]; intros [|x l] H; try discriminate; auto. injection H as H. specialize (IH l H).
  cbn. destruct c; cbn [negb fst snd map length filter]; rewrite ?IH; lia.
Qed.
Lemma part_len {A : Type} : forall (m : list bool) (l : list A), length m = length l ->
  length (select m l) = length (filter (fun c => c) m).
Proof.
  unfold select. induction m as [|c m IH]; intros [|x l] H; try discriminate; auto. injection H as H. specialize (IH l H).
  cbn. destruct c; cbn [negb fst snd map length filter]; rewrite ?IH; lia.
Qed.
Lemma part_len2 {A : Type} : forall (m : list bool) (l l0 : list A), length m = length l0 -> length l = length l0 ->
  length (select (map negb m) l) = length l0 - length (filter (fun c => c) m).
Proof.
  unfold select. intros m l l0 H1 H2. revert l l0 H1 H2. induction m as [|c m IH]; intros [|x l] [|y l0] H1 H2; try discriminate; auto.
  injection H1 as H1. injection H2 as H2. specialize (IH l l0 H1 H2).
  assert (LE : length (filter (fun c => c) m) <= length l0). { rewrite <- H1. clear. induction m as [|c m IH]; auto. cbn. destruct c; cbn; lia. }
  cbn [map combine filter fst snd length negb]. destruct c; cbn [map combine filter fst snd length negb]; lia.
Qed.

(** Smoothing. *)
Lemma get_ok {A : Type} i (l : list A) x : get i l = Ok x <-> nth_error l i = Some x.
Proof. unfold get. destruct (nth_error l i); split; intro H; inversion H; auto. Qed.
Lemma put_ok {A : Type} (v : A) : forall l i, i < length l -> exists l', put i v l = Ok l' /\ length l' = length l /\
  forall j, nth_error l' j = if j =? i then Some v else nth_error l j.
Proof.
  induction l as [|x l IH]; intros i H; [cbn in H; lia|]. destruct i as [|i]; cbn [put].
  - exists (v :: l). split; auto. split; auto. intros [|j]; auto.
  - cbn in H. destruct (IH i ltac:(lia)) as (l' & E & L & N). rewrite E. cbn [bind].
    exists (x :: l'). split; auto. split; [cbn; lia|]. intros [|j]; auto. cbn. apply N.
Qed.
Lemma put_err {A : Type} (v : A) : forall l i, length l <= i -> put i v l = Err IndexError.
Proof.
  induction l as [|x l IH]; intros i H; [destruct i; reflexivity|]. destruct i as [|i]; cbn [length] in H; [lia|]. cbn [put]. rewrite (IH i) by lia. reflexivity.
Qed.

(** The value written at a place that has a number. *)
Definition smoothed (temp : list (option Q)) (i : nat) (x : Q) : res (option Q) :=
  if (i =? 0) || match nth_error temp (i - 1) with Some (Some _) => false | _ => true end then
    match nth_error temp (i + 1) with
    | None => Err IndexError
    | Some None => Ok None
    | Some (Some r) => Ok (Some ((3 * x + r) / 4)%Q)
    end
  else match nth_error temp (i - 1) with
       | Some (Some l) => match nth_error temp (i + 1) with
                          | Some (Some r) => Ok (Some ((r + 2 * x + l) / 4)%Q)
                          | _ => Ok (Some ((3 * x + l) / 4)%Q)
                          end
       | _ => Err IndexError
       end.
Lemma smooth_at_eq temp out i c : nth_error temp i = Some c ->
  smooth_at temp out i = match c with None => put 0 None out | Some x => v <- smoothed temp i x ;; put i v out end.
Proof.
  intro E. unfold smooth_at, smoothed, get. rewrite E. cbn [bind]. destruct c as [x|]; cbn [isnan]; auto.
  assert (LI : i < length temp) by (apply nth_error_Some; congruence).
  destruct (i =? 0) eqn:Z; cbn [bind orb].
  - destruct (nth_error temp (i + 1)) as [[r|]|]; cbn [bind lift2]; auto.
  - apply Nat.eqb_neq in Z.
    destruct (nth_error temp (i - 1)) as [[l|]|] eqn:EL; cbn [bind isnan].
    3:{ apply nth_error_None in EL. lia. }
    2:{ destruct (nth_error temp (i + 1)) as [[r|]|]; cbn [bind lift2]; auto. }
    destruct (i =? length temp - 1) eqn:LA; cbn [bind].
    + apply Nat.eqb_eq in LA. destruct (nth_error temp (i + 1)) eqn:ER; [|reflexivity].
      assert (i + 1 < length temp) by (apply nth_error_Some; congruence). lia.
    + apply Nat.eqb_neq in LA. destruct (nth_error temp (i + 1)) as [[r|]|] eqn:ER; cbn [bind isnan lift2]; auto.
      apply nth_error_None in ER. lia.
Qed.
Definition ends_badly (t : list (option Q)) : Prop :=
  exists n x, length t = S n /\ Present t n x /\ (n = 0 \/ Missing t (n - 1)).
Lemma smoothed_err temp i x : nth_error temp i = Some (Some x) ->
  (smoothed temp i x = Err IndexError <-> length temp = S i /\ (i = 0 \/ Missing temp (i - 1))) /\
  (forall e, smoothed temp i x = Err e -> e = IndexError).
Proof.
  intro E. assert (LI : i < length temp) by (apply nth_error_Some; congruence).
  assert (ERN : nth_error temp (i + 1) = None <-> length temp = S i) by (rewrite nth_error_None; lia).
  unfold smoothed, Missing. destruct (i =? 0) eqn:Z; cbn [orb].
  - apply Nat.eqb_eq in Z. subst i. destruct (nth_error temp (0 + 1)) as [[r|]|] eqn:ER.
    + split; [split; [discriminate|]|discriminate]. intros [H _]. apply ERN in H. discriminate.
    + split; [split; [discriminate|]|discriminate]. intros [H _]. apply ERN in H. discriminate.
    + split; [split; [intros _; split; [apply ERN; auto|auto]|auto]|]. intros e H. congruence.
  - apply Nat.eqb_neq in Z. destruct (nth_error temp (i - 1)) as [[l|]|] eqn:EL.
    + destruct (nth_error temp (i + 1)) as [[r|]|] eqn:ER; (split; [split; [discriminate|]|discriminate]; intros [_ [H|H]]; [lia|discriminate]).
    + destruct (nth_error temp (i + 1)) as [[r|]|] eqn:ER.
      * split; [split; [discriminate|]|discriminate]. intros [H _]. apply ERN in H. discriminate.
      * split; [split; [discriminate|]|discriminate]. intros [H _]. apply ERN in H. discriminate.
      * split; [split; [intros _; split; [apply ERN; auto|auto]|auto]|]. intros e H. congruence.
    + apply nth_error_None in EL. lia.
Qed.

Lemma loop_spec temp : forall m k out, k + m = length temp -> length out = length temp ->
  (exists out', smooth_loop temp out (seq k m) = Ok out' /\ length out' = length temp /\
     (forall j, 0 < j -> nth_error out' j =
        match nth_error temp j with
        | Some (Some x) => if k <=? j then match smoothed temp j x with Ok v => Some v | Err _ => None end else nth_error out j
        | _ => nth_error out j
        end) /\
     (forall x j, nth_error temp j = Some (Some x) -> k <= j -> exists v, smoothed temp j x = Ok v) /\
     ((exists j, k <= j /\ Missing temp j) -> nth_error out' 0 = Some None) /\
     ((forall j, k <= j -> ~ Missing temp j) ->
        nth_error out' 0 = if k =? 0 then match nth_error temp 0 with
          | Some (Some x) => match smoothed temp 0 x with Ok v => Some v | Err _ => None end | _ => nth_error out 0 end
          else nth_error out 0)) \/
  (smooth_loop temp out (seq k m) = Err IndexError /\ exists j x, k <= j /\ nth_error temp j = Some (Some x) /\ smoothed temp j x = Err IndexError).
Proof.
  induction m as [|m IH]; intros k out E L.
  - left. exists out. cbn [seq smooth_loop]. split; auto. split; auto. split; [|split; [|split]].
    + intros j _. destruct (nth_error temp j) as [[x|]|] eqn:EJ; auto.
      assert (j < length temp) by (apply nth_error_Some; congruence). destruct (Nat.leb_spec k j); [lia|auto].
    + intros x j H K. assert (j < length temp) by (apply nth_error_Some; congruence). lia.
    + intros (j & K & H). assert (j < length temp) by (apply nth_error_Some; unfold Missing in H; congruence). lia.
    + intros _. destruct (k =? 0) eqn:Z; auto. apply Nat.eqb_eq in Z.
      destruct (nth_error temp 0) as [[x|]|] eqn:EJ; auto.
      assert (0 < length temp) by (apply nth_error_Some; congruence). lia.
  - cbn [seq smooth_loop].
    destruct (nth_error temp k) as [c|] eqn:EK; [|apply nth_error_None in EK; lia].
    rewrite (smooth_at_eq _ _ _ _ EK). destruct c as [x|].
    + destruct (smoothed temp k x) as [v|e] eqn:SV; cbn [bind].
      2:{ right. destruct (smoothed_err temp k x EK) as [_ H]. pose proof (H e SV); subst e. split; [reflexivity|]. exists k, x. repeat split; [lia|exact EK|exact SV]. }
      destruct (put_ok v out k) as (out1 & P & L1 & N1); [lia|]. rewrite P. cbn [bind].
      destruct (IH (S k) out1) as [(out' & R & LO & NJ & NV & N0 & N00)|(R & j & y & J)]; [lia|congruence| |].
      2:{ right. split; auto. exists j, y. intuition lia. }
      left. exists out'. split; auto. split; auto. split; [|split; [|split]].
      * intros j J. rewrite NJ by auto. destruct (nth_error temp j) as [[y|]|] eqn:EJ.
        -- destruct (Nat.leb_spec (S k) j), (Nat.leb_spec k j); try lia; auto.
           ++ assert (j = k) by lia. subst j. rewrite EK in EJ. injection EJ as ->. rewrite SV, N1, Nat.eqb_refl. reflexivity.
           ++ rewrite N1. destruct (Nat.eqb_spec j k); [lia|auto].
        -- rewrite N1. destruct (Nat.eqb_spec j k); [subst; congruence|auto].
        -- rewrite N1. destruct (Nat.eqb_spec j k); [subst; congruence|auto].
      * intros y j EJ K. destruct (Nat.eq_dec j k) as [->|D]; [|apply NV; auto; lia].
        rewrite EK in EJ. injection EJ as ->. eauto.
      * intros (j & K & M). apply N0. exists j. split; auto. destruct (Nat.eq_dec j k) as [->|D]; [|lia].
        unfold Missing in M. congruence.
      * intros NM. rewrite N00 by (intros j J; apply NM; lia). cbn [Nat.eqb]. rewrite N1.
        destruct k; cbn [Nat.eqb]; auto. rewrite EK, SV. reflexivity.
    + destruct (put_ok (@None Q) out 0) as (out1 & P & L1 & N1); [lia|]. rewrite P. cbn [bind].
      destruct (IH (S k) out1) as [(out' & R & LO & NJ & NV & N0 & N00)|(R & j & y & J)]; [lia|congruence| |].
      2:{ right. split; auto. exists j, y. intuition lia. }
      left. exists out'. split; auto. split; auto. split; [|split; [|split]].
      * intros j J. rewrite NJ by auto. rewrite N1. destruct (Nat.eqb_spec j 0); [lia|].
        destruct (nth_error temp j) as [[y|]|] eqn:EJ; auto.
        destruct (Nat.leb_spec (S k) j), (Nat.leb_spec k j); try lia; auto.
        assert (j = k) by lia. subst j. congruence.
      * intros y j EJ K. apply NV; auto. destruct (Nat.eq_dec j k) as [->|D]; [congruence|lia].
      * intros _.
        assert (D : (exists j, S k <= j /\ Missing temp j) \/ (forall j, S k <= j -> ~ Missing temp j)).
        { destruct (existsb (fun j => match nth_error temp j with Some None => true | _ => false end) (seq (S k) m)) eqn:X.
          - left. apply existsb_exists in X. destruct X as (j & I & H). apply in_seq in I. exists j. split; [lia|].
            unfold Missing. destruct (nth_error temp j) as [[y|]|]; try discriminate; auto.
          - right. intros j J M. assert (j < length temp) by (apply nth_error_Some; unfold Missing in M; congruence).
            apply Bool.not_true_iff_false in X. apply X. apply existsb_exists. exists j. split; [apply in_seq; lia|].
            unfold Missing in M. rewrite M. reflexivity. }
        destruct D as [D|D]; [apply N0; auto|]. rewrite N00 by auto. cbn [Nat.eqb]. rewrite N1. reflexivity.
      * intros NM. exfalso. apply (NM k); auto.
Qed.

Lemma smooth_spec t :
  (exists out, smooth121_1D t = Ok out /\ length out = length t /\
     (forall j, 0 < j -> nth_error out j =
        match nth_error t j with
        | Some (Some x) => match smoothed t j x with Ok v => Some v | Err _ => None end
        | c => c
        end) /\
     (forall x j, nth_error t j = Some (Some x) -> exists v, smoothed t j x = Ok v) /\
     ((exists j, Missing t j) -> Missing out 0) /\
     ((forall j, ~ Missing t j) ->
        nth_error out 0 = match nth_error t 0 with
          | Some (Some x) => match smoothed t 0 x with Ok v => Some v | Err _ => None end | _ => None end)) \/
  (smooth121_1D t = Err IndexError /\ exists j x, nth_error t j = Some (Some x) /\ smoothed t j x = Err IndexError).
Proof.
  unfold smooth121_1D.
  destruct (loop_spec t (length t) 0 (map (fun c => lift2 Qmult c (Some 0%Q)) t)) as [(out & R & LO & NJ & NV & N0 & N00)|(R & j & x & J)];
    [lia|apply map_length| |].
  - left. exists out. split; auto. split; auto. split; [|split; [|split]].
    + intros j J. rewrite NJ by auto. rewrite nth_error_map. destruct (nth_error t j) as [[x|]|]; auto.
    + intros x j H. apply NV; auto. lia.
    + intros (j & M). unfold Missing. apply N0. exists j. split; [lia|auto].
    + intros NM. rewrite N00 by (intros j _; auto). cbn [Nat.eqb].
      destruct (nth_error t 0) as [[x|]|] eqn:E0; auto.
      * exfalso. apply (NM 0). exact E0.
      * rewrite nth_error_map, E0. reflexivity.
  - right. split; auto. exists j, x. tauto.
Qed.

(** The smoothed list of numbers. *)
Fixpoint mid (l x : Q) (t : list Q) : list Q :=
  match t with
  | [] => [((3 * x + l) / 4)%Q]
  | r :: t' => ((r + 2 * x + l) / 4)%Q :: mid x r t'
  end.
Lemma mid_nth : forall t l x i y, nth_error (l :: x :: t) (S i) = Some y ->
  nth_error (mid l x t) i =
  match nth_error (l :: x :: t) i with
  | Some a => match nth_error (l :: x :: t) (S (S i)) with Some r => Some ((r + 2 * y + a) / 4)%Q | None => Some ((3 * y + a) / 4)%Q end
  | None => None
  end.
Proof.
  induction t as [|r t IH]; intros l x i y E; destruct i as [|i]; cbn [mid].
  - cbn in E |- *. injection E as ->. reflexivity.
  - destruct i; discriminate.
  - cbn in E |- *. injection E as ->. reflexivity.
  - cbn [nth_error]. rewrite (IH x r i y); [reflexivity|]. exact E.
Qed.
Lemma mid_len : forall t l x, length (mid l x t) = S (length t).
Proof. induction t; intros; cbn; auto. Qed.

Lemma smooth_numbers x r t : smooth121_1D (map Some (x :: r :: t)) = Ok (map Some (((3 * x + r) / 4)%Q :: mid x r t)).
Proof.
  set (l := x :: r :: t).
  assert (N : forall i, nth_error (map Some l) i = match nth_error l i with Some y => Some (Some y) | None => None end).
  { intro i. rewrite nth_error_map. destruct (nth_error l i); reflexivity. }
  destruct (smooth_spec (map Some l)) as [(out & R & LO & NJ & NV & _ & N00)|(R & j & y & J & SE)].
  - rewrite R. f_equal. apply ext_nth. intros [|i].
    + rewrite N00.
      * cbn. reflexivity.
      * intros j M. unfold Missing in M. rewrite N in M. destruct (nth_error l j); discriminate.
    + rewrite NJ by lia. rewrite N. change (nth_error (map Some (((3 * x + r) / 4)%Q :: mid x r t)) (S i)) with (nth_error (map Some (mid x r t)) i). rewrite nth_error_map.
      destruct (nth_error l (S i)) as [y|] eqn:E.
      2:{ destruct (nth_error (mid x r t) i) eqn:E2; [|reflexivity]. exfalso.
          assert (i < length (mid x r t)) by (apply nth_error_Some; congruence). rewrite mid_len in H.
          apply nth_error_None in E. unfold l in E. cbn in E. lia. }
      unfold l in E. rewrite (mid_nth t x r i y E). unfold smoothed. cbn [Nat.eqb orb].
      replace (S i - 1) with i by lia. replace (S i + 1) with (S (S i)) by lia. rewrite !N. fold l.
      assert (nth_error l i <> None). { apply nth_error_Some. assert (S i < length l) by (apply nth_error_Some; unfold l; congruence). lia. }
      destruct (nth_error l i) as [a|]; [|congruence].
      destruct (nth_error l (S (S i))); reflexivity.
  - exfalso. destruct (smoothed_err _ _ _ J) as [H _]. apply (proj1 H) in SE. destruct SE as [L [Z|M]].
    + subst j. rewrite map_length in L. unfold l in L. cbn in L. lia.
    + unfold Missing in M. rewrite N in M. destruct (nth_error l (j - 1)); discriminate.
Qed.
Lemma some_inj (a b : list Q) : map Some a = map Some b -> a = b.
Proof. revert b. induction a as [|x a IH]; intros [|y b] H; try discriminate; auto. injection H as -> H. f_equal. auto. Qed.
Lemma mid_total : forall t l x, (Total (mid l x t) == x + Total t + (l - x) / 4)%Q.
Proof.
  induction t as [|r t IH]; intros l x; cbn [mid Total fold_right].
  - field.
  - change (fold_right Qplus 0%Q (mid x r t)) with (Total (mid x r t)). rewrite IH. unfold Total. field.
Qed.
Lemma mid_bounds low high : forall t l x, (low <= l <= high)%Q -> (low <= x <= high)%Q ->
  Forall (fun y => low <= y /\ y <= high)%Q t -> Forall (fun y => low <= y /\ y <= high)%Q (mid l x t).
Proof.
  assert (D : forall a, (a / 4 == a * (1 # 4))%Q) by (intro; field).
  induction t as [|r t IH]; intros l x HL HX F; cbn [mid].
  - constructor; auto. rewrite D. lra.
  - inversion F; subst. constructor; [rewrite D; lra|]. apply IH; auto.
Qed.

(** Symmetric and antisymmetric parts. *)
Lemma halves_spec f X : forall m k x, k + m <= length X ->
  (k + m <= length x \/ m = 0 -> exists x', halves f X x (seq k m) = Ok x' /\ length x' = length x /\
     forall j, nth_error x' j = if (k <=? j) && (j <? k + m) then
        match nth_error X j, nth_error X (length X - 1 - j) with Some a, Some b => Some (rows2 f a b) | _, _ => None end
        else nth_error x j) /\
  (length x < k + m -> 0 < m -> halves f X x (seq k m) = Err IndexError).
Proof.
  induction m as [|m IH]; intros k x H.
  - split; [|intros; lia]. intros _. exists x. cbn [seq halves]. split; [reflexivity|]. split; [reflexivity|]. intro j.
    destruct (Nat.leb_spec k j), (Nat.ltb_spec j (k + 0)); try lia; reflexivity.
  - cbn [seq halves]. unfold get.
    destruct (nth_error X k) as [a|] eqn:EA; [|apply nth_error_None in EA; lia]. cbn [bind].
    destruct (nth_error X (length X - k - 1)) as [b|] eqn:EB; [|apply nth_error_None in EB; lia]. cbn [bind].
    destruct (Nat.lt_ge_cases k (length x)) as [C|C].
    2:{ rewrite put_err by auto. split; [intros [?|?]; lia|reflexivity]. }
    destruct (put_ok (rows2 f a b) x k C) as (x1 & P & L1 & N1). rewrite P. cbn [bind].
    destruct (IH (S k) x1 ltac:(lia)) as [I1 I2]. split.
    + intros D. destruct I1 as (x' & R & L' & N'); [lia|]. exists x'. split; auto. split; [lia|].
      intro j. rewrite N', N1. destruct (Nat.eqb_spec j k) as [->|D1].
      * destruct (Nat.leb_spec (S k) k); [lia|]. cbn [andb].
        destruct (Nat.leb_spec k k), (Nat.ltb_spec k (k + S m)); try lia. cbn [andb].
        rewrite EA. replace (length X - 1 - k) with (length X - k - 1) by lia. rewrite EB. reflexivity.
      * destruct (Nat.leb_spec (S k) j), (Nat.leb_spec k j), (Nat.ltb_spec j (S k + m)), (Nat.ltb_spec j (k + S m)); auto; lia.
    + intros D _. apply I2; lia.
Qed.
Lemma select_len {A : Type} (f : Q -> bool) : forall lat (X : list A), length lat = length X ->
  length (select (map f lat) X) = length (filter f lat).
Proof.
  unfold select. induction lat as [|l lat IH]; intros [|x X] H; try discriminate; auto.
  cbn. injection H as H. destruct (f l); cbn; rewrite <- IH with (X := X); auto.
Qed.
Lemma select_spec {A : Type} (f : Q -> bool) : forall lat (X : list A),
  select (map f lat) X = map snd (filter (fun p => f (fst p)) (combine lat X)).
Proof.
  unfold select. induction lat as [|l lat IH]; intros [|x X]; auto.
  cbn. destruct (f l); cbn; rewrite IH; auto.
Qed.
Lemma odd_half n : (if Nat.odd n then n / 2 + 1 else n / 2) = (n + 1) / 2.
Proof.
  destruct (Nat.odd n) eqn:O.
  - apply Nat.odd_spec in O. destruct O as [k ->]. replace (2 * k + 1 + 1) with ((k + 1) * 2) by lia.
    rewrite Nat.div_mul by lia. replace (2 * k + 1) with (1 + k * 2) by lia. rewrite Nat.div_add by lia. cbn. lia.
  - assert (E : Nat.even n = true) by (rewrite <- Nat.negb_odd, O; reflexivity). apply Nat.even_spec in E. destruct E as [k ->].
    replace (2 * k + 1) with (1 + k * 2) by lia. rewrite Nat.div_add by lia. replace (2 * k) with (k * 2) by lia.
    rewrite Nat.div_mul by lia. reflexivity.
Qed.
Lemma half_le n : (n + 1) / 2 <= n.
Proof. destruct n; [cbn; lia|]. apply Nat.div_le_upper_bound; lia. Qed.
Lemma half2_le n : n / 2 <= n.
Proof. apply Nat.div_le_upper_bound; lia. Qed.

Lemma symm_run X lat : length lat = length X ->
  get_symmasymm X lat (Some "symm"%string) =
  halves (fun a b => (1 # 2) * (a + b))%Q X (select (map (fun l => Qle_bool 0 l) lat) X) (seq 0 ((length X + 1) / 2)).
Proof. intro L. unfold get_symmasymm. cbn [String.eqb Ascii.eqb Bool.eqb]. rewrite L, Nat.eqb_refl. rewrite odd_half. reflexivity. Qed.
Lemma asymm_run X lat word : In word ["asymm"; "anti-symm"]%string -> length lat = length X ->
  get_symmasymm X lat (Some word) =
  halves (fun a b => (1 # 2) * (a - b))%Q X (select (map (fun l => Qlt_bool 0 l) lat) X) (seq 0 (length X / 2)).
Proof. intros [<-|[<-|[]]] L; unfold get_symmasymm; cbn -[Nat.div Nat.eqb]; rewrite L, Nat.eqb_refl; reflexivity. Qed.

Lemma rows2_cellwise f g a b : (forall x y, f x y == g x y)%Q -> length a = length b -> Cellwise g a b (rows2 f a b).
Proof.
  intros E L. unfold rows2. split.
  { rewrite map_length, combine_length. lia. }
  assert (N : forall i, nth_error (map (fun p => lift2 f (fst p) (snd p)) (combine a b)) i =
     match nth_error a i, nth_error b i with Some u, Some v => Some (lift2 f u v) | _, _ => None end).
  { clear E. revert b L. induction a as [|u a IH]; intros [|v b] L i; try discriminate.
    - destruct i; reflexivity.
    - destruct i; [reflexivity|]. cbn [combine map nth_error]. apply IH. cbn in L. lia. }
  intro i. split.
  - intros x y P1 P2. unfold Present in *. rewrite N, P1, P2. cbn. eexists; split; [reflexivity|]. apply E.
  - intros LT M. unfold Missing in *. rewrite N.
    destruct (nth_error a i) as [u|] eqn:EA; [|apply nth_error_None in EA; lia].
    destruct (nth_error b i) as [v|] eqn:EB; [|apply nth_error_None in EB; lia].
    destruct M as [M|M]; injection M as ->; [reflexivity|destruct u; reflexivity].
Qed.

(** Latitudes that mirror each other. *)
Lemma filter_none {A : Type} (f : A -> bool) l : (forall x, In x l -> f x = false) -> filter f l = [].
Proof. induction l as [|x l IH]; intro H; auto. cbn. rewrite (H x) by (left; auto). apply IH. intros; apply H; right; auto. Qed.
Lemma filter_same {A : Type} (f : A -> bool) l : (forall x, In x l -> f x = true) -> filter f l = l.
Proof. induction l as [|x l IH]; intro H; auto. cbn. rewrite (H x) by (left; auto). f_equal. apply IH. intros; apply H; right; auto. Qed.
Lemma filter_tail {A : Type} (f : A -> bool) l m :
  (forall i x, nth_error l i = Some x -> i < m -> f x = false) ->
  (forall i x, nth_error l i = Some x -> m <= i -> f x = true) -> filter f l = skipn m l.
Proof.
  intros H1 H2. rewrite <- (firstn_skipn m l) at 1. rewrite filter_app.
  rewrite filter_none, filter_same; auto.
  - intros x I. apply In_nth_error in I. destruct I as [i E].
    destruct (Nat.lt_ge_cases m (length l)) as [C|C].
    2:{ rewrite skipn_all2 in E by lia. destruct i; discriminate. }
    apply (H2 (m + i)); [|lia]. rewrite <- (firstn_skipn m l). rewrite nth_error_app2 by (rewrite firstn_length; lia).
    rewrite firstn_length. replace (m + i - Nat.min m (length l)) with i by lia. exact E.
  - intros x I. apply In_nth_error in I. destruct I as [i E].
    assert (LI : i < length (firstn m l)) by (apply nth_error_Some; congruence). rewrite firstn_length in LI.
    apply (H1 i); [|lia]. rewrite <- (firstn_skipn m l). rewrite nth_error_app1 by (rewrite firstn_length; lia). exact E.
Qed.
Lemma filter_head {A : Type} (f : A -> bool) l m :
  (forall i x, nth_error l i = Some x -> i < m -> f x = true) ->
  (forall i x, nth_error l i = Some x -> m <= i -> f x = false) -> filter f l = firstn m l.
Proof.
  intros H1 H2. rewrite <- (firstn_skipn m l) at 1. rewrite filter_app.
  rewrite (filter_same f (firstn m l)), (filter_none f (skipn m l)); [apply app_nil_r| |].
  - intros x I. apply In_nth_error in I. destruct I as [i E].
    destruct (Nat.lt_ge_cases m (length l)) as [C|C].
    2:{ rewrite skipn_all2 in E by lia. destruct i; discriminate. }
    apply (H2 (m + i)); [|lia]. rewrite <- (firstn_skipn m l). rewrite nth_error_app2 by (rewrite firstn_length; lia).
    rewrite firstn_length. replace (m + i - Nat.min m (length l)) with i by lia. exact E.
  - intros x I. apply In_nth_error in I. destruct I as [i E].
    assert (LI : i < length (firstn m l)) by (apply nth_error_Some; congruence). rewrite firstn_length in LI.
    apply (H1 i); [|lia]. rewrite <- (firstn_skipn m l). rewrite nth_error_app1 by (rewrite firstn_length; lia). exact E.
Qed.
Lemma half_facts n : n / 2 + (n + 1) / 2 = n /\ n / 2 <= (n + 1) / 2 /\ (n + 1) / 2 <= n / 2 + 1.
Proof.
  assert (H : n = 2 * (n / 2) + n mod 2) by (apply Nat.div_mod; lia).
  assert (H2 : n mod 2 < 2) by (apply Nat.mod_upper_bound; lia).
  assert (H3 : n + 1 = 2 * ((n + 1) / 2) + (n + 1) mod 2) by (apply Nat.div_mod; lia).
  assert (H4 : (n + 1) mod 2 < 2) by (apply Nat.mod_upper_bound; lia).
  lia.
Qed.

Lemma mirror_south lat : Mirrored lat -> SouthToNorth lat ->
  forall i x, nth_error lat i = Some x ->
    (i < length lat / 2 -> (x < 0)%Q) /\ ((length lat + 1) / 2 <= i -> (0 < x)%Q) /\
    (length lat / 2 <= i -> (0 <= x)%Q) /\ (i < (length lat + 1) / 2 -> (x <= 0)%Q).
Proof.
  intros M S i x E. assert (LI : i < length lat) by (apply nth_error_Some; congruence).
  destruct (nth_error lat (length lat - 1 - i)) as [y|] eqn:EY; [|apply nth_error_None in EY; lia].
  pose proof (M _ _ _ E EY) as H. pose proof (half_facts (length lat)) as (F1 & F2 & F3).
  assert (A : i < length lat - 1 - i -> (x < y)%Q) by (intro; eapply S; eauto).
  assert (B : length lat - 1 - i < i -> (y < x)%Q) by (intro; eapply S; eauto).
  assert (C : i = length lat - 1 - i -> x = y). { intro H0. rewrite <- H0 in EY. congruence. }
  repeat split; intro D.
  - specialize (A ltac:(lia)). lra.
  - specialize (B ltac:(lia)). lra.
  - destruct (Nat.eq_dec i (length lat - 1 - i)) as [e|e]; [specialize (C e); subst; lra|]. specialize (B ltac:(lia)). lra.
  - destruct (Nat.eq_dec i (length lat - 1 - i)) as [e|e]; [specialize (C e); subst; lra|]. specialize (A ltac:(lia)). lra.
Qed.
Lemma mirror_north lat : Mirrored lat -> NorthToSouth lat ->
  forall i x, nth_error lat i = Some x ->
    (i < length lat / 2 -> (0 < x)%Q) /\ ((length lat + 1) / 2 <= i -> (x < 0)%Q) /\
    (length lat / 2 <= i -> (x <= 0)%Q) /\ (i < (length lat + 1) / 2 -> (0 <= x)%Q).
Proof.
  intros M S i x E. assert (LI : i < length lat) by (apply nth_error_Some; congruence).
  destruct (nth_error lat (length lat - 1 - i)) as [y|] eqn:EY; [|apply nth_error_None in EY; lia].
  pose proof (M _ _ _ E EY) as H. pose proof (half_facts (length lat)) as (F1 & F2 & F3).
  assert (A : i < length lat - 1 - i -> (y < x)%Q) by (intro; eapply S; eauto).
  assert (B : length lat - 1 - i < i -> (x < y)%Q) by (intro; eapply S; eauto).
  assert (C : i = length lat - 1 - i -> x = y). { intro H0. rewrite <- H0 in EY. congruence. }
  repeat split; intro D.
  - specialize (A ltac:(lia)). lra.
  - specialize (B ltac:(lia)). lra.
  - destruct (Nat.eq_dec i (length lat - 1 - i)) as [e|e]; [specialize (C e); subst; lra|]. specialize (B ltac:(lia)). lra.
  - destruct (Nat.eq_dec i (length lat - 1 - i)) as [e|e]; [specialize (C e); subst; lra|]. specialize (A ltac:(lia)). lra.
Qed.
Lemma north_from_equator lat : Mirrored lat -> NorthToSouth lat ->
  filter (fun x => Qle_bool 0 x) lat = firstn ((length lat + 1) / 2) lat.
Proof.
  intros M S. apply filter_head; intros i x E D.
  - apply Qle_bool_iff. apply (mirror_north lat M S i x E). exact D.
  - apply leb_gt. apply (mirror_north lat M S i x E). exact D.
Qed.
Lemma counts lat : Mirrored lat -> SouthToNorth lat \/ NorthToSouth lat ->
  length (filter (fun x => Qle_bool 0 x) lat) = (length lat + 1) / 2 /\
  length (filter (fun x => Qlt_bool 0 x) lat) = length lat / 2.
Proof.
  intros M [S|S]; pose proof (half_facts (length lat)) as (F1 & F2 & F3).
  - rewrite (filter_tail (fun x => Qle_bool 0 x) lat (length lat / 2)), (filter_tail (fun x => Qlt_bool 0 x) lat ((length lat + 1) / 2)).
    + rewrite !skipn_length. lia.
    + intros i x E D. apply ltb_ge. apply (mirror_south lat M S i x E). exact D.
    + intros i x E D. apply ltb_lt. apply (mirror_south lat M S i x E). exact D.
    + intros i x E D. apply leb_gt. apply (mirror_south lat M S i x E). exact D.
    + intros i x E D. apply Qle_bool_iff. apply (mirror_south lat M S i x E). exact D.
  - rewrite (north_from_equator lat M S), (filter_head (fun x => Qlt_bool 0 x) lat (length lat / 2)).
    + rewrite !firstn_length. lia.
    + intros i x E D. apply ltb_lt. apply (mirror_north lat M S i x E). exact D.
    + intros i x E D. apply ltb_ge. apply (mirror_north lat M S i x E). exact D.
Qed.
Lemma mirrored_case : Mirrored [(-10)%Q; 0%Q; 10%Q] /\ SouthToNorth [(-10)%Q; 0%Q; 10%Q].
Proof.
  split.
  - intros k x y A B. destruct k as [|[|[|k]]]; cbn in A, B; try (destruct k; discriminate); injection A as <-; injection B as <-; reflexivity.
  - intros i j x y L A B. destruct i as [|[|[|i]]], j as [|[|[|j]]]; try lia; cbn in A, B; try (destruct i; discriminate); try (destruct j; discriminate);
      injection A as <-; injection B as <-; reflexivity.
Qed.
Lemma mirrored_case2 : Mirrored [10%Q; 0%Q; (-10)%Q] /\ NorthToSouth [10%Q; 0%Q; (-10)%Q].
Proof.
  split.
  - intros k x y A B. destruct k as [|[|[|k]]]; cbn in A, B; try (destruct k; discriminate); injection A as <-; injection B as <-; reflexivity.
  - intros i j x y L A B. destruct i as [|[|[|i]]], j as [|[|[|j]]]; try lia; cbn in A, B; try (destruct i; discriminate); try (destruct j; discriminate);
      injection A as <-; injection B as <-; reflexivity.
Qed.

(** The statements of PropertiesTropics.v. *)
Lemma C72_to_360_proof : forall (A : Type) (data : list (list (list A))) (west east : list Q),
  west <> [] -> Forall (fun x => x < 0)%Q west -> Forall (fun x => 0 <= x)%Q east ->
  Wide (length west + length east) data ->
  exists data', lonFlip false data (west ++ east) = Ok (data', (east ++ map (fun x => x + 360)%Q west)%list) /\
    (length west = length east \/ east = [] ->
     data' = map (map (fun row => (skipn (length west) row ++ firstn (length west) row)%list)) data).
Proof.
  intros A data west east NE FW FE W. rewrite (east_run false data west east NE FW FE W).
  eexists; split; [reflexivity|]. intro H. apply (map_rows _ _ _ _ W). intros row L. apply (roll_west row _ (length east)); auto.
  - destruct west; [congruence|cbn; lia].
  - destruct H as [H| ->]; auto.
Qed.

Lemma C72_to_180_proof : forall (A : Type) (data : list (list (list A))) (east west : list Q),
  (east ++ west)%list <> [] -> Forall (fun x => 0 <= x /\ x < 180)%Q east -> Forall (fun x => 180 <= x)%Q west ->
  Wide (length east + length west) data ->
  exists data', lonFlip false data (east ++ west) = Ok (data', (map (fun x => x - 360)%Q west ++ east)%list) /\
    (length west = length east \/ east = [] \/ west = [] ->
     data' = map (map (fun row => (skipn (length east) row ++ firstn (length east) row)%list)) data).
Proof.
  intros A data east west NE FE FW W. rewrite (west_run data east west NE FE FW W).
  eexists; split; [reflexivity|]. intro H. apply (map_rows _ _ _ _ W). intros row L. apply (roll_east row (length west)); auto.
  - rewrite <- app_length. destruct (east ++ west)%list; [congruence|cbn; lia].
  - destruct H as [H|[-> | -> ]]; auto.
Qed.

Lemma C72_places_proof : forall west east : list Q,
  west <> [] -> Forall (fun x => x < 0)%Q west -> Forall (fun x => 0 <= x)%Q east -> Meridians (west ++ east) ->
  (forall (A : Type) (row : list A) data' lon', length row = length west + length east ->
     lonFlip false [[row]] (west ++ east) = Ok (data', lon') ->
     exists row', data' = [[row']] /\ AtPlace (west ++ east) row lon' row') <->
  length west = length east \/ east = [].
Proof.
  intros west east NE FW FE ME. assert (PW : 0 < length west) by (destruct west; [congruence|cbn; lia]). split.
  - intro H. destruct east as [|e0 east0] eqn:EE; [right; reflexivity|]. left. rewrite <- EE in *.
    assert (PE : 0 < length east) by (rewrite EE; cbn; lia).
    specialize (H nat (seq 0 (length west + length east)) _ _ (seq_length _ _) (east_run false _ west east NE FW FE (wide_one _ _ (seq_length _ _)))).
    destruct H as (row' & E & _ & AP). cbn [map] in E. injection E as <-.
    pose proof (roll_head (length west + length east) (length west) ltac:(lia)) as RH.
    destruct (AP 0 e0 _ ltac:(rewrite EE; reflexivity) RH) as (j & y & NJ & SJ & SP).
    apply seq_at in SJ.
    assert (NW : nth_error (west ++ east) (length west) = Some e0) by (rewrite nth_error_app2 by lia; rewrite Nat.sub_diag, EE; reflexivity).
    pose proof (ME _ _ _ _ NW NJ SP). lia.
  - intros H A row data' lon' L R. rewrite (east_run false [[row]] west east NE FW FE (wide_one _ _ L)) in R. injection R as <- <-.
    exists (roll (length west) row). split; [reflexivity|].
    rewrite (roll_west row (length west) (length east) L PW) by (destruct H as [H| ->]; auto).
    pose proof (at_place west east row (fun x => x) (fun x => x + 360)%Q L same_refl same_up) as P. rewrite map_id in P. exact P.
Qed.

Lemma C72_places_back_proof : forall east west : list Q,
  (east ++ west)%list <> [] -> Forall (fun x => 0 <= x /\ x < 180)%Q east -> Forall (fun x => 180 <= x)%Q west ->
  Meridians (east ++ west) ->
  (forall (A : Type) (row : list A) data' lon', length row = length east + length west ->
     lonFlip false [[row]] (east ++ west) = Ok (data', lon') ->
     exists row', data' = [[row']] /\ AtPlace (east ++ west) row lon' row') <->
  length west = length east \/ east = [] \/ west = [].
Proof.
  intros east west NE FE FW ME. assert (PW : 0 < length east + length west) by (rewrite <- app_length; destruct (east ++ west)%list; [congruence|cbn; lia]). split.
  - intro H. destruct east as [|e0 east0] eqn:EE; [right; left; reflexivity|]. destruct west as [|w0 west0] eqn:EW; [right; right; reflexivity|]. left.
    rewrite <- EE, <- EW in *. assert (PE : 0 < length east) by (rewrite EE; cbn; lia). assert (PW2 : 0 < length west) by (rewrite EW; cbn; lia).
    specialize (H nat (seq 0 (length east + length west)) _ _ (seq_length _ _) (west_run _ east west NE FE FW (wide_one _ _ (seq_length _ _)))).
    destruct H as (row' & E & _ & AP). cbn [map] in E. injection E as <-.
    pose proof (roll_head (length east + length west) (length east) ltac:(lia)) as RH.
    destruct (AP 0 (w0 - 360)%Q _ ltac:(rewrite EW; reflexivity) RH) as (j & y & NJ & SJ & SP).
    apply seq_at in SJ. assert (j = length west) by lia.
    assert (NW : nth_error (east ++ west) (length east) = Some w0) by (rewrite nth_error_app2 by lia; rewrite Nat.sub_diag, EW; reflexivity).
    apply same_up2 in SP.
    pose proof (ME _ _ _ _ NW NJ SP). lia.
  - intros H A row data' lon' L R. rewrite (west_run [[row]] east west NE FE FW (wide_one _ _ L)) in R. injection R as <- <-.
    exists (roll (length east) row). split; [reflexivity|].
    rewrite (roll_east row (length west) (length east) L PW) by (destruct H as [H|[-> | -> ]]; auto).
    pose proof (at_place east west row (fun x => x - 360)%Q (fun x => x) L same_down same_refl) as P. rewrite map_id in P. exact P.
Qed.

Lemma C72_places_refuted_proof :
  ~ (forall (A : Type) (lon : list Q) (row : list A) data' lon',
       Meridians lon -> length row = length lon -> lonFlip false [[row]] lon = Ok (data', lon') ->
       exists row', data' = [[row']] /\ AtPlace lon row lon' row').
Proof.
  intro H.
  destruct (H string [(-90)%Q; 0%Q; 90%Q] ["a"; "b"; "c"]%string [[["c"; "a"; "b"]%string]] [0%Q; 90%Q; 270%Q] meridians_case eq_refl eq_refl) as (row' & E & _ & AP).
  injection E as <-. destruct (AP 0 0%Q "c"%string eq_refl eq_refl) as (j & y & NJ & SJ & k & SP).
  destruct j as [|[|[|j]]]; cbn in SJ, NJ; try discriminate; try (destruct j; discriminate).
  injection NJ as <-. unfold Qeq, Qplus, Qmult, inject_Z in SP; cbn [Qnum Qden] in SP; lia.
Qed.

Lemma C72_shared_refuted_proof : forall (A : Type) (data : list (list (list A))) (west east : list Q),
  west <> [] -> Forall (fun x => x < 0)%Q west -> Forall (fun x => 0 <= x)%Q east -> length west = length east ->
  Wide (length west + length east) data ->
  exists data', lonFlip true data (west ++ east) = Ok (data', (east ++ map (fun x => x + 360)%Q east)%list).
Proof.
  intros A data west east NE FW FE L W. rewrite (east_run true data west east NE FW FE W).
  eexists. f_equal. f_equal. f_equal. f_equal. rewrite L. rewrite firstn_app, Nat.sub_diag, firstn_all. cbn [firstn]. apply app_nil_r.
Qed.

Lemma C72_exceptions_proof : forall (A : Type) shared (data : list (list (list A))) (lon : list Q),
  (forall e, lonFlip shared data lon = Err e -> e = ValueError) /\
  (lonFlip shared data lon = Err ValueError <-> lon = [] \/ ~ Wide (length lon) data).
Proof.
  intros A shared data lon. unfold lonFlip. destruct lon as [|l0 lon0] eqn:EL.
  { split; [intros e H; congruence|]. split; auto. }
  rewrite <- EL in *.
  assert (LN : forall (first second : list bool) (up up2 : Q -> Q) , map negb first = second -> length first = length lon ->
    length (map up (select first lon) ++ map up2 (select second (if shared then map up (select first lon) ++ skipn (length (map up (select first lon))) lon else lon)))%list = length lon).
  { intros first second up up2 <- LF. rewrite app_length, !map_length.
    pose proof (part_le first lon LF) as PL. rewrite (part_len first lon LF) in *.
    rewrite (part_len2 first _ lon LF); [lia|]. destruct shared; auto. rewrite app_length, skipn_length, !map_length. rewrite (part_len first lon LF). lia. }
  match goal with |- context [existsb ?f lon] => destruct (existsb f lon) end.
  - match goal with |- context [forallb (forallb (fun row => length row =? ?n)) data] => set (m := n); assert (EM : m = length lon) end.
    { unfold m. apply LN; [|apply map_length]. rewrite map_map. apply map_ext. intro x. reflexivity. }
    rewrite EM. destruct (forallb (forallb (fun row => length row =? length lon)) data) eqn:B.
    + apply wide_b in B. split; [discriminate|]. split; [discriminate|]. intros [H|H]; [congruence|contradiction].
    + split; [intros e H; congruence|]. split; auto. intros _. right. rewrite <- wide_b. congruence.
  - match goal with |- context [forallb (forallb (fun row => length row =? ?n)) data] => set (m := n); assert (EM : m = length lon) end.
    { unfold m. apply LN; [|apply map_length]. rewrite map_map. apply map_ext. intro x. unfold Qlt_bool. reflexivity. }
    rewrite EM. destruct (forallb (forallb (fun row => length row =? length lon)) data) eqn:B.
    + apply wide_b in B. split; [discriminate|]. split; [discriminate|]. intros [H|H]; [congruence|contradiction].
    + split; [intros e H; congruence|]. split; auto. intros _. right. rewrite <- wide_b. congruence.
Qed.

Lemma C73_weights_proof : forall t : list Q, 2 <= length t ->
  exists out, smooth121_1D (map Some t) = Ok (map Some out) /\ length out = length t /\
    (forall x r y, nth_error t 0 = Some x -> nth_error t 1 = Some r -> nth_error out 0 = Some y ->
       y == (3 * x + r) / 4)%Q /\
    (forall n l x y, length t = S (S n) -> nth_error t n = Some l -> nth_error t (S n) = Some x ->
       nth_error out (S n) = Some y -> y == (3 * x + l) / 4)%Q /\
    (forall i l x r y, nth_error t i = Some l -> nth_error t (S i) = Some x -> nth_error t (S (S i)) = Some r ->
       nth_error out (S i) = Some y -> y == (l + 2 * x + r) / 4)%Q.
Proof.
  intros t L. destruct t as [|x [|r t]]; cbn in L; try lia. clear L.
  exists (((3 * x + r) / 4)%Q :: mid x r t). split; [apply smooth_numbers|]. split; [cbn; rewrite mid_len; reflexivity|]. split; [|split].
  - intros a b y E1 E2 E3. cbn in E1, E2, E3. injection E1 as <-. injection E2 as <-. injection E3 as <-. reflexivity.
  - intros n l a y LN E1 E2 E3. change (nth_error (((3 * x + r) / 4)%Q :: mid x r t) (S n)) with (nth_error (mid x r t) n) in E3.
    rewrite (mid_nth t x r n a E2), E1 in E3.
    destruct (nth_error (x :: r :: t) (S (S n))) eqn:E4; [|injection E3 as <-; reflexivity].
    assert (S (S n) < length (x :: r :: t)) by (apply nth_error_Some; congruence). lia.
  - intros i l a b y E1 E2 E3 E4. change (nth_error (((3 * x + r) / 4)%Q :: mid x r t) (S i)) with (nth_error (mid x r t) i) in E4.
    rewrite (mid_nth t x r i a E2), E1, E3 in E4. injection E4 as <-. field.
Qed.

Lemma C73_total_proof : forall t out : list Q, 2 <= length t ->
  smooth121_1D (map Some t) = Ok (map Some out) -> (Total out == Total t)%Q.
Proof.
  intros t out L R. destruct t as [|x [|r t]]; cbn in L; try lia. rewrite smooth_numbers in R.
  assert (E : map Some (((3 * x + r) / 4)%Q :: mid x r t) = map Some out) by congruence. apply some_inj in E. subst out.
  cbn [Total fold_right]. change (fold_right Qplus 0%Q (mid x r t)) with (Total (mid x r t)). rewrite mid_total. unfold Total. field.
Qed.

Lemma C73_bounds_proof : forall (t out : list Q) (low high : Q), 2 <= length t ->
  smooth121_1D (map Some t) = Ok (map Some out) ->
  Forall (fun x => low <= x /\ x <= high)%Q t -> Forall (fun y => low <= y /\ y <= high)%Q out.
Proof.
  intros t out low high L R F. destruct t as [|x [|r t]]; cbn in L; try lia. rewrite smooth_numbers in R.
  assert (E : map Some (((3 * x + r) / 4)%Q :: mid x r t) = map Some out) by congruence. apply some_inj in E. subst out.
  inversion F as [|? ? HX F1]; subst. inversion F1 as [|? ? HR F2]; subst.
  assert (D : forall a, (a / 4 == a * (1 # 4))%Q) by (intro; field).
  constructor; [rewrite D; lra|]. apply mid_bounds; auto.
Qed.

Lemma C73_missing_proof : forall t out : list (option Q), smooth121_1D t = Ok out ->
  length out = length t /\
  forall i, 0 < i ->
    (Missing t i -> Missing out i) /\
    (forall x l r, Present t i x -> Present t (i - 1) l -> Present t (i + 1) r ->
       exists y, Present out i y /\ (y == (l + 2 * x + r) / 4)%Q) /\
    (forall x l, Present t i x -> Present t (i - 1) l -> Without t (i + 1) ->
       exists y, Present out i y /\ (y == (3 * x + l) / 4)%Q) /\
    (forall x r, Present t i x -> Missing t (i - 1) -> Present t (i + 1) r ->
       exists y, Present out i y /\ (y == (3 * x + r) / 4)%Q) /\
    (forall x, Present t i x -> Missing t (i - 1) -> Missing t (i + 1) -> Missing out i).
Proof.
  intros t out R. destruct (smooth_spec t) as [(out1 & R1 & LO & NJ & NV & _ & _)|(R1 & _)]; [|congruence].
  assert (out1 = out) by congruence. subst out1. split; [exact LO|]. intros i I. specialize (NJ i I).
  assert (Z : (i =? 0) = false) by (apply Nat.eqb_neq; lia).
  split; [|split; [|split; [|split]]].
  - intros M. unfold Missing in *. rewrite M in NJ. exact NJ.
  - intros x l r P PL PR. unfold Present in *. rewrite P in NJ. unfold smoothed in NJ. rewrite Z, PL, PR in NJ. cbn [orb] in NJ.
    eexists; split; [exact NJ|]. field.
  - intros x l P PL PR. unfold Present in *. rewrite P in NJ. unfold smoothed in NJ. rewrite Z, PL in NJ. cbn [orb] in NJ.
    exists ((3 * x + l) / 4)%Q. split; [|reflexivity]. rewrite NJ. destruct (nth_error t (i + 1)) as [[r|]|] eqn:ER; auto.
    exfalso. apply (PR r). exact ER.
  - intros x r P PL PR. unfold Present, Missing in *. rewrite P in NJ. unfold smoothed in NJ. rewrite Z, PL, PR in NJ. cbn [orb] in NJ.
    eexists; split; [exact NJ|]. reflexivity.
  - intros x P PL PR. unfold Present, Missing in *. rewrite P in NJ. unfold smoothed in NJ. rewrite Z, PL, PR in NJ. cbn [orb] in NJ. exact NJ.
Qed.

Lemma C73_first_proof : forall t out : list (option Q), smooth121_1D t = Ok out ->
  (Missing out 0 <-> exists i, Missing t i) /\
  (forall x r, (forall i, ~ Missing t i) -> Present t 0 x -> Present t 1 r ->
     exists y, Present out 0 y /\ (y == (3 * x + r) / 4)%Q).
Proof.
  intros t out R. destruct (smooth_spec t) as [(out1 & R1 & LO & NJ & NV & N0 & N00)|(R1 & _)]; [|congruence].
  assert (out1 = out) by congruence. subst out1. split.
  - split; [|exact N0]. intro M.
    destruct (existsb (fun c => match c with None => true | Some _ => false end) t) eqn:X.
    + apply existsb_exists in X. destruct X as (c & I & H). destruct c; [discriminate|]. apply In_nth_error in I. exact I.
    + exfalso. assert (NM : forall j, ~ Missing t j).
      { intros j MJ. apply Bool.not_true_iff_false in X. apply X. apply existsb_exists. exists None. split; auto. eapply nth_error_In; exact MJ. }
      specialize (N00 NM). unfold Missing in M. rewrite N00 in M.
      destruct (nth_error t 0) as [[x|]|] eqn:E0; try discriminate.
      unfold smoothed in M. cbn [Nat.eqb orb] in M. destruct (nth_error t (0 + 1)) as [[r|]|] eqn:E1; try discriminate.
      apply (NM (0 + 1)). exact E1.
  - intros x r NM P PR. specialize (N00 NM). unfold Present in *. rewrite P in N00. unfold smoothed in N00. cbn [Nat.eqb orb] in N00.
    change (0 + 1) with 1 in N00. rewrite PR in N00. eexists; split; [exact N00|]. reflexivity.
Qed.

Lemma C73_first_refuted_proof :
  ~ (forall t out : list (option Q), smooth121_1D t = Ok out ->
       forall x r, Present t 0 x -> Present t 1 r -> exists y, Present out 0 y /\ (y == (3 * x + r) / 4)%Q).
Proof.
  intro H.
  destruct (H [Some 4%Q; Some 8%Q; None] [None; Some ((3 * 8 + 4) / 4)%Q; None] eq_refl 4%Q 8%Q eq_refl eq_refl) as (y & P & _). discriminate P.
Qed.

Lemma C73_exceptions_proof : forall t : list (option Q),
  (forall e, smooth121_1D t = Err e -> e = IndexError) /\
  (smooth121_1D t = Err IndexError <->
   exists n x, length t = S n /\ Present t n x /\ (n = 0 \/ Missing t (n - 1))).
Proof.
  intros t. destruct (smooth_spec t) as [(out1 & R1 & LO & NJ & NV & _)|(R1 & j & x & J & SE)]; rewrite R1.
  - split; [discriminate|]. split; [discriminate|]. intros (n & x & L & P & B). unfold Present in P.
    destruct (NV x n P) as (v & SV). destruct (smoothed_err t n x P) as [H _]. rewrite (proj2 H) in SV by auto. discriminate.
  - split; [intros e H; congruence|]. split; auto. intros _. destruct (smoothed_err t j x J) as [H _]. apply (proj1 H) in SE.
    exists j, x. unfold Present. tauto.
Qed.

Lemma C74_symmetric_proof : forall (X : list (list (option Q))) (lat : list Q) (half : nat),
  length lat = length X -> half = (length X + 1) / 2 -> half <= length (filter (fun x => Qle_bool 0 x) lat) ->
  exists x, get_symmasymm X lat (Some "symm"%string) = Ok x /\
    length x = length (filter (fun x => Qle_bool 0 x) lat) /\
    (forall k a b c, k < half -> nth_error X k = Some a -> nth_error X (length X - 1 - k) = Some b ->
      length a = length b -> nth_error x k = Some c -> Cellwise (fun u v => (u + v) / 2)%Q a b c) /\
    (forall k, half <= k ->
       nth_error x k = nth_error (map snd (filter (fun p => Qle_bool 0 (fst p)) (combine lat X))) k).
Proof.
  intros X lat half L -> H. rewrite (symm_run X lat L).
  destruct (halves_spec (fun a b => (1 # 2) * (a + b))%Q X ((length X + 1) / 2) 0 (select (map (fun l => Qle_bool 0 l) lat) X)) as [H1 _]; [apply half_le|].
  rewrite (select_len (fun l => Qle_bool 0 l) lat X L) in H1. destruct H1 as (x & R & LX & N); [left; exact H|].
  exists x. split; [exact R|]. split; [exact LX|]. split.
  - intros k a b c K EA EB LAB EC. rewrite N in EC. destruct (Nat.leb_spec 0 k); [|lia]. destruct (Nat.ltb_spec k (0 + (length X + 1) / 2)); [|lia].
    cbn [andb] in EC. rewrite EA, EB in EC. injection EC as <-. apply rows2_cellwise; auto. intros u v. field.
  - intros k K. rewrite N. destruct (Nat.ltb_spec k (0 + (length X + 1) / 2)); [lia|]. rewrite Bool.andb_false_r. rewrite select_spec. reflexivity.
Qed.

Lemma C74_antisymmetric_proof : forall (X : list (list (option Q))) (lat : list Q) (half : nat) (word : string),
  In word ["asymm"; "anti-symm"]%string ->
  length lat = length X -> half = length X / 2 -> half <= length (filter (fun x => negb (Qle_bool x 0)) lat) ->
  exists x, get_symmasymm X lat (Some word) = Ok x /\
    length x = length (filter (fun x => negb (Qle_bool x 0)) lat) /\
    (forall k a b c, k < half -> nth_error X k = Some a -> nth_error X (length X - 1 - k) = Some b ->
      length a = length b -> nth_error x k = Some c -> Cellwise (fun u v => (u - v) / 2)%Q a b c) /\
    (forall k, half <= k ->
       nth_error x k = nth_error (map snd (filter (fun p => negb (Qle_bool (fst p) 0)) (combine lat X))) k).
Proof.
  intros X lat half word I L -> H. rewrite (asymm_run X lat word I L).
  destruct (halves_spec (fun a b => (1 # 2) * (a - b))%Q X (length X / 2) 0 (select (map (fun l => Qlt_bool 0 l) lat) X)) as [H1 _]; [apply half2_le|].
  rewrite (select_len (fun l => Qlt_bool 0 l) lat X L) in H1. destruct H1 as (x & R & LX & N); [left; exact H|].
  exists x. split; [exact R|]. split; [exact LX|]. split.
  - intros k a b c K EA EB LAB EC. rewrite N in EC. destruct (Nat.leb_spec 0 k); [|lia]. destruct (Nat.ltb_spec k (0 + length X / 2)); [|lia].
    cbn [andb] in EC. rewrite EA, EB in EC. injection EC as <-. apply rows2_cellwise; auto. intros u v. field.
  - intros k K. rewrite N. destruct (Nat.ltb_spec k (0 + length X / 2)); [lia|]. rewrite Bool.andb_false_r. rewrite select_spec. reflexivity.
Qed.

Lemma C74_restores_proof : forall (X : list (list (option Q))) (lat : list Q),
  length lat = length X -> Mirrored lat -> SouthToNorth lat \/ NorthToSouth lat ->
  (forall a b, In a X -> In b X -> length a = length b) ->
  exists s d, get_symmasymm X lat (Some "symm"%string) = Ok s /\ get_symmasymm X lat (Some "asymm"%string) = Ok d /\
    length s = (length X + 1) / 2 /\ length d = length X / 2 /\
    forall k a b u v i x y, nth_error X k = Some a -> nth_error X (length X - 1 - k) = Some b ->
      nth_error s k = Some u -> nth_error d k = Some v -> Present a i x -> Present b i y ->
      exists p q, Present u i p /\ Present v i q /\ (p + q == x)%Q /\ (p - q == y)%Q.
Proof.
  intros X lat L M D RC. destruct (counts lat M D) as [C1 C2]. rewrite L in C1, C2.
  destruct (C74_symmetric_proof X lat _ L eq_refl ltac:(lia)) as (s & RS & LS & NS & _).
  destruct (C74_antisymmetric_proof X lat _ "asymm"%string (or_introl eq_refl) L eq_refl ltac:(unfold Qlt_bool in C2; lia)) as (d & RD & LD & ND & _).
  exists s, d. split; [exact RS|]. split; [exact RD|]. split; [lia|]. split; [unfold Qlt_bool in C2; lia|].
  intros k a b u v i x y EA EB EU EV PX PY.
  assert (KD : k < length X / 2). { assert (k < length d) by (apply nth_error_Some; congruence). unfold Qlt_bool in C2. lia. }
  assert (LAB : length a = length b) by (apply RC; eapply nth_error_In; eauto).
  pose proof (half_facts (length X)) as (F1 & F2 & F3).
  destruct (NS k a b u ltac:(lia) EA EB LAB EU) as [_ CS]. destruct (ND k a b v KD EA EB LAB EV) as [_ CD].
  destruct (proj1 (CS i) x y PX PY) as (p & PP & EP). destruct (proj1 (CD i) x y PX PY) as (q & PQ & EQ).
  exists p, q. split; [exact PP|]. split; [exact PQ|]. rewrite EP, EQ. split; field.
Qed.

Lemma C74_rows_proof : forall (X : list (list (option Q))) (lat : list Q) s k l u,
  length lat = length X -> Mirrored lat -> NorthToSouth lat ->
  get_symmasymm X lat (Some "symm"%string) = Ok s ->
  nth_error (filter (fun x => Qle_bool 0 x) lat) k = Some l -> nth_error s k = Some u ->
  exists i j a b l', nth_error lat i = Some l /\ nth_error X i = Some a /\
    nth_error lat j = Some l' /\ (l' == - l)%Q /\ nth_error X j = Some b /\
    (length a = length b -> Cellwise (fun p q => (p + q) / 2)%Q a b u).
Proof.
  intros X lat s k l u L M D R EL EU. destruct (counts lat M (or_intror D)) as [C1 _]. rewrite L in C1.
  destruct (C74_symmetric_proof X lat _ L eq_refl ltac:(lia)) as (s1 & RS & LS & NS & _). assert (s1 = s) by congruence. subst s1.
  assert (K : k < length s) by (apply nth_error_Some; congruence).
  rewrite (north_from_equator lat M D) in EL. rewrite L in EL.
  assert (EL2 : nth_error lat k = Some l).
  { rewrite <- (firstn_skipn ((length X + 1) / 2) lat). rewrite nth_error_app1; [exact EL|]. apply nth_error_Some. congruence. }
  pose proof (half_facts (length X)) as (F1 & F2 & F3).
  destruct (nth_error X k) as [a|] eqn:EA; [|apply nth_error_None in EA; lia].
  destruct (nth_error X (length X - 1 - k)) as [b|] eqn:EB; [|apply nth_error_None in EB; lia].
  destruct (nth_error lat (length X - 1 - k)) as [l'|] eqn:EL3; [|apply nth_error_None in EL3; lia].
  exists k, (length X - 1 - k), a, b, l'. repeat (split; [assumption|]). split; [|split; [assumption|]].
  - apply (M k l l' EL2). rewrite L. exact EL3.
  - intro LAB. apply (NS k a b u); auto. lia.
Qed.

Lemma C74_rows_refuted_proof :
  ~ (forall (X : list (list (option Q))) (lat : list Q) s k l u,
       length lat = length X -> Mirrored lat -> SouthToNorth lat ->
       get_symmasymm X lat (Some "symm"%string) = Ok s ->
       nth_error (filter (fun x => Qle_bool 0 x) lat) k = Some l -> nth_error s k = Some u ->
       exists i j a b l', nth_error lat i = Some l /\ nth_error X i = Some a /\
         nth_error lat j = Some l' /\ (l' == - l)%Q /\ nth_error X j = Some b /\
         (length a = length b -> Cellwise (fun p q => (p + q) / 2)%Q a b u)).
Proof.
  intro H.
  destruct mirrored_case as [M S].
  destruct (H [[Some 1%Q]; [Some 5%Q]; [Some 3%Q]] [(-10)%Q; 0%Q; 10%Q] [[Some ((1 # 2) * (1 + 3))%Q]; [Some ((1 # 2) * (5 + 5))%Q]] 0 0%Q [Some ((1 # 2) * (1 + 3))%Q] eq_refl M S eq_refl eq_refl eq_refl)
    as (i & j & a & b & l' & E1 & E2 & E3 & E4 & E5 & E6).
  destruct i as [|[|[|i]]]; cbn in E1; try discriminate; try (destruct i; discriminate).
  cbn in E2. injection E2 as <-.
  assert (b = [Some 5%Q]).
  { destruct j as [|[|[|j]]]; cbn in E3, E5; try (destruct j; discriminate); injection E3 as <-; try (exfalso; discriminate E4). congruence. }
  subst b. destruct (E6 eq_refl) as [_ C]. destruct (proj1 (C 0) 5%Q 5%Q eq_refl eq_refl) as (z & PZ & EZ).
  unfold Present in PZ. cbn in PZ. injection PZ as <-. discriminate EZ.
Qed.

Lemma C74_exceptions_proof : forall (X : list (list (option Q))) (lat : list Q) (opt : option string),
  (get_symmasymm X lat opt = Err UnboundLocalError <->
   forall word, In word ["symm"; "asymm"; "anti-symm"]%string -> opt <> Some word) /\
  (get_symmasymm X lat opt = Err IndexError <->
   (exists word, opt = Some word /\ In word ["symm"; "asymm"; "anti-symm"]%string) /\
   (length lat <> length X \/
    opt = Some "symm"%string /\ length (filter (fun x => Qle_bool 0 x) lat) < (length X + 1) / 2 \/
    opt <> Some "symm"%string /\ length (filter (fun x => negb (Qle_bool x 0)) lat) < length X / 2)) /\
  (forall e, get_symmasymm X lat opt = Err e -> e = UnboundLocalError \/ e = IndexError).
Proof.
  intros X lat opt.
  destruct opt as [o|].
  2:{ cbn. split; [split; [intros _ w _; discriminate|reflexivity]|]. split; [|intros e H; left; congruence].
      split; [discriminate|]. intros [(w & H & _) _]. discriminate. }
  destruct (String.string_dec o "symm") as [->|D1].
  - destruct (Nat.eq_dec (length lat) (length X)) as [L|L].
    2:{ unfold get_symmasymm. cbn [String.eqb Ascii.eqb Bool.eqb]. apply Nat.eqb_neq in L. rewrite L. apply Nat.eqb_neq in L.
        split; [split; [discriminate|]|]. { intro H. exfalso. apply (H "symm"%string); cbn; auto. }
        split; [|intros e H; right; congruence]. split; auto. intros _. split; [exists "symm"%string; cbn; auto|]. auto. }
    rewrite (symm_run X lat L).
    destruct (halves_spec (fun a b => (1 # 2) * (a + b))%Q X ((length X + 1) / 2) 0 (select (map (fun l => Qle_bool 0 l) lat) X)) as [H1 H2]; [apply half_le|].
    rewrite (select_len (fun l => Qle_bool 0 l) lat X L) in H1, H2.
    destruct (Nat.lt_ge_cases (length (filter (fun l => Qle_bool 0 l) lat)) ((length X + 1) / 2)) as [C|C].
    + rewrite (H2 C) by lia. split; [split; [discriminate|]|]. { intro H. exfalso. apply (H "symm"%string); cbn; auto. }
      split; [|intros e H; right; congruence]. split; auto. intros _. split; [exists "symm"%string; cbn; auto|]. auto.
    + destruct H1 as (x & R & _); [auto|]. rewrite R. split; [split; [discriminate|]|]. { intro H. exfalso. apply (H "symm"%string); cbn; auto. }
      split; [|discriminate]. split; [discriminate|]. intros [_ [H|[[_ H]|[H _]]]]; [contradiction|lia|congruence].
  - destruct (in_dec String.string_dec o ["asymm"; "anti-symm"]%string) as [I|I].
    + assert (W : In o ["symm"; "asymm"; "anti-symm"]%string) by (right; exact I).
      destruct (Nat.eq_dec (length lat) (length X)) as [L|L].
      2:{ assert (R : get_symmasymm X lat (Some o) = Err IndexError).
          { apply Nat.eqb_neq in L. destruct I as [<-|[<-|[]]]; unfold get_symmasymm; cbn -[Nat.eqb Nat.div]; rewrite L; reflexivity. }
          rewrite R. split; [split; [discriminate|]|]. { intro H. exfalso. apply (H o W); auto. }
          split; [|intros e H; right; congruence]. split; auto. intros _. split; [exists o; auto|]. auto. }
      rewrite (asymm_run X lat o I L).
      destruct (halves_spec (fun a b => (1 # 2) * (a - b))%Q X (length X / 2) 0 (select (map (fun l => Qlt_bool 0 l) lat) X)) as [H1 H2]; [apply half2_le|].
      rewrite (select_len (fun l => Qlt_bool 0 l) lat X L) in H1, H2. unfold Qlt_bool in H1, H2 |- *.
      destruct (Nat.lt_ge_cases (length (filter (fun l => negb (Qle_bool l 0)) lat)) (length X / 2)) as [C|C].
      * rewrite (H2 C) by lia. split; [split; [discriminate|]|]. { intro H. exfalso. apply (H o W); auto. }
        split; [|intros e H; right; congruence]. split; auto. intros _. split; [exists o; auto|]. right; right. split; [congruence|exact C].
      * destruct H1 as (x & R & _); [auto|]. rewrite R. split; [split; [discriminate|]|]. { intro H. exfalso. apply (H o W); auto. }
        split; [|discriminate]. split; [discriminate|]. intros [_ [H|[[H _]|[_ H]]]]; [contradiction|congruence|lia].
    + assert (R : get_symmasymm X lat (Some o) = Err UnboundLocalError).
      { unfold get_symmasymm. destruct o as [|c o']; [reflexivity|].
        destruct (String.eqb_spec (String c o') "symm"); [contradiction|].
        destruct (String.eqb_spec (String c o') "asymm"); [exfalso; apply I; left; auto|].
        destruct (String.eqb_spec (String c o') "anti-symm"); [exfalso; apply I; right; left; auto|]. reflexivity. }
      rewrite R. split; [split; [|reflexivity]|].
      { intros _ w W E. injection E as <-. destruct W as [W|W]; [congruence|contradiction]. }
      split; [|intros e H; left; congruence]. split; [discriminate|]. intros [(w & E & W) _]. injection E as <-.
      destruct W as [W|W]; [congruence|contradiction].
Qed.

