(** Proofs about the files of weather regimes and the choice of their number. *)
From Coq Require Import Reals Qreals.
From Verif Require Import PyBase ColumnModel EventSpec DriveModel DriveSpec BlockProofs CurveProofs MprModel MprSpec.
From Coq Require Import Ascii Lqa Lra List Sorting.Sorted.
Open Scope nat_scope.
Open Scope Q_scope.
Open Scope string_scope.

(* ---------- words ---------- *)
Definition Blank (r : string) : Prop := r = "" \/ exists r', r = String " "%char r'.
Lemma spaces_blank k r : Blank r -> Blank (spaces k ++ r).
Proof. intro H. destruct k; cbn [spaces append]; [exact H|right; eexists; reflexivity]. Qed.
Lemma words_spaces k r : words (spaces k ++ r) = words r.
Proof. induction k as [|k IH]; [reflexivity|]. cbn [spaces append words]. rewrite Ascii.eqb_refl. exact IH. Qed.
Lemma words_word : forall w r, Word w -> Blank r -> words (w ++ r) = w :: words r.
Proof.
  induction w as [|c w IH]; intros r (N & B) K; [destruct (N eq_refl)|]. cbn [append words]. destruct B as (C & B).
  destruct (Ascii.eqb_spec c " "%char) as [E|_]; [destruct (C E)|]. destruct w as [|d w].
  - cbn [append]. destruct K as [->|(r' & ->)]; [reflexivity|]. rewrite Ascii.eqb_refl. reflexivity.
  - cbn [append]. destruct (Ascii.eqb_spec d " "%char) as [E|_]; [destruct B as (X & _); destruct (X E)|].
    change (String d (w ++ r)) with (String d w ++ r). rewrite (IH r); [reflexivity|split; [discriminate|exact B]|exact K].
Qed.
Definition Padded (x w : string) : Prop := exists a b, x = spaces a ++ w ++ spaces b.
Definition nonempty (s : string) : bool := negb (String.eqb s "").
Definition Wordish (s : string) : Prop := s = "" \/ Word s.
Lemma append_nil s : s ++ "" = s.
Proof. induction s as [|c s IH]; [reflexivity|]. cbn [append]. rewrite IH. reflexivity. Qed.
Lemma append_assoc a b c : (a ++ b) ++ c = a ++ b ++ c.
Proof. induction a as [|x a IH]; [reflexivity|]. cbn [append]. rewrite IH. reflexivity. Qed.
Lemma words_padded x w r : Padded x w -> Wordish w -> Blank r -> words (x ++ r) = (filter nonempty [w] ++ words r)%list.
Proof.
  intros (a & b & ->) W B. rewrite !append_assoc, words_spaces. destruct W as [->|W].
  - cbn [append filter nonempty String.eqb negb app]. apply words_spaces.
  - rewrite (words_word w (spaces b ++ r) W (spaces_blank b r B)), words_spaces. cbn [filter]. unfold nonempty. destruct (String.eqb_spec w "") as [E|_]; [destruct W as (X & _); destruct (X E)|]. reflexivity.
Qed.
Lemma words_joined : forall xs ws, Forall2 Padded xs ws -> Forall Wordish ws -> words (joined xs) = filter nonempty ws.
Proof.
  unfold joined. induction 1 as [|x w xs ws P F IH]; intro W; [reflexivity|]. inversion W as [|? ? W1 W2]; subst. specialize (IH W2).
  change (filter nonempty (w :: ws)) with (filter nonempty ([w] ++ ws)). rewrite filter_app. destruct F as [|x' w' xs ws P' F].
  - cbn [String.concat]. rewrite <- (append_nil x). apply (words_padded x w "" P W1). left. reflexivity.
  - change (String.concat " " (x :: x' :: xs)) with (x ++ " " ++ String.concat " " (x' :: xs)). rewrite (words_padded x w _ P W1); [|right; eexists; reflexivity].
    rewrite (words_spaces 1). rewrite IH. reflexivity.
Qed.
Lemma filter_words ws : Forall Word ws -> filter nonempty ws = ws.
Proof. induction 1 as [|w ws H F IH]; [reflexivity|]. cbn [filter]. unfold nonempty at 1. destruct (String.eqb_spec w "") as [E|_]; [destruct H as (X & _); destruct (X E)|]. cbn [negb]. rewrite IH. reflexivity. Qed.
Lemma ljust_padded n w : Padded (ljust n w) w.
Proof. exists 0%nat, (n - String.length w)%nat. reflexivity. Qed.
Lemma rjust_padded n w : Padded (rjust n w) w.
Proof. exists (n - String.length w)%nat, 0%nat. unfold rjust. cbn [spaces]. rewrite append_nil. reflexivity. Qed.
Lemma formatted_words : forall widths values, length widths = length values -> Forall Word values -> words (formatted widths values) = values.
Proof.
  intros widths values L F. unfold formatted. rewrite (words_joined _ values); [apply filter_words; exact F| |eapply Forall_impl; [|exact F]; intros a H; right; exact H].
  clear F. revert values L. induction widths as [|n widths IH]; intros [|v values] L; try discriminate L; [constructor|]. cbn [combine map]. constructor; [apply ljust_padded|apply IH; injection L as L; exact L].
Qed.
Fixpoint word_check_blank (s : string) : bool := match s with "" => true | String c r => negb (Ascii.eqb c " "%char) && word_check_blank r end.
Definition word_check (s : string) : bool := nonempty s && word_check_blank s.
Lemma word_checked s : word_check s = true -> Word s.
Proof.
  unfold word_check. intro H. apply andb_true_iff in H. destruct H as (N & B). split; [intros ->; discriminate N|]. clear N. induction s as [|c s IH]; [exact I|]. cbn in B. apply andb_true_iff in B. destruct B as (X & Y). split; [|apply IH; exact Y].
  intros ->. discriminate X.
Qed.
Lemma digits_word n s : (0 < n)%nat -> Digits n s -> Word s.
Proof.
  intros P (L & F). split; [intros ->; cbn in L; lia|]. clear L P. induction s as [|c s IH]; [exact I|]. cbn [list_ascii_of_string] in F. inversion F as [|? ? H G]; subst. split; [|apply IH; exact G].
  intros ->. unfold Digit in H. cbn in H. repeat (destruct H as [H|H]; [discriminate H|]). exact H.
Qed.
Lemma number_word n s : (1 <= n)%nat -> DriveSpec.NumberText n s -> Word s.
Proof. intros P (D & V & _). apply (digits_word (String.length s)); [|exact D]. destruct s; [cbn in V; lia|cbn; lia]. Qed.

(* ---------- arrays ---------- *)
Lemma at1_iff {A} (l : list A) i x : at1 l i = Ok x <-> nth_error l i = Some x.
Proof. unfold at1. destruct (nth_error l i); split; intro H; congruence. Qed.
Lemma at2_iff {A} (l : list (list A)) i j x : at2 l i j = Ok x <-> Entry l i j x.
Proof.
  unfold at2, at1, Entry. destruct (nth_error l i) as [r|]; cbn [bind].
  - split; [intro H; exists r; split; [reflexivity|]; destruct (nth_error r j); congruence|]. intros (r' & E & H). injection E as <-. rewrite H. reflexivity.
  - split; [discriminate|intros (r & E & _); discriminate E].
Qed.
Lemma shaped_entry {A} n m (l : list (list A)) i j : Shaped n m l -> (i < n)%nat -> (j < m)%nat -> exists x, Entry l i j x.
Proof.
  intros (L & F) I J. destruct (nth_error l i) as [r|] eqn:E; [|apply nth_error_None in E; lia].
  pose proof (proj1 (Forall_forall _ _) F r (nth_error_In _ _ E)) as K. destruct (nth_error r j) as [x|] eqn:E2; [|apply nth_error_None in E2; cbv beta in K; lia]. exists x, r. split; assumption.
Qed.
Lemma entry_bounds {A} n m (l : list (list A)) i j x : Shaped n m l -> Entry l i j x -> (i < n /\ j < m)%nat.
Proof.
  intros (L & F) (r & E & H). pose proof (proj1 (Forall_forall _ _) F r (nth_error_In _ _ E)) as K. cbv beta in K.
  assert (i < length l)%nat by (apply nth_error_Some; congruence). assert (j < length r)%nat by (apply nth_error_Some; congruence). lia.
Qed.
Lemma entry_unique {A} (l : list (list A)) i j x y : Entry l i j x -> Entry l i j y -> x = y.
Proof. intros (r & E & H) (r' & E' & H'). rewrite E in E'. injection E' as <-. congruence. Qed.
Lemma entry_in {A} (P : A -> Prop) (l : list (list A)) i j x : Forall (Forall P) l -> Entry l i j x -> P x.
Proof. intros F (r & E & H). pose proof (proj1 (Forall_forall _ _) F r (nth_error_In _ _ E)) as K. exact (proj1 (Forall_forall _ _) K x (nth_error_In _ _ H)). Qed.

(* ---------- matched pairs ---------- *)
Definition BeforeP (a b : nat * nat) : Prop := Before (fst a) (snd a) (fst b) (snd b).
Lemma strong_app {A} (P : A -> A -> Prop) l m : StronglySorted P l -> StronglySorted P m -> (forall x y, In x l -> In y m -> P x y) -> StronglySorted P (l ++ m)%list.
Proof.
  induction l as [|x l IH]; intros A1 B1 H; [exact B1|]. cbn [app]. inversion A1 as [|? ? S1 F1]; subst. constructor; [apply IH; [exact S1|exact B1|intros a b I J; apply H; [right; exact I|exact J]]|].
  apply Forall_app. split; [exact F1|]. apply Forall_forall. intros y I. apply H; [left; reflexivity|exact I].
Qed.
Lemma strong_split {A} (P : A -> A -> Prop) l x m : StronglySorted P (l ++ x :: m)%list -> Forall (fun y => P y x) l /\ Forall (P x) m.
Proof.
  induction l as [|y l IH]; cbn [app]; intro H; inversion H as [|? ? S1 F1]; subst; [split; [constructor|exact F1]|]. destruct (IH S1) as (A1 & B1). split; [|exact B1]. constructor; [|exact A1].
  apply Forall_app in F1. destruct F1 as (_ & F1). inversion F1; assumption.
Qed.
Lemma seq_strong a n : StronglySorted lt (seq a n).
Proof. revert a. induction n as [|n IH]; intro a; cbn [seq]; constructor; [apply IH|]. apply Forall_forall. intros x I. apply in_seq in I. lia. Qed.
Lemma days_sorted a n b m : StronglySorted BeforeP (list_prod (seq a n) (seq b m)).
Proof.
  revert a. induction n as [|n IH]; intro a; [constructor|]. cbn [seq list_prod]. apply strong_app; [|apply IH|].
  - assert (forall l, StronglySorted lt l -> StronglySorted BeforeP (map (fun y => (a, y)) l)) as G.
    { induction 1 as [|x l S1 IH1 F1]; cbn [map]; constructor; [exact IH1|]. apply Forall_forall. intros y I. apply in_map_iff in I. destruct I as (z & <- & I). right. cbn. split; [reflexivity|]. exact (proj1 (Forall_forall _ _) F1 z I). }
    apply G. apply seq_strong.
  - intros x y I J. apply in_map_iff in I. destruct I as (z & <- & I). destruct y as (u, v). apply in_prod_iff in J. destruct J as (J & _). apply in_seq in J. left. cbn. lia.
Qed.

Section MprFacts.
Variable fixed4 : option Q -> string.
Variables (data_obs data_fcst : list (list (list (option Q)))) (lats lons : list (option Q)) (time_obs time_fcst : times) (t : texts) (outfile : string).
Notation pv := (point_values fixed4 data_obs data_fcst lats lons time_obs time_fcst t).
Notation pl := (point_lines fixed4 data_obs data_fcst lats lons time_obs time_fcst t).
Notation wf := (write_files fixed4 data_obs data_fcst lats lons time_obs time_fcst t outfile).
Notation FO := (FileOf outfile time_fcst).

Lemma lines_ok y d todo : (forall k, In k todo -> exists values, pv y d k = Ok values) ->
  snd (pl y d todo) = Ok tt /\ Forall2 (fun k line => exists values, pv y d k = Ok values /\ line = formatted (line_widths t) values) todo (fst (pl y d todo)).
Proof.
  induction todo as [|k todo IH]; intro H; cbn [point_lines]; [split; [reflexivity|constructor]|]. destruct (H k (or_introl eq_refl)) as (v & E). rewrite E. cbv zeta. cbn [fst snd].
  destruct IH as (A1 & B1); [intros j I; apply H; right; exact I|]. split; [exact A1|]. constructor; [exists v; split; [exact E|reflexivity]|exact B1].
Qed.
Lemma lines_stop y d e : forall pre k post, (forall j, In j pre -> exists values, pv y d j = Ok values) -> pv y d k = Err e ->
  snd (pl y d (pre ++ k :: post)%list) = Err e /\ length (fst (pl y d (pre ++ k :: post)%list)) = length pre.
Proof.
  induction pre as [|j pre IH]; intros k post H E; cbn [app point_lines].
  - rewrite E. split; reflexivity.
  - destruct (H j (or_introl eq_refl)) as (v & EJ). rewrite EJ. cbv zeta. cbn [fst snd length]. destruct (IH k post (fun i I => H i (or_intror I)) E) as (A1 & B1). split; [exact A1|]. f_equal. exact B1.
Qed.
Lemma files_ok : forall todo w,
  (forall y d, In (y, d) todo -> (exists v, Entry (valids time_fcst) y d v) /\ (exists l, Entry (leads time_fcst) y d l) /\ snd (pl y d (seq 0 (length lons))) = Ok tt) ->
  exists w', wf todo w = (w', Ok tt) /\ (forall p, (forall y d, In (y, d) todo -> ~ FO y d p) -> w' p = w p) /\
    (forall pre y d post name, todo = (pre ++ (y, d) :: post)%list -> FO y d name -> (forall y' d', In (y', d') post -> ~ FO y' d' name) ->
       w' name = Some (Text (formatted (header_widths t) header_names :: fst (pl y d (seq 0 (length lons)))))).
Proof.
  induction todo as [|(y, d) todo IH]; intros w H; cbn [write_files].
  - exists w. split; [reflexivity|]. split; [reflexivity|]. intros pre y d post name E. destruct pre; discriminate E.
  - destruct (H y d (or_introl eq_refl)) as ((v & EV) & (l & EL) & OK). rewrite (proj2 (at2_iff _ _ _ _) EV). destruct (String.eqb_spec v "") as [->|NE].
    + destruct (IH w (fun a b I => H a b (or_intror I))) as (w' & E & U & W). exists w'. split; [exact E|].
      assert (forall p, ~ FO y d p) as NF by (intros p (l' & v' & _ & V' & N' & _); apply N'; exact (entry_unique _ _ _ _ _ V' EV)).
      split; [intros p Hp; apply U; intros a b I; apply Hp; right; exact I|]. intros [|x pre] a b post name E2 F1 N1.
      * injection E2 as <- <- <-. destruct (NF _ F1).
      * injection E2 as _ E3. exact (W pre a b post name E3 F1 N1).
    + rewrite (proj2 (at2_iff _ _ _ _) EL). cbv zeta. rewrite OK.
      set (w1 := put (mpr_name outfile l v) _ w). destruct (IH w1 (fun a b I => H a b (or_intror I))) as (w' & E & U & W). exists w'. split; [exact E|].
      assert (FO y d (mpr_name outfile l v)) as F0 by (exists l, v; split; [exact EL|split; [exact EV|split; [exact NE|reflexivity]]]).
      split.
      * intros p Hp. rewrite U by (intros a b I; apply Hp; right; exact I). unfold w1, put. destruct (String.eqb_spec p (mpr_name outfile l v)) as [->|_]; [|reflexivity]. destruct (Hp y d (or_introl eq_refl) F0).
      * intros [|x pre] a b post name E2 F1 N1; [|injection E2 as _ E3; exact (W pre a b post name E3 F1 N1)].
        injection E2 as <- <- <-. rewrite U by exact N1. destruct F1 as (l' & v' & L' & V' & _ & ->). rewrite (entry_unique _ _ _ _ _ L' EL), (entry_unique _ _ _ _ _ V' EV).
        unfold w1, put. change (outfile ++ "_" ++ l ++ "L_" ++ substring 0 8 v ++ "_" ++ substring 9 6 v ++ "V.stat") with (mpr_name outfile l v). rewrite String.eqb_refl. reflexivity.
Qed.
Lemma files_stop e y d name lines post : forall pre w,
  (forall y' d', In (y', d') pre -> (exists v, Entry (valids time_fcst) y' d' v) /\ (exists l, Entry (leads time_fcst) y' d' l) /\ forall other, ~ FO y' d' other) ->
  FO y d name -> pl y d (seq 0 (length lons)) = (lines, Err e) ->
  wf (pre ++ (y, d) :: post)%list w = (put name (Some (Text (formatted (header_widths t) header_names :: lines))) w, Err e).
Proof.
  induction pre as [|(a, b) pre IH]; intros w H F E; cbn [app write_files].
  - destruct F as (l & v & L & V & N & ->). rewrite (proj2 (at2_iff _ _ _ _) V). destruct (String.eqb_spec v "") as [X|_]; [destruct (N X)|]. rewrite (proj2 (at2_iff _ _ _ _) L), E. reflexivity.
  - destruct (H a b (or_introl eq_refl)) as ((v & V) & (l & L) & N). rewrite (proj2 (at2_iff _ _ _ _) V). destruct (String.eqb_spec v "") as [_|X]; [exact (IH w (fun y' d' I => H y' d' (or_intror I)) F E)|].
    destruct (N (mpr_name outfile l v)). exists l, v. split; [exact L|split; [exact V|split; [exact X|reflexivity]]].
Qed.
Lemma values_ok ny nd y d k : DataShaped ny nd (length lons) data_obs -> DataShaped ny nd (length lons) data_fcst -> TimesShaped ny nd time_obs -> TimesShaped ny nd time_fcst ->
  (y < ny)%nat -> (d < nd)%nat -> (k < length lons)%nat ->
  (forall lat, nth_error lats k = Some lat -> exists values, pv y d k = Ok values) /\ (nth_error lats k = None -> pv y d k = Err IndexError).
Proof.
  intros (DO & DO2) (DF & DF2) (LO & VO) (LF & VF) Y D K. unfold point_values.
  destruct (shaped_entry _ _ _ y d LF Y D) as (x1 & E1). destruct (shaped_entry _ _ _ y d VF Y D) as (x2 & E2). destruct (shaped_entry _ _ _ y d LO Y D) as (x3 & E3). destruct (shaped_entry _ _ _ y d VO Y D) as (x4 & E4).
  rewrite (proj2 (at2_iff _ _ _ _) E1), (proj2 (at2_iff _ _ _ _) E2), (proj2 (at2_iff _ _ _ _) E3), (proj2 (at2_iff _ _ _ _) E4). cbn [bind].
  split; [|intro N; unfold at1 at 1; rewrite N; reflexivity]. intros lat EL. rewrite (proj2 (at1_iff _ _ _) EL). cbn [bind].
  destruct (nth_error lons k) as [lon|] eqn:EN; [|apply nth_error_None in EN; lia]. rewrite (proj2 (at1_iff _ _ _) EN). cbn [bind].
  destruct (shaped_entry _ _ _ y d DF Y D) as (pf & EF). destruct (shaped_entry _ _ _ y d DO Y D) as (po & EO).
  pose proof (entry_in _ _ _ _ _ DF2 EF) as LF'. pose proof (entry_in _ _ _ _ _ DO2 EO) as LO'. cbv beta in LF', LO'.
  unfold at3. rewrite (proj2 (at2_iff _ _ _ _) EF), (proj2 (at2_iff _ _ _ _) EO). cbn [bind].
  destruct (nth_error pf k) as [f|] eqn:Ef; [|apply nth_error_None in Ef; lia]. destruct (nth_error po k) as [o|] eqn:Eo; [|apply nth_error_None in Eo; lia].
  rewrite (proj2 (at1_iff _ _ _) Ef), (proj2 (at1_iff _ _ _) Eo). cbn [bind]. eexists. reflexivity.
Qed.
End MprFacts.

(* ---------- leads ---------- *)
Lemma text_length : forall fuel n acc, (String.length acc <= String.length (nat_text_fuel fuel n acc))%nat.
Proof. induction fuel as [|f IH]; intros n acc; [apply Nat.le_refl|]. cbn [nat_text_fuel]. destruct (Nat.ltb n 10); [cbn; lia|]. specialize (IH (Nat.div n 10) (String (ascii_of_nat (48 + Nat.modulo n 10)) acc)). cbn [String.length] in IH. lia. Qed.
Lemma text_positive n : (1 <= String.length (nat_text n))%nat.
Proof. unfold nat_text. cbn [nat_text_fuel]. destruct (Nat.ltb n 10); [cbn; lia|]. pose proof (text_length n (Nat.div n 10) (String (ascii_of_nat (48 + Nat.modulo n 10)) "")) as H. cbn [String.length] in H. lia. Qed.
Lemma text_digits n : Forall Digit (list_ascii_of_string (nat_text n)) /\ decimal (nat_text n) = Z.of_nat n.
Proof. destruct (nat_text_value (S n) n "" (Nat.lt_succ_diag_r n) ltac:(constructor)) as (A1 & B1 & _). split; [exact A1|exact B1]. Qed.
Lemma zfill_digits z : (0 <= z)%Z -> exists k, (2 <= k)%nat /\ Digits k (zfill2 (int_text z)) /\ decimal (zfill2 (int_text z)) = z.
Proof.
  intro H. unfold int_text. destruct (Z.ltb_spec z 0) as [X|_]; [lia|]. destruct (text_digits (Z.to_nat z)) as (A1 & B1). pose proof (text_positive (Z.to_nat z)) as P. set (s := nat_text (Z.to_nat z)) in *. clearbody s.
  unfold zfill2. destruct (Nat.ltb_spec (String.length s) 2) as [L|L].
  - exists (S (String.length s)). split; [lia|]. split; [split; [reflexivity|]|]; [cbn [append list_ascii_of_string]; constructor; [left; reflexivity|exact A1]|]. transitivity (decimal s); [reflexivity|]. rewrite B1. lia.
  - exists (String.length s). split; [exact L|]. split; [split; [reflexivity|exact A1]|]. rewrite B1. lia.
Qed.
Lemma zfill_sixty z : (0 <= z < 60)%Z -> String.length (zfill2 (int_text z)) = 2%nat.
Proof.
  intro H. assert (forallb (fun n => Nat.eqb (String.length (zfill2 (int_text (Z.of_nat n)))) 2) (seq 0 60) = true) as C by (vm_compute; reflexivity).
  pose proof (proj1 (forallb_forall _ _) C (Z.to_nat z)) as X. cbv beta in X. rewrite Z2Nat.id in X by lia. apply Nat.eqb_eq. apply X. apply in_seq. lia.
Qed.
Lemma lead_ok d : (0 <= d)%Z -> LeadText d (lead_text d).
Proof.
  intro H. unfold lead_text. cbv zeta. set (h := (d / 60 / 60)%Z). set (m := ((d / 60) mod 60)%Z). set (s := (d mod 60)%Z).
  assert (0 <= h)%Z as Hh by (apply Z.div_pos; [apply Z.div_pos; lia|lia]). assert (0 <= m < 60)%Z as Hm by (apply Z.mod_pos_bound; lia). assert (0 <= s < 60)%Z as Hs by (apply Z.mod_pos_bound; lia).
  pose proof (Z.div_mod d 60 ltac:(discriminate)) as E1. pose proof (Z.div_mod (d / 60) 60 ltac:(discriminate)) as E2. fold h m in E2. fold s in E1.
  destruct (zfill_digits h Hh) as (kh & K & D & V). destruct (zfill_digits m ltac:(lia)) as (km & _ & (Lm & Dm) & Vm). destruct (zfill_digits s ltac:(lia)) as (ks & _ & (Ls & Ds) & Vs).
  exists kh, h, m, s, (zfill2 (int_text h)), (zfill2 (int_text m)), (zfill2 (int_text s)). split; [reflexivity|]. split; [split; [lia|split; assumption]|]. split; [exact K|]. split; [exact D|]. split; [exact V|].
  split; [split; [apply zfill_sixty; exact Hm|exact Dm]|]. split; [exact Vm|]. split; [split; [apply zfill_sixty; exact Hs|exact Ds]|exact Vs].
Qed.

(* ---------- reading ---------- *)
Lemma nth_first {A} : forall m (l : list A) d, (d < m)%nat -> nth_error (firstn m l) d = nth_error l d.
Proof. induction m as [|m IH]; intros l d H; [lia|]. destruct l as [|x l]; [destruct d; reflexivity|]. destruct d as [|d]; [reflexivity|]. cbn. apply IH. lia. Qed.
Lemma nth_skip {A} : forall k (l : list A) d, nth_error (skipn k l) d = nth_error l (k + d).
Proof. induction k as [|k IH]; intros l d; [reflexivity|]. destruct l as [|x l]; [destruct d; reflexivity|]. cbn. apply IH. Qed.
Lemma rows_shaped {A} m : forall n (l : list A), length l = (n * m)%nat -> Shaped n m (rows_of n m l).
Proof.
  induction n as [|n IH]; intros l L; [split; [reflexivity|constructor]|]. cbn [rows_of]. cbn in L. destruct (IH (skipn m l)) as (A1 & B1); [rewrite skipn_length; lia|]. split; [cbn; rewrite A1; reflexivity|].
  constructor; [rewrite firstn_length; lia|exact B1].
Qed.
Lemma rows_entry {A} m d x : forall n y (l : list A), (y < n)%nat -> (d < m)%nat -> nth_error l (y * m + d) = Some x -> Entry (rows_of n m l) y d x.
Proof.
  induction n as [|n IH]; intros y l Y D E; [lia|]. destruct y as [|y].
  - exists (firstn m l). split; [reflexivity|]. rewrite nth_first by exact D. exact E.
  - destruct (IH y (skipn m l) ltac:(lia) D) as (r & E1 & E2); [rewrite nth_skip; rewrite <- E; f_equal; cbn; lia|]. exists r. split; [exact E1|exact E2].
Qed.
Lemma reshape_ok {A} n m (l : list A) : length l = (n * m)%nat -> reshape2 n m l = Ok (rows_of n m l).
Proof. intro H. unfold reshape2. rewrite H, Nat.eqb_refl. reflexivity. Qed.
Lemma grid_shape_ok n m g : (0 < n)%nat -> Shaped n m g -> grid_shape g = (n, m).
Proof. intros P (L & F). unfold grid_shape. destruct g as [|r g]; [cbn in L; lia|]. inversion F; subst. reflexivity. Qed.

Section ReadFacts.
Variable open_nc : string -> res nc_var.
Variable seconds : string -> res Z.
Lemma one_missing n m : read_one open_nc seconds n m "missing" = Ok (repeat (repeat None m) n, "", "", "").
Proof. reflexivity. Qed.
Lemma one_ok n m file v tv ti : (0 < n)%nat -> file <> "missing" -> open_nc file = Ok v -> seconds (nc_valid v) = Ok tv -> seconds (nc_init v) = Ok ti -> Shaped n m (nc_grid v) ->
  read_one open_nc seconds n m file = Ok (map (map (fun c => Some (fst c))) (nc_grid v), nc_init v, nc_valid v, lead_text (tv - ti)).
Proof.
  intros P N O V T G. unfold read_one. destruct (String.eqb_spec file "missing") as [X|_]; [destruct (N X)|]. rewrite O. cbn [bind]. rewrite V. cbn [bind]. rewrite T. cbn [bind]. cbv zeta.
  rewrite (grid_shape_ok n m _ P G). cbn [fst snd]. rewrite !Nat.eqb_refl. reflexivity.
Qed.
Lemma one_total n m file : (0 < n)%nat -> (file <> "missing" -> GoodFile open_nc seconds n m file) -> exists r, read_one open_nc seconds n m file = Ok r.
Proof.
  intros P H. destruct (string_dec file "missing") as [->|N]; [eexists; apply one_missing|]. destruct (H N) as (v & tv & ti & O & V & T & G). eexists. exact (one_ok n m file v tv ti P N O V T G).
Qed.
Lemma first_found infiles : (exists file, In file infiles /\ file <> "missing") ->
  exists k file, find (fun fn => negb (String.eqb fn "missing")) infiles = Some file /\ nth_error infiles k = Some file /\ file <> "missing" /\ forall j, (j < k)%nat -> nth_error infiles j = Some "missing".
Proof.
  intros (f & I & N). induction infiles as [|x l IH]; [destruct I|]. cbn [find]. destruct (String.eqb_spec x "missing") as [->|X]; cbn [negb].
  - destruct I as [E|I]; [destruct (N (eq_sym E))|]. destruct (IH I) as (k & file & A1 & B1 & C1 & D1). exists (S k), file. split; [exact A1|]. split; [exact B1|]. split; [exact C1|]. intros [|j] J; [reflexivity|apply D1; lia].
  - exists 0%nat, x. split; [reflexivity|]. split; [reflexivity|]. split; [exact X|]. intros j J. lia.
Qed.
Lemma start_ok infiles n m ns ds : (0 < n)%nat -> (0 < m)%nat -> (exists file, In file infiles /\ file <> "missing") ->
  (exists file, find (fun fn => negb (String.eqb fn "missing")) infiles = Some file /\ GoodFile open_nc seconds n m file) ->
  exists k file v, nth_error infiles k = Some file /\ file <> "missing" /\ (forall j, (j < k)%nat -> nth_error infiles j = Some "missing") /\ open_nc file = Ok v /\
  read_nc_met open_nc seconds infiles ns ds =
    (files <- mapM (read_one open_nc seconds n m) infiles ;;
        var_4d <- reshape2 ns ds (map (fun r => fst (fst (fst r))) files) ;;
        init <- reshape2 ns ds (map (fun r => snd (fst (fst r))) files) ;;
        valid <- reshape2 ns ds (map (fun r => snd (fst r)) files) ;;
        lead <- reshape2 ns ds (map snd files) ;;
        Ok (var_4d, nc_lats v, nc_lons v, (init, valid, lead))).
Proof.
  intros P Q1 E (f0 & F0 & (v & tv & ti & O & V & T & G)). destruct (first_found infiles E) as (k & file & F & N & X & B). rewrite F in F0. injection F0 as <-. exists k, file, v. split; [exact N|]. split; [exact X|]. split; [exact B|]. split; [exact O|].
  unfold read_nc_met. rewrite F, O. cbn [bind]. cbv zeta. rewrite (grid_shape_ok n m _ P G). cbn [fst snd]. destruct (Nat.eqb_spec n 0) as [Y|_]; [lia|]. destruct (Nat.eqb_spec m 0) as [Y|_]; [lia|]. reflexivity.
Qed.
End ReadFacts.

(* ---------- the elbow ---------- *)
Lemma all_present_map {A B} (g : A -> B) l : all_present (map (fun i => Some (g i)) l) = Some (map g l).
Proof. induction l as [|x l IH]; [reflexivity|]. cbn [map all_present]. rewrite IH. reflexivity. Qed.
Lemma least_spec : forall l m, least l = Some m -> In m l /\ forall x, In x l -> (m <= x)%R.
Proof.
  intros [|x l] m H; [discriminate H|]. cbn [least] in H. injection H as <-. revert x. induction l as [|y l IH]; intro x; cbn [fold_left]; [split; [left; reflexivity|]; intros z [->|[]]; apply Rle_refl|].
  destruct (IH (Rmin x y)) as (A1 & B1). split.
  - destruct A1 as [A1|A1]; [|right; right; exact A1]. rewrite <- A1. unfold Rmin. destruct (Rle_dec x y); [left; reflexivity|right; left; reflexivity].
  - pose proof (B1 (Rmin x y) (or_introl eq_refl)) as M. intros z [->|[->|I]]; [eapply Rle_trans; [exact M|apply Rmin_l]|eapply Rle_trans; [exact M|apply Rmin_r]|apply B1; right; exact I].
Qed.
Lemma nth_seq_map {A} (g : nat -> A) n i : (i < n)%nat -> nth_error (map g (seq 0 n)) i = Some (g i).
Proof. intro H. rewrite nth_error_map. rewrite (nth_error_nth' (seq 0 n) 0%nat) by (rewrite seq_length; exact H). rewrite seq_nth by exact H. reflexivity. Qed.
Lemma places_rule (g : nat -> R) n (better : nat -> nat -> bool) : (forall i j, (i < n)%nat -> (j < n)%nat -> (better i j = true <-> g i <= g j)%R) ->
  places (map g (seq 0 n)) = filter (fun i => forallb (better i) (seq 0 n)) (seq 0 n).
Proof.
  intro H. unfold places. destruct (least (map g (seq 0 n))) as [m|] eqn:E; [|destruct n; [reflexivity|discriminate E]]. destruct (least_spec _ _ E) as (I & M). rewrite map_length, seq_length.
  apply filter_ext_in. intros i Hi. apply in_seq in Hi. rewrite nth_seq_map by lia. apply in_map_iff in I. destruct I as (j & <- & J). apply in_seq in J.
  destruct (Req_EM_T (g i) (g j)) as [X|X]; symmetry.
  - apply forallb_forall. intros k K. pose proof K as K'. apply in_seq in K'. apply H; [lia|lia|]. rewrite X. apply M. apply in_map. exact K.
  - apply not_true_iff_false. intro Y. apply X. apply Rle_antisym; [|apply M; apply in_map; apply in_seq; lia]. apply H; [lia|lia|]. apply (proj1 (forallb_forall _ _) Y). apply in_seq. lia.
Qed.
Definition depth_at (s : list Q) (i : nat) : Q :=
  nth 0 s 0 + (nth (length s - 1) s 0 - nth 0 s 0) * inject_Z (Z.of_nat i) / inject_Z (Z.of_nat (length s - 1)) - nth i s 0.
Lemma depth_iff (s : list Q) i x : (2 <= length s)%nat -> (Depth s i x <-> (i < length s)%nat /\ x == depth_at s i).
Proof.
  intro L. unfold Depth, depth_at. split.
  - intros (a & b & v & A1 & B1 & C1 & E). split; [apply nth_error_Some; congruence|]. rewrite (nth_error_nth _ _ 0 A1), (nth_error_nth _ _ 0 B1), (nth_error_nth _ _ 0 C1). exact E.
  - intros (I & E). exists (nth 0 s 0), (nth (length s - 1) s 0), (nth i s 0). rewrite !(nth_error_nth' s 0) by lia. repeat (split; [reflexivity|]). exact E.
Qed.
Definition best_at (s : list Q) (i : nat) : bool := forallb (fun j => Qle_bool (depth_at s j) (depth_at s i)) (seq 0 (length s)).
Definition elbow_cross (s : list Q) (i : nat) : Q :=
  inject_Z (Z.of_nat (length s - 1)) * (nth i s 0 * unit10 - nth 0 s 0 * unit10) - (nth (length s - 1) s 0 * unit10 - nth 0 s 0 * unit10) * inject_Z (Z.of_nat i).
Definition elbow_square (s : list Q) : Q :=
  inject_Z (Z.of_nat (length s - 1)) * inject_Z (Z.of_nat (length s - 1)) +
  (nth (length s - 1) s 0 * unit10 - nth 0 s 0 * unit10) * (nth (length s - 1) s 0 * unit10 - nth 0 s 0 * unit10).
Lemma span_positive (s : list Q) : (2 <= length s)%nat -> 0 < inject_Z (Z.of_nat (length s - 1)).
Proof. intro L. change 0 with (inject_Z 0). rewrite <- Zlt_Qlt. lia. Qed.
Lemma square_positive (s : list Q) : (2 <= length s)%nat -> 0 < elbow_square s.
Proof.
  intro L. unfold elbow_square. pose proof (span_positive s L) as P. set (x := inject_Z _) in *. set (y := _ - _ * unit10). assert (0 < x * x) by (apply Qmult_lt_0_compat; exact P). assert (0 <= y * y) by Lqa.nra. Lqa.lra.
Qed.
Lemma cross_depth (s : list Q) i : (2 <= length s)%nat -> elbow_cross s i == - (unit10 * inject_Z (Z.of_nat (length s - 1)) * depth_at s i).
Proof. intro L. unfold elbow_cross, depth_at. pose proof (span_positive s L) as P. field. intro X. rewrite X in P. discriminate P. Qed.
Lemma elbow_run (s : list Q) : (2 <= length s)%nat -> run_elbow s = Ok (seq 1 (length s), map (fun i => Some (Q2R (elbow_cross s i) / sqrt (Q2R (elbow_square s)))%R) (seq 0 (length s)),
  filter (best_at s) (seq 0 (length s)),
  map (fun k => ((nth (length s - 1) s 0 - nth 0 s 0) / inject_Z (Z.of_nat (length s - 1)) * inject_Z (Z.of_nat k) + (nth 0 s 0 - (nth (length s - 1) s 0 - nth 0 s 0) / inject_Z (Z.of_nat (length s - 1)))) * unit10) (seq 1 (length s)),
  map (fun v => v * unit10) s).
Proof.
  intro L. unfold run_elbow. cbv zeta. rewrite (proj2 (at1_iff s 0 (nth 0 s 0)) ltac:(apply nth_error_nth'; lia)). cbn [bind]. rewrite (proj2 (at1_iff s (length s - 1) (nth (length s - 1) s 0)) ltac:(apply nth_error_nth'; lia)). cbn [bind].
  destruct (Nat.eqb_spec (length s) 1) as [X|_]; [lia|].
  assert (mapM (elbow_distance (map (fun v => v * unit10) s)) (seq 0 (length s)) = Ok (map (fun i => Some (Q2R (elbow_cross s i) / sqrt (Q2R (elbow_square s)))%R) (seq 0 (length s)))) as E.
  { assert (forall l, (forall i, In i l -> (i < length s)%nat) -> mapM (elbow_distance (map (fun v => v * unit10) s)) l = Ok (map (fun i => Some (Q2R (elbow_cross s i) / sqrt (Q2R (elbow_square s)))%R) l)) as G.
    { induction l as [|i l IH]; intro H; [reflexivity|]. cbn [mapM map]. rewrite IH by (intros j J; apply H; right; exact J). specialize (H i (or_introl eq_refl)).
      assert (forall j, (j < length s)%nat -> at1 (map (fun v => v * unit10) s) j = Ok (nth j s 0 * unit10)) as AT by (intros j J; apply at1_iff; rewrite nth_error_map; rewrite (nth_error_nth' s 0 J); reflexivity).
      unfold elbow_distance. rewrite map_length. rewrite !AT by lia. cbn [bind]. cbv zeta. fold (elbow_square s). fold (elbow_cross s i). destruct (Qeq_bool (elbow_square s) 0) eqn:Z; [|reflexivity].
      apply Qeq_bool_iff in Z. pose proof (square_positive s L) as P. rewrite Z in P. discriminate P. }
    apply G. intros i I. apply in_seq in I. lia. }
  rewrite E. cbn [bind]. rewrite (all_present_map (fun i => (Q2R (elbow_cross s i) / sqrt (Q2R (elbow_square s)))%R)).
  rewrite (places_rule _ _ (fun i j => Qle_bool (depth_at s j) (depth_at s i))); [reflexivity|].
  intros i j I J. rewrite Qle_bool_iff. pose proof (square_positive s L) as P. pose proof (span_positive s L) as P2. pose proof (cross_depth s i L) as Ci. pose proof (cross_depth s j L) as Cj.
  assert (0 < sqrt (Q2R (elbow_square s)))%R as SP by (apply sqrt_lt_R0; apply Qlt_Rlt in P; unfold Q2R at 1 in P; cbn in P; Lra.lra).
  assert (elbow_cross s i <= elbow_cross s j <-> depth_at s j <= depth_at s i) as CD.
  { rewrite Ci, Cj. assert (0 < unit10 * inject_Z (Z.of_nat (length s - 1))) as PP by (apply Qmult_lt_0_compat; [reflexivity|exact P2]). set (x := unit10 * _) in *. split; intro H.
    - apply (Qmult_lt_0_le_reg_r _ _ x PP). Lqa.lra.
    - assert (depth_at s j * x <= depth_at s i * x) by (apply Qmult_le_compat_r; [exact H|apply Qlt_le_weak; exact PP]). Lqa.lra. }
  rewrite <- CD. split; intro H.
  - apply Rmult_le_compat_r; [apply Rlt_le; apply Rinv_0_lt_compat; exact SP|]. apply Qle_Rle. exact H.
  - apply Rle_Qle. apply (Rmult_le_reg_r (/ sqrt (Q2R (elbow_square s)))); [apply Rinv_0_lt_compat; exact SP|exact H].
Qed.
Lemma best_iff (s : list Q) i : (2 <= length s)%nat -> (In i (filter (best_at s) (seq 0 (length s))) <-> exists x, Depth s i x /\ forall j y, Depth s j y -> y <= x).
Proof.
  intro L. rewrite filter_In, in_seq. unfold best_at. rewrite forallb_forall. split.
  - intros (I & H). exists (depth_at s i). split; [apply depth_iff; [exact L|]; split; [lia|reflexivity]|]. intros j y D. apply depth_iff in D; [|exact L]. destruct D as (J & ->). apply Qle_bool_iff. apply H. apply in_seq. lia.
  - intros (x & D & H). apply depth_iff in D; [|exact L]. destruct D as (I & E). split; [lia|]. intros j J. apply in_seq in J. apply Qle_bool_iff. rewrite <- E. apply (H j). apply depth_iff; [exact L|]. split; [lia|reflexivity].
Qed.
Lemma filter_sorted {A} (P : A -> A -> Prop) f l : StronglySorted P l -> StronglySorted P (filter f l).
Proof. induction 1 as [|x l S1 IH F]; [constructor|]. cbn [filter]. destruct (f x); [|exact IH]. constructor; [exact IH|]. apply Forall_forall. intros y I. apply filter_In in I. exact (proj1 (Forall_forall _ _) F y (proj1 I)). Qed.
Lemma sorted_nth l : StronglySorted lt l -> forall i j a b, nth_error l i = Some a -> nth_error l j = Some b -> (i < j)%nat -> (a < b)%nat.
Proof.
  induction 1 as [|x l S1 IH F]; intros i j a b A1 B1 L; [destruct i; discriminate A1|]. destruct j as [|j]; [lia|]. destruct i as [|i]; [|exact (IH i j a b A1 B1 ltac:(lia))]. injection A1 as <-. exact (proj1 (Forall_forall _ _) F b (nth_error_In l j B1)).
Qed.
Lemma some_best (s : list Q) : (2 <= length s)%nat -> exists i, (i < length s)%nat /\ forall j, (j < length s)%nat -> depth_at s j <= depth_at s i.
Proof.
  intro L. assert (forall n, exists i, (i <= n)%nat /\ forall j, (j <= n)%nat -> depth_at s j <= depth_at s i) as G.
  { induction n as [|n IH]; [exists 0%nat; split; [lia|]; intros j J; replace j with 0%nat by lia; apply Qle_refl|]. destruct IH as (i & I & M). destruct (Qlt_le_dec (depth_at s i) (depth_at s (S n))) as [X|X].
    - exists (S n). split; [lia|]. intros j J. destruct (Nat.eq_dec j (S n)) as [->|N]; [apply Qle_refl|]. eapply Qle_trans; [apply M; lia|apply Qlt_le_weak; exact X].
    - exists i. split; [lia|]. intros j J. destruct (Nat.eq_dec j (S n)) as [->|N]; [exact X|apply M; lia]. }
  destruct (G (length s - 1)%nat) as (i & I & M). exists i. split; [lia|]. intros j J. apply M. lia.
Qed.
Lemma ends_zero (s : list Q) : (2 <= length s)%nat -> depth_at s 0 == 0 /\ depth_at s (length s - 1) == 0.
Proof. intro L. pose proof (span_positive s L) as P. unfold depth_at. split; [|field; intro X; rewrite X in P; discriminate P]. change (inject_Z (Z.of_nat 0)) with 0. field. intro X. rewrite X in P. discriminate P. Qed.

(* ---------- examples ---------- *)
Definition case_texts : texts := Texts "GFS" "NA" "IBL" "n/a" "Z500" "IBL" "n/a" "Z500" "FULL" "500".
Definition case_lats : list (option Q) := [Some 60; Some 60].
Definition case_lons : list (option Q) := [Some 0; Some 90].
Definition case_fcst : list (list (list (option Q))) := [[[Some 1; Some 0]; [Some 0; Some 0]]].
Definition case_obs : list (list (list (option Q))) := [[[Some 1; Some 1]; [Some 0; None]]].
Definition case_times_fcst : times := Times [["240000"; "240000"]] [["20001201_120000"; "20001202_120000"]].
Definition case_times_obs : times := Times [["000000"; ""]] [["20001201_120000"; ""]].
Definition case_fixed4 (x : option Q) : string := match x with Some _ => "0.0000" | None => "nan" end.
Definition case_seconds (s : string) : res Z := if String.eqb s "20001201_000000" then Ok 0%Z else if String.eqb s "20001201_120000" then Ok 43200%Z else Err ValueError.
Definition case_open (f : string) : res nc_var :=
  if String.eqb f "a.nc" then Ok (NcVar [40; 50] [0; 90] [[(1, false); (2, false)]; [(3, false); (4, false)]] "20001201_000000" "20001201_120000")
  else if String.eqb f "b.nc" then Ok (NcVar [40; 50] [0; 90; 180] [[(1, false); (2, false); (3, false)]; [(3, false); (4, false); (3, false)]] "20001201_000000" "20001201_120000")
  else Err RuntimeError.
Lemma text_ok vt : forall a b c d e f g h r, vt = String a (String b (String c (String d (String e (String f (String g (String h r))))))) ->
  word_check (String a (String b (String c (String d "")))) = true -> word_check (String e (String f "")) = true -> word_check (String g (String h "")) = true ->
  ValidTime vt (String a (String b (String c (String d "")))) (String e (String f "")) (String g (String h "")).
Proof. intros a b c d e f g h r -> X Y Z. exists r. repeat (split; [reflexivity|]). split; [apply word_checked; exact X|]. split; apply word_checked; assumption. Qed.
Lemma valid_parts vt year month day : ValidTime vt year month day -> year_of vt = year /\ month_of vt = month /\ day_of vt = day /\ Word year /\ Word month /\ Word day.
Proof.
  intros (r & -> & A1 & B1 & C1 & W). destruct year as [|a [|b [|c [|d [|]]]]]; try discriminate A1. destruct month as [|e [|f [|]]]; try discriminate B1. destruct day as [|g [|h [|]]]; try discriminate C1.
  split; [reflexivity|]. split; [reflexivity|]. split; [destruct r; reflexivity|exact W].
Qed.

Lemma forall2_length {A B} (P : A -> B -> Prop) l m : Forall2 P l m -> length l = length m.
Proof. induction 1 as [|x y l m H F IH]; [reflexivity|]. cbn. f_equal. exact IH. Qed.
Lemma nth_combine {A B} : forall (l : list A) (m : list B) k a b, nth_error l k = Some a -> nth_error m k = Some b -> nth_error (combine l m) k = Some (a, b).
Proof. induction l as [|x l IH]; intros [|y m] [|k] a b E1 E2; try discriminate E1; try discriminate E2; [injection E1 as <-; injection E2 as <-; reflexivity|]. exact (IH m k a b E1 E2). Qed.

(** The statements of PropertiesMpr.v. *)
Lemma C123_files_proof : forall fixed4 data_obs data_fcst lats lons time_obs time_fcst t outfile w ny nd,
  DataShaped ny nd (length lons) data_obs -> DataShaped ny nd (length lons) data_fcst -> length lats = length lons ->
  TimesShaped ny nd time_obs -> TimesShaped ny nd time_fcst ->
  exists w', write_mpr_file fixed4 data_obs data_fcst lats lons time_obs time_fcst t outfile w = (w', Ok tt) /\
    (forall p, (forall y d, ~ FileOf outfile time_fcst y d p) -> w' p = w p) /\
    (forall y d name, FileOf outfile time_fcst y d name -> (forall y' d', Before y d y' d' -> ~ FileOf outfile time_fcst y' d' name) ->
     exists header lines, w' name = Some (Text (header :: lines)) /\ length lines = length lons /\
       (forall a b c e f g h i j k, words header = map fst (firstn 24 (mpr_columns fixed4 t a b c e f g h i j k))) /\
       (forall k line lead_f valid_f lead_o valid_o lat lon f o pf po,
          nth_error lines k = Some line -> WordTexts t -> (forall x, Word (fixed4 x)) ->
          Entry (leads time_fcst) y d lead_f -> Entry (valids time_fcst) y d valid_f ->
          Entry (leads time_obs) y d lead_o -> Entry (valids time_obs) y d valid_o -> Forall Word [lead_f; valid_f; lead_o; valid_o] ->
          nth_error lats k = Some lat -> nth_error lons k = Some lon ->
          Entry data_fcst y d pf -> nth_error pf k = Some f -> Entry data_obs y d po -> nth_error po k = Some o ->
          exists total index, NumberText (length lons) total /\ NumberText (S k) index /\
            words line = map snd (mpr_columns fixed4 t lead_f valid_f lead_o valid_o total index lat lon f o))).
Proof.
  intros fixed4 data_obs data_fcst lats lons time_obs time_fcst t outfile w ny nd DO DF LL TO TF. unfold write_mpr_file.
  assert (length data_obs = ny /\ (ny = 0%nat \/ match data_obs with [] => 0%nat | d :: _ => length d end = nd)) as (L1 & L2).
  { destruct DO as ((A1 & F1) & _). split; [exact A1|]. destruct data_obs as [|d rest]; [left; symmetry; exact A1|right; inversion F1; assumption]. }
  rewrite L1. set (inner := match data_obs with [] => 0%nat | d :: _ => length d end) in *. clearbody inner.
  assert (forall y d, In (y, d) (list_prod (seq 0 ny) (seq 0 inner)) <-> (y < ny /\ d < nd)%nat) as IN.
  { intros y d. rewrite in_prod_iff, !in_seq. destruct L2 as [->| ->]; lia. }
  assert (forall y d, (y < ny)%nat -> (d < nd)%nat -> forall k, In k (seq 0 (length lons)) -> exists values, point_values fixed4 data_obs data_fcst lats lons time_obs time_fcst t y d k = Ok values) as PV.
  { intros y d Y D k K. apply in_seq in K. destruct (values_ok fixed4 data_obs data_fcst lats lons time_obs time_fcst t ny nd y d k DO DF TO TF Y D ltac:(lia)) as (A1 & _). destruct (nth_error lats k) as [lat|] eqn:E; [exact (A1 lat eq_refl)|]. apply nth_error_None in E. lia. }
  destruct (files_ok fixed4 data_obs data_fcst lats lons time_obs time_fcst t outfile (list_prod (seq 0 ny) (seq 0 inner)) w) as (w' & E & U & W).
  { intros y d I. apply IN in I. destruct I as (Y & D). destruct TF as (TL & TV). split; [exact (shaped_entry _ _ _ y d TV Y D)|]. split; [exact (shaped_entry _ _ _ y d TL Y D)|]. exact (proj1 (lines_ok _ _ _ _ _ _ _ _ y d _ (PV y d Y D))). }
  exists w'. split; [exact E|]. split; [intros p H; apply U; intros y d _; apply H|]. intros y d name F N.
  assert (y < ny /\ d < nd)%nat as (Y & D) by (destruct F as (l & v & A1 & _); exact (entry_bounds _ _ _ _ _ _ (proj1 TF) A1)).
  destruct (in_split _ _ (proj2 (IN y d) (conj Y D))) as (pre & post & S1). pose proof (days_sorted 0 ny 0 inner) as SS. rewrite S1 in SS. destruct (strong_split _ _ _ _ SS) as (_ & AF).
  destruct (lines_ok _ _ _ _ _ _ _ _ y d _ (PV y d Y D)) as (_ & F2).
  eexists _, _. split; [apply (W pre y d post name S1 F); intros y' d' I; apply N; exact (proj1 (Forall_forall _ _) AF (y', d') I)|].
  pose proof (forall2_length _ _ _ F2) as LEN. rewrite seq_length in LEN. split; [symmetry; exact LEN|]. split.
  - intros. apply formatted_words; [reflexivity|]. repeat (constructor; [apply word_checked; reflexivity|]). constructor.
  - intros k line lead_f valid_f lead_o valid_o lat lon f o pf po EL WT WF E1 E2 E3 E4 WO Elat Elon Ef1 Ef2 Eo1 Eo2.
    assert (k < length lons)%nat as K by (apply nth_error_Some; congruence). assert (nth_error (seq 0 (length lons)) k = Some k) as ES by (rewrite (nth_error_nth' _ 0%nat) by (rewrite seq_length; exact K); rewrite seq_nth by exact K; reflexivity).
    destruct (forall2_nth _ _ _ k k line F2 ES EL) as (values & EV & ->). clear F2 W U E.
    unfold point_values in EV. rewrite (proj2 (at2_iff _ _ _ _) E1), (proj2 (at2_iff _ _ _ _) E2), (proj2 (at2_iff _ _ _ _) E3), (proj2 (at2_iff _ _ _ _) E4) in EV. cbn [bind] in EV.
    rewrite (proj2 (at1_iff _ _ _) Elat), (proj2 (at1_iff _ _ _) Elon) in EV. cbn [bind] in EV. unfold at3 in EV. rewrite (proj2 (at2_iff _ _ _ _) Ef1), (proj2 (at2_iff _ _ _ _) Eo1) in EV. cbn [bind] in EV.
    rewrite (proj2 (at1_iff _ _ _) Ef2), (proj2 (at1_iff _ _ _) Eo2) in EV. cbn [bind] in EV. injection EV as <-.
    exists (nat_text (length lons)), (nat_text (S k)). pose proof (nat_text_number (length lons) ltac:(lia)) as N1. pose proof (nat_text_number (S k) ltac:(lia)) as N2.
    split; [exact N1|]. split; [exact N2|]. rewrite formatted_words; [reflexivity|reflexivity|].
    pose proof (number_word (length lons) _ ltac:(lia) N1) as W1. pose proof (number_word (S k) _ ltac:(lia) N2) as W2. unfold WordTexts in WT.
    repeat match goal with H : Forall Word (_ :: _) |- _ => inversion H; clear H; subst end.
    repeat (constructor; [solve [assumption|apply word_checked; reflexivity|apply WF]|]). constructor.
Qed.

Lemma C123_files_case_proof : exists ny nd, DataShaped ny nd (length case_lons) case_obs /\ DataShaped ny nd (length case_lons) case_fcst /\
  length case_lats = length case_lons /\ TimesShaped ny nd case_times_obs /\ TimesShaped ny nd case_times_fcst /\ WordTexts case_texts /\
  (forall x, Word (case_fixed4 x)) /\ FileOf "out" case_times_fcst 0 0 "out_240000L_20001201_120000V.stat" /\
  (forall y' d', Before 0 0 y' d' -> ~ FileOf "out" case_times_fcst y' d' "out_240000L_20001201_120000V.stat").
Proof.
  exists 1%nat, 2%nat. split; [split; [split; [reflexivity|repeat constructor]|repeat constructor]|]. split; [split; [split; [reflexivity|repeat constructor]|repeat constructor]|]. split; [reflexivity|].
  split; [split; (split; [reflexivity|repeat constructor])|]. split; [split; (split; [reflexivity|repeat constructor])|]. split; [repeat (constructor; [apply word_checked; reflexivity|]); constructor|].
  split; [intros [q|]; apply word_checked; reflexivity|]. split.
  - exists "240000", "20001201_120000". split; [exists ["240000"; "240000"]; split; reflexivity|]. split; [exists ["20001201_120000"; "20001202_120000"]; split; reflexivity|]. split; [discriminate|reflexivity].
  - intros y' d' B (l & v & (r & A1 & A2) & (r' & B1 & B2) & _ & E). cbn in A1, B1. destruct y' as [|y']; [|destruct y'; discriminate A1]. injection A1 as <-. injection B1 as <-.
    destruct B as [B|(_ & B)]; [lia|]. destruct d' as [|[|d']]; [lia| |destruct d'; discriminate A2]. injection A2 as <-. injection B2 as <-. discriminate E.
Qed.

Lemma C123_shift_refuted_proof : ~ (forall fixed4 data_obs data_fcst lats lons time_obs time_fcst t outfile w w' ny nd y d name header lines line,
  DataShaped ny nd (length lons) data_obs -> DataShaped ny nd (length lons) data_fcst -> length lats = length lons ->
  TimesShaped ny nd time_obs -> TimesShaped ny nd time_fcst -> WordTexts t -> (forall x, Word (fixed4 x)) ->
  write_mpr_file fixed4 data_obs data_fcst lats lons time_obs time_fcst t outfile w = (w', Ok tt) ->
  FileOf outfile time_fcst y d name -> w' name = Some (Text (header :: lines)) -> In line lines ->
  length (words line) = 37%nat /\ nth_error (words line) 23 = Some "MPR").
Proof.
  intro H. destruct C123_files_case_proof as (ny & nd & DO & DF & LL & TO & TF & WT & WF & _).
  destruct (write_mpr_file case_fixed4 case_obs case_fcst case_lats case_lons case_times_obs case_times_fcst case_texts "out" (fun _ => None)) as (w', r) eqn:E.
  assert (r = Ok tt) as -> by (apply (f_equal snd) in E; vm_compute in E; symmetry; exact E).
  assert (exists header line rest, w' "out_240000L_20001202_120000V.stat" = Some (Text (header :: line :: rest)) /\ length (words line) = 34%nat) as (header & line & rest & E1 & E2).
  { apply (f_equal fst) in E. cbn [fst] in E. rewrite <- E. do 3 eexists. split; [vm_compute; reflexivity|vm_compute; reflexivity]. }
  destruct (H case_fixed4 case_obs case_fcst case_lats case_lons case_times_obs case_times_fcst case_texts "out" (fun _ => None) w' ny nd 0%nat 1%nat "out_240000L_20001202_120000V.stat" header (line :: rest) line DO DF LL TO TF WT WF E) as (X & _); [|exact E1|left; reflexivity|congruence].
  exists "240000", "20001202_120000". split; [exists ["240000"; "240000"]; split; reflexivity|]. split; [exists ["20001201_120000"; "20001202_120000"]; split; reflexivity|]. split; [discriminate|reflexivity].
Qed.

Lemma C123_short_proof : forall fixed4 data_obs data_fcst lats lons time_obs time_fcst t outfile w ny nd y d name,
  DataShaped ny nd (length lons) data_obs -> DataShaped ny nd (length lons) data_fcst -> (length lats < length lons)%nat ->
  TimesShaped ny nd time_obs -> TimesShaped ny nd time_fcst ->
  FileOf outfile time_fcst y d name -> (forall y' d' other, Before y' d' y d -> ~ FileOf outfile time_fcst y' d' other) ->
  exists w' header lines, write_mpr_file fixed4 data_obs data_fcst lats lons time_obs time_fcst t outfile w = (w', Err IndexError) /\
    w' name = Some (Text (header :: lines)) /\ length lines = length lats /\ Untouched name w w'.
Proof.
  intros fixed4 data_obs data_fcst lats lons time_obs time_fcst t outfile w ny nd y d name DO DF LL TO TF F N. unfold write_mpr_file.
  assert (length data_obs = ny /\ (ny = 0%nat \/ match data_obs with [] => 0%nat | d :: _ => length d end = nd)) as (L1 & L2).
  { destruct DO as ((A1 & F1) & _). split; [exact A1|]. destruct data_obs as [|d0 rest]; [left; symmetry; exact A1|right; inversion F1; assumption]. }
  rewrite L1. set (inner := match data_obs with [] => 0%nat | d :: _ => length d end) in *. clearbody inner.
  assert (forall y d, In (y, d) (list_prod (seq 0 ny) (seq 0 inner)) <-> (y < ny /\ d < nd)%nat) as IN.
  { intros y0 d0. rewrite in_prod_iff, !in_seq. destruct L2 as [->| ->]; lia. }
  assert (y < ny /\ d < nd)%nat as (Y & D) by (destruct F as (l & v & A1 & _); exact (entry_bounds _ _ _ _ _ _ (proj1 TF) A1)).
  destruct (in_split _ _ (proj2 (IN y d) (conj Y D))) as (pre & post & S1). pose proof (days_sorted 0 ny 0 inner) as SS. rewrite S1 in SS. destruct (strong_split _ _ _ _ SS) as (BF & _).
  assert (seq 0 (length lons) = (seq 0 (length lats) ++ length lats :: seq (S (length lats)) (length lons - length lats - 1))%list) as SQ.
  { replace (length lons) with (length lats + S (length lons - length lats - 1))%nat at 1 by lia. rewrite seq_app. reflexivity. }
  destruct (lines_stop fixed4 data_obs data_fcst lats lons time_obs time_fcst t y d IndexError (seq 0 (length lats)) (length lats) (seq (S (length lats)) (length lons - length lats - 1))) as (X1 & X2).
  { intros j J. apply in_seq in J. destruct (values_ok fixed4 data_obs data_fcst lats lons time_obs time_fcst t ny nd y d j DO DF TO TF Y D ltac:(lia)) as (A1 & _). destruct (nth_error lats j) as [lat|] eqn:E; [exact (A1 lat eq_refl)|]. apply nth_error_None in E. lia. }
  { apply (values_ok fixed4 data_obs data_fcst lats lons time_obs time_fcst t ny nd y d (length lats) DO DF TO TF Y D LL). apply nth_error_None. lia. }
  rewrite <- SQ in X1, X2. destruct (point_lines fixed4 data_obs data_fcst lats lons time_obs time_fcst t y d (seq 0 (length lons))) as (lines, r) eqn:E. cbn [fst snd] in X1, X2. subst r.
  rewrite S1. rewrite (files_stop fixed4 data_obs data_fcst lats lons time_obs time_fcst t outfile IndexError y d name lines post pre w); [|intros y' d' I|exact F|exact E].
  - eexists _, _, lines. split; [reflexivity|]. split; [unfold put; rewrite String.eqb_refl; reflexivity|]. split; [rewrite X2; apply seq_length|]. intros p NP. unfold put. destruct (String.eqb_spec p name) as [Z|_]; [destruct (NP Z)|reflexivity].
  - assert (In (y', d') (list_prod (seq 0 ny) (seq 0 inner))) as I2 by (rewrite S1; apply in_or_app; left; exact I). apply IN in I2. destruct I2 as (Y' & D'). destruct TF as (TL & TV).
    split; [exact (shaped_entry _ _ _ _ _ TV Y' D')|]. split; [exact (shaped_entry _ _ _ _ _ TL Y' D')|]. intro other. apply N. exact (proj1 (Forall_forall _ _) BF (y', d') I).
Qed.

Lemma C123_short_case_proof : exists ny nd, DataShaped ny nd (length case_lons) case_obs /\ DataShaped ny nd (length case_lons) case_fcst /\
  (length (tl case_lats) < length case_lons)%nat /\ TimesShaped ny nd case_times_obs /\ TimesShaped ny nd case_times_fcst /\
  FileOf "out" case_times_fcst 0 0 "out_240000L_20001201_120000V.stat" /\
  (forall y' d' other, Before y' d' 0 0 -> ~ FileOf "out" case_times_fcst y' d' other).
Proof.
  destruct C123_files_case_proof as (ny & nd & DO & DF & LL & TO & TF & _ & _ & F & _). exists ny, nd. split; [exact DO|]. split; [exact DF|]. split; [cbn; lia|]. split; [exact TO|]. split; [exact TF|]. split; [exact F|].
  intros y' d' other [B|(_ & B)]; lia.
Qed.

Lemma C124_read_proof : forall open_nc seconds infiles nseasons dseasons n m,
  (0 < n)%nat -> (0 < m)%nat -> (exists file, In file infiles /\ file <> "missing") ->
  (forall file, In file infiles -> file <> "missing" -> GoodFile open_nc seconds n m file) -> length infiles = (nseasons * dseasons)%nat ->
  exists grids lats lons init valid lead,
    read_nc_met open_nc seconds infiles nseasons dseasons = Ok (grids, lats, lons, (init, valid, lead)) /\
    Shaped nseasons dseasons grids /\ Shaped nseasons dseasons init /\ Shaped nseasons dseasons valid /\ Shaped nseasons dseasons lead /\
    (exists k file v, nth_error infiles k = Some file /\ file <> "missing" /\ (forall j, (j < k)%nat -> nth_error infiles j = Some "missing") /\
       open_nc file = Ok v /\ lats = nc_lats v /\ lons = nc_lons v) /\
    (forall y d file, (y < nseasons)%nat -> (d < dseasons)%nat -> nth_error infiles (y * dseasons + d) = Some file ->
     exists g i t l, Entry grids y d g /\ Entry init y d i /\ Entry valid y d t /\ Entry lead y d l /\ Shaped n m g /\
       (file = "missing" -> i = "" /\ t = "" /\ l = "" /\ forall a b x, Entry g a b x -> x = None) /\
       (file <> "missing" -> forall v tv ti, open_nc file = Ok v -> seconds (nc_valid v) = Ok tv -> seconds (nc_init v) = Ok ti ->
          i = nc_init v /\ t = nc_valid v /\ ((ti <= tv)%Z -> LeadText (tv - ti) l) /\
          forall a b q masked, Entry (nc_grid v) a b (q, masked) -> Entry g a b (Some q))).
Proof.
  intros open_nc seconds infiles nseasons dseasons n m Pn Pm EX GF LEN.
  destruct (start_ok open_nc seconds infiles n m nseasons dseasons Pn Pm EX) as (k & file & v & A1 & A2 & A3 & A4 & ->).
  { destruct (first_found infiles EX) as (k & file & F & N & X & _). exists file. split; [exact F|]. apply GF; [exact (nth_error_In _ _ N)|exact X]. }
  destruct (mapM_all (read_one open_nc seconds n m) (fun f r => read_one open_nc seconds n m f = Ok r) infiles) as (files & E & F2).
  { intros f I. destruct (one_total open_nc seconds n m f Pn (GF f I)) as (r & E). exists r. split; exact E. }
  rewrite E. cbn [bind]. pose proof (forall2_length _ _ _ F2) as FL. rewrite LEN in FL. rewrite !reshape_ok by (rewrite map_length; symmetry; exact FL). cbn [bind].
  do 6 eexists. split; [reflexivity|]. do 4 (split; [apply rows_shaped; rewrite map_length; symmetry; exact FL|]).
  split; [exists k, file, v; repeat (split; [first [assumption|reflexivity]|]); reflexivity|].
  intros y d f Y D EF. assert (exists r, nth_error files (y * dseasons + d) = Some r /\ read_one open_nc seconds n m f = Ok r) as (r & ER & RO).
  { destruct (nth_error files (y * dseasons + d)) as [r|] eqn:X; [exists r; split; [reflexivity|exact (forall2_nth _ _ _ _ _ _ F2 EF X)]|]. apply nth_error_None in X. rewrite <- FL, <- LEN in X. assert (y * dseasons + d < length infiles)%nat by (apply nth_error_Some; congruence). lia. }
  destruct r as (((g, i), t), l). exists g, i, t, l.
  assert (forall A (h : list (list (option Q)) * string * string * string -> A), nth_error (map h files) (y * dseasons + d) = Some (h (g, i, t, l))) as HM by (intros A h; rewrite nth_error_map, ER; reflexivity).
  split; [apply rows_entry; [exact Y|exact D|exact (HM _ (fun r => fst (fst (fst r))))]|]. split; [apply rows_entry; [exact Y|exact D|exact (HM _ (fun r => snd (fst (fst r))))]|].
  split; [apply rows_entry; [exact Y|exact D|exact (HM _ (fun r => snd (fst r)))]|]. split; [apply rows_entry; [exact Y|exact D|exact (HM _ snd)]|].
  destruct (string_dec f "missing") as [->|NM].
  - rewrite one_missing in RO. injection RO as <- <- <- <-. split; [|split; [|intro X; destruct (X eq_refl)]].
    + split; [apply repeat_length|]. apply Forall_forall. intros r I. apply repeat_spec in I. subst r. apply repeat_length.
    + intros _. repeat (split; [reflexivity|]). intros a b x (r & E1 & E2). apply nth_error_In in E1. apply repeat_spec in E1. subst r. apply nth_error_In in E2. apply repeat_spec in E2. exact E2.
  - destruct (GF f (nth_error_In _ _ EF) NM) as (v' & tv & ti & O & V & T & (GL & GR)). rewrite (one_ok open_nc seconds n m f v' tv ti Pn NM O V T (conj GL GR)) in RO. injection RO as <- <- <- <-.
    split; [split; [rewrite map_length; exact GL|]; apply Forall_forall; intros r I; apply in_map_iff in I; destruct I as (r' & <- & I); rewrite map_length; exact (proj1 (Forall_forall _ _) GR r' I)|].
    split; [intro X; destruct (NM X)|]. intros _ v2 tv2 ti2 O2 V2 T2. rewrite O in O2. injection O2 as <-. rewrite V in V2. injection V2 as <-. rewrite T in T2. injection T2 as <-. split; [reflexivity|]. split; [reflexivity|]. split; [intro H; apply lead_ok; lia|].
    intros a b q masked (r & E1 & E2). exists (map (fun c => Some (fst c)) r). split; [rewrite nth_error_map, E1; reflexivity|rewrite nth_error_map, E2; reflexivity].
Qed.

Lemma C124_read_case_proof : (exists file, In file ["missing"; "a.nc"] /\ file <> "missing") /\
  (forall file, In file ["missing"; "a.nc"] -> file <> "missing" -> GoodFile case_open case_seconds 2 2 file) /\
  length ["missing"; "a.nc"] = (1 * 2)%nat.
Proof.
  split; [exists "a.nc"; split; [right; left; reflexivity|discriminate]|]. split; [|reflexivity]. intros f [<-|[<-|[]]] N; [destruct (N eq_refl)|]. eexists _, _, _. split; [reflexivity|]. split; [reflexivity|]. split; [reflexivity|]. split; [reflexivity|repeat constructor].
Qed.

Lemma C124_negative_refuted_proof : ~ (forall open_nc seconds infiles grids lats lons init valid lead file v tv ti l,
  read_nc_met open_nc seconds infiles 1 1 = Ok (grids, lats, lons, (init, valid, lead)) -> infiles = [file] -> file <> "missing" ->
  open_nc file = Ok v -> seconds (nc_valid v) = Ok tv -> seconds (nc_init v) = Ok ti -> (tv < ti)%Z -> Entry lead 0 0 l ->
  exists r, l = "-" ++ r /\ LeadText (ti - tv) r).
Proof.
  intro H. set (op := fun _ : string => Ok (NcVar [40] [0] [[(1, false)]] "i" "v")). set (sec := fun s => if String.eqb s "i" then Ok 1800%Z else Ok 0%Z).
  destruct (H op sec ["f"] [[[[Some 1]]]] [40] [0] [["i"]] [["v"]] [["-13000"]] "f" (NcVar [40] [0] [[(1, false)]] "i" "v") 0%Z 1800%Z "-13000") as (r & E & L); try reflexivity; [discriminate|exists ["-13000"]; split; reflexivity|].
  injection E as <-. destruct L as (kh & h & m & s & th & tm & ts & E & (E2 & M & S1) & K & D1 & V1 & (D2 & _) & V2 & (D3 & _) & V3).
  assert (String.length "13000" = String.length th + String.length tm + String.length ts)%nat as LEN.
  { rewrite E. clear. induction th as [|c th IH]; cbn; [induction tm; cbn; [reflexivity|f_equal; assumption]|f_equal; exact IH]. }
  destruct D1 as (D1 & _). cbn in LEN. lia.
Qed.

Lemma C124_masked_refuted_proof : ~ (forall open_nc seconds infiles grids lats lons init valid lead file v g a b q x,
  read_nc_met open_nc seconds infiles 1 1 = Ok (grids, lats, lons, (init, valid, lead)) -> infiles = [file] ->
  open_nc file = Ok v -> Entry (nc_grid v) a b (q, true) -> Entry grids 0 0 g -> Entry g a b x -> x = None).
Proof.
  intro H. set (v := NcVar [40] [0] [[(-9999, true)]] "i" "v"). set (op := fun _ : string => Ok v). set (sec := fun s : string => Ok 0%Z).
  specialize (H op sec ["f"] [[[[Some (-9999)]]]] [40] [0] [["i"]] [["v"]] [["000000"]] "f" v [[Some (-9999)]] 0%nat 0%nat (-9999) (Some (-9999)) eq_refl eq_refl eq_refl).
  discriminate H; [exists [(-9999, true)]; split; reflexivity|exists [[[Some (-9999)]]]; split; reflexivity|exists [Some (-9999)]; split; reflexivity].
Qed.

Lemma C124_refused_proof : forall open_nc seconds infiles nseasons dseasons n m,
  ((forall file, In file infiles -> file = "missing") -> read_nc_met open_nc seconds infiles nseasons dseasons = Err RuntimeError) /\
  ((0 < n)%nat -> (0 < m)%nat -> (exists file, In file infiles /\ file <> "missing") ->
   (forall file, In file infiles -> file <> "missing" -> GoodFile open_nc seconds n m file) ->
   length infiles <> (nseasons * dseasons)%nat -> read_nc_met open_nc seconds infiles nseasons dseasons = Err ValueError) /\
  (forall before file after n' m', infiles = (before ++ file :: after)%list -> file <> "missing" -> (0 < n)%nat -> (0 < m)%nat ->
   (exists other, In other before /\ other <> "missing") ->
   (forall other, In other before -> other <> "missing" -> GoodFile open_nc seconds n m other) ->
   GoodFile open_nc seconds n' m' file -> (1 < n')%nat -> (1 < m')%nat -> (n', m') <> (n, m) ->
   read_nc_met open_nc seconds infiles nseasons dseasons = Err ValueError).
Proof.
  intros open_nc seconds infiles nseasons dseasons n m. split; [|split].
  - intro H. unfold read_nc_met. destruct (find (fun fn => negb (fn =? "missing")) infiles) as [f|] eqn:E; [|reflexivity]. apply find_some in E. destruct E as (I & X). rewrite (H f I) in X. discriminate X.
  - intros Pn Pm EX GF LEN.
    destruct (start_ok open_nc seconds infiles n m nseasons dseasons Pn Pm EX) as (k & file & v & _ & _ & _ & _ & ->).
    { destruct (first_found infiles EX) as (k & file & F & N & X & _). exists file. split; [exact F|]. apply GF; [exact (nth_error_In _ _ N)|exact X]. }
    destruct (mapM_all (read_one open_nc seconds n m) (fun f r => read_one open_nc seconds n m f = Ok r) infiles) as (files & E & F2).
    { intros f I. destruct (one_total open_nc seconds n m f Pn (GF f I)) as (r & E). exists r. split; exact E. }
    rewrite E. cbn [bind]. pose proof (forall2_length _ _ _ F2) as FL. unfold reshape2 at 1. rewrite map_length, <- FL. destruct (Nat.eqb_spec (length infiles) (nseasons * dseasons)) as [X|_]; [destruct (LEN X)|reflexivity].
  - intros before file after n' m' -> NM Pn Pm (other & IO & NO) GF (v' & tv & ti & O & V & T & G) N' M' NE.
    assert (exists file, In file before /\ file <> "missing") as EXB by (exists other; split; assumption).
    destruct (start_ok open_nc seconds (before ++ file :: after)%list n m nseasons dseasons Pn Pm) as (k & f0 & v & _ & _ & _ & _ & ->).
    { exists other. split; [apply in_or_app; left; exact IO|exact NO]. }
    { destruct (first_found before EXB) as (k & f & F & N & X & _). exists f. split; [|apply GF; [exact (nth_error_In _ _ N)|exact X]].
      clear - F. induction before as [|x l IH]; [discriminate F|]. cbn [app find] in *. destruct (negb (x =? "missing")); [exact F|exact (IH F)]. }
    assert (read_one open_nc seconds n m file = Err ValueError) as RO.
    { unfold read_one. destruct (String.eqb_spec file "missing") as [X|_]; [destruct (NM X)|]. rewrite O. cbn [bind]. rewrite V. cbn [bind]. rewrite T. cbn [bind]. cbv zeta. rewrite (grid_shape_ok n' m' _ ltac:(lia) G). cbn [fst snd].
      destruct (Nat.eqb_spec n' n) as [->|_]; [destruct (Nat.eqb_spec m' m) as [->|_]; [destruct (NE eq_refl)|]|]; cbn [andb]; repeat match goal with |- context [Nat.eqb ?u 1] => let Y := fresh in destruct (Nat.eqb_spec u 1) as [Y|Y]; [exfalso; lia|] end; reflexivity. }
    assert (mapM (read_one open_nc seconds n m) (before ++ file :: after)%list = Err ValueError) as ->; [|reflexivity].
    clear - RO GF Pn. induction before as [|x l IH]; cbn [app mapM]; [rewrite RO; reflexivity|]. destruct (one_total open_nc seconds n m x Pn (GF x (or_introl eq_refl))) as (r & ->). cbn [bind]. rewrite IH; [reflexivity|]. intros o I. apply GF. right. exact I.
Qed.

Lemma C124_refused_case_proof : (forall file, In file ["missing"; "missing"] -> file = "missing") /\
  (exists file, In file ["missing"; "a.nc"; "a.nc"] /\ file <> "missing") /\
  (forall file, In file ["missing"; "a.nc"; "a.nc"] -> file <> "missing" -> GoodFile case_open case_seconds 2 2 file) /\
  length ["missing"; "a.nc"; "a.nc"] <> (1 * 2)%nat /\ GoodFile case_open case_seconds 2 3 "b.nc".
Proof.
  split; [intros f [<-|[<-|[]]]; reflexivity|]. split; [exists "a.nc"; split; [right; left; reflexivity|discriminate]|].
  split; [|split; [discriminate|]]; [|eexists _, _, _; split; [reflexivity|split; [reflexivity|split; [reflexivity|split; [reflexivity|repeat constructor]]]]].
  intros f [<-|[<-|[<-|[]]]] N; [destruct (N eq_refl)| |]; (eexists _, _, _; split; [reflexivity|split; [reflexivity|split; [reflexivity|split; [reflexivity|repeat constructor]]]]).
Qed.

Lemma C125_elbow_proof : forall s, (2 <= length s)%nat ->
  exists d mi line curve, run_elbow s = Ok (seq 1 (length s), d, mi, line, curve) /\
    mi <> [] /\ (forall i, In i mi <-> exists x, Depth s i x /\ forall j y, Depth s j y -> y <= x) /\
    (forall i j a b, nth_error mi i = Some a -> nth_error mi j = Some b -> (i < j)%nat -> (a < b)%nat) /\
    length d = length s /\ length line = length s /\ length curve = length s /\
    (forall i v c, nth_error s i = Some v -> nth_error curve i = Some c -> c == v / 10000000000) /\
    (forall i x c l, Depth s i x -> nth_error curve i = Some c -> nth_error line i = Some l -> l - c == x / 10000000000) /\
    (forall i di c l, nth_error d i = Some di -> nth_error curve i = Some c -> nth_error line i = Some l ->
       forall a b, nth_error curve 0 = Some a -> nth_error curve (length s - 1) = Some b ->
       let n := Q2R (inject_Z (Z.of_nat (length s - 1))) in
       di = Some ((Q2R c - Q2R l) * n / sqrt (n * n + (Q2R b - Q2R a) * (Q2R b - Q2R a)))%R).
Proof.
  intros s L. do 4 eexists. split; [exact (elbow_run s L)|].
  split. { destruct (some_best s L) as (i & I & M). assert (In i (filter (best_at s) (seq 0 (length s)))) as X by (apply best_iff; [exact L|]; exists (depth_at s i); split; [apply depth_iff; [exact L|]; split; [exact I|reflexivity]|]; intros j y D; apply depth_iff in D; [|exact L]; destruct D as (J & ->); exact (M j J)). intro E. rewrite E in X. destruct X. }
  split; [intro i; exact (best_iff s i L)|]. split; [apply sorted_nth; apply filter_sorted; apply seq_strong|]. split; [rewrite map_length, seq_length; reflexivity|]. split; [rewrite map_length, seq_length; reflexivity|]. split; [apply map_length|].
  pose proof (span_positive s L) as P. assert (~ inject_Z (Z.of_nat (length s - 1)) == 0) as NZ by (intro X; rewrite X in P; discriminate P).
  assert (forall i l, (i < length s)%nat -> nth_error (map (fun k => ((nth (length s - 1) s 0 - nth 0 s 0) / inject_Z (Z.of_nat (length s - 1)) * inject_Z (Z.of_nat k) + (nth 0 s 0 - (nth (length s - 1) s 0 - nth 0 s 0) / inject_Z (Z.of_nat (length s - 1)))) * unit10) (seq 1 (length s))) i = Some l ->
    l == (nth i s 0 + depth_at s i) * unit10) as LN.
  { intros i l I E. rewrite nth_error_map in E. rewrite (nth_error_nth' _ 0%nat) in E by (rewrite seq_length; exact I). rewrite seq_nth in E by exact I. injection E as <-. unfold depth_at. assert (inject_Z (Z.of_nat (1 + i)) == 1 + inject_Z (Z.of_nat i)) as -> by (rewrite Nat2Z.inj_add, inject_Z_plus; reflexivity). field. exact NZ. }
  split; [|split].
  - intros i v c E1 E2. rewrite nth_error_map, E1 in E2. injection E2 as <-. unfold unit10. field.
  - intros i x c l D E1 E2. apply depth_iff in D; [|exact L]. destruct D as (I & ->). rewrite (LN i l I E2). rewrite nth_error_map, (nth_error_nth' s 0 I) in E1. injection E1 as <-. unfold unit10. field.
  - intros i di c l E1 E2 E3 a b E4 E5 n. assert (i < length s)%nat as I by (rewrite <- (map_length (fun v => v * unit10) s); apply nth_error_Some; congruence).
    rewrite nth_seq_map in E1 by exact I. injection E1 as <-. pose proof (LN i l I E3) as EL. rewrite nth_error_map, (nth_error_nth' s 0 I) in E2. injection E2 as <-.
    rewrite nth_error_map, (nth_error_nth' s 0) in E4 by lia. injection E4 as <-. rewrite nth_error_map, (nth_error_nth' s 0) in E5 by lia. injection E5 as <-.
    assert (Q2R (elbow_square s) = n * n + (Q2R (nth (length s - 1) s 0 * unit10)%Q - Q2R (nth 0 s 0 * unit10)%Q) * (Q2R (nth (length s - 1) s 0 * unit10)%Q - Q2R (nth 0 s 0 * unit10)%Q))%R as ->.
    { unfold elbow_square. rewrite Q2R_plus, !Q2R_mult, Q2R_minus, !Q2R_mult. reflexivity. }
    assert (Q2R (elbow_cross s i) = (Q2R (nth i s 0 * unit10)%Q - Q2R l) * n)%R as ->; [|reflexivity].
    unfold n. rewrite <- Q2R_minus, <- Q2R_mult. apply Qeq_eqR. rewrite (cross_depth s i L), EL. ring.
Qed.

Lemma C125_elbow_case_proof : (2 <= length [100; 40; 30; 25])%nat /\ Depth [100; 40; 30; 25] 1 35 /\
  (forall j y, Depth [100; 40; 30; 25] j y -> y <= 35).
Proof.
  split; [cbn; lia|]. split; [exists 100, 25, 40; repeat (split; [reflexivity|]); reflexivity|]. intros j y (a & b & v & A1 & B1 & C1 & E). cbn in A1, B1. injection A1 as <-. injection B1 as <-.
  destruct j as [|[|[|[|j]]]]; cbn in C1; [| | | |destruct j; discriminate C1]; injection C1 as <-; rewrite E; vm_compute; discriminate.
Qed.

Lemma C125_inside_proof : forall s d mi line curve K, (2 <= length s)%nat -> run_elbow s = Ok (K, d, mi, line, curve) ->
  ((exists i x, Depth s i x /\ 0 < x) -> forall i, In i mi -> (0 < i < length s - 1)%nat) /\
  (forall c d' mi' line' curve' K', 0 < c -> run_elbow (map (fun v => v * c) s) = Ok (K', d', mi', line', curve') -> mi' = mi).
Proof.
  intros s d mi line curve K L H. rewrite (elbow_run s L) in H. injection H as _ _ <- _ _. split.
  - intros (k & x & D & P) i I. pose proof I as I2. apply best_iff in I2; [|exact L]. destruct I2 as (z & DI & M). pose proof (M k x D) as KX. apply depth_iff in DI; [|exact L]. destruct DI as (B & E). destruct (ends_zero s L) as (Z0 & Z1).
    assert (i <> 0%nat) by (intros ->; rewrite Z0 in E; Lqa.lra). assert (i <> (length s - 1)%nat) by (intros ->; rewrite Z1 in E; Lqa.lra). lia.
  - intros c d' mi' line' curve' K' P H. rewrite elbow_run in H by (rewrite map_length; exact L). injection H as _ _ <- _ _. rewrite map_length. apply filter_ext_in. intros i I. apply in_seq in I. unfold best_at. rewrite map_length.
    assert (forall j, (j < length s)%nat -> depth_at (map (fun v => v * c) s) j == depth_at s j * c) as DC.
    { intros j J. unfold depth_at. rewrite map_length. assert (forall k, (k < length s)%nat -> nth k (map (fun v => v * c) s) 0 = nth k s 0 * c) as NM.
      { intros k B. apply nth_error_nth. rewrite nth_error_map, (nth_error_nth' s 0 B). reflexivity. }
      rewrite !NM by lia. pose proof (span_positive s L) as PP. field. intro X. rewrite X in PP. discriminate PP. }
    assert (forall l, (forall j, In j l -> (j < length s)%nat) -> forallb (fun j => Qle_bool (depth_at (map (fun v => v * c) s) j) (depth_at (map (fun v => v * c) s) i)) l = forallb (fun j => Qle_bool (depth_at s j) (depth_at s i)) l) as G.
    { induction l as [|j l IH]; intro H; [reflexivity|]. cbn [forallb]. rewrite IH by (intros k B; apply H; right; exact B). f_equal. specialize (H j (or_introl eq_refl)). apply eq_true_iff_eq. rewrite !Qle_bool_iff. rewrite (DC j H), (DC i ltac:(lia)). split; intro X.
      - exact (Qmult_lt_0_le_reg_r _ _ c P X).
      - apply Qmult_le_compat_r; [exact X|apply Qlt_le_weak; exact P]. }
    apply G. intros j J. apply in_seq in J. lia.
Qed.

Lemma C125_inside_case_proof : (2 <= length [100; 40; 30; 25])%nat /\ (exists i x, Depth [100; 40; 30; 25] i x /\ 0 < x) /\
  exists r, run_elbow [100; 40; 30; 25] = Ok r.
Proof.
  split; [cbn; lia|]. split; [exists 1%nat, 35; split; [exists 100, 25, 40; repeat (split; [reflexivity|]); reflexivity|reflexivity]|]. eexists. apply elbow_run. cbn. lia.
Qed.

Lemma C125_one_refuted_proof : forall v,
  (exists d line curve, run_elbow [v] = Ok ([1%nat], d, [], line, curve) /\ d = [None]) /\ run_elbow [] = Err IndexError.
Proof.
  intro v. split; [|reflexivity]. unfold run_elbow. cbv zeta. cbn [length Nat.sub at1 nth_error bind Nat.eqb seq map mapM]. unfold elbow_distance. cbn [length map Nat.sub at1 nth_error bind].
  destruct (Qeq_bool _ 0) eqn:E.
  - cbn [mapM bind all_present]. do 3 eexists. split; reflexivity.
  - apply Qeq_bool_neq in E. destruct E. change (inject_Z (Z.of_nat 0)) with 0. ring.
Qed.

Lemma C126_text_proof : forall show day_number path valid wrc w, length (List.concat valid) = length (List.concat wrc) ->
  exists w' heading lines, write_K_means_file show day_number "text" path valid wrc w = (w', Ok tt) /\
    w' (path ++ ".txt") = Some (Text (heading :: lines)) /\ Untouched (path ++ ".txt") w w' /\
    words heading = ["#"; "Year"; "Month"; "Day"; "WeatherRegime"] /\ length lines = length (List.concat wrc) /\
    (forall k vt year month day q line, nth_error (List.concat valid) k = Some vt -> ValidTime vt year month day ->
       nth_error (List.concat wrc) k = Some q -> Word (show q) -> nth_error lines k = Some line ->
       words line = [year; month; day; show q]).
Proof.
  intros show day_number path valid wrc w L. unfold write_K_means_file. cbv zeta. rewrite L, Nat.eqb_refl. cbn [negb String.eqb Ascii.eqb Bool.eqb]. eexists _, _, _. split; [reflexivity|]. split; [unfold put; rewrite String.eqb_refl; reflexivity|].
  split; [intros p NP; unfold put; destruct (String.eqb_spec p (path ++ ".txt")) as [Z|_]; [destruct (NP Z)|reflexivity]|]. split; [reflexivity|]. split; [rewrite map_length, combine_length, L; apply Nat.min_id|].
  intros k vt year month day q line E1 V E2 W E3. rewrite nth_error_map in E3. rewrite (nth_combine _ _ k vt q E1 E2) in E3. injection E3 as <-. destruct (valid_parts _ _ _ _ V) as (P1 & P2 & P3 & W1 & W2 & W3).
  unfold regime_line. cbn [fst snd]. rewrite P1, P2, P3. rewrite (words_joined _ [year; month; day; show q]); [apply filter_words; repeat (constructor; [assumption|]); constructor| |repeat (constructor; [right; assumption|]); constructor].
  repeat (constructor; [apply rjust_padded|]). constructor.
Qed.

Lemma C126_text_case_proof : length (List.concat [["20001201_000000"; "20001202_000000"]]) = length (List.concat [[1; 3]]) /\
  ValidTime "20001202_000000" "2000" "12" "02" /\ Word "3.0".
Proof.
  split; [reflexivity|]. split; [eapply text_ok; reflexivity|apply word_checked; reflexivity].
Qed.

Lemma C126_blank_refuted_proof : forall show day_number path valid wrc w w' heading lines k q line,
  length (List.concat valid) = length (List.concat wrc) ->
  write_K_means_file show day_number "text" path valid wrc w = (w', Ok tt) -> w' (path ++ ".txt") = Some (Text (heading :: lines)) ->
  nth_error (List.concat valid) k = Some "" -> nth_error (List.concat wrc) k = Some q -> Word (show q) -> nth_error lines k = Some line ->
  words line = [show q].
Proof.
  intros show day_number path valid wrc w w' heading lines k q line L H E E1 E2 W E3. unfold write_K_means_file in H. cbv zeta in H. rewrite L, Nat.eqb_refl in H. cbn [negb String.eqb Ascii.eqb Bool.eqb] in H. injection H as <-.
  unfold put in E. rewrite String.eqb_refl in E. injection E as _ <-. rewrite nth_error_map in E3. rewrite (nth_combine _ _ k "" q E1 E2) in E3. injection E3 as <-. unfold regime_line. cbn [fst snd].
  rewrite (words_joined _ [""; ""; ""; show q]); [cbn [filter nonempty String.eqb negb]; exact (filter_words [show q] (Forall_cons _ W (Forall_nil _)))| |repeat (constructor; [left; reflexivity|]); constructor; [right; exact W|constructor]].
  repeat (constructor; [apply rjust_padded|]). constructor.
Qed.

Lemma C126_blank_refuted_case_proof : length (List.concat [["20001201_000000"; ""]]) = length (List.concat [[1; 3]]) /\
  nth_error (List.concat [["20001201_000000"; ""]]) 1 = Some "" /\ Word "3.0" /\
  exists w' heading lines, write_K_means_file (fun _ => "3.0") (fun _ _ _ => Err ValueError) "text" "wr" [["20001201_000000"; ""]] [[1; 3]] (fun _ => None) = (w', Ok tt) /\
    w' "wr.txt" = Some (Text (heading :: lines)).
Proof.
  split; [reflexivity|]. split; [reflexivity|]. split; [apply word_checked; reflexivity|]. do 3 eexists. split; reflexivity.
Qed.

Lemma C126_netcdf_proof : forall show day_number path valid wrc w (number : string -> Z), List.concat valid <> [] ->
  length (List.concat valid) = length (List.concat wrc) ->
  (forall vt, In vt (List.concat valid) -> exists year month day, ValidTime vt year month day /\ day_number year month day = Ok (number vt)) ->
  exists w' records, write_K_means_file show day_number "netcdf" path valid wrc w = (w', Ok tt) /\
    w' (path ++ ".nc") = Some (NetCdf records) /\ Untouched (path ++ ".nc") w w' /\ length records = length (List.concat wrc) /\
    (forall k first vt year month day q, nth_error (List.concat valid) 0 = Some first -> nth_error (List.concat valid) k = Some vt ->
       ValidTime vt year month day -> nth_error (List.concat wrc) k = Some q ->
       nth_error records k = Some ((number vt - number first)%Z, year ++ month ++ day, q)).
Proof.
  intros show day_number path valid wrc w number NE L H. unfold write_K_means_file. cbv zeta. rewrite L, Nat.eqb_refl. cbn [negb String.eqb Ascii.eqb Bool.eqb].
  destruct (List.concat valid) as [|first rest] eqn:EC; [destruct (NE eq_refl)|]. cbn [at1 nth_error bind].
  assert (forall vt, In vt (first :: rest) -> day_number (year_of vt) (month_of vt) (day_of vt) = Ok (number vt)) as DN.
  { intros vt I. destruct (H vt I) as (year & month & day & V & D). destruct (valid_parts _ _ _ _ V) as (P1 & P2 & P3 & _). rewrite P1, P2, P3. exact D. }
  rewrite (DN first (or_introl eq_refl)). cbn [bind].
  match goal with |- context [mapM ?f ?l] => assert (mapM f l = Ok (map (fun x : string * Q => ((number (fst x) - number first)%Z, year_of (fst x) ++ month_of (fst x) ++ day_of (fst x), snd x)) l)) as E end.
  { assert (forall l : list (string * Q), (forall x, In x l -> In (fst x) (first :: rest)) -> mapM (fun x : string * Q => day <- day_number (year_of (fst x)) (month_of (fst x)) (day_of (fst x)) ;; Ok ((day - number first)%Z, year_of (fst x) ++ month_of (fst x) ++ day_of (fst x), snd x)) l = Ok (map (fun x : string * Q => ((number (fst x) - number first)%Z, year_of (fst x) ++ month_of (fst x) ++ day_of (fst x), snd x)) l)) as G.
    { intro l. induction l as [|x l IH]; intro I; [reflexivity|]. cbn [mapM map]. rewrite (DN (fst x) (I x (or_introl eq_refl))). cbn [bind]. rewrite IH by (intros y J; apply I; right; exact J). reflexivity. }
    apply G. intros (vt, q) I. exact (in_combine_l _ _ _ _ I). }
  rewrite E. eexists _, _. split; [reflexivity|]. split; [unfold put; rewrite String.eqb_refl; reflexivity|].
  split; [intros p NP; unfold put; destruct (String.eqb_spec p (path ++ ".nc")) as [Z|_]; [destruct (NP Z)|reflexivity]|]. split; [rewrite map_length, combine_length, L; apply Nat.min_id|].
  intros k first' vt year month day q E1 E2 V E3. injection E1 as <-. rewrite nth_error_map. rewrite (nth_combine (first :: rest) _ k vt q E2 E3). destruct (valid_parts _ _ _ _ V) as (P1 & P2 & P3 & _). cbn [option_map fst snd]. rewrite P1, P2, P3. reflexivity.
Qed.

Lemma C126_netcdf_case_proof : List.concat [["20001201_000000"; "20001202_000000"]] <> [] /\
  length (List.concat [["20001201_000000"; "20001202_000000"]]) = length (List.concat [[1; 3]]) /\
  (forall vt, In vt (List.concat [["20001201_000000"; "20001202_000000"]]) -> exists year month day, ValidTime vt year month day /\
     (fun _ _ d => if String.eqb d "01" then Ok 1%Z else Ok 2%Z) year month day = Ok (if String.eqb vt "20001201_000000" then 1 else 2)%Z).
Proof.
  split; [discriminate|]. split; [reflexivity|]. intros vt [<-|[<-|[]]]; (eexists _, _, _; split; [eapply text_ok; reflexivity|reflexivity]).
Qed.

Lemma C126_lost_refuted_proof : forall show day_number path valid wrc w, length (List.concat valid) = length (List.concat wrc) ->
  ((forall vt, In vt (List.concat valid) -> vt = "" \/ exists year month day n, ValidTime vt year month day /\ day_number year month day = Ok n) ->
   In "" (List.concat valid) -> day_number "" "" "" = Err ValueError ->
   exists w', write_K_means_file show day_number "netcdf" path valid wrc w = (w', Err ValueError) /\ w' (path ++ ".nc") = None /\
     Untouched (path ++ ".nc") w w') /\
  (forall other, other <> "netcdf" -> other <> "text" -> write_K_means_file show day_number other path valid wrc w = (w, Ok tt)).
Proof.
  intros show day_number path valid wrc w L. split.
  - intros H I B. unfold write_K_means_file. cbv zeta. rewrite L, Nat.eqb_refl. cbn [negb String.eqb Ascii.eqb Bool.eqb].
    assert (forall vt, In vt (List.concat valid) -> (exists n, day_number (year_of vt) (month_of vt) (day_of vt) = Ok n) \/ day_number (year_of vt) (month_of vt) (day_of vt) = Err ValueError) as DN.
    { intros vt J. destruct (H vt J) as [->|(year & month & day & n & V & D)]; [right; exact B|left; exists n]. destruct (valid_parts _ _ _ _ V) as (P1 & P2 & P3 & _). rewrite P1, P2, P3. exact D. }
    match goal with |- context [match ?x with Ok _ => _ | Err _ => _ end] => assert (x = Err ValueError) as -> end.
    { destruct (List.concat valid) as [|first rest] eqn:EC; [destruct I|]. cbn [at1 nth_error bind]. destruct (DN first (or_introl eq_refl)) as [(n & ->)| ->]; [|reflexivity]. cbn [bind].
      apply In_nth_error in I. destruct I as (k & I). destruct (nth_error (List.concat wrc) k) as [q|] eqn:EW; [|apply nth_error_None in EW; rewrite <- L in EW; assert (k < length (first :: rest))%nat by (apply nth_error_Some; congruence); lia].
      apply (mapM_fails _ ValueError ("", q)).
      - intros (vt, q') J. cbn [fst snd]. destruct (DN vt (in_combine_l _ _ _ _ J)) as [(z & ->)| ->]; [left; eexists; reflexivity|right; reflexivity].
      - exact (nth_error_In _ _ (nth_combine _ _ k "" q I EW)).
      - cbn [fst snd]. change (year_of "") with "". change (month_of "") with "". change (day_of "") with "". rewrite B. reflexivity. }
    eexists. split; [reflexivity|]. split; [unfold put; rewrite String.eqb_refl; reflexivity|]. intros p NP; unfold put; destruct (String.eqb_spec p (path ++ ".nc")) as [Z|_]; [destruct (NP Z)|reflexivity].
  - intros other N1 N2. unfold write_K_means_file. cbv zeta. rewrite L, Nat.eqb_refl. cbn [negb]. destruct (String.eqb_spec other "netcdf") as [X|_]; [destruct (N1 X)|]. destruct (String.eqb_spec other "text") as [X|_]; [destruct (N2 X)|]. reflexivity.
Qed.

Lemma C126_lost_refuted_case_proof : length (List.concat [["20001201_000000"; ""]]) = length (List.concat [[1; 3]]) /\
  In "" (List.concat [["20001201_000000"; ""]]) /\ ValidTime "20001201_000000" "2000" "12" "01" /\ "csv" <> "netcdf" /\ "csv" <> "text".
Proof.
  split; [reflexivity|]. split; [right; left; reflexivity|]. split; [eapply text_ok; reflexivity|]. split; discriminate.
Qed.

