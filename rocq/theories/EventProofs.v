(** Lemmas about event equalization. *)
From Coq Require Import Ascii Lia Permutation.
From Verif Require Import PyBase ColumnModel BaseSpec BaseProofs FilterProofs EventModel EventSpec.
Open Scope string_scope.

Lemma mem_iff x l : mem x l = true <-> In x l.
Proof.
  unfold mem. rewrite existsb_exists. split.
  - intros [y [H E]]. apply String.eqb_eq in E. subst. exact H.
  - intros H. exists x. split; [exact H|apply String.eqb_refl].
Qed.
Lemma mem_false x l : mem x l = false <-> ~ In x l.
Proof. rewrite <- mem_iff. destruct (mem x l); split; congruence. Qed.

Lemma product_iff {A} (ls : list (list A)) p : In p (product ls) <-> Forall2 (fun l v => In v l) ls p.
Proof.
  revert p. induction ls as [|l ls IH]; intros p; cbn.
  - split.
    + intros [<-|[]]. constructor.
    + intros H. inversion H. now left.
  - rewrite in_flat_map. split.
    + intros [x [Hx Hp]]. apply in_map_iff in Hp. destruct Hp as [q [<- Hq]].
      constructor; [exact Hx|now apply IH].
    + intros H. inversion H; subst. exists y. split; [assumption|].
      apply in_map. now apply IH.
Qed.
Lemma product_combination vars p : In p (product (map snd vars)) <-> Combination vars p.
Proof.
  rewrite product_iff. unfold Combination. split; intros H.
  - remember (map snd vars) as ls eqn:E. revert vars E.
    induction H as [|l v ls p Hv H IH]; intros [|nv vars] E; cbn in E; try discriminate; constructor.
    + injection E as -> _. exact Hv.
    + apply IH. now injection E.
  - induction H as [|nv v vars p Hv H IH]; cbn; constructor; assumption.
Qed.

(** ** Numbers in texts *)
Lemma is_digit_iff c : is_digit c = true <-> Digit c.
Proof.
  unfold Digit, is_digit. split.
  - destruct c as [[] [] [] [] [] [] [] []]; cbn; intros H; try discriminate H; tauto.
  - cbn. intros H. repeat (destruct H as [<-|H]; [reflexivity|]). destruct H.
Qed.
Lemma digits_value_iff s acc z :
  digits_value acc s = Some z <->
  Forall Digit (list_ascii_of_string s) /\
  z = fold_left (fun a c => 10 * a + (Z.of_nat (nat_of_ascii c) - 48))%Z (list_ascii_of_string s) acc.
Proof.
  revert acc. induction s as [|c s IH]; intros acc; cbn [digits_value list_ascii_of_string fold_left].
  - split; [intros [= ->]; split; [constructor|reflexivity]|intros [_ ->]; reflexivity].
  - destruct (is_digit c) eqn:E.
    + rewrite IH.
      assert (48 <= nat_of_ascii c)%nat.
      { unfold is_digit in E. apply andb_prop in E. destruct E as [E _]. now apply Nat.leb_le in E. }
      replace (acc * 10 + Z.of_nat (nat_of_ascii c - 48))%Z
        with (10 * acc + (Z.of_nat (nat_of_ascii c) - 48))%Z by lia.
      split; intros [H1 H2]; (split; [|exact H2]).
      * constructor; [now apply is_digit_iff|exact H1].
      * now inversion H1.
    + split; [discriminate|]. intros [H _]. inversion H as [|? ? Hd]; subst.
      apply is_digit_iff in Hd. congruence.
Qed.
Lemma unsigned_iff s z :
  unsigned_value s = Some z <-> exists n, Digits (S n) s /\ z = decimal s.
Proof.
  unfold unsigned_value. destruct s as [|c s].
  - split; [discriminate|]. intros [n [[H _] _]]. discriminate H.
  - rewrite digits_value_iff. unfold decimal. split.
    + intros [H ->]. exists (String.length s). split; [split; [reflexivity|exact H]|reflexivity].
    + intros [n [[_ H] ->]]. split; [exact H|reflexivity].
Qed.
Lemma parse_int_iff v z : parse_int v = Some z <-> WholeNumber v z.
Proof.
  assert (Hsign : forall c s, parse_int (String c s) =
     if Ascii.eqb c "-" then match unsigned_value s with Some z => Some (- z)%Z | None => None end
     else if Ascii.eqb c "+" then unsigned_value s
     else unsigned_value (String c s)).
  { intros c s. destruct c as [[] [] [] [] [] [] [] []]; reflexivity. }
  assert (Hd : forall n c s, Digits (S n) (String c s) -> Ascii.eqb c "-" = false /\ Ascii.eqb c "+" = false).
  { intros n c s [_ H]. inversion H as [|? ? D]; subst. unfold Digit in D. cbn in D.
    repeat (destruct D as [<-|D]; [split; reflexivity|]). destruct D. }
  destruct v as [|c s].
  { split; [discriminate|]. intros [n [s [[L _] [[<- _]|[[E _]|[E _]]]]]]; discriminate. }
  rewrite Hsign. unfold WholeNumber. split.
  - destruct (Ascii.eqb c "-") eqn:E1; [|destruct (Ascii.eqb c "+") eqn:E2].
    + apply Ascii.eqb_eq in E1. subst c.
      destruct (unsigned_value s) as [u|] eqn:U; [|discriminate]. intros [= <-].
      apply unsigned_iff in U. destruct U as [n [H ->]]. exists n, s. split; [exact H|].
      right. right. split; reflexivity.
    + apply Ascii.eqb_eq in E2. subst c. intros U.
      apply unsigned_iff in U. destruct U as [n [H ->]]. exists n, s. split; [exact H|].
      right. left. split; reflexivity.
    + intros U. apply unsigned_iff in U. destruct U as [n [H ->]]. exists n, (String c s).
      split; [exact H|]. left. split; reflexivity.
  - intros [n [t [H [[E ->]|[[E ->]|[E ->]]]]]].
    + subst t. destruct (Hd _ _ _ H) as [-> ->]. apply unsigned_iff. exists n. split; [exact H|reflexivity].
    + injection E as -> ->. cbn [Ascii.eqb Bool.eqb]. cbv [Ascii.eqb Bool.eqb].
      apply unsigned_iff. exists n. split; [exact H|reflexivity].
    + injection E as -> ->. cbv [Ascii.eqb Bool.eqb].
      replace (unsigned_value t) with (Some (decimal t)); [reflexivity|].
      symmetry. apply unsigned_iff. exists n. split; [exact H|reflexivity].
Qed.

Lemma value_matches_iff v c : value_matches v c = true <-> Agrees v c.
Proof.
  unfold value_matches, Agrees. destruct (parse_int v) as [z|] eqn:E.
  - split.
    + destruct c; try discriminate. intros H. apply Qeq_bool_iff in H.
      left. exists z, q. split; [now apply parse_int_iff|split; [reflexivity|exact H]].
    + intros [[z' [q [W [-> H]]]]|[N _]].
      * apply parse_int_iff in W. rewrite W in E. injection E as ->. now apply Qeq_bool_iff.
      * destruct (N z). now apply parse_int_iff.
  - assert (N : forall z, ~ WholeNumber v z).
    { intros z W. apply parse_int_iff in W. congruence. }
    destruct (String.eqb_spec v "NA") as [->|Hv].
    + split.
      * destruct c; try discriminate. intros _. right. split; [exact N|left; split; reflexivity].
      * intros [[z [q [W _]]]|[_ [[_ ->]|[C _]]]]; [now destruct (N z)|reflexivity|now destruct C].
    + split.
      * destruct c; try discriminate. intros H. apply String.eqb_eq in H. subst.
        right. split; [exact N|right; split; [exact Hv|reflexivity]].
      * intros [[z [q [W _]]]|[_ [[C _]|[_ ->]]]]; [now destruct (N z)|now destruct Hv|apply String.eqb_refl].
Qed.

(** ** Grouped series values *)
Lemma la_app a b : list_ascii_of_string (a ++ b) = (list_ascii_of_string a ++ list_ascii_of_string b)%list.
Proof. induction a as [|c a IH]; cbn; [reflexivity|now rewrite IH]. Qed.
Lemma str_app_assoc (a b c : string) : (a ++ b) ++ c = a ++ (b ++ c).
Proof. induction a as [|x a IH]; cbn; [reflexivity|now rewrite IH]. Qed.
Lemma str_app_nil (a : string) : a ++ "" = a.
Proof. induction a as [|x a IH]; cbn; [reflexivity|now rewrite IH]. Qed.
Lemma str_len_app a b : String.length (a ++ b) = (String.length a + String.length b)%nat.
Proof. induction a as [|x a IH]; cbn; [reflexivity|now rewrite IH]. Qed.

Lemma match_pattern_sound p s w r :
  match_pattern p s = Some (w, r) ->
  s = w ++ r /\ Forall2 (fun t c => t c = true) p (list_ascii_of_string w).
Proof.
  revert s w. induction p as [|t p IH]; intros s w H.
  - destruct s; cbn in H; injection H as <- <-; split; try reflexivity; constructor.
  - destruct s as [|c s]; cbn in H; [discriminate|].
    destruct (t c) eqn:E; [|discriminate].
    destruct (match_pattern p s) as [[w' r']|] eqn:M; [|discriminate].
    injection H as <- <-. apply IH in M. destruct M as [-> F]. split; [reflexivity|].
    cbn. constructor; assumption.
Qed.
Lemma match_pattern_complete p w r :
  Forall2 (fun t c => t c = true) p (list_ascii_of_string w) ->
  match_pattern p (w ++ r) = Some (w, r).
Proof.
  revert w. induction p as [|t p IH]; intros [|c w] H; cbn in H; inversion H; subst.
  - cbn. destruct r; reflexivity.
  - cbn. rewrite H3. now rewrite IH.
Qed.

Lemma is_space_iff c : is_space c = true <-> Blank (String c "").
Proof.
  unfold Blank. split.
  - intros H. exists (nat_of_ascii c). split; [|now rewrite ascii_nat_embedding].
    unfold is_space in H. remember (nat_of_ascii c) as n eqn:En. clear En.
    apply orb_prop in H. destruct H as [H|H].
    + apply Nat.eqb_eq in H. subst. cbn. tauto.
    + apply andb_prop in H. destruct H as [H1 H2]. apply Nat.leb_le in H1, H2.
      cbn. lia.
  - intros [n [H E]]. injection E as ->. cbn in H.
    repeat (destruct H as [<-|H]; [reflexivity|]). destruct H.
Qed.

Lemma digits_2 s : Digits 2 s -> exists a b, s = String a (String b "") /\ is_digit a = true /\ is_digit b = true.
Proof.
  intros [L H]. destruct s as [|a [|b [|]]]; try discriminate L.
  exists a, b. cbn in H. inversion H as [|? ? Ha H']; subst. inversion H' as [|? ? Hb _]; subst.
  split; [reflexivity|]. split; now apply is_digit_iff.
Qed.
Lemma digits_4 s : Digits 4 s -> exists a b c d, s = String a (String b (String c (String d ""))) /\
  is_digit a = true /\ is_digit b = true /\ is_digit c = true /\ is_digit d = true.
Proof.
  intros [L H]. destruct s as [|a [|b [|c [|d [|]]]]]; try discriminate L.
  exists a, b, c, d. cbn in H.
  repeat match goal with H : Forall _ (_ :: _) |- _ => inversion H; clear H; subst end.
  split; [reflexivity|]. repeat split; now apply is_digit_iff.
Qed.
Lemma date_time_iff w :
  Forall2 (fun t c => t c = true) date_time_pattern (list_ascii_of_string w) <-> DateTime w.
Proof.
  split.
  - intros H. unfold date_time_pattern in H.
    do 20 (destruct w as [|?c w]; [try (exfalso; cbn in H;
       repeat match goal with H : Forall2 _ (_ :: _) _ |- _ => inversion H; clear H; subst end; fail)|]).
    2: exfalso; cbn in H; repeat match goal with H : Forall2 _ _ _ |- _ => inversion H; clear H; subst end.
    cbn [list_ascii_of_string] in H.
    repeat match goal with H : Forall2 _ (_ :: _) (_ :: _) |- _ => inversion H; clear H; subst end.
    repeat match goal with
    | H : is_char _ _ = true |- _ => apply Ascii.eqb_eq in H; subst
    end.
    eexists (String _ (String _ (String _ (String _ "")))), (String _ (String _ "")), (String _ (String _ "")),
      (String _ ""), (String _ (String _ "")), (String _ (String _ "")), (String _ (String _ "")).
    repeat split;
    try (repeat (constructor; [now apply is_digit_iff; eassumption|]); constructor).
    all: try (cbn; reflexivity).
    all: try (cbn [list_ascii_of_string]; repeat (constructor; [apply is_digit_iff; eassumption|]); constructor).
    now apply is_space_iff.
  - intros (y & m & d & b & h & mi & s & Hy & Hm & Hd & Hb & Hh & Hmi & Hs & ->).
    apply digits_4 in Hy. apply digits_2 in Hm, Hd, Hh, Hmi, Hs.
    destruct Hy as (a1 & a2 & a3 & a4 & -> & ? & ? & ? & ?).
    destruct Hm as (b1 & b2 & -> & ? & ?). destruct Hd as (c1 & c2 & -> & ? & ?).
    destruct Hh as (d1 & d2 & -> & ? & ?). destruct Hmi as (e1 & e2 & -> & ? & ?).
    destruct Hs as (f1 & f2 & -> & ? & ?).
    destruct Hb as [n [Hn ->]]. 
    assert (is_space (ascii_of_nat n) = true).
    { apply is_space_iff. exists n. split; [exact Hn|reflexivity]. }
    cbn [list_ascii_of_string append]. unfold date_time_pattern.
    repeat (constructor; [first [assumption|reflexivity]|]). constructor.
Qed.
Lemma date_time_starts w : DateTime w -> exists c w', w = String c w' /\ is_digit c = true.
Proof.
  intros (y & m & d & b & h & mi & s & Hy & _ & _ & _ & _ & _ & _ & ->).
  apply digits_4 in Hy. destruct Hy as (a1 & a2 & a3 & a4 & -> & ? & _). eauto.
  cbn. eexists a1, _. split; [reflexivity|assumption].
Qed.

Lemma findall_none fuel s :
  (forall a w b, s = a ++ w ++ b -> ~ DateTime w) -> findall_fuel fuel s = [].
Proof.
  revert s. induction fuel as [|n IH]; intros s H; [reflexivity|].
  cbn [findall_fuel]. destruct s as [|c s]; [reflexivity|].
  destruct (match_pattern date_time_pattern (String c s)) as [[w r]|] eqn:M.
  - apply match_pattern_sound in M. destruct M as [E F]. apply date_time_iff in F.
    destruct (H "" w r E F).
  - apply IH. intros a w b E. apply (H (String c a) w b). cbn. now rewrite E.
Qed.
Lemma findall_dates_list l fuel :
  Forall DateTime l -> (String.length (String.concat ":" l) < fuel)%nat ->
  findall_fuel fuel (String.concat ":" l) = l.
Proof.
  revert fuel. induction l as [|w l IH]; intros fuel F L.
  - destruct fuel; reflexivity.
  - inversion F as [|? ? Hw Hl]; subst.
    assert (E : exists rest, String.concat ":" (w :: l) = w ++ rest /\
                (rest = "" /\ l = [] \/ rest = ":" ++ String.concat ":" l /\ l <> [])).
    { destruct l as [|w' l].
      - exists "". cbn. rewrite str_app_nil. split; [reflexivity|]. left. split; reflexivity.
      - exists (":" ++ String.concat ":" (w' :: l)). split; [reflexivity|]. right. split; [reflexivity|discriminate]. }
    destruct E as [rest [E HR]]. rewrite E in L |- *.
    destruct (date_time_starts _ Hw) as [c [w' [Ew Hc]]].
    destruct fuel as [|n]; [lia|].
    rewrite str_len_app in L. rewrite Ew in L. cbn [String.length] in L.
    cbn [findall_fuel]. rewrite Ew at 1. cbn [append].
    rewrite match_pattern_complete by now apply date_time_iff.
    f_equal. destruct HR as [[-> ->]|[-> Hl0]].
    + destruct n; reflexivity.
    + cbn [append String.length] in L. destruct n as [|n]; [lia|].
      cbn [append findall_fuel].
      replace (match_pattern date_time_pattern (String ":" (String.concat ":" l))) with (@None (string * string))
        by reflexivity.
      apply IH; [exact Hl|lia].
Qed.

Lemma split_on_ne sep s : split_on sep s <> [].
Proof.
  induction s as [|c s IH]; cbn; [discriminate|].
  destruct (Ascii.eqb c sep); [discriminate|]. destruct (split_on sep s); discriminate.
Qed.
Lemma split_on_word sep w s :
  ~ In sep (list_ascii_of_string w) ->
  split_on sep (w ++ String sep s) = w :: split_on sep s.
Proof.
  induction w as [|c w IH]; intros H; cbn.
  - now rewrite Ascii.eqb_refl.
  - cbn in H. destruct (Ascii.eqb_spec c sep) as [->|N]; [destruct H; now left|].
    rewrite IH by tauto. reflexivity.
Qed.
Lemma split_on_last sep w : ~ In sep (list_ascii_of_string w) -> split_on sep w = [w].
Proof.
  induction w as [|c w IH]; intros H; cbn; [reflexivity|].
  cbn in H. destruct (Ascii.eqb_spec c sep) as [->|N]; [destruct H; now left|].
  rewrite IH by tauto. reflexivity.
Qed.
Lemma split_concat l :
  l <> [] -> Forall (fun m => ~ In ":"%char (list_ascii_of_string m)) l ->
  split_on ":" (String.concat ":" l) = l.
Proof.
  induction l as [|w l IH]; intros N F; [now destruct N|].
  inversion F as [|? ? Hw Hl]; subst. destruct l as [|w' l].
  - cbn [String.concat]. now apply split_on_last.
  - change (String.concat ":" (w :: w' :: l)) with (w ++ String ":" (String.concat ":" (w' :: l))).
    rewrite split_on_word by exact Hw. rewrite IH; [reflexivity|discriminate|exact Hl].
Qed.

Lemma ungroup_group s l : Group s l -> ungroup s = l.
Proof.
  intros [[N [F ->]]|[H [N [-> F]]]]; unfold ungroup, findall_dates.
  - rewrite findall_dates_list; [|exact F|lia]. destruct l; [now destruct N|reflexivity].
  - rewrite findall_none by exact H. now apply split_concat.
Qed.
Lemma ungroup_groups vals ls : Forall2 Group vals ls -> flat_map ungroup vals = concat ls.
Proof.
  intros H. induction H as [|s l vals ls G H IH]; [reflexivity|].
  cbn. now rewrite (ungroup_group _ _ G), IH.
Qed.

(** ** Variables *)
Lemma dict_set_new {A} k (v : A) d : ~ In k (map fst d) -> dict_set k v d = (d ++ [(k, v)])%list.
Proof.
  induction d as [|[k' w] d IH]; intros H; cbn; [reflexivity|].
  cbn in H. destruct (String.eqb_spec k' k) as [->|N]; [destruct H; now left|].
  rewrite IH by tauto. reflexivity.
Qed.
Definition not_time (nv : string * list string) : bool := negb (mem (fst nv) exception_columns).
Lemma not_time_iff nv : not_time nv = true <-> ~ TimeColumn (fst nv).
Proof. unfold not_time. rewrite negb_true_iff. rewrite mem_false. reflexivity. Qed.

Lemma series_vars_filter series series' acc :
  Forall2 (fun nv nv' => fst nv' = fst nv /\
             exists ls, Forall2 Group (snd nv) ls /\ snd nv' = concat ls) series series' ->
  NoDup (map fst acc ++ map fst series) ->
  series_vars series acc = (acc ++ filter not_time series')%list.
Proof.
  intros H. revert acc. induction H as [|[n vals] [n' vals'] series series' [E [ls [G E']]] H IH]; intros acc ND.
  - cbn. now rewrite app_nil_r.
  - cbn [fst snd] in E, E', G. subst n' vals'. cbn [series_vars filter].
    unfold not_time at 1. cbn [fst]. cbn in ND. destruct (mem n exception_columns); cbn [negb].
    + apply IH. apply NoDup_remove_1 in ND. exact ND.
    + rewrite (ungroup_groups _ _ G). rewrite dict_set_new.
      2:{ apply NoDup_remove_2 in ND. intro C. apply ND. apply in_or_app. now left. }
      rewrite IH.
      * now rewrite <- app_assoc.
      * rewrite map_app. cbn. rewrite <- app_assoc. exact ND.
Qed.

Lemma fixed_vars_filter fixed pre acc :
  NoDup (map fst acc ++ map fst fixed) ->
  fixed_vars (length pre) (map fst fixed) (pre ++ map snd fixed) acc
  = Ok (acc ++ filter not_time fixed)%list.
Proof.
  revert pre acc. induction fixed as [|[n vals] fixed IH]; intros pre acc ND; cbn [map fixed_vars filter].
  - now rewrite app_nil_r.
  - cbn [fst snd]. unfold not_time at 1. cbn [fst].
    assert (E : (pre ++ vals :: map snd fixed)%list = ((pre ++ [vals]) ++ map snd fixed)%list)
      by now rewrite <- app_assoc.
    assert (L : S (length pre) = length (pre ++ [vals])%list) by (rewrite app_length; cbn; lia).
    cbn in ND.
    destruct (mem n exception_columns); cbn [negb].
    + rewrite L, E. apply IH. apply NoDup_remove_1 in ND. exact ND.
    + rewrite nth_error_app2 by lia. rewrite Nat.sub_diag. cbn [nth_error].
      rewrite dict_set_new.
      2:{ apply NoDup_remove_2 in ND. intro C. apply ND. apply in_or_app. now left. }
      rewrite L, E, IH.
      * now rewrite <- app_assoc.
      * rewrite map_app. cbn. rewrite <- app_assoc. exact ND.
Qed.

Lemma selection_filter {A} (P : A -> Prop) (b : A -> bool) l :
  (forall x, In x l -> b x = true <-> P x) -> Selection P l (filter b l).
Proof.
  induction l as [|x l IH]; intros H; cbn; [constructor|].
  assert (IH' : Selection P l (filter b l)) by (apply IH; intros; apply H; now right).
  specialize (H x (or_introl eq_refl)). destruct (b x).
  - apply sel_keep; [now apply H|exact IH'].
  - apply sel_drop; [|exact IH']. intro C. apply H in C. discriminate.
Qed.
Lemma selection_unique {A} (P P' : A -> Prop) l o o' :
  Selection P l o -> Selection P' l o' -> (forall x, In x l -> P x <-> P' x) -> o = o'.
Proof.
  intros H. revert o'. induction H as [|x l o Px H IH|x l o Px H IH]; intros o' H' HP; inversion H'; subst.
  - reflexivity.
  - f_equal. apply IH; [assumption|]. intros; apply HP; now right.
  - destruct (HP x (or_introl eq_refl)). tauto.
  - destruct (HP x (or_introl eq_refl)). tauto.
  - apply IH; [assumption|]. intros; apply HP; now right.
Qed.
Lemma selection_in {A} (P : A -> Prop) l o x : Selection P l o -> (In x o <-> In x l /\ P x).
Proof.
  intros H. induction H as [|y l o Py H IH|y l o Py H IH]; cbn.
  - tauto.
  - rewrite IH. split; [intros [->|[]]; auto|intros [[->|] ?]; auto].
  - rewrite IH. split; [intros []; auto|intros [[->|] ?]; tauto].
Qed.

Lemma variables_value series fixed vars :
  Variables series fixed vars -> NoDup (map fst series ++ map fst fixed) ->
  ee_vars series (map fst fixed) (map snd fixed) = Ok vars.
Proof.
  intros [series' [H S]] ND. unfold ee_vars.
  rewrite (series_vars_filter _ _ [] H).
  2:{ cbn. clear -ND. induction (map fst series) as [|n l IH]; [constructor|].
      cbn in ND. inversion ND; subst. constructor; [|now apply IH].
      intro C. apply H1. apply in_or_app. now left. }
  cbn [app].
  assert (N : map fst series' = map fst series).
  { clear -H. induction H as [|nv nv' s s' [E _] H IH]; cbn; [reflexivity|now rewrite E, IH]. }
  pose proof (fixed_vars_filter fixed [] (filter not_time series')) as F. cbn in F. rewrite F.
  - f_equal. rewrite <- filter_app.
    eapply selection_unique; [apply selection_filter; intros; apply not_time_iff|exact S|].
    intros; reflexivity.
  - rewrite <- N in ND. clear -ND.
    induction series' as [|nv s IH]; [exact ND|].
    cbn in ND. inversion ND; subst. cbn [filter]. destruct (not_time nv); [|now apply IH].
    cbn. constructor; [|now apply IH].
    intro C. apply H1. apply in_app_or in C. apply in_or_app. destruct C as [C|C]; [left|now right].
    apply in_map_iff in C. destruct C as [x [E C]]. apply filter_In in C.
    apply in_map_iff. exists x. tauto.
Qed.

(** ** Keys *)
Lemma key_columns_value columns by_indep indy kc :
  KeyColumns columns by_indep indy kc -> key_columns columns by_indep indy = Ok kc.
Proof.
  intros [base [T [I C]]]. unfold key_columns.
  assert (B : (if mem "equalize" columns then Ok ["equalize"]
           else if mem "fcst_valid_beg" columns then Ok ["fcst_valid_beg"; "fcst_lead"]
           else if mem "fcst_valid" columns then Ok ["fcst_valid"; "fcst_lead"]
           else Err KeyError) = Ok base).
  { destruct T as [[H ->]|[[H [H1 ->]]|[H [H1 [H2 ->]]]]].
    - apply mem_iff in H. now rewrite H.
    - apply mem_false in H. apply mem_iff in H1. now rewrite H, H1.
    - apply mem_false in H, H1. apply mem_iff in H2. now rewrite H, H1, H2. }
  rewrite B. cbn [bind].
  assert (E : (if by_indep && negb (mem indy exception_columns) then (base ++ [indy])%list else base) = kc).
  { destruct I as [[-> [H ->]]|[[->|H] ->]].
    - assert (M : mem indy exception_columns = false) by (apply mem_false; exact H). now rewrite M.
    - reflexivity.
    - assert (M : mem indy exception_columns = true) by (apply mem_iff; exact H). rewrite M.
      now rewrite andb_false_r. }
  rewrite E. assert (F : forallb (fun c => mem c columns) kc = true).
  { apply forallb_forall. intros x Hx. apply mem_iff. now apply C. }
  now rewrite F.
Qed.

Lemma get_cell columns r n : In n columns -> length r = length columns ->
  exists c, get columns r n = Ok c /\ CellOf columns r n c.
Proof.
  intros H L. unfold get. destruct (index_of n columns) as [i|] eqn:E.
  - assert (Hi := index_of_lt _ _ _ E). rewrite <- L in Hi.
    unfold cell_at. destruct (nth_error r i) as [c|] eqn:Ec.
    + exists c. split; [reflexivity|]. exists i. split; [now apply index_of_ColumnAt|exact Ec].
    + apply nth_error_None in Ec. lia.
  - apply index_of_None in E. tauto.
Qed.
Lemma str_of_text show c : CellText show c (str_of show c).
Proof. destruct c; constructor. Qed.
Lemma row_key_value show columns kc r :
  (forall c, In c kc -> In c columns) -> length r = length columns ->
  exists k, row_key show columns kc r = Ok k /\ EventKey show columns kc r k.
Proof.
  intros H L. unfold row_key, EventKey.
  assert (exists cs, mapM (get columns r) kc = Ok cs /\
    Forall2 (fun n t => exists c, CellOf columns r n c /\ CellText show c t) kc (map (str_of show) cs)) as [cs [E F]].
  { induction kc as [|n kc IH].
    - exists []. split; [reflexivity|constructor].
    - destruct (get_cell columns r n) as [c [Ec Hc]]; [apply H; now left|exact L|].
      destruct IH as [cs [E F]]; [intros; apply H; now right|].
      exists (c :: cs). cbn. rewrite Ec. cbn [bind]. rewrite E. cbn [bind]. split; [reflexivity|].
      constructor; [|exact F]. exists c. split; [exact Hc|apply str_of_text]. }
  rewrite E. cbn [bind]. eexists. split; [reflexivity|]. eauto.
Qed.
Lemma keys_value show columns kc data :
  (forall c, In c kc -> In c columns) -> (forall r, In r data -> length r = length columns) ->
  exists keys, mapM (row_key show columns kc) data = Ok keys /\
    Keyed show columns kc data (combine keys data).
Proof.
  intros H. induction data as [|r data IH]; intros L.
  - exists []. split; [reflexivity|constructor].
  - destruct (row_key_value show columns kc r H) as [k [E K]]; [apply L; now left|].
    destruct IH as [keys [E' K']]; [intros; apply L; now right|].
    exists (k :: keys). cbn. rewrite E. cbn [bind]. rewrite E'. cbn [bind]. split; [reflexivity|].
    constructor; [split; [reflexivity|exact K]|exact K'].
Qed.

Lemma cell_of_fun columns r n c c' : CellOf columns r n c -> CellOf columns r n c' -> c = c'.
Proof.
  intros [i [Hi Ei]] [j [Hj Ej]]. apply index_of_ColumnAt in Hi, Hj. rewrite Hi in Hj.
  injection Hj as ->. congruence.
Qed.
Lemma cell_text_fun show c t t' : CellText show c t -> CellText show c t' -> t = t'.
Proof. intros H H'. destruct H; inversion H'; reflexivity. Qed.
Lemma event_key_fun show columns kc r k k' :
  EventKey show columns kc r k -> EventKey show columns kc r k' -> k = k'.
Proof.
  intros [ts [F ->]] [ts' [F' ->]]. f_equal.
  revert ts' F'. induction F as [|n t kc ts [c [Hc Ht]] F IH]; intros ts' F'; inversion F'; subst; [reflexivity|].
  f_equal; [|now apply IH]. destruct H1 as [c' [Hc' Ht']].
  rewrite (cell_of_fun _ _ _ _ _ Hc' Hc) in Ht'. eapply cell_text_fun; eassumption.
Qed.
Lemma keyed_fun show columns kc data rows rows' :
  Keyed show columns kc data rows -> Keyed show columns kc data rows' -> rows = rows'.
Proof.
  intros H. revert rows'. induction H as [|r [k r0] data rows [E K] H IH]; intros rows' H'; inversion H'; subst; [reflexivity|].
  destruct y as [k' r']. cbn in *. destruct H2 as [E' K']. assert (r' = r0) by congruence. subst r'. f_equal; [|now apply IH].
 
  f_equal. eapply event_key_fun; eassumption.
Qed.

(** ** Selection of the rows of one combination *)
Lemma select_rows_spec columns vars p rows :
  (forall n, In n (map fst vars) -> In n columns) ->
  (forall kr, In kr rows -> length (snd kr) = length columns) ->
  length vars = length p ->
  exists sel, select_rows columns (map fst vars) p rows = Ok sel /\
    forall kr, In kr sel <-> In kr rows /\ BelongsTo columns vars p (snd kr).
Proof.
  revert p rows. induction vars as [|[n vs] vars IH]; intros [|v p] rows HN HR HL; try discriminate HL.
  - exists rows. split; [destruct rows; reflexivity|]. intros kr. split; [|tauto]. split; [assumption|constructor].
  - cbn [map fst select_rows].
    destruct (index_of n columns) as [i|] eqn:Ei.
    2:{ apply index_of_None in Ei. destruct Ei. apply HN. now left. }
    assert (exists bs, mapM (fun kr => c <- cell_at i (snd kr) ;; Ok (value_matches v c)) rows = Ok bs /\
      forall kr, In kr (mask bs rows) <-> In kr rows /\ exists c, CellOf columns (snd kr) n c /\ Agrees v c)
      as [bs [E HB]].
    { clear IH HL. induction rows as [|kr rows IHr].
      - exists []. split; [reflexivity|]. intros kr. split; [intros []|tauto].
      - destruct IHr as [bs [E HB]]; [intros; apply HR; now right|].
        destruct (get_cell columns (snd kr) n) as [c [Ec Hc]]; [apply HN; now left|apply HR; now left|].
        unfold get in Ec. rewrite Ei in Ec. cbn [mapM]. cbv beta. rewrite Ec. cbn [bind]. rewrite E. cbn [bind].
        exists (value_matches v c :: bs). split; [reflexivity|]. intros kr'. cbn [mask].
        destruct (value_matches v c) eqn:V.
        + cbn [In]. rewrite HB. apply value_matches_iff in V. split.
          * intros [<-|[H1 H2]]; [split; [now left|eauto]|split; [now right|exact H2]].
          * intros [[<-|H1] H2]; [now left|right; tauto].
        + rewrite HB. cbn [In]. split.
          * intros [H1 H2]; split; [now right|exact H2].
          * intros [[<-|H1] H2]; [|tauto]. destruct H2 as [c' [Hc' A]].
            rewrite (cell_of_fun _ _ _ _ _ Hc' Hc) in A. apply value_matches_iff in A. congruence. }
    rewrite E. cbn [bind].
    destruct (IH p (mask bs rows)) as [sel [Es Hs]].
    { intros; apply HN; now right. }
    { intros kr H. apply HB in H. now apply HR. }
    { cbn in HL. lia. }
    exists sel. split; [exact Es|]. intros kr. rewrite Hs, HB. unfold BelongsTo. split.
    + intros [[H1 H2] H3]. split; [exact H1|]. constructor; assumption.
    + intros [H1 H2]. inversion H2; subst. tauto.
Qed.

Lemma cases_loop_spec columns vars rows perms start :
  (forall n, In n (map fst vars) -> In n columns) ->
  (forall kr, In kr rows -> length (snd kr) = length columns) ->
  (forall p, In p perms -> length vars = length p) ->
  exists cases, cases_loop columns (map fst vars) rows perms start = Ok cases /\
    forall k, In k cases <->
      match start with Some l => In k l | None => perms <> [] end /\
      forall p, In p perms -> EventOccurs columns vars rows p k.
Proof.
  intros HN HR. revert start. induction perms as [|p perms IH]; intros start HL; cbn [cases_loop].
  - eexists. split; [reflexivity|]. intros k. destruct start as [l|]; cbn; [|tauto].
    split; [intros; split; [assumption|tauto]|tauto].
  - destruct (select_rows_spec columns vars p rows HN HR (HL p (or_introl eq_refl))) as [sel [E HS]].
    rewrite E. cbn [bind].
    assert (HK : forall k, In k (map fst sel) <-> EventOccurs columns vars rows p k).
    { intros k. rewrite in_map_iff. unfold EventOccurs. split.
      - intros [[k' r] [<- H]]. apply HS in H. exists r. exact H.
      - intros [r H]. exists (k, r). split; [reflexivity|]. now apply HS. }
    edestruct IH as [cases [Ec Hc]]; [intros; apply HL; now right|].
    rewrite Ec. exists cases. split; [reflexivity|]. intros k. rewrite Hc.
    destruct start as [l|].
    + rewrite filter_In, mem_iff, HK. split.
      * intros [[H1 H2] H3]. split; [exact H1|]. intros q [<-|Hq]; [exact H2|now apply H3].
      * intros [H1 H2]. repeat split; [exact H1|apply H2; now left|intros; apply H2; now right].
    + rewrite HK. split.
      * intros [H2 H3]. split; [discriminate|]. intros q [<-|Hq]; [exact H2|now apply H3].
      * intros [_ H2]. split; [apply H2; now left|intros; apply H2; now right].
Qed.

Lemma keyed_width show columns kc data rows :
  Keyed show columns kc data rows -> Rectangular data columns ->
  forall kr, In kr rows -> length (snd kr) = length columns.
Proof.
  intros H W. induction H as [|r kr data rows [E _] H IH]; intros x []; subst.
  - apply W. now left.
  - apply IH; [|assumption]. intros r' Hr'. apply W. now right.
Qed.
Lemma combination_length vars p : Combination vars p -> length vars = length p.
Proof. intros H. induction H; cbn; congruence. Qed.

Lemma event_equalize_spec show data columns indy series fixed by_indep kc vars rows :
  Rectangular data columns ->
  NoDup (map fst series ++ map fst fixed) ->
  KeyColumns columns by_indep indy kc ->
  Variables series fixed vars ->
  (forall n, In n (map fst vars) -> In n columns) ->
  Keyed show columns kc data rows ->
  exists out,
    event_equalize show data columns indy series (map fst fixed) (map snd fixed) by_indep = Ok out /\
    Selection (fun kr => Common columns vars rows (fst kr)) rows out.
Proof.
  intros W ND HK HV HN HR. unfold event_equalize.
  rewrite (key_columns_value _ _ _ _ HK). cbn [bind].
  destruct HK as [base [_ [_ HC]]].
  destruct (keys_value show columns kc data HC W) as [keys [E K]].
  rewrite E. cbn [bind]. rewrite (keyed_fun _ _ _ _ _ _ K HR).
  rewrite (variables_value _ _ _ HV ND). cbn [bind].
  destruct (cases_loop_spec columns vars rows (product (map snd vars)) None HN) as [cases [Ec Hc]].
  { eapply keyed_width; eassumption. }
  { intros p Hp. apply product_combination in Hp. now apply combination_length. }
  rewrite Ec. cbn [bind]. eexists. split; [reflexivity|].
  apply selection_filter. intros kr _. rewrite mem_iff, Hc. unfold Common. split.
  - intros [H1 H2]. split.
    + destruct (product (map snd vars)) as [|p l] eqn:Ep; [now destruct H1|].
      exists p. apply product_combination. rewrite Ep. now left.
    + intros p Hp. apply H2. now apply product_combination.
  - intros [[p Hp] H2]. split.
    + apply product_combination in Hp. intro C. now rewrite C in Hp.
    + intros q Hq. apply H2. now apply product_combination.
Qed.

(** ** Balance, idempotence, order of values *)
Lemma common_selected columns vars rows out p k r :
  Selection (fun kr => Common columns vars rows (fst kr)) rows out ->
  In (k, r) out -> Combination vars p -> EventOccurs columns vars out p k.
Proof.
  intros S H Hp. apply (selection_in _ _ _ _ S) in H. destruct H as [H C]. cbn in C.
  destruct C as [Hx C]. destruct (C p Hp) as [r' [H' B]].
  exists r'. split; [|exact B]. apply (selection_in _ _ _ _ S). split; [exact H'|].
  cbn. split; assumption.
Qed.
Lemma balanced columns vars rows out p1 p2 k :
  Selection (fun kr => Common columns vars rows (fst kr)) rows out ->
  Combination vars p1 -> Combination vars p2 ->
  EventOccurs columns vars out p1 k -> EventOccurs columns vars out p2 k.
Proof. intros S H1 H2 [r [H _]]. eapply common_selected; eassumption. Qed.

Lemma selection_all {A} (P : A -> Prop) l : (forall x, In x l -> P x) -> Selection P l l.
Proof.
  induction l as [|x l IH]; intros H; constructor; [apply H; now left|].
  apply IH. intros; apply H; now right.
Qed.
Lemma selection_common_all columns vars rows out :
  Selection (fun kr => Common columns vars rows (fst kr)) rows out ->
  forall kr, In kr out -> Common columns vars out (fst kr).
Proof.
  intros S [k r] H. cbn. split.
  - apply (selection_in _ _ _ _ S) in H. exact (proj1 (proj2 H)).
  - intros p Hp. eapply common_selected; eassumption.
Qed.

Lemma cell_of_app columns r n c x y :
  CellOf columns r n c -> CellOf (columns ++ [x]) (r ++ [y])%list n c.
Proof.
  intros [i [[H1 H2] H3]]. exists i.
  assert (Hi : (i < length columns)%nat) by (apply nth_error_Some; congruence).
  split; [split|].
  - now rewrite nth_error_app1.
  - intros j Hj. rewrite nth_error_app1 by lia. now apply H2.
  - rewrite nth_error_app1; [exact H3|]. apply nth_error_Some. congruence.
Qed.
Lemma cell_of_last columns r x y :
  ~ In x columns -> length r = length columns -> CellOf (columns ++ [x]) (r ++ [y])%list x y.
Proof.
  intros H L. exists (length columns). split; [split|].
  - rewrite nth_error_app2 by lia. now rewrite Nat.sub_diag.
  - intros j Hj E. rewrite nth_error_app1 in E by lia. apply H. eapply nth_error_In; eassumption.
  - rewrite nth_error_app2 by lia. now rewrite L, Nat.sub_diag.
Qed.
Lemma belongs_app columns vars p r x y :
  BelongsTo columns vars p r -> BelongsTo (columns ++ [x]) vars p (r ++ [y])%list.
Proof.
  intros H. unfold BelongsTo in *. induction H as [|nv v vars p [c [Hc A]] H IH]; constructor; [|exact IH].
  exists c. split; [now apply cell_of_app|exact A].
Qed.

Lemma keyed_exists show columns kc data :
  (forall c, In c kc -> In c columns) -> Rectangular data columns ->
  exists rows, Keyed show columns kc data rows.
Proof. intros H L. destruct (keys_value show columns kc data H L) as [keys [_ K]]. eauto. Qed.
Lemma keyed_map show columns kc data rows : Keyed show columns kc data rows -> map snd rows = data.
Proof. intros H. induction H as [|r kr data rows [E _] H IH]; cbn; [reflexivity|now rewrite E, IH]. Qed.
Lemma keyed_in show columns kc data rows kr :
  Keyed show columns kc data rows -> In kr rows -> EventKey show columns kc (snd kr) (fst kr).
Proof.
  intros H. induction H as [|r kr0 data rows [E K] H IH]; intros []; subst; [exact K|now apply IH].
Qed.

(** The whole run, from the result. *)
Lemma event_equalize_inv show data columns indy series fixed by_indep kc vars out :
  Rectangular data columns ->
  NoDup (map fst series ++ map fst fixed) ->
  KeyColumns columns by_indep indy kc ->
  Variables series fixed vars ->
  (forall n, In n (map fst vars) -> In n columns) ->
  event_equalize show data columns indy series (map fst fixed) (map snd fixed) by_indep = Ok out ->
  exists rows, Keyed show columns kc data rows /\
    Selection (fun kr => Common columns vars rows (fst kr)) rows out.
Proof.
  intros W ND HK HV HN E.
  assert (HC := HK). destruct HC as [base [_ [_ HC]]].
  destruct (keyed_exists show columns kc data HC W) as [rows HR].
  destruct (event_equalize_spec show data columns indy series fixed by_indep kc vars rows W ND HK HV HN HR)
    as [out' [E' S]].
  rewrite E in E'. injection E' as <-. exists rows. split; assumption.
Qed.

Lemma event_equalize_again show data columns indy series fixed by_indep again kc vars out :
  Rectangular data columns ->
  ~ In "equalize" columns ->
  NoDup (map fst series ++ map fst fixed) ->
  KeyColumns columns by_indep indy kc ->
  Variables series fixed vars ->
  (forall n, In n (map fst vars) -> In n columns) ->
  (again = true -> ~ TimeColumn indy -> In indy columns /\
     forall k r1 r2 c1 c2 t1 t2, In (k, r1) out -> In (k, r2) out ->
       CellOf columns r1 indy c1 -> CellOf columns r2 indy c2 ->
       CellText show c1 t1 -> CellText show c2 t2 -> t1 = t2) ->
  event_equalize show data columns indy series (map fst fixed) (map snd fixed) by_indep = Ok out ->
  exists out',
    event_equalize show (with_key out) (columns ++ ["equalize"]) indy series
      (map fst fixed) (map snd fixed) again = Ok out' /\
    map snd out' = with_key out.
Proof.
  intros W NE ND HK HV HN HI E.
  destruct (event_equalize_inv _ _ _ _ _ _ _ _ _ _ W ND HK HV HN E) as [rows [HR S]].
  assert (WO : forall kr, In kr out -> length (snd kr) = length columns).
  { intros kr H. apply (selection_in _ _ _ _ S) in H.
    eapply keyed_width; [exact HR|exact W|tauto]. }
  set (cols' := (columns ++ ["equalize"])%list).
  assert (W' : Rectangular (with_key out) cols').
  { intros r H. apply in_map_iff in H. destruct H as [kr [<- H]]. unfold cols'.
    rewrite !app_length. cbn. now rewrite (WO kr H). }
  assert (TimeColumn indy \/ ~ TimeColumn indy) as HT.
  { unfold TimeColumn. destruct (in_dec string_dec indy exception_columns) as [H|H]; [left|right]; exact H. }
  set (kc' := if again then (if in_dec string_dec indy exception_columns then ["equalize"] else ["equalize"; indy])
              else ["equalize"]).
  assert (HK' : KeyColumns cols' again indy kc').
  { exists ["equalize"]. split; [left; split; [unfold cols'; apply in_or_app; right; now left|reflexivity]|].
    split.
    - unfold kc'. destruct again; [|right; split; [now left|reflexivity]].
      destruct (in_dec string_dec indy exception_columns) as [H|H].
      + right. split; [right; exact H|reflexivity].
      + left. split; [reflexivity|]. split; [exact H|reflexivity].
    - unfold kc', cols'. intros c Hc. apply in_or_app.
      destruct again; [destruct (in_dec string_dec indy exception_columns) as [H|H]|].
      + right. exact Hc.
      + destruct Hc as [<-|[<-|[]]]; [right; now left|]. left.
        apply (HI eq_refl). exact H.
      + right. exact Hc. }
  assert (HC' := HK'). destruct HC' as [base' [_ [_ HC']]].
  destruct (keyed_exists show cols' kc' (with_key out) HC' W') as [rows' HR'].
  destruct (event_equalize_spec show (with_key out) cols' indy series fixed again kc' vars rows')
    as [out' [E' S']]; try assumption.
  { intros n Hn. apply in_or_app. left. now apply HN. }
  exists out'. split; [exact E'|].
  assert (KF : forall k1 r1 k1' k2 r2 k2',
    In (k1, r1) out -> In (k2, r2) out -> k1 = k2 ->
    EventKey show cols' kc' (r1 ++ [CStr k1])%list k1' -> EventKey show cols' kc' (r2 ++ [CStr k2])%list k2' ->
    k1' = k2').
  { intros k r1 k1' k2 r2 k2' H1 H2 <- [ts1 [F1 ->]] [ts2 [F2 ->]]. f_equal.
    assert (L1 := WO _ H1). assert (L2 := WO _ H2). cbn in L1, L2.
    assert (HEq : forall r c t, length r = length columns ->
       CellOf cols' (r ++ [CStr k])%list "equalize" c -> CellText show c t -> t = k).
    { intros r c t L Hc Ht. pose proof (cell_of_last columns r "equalize" (CStr k) NE L) as Hl.
      rewrite (cell_of_fun _ _ _ _ _ Hc Hl) in Ht. now inversion Ht. }
    unfold kc' in F1, F2.
    assert (G : forall F1 : Forall2 (fun n t => exists c, CellOf cols' (r1 ++ [CStr k])%list n c /\ CellText show c t) ["equalize"] ts1,
      forall F2 : Forall2 (fun n t => exists c, CellOf cols' (r2 ++ [CStr k])%list n c /\ CellText show c t) ["equalize"] ts2,
      ts1 = ts2).
    { intros G1 G2. inversion G1 as [|? t1 ? ? [c1 [Hc1 Ht1]] G1']; subst.
      inversion G1'; subst. inversion G2 as [|? t2 ? ? [c2 [Hc2 Ht2]] G2']; subst. inversion G2'; subst.
      rewrite (HEq _ _ _ L1 Hc1 Ht1), (HEq _ _ _ L2 Hc2 Ht2). reflexivity. }
    destruct again; [|now apply G].
    destruct (in_dec string_dec indy exception_columns) as [H|H]; [now apply G|]. clear G.
    inversion F1 as [|? t1 ? ? [c1 [Hc1 Ht1]] G1]; subst.
    inversion G1 as [|? u1 ? ? [d1 [Hd1 Hu1]] G1']; subst. inversion G1'; subst.
    inversion F2 as [|? t2 ? ? [c2 [Hc2 Ht2]] G2]; subst.
    inversion G2 as [|? u2 ? ? [d2 [Hd2 Hu2]] G2']; subst. inversion G2'; subst.
    rewrite (HEq _ _ _ L1 Hc1 Ht1), (HEq _ _ _ L2 Hc2 Ht2). f_equal. f_equal.
    destruct (HI eq_refl H) as [Hin HS].
    destruct (get_cell columns r1 indy Hin L1) as [e1 [_ He1]].
    destruct (get_cell columns r2 indy Hin L2) as [e2 [_ He2]].
    rewrite (cell_of_fun _ _ _ _ _ Hd1 (cell_of_app _ _ _ _ "equalize" (CStr k) He1)) in Hu1.
    rewrite (cell_of_fun _ _ _ _ _ Hd2 (cell_of_app _ _ _ _ "equalize" (CStr k) He2)) in Hu2.
    exact (HS k r1 r2 e1 e2 u1 u2 H1 H2 He1 He2 Hu1 Hu2). }
  assert (ALL : forall kr, In kr rows' -> Common cols' vars rows' (fst kr)).
  { intros [k' r'] H. cbn. assert (K' := keyed_in _ _ _ _ _ _ HR' H). cbn in K'.
    assert (In r' (with_key out)).
    { rewrite <- (keyed_map _ _ _ _ _ HR'). apply (in_map snd) in H. exact H. }
    apply in_map_iff in H0. destruct H0 as [[k r] [<- Ho]]. cbn [fst snd] in *.
    destruct (selection_common_all _ _ _ _ S _ Ho) as [HX HA]. cbn in HA.
    split; [exact HX|]. intros p Hp. destruct (HA p Hp) as [r2 [Ho2 B2]].
    assert (In (r2 ++ [CStr k])%list (map snd rows')).
    { rewrite (keyed_map _ _ _ _ _ HR'). unfold with_key. apply in_map_iff.
      exists (k, r2). split; [reflexivity|exact Ho2]. }
    apply in_map_iff in H0. destruct H0 as [[k2' r2'] [E2 Hi2]]. cbn in E2. subst r2'.
    assert (K2 := keyed_in _ _ _ _ _ _ HR' Hi2). cbn in K2.
    exists (r2 ++ [CStr k])%list. split.
    - rewrite (KF _ _ _ _ _ _ Ho Ho2 eq_refl K' K2). exact Hi2.
    - now apply belongs_app. }
  rewrite (selection_unique _ _ _ _ _ S' (selection_all _ _ ALL)).
  - eapply keyed_map; eassumption.
  - tauto.
Qed.

Lemma combination_perm columns vars mid :
  Permutation vars mid -> forall p, Combination vars p ->
  exists p', Combination mid p' /\ forall r, BelongsTo columns vars p r <-> BelongsTo columns mid p' r.
Proof.
  intros H. induction H as [|x l l' H IH|x y l|l l' l'' H1 IH1 H2 IH2]; intros p Hp.
  - exists p. split; [exact Hp|tauto].
  - inversion Hp as [|? v ? q Hv Hq]; subst. destruct (IH _ Hq) as [q' [C B]].
    exists (v :: q'). split; [constructor; assumption|]. intros r. unfold BelongsTo in *.
    split; intros F; inversion F; subst; constructor; try assumption; now apply B.
  - inversion Hp as [|? v ? q Hv Hq]; subst. inversion Hq as [|? w ? q' Hw Hq']; subst.
    exists (w :: v :: q'). split; [repeat constructor; assumption|]. intros r. unfold BelongsTo.
    split; intros F; inversion F as [|? ? ? ? F1 F']; subst; inversion F' as [|? ? ? ? F2 F'']; subst;
    repeat constructor; assumption.
  - destruct (IH1 _ Hp) as [p1 [C1 B1]]. destruct (IH2 _ C1) as [p2 [C2 B2]].
    exists p2. split; [exact C2|]. intros r. now rewrite B1.
Qed.
Lemma combination_same mid vars' :
  Forall2 (fun a b => fst a = fst b /\ forall v, In v (snd a) <-> In v (snd b)) mid vars' ->
  forall p, (Combination mid p <-> Combination vars' p).
Proof.
  intros H. unfold Combination. induction H as [|a b m v' [_ E] H IH]; intros p.
  - split; intros C; inversion C; constructor.
  - split; intros C; inversion C; subst; constructor; try (now apply E); now apply IH.
Qed.
Lemma belongs_same columns mid vars' :
  Forall2 (fun a b => fst a = fst b /\ forall v, In v (snd a) <-> In v (snd b)) mid vars' ->
  forall p r, (BelongsTo columns mid p r <-> BelongsTo columns vars' p r).
Proof.
  intros H. unfold BelongsTo. induction H as [|a b m v' [E _] H IH]; intros p r.
  - split; intros C; inversion C; constructor.
  - split; intros C; inversion C; subst; constructor;
    try (first [rewrite <- E; assumption|rewrite E; assumption]); now apply IH.
Qed.
Lemma common_same columns vars vars' rows k :
  SameVariables vars vars' -> Common columns vars rows k -> Common columns vars' rows k.
Proof.
  intros [mid [P F]] [[p Hp] H]. split.
  - destruct (combination_perm columns _ _ P _ Hp) as [p' [C _]].
    exists p'. now apply (combination_same _ _ F).
  - intros q Hq. apply (combination_same _ _ F) in Hq.
    destruct (combination_perm columns _ _ (Permutation_sym P) _ Hq) as [p' [C B]].
    destruct (H _ C) as [r [Hr Hb]]. exists r. split; [exact Hr|].
    apply (belongs_same columns _ _ F). now apply B.
Qed.
Lemma same_sym vars vars' : SameVariables vars vars' -> SameVariables vars' vars.
Proof.
  intros [mid [P F]]. revert vars' F. apply Permutation_sym in P.
  assert (G : forall l m, Permutation l m -> forall l',
     Forall2 (fun a b => fst a = fst b /\ forall v, In v (snd a) <-> In v (snd b)) l l' ->
     exists m', Permutation l' m' /\
       Forall2 (fun (a b : string * list string) => fst a = fst b /\ forall v, In v (snd a) <-> In v (snd b)) m' m).
  { intros l m H. induction H as [|x l m H IH|x y l|l m n H1 IH1 H2 IH2]; intros l' F.
    - inversion F; subst. exists []. split; constructor.
    - inversion F as [|? b ? t [E V] F']; subst. destruct (IH _ F') as [m' [P' Q']].
      exists (b :: m'). split; [now constructor|]. constructor; [|exact Q'].
      split; [now symmetry|]. intros v; symmetry; apply V.
    - inversion F as [|? b ? t [E V] F']; subst. inversion F' as [|? c ? u [E2 V2] F'']; subst.
      exists (c :: b :: u). split; [constructor|].
      assert (Hu : Forall2 (fun (a b : string * list string) => fst a = fst b /\ forall v, In v (snd a) <-> In v (snd b)) u l).
      { clear -F''. induction F'' as [|a b l u [E V] F IH]; constructor; [|exact IH].
        split; [now symmetry|]. intros v; symmetry; apply V. }
      constructor; [split; [now symmetry|intros v; symmetry; apply V2]|].
      constructor; [split; [now symmetry|intros v; symmetry; apply V]|exact Hu].
    - destruct (IH1 _ F) as [m' [P1 Q1]].
      assert (Q1' : Forall2 (fun (a b : string * list string) => fst a = fst b /\ forall v, In v (snd a) <-> In v (snd b)) m m').
      { clear -Q1. induction Q1 as [|a b l u [E V] F IH]; constructor; [|exact IH].
        split; [now symmetry|]. intros v; symmetry; apply V. }
      destruct (IH2 _ Q1') as [n' [P2 Q2]].
      exists n'. split; [eapply perm_trans; eassumption|exact Q2]. }
  intros vars' F. destruct (G _ _ P _ F) as [m' [P' Q']]. exists m'. split; assumption.
Qed.

Lemma event_equalize_order show data columns indy by_indep series fixed series' fixed' kc vars vars' :
  Rectangular data columns ->
  NoDup (map fst series ++ map fst fixed) -> NoDup (map fst series' ++ map fst fixed') ->
  KeyColumns columns by_indep indy kc ->
  Variables series fixed vars -> Variables series' fixed' vars' ->
  SameVariables vars vars' ->
  (forall n, In n (map fst vars) -> In n columns) ->
  (forall n, In n (map fst vars') -> In n columns) ->
  event_equalize show data columns indy series (map fst fixed) (map snd fixed) by_indep =
  event_equalize show data columns indy series' (map fst fixed') (map snd fixed') by_indep.
Proof.
  intros W ND ND' HK HV HV' SV HN HN'.
  assert (HC := HK). destruct HC as [base [_ [_ HC]]].
  destruct (keyed_exists show columns kc data HC W) as [rows HR].
  destruct (event_equalize_spec show data columns indy series fixed by_indep kc vars rows W ND HK HV HN HR)
    as [o [E S]].
  destruct (event_equalize_spec show data columns indy series' fixed' by_indep kc vars' rows W ND' HK HV' HN' HR)
    as [o' [E' S']].
  rewrite E, E'. f_equal. eapply selection_unique; [exact S|exact S'|].
  intros kr _. split; apply common_same; [exact SV|now apply same_sym].
Qed.

(** ** Equalization against a list of cases *)
Lemma against_values_spec show data columns cases rows :
  Rectangular data columns -> In "fcst_valid" columns -> In "fcst_lead" columns -> ~ In "equalize" columns ->
  Keyed show columns ["fcst_valid"; "fcst_lead"] data rows ->
  exists kept, Selection (fun kr => In (fst kr) cases) rows kept /\
    event_equalize_against_values show data columns cases = Ok (map snd kept).
Proof.
  intros W H1 H2 H3 HR. unfold event_equalize_against_values.
  assert (HC : forall c, In c ["fcst_valid"; "fcst_lead"] -> In c columns).
  { intros c [<-|[<-|[]]]; assumption. }
  destruct (keys_value show columns _ data HC W) as [keys [E K]].
  apply mem_iff in H1, H2. apply mem_false in H3. rewrite H1, H2, H3. cbn [negb]. rewrite E. cbn [bind].
  rewrite (keyed_fun _ _ _ _ _ _ K HR). eexists. split; [|reflexivity].
  apply selection_filter. intros; apply mem_iff.
Qed.
Lemma against_values_no_time show data columns cases :
  ~ In "fcst_valid" columns -> event_equalize_against_values show data columns cases = Ok [].
Proof. intros H. apply mem_false in H. unfold event_equalize_against_values. now rewrite H. Qed.
Lemma against_values_no_lead show data columns cases :
  In "fcst_valid" columns -> ~ In "fcst_lead" columns ->
  event_equalize_against_values show data columns cases = Err KeyError.
Proof.
  intros H H'. apply mem_iff in H. apply mem_false in H'.
  unfold event_equalize_against_values. now rewrite H, H'.
Qed.
Lemma against_values_keyed show data columns cases :
  In "fcst_valid" columns -> In "fcst_lead" columns -> In "equalize" columns ->
  event_equalize_against_values show data columns cases = Err ValueError.
Proof.
  intros H H' K. apply mem_iff in H, H', K. unfold event_equalize_against_values. now rewrite H, H', K.
Qed.

(** ** Failures *)
Lemma key_columns_none columns by_indep indy :
  ~ In "equalize" columns -> ~ In "fcst_valid_beg" columns -> ~ In "fcst_valid" columns ->
  key_columns columns by_indep indy = Err KeyError.
Proof.
  intros H1 H2 H3. apply mem_false in H1, H2, H3. unfold key_columns. now rewrite H1, H2, H3.
Qed.
Lemma event_equalize_no_time show data columns indy series fix_vars fix_vals by_indep :
  ~ In "equalize" columns -> ~ In "fcst_valid_beg" columns -> ~ In "fcst_valid" columns ->
  event_equalize show data columns indy series fix_vars fix_vals by_indep = Err KeyError.
Proof. intros H1 H2 H3. unfold event_equalize. now rewrite key_columns_none. Qed.
Lemma event_equalize_balanced show data columns indy series fixed by_indep kc vars out :
  Rectangular data columns ->
  NoDup (map fst series ++ map fst fixed) ->
  KeyColumns columns by_indep indy kc ->
  Variables series fixed vars ->
  (forall n, In n (map fst vars) -> In n columns) ->
  event_equalize show data columns indy series (map fst fixed) (map snd fixed) by_indep = Ok out ->
  forall p1 p2 k, Combination vars p1 -> Combination vars p2 ->
    (EventOccurs columns vars out p1 k <-> EventOccurs columns vars out p2 k).
Proof.
  intros W ND HK HV HN E p1 p2 k H1 H2.
  destruct (event_equalize_inv _ _ _ _ _ _ _ _ _ _ W ND HK HV HN E) as [rows [_ S]].
  split; eapply balanced; eassumption.
Qed.

Lemma forall2_len {A B} (R : A -> B -> Prop) l l' : Forall2 R l l' -> length l = length l'.
Proof. intros H. induction H; cbn; congruence. Qed.
Lemma no_date s : (String.length s < 19)%nat -> forall a w b, s = a ++ w ++ b -> ~ DateTime w.
Proof.
  intros L a w b -> H. rewrite !str_len_app in L.
  assert (String.length w = 19%nat); [|lia].
  apply date_time_iff in H. apply forall2_len in H.
  rewrite <- (string_of_list_ascii_of_string w).
  clear L. cbn in H. revert H. generalize (list_ascii_of_string w). intros l H.
  assert (G : forall l, String.length (string_of_list_ascii l) = length l).
  { induction l0 as [|c l0 IH]; cbn; congruence. }
  rewrite G. now symmetry.
Qed.
Lemma case_variables :
  Variables [("model", ["A:B"])] [("vx_mask", ["NH"])] [("model", ["A"; "B"]); ("vx_mask", ["NH"])].
Proof.
  exists [("model", ["A"; "B"])]. split.
  - constructor; [|constructor]. split; [reflexivity|]. exists [["A"; "B"]]. split; [|reflexivity].
    constructor; [|constructor]. right. split; [apply no_date; cbn; lia|].
    split; [discriminate|]. split; [reflexivity|]. repeat constructor; cbn; intuition discriminate.
  - cbn. repeat (constructor; [cbn; intuition discriminate|]). constructor.
Qed.
Lemma case_dates :
  Group "2020-01-01 00:00:00:2020-01-02 12:30:00" ["2020-01-01 00:00:00"; "2020-01-02 12:30:00"].
Proof.
  left. split; [discriminate|]. split; [|reflexivity].
  repeat constructor; apply date_time_iff; cbn; repeat (constructor; [reflexivity|]); constructor.
Qed.
Lemma case_same :
  SameVariables [("model", ["A"; "B"]); ("vx_mask", ["NH"])] [("vx_mask", ["NH"; "NH"]); ("model", ["B"; "A"])].
Proof.
  exists [("vx_mask", ["NH"]); ("model", ["A"; "B"])]. split; [constructor|].
  do 2 (constructor; [split; [reflexivity|intros v; cbn; tauto]|]). constructor.
Qed.
