(** Lemmas about the general helpers. *)
From Coq Require Import Ascii Lia Permutation Qabs Lqa Qround.
From Verif Require Import PyBase ColumnModel BaseSpec BaseProofs EclvModel EclvSpec EclvProofs
  EventModel EventSpec EventProofs UtilModel UtilSpec.
Open Scope string_scope.

(** ** Permutations *)
Lemma nth_flat_map {A B C} (f : A -> B -> C) (L : list A) (vals : list B) j i p v :
  nth_error L j = Some p -> nth_error vals i = Some v ->
  nth_error (flat_map (fun p => map (fun v => f p v) vals) L) (i + length vals * j) = Some (f p v).
Proof.
  revert j. induction L as [|q L IH]; intros j Hj Hi; [destruct j; discriminate|].
  cbn [flat_map]. destruct j as [|j].
  - injection Hj as ->. rewrite Nat.mul_0_r, Nat.add_0_r.
    assert (i < length vals)%nat by (apply nth_error_Some; congruence).
    rewrite nth_error_app1 by now rewrite map_length.
    rewrite nth_error_map, Hi. reflexivity.
  - cbn in Hj. rewrite nth_error_app2; rewrite map_length; [|lia].
    replace (i + length vals * S j - length vals)%nat with (i + length vals * j)%nat by lia.
    now apply IH.
Qed.
Lemma length_flat_map {A B C} (f : A -> B -> C) (L : list A) (vals : list B) :
  length (flat_map (fun p => map (fun v => f p v) vals) L) = (length L * length vals)%nat.
Proof.
  induction L as [|q L IH]; [reflexivity|]. cbn. rewrite app_length, map_length, IH. reflexivity.
Qed.

Definition width_perm {A} (n : nat) (p : perm A) : list A -> Prop :=
  fun vs => match p with Bare x => n = 1%nat /\ vs = [x] | Many l => (2 <= n)%nat /\ vs = l end.

Lemma perms_from_len {A} (fields : list (list A)) :
  fields <> [] -> (forall l, In l fields -> l <> []) ->
  length (perms_from fields) = count_choices fields.
Proof.
  induction fields as [|l fs IH]; intros N H; [now destruct N|].
  destruct fs as [|l' fs].
  - cbn. rewrite map_length. lia.
  - change (perms_from (l :: l' :: fs)) with
      (match l with [] => perms_from (l' :: fs)
       | _ => flat_map (fun p => map (fun v => prepend v p) l) (perms_from (l' :: fs)) end).
    assert (Hl : l <> []) by (apply H; now left).
    destruct l as [|x l]; [now destruct Hl|]. 
    rewrite length_flat_map, IH; [|discriminate|intros; apply H; now right].
    cbn [count_choices]. lia.
Qed.
Lemma perms_from_nth {A} (fields : list (list A)) is_ vs :
  fields <> [] -> (forall l, In l fields -> l <> []) ->
  Chosen fields is_ vs ->
  exists p, nth_error (perms_from fields) (rank_first fields is_) = Some p /\
            width_perm (length fields) p vs.
Proof.
  revert is_ vs. induction fields as [|l fs IH]; intros is_ vs N H [C L]; [now destruct N|].
  destruct is_ as [|i js]; [discriminate L|]. cbn [combine] in C.
  inversion C as [|? v ? ws Hv C']; subst. cbn [fst snd] in Hv. clear C.
  assert (HC : Chosen fs js ws) by (split; [exact C'|cbn in L; lia]). clear C'.
  destruct fs as [|l' fs].
  - destruct js; [|discriminate L]. destruct HC as [HC _]. cbn in HC. inversion HC; subst.
    cbn [perms_from rank_first]. rewrite Nat.mul_0_r, Nat.add_0_r, nth_error_map, Hv.
    eexists. split; [reflexivity|]. cbn. auto.
  - destruct (IH js ws) as [p [Hp Wp]]; [discriminate|intros; apply H; now right|exact HC|].
    change (perms_from (l :: l' :: fs)) with
      (match l with [] => perms_from (l' :: fs)
       | _ => flat_map (fun p => map (fun v => prepend v p) l) (perms_from (l' :: fs)) end).
    assert (Hl : l <> []) by (apply H; now left).
    change (rank_first (l :: l' :: fs) (i :: js)) with (i + length l * rank_first (l' :: fs) js)%nat.
    destruct l as [|x l]; [now destruct Hl|].
    eexists. split; [eapply (nth_flat_map (fun p v => prepend v p)); eassumption|].
    destruct p as [y|q]; cbn in Wp |- *.
    + destruct Wp as [_ ->]. auto with arith.
    + destruct Wp as [_ ->]. auto with arith.
Qed.
Lemma rank_first_surj {A} (fields : list (list A)) n :
  (n < count_choices fields)%nat ->
  exists is_ vs, Choice fields is_ /\ Chosen fields is_ vs /\ rank_first fields is_ = n.
Proof.
  revert n. induction fields as [|l fs IH]; intros n H.
  - cbn in H. exists [], []. repeat split; try constructor. cbn. lia.
  - cbn in H. assert (length l <> 0)%nat by (intro E; rewrite E in H; lia).
    destruct (IH (n / length l)%nat) as [js [ws [C [Ch R]]]].
    { apply Nat.div_lt_upper_bound; assumption. }
    assert (Hm : (n mod length l < length l)%nat) by now apply Nat.mod_upper_bound.
    destruct (nth_error l (n mod length l)) as [v|] eqn:E.
    2:{ apply nth_error_None in E. lia. }
    exists (n mod length l :: js)%nat, (v :: ws). split; [constructor; assumption|]. split.
    + destruct Ch as [Ch L]. split; [|cbn; lia]. cbn. constructor; assumption.
    + cbn. rewrite R. rewrite (Nat.div_mod_eq n (length l)) at 3. lia.
Qed.
Lemma many_of_width {A} n (p : perm A) vs : (2 <= n)%nat -> width_perm n p vs -> p = Many vs.
Proof. intros H. destruct p; cbn; [lia|]. intros [_ ->]. reflexivity. Qed.

Lemma permutations_mv_list {A} (fields : list (list A)) :
  (2 <= length fields)%nat -> (forall l, In l fields -> l <> []) ->
  exists r, create_permutations_mv_list fields 0 = Ok r /\
    length r = count_choices fields /\
    (forall is_ vs, Chosen fields is_ vs -> nth_error r (rank_first fields is_) = Some (Many vs)) /\
    (forall n p, nth_error r n = Some p ->
       exists is_ vs, Choice fields is_ /\ Chosen fields is_ vs /\ rank_first fields is_ = n /\ p = Many vs).
Proof.
  intros HL H. assert (N : fields <> []) by (intro E; rewrite E in HL; cbn in HL; lia).
  exists (perms_from fields).
  assert (P : forall is_ vs, Chosen fields is_ vs ->
     nth_error (perms_from fields) (rank_first fields is_) = Some (Many vs)).
  { intros is_ vs C. destruct (perms_from_nth fields is_ vs N H C) as [p [Hp W]].
    rewrite Hp. f_equal. now apply (many_of_width (length fields)). }
  split; [|split; [now apply perms_from_len|split; [exact P|]]].
  - unfold create_permutations_mv_list. destruct fields; [now destruct N|]. cbn [skipn].
    destruct (Nat.ltb_spec 0 (length (l :: fields))); [reflexivity|lia].
  - intros n p Hn.
    assert (Hlt : (n < count_choices fields)%nat).
    { rewrite <- (perms_from_len fields N H). apply nth_error_Some. congruence. }
    destruct (rank_first_surj fields n Hlt) as [is_ [vs [C [Ch R]]]].
    exists is_, vs. repeat split; try assumption; [apply Ch|apply Ch|].
    rewrite <- R in Hn. rewrite (P _ _ Ch) in Hn. congruence.
Qed.
Lemma permutations_mv_single {A} (values : list A) :
  create_permutations_mv_list [values] 0 = Ok (map Bare values).
Proof. reflexivity. Qed.

Lemma permutations_mv_dict {A} (fields : list (string * list A)) present :
  Selection (fun l => l <> []) (map snd fields) present ->
  create_permutations_mv_dict fields 0 = create_permutations_mv_list present 0 /\
  (forall l, In l present -> l <> []).
Proof.
  intros S. split.
  - unfold create_permutations_mv_dict. f_equal.
    eapply selection_unique; [apply selection_filter|exact S|intros; reflexivity].
    intros x _. destruct x; split; congruence.
  - intros l Hl. apply (selection_in _ _ _ _ S) in Hl. tauto.
Qed.

Lemma chosen_nodup_rank {A} (fields : list (list A)) is_ is_' vs :
  (forall l, In l fields -> NoDup l) -> Chosen fields is_ vs -> Chosen fields is_' vs -> is_ = is_'.
Proof.
  revert is_ is_' vs. induction fields as [|l fs IH]; intros is_ is_' vs ND [C L] [C' L'].
  - destruct is_, is_'; try discriminate; reflexivity.
  - destruct is_ as [|i js]; [discriminate|]. destruct is_' as [|i' js']; [discriminate|].
    cbn in C, C'. inversion C as [|? v ? ws Hv C1]; subst. inversion C' as [|? v' ? ws' Hv' C1']; subst.
    cbn in Hv, Hv'. f_equal.
    + assert (N : NoDup l) by (apply ND; now left).
      eapply (proj1 (NoDup_nth_error l)); [exact N|apply nth_error_Some; congruence|congruence].
    + eapply IH; [intros; apply ND; now right|split; [exact C1|cbn in L; lia]|split; [exact C1'|cbn in L'; lia]].
Qed.
Lemma permutations_mv_nodup {A} (fields : list (list A)) r :
  (2 <= length fields)%nat -> (forall l, In l fields -> l <> []) -> (forall l, In l fields -> NoDup l) ->
  create_permutations_mv_list fields 0 = Ok r -> NoDup r.
Proof.
  intros HL H ND E. destruct (permutations_mv_list fields HL H) as [r' [E' [_ [_ Q]]]].
  rewrite E in E'. injection E' as <-. apply NoDup_nth_error. intros i j Hi Hij.
  destruct (nth_error r i) as [p|] eqn:Ei; [|apply nth_error_None in Ei; lia].
  symmetry in Hij. destruct (Q _ _ Ei) as [is1 [vs1 [_ [C1 [R1 P1]]]]].
  destruct (Q _ _ Hij) as [is2 [vs2 [_ [C2 [R2 P2]]]]].
  rewrite P1 in P2. injection P2 as <-. rewrite <- R1, <- R2. f_equal.
  eapply chosen_nodup_rank; eassumption.
Qed.

Lemma product_len {A} (fields : list (list A)) : length (product fields) = count_choices fields.
Proof.
  induction fields as [|l fs IH]; [reflexivity|]. cbn.
  rewrite <- IH. clear IH. induction l as [|x l IHl]; [reflexivity|].
  cbn. rewrite app_length, map_length, IHl. lia.
Qed.
Lemma product_nth {A} (fields : list (list A)) is_ vs :
  Chosen fields is_ vs -> nth_error (product fields) (rank_last fields is_) = Some vs.
Proof.
  revert is_ vs. induction fields as [|l fs IH]; intros is_ vs [C L].
  - destruct is_; [|discriminate]. cbn in C. inversion C. reflexivity.
  - destruct is_ as [|i js]; [discriminate|]. cbn in C.
    inversion C as [|? v ? ws Hv C1]; subst. cbn in Hv.
    specialize (IH js ws). cbn [product rank_last].
    replace (i * count_choices fs + rank_last fs js)%nat
      with (rank_last fs js + length (product fs) * i)%nat by (rewrite product_len; lia).
    eapply (nth_flat_map (fun x p => x :: p)); [exact Hv|].
    apply IH. split; [exact C1|cbn in L; lia].
Qed.
Lemma rank_last_surj {A} (fields : list (list A)) n :
  (n < count_choices fields)%nat ->
  exists is_ vs, Choice fields is_ /\ Chosen fields is_ vs /\ rank_last fields is_ = n.
Proof.
  revert n. induction fields as [|l fs IH]; intros n H.
  - cbn in H. exists [], []. repeat split; try constructor. cbn. lia.
  - cbn in H. assert (count_choices fs <> 0)%nat by (intro E; rewrite E in H; lia).
    destruct (IH (n mod count_choices fs)%nat) as [js [ws [C [Ch R]]]].
    { now apply Nat.mod_upper_bound. }
    assert (Hm : (n / count_choices fs < length l)%nat).
    { apply Nat.div_lt_upper_bound; lia. }
    destruct (nth_error l (n / count_choices fs)) as [v|] eqn:E.
    2:{ apply nth_error_None in E. lia. }
    exists (n / count_choices fs :: js)%nat, (v :: ws). split; [constructor; assumption|]. split.
    + destruct Ch as [Ch L]. split; [|cbn; lia]. cbn. constructor; assumption.
    + cbn [rank_last]. rewrite R. rewrite (Nat.div_mod_eq n (count_choices fs)) at 3. lia.
Qed.
Lemma create_permutations_all {A} (fields : list (list A)) :
  length (create_permutations fields) = count_choices fields /\
  (forall is_ vs, Chosen fields is_ vs ->
     nth_error (create_permutations fields) (rank_last fields is_) = Some vs) /\
  (forall n p, nth_error (create_permutations fields) n = Some p ->
     exists is_, Choice fields is_ /\ Chosen fields is_ p /\ rank_last fields is_ = n).
Proof.
  unfold create_permutations. split; [apply product_len|]. split; [apply product_nth|].
  intros n p Hn.
  assert (Hlt : (n < count_choices fields)%nat).
  { rewrite <- (product_len fields). apply nth_error_Some. congruence. }
  destruct (rank_last_surj fields n Hlt) as [is_ [vs [C [Ch R]]]].
  exists is_. rewrite <- R in Hn. rewrite (product_nth _ _ _ Ch) in Hn. injection Hn as <-.
  repeat split; try assumption; apply Ch.
Qed.

Lemma perms_mv_empty_skipped {A} (a b : list (list A)) :
  b <> [] -> perms_from (a ++ [] :: b)%list = perms_from (a ++ b)%list.
Proof.
  intros N. induction a as [|x a IH]; cbn [app].
  - destruct b; [now destruct N|reflexivity].
  - cbn [perms_from]. rewrite IH.
    destruct (a ++ [] :: b)%list eqn:E1; [destruct a; discriminate|].
    destruct (a ++ b)%list eqn:E2; [destruct a; [now destruct N|discriminate]|]. reflexivity.
Qed.
Lemma perms_mv_empty_last {A} (a : list (list A)) : perms_from (a ++ [[]])%list = [].
Proof.
  induction a as [|x a IH]; [reflexivity|]. cbn [app perms_from].
  destruct (a ++ [[]])%list eqn:E; [destruct a; discriminate|]. rewrite IH.
  destruct x; reflexivity.
Qed.

(** ** Derived curves *)
Lemma lookup_sign op : In op operations -> exists s, lookup op OPERATION_TO_SIGN = Ok s.
Proof.
  unfold operations. cbn [In]. intros H.
  repeat (destruct H as [<-|H]; [eexists; reflexivity|]). destruct H.
Qed.
Lemma lookup_unknown op : ~ In op operations -> lookup op OPERATION_TO_SIGN = Err KeyError.
Proof.
  unfold operations. intros H. cbn [In] in H. unfold OPERATION_TO_SIGN. cbn [lookup].
  repeat match goal with |- context [String.eqb ?a op] =>
    destruct (String.eqb_spec a op); [subst; exfalso; apply H; tauto|] end. reflexivity.
Qed.
Lemma prefix_app p s : String.prefix p (p ++ s) = true.
Proof. induction p as [|c p IH]; cbn; [destruct s; reflexivity|]. now destruct (ascii_dec c c). Qed.
Lemma prefix_iff p s : String.prefix p s = true <-> exists r, s = p ++ r.
Proof.
  split; [|intros [r ->]; apply prefix_app].
  revert s. induction p as [|c p IH]; intros s H; [exists s; reflexivity|].
  destruct s as [|d s]; [discriminate|]. cbn in H. destruct (ascii_dec c d) as [->|]; [|discriminate].
  apply IH in H. destruct H as [r ->]. exists r. reflexivity.
Qed.
Lemma derived_point_iff point :
  is_derived_point (Some point) = true <-> exists c, In c point /\ DerivedName c.
Proof.
  unfold is_derived_point. rewrite existsb_exists. split.
  - intros [op [Hop H]]. apply existsb_exists in H. destruct H as [c [Hc H]].
    exists c. split; [exact Hc|]. apply orb_prop in H.
    destruct H as [H|H]; apply prefix_iff in H; destruct H as [r ->]; exists op, r; (split; [exact Hop|]).
    + left. apply str_app_assoc.
    + right. apply str_app_assoc.
  - intros [c [Hc [op [r [Hop H]]]]]. exists op. split; [exact Hop|].
    apply existsb_exists. exists c. split; [exact Hc|].
    apply orb_true_iff. unfold starts_with. rewrite !prefix_iff.
    destruct H as [->| ->]; [left|right]; exists r; symmetry; apply str_app_assoc.
Qed.
Lemma derived_name_value a b op sign :
  lookup op OPERATION_TO_SIGN = Ok sign ->
  get_derived_curve_name [a; b; op] = Ok (op ++ "(" ++ a ++ sign ++ b ++ ")").
Proof. intros H. unfold get_derived_curve_name. now rewrite H. Qed.
Lemma derived_name_recognised a b op before after :
  In op operations ->
  exists name, get_derived_curve_name [a; b; op] = Ok name /\
    is_derived_point (Some (before ++ name :: after)%list) = true.
Proof.
  intros H. destruct (lookup_sign op H) as [s Hs].
  exists (op ++ "(" ++ a ++ s ++ b ++ ")"). split; [now apply derived_name_value|].
  apply derived_point_iff. exists (op ++ "(" ++ a ++ s ++ b ++ ")"). split.
  - apply in_or_app. right. now left.
  - exists op, (a ++ s ++ b ++ ")"). split; [exact H|now left].
Qed.
Lemma derived_name_default a b before after :
  exists name, get_derived_curve_name [a; b] = Ok name /\
    is_derived_point (Some (before ++ name :: after)%list) = true.
Proof.
  eexists. split; [reflexivity|]. apply derived_point_iff. eexists. split.
  - apply in_or_app. right. now left.
  - exists "DIFF". eexists. split; [now left|left; reflexivity].
Qed.
Lemma derived_name_unknown a b op : ~ In op operations -> get_derived_curve_name [a; b; op] = Err KeyError.
Proof. intros H. unfold get_derived_curve_name. now rewrite (lookup_unknown op H). Qed.

Lemma all_present_map l : all_present (map Some l) = Some l.
Proof. induction l as [|x l IH]; cbn; [reflexivity|now rewrite IH]. Qed.
Lemma all_present_iff l r : all_present l = Some r <-> l = map Some r.
Proof.
  split; [|intros ->; apply all_present_map].
  revert r. induction l as [|[q|] l IH]; intros r H; cbn in H; try discriminate.
  - now injection H as <-.
  - destruct (all_present l) as [r'|]; [|discriminate]. injection H as <-. cbn. now rewrite (IH r').
Qed.
Lemma all_present_none l : In None l -> all_present l = None.
Proof.
  induction l as [|[q|] l IH]; intros H; cbn; [destruct H| |reflexivity].
  destruct H as [H|H]; [discriminate|]. now rewrite IH.
Qed.
Lemma all_present_some (l : list (option Q)) : ~ In None l -> exists r, l = map Some r.
Proof.
  induction l as [|[q|] l IH]; intros H; [now exists []| |destruct H; now left].
  destruct IH as [r ->]; [intro C; apply H; now right|]. exists (q :: r). reflexivity.
Qed.
Lemma zip_elementwise f a b : length a = length b -> Elementwise f a b (zip_with f a b).
Proof.
  intros L. unfold zip_with. split; [|split].
  - rewrite map_length, combine_length, L. now rewrite Nat.min_id.
  - rewrite map_length, combine_length, L. now rewrite Nat.min_id.
  - revert b L. induction a as [|x a IH]; intros [|y b] L i u v Hu Hv; try discriminate L; destruct i; try discriminate.
    + cbn in *. congruence.
    + cbn in *. apply IH; [congruence|assumption|assumption].
Qed.
Lemma has_zero_iff l : has_zero l = true <-> exists q, In q l /\ q == 0.
Proof.
  unfold has_zero. rewrite existsb_exists. split; intros [q [H E]]; exists q; (split; [exact H|]);
    now apply Qeq_bool_iff.
Qed.
Lemma has_zero_false l : has_zero l = false <-> forall q, In q l -> ~ q == 0.
Proof.
  split.
  - intros H q Hq E. assert (has_zero l = true) by (apply has_zero_iff; eauto). congruence.
  - intros H. destruct (has_zero l) eqn:E; [|reflexivity]. apply has_zero_iff in E.
    destruct E as [q [Hq E]]. now destruct (H q Hq).
Qed.

Section Derived.
Context {D : Type} (etb : list Q -> list Q -> res D).
Notation calc v1 v2 op := (calc_derived_curve_value etb v1 v2 op).

Lemma derived_none v1 v2 op :
  v1 = None \/ v2 = None \/ (exists l, v1 = Some l /\ In None l) \/ (exists l, v2 = Some l /\ In None l) \/
  (exists l m, v1 = Some l /\ v2 = Some m /\ length l <> length m) ->
  calc v1 v2 op = Ok Undefined.
Proof.
  intros H. unfold calc_derived_curve_value.
  destruct v1 as [l|]; [|reflexivity]. destruct v2 as [m|]; [|reflexivity].
  destruct (all_present l) as [a|] eqn:Ea; [|reflexivity].
  destruct (all_present m) as [b|] eqn:Eb; [|reflexivity].
  destruct H as [H|[H|[[l' [[= <-] H]]|[[l' [[= <-] H]]|[l' [m' [[= <-] [[= <-] H]]]]]]]];
    try discriminate.
  - apply all_present_none in H. congruence.
  - apply all_present_none in H. congruence.
  - apply all_present_iff in Ea, Eb. subst. rewrite !map_length in H.
    destruct (Nat.eqb_spec (length a) (length b)); [contradiction|reflexivity].
Qed.
Lemma derived_diff op a b : op = "DIFF" \/ op = "DIFF_SIG" -> length a = length b ->
  exists r, calc (Some (map Some a)) (Some (map Some b)) op = Ok (Values r) /\ Elementwise Qminus a b r.
Proof.
  intros H L. unfold calc_derived_curve_value. rewrite !all_present_map, L, Nat.eqb_refl.
  exists (zip_with Qminus a b). split; [destruct H as [->| ->]; reflexivity|now apply zip_elementwise].
Qed.
Lemma derived_ratio a b : length a = length b -> (forall q, In q b -> ~ q == 0) ->
  exists r, calc (Some (map Some a)) (Some (map Some b)) "RATIO" = Ok (Values r) /\ Elementwise Qdiv a b r.
Proof.
  intros L Z. unfold calc_derived_curve_value. rewrite !all_present_map, L, Nat.eqb_refl.
  apply has_zero_false in Z. cbn [String.eqb Ascii.eqb Bool.eqb orb]. cbn. rewrite Z.
  exists (zip_with Qdiv a b). split; [reflexivity|now apply zip_elementwise].
Qed.
Lemma derived_ratio_zero a b q : length a = length b -> In q b -> q == 0 ->
  calc (Some (map Some a)) (Some (map Some b)) "RATIO" = Ok Undefined.
Proof.
  intros L H E. unfold calc_derived_curve_value. rewrite !all_present_map, L, Nat.eqb_refl.
  assert (Z : has_zero b = true) by (apply has_zero_iff; eauto). cbn. now rewrite Z.
Qed.
Lemma derived_ss a b : length a = length b -> (forall q, In q a -> ~ q == 0) ->
  exists r, calc (Some (map Some a)) (Some (map Some b)) "SS" = Ok (Values r) /\
            Elementwise (fun x y => (x - y) / x) a b r.
Proof.
  intros L Z. unfold calc_derived_curve_value. rewrite !all_present_map, L, Nat.eqb_refl.
  apply has_zero_false in Z. cbn. rewrite Z.
  exists (zip_with (fun x y => (x - y) / x) a b). split; [reflexivity|now apply zip_elementwise].
Qed.
Lemma derived_ss_zero a b q : length a = length b -> In q a -> q == 0 ->
  calc (Some (map Some a)) (Some (map Some b)) "SS" = Ok Undefined.
Proof.
  intros L H E. unfold calc_derived_curve_value. rewrite !all_present_map, L, Nat.eqb_refl.
  assert (Z : has_zero a = true) by (apply has_zero_iff; eauto). cbn. now rewrite Z.
Qed.
Lemma derived_single a b : length a = length b ->
  calc (Some (map Some a)) (Some (map Some b)) "SINGLE" = Ok (Values a).
Proof.
  intros L. unfold calc_derived_curve_value. now rewrite !all_present_map, L, Nat.eqb_refl.
Qed.
Lemma derived_unknown v1 v2 op : ~ In op operations -> calc v1 v2 op = Ok Undefined.
Proof.
  unfold operations. intros H. cbn [In] in H. unfold calc_derived_curve_value.
  destruct v1; [|reflexivity]. destruct v2; [|reflexivity].
  destruct (all_present l); [|reflexivity]. destruct (all_present l0); [|reflexivity].
  destruct (Nat.eqb _ _); [|reflexivity].
  repeat match goal with |- context [String.eqb op ?a] =>
    destruct (String.eqb_spec op a); [subst; exfalso; apply H; tauto|] end. reflexivity.
Qed.
Lemma derived_antisymmetric a b r s : length a = length b ->
  calc (Some (map Some a)) (Some (map Some b)) "DIFF" = Ok (Values r) ->
  calc (Some (map Some b)) (Some (map Some a)) "DIFF" = Ok (Values s) ->
  Forall2 (fun x y => x == - y) r s.
Proof.
  intros L. unfold calc_derived_curve_value. rewrite !all_present_map, L, Nat.eqb_refl.
  cbn [orb String.eqb Ascii.eqb Bool.eqb]. cbn. intros [= <-] [= <-]. unfold zip_with.
  revert b L. induction a as [|x a IH]; intros [|y b] L; try discriminate L; cbn; constructor.
  - ring.
  - apply IH. cbn in L. congruence.
Qed.
Lemma derived_self_ratio a r : (forall q, In q a -> ~ q == 0) ->
  calc (Some (map Some a)) (Some (map Some a)) "RATIO" = Ok (Values r) ->
  length r = length a /\ Forall (fun x => x == 1) r.
Proof.
  intros Z. destruct (derived_ratio a a eq_refl Z) as [r' [-> E]]. intros [= <-].
  split; [symmetry; apply E|]. apply Forall_forall. intros x Hx. apply In_nth_error in Hx.
  destruct Hx as [i Hi]. destruct E as [L [_ E]].
  assert (Hl : (i < length a)%nat) by (rewrite L; apply nth_error_Some; congruence).
  destruct (nth_error a i) as [q|] eqn:Hq; [|apply nth_error_None in Hq; lia].
  rewrite (E _ _ _ Hq Hq) in Hi. injection Hi as <-.
  assert (~ q == 0) by (apply Z; eapply nth_error_In; eassumption). now field.
Qed.
Lemma derived_self_ss a r : (forall q, In q a -> ~ q == 0) ->
  calc (Some (map Some a)) (Some (map Some a)) "SS" = Ok (Values r) ->
  length r = length a /\ Forall (fun x => x == 0) r.
Proof.
  intros Z. destruct (derived_ss a a eq_refl Z) as [r' [-> E]]. intros [= <-].
  split; [symmetry; apply E|]. apply Forall_forall. intros x Hx. apply In_nth_error in Hx.
  destruct Hx as [i Hi]. destruct E as [L [_ E]].
  assert (Hl : (i < length a)%nat) by (rewrite L; apply nth_error_Some; congruence).
  destruct (nth_error a i) as [q|] eqn:Hq; [|apply nth_error_None in Hq; lia].
  rewrite (E _ _ _ Hq Hq) in Hi. injection Hi as <-.
  assert (~ q == 0) by (apply Z; eapply nth_error_In; eassumption). now field.
Qed.
End Derived.

(** ** Perfect score *)
Lemma upper_capitals s t : Capitals s t -> upper s = t.
Proof.
  unfold Capitals. revert t. induction s as [|c s IH]; intros [|d t] H; cbn in H; inversion H; subst; [reflexivity|].
  cbn. f_equal; [|now apply IH]. destruct H3 as [H1 H2]. unfold upper_char.
  destruct (Nat.leb_spec 97 (nat_of_ascii c)); cbn.
  - destruct (Nat.leb_spec (nat_of_ascii c) 122).
    + rewrite <- (H1 (conj H0 H3)). apply ascii_nat_embedding.
    + symmetry. apply H2. lia.
  - symmetry. apply H2. lia.
Qed.
Lemma gt_abs_iff p a b : Qgt_abs (a - p) (b - p) = true <-> farther p a b.
Proof.
  unfold Qgt_abs, farther. rewrite negb_true_iff.
  destruct (Qle_bool (Qabs (a - p)) (Qabs (b - p))) eqn:E.
  - apply Qle_bool_iff in E. split; [discriminate|]. intros H. lra.
  - split; [intros _|reflexivity]. apply Qnot_le_lt. intro C. apply Qle_bool_iff in C. congruence.
Qed.
Lemma Qgt_abs_compat a a' b b' : a == a' -> b == b' -> Qgt_abs a b = Qgt_abs a' b'.
Proof. intros E F. unfold Qgt_abs. now rewrite E, F. Qed.
Lemma gt_abs_0 a b : Qgt_abs a b = true <-> farther 0 a b.
Proof. rewrite <- gt_abs_iff. rewrite (Qgt_abs_compat (a - 0) a (b - 0) b); [reflexivity|lra|lra]. Qed.

Lemma na_list s : mem s na_perf_score_stats = mem s without_perfect_score.
Proof.
  destruct (mem s without_perfect_score) eqn:E.
  - apply mem_iff. apply mem_iff in E. unfold without_perfect_score in E. cbn [In] in E.
    repeat (destruct E as [<-|E]; [apply mem_iff; reflexivity|]). destruct E.
  - apply mem_false. apply mem_false in E. intro C. apply E. clear E.
    unfold na_perf_score_stats in C. cbn [In] in C.
    repeat (destruct C as [<-|C]; [apply mem_iff; reflexivity|]). destruct C.
Qed.
Lemma zero_list s : mem s zero_perf_score_stats = mem s perfect_score_zero.
Proof.
  destruct (mem s perfect_score_zero) eqn:E.
  - apply mem_iff. apply mem_iff in E. unfold perfect_score_zero in E. cbn [In] in E.
    repeat (destruct E as [<-|E]; [apply mem_iff; reflexivity|]). destruct E.
  - apply mem_false. apply mem_false in E. intro C. apply E. clear E.
    unfold zero_perf_score_stats in C. cbn [In] in C.
    repeat (destruct C as [<-|C]; [apply mem_iff; reflexivity|]). destruct C.
Qed.
Lemma one_list s : mem s one_perf_score_stats = mem s perfect_score_one.
Proof. reflexivity. Qed.
Lemma na_not_zero s : In s perfect_score_zero -> mem s without_perfect_score = false.
Proof.
  unfold perfect_score_zero. cbn [In]. intros H. repeat (destruct H as [<-|H]; [reflexivity|]). destruct H.
Qed.
Lemma na_not_one s : In s perfect_score_one ->
  mem s without_perfect_score = false /\ mem s perfect_score_zero = false.
Proof.
  unfold perfect_score_one. cbn [In]. intros H.
  repeat (destruct H as [<-|H]; [split; reflexivity|]). destruct H.
Qed.
Lemma zero_not_one s : In s perfect_score_zero -> mem s perfect_score_one = false.
Proof.
  unfold perfect_score_zero. cbn [In]. intros H. repeat (destruct H as [<-|H]; [reflexivity|]). destruct H.
Qed.

Section Adjust.
Variables (stat name : string) (m1 m2 pval : Q).
Hypothesis HC : Capitals stat name.

Lemma adjust_na : In name without_perfect_score -> perfect_score_adjustment m1 m2 stat pval = None.
Proof.
  intros H. unfold perfect_score_adjustment. rewrite (upper_capitals _ _ HC), na_list.
  apply mem_iff in H. now rewrite H.
Qed.
Lemma adjust_perfect p :
  (p = 0 /\ In name perfect_score_zero \/ p = 1 /\ In name perfect_score_one) ->
  (farther p m1 m2 -> perfect_score_adjustment m1 m2 stat pval = Some (pval * -1)) /\
  (~ farther p m1 m2 -> perfect_score_adjustment m1 m2 stat pval = Some pval).
Proof.
  intros H. unfold perfect_score_adjustment. rewrite (upper_capitals _ _ HC), na_list, zero_list, one_list.
  destruct H as [[-> H]|[-> H]].
  - rewrite (na_not_zero _ H), (zero_not_one _ H). apply mem_iff in H. rewrite H. cbn [andb].
    rewrite <- gt_abs_0. destruct (Qgt_abs m1 m2); split; intros; congruence.
  - destruct (na_not_one _ H) as [-> ->]. apply mem_iff in H. rewrite H. cbn [andb].
    rewrite <- gt_abs_iff. destruct (Qgt_abs (m1 - 1) (m2 - 1)); split; intros; congruence.
Qed.
Lemma adjust_unknown :
  ~ In name without_perfect_score -> ~ In name perfect_score_zero -> ~ In name perfect_score_one ->
  perfect_score_adjustment m1 m2 stat pval = Some pval.
Proof.
  intros H1 H2 H3. unfold perfect_score_adjustment. rewrite (upper_capitals _ _ HC), na_list, zero_list, one_list.
  apply mem_false in H1, H2, H3. now rewrite H1, H2, H3.
Qed.
End Adjust.
Lemma adjust_swap stat name p m1 m2 pval :
  Capitals stat name ->
  (p = 0 /\ In name perfect_score_zero \/ p = 1 /\ In name perfect_score_one) ->
  ~ Qabs (m1 - p) == Qabs (m2 - p) ->
  (perfect_score_adjustment m1 m2 stat pval = Some (pval * -1) /\
   perfect_score_adjustment m2 m1 stat pval = Some pval) \/
  (perfect_score_adjustment m1 m2 stat pval = Some pval /\
   perfect_score_adjustment m2 m1 stat pval = Some (pval * -1)).
Proof.
  intros HC H N.
  destruct (adjust_perfect stat name m1 m2 pval HC p H) as [A1 A2].
  destruct (adjust_perfect stat name m2 m1 pval HC p H) as [B1 B2].
  unfold farther in *. destruct (Qlt_le_dec (Qabs (m2 - p)) (Qabs (m1 - p))) as [L|L].
  - left. split; [now apply A1|]. apply B2. lra.
  - right. split; [apply A2; lra|]. apply B1. apply Qle_lteq in L. destruct L; [assumption|]. now destruct N.
Qed.

(** ** Longitudes *)
Lemma qmod_range x m : 0 < m -> 0 <= qmod x m /\ qmod x m < m.
Proof.
  intros Hm. unfold qmod.
  assert (H1 := Qfloor_le (x / m)). assert (H2 := Qlt_floor (x / m)).
  set (f := inject_Z (Qfloor (x / m))) in *. rewrite inject_Z_plus in H2. fold f in H2.
  assert (E : x == (x / m) * m) by (field; lra).
  assert (A : f * m <= x / m * m) by (apply Qmult_le_compat_r; lra).
  assert (B : x / m * m < (f + inject_Z 1) * m) by (apply Qmult_lt_r; lra).
  rewrite <- E in A, B. change (inject_Z 1) with 1 in B. split; lra.
Qed.
Lemma qmod_congruent x m : Congruent m x (qmod x m).
Proof.
  exists (- Qfloor (x / m))%Z. unfold qmod. rewrite inject_Z_opp. ring.
Qed.
Lemma qmod_small x m : 0 <= x -> x < m -> qmod x m == x.
Proof.
  intros H0 H1. unfold qmod.
  assert (E : Qfloor (x / m) = 0%Z).
  { assert (Hm : 0 < m) by lra.
    assert (A : 0 <= x / m) by (apply Qle_shift_div_l; lra).
    assert (B : x / m < 1) by (apply Qlt_shift_div_r; lra).
    assert (C := Qfloor_le (x / m)). assert (D := Qlt_floor (x / m)).
    rewrite inject_Z_plus in D. change (inject_Z 1) with 1 in D.
    assert (inject_Z (-1) < inject_Z (Qfloor (x / m))) by (change (inject_Z (-1)) with (-1); lra).
    assert (inject_Z (Qfloor (x / m)) < inject_Z 1) by (change (inject_Z 1) with 1; lra).
    rewrite <- Zlt_Qlt in *. lia. }
  rewrite E. change (inject_Z 0) with 0. ring.
Qed.

Lemma lon_spec lons :
  exists conv, Permutation (convert_lon_360_to_180 lons) conv /\
    Forall2 (fun x y => Congruent 360 x y) lons conv /\
    Ascending (convert_lon_360_to_180 lons) /\
    (forall y, In y (convert_lon_360_to_180 lons) -> -(180) <= y /\ y < 180).
Proof.
  unfold convert_lon_360_to_180. set (f := fun l => qmod (l + 180) 360 - 180).
  exists (map f lons). split; [apply sortQ_perm|]. split; [|split; [apply sortQ_asc|]].
  - induction lons as [|x lons IH]; cbn; constructor; [|exact IH].
    destruct (qmod_congruent (x + 180) 360) as [k Hk]. exists k. unfold f. rewrite Hk. ring.
  - intros y Hy. apply (Permutation_in _ (sortQ_perm _)) in Hy. apply in_map_iff in Hy.
    destruct Hy as [x [<- _]]. unfold f.
    destruct (qmod_range (x + 180) 360) as [A B]; [lra|]. lra.
Qed.
Lemma insertQ_head x l : (forall y, In y l -> x <= y) -> insertQ x l = x :: l.
Proof.
  destruct l as [|y l]; intros H; cbn; [reflexivity|].
  assert (x <= y) by (apply H; now left). apply Qle_bool_iff in H0. now rewrite H0.
Qed.
Lemma sortQ_sorted l : Ascending l -> sortQ l = l.
Proof.
  induction l as [|x l IH]; intros H; cbn; [reflexivity|].
  destruct H as [H1 H2]. rewrite (IH H2). now apply insertQ_head.
Qed.
Lemma asc_map_eq f l : (forall x, In x l -> f x == x) -> Ascending l -> Ascending (map f l).
Proof.
  induction l as [|x l IH]; intros H A; cbn; [exact I|]. destruct A as [A1 A2]. split.
  - intros y Hy. apply in_map_iff in Hy. destruct Hy as [z [<- Hz]].
    rewrite (H x (or_introl eq_refl)), (H z (or_intror Hz)). now apply A1.
  - apply IH; [|exact A2]. intros; apply H; now right.
Qed.
Lemma lon_idempotent lons :
  Forall2 Qeq (convert_lon_360_to_180 (convert_lon_360_to_180 lons)) (convert_lon_360_to_180 lons).
Proof.
  destruct (lon_spec lons) as [_ [_ [_ [A R]]]].
  set (l := convert_lon_360_to_180 lons) in *. clearbody l. unfold convert_lon_360_to_180.
  assert (E : forall x, In x l -> qmod (x + 180) 360 - 180 == x).
  { intros x Hx. destruct (R x Hx). rewrite qmod_small by lra. ring. }
  rewrite sortQ_sorted by now apply asc_map_eq.
  clear A R. induction l as [|x l IH]; cbn; constructor.
  - apply E. now left.
  - apply IH. intros; apply E; now right.
Qed.
Lemma lon_length lons : length (convert_lon_360_to_180 lons) = length lons.
Proof.
  destruct (lon_spec lons) as [c [P [F _]]]. rewrite (Permutation_length P).
  symmetry. eapply forall2_len; eassumption.
Qed.

Lemma insert_idx_perm x l : Permutation (insert_idx x l) (x :: l).
Proof.
  induction l as [|y l IH]; cbn; [reflexivity|].
  destruct (Qle_bool _ _); [reflexivity|]. rewrite IH. apply perm_swap.
Qed.
Lemma sort_idx_perm l : Permutation (sort_idx l) l.
Proof. induction l as [|x l IH]; cbn; [reflexivity|]. rewrite insert_idx_perm. now constructor. Qed.
Lemma insert_idx_asc x l : Ascending (map fst l) -> Ascending (map fst (insert_idx x l)).
Proof.
  induction l as [|y l IH]; intros H; cbn; [split; [intros ? []|exact I]|].
  destruct H as [H1 H2]. destruct (Qle_bool (fst x) (fst y)) eqn:E.
  - apply Qle_bool_iff in E. cbn. split; [|split; assumption].
    intros z [<-|Hz]; [exact E|]. apply H1 in Hz. lra.
  - assert (fst y <= fst x).
    { apply Qnot_lt_le. intro C. assert (fst x <= fst y) by lra. apply Qle_bool_iff in H. congruence. }
    cbn. split; [|now apply IH]. intros z Hz.
    assert (P := Permutation_map fst (insert_idx_perm x l)).
    apply (Permutation_in _ P) in Hz. cbn in Hz. destruct Hz as [<-|Hz]; [exact H|now apply H1].
Qed.
Lemma sort_idx_asc l : Ascending (map fst (sort_idx l)).
Proof. induction l as [|x l IH]; cbn; [exact I|]. now apply insert_idx_asc. Qed.

Lemma combine_seq_in {A} (l : list A) k q i : In (q, i) (combine l (seq k (length l))) ->
  (k <= i)%nat /\ nth_error l (i - k) = Some q.
Proof.
  revert k. induction l as [|x l IH]; intros k H; cbn in H; [destruct H|].
  destruct H as [[= <- <-]|H]; [split; [lia|now rewrite Nat.sub_diag]|].
  apply IH in H. destruct H as [H1 H2]. split; [lia|].
  replace (i - k)%nat with (S (i - S k)) by lia. exact H2.
Qed.
Lemma argsort_perm l : Permutation (argsort l) (seq 0 (length l)).
Proof.
  unfold argsort. rewrite (Permutation_map snd (sort_idx_perm _)).
  assert (G : forall k, map snd (combine l (seq k (length l))) = seq k (length l)).
  { induction l as [|x l IH]; intros k; cbn; [reflexivity|now rewrite IH]. }
  now rewrite G.
Qed.
Lemma take_argsort l : take_at l (argsort l) = map fst (sort_idx (combine l (seq 0 (length l)))).
Proof.
  unfold take_at, argsort. rewrite map_map. apply map_ext_in. intros [q i] H.
  apply (Permutation_in _ (sort_idx_perm _)) in H. apply combine_seq_in in H.
  destruct H as [_ H]. rewrite Nat.sub_0_r in H. cbn. now apply nth_error_nth.
Qed.
Lemma lons_indices_spec lons minlon range :
  0 < range ->
  exists conv sorted locs,
    convert_lons_indices lons minlon range = Some (sorted, locs) /\
    Forall2 (fun x y => Congruent range x y) lons conv /\
    (forall y, In y conv -> - Qabs minlon <= y /\ y < range - Qabs minlon) /\
    Permutation locs (seq 0 (length lons)) /\
    Ascending sorted /\
    length sorted = length lons /\
    (forall k i, nth_error locs k = Some i -> nth_error sorted k = nth_error conv i).
Proof.
  intros Hr. unfold convert_lons_indices.
  assert (E : Qeq_bool range 0 = false).
  { destruct (Qeq_bool range 0) eqn:E; [apply Qeq_bool_iff in E; lra|reflexivity]. }
  rewrite E. set (f := fun l => qmod (l + Qabs minlon) range - Qabs minlon).
  set (conv := map f lons).
  assert (L : length conv = length lons) by apply map_length.
  exists conv, (take_at conv (argsort conv)), (argsort conv). split; [reflexivity|]. split; [|split; [|split; [|split; [|split]]]].
  - unfold conv. clear L. induction lons as [|x lons IH]; cbn; constructor; [|apply IH].
    destruct (qmod_congruent (x + Qabs minlon) range) as [k Hk]. exists k. unfold f. rewrite Hk. ring.
  - intros y Hy. apply in_map_iff in Hy. destruct Hy as [x [<- _]]. unfold f.
    destruct (qmod_range (x + Qabs minlon) range Hr) as [A B]. lra.
  - rewrite <- L. apply argsort_perm.
  - rewrite take_argsort. apply sort_idx_asc.
  - unfold take_at. rewrite map_length. rewrite (Permutation_length (argsort_perm conv)), seq_length. exact L.
  - intros k i Hk. unfold take_at. rewrite nth_error_map, Hk. cbn.
    assert (Hi : In i (argsort conv)) by (eapply nth_error_In; eassumption).
    apply (Permutation_in _ (argsort_perm conv)) in Hi. apply in_seq in Hi.
    symmetry. apply nth_error_nth'. lia.
Qed.
Lemma lons_indices_zero lons minlon range : range == 0 -> convert_lons_indices lons minlon range = None.
Proof.
  intros H. unfold convert_lons_indices. apply Qeq_bool_iff in H. now rewrite H.
Qed.

(** ** List operations *)
Lemma intersection_spec a b :
  exists r, intersection (Some a) (Some b) = Some r /\ Selection (fun x => In x b) a r.
Proof.
  eexists. split; [reflexivity|]. apply selection_filter. intros; apply mem_iff.
Qed.
Lemma dedup_spec l : NoDup (dedup l) /\ forall x, In x (dedup l) <-> In x l.
Proof.
  induction l as [|x l [ND IH]]; cbn; [split; [constructor|tauto]|]. split.
  - constructor; [|now apply NoDup_filter]. rewrite filter_In. intros [_ C].
    rewrite String.eqb_refl in C. discriminate.
  - intros y. rewrite filter_In, IH. destruct (String.eqb_spec y x); cbn; subst; intuition congruence.
Qed.

Lemma oq_dec (x y : option Q) : {x = y} + {x <> y}.
Proof. decide equality. decide equality; [apply Pos.eq_dec|apply Z.eq_dec]. Defined.
Lemma derived_undefined_iff {D} (etb : list Q -> list Q -> res D) v1 v2 op :
  op <> "ETB" ->
  (calc_derived_curve_value etb v1 v2 op = Ok Undefined <-> NoDerivedValue v1 v2 op).
Proof.
  intros HE. split.
  - intros H. unfold NoDerivedValue.
    destruct v1 as [l|]; [|now left]. destruct v2 as [m|]; [|right; now left].
    destruct (in_dec oq_dec None l) as [N|N].
    { right. right. left. eauto. }
    destruct (in_dec oq_dec None m) as [M|M].
    { right. right. right. left. eauto. }
    destruct (all_present_some l N) as [a ->]. destruct (all_present_some m M) as [b ->].
    destruct (Nat.eq_dec (length a) (length b)) as [L|L].
    2:{ do 4 right. left. exists (map Some a), (map Some b). rewrite !map_length. auto. }
    destruct (in_dec string_dec op operations) as [O|O]; [|do 7 right; exact O].
    unfold operations in O. cbn [In] in O.
    destruct O as [<-|[<-|[<-|[<-|[<-|[<-|[]]]]]]].
    + destruct (derived_diff etb "DIFF" a b (or_introl eq_refl) L) as [r [E _]]. congruence.
    + destruct (has_zero b) eqn:Z.
      * apply has_zero_iff in Z. destruct Z as [q [Hq E]]. do 5 right. left. split; [reflexivity|].
        exists (map Some b), q. split; [reflexivity|]. split; [now apply in_map|exact E].
      * destruct (derived_ratio etb a b L) as [r [E _]]; [now apply has_zero_false|congruence].
    + destruct (has_zero a) eqn:Z.
      * apply has_zero_iff in Z. destruct Z as [q [Hq E]]. do 6 right. left. split; [reflexivity|].
        exists (map Some a), q. split; [reflexivity|]. split; [now apply in_map|exact E].
      * destruct (derived_ss etb a b L) as [r [E _]]; [now apply has_zero_false|congruence].
    + destruct (derived_diff etb "DIFF_SIG" a b (or_intror eq_refl) L) as [r [E _]]. congruence.
    + rewrite (derived_single etb a b L) in H. discriminate.
    + now destruct HE.
  - assert (Basic : forall w1 w2, (w1 = None \/ w2 = None \/ (exists l, w1 = Some l /\ In None l) \/ (exists l, w2 = Some l /\ In None l) \/
  (exists l m, w1 = Some l /\ w2 = Some m /\ length l <> length m)) -> calc_derived_curve_value etb w1 w2 op = Ok Undefined)
      by (intros; now apply derived_none).
    intros [H|[H|[H|[H|[H|[[-> H]|[[-> H]|H]]]]]]]; try (apply Basic; tauto).
    + destruct H as [m [q [-> [Hq E]]]]. destruct v1 as [l|]; [|apply Basic; tauto].
      destruct (all_present l) as [a|] eqn:Ea.
      2:{ unfold calc_derived_curve_value. now rewrite Ea. }
      destruct (all_present m) as [b|] eqn:Eb.
      2:{ unfold calc_derived_curve_value. now rewrite Ea, Eb. }
      apply all_present_iff in Ea, Eb. subst.
      destruct (Nat.eq_dec (length a) (length b)) as [L|L].
      * apply in_map_iff in Hq. destruct Hq as [q' [[= ->] Hq]]. eapply derived_ratio_zero; eassumption.
      * apply Basic. do 4 right. exists (map Some a), (map Some b). rewrite !map_length. auto.
    + destruct H as [l [q [-> [Hq E]]]]. destruct v2 as [m|]; [|apply Basic; tauto].
      destruct (all_present l) as [a|] eqn:Ea.
      2:{ unfold calc_derived_curve_value. now rewrite Ea. }
      destruct (all_present m) as [b|] eqn:Eb.
      2:{ unfold calc_derived_curve_value. now rewrite Ea, Eb. }
      apply all_present_iff in Ea, Eb. subst.
      destruct (Nat.eq_dec (length a) (length b)) as [L|L].
      * apply in_map_iff in Hq. destruct Hq as [q' [[= ->] Hq]]. eapply derived_ss_zero; eassumption.
      * apply Basic. do 4 right. exists (map Some a), (map Some b). rewrite !map_length. auto.
    + now apply derived_unknown.
Qed.
Lemma list_form_skips_refuted :
  ~ (forall fields : list (list string),
       create_permutations_mv_list fields 0 =
       create_permutations_mv_list (filter (fun l => match l with [] => false | _ => true end) fields) 0).
Proof.
  intros H. specialize (H [["a"; "b"]; []]). discriminate H.
Qed.
Lemma case_capitals : Capitals "Rm" "RM".
Proof.
  unfold Capitals. cbn [list_ascii_of_string].
  constructor; [split; [intros H; vm_compute in H; lia|reflexivity]|].
  constructor; [split; [reflexivity|intros H; exfalso; apply H; vm_compute; lia]|]. constructor.
Qed.
