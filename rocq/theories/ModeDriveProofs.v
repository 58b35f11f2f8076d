(** Proofs about bootstrapped statistics of objects. *)
From Coq Require Import Ascii Permutation Sorted Qabs.
From Verif Require Import PyBase ColumnModel BaseSpec BaseProofs EventModel EventSpec EventProofs UtilModel UtilSpec UtilProofs.
From Verif Require Import RocProofs BootModel DriveModel DriveSpec DriveProofs CurveProofs ModeDriveModel ModeDriveSpec.
From Verif Require RocModel AggModel SumProofs EqzProofs.
From Coq Require Import List Lia.
Open Scope string_scope.

(* ---------- products ---------- *)
Lemma product_snoc {A} (l : list (list A)) (s : list A) : product (l ++ [s]) = flat_map (fun q => map (fun x => (q ++ [x])%list) s) (product l).
Proof.
  induction l as [|x l IH]; cbn [app product].
  - cbn [flat_map map app]. rewrite app_nil_r. clear. induction s as [|a s IH]; [reflexivity|]. cbn [flat_map map app]. rewrite IH. reflexivity.
  - rewrite IH. clear IH. induction x as [|a x IH]; [reflexivity|]. cbn [flat_map]. rewrite flat_map_app, IH. f_equal.
    clear. induction (product l) as [|q qs IH]; [reflexivity|]. cbn [flat_map map]. rewrite map_app, IH. f_equal. rewrite map_map. apply map_ext. reflexivity.
Qed.
Lemma nodup_app_intro {A} (a b : list A) : NoDup a -> NoDup b -> (forall x, In x a -> ~ In x b) -> NoDup (a ++ b).
Proof.
  induction a as [|x a IH]; intros Ha Hb D; [exact Hb|]. inversion Ha as [|? ? N Ha']; subst. cbn. constructor.
  - intro H. apply in_app_or in H. destruct H as [H|H]; [contradiction|]. exact (D x (or_introl eq_refl) H).
  - apply IH; [exact Ha'|exact Hb|]. intros y Hy. apply D. right. exact Hy.
Qed.
Lemma product_nodup {A} (ls : list (list A)) : Forall (@NoDup A) ls -> NoDup (product ls).
Proof.
  induction 1 as [|l ls N F IH]; cbn [product]; [constructor; [intros []|constructor]|].
  induction l as [|x l IHl]; [constructor|]. inversion N as [|? ? Nx Nl]; subst. cbn [flat_map]. apply nodup_app_intro.
  - apply FinFun.Injective_map_NoDup; [intros a b E; injection E as ->; reflexivity|exact IH].
  - apply IHl. exact Nl.
  - intros q H1 H2. apply in_map_iff in H1. destruct H1 as (q1 & <- & _). apply in_flat_map in H2. destruct H2 as (y & Hy & H2). apply in_map_iff in H2. destruct H2 as (q2 & E & _). injection E as -> _. contradiction.
Qed.

(* ---------- the output frame ---------- *)
Definition frame (g : list string -> string -> mode_row) (stats : list string) (qs : list (list string)) : list mode_row :=
  flat_map (fun q => map (fun s => g q s) stats) qs.
Lemma set_first_app test f a b : Forall (fun o => test o = false) a -> set_first test f (a ++ b) = bind (set_first test f b) (fun b' => Ok (a ++ b')%list).
Proof.
  induction 1 as [|o a E F IH]; cbn [app set_first].
  - destruct (set_first test f b); reflexivity.
  - rewrite E, IH. destruct (set_first test f b); reflexivity.
Qed.
Definition gset (g : list string -> string -> mode_row) (q0 : list string) (s0 : string) (f : mode_row -> mode_row) (q : list string) (s : string) : mode_row :=
  if list_eq_dec string_dec q q0 then if string_dec s s0 then f (g q s) else g q s else g q s.
Lemma gset_other g q0 s0 f q s : q <> q0 \/ s <> s0 -> gset g q0 s0 f q s = g q s.
Proof. intro H. unfold gset. destruct (list_eq_dec _ q q0); [|reflexivity]. destruct (string_dec s s0); [|reflexivity]. destruct H; contradiction. Qed.
Lemma gset_same g q0 s0 f : gset g q0 s0 f q0 s0 = f (g q0 s0).
Proof. unfold gset. destruct (list_eq_dec _ q0 q0); [|contradiction]. destruct (string_dec s0 s0); [reflexivity|contradiction]. Qed.
Lemma set_first_frame test f g stats first rest q0 : forall qs, stats = first :: rest -> ~ In first rest -> NoDup qs ->
  (forall q s, In q qs -> In s stats -> (test (g q s) = true <-> q = q0)) ->
  set_first test f (frame g stats qs) = if in_dec (list_eq_dec string_dec) q0 qs then Ok (frame (gset g q0 first f) stats qs) else Err IndexError.
Proof.
  induction qs as [|q qs IH]; intros -> NF ND T.
  - cbn. reflexivity.
  - inversion ND as [|? ? Nq ND']; subst. unfold frame in *. cbn [flat_map]. destruct (list_eq_dec string_dec q q0) as [E|E].
    + subst q. cbn [map app set_first]. rewrite (proj2 (T q0 first (or_introl eq_refl) (or_introl eq_refl)) eq_refl).
      destruct (in_dec _ q0 (q0 :: qs)) as [_|N]; [|exfalso; apply N; left; reflexivity]. rewrite gset_same. f_equal. f_equal. f_equal.
      * apply map_ext_in. intros s Hs. symmetry. apply gset_other. right. intros ->. contradiction.
      * rewrite !flat_map_concat_map. f_equal. apply map_ext_in. intros q Hq. f_equal; [|]. symmetry. apply gset_other. left. intros ->. contradiction.
        apply map_ext. intro s. symmetry. apply gset_other. left. intros ->. contradiction.
    + rewrite set_first_app.
      * rewrite IH; [|reflexivity|exact NF|exact ND'|intros q' s Hq Hs; apply T; [right; exact Hq|exact Hs]].
        destruct (in_dec _ q0 qs) as [I|I]; destruct (in_dec _ q0 (q :: qs)) as [J|J].
        -- cbn [bind]. f_equal. f_equal. apply map_ext. intro s. symmetry. apply gset_other. left. exact E.
        -- exfalso. apply J. right. exact I.
        -- exfalso. destruct J as [J|J]; [congruence|contradiction].
        -- reflexivity.
      * apply Forall_forall. intros o Ho. apply in_map_iff in Ho. destruct Ho as (s & <- & Hs).
        destruct (test (g q s)) eqn:X; [|reflexivity]. apply (T q s (or_introl eq_refl) Hs) in X. contradiction.
Qed.

(* ---------- looking for the row of a point ---------- *)
Lemma assoc_in {A} n (v : A) l : NoDup (map fst l) -> In (n, v) l -> AggModel.assoc n l = Some v.
Proof.
  induction l as [|[k x] l IH]; intros ND I; [destruct I|]. cbn in ND. inversion ND as [|? ? N ND']; subst. cbn. destruct I as [[= -> ->]|I].
  - rewrite String.eqb_refl. reflexivity.
  - destruct (String.eqb_spec k n) as [->|_]; [exfalso; apply N; apply (in_map fst) in I; exact I|auto].
Qed.
Definition TextValue (v : string) : Prop := SingleValue v /\ ~ IsNumber v.
Lemma single_members v : SingleValue v -> MembersOf v [v].
Proof. intros (A & B). right. right. auto. Qed.
Lemma text_isin v t : TextValue v -> (isin (filter_list v) (CStr t) = true <-> t = v).
Proof.
  intros (S & N). rewrite isin_member by (exists [v]; apply single_members; exact S). unfold HasMember. split.
  - intros (l & m & M & I & H). rewrite (members_fun _ _ _ M (single_members _ S)) in I. destruct I as [<-|[]].
    destruct H as [(z & q & _ & X & _)|[(p & q & _ & X & _)|(_ & _ & X)]]; [discriminate X|discriminate X|injection X as ->; reflexivity].
  - intros ->. exists [v], v. split; [apply single_members; exact S|]. split; [left; reflexivity|]. right. right. split; [|split; [|reflexivity]].
    + intros z W. apply N. left. exists z. exact W.
    + intros q W. apply N. right. exists q. exact W.
Qed.
Lemma combine_app {A B} (a c : list A) (b d : list B) : length a = length b -> combine (a ++ c) (b ++ d) = (combine a b ++ combine c d)%list.
Proof. revert b. induction a as [|x a IH]; intros [|y b] L; try discriminate L; [reflexivity|]. cbn. rewrite IH; [reflexivity|]. cbn in L. lia. Qed.
Lemma combine_fst' {A B} (l : list A) (m : list B) : length l = length m -> map fst (combine l m) = l.
Proof. revert m. induction l as [|x l IH]; intros [|y m] H; try discriminate H; [reflexivity|]. cbn. rewrite IH; [reflexivity|]. cbn in H. lia. Qed.
Lemma combination_length fields p : Combination fields p -> length p = length fields.
Proof. induction 1; cbn; congruence. Qed.
Section Find.
Variables (rq : request) (fields : list (string * list string)).
Hypothesis HF : ModeFields rq fields.
Hypothesis HT : forall n vals, In (n, vals) (series_val rq) -> forall v, In v vals -> TextValue v.
Lemma text_combination p : Combination (series_val rq) p -> Forall TextValue p.
Proof.
  intro C. revert HT. clear - C. induction C as [|[n vals] v fs p H C IH]; intro HT; constructor.
  - apply (HT n vals); [left; reflexivity|exact H].
  - apply IH. intros n' vals' I. apply (HT n' vals'). right. exact I.
Qed.
Lemma mode_test_iff p p' i i' s var r n : Combination (series_val rq) p -> Combination (series_val rq) p' ->
  (mode_test (series_val rq) (indy_var rq) i p (ModeRow (combine (map fst fields) (p' ++ [i'; s])) var r n) = true <-> p' = p /\ i' = i).
Proof.
  intros C C'. destruct HF as (ND & E). unfold mode_test. cbn [mode_point]. rewrite andb_true_iff.
  pose proof (combination_length _ _ C) as L. pose proof (combination_length _ _ C') as L'.
  assert (map fst fields = map fst (series_val rq) ++ [indy_var rq; "stat_name"])%list as En by (rewrite E, map_app; reflexivity).
  set (D := combine (map fst fields) (p' ++ [i'; s])).
  assert (D = combine (map fst (series_val rq)) p' ++ [(indy_var rq, i'); ("stat_name", s)])%list as ED.
  { unfold D. rewrite En, combine_app by (rewrite map_length; congruence). reflexivity. }
  assert (NoDup (map fst D)) as NDD. { unfold D. rewrite combine_fst'; [exact ND|]. rewrite En, !app_length, map_length. cbn. lia. }
  assert (AggModel.assoc (indy_var rq) D = Some i') as AI by (apply assoc_in; [exact NDD|rewrite ED; apply in_or_app; right; left; reflexivity]).
  rewrite AI. rewrite String.eqb_eq. apply Morphisms_Prop.and_iff_morphism; [|split; auto].
  assert (forall n v, In (n, v) (combine (map fst (series_val rq)) p') -> AggModel.assoc n D = Some v) as AD by (intros m v I; apply assoc_in; [exact NDD|rewrite ED; apply in_or_app; left; exact I]).
  pose proof (text_combination p C) as TP. clearbody D. clear - AD TP L L'. rewrite <- (map_length fst) in L, L'.
  revert p p' L L' TP AD. induction (map fst (series_val rq)) as [|m ms IH]; intros [|v p] [|v' p'] L L' TP AD; try discriminate; [cbn; tauto|].
  cbn [combine forallb fst snd]. rewrite (AD m v') by (left; reflexivity). inversion TP as [|? ? TV TP']; subst. rewrite andb_true_iff, (text_isin v v' TV).
  rewrite (IH p p'); [|cbn in L; lia|cbn in L'; lia|exact TP'|intros n' x I; apply AD; right; exact I]. split; [intros (-> & ->); reflexivity|intros [= -> ->]; auto].
Qed.
End Find.

(* ---------- one value of the independent variable ---------- *)
Section Run.
Variables (text : string -> cell -> string) (calc : string -> tdata -> res pyval).
Variable bootstrap : option ((list string -> list (list string)) * ci_method).
Variables (columns : list string) (data : tdata) (rq : request) (fields : list (string * list string)).
Hypothesis HF : ModeFields rq fields.
Hypothesis HT : forall n vals, In (n, vals) (series_val rq) -> NoDup vals /\ forall v, In v vals -> TextValue v.
Hypothesis HI : NoDup (indy_vals rq).
Variables (first : string) (rest : list string).
Hypothesis HS : list_stat rq = first :: rest.
Hypothesis HN : NoDup (list_stat rq).
Definition qs : list (list string) := product (map snd (series_val rq ++ [(indy_var rq, indy_vals rq)])).
Definition good (g : list string -> string -> mode_row) : Prop := forall q s, mode_point (g q s) = combine (map fst fields) (q ++ [s]).
Lemma qs_nodup : NoDup qs.
Proof.
  apply product_nodup. rewrite map_app. apply Forall_app. split; [|constructor; [exact HI|constructor]].
  apply Forall_forall. intros l Hl. apply in_map_iff in Hl. destruct Hl as ([n vals] & <- & I). apply (HT n vals I).
Qed.
Lemma qs_in q : In q qs <-> exists p i, q = (p ++ [i])%list /\ Combination (series_val rq) p /\ In i (indy_vals rq).
Proof.
  unfold qs. rewrite map_app. cbn [map snd]. rewrite product_snoc, in_flat_map. split.
  - intros (p & Hp & Hq). apply in_map_iff in Hq. destruct Hq as (i & <- & Hi). exists p, i. split; [reflexivity|]. split; [apply product_combination; exact Hp|exact Hi].
  - intros (p & i & -> & Hp & Hi). exists p. split; [apply product_combination; exact Hp|]. apply in_map_iff. exists i. auto.
Qed.
Lemma test_key g i p : good g -> Combination (series_val rq) p -> forall q s, In q qs -> In s (list_stat rq) ->
  (mode_test (series_val rq) (indy_var rq) i p (g q s) = true <-> q = (p ++ [i])%list).
Proof.
  intros G C q s Hq _. apply qs_in in Hq. destruct Hq as (p' & i' & -> & C' & _). pose proof (G (p' ++ [i'])%list s) as E.
  destruct (g (p' ++ [i'])%list s) as [pt var r n]. cbn [mode_point] in E. subst pt. rewrite <- app_assoc. cbn [app].
  rewrite (mode_test_iff rq fields HF (fun n vals I => proj2 (HT n vals I)) p p' i i' s var r n C C'). split; [intros (-> & ->); reflexivity|intro E; apply app_inj_tail in E; exact E].
Qed.
Notation all := (mode_all text calc bootstrap columns).
Lemma mode_all_frame rows var i cases : In i (indy_vals rq) -> forall keys g out, good g -> Forall (fun k => Combination (series_val rq) (snd k)) keys ->
  all rows rq var i cases keys (frame g (list_stat rq) qs) = Ok out ->
  exists g', out = frame g' (list_stat rq) qs /\ good g' /\
    (forall q s, (s <> first \/ forall st p, In (st, p) keys -> q <> (p ++ [i])%list) -> g' q s = g q s) /\
    (forall a st p b, keys = (a ++ (st, p) :: b)%list -> (forall st', ~ In (st', p) b) ->
       exists pd r, mode_rows columns rows (series_val rq) p [] = Ok pd /\ mode_stats text calc bootstrap columns (indy_var rq) (lower st) pd cases = Ok r /\
         g' (p ++ [i])%list first = ModeRow (combine (map fst fields) ((p ++ [i]) ++ [first])) var r (Some (length pd))).
Proof.
  intros Hi. induction keys as [|[st p] keys IH]; intros g out G F H; cbn [mode_all] in H.
  - injection H as <-. exists g. split; [reflexivity|]. split; [exact G|]. split; [reflexivity|]. intros [|? a] ? ? ? E; discriminate E.
  - inversion F as [|? ? C F']; subst. cbn [snd] in C. unfold mode_one in H. cbn [fst snd] in H.
    destruct (mode_rows columns rows (series_val rq) p []) as [pd|] eqn:ER; [|discriminate H]. cbn [bind] in H.
    destruct (mode_stats text calc bootstrap columns (indy_var rq) (lower st) pd cases) as [r|] eqn:ES; [|discriminate H]. cbn [bind] in H.
    assert (~ In first rest) as NF by (rewrite HS in HN; inversion HN; assumption).
    rewrite (set_first_frame _ _ g (list_stat rq) first rest (p ++ [i])%list qs HS NF qs_nodup (test_key g i p G C)) in H.
    destruct (in_dec _ (p ++ [i])%list qs) as [I|I]; [|discriminate H]. cbn [bind] in H. clear I.
    set (f := fun o : mode_row => ModeRow (mode_point o) var r (Some (length pd))) in *.
    assert (good (gset g (p ++ [i])%list first f)) as G1.
    { intros q s. unfold gset. destruct (list_eq_dec _ _ _); [|apply G]. destruct (string_dec _ _); [|apply G]. unfold f. cbn [mode_point]. apply G. }
    destruct (IH _ _ G1 F' H) as (g' & -> & G' & U & L). exists g'. split; [reflexivity|]. split; [exact G'|]. split.
    + intros q s X. rewrite U.
      * apply gset_other. destruct X as [X|X]; [right; exact X|left; apply (X st p); left; reflexivity].
      * destruct X as [X|X]; [left; exact X|right]. intros st' p' I'. apply (X st' p'). right. exact I'.
    + intros [|k a] st' p' b E N.
      * cbn in E. injection E as <- <- <-. exists pd, r. split; [exact ER|]. split; [exact ES|].
        rewrite U; [|right; intros st' p' I' X; apply app_inj_tail in X; destruct X as (-> & _); exact (N st' I')].
        rewrite gset_same. unfold f. rewrite G. reflexivity.
      * cbn in E. injection E as _ ->. apply (L a st' p' b eq_refl N).
Qed.
Definition keys_of (stats : list string) (points : list (list string)) : list (string * list string) := flat_map (fun s => map (fun p => (s, p)) points) stats.
Lemma keys_combination stats points : Forall (Combination (series_val rq)) points -> Forall (fun k => Combination (series_val rq) (snd k)) (keys_of stats points).
Proof.
  intro F. apply Forall_forall. intros [s p] I. apply in_flat_map in I. destruct I as (s' & _ & I). apply in_map_iff in I. destruct I as (p' & [= <- <-] & I). rewrite Forall_forall in F. apply F. exact I.
Qed.
Lemma points_nodup : NoDup (product (map snd (series_val rq))).
Proof.
  apply product_nodup. apply Forall_forall. intros l Hl. apply in_map_iff in Hl. destruct Hl as ([n vals] & <- & I). apply (HT n vals I).
Qed.
Lemma mode_all_last rows var i cases lst middle g out : In i (indy_vals rq) -> list_stat rq = (middle ++ [lst])%list -> good g ->
  all rows rq var i cases (keys_of (list_stat rq) (product (map snd (series_val rq)))) (frame g (list_stat rq) qs) = Ok out ->
  exists g', out = frame g' (list_stat rq) qs /\ good g' /\
    (forall q s, (s <> first \/ forall p, q <> (p ++ [i])%list) -> g' q s = g q s) /\
    (forall p, Combination (series_val rq) p ->
       exists pd r, mode_rows columns rows (series_val rq) p [] = Ok pd /\ mode_stats text calc bootstrap columns (indy_var rq) (lower lst) pd cases = Ok r /\
         g' (p ++ [i])%list first = ModeRow (combine (map fst fields) ((p ++ [i]) ++ [first])) var r (Some (length pd))).
Proof.
  intros Hi EL G H. destruct (mode_all_frame rows var i cases Hi _ _ _ G (keys_combination _ _ (combos_in _)) H) as (g' & -> & G' & U & L).
  exists g'. split; [reflexivity|]. split; [exact G'|]. split.
  - intros q s X. apply U. destruct X as [X|X]; [left; exact X|right]. intros st p _. apply X.
  - intros p C. apply product_combination in C. pose proof points_nodup as ND. destruct (in_split _ _ C) as (pa & pb & E).
    apply (L (keys_of middle (product (map snd (series_val rq))) ++ map (fun p => (lst, p)) pa)%list lst p (map (fun p => (lst, p)) pb)).
    + rewrite EL. unfold keys_of at 1. rewrite flat_map_app. cbn [flat_map]. rewrite app_nil_r. rewrite <- app_assoc. f_equal. rewrite E, map_app. reflexivity.
    + intros st' I. apply in_map_iff in I. destruct I as (p' & [= _ ->] & I). rewrite E in ND. apply NoDup_remove_2 in ND. apply ND. apply in_or_app. right. exact I.
Qed.
End Run.

(* ---------- results and cases ---------- *)
Lemma case_iff text columns indy r c : case_of text columns indy r = Ok c <-> ObjectCase text columns indy r c.
Proof.
  unfold case_of, ObjectCase. split.
  - destruct (get columns r "fcst_valid") as [v|] eqn:E; [|discriminate]. cbn [bind]. destruct (get columns r indy) as [i|] eqn:E2; [|discriminate]. intros [= <-].
    apply get_sound in E, E2. exists v, i. auto.
  - intros (v & i & A & B & ->). apply get_sound in A, B. rewrite A. cbn [bind]. rewrite B. reflexivity.
Qed.
Lemma tagged_inv text columns indy rows tagged : mapM (fun r => c <- case_of text columns indy r ;; Ok (c, r)) rows = Ok tagged ->
  Forall2 (fun r t => snd t = r /\ ObjectCase text columns indy r (fst t)) rows tagged.
Proof.
  intro M. apply mapM_iff in M. cbv beta in M. induction M as [|r t rows tagged E M IH]; constructor; [|exact IH].
  destruct (case_of text columns indy r) as [c|] eqn:EC; [|discriminate E]. injection E as <-. split; [reflexivity|]. apply case_iff. exact EC.
Qed.
Lemma tagged_snd text columns indy rows tagged : Forall2 (fun r t => snd t = r /\ ObjectCase text columns indy r (fst t)) rows tagged -> map snd tagged = rows.
Proof. induction 1 as [|r t rows tagged [E _] M IH]; [reflexivity|]. cbn. rewrite IH, E. reflexivity. Qed.
Lemma case_fun text columns indy r c d : ObjectCase text columns indy r c -> ObjectCase text columns indy r d -> c = d.
Proof. intros A B. apply case_iff in A, B. congruence. Qed.
Lemma sample_rows text columns indy rows tagged s : Forall2 (fun r t => snd t = r /\ ObjectCase text columns indy r (fst t)) rows tagged ->
  SampleRows text columns indy rows s (cases_in s tagged).
Proof.
  unfold SampleRows, cases_in. induction 1 as [|r t rows tagged [E O] M IH]; cbn [filter map]; [constructor|].
  destruct (mem (fst t) s) eqn:X; cbn [map].
  - rewrite E. constructor; [|exact IH]. exists (fst t). split; [exact O|]. apply mem_iff. exact X.
  - constructor; [|exact IH]. intros (c & O' & I). rewrite (case_fun _ _ _ _ _ _ O' O) in I. apply mem_iff in I. congruence.
Qed.
Lemma filter_all {A} (b : A -> bool) l : (forall x, In x l -> b x = true) -> filter b l = l.
Proof. induction l as [|x l IH]; intro H; [reflexivity|]. cbn. rewrite H by (left; reflexivity). rewrite IH; [reflexivity|]. intros y Hy. apply H. right. exact Hy. Qed.
Lemma mapM_error {A B} (f : A -> res B) l e : mapM f l = Err e -> exists x, In x l /\ f x = Err e.
Proof.
  induction l as [|x l IH]; cbn; [discriminate|]. destruct (f x) as [y|e'] eqn:E; cbn [bind].
  - destruct (mapM f l) as [ys|e2]; cbn [bind]; [discriminate|]. intros [= ->]. destruct (IH eq_refl) as (z & I & Z). exists z. auto.
  - intros [= ->]. exists x. auto.
Qed.
Lemma percentile_no_key l q : percentile l q <> Err KeyError.
Proof. unfold percentile. destruct (negb _); [discriminate|]. destruct (nth_error _ _); [|discriminate]. destruct (nth_error _ _); discriminate. Qed.
Lemma percentile_any_no_key l q : percentile_any l q <> Err KeyError.
Proof. unfold percentile_any. destruct (negb _); [discriminate|]. destruct (existsb _ _); [discriminate|]. apply percentile_no_key. Qed.
Lemma limits_no_key d v a m : get_confidence_interval_and_value d v a m <> Err KeyError.
Proof.
  unfold get_confidence_interval_and_value. destruct v as [v|]; [|discriminate]. destruct m; [| |discriminate].
  - destruct (percentile_any d (100 * (1 - a / 2))) eqn:E1; cbn [bind]; [|intros [= ->]; exact (percentile_any_no_key _ _ E1)].
    destruct (percentile_any d (100 * (a / 2))) eqn:E2; cbn [bind]; [discriminate|intros [= ->]; exact (percentile_any_no_key _ _ E2)].
  - destruct (all_the_same d); [discriminate|].
    destruct (percentile (not_none d) (100 * (a / 2))) eqn:E1; cbn [bind]; [|intros [= ->]; exact (percentile_no_key _ _ E1)].
    destruct (percentile (not_none d) (100 * (1 - a / 2))) eqn:E2; cbn [bind]; [discriminate|intros [= ->]; exact (percentile_no_key _ _ E2)].
Qed.
Lemma mode_stats_sound text calc bootstrap columns indy stat rows cases r :
  (forall x c, In x rows -> ObjectCase text columns indy x c -> In c cases) ->
  mode_stats text calc bootstrap columns indy stat rows cases = Ok r -> ModeResult text calc bootstrap columns indy stat cases rows r.
Proof.
  intros HC H. unfold mode_stats in H. destruct (has_columns columns (sort_fields columns)); [|discriminate H]. cbn [bind] in H.
  destruct (sort_data columns rows) as [sorted|] eqn:S; [|discriminate H]. cbn [bind] in H. destruct (sort_data_inv _ _ _ S) as (K & O & ES).
  assert (InOrder columns rows sorted) as IO by (rewrite ES; apply sort_in_order; assumption).
  destruct (mapM _ sorted) as [tagged|] eqn:M; [|discriminate H]. cbn [bind] in H. apply tagged_inv in M.
  assert (forall t, In t tagged -> mem (fst t) cases = true) as HA.
  { intros t I. destruct (DriveProofs.forall2_in_r _ _ _ _ M I) as (x & Ix & _ & OC). apply mem_iff. apply (HC x); [|exact OC].
    eapply Permutation_in; [apply Permutation_sym; apply IO|exact Ix]. }
  pose proof (tagged_snd _ _ _ _ _ M) as MS. pose proof (filter_all (fun cr => mem (fst cr) cases) tagged HA) as FA.
  destruct bootstrap as [[samples method]|].
  - cbv zeta in H. rewrite FA in H. rewrite (filter_all (cells_in tagged) tagged) in H.
    2: { intros t I. unfold cells_in. apply existsb_exists. exists t. split; [exact I|]. rewrite String.eqb_refl. reflexivity. }
    rewrite MS in H. destruct (calc stat sorted) as [v|e] eqn:EV; cbn [bind] in H.
    + destruct (mapM (fun s => calc stat (cases_in s tagged)) (samples cases)) as [dist|e] eqn:ED; cbn [bind] in H.
      * destruct (get_confidence_interval_and_value dist v 0.05 method) as [r'|e] eqn:EG; cbn [catch] in H.
        -- injection H as <-. eapply mode_boot; [reflexivity|exact IO|exact EV| |exact EG]. apply mapM_iff in ED. cbv beta in ED.
           clear - ED M. induction ED as [|s x ss xs E F IH]; constructor; [|exact IH]. exists (cases_in s tagged). split; [apply sample_rows; exact M|exact E].
        -- destruct e; cbn in H; try discriminate H. destruct (limits_no_key _ _ _ _ EG).
      * destruct e; cbn in H; try discriminate H. injection H as <-. eapply mode_failed; [reflexivity|exact IO|]. right.
        apply mapM_error in ED. destruct ED as (s & Is & E). exists s, (cases_in s tagged). split; [exact Is|]. split; [apply sample_rows; exact M|exact E].
    + destruct e; cbn in H; try discriminate H. injection H as <-. eapply mode_failed; [reflexivity|exact IO|]. left. exact EV.
  - unfold cases_in in H. rewrite FA, MS in H. destruct (calc stat sorted) as [v|] eqn:EV; [|discriminate H]. injection H as <-. eapply mode_single; [reflexivity|exact IO|exact EV].
Qed.
Lemma has_columns_iff columns names : has_columns columns names = Ok tt <-> Forall (fun n => In n columns) names.
Proof.
  unfold has_columns. destruct (forallb (fun n => mem n columns) names) eqn:E; split; intro H; try reflexivity; try discriminate H.
  - apply Forall_forall. intros n I. rewrite forallb_forall in E. apply mem_iff. apply E. exact I.
  - exfalso. assert (forallb (fun n => mem n columns) names = true) by (apply forallb_forall; intros n I; apply mem_iff; rewrite Forall_forall in H; apply H; exact I). congruence.
Qed.
Lemma has_columns_cases columns names : has_columns columns names = Ok tt \/ has_columns columns names = Err KeyError.
Proof. unfold has_columns. destruct (forallb _ _); auto. Qed.
Lemma mode_rows_inv columns rows series p vars pd : Rectangular rows columns -> mode_rows columns rows series p vars = Ok pd -> pd = filter (ftests columns (map fst series) p vars) rows.
Proof.
  intros R H. unfold mode_rows in H. destruct (has_columns columns (map fst series)); [|discriminate H]. cbn [bind] in H.
  destruct (point_filters columns (map fst series) p vars) as [|f fs] eqn:E; [discriminate H|]. rewrite <- E in H.
  rewrite point_data_value in H; [|exact R|rewrite E; discriminate]. injection H as <-. apply map_snd_filter.
Qed.
Lemma filter_list_single v : SingleValue v -> filter_list v = [want v].
Proof. intro S. rewrite (members_value _ _ (single_members _ S)). reflexivity. Qed.
Lemma indy_filter columns indy i : In indy columns -> SingleValue i -> [(indy, [want i])] = point_filters columns [indy] [i] [].
Proof.
  intros I S. unfold point_filters. cbn [combine flat_map fst snd]. rewrite (proj2 (mem_iff indy columns) I). rewrite filter_list_single by exact S. reflexivity.
Qed.
Lemma indy_rows columns data indy i : Rectangular data columns -> In indy columns -> SingleValue i ->
  exists pd, point_data columns [(indy, [want i])] data = Ok pd /\ map snd pd = filter (ftests columns [indy] [i] []) data.
Proof.
  intros R I S. rewrite (indy_filter columns indy i I S). rewrite point_data_value; [|exact R|rewrite <- (indy_filter columns indy i I S); discriminate].
  eexists. split; [reflexivity|]. apply map_snd_filter.
Qed.
Lemma ftests_app columns a b p q r : length a = length p -> ftests columns (a ++ b) (p ++ q) [] r = ftests columns a p [] r && ftests columns b q [] r.
Proof. intro L. unfold ftests. rewrite combine_app by exact L. rewrite forallb_app, !andb_true_r. reflexivity. Qed.
Lemma rectangular_filter (b : row -> bool) data columns : Rectangular data columns -> Rectangular (filter b data) columns.
Proof. intros R r H. apply filter_In in H. apply R. apply H. Qed.
Lemma cases_inv text columns rows rq : Rectangular rows columns -> forall points cases cases',
  mode_cases text columns rows rq points cases = Ok cases' -> StronglySorted (fun a b => String.ltb a b = true) cases ->
  StronglySorted (fun a b => String.ltb a b = true) cases' /\
  forall c, In c cases' <-> In c cases \/ exists p r, In p points /\ In r rows /\ ftests columns (map fst (series_val rq)) p (fcst_vars rq) r = true /\ ObjectCase text columns (indy_var rq) r c.
Proof.
  intro R. induction points as [|p points IH]; intros cases cases' H S; cbn [mode_cases] in H.
  - injection H as <-. split; [exact S|]. intro c. split; [auto|intros [X|(p & r & [] & _)]; exact X].
  - destruct (mode_rows columns rows (series_val rq) p (fcst_vars rq)) as [pd|] eqn:E; [|discriminate H]. cbn [bind] in H.
    apply (mode_rows_inv _ _ _ _ _ _ R) in E. destruct (mapM (case_of text columns (indy_var rq)) pd) as [cs|] eqn:M; [|discriminate H]. cbn [bind] in H.
    assert (StronglySorted (fun a b => String.ltb a b = true) (unique_sort (cases ++ cs))) as SU.
    { unfold unique_sort. pose proof (unique_strict (cases ++ cs)) as X. clear - X. induction X as [|a l X IH F]; constructor; [exact IH|].
      rewrite Forall_forall in *. intros b Hb. unfold String.ltb. rewrite (F b Hb). reflexivity. }
    destruct (IH _ _ H SU) as (S' & C). split; [exact S'|]. intro c. rewrite C. unfold unique_sort. rewrite unique_in, in_app_iff. apply mapM_iff in M.
    assert (In c cs <-> exists r, In r rows /\ ftests columns (map fst (series_val rq)) p (fcst_vars rq) r = true /\ ObjectCase text columns (indy_var rq) r c) as X.
    { split.
      - intro I. destruct (DriveProofs.forall2_in_r _ _ _ _ M I) as (r & Ir & EC). apply case_iff in EC. rewrite E in Ir. apply filter_In in Ir. exists r. tauto.
      - intros (r & Ir & Ft & OC). assert (In r pd) as Ip by (rewrite E; apply filter_In; auto). destruct (SumProofs.forall2_in_l _ _ _ _ M Ip) as (c' & Ic & EC).
        apply case_iff in EC. rewrite (case_fun _ _ _ _ _ _ OC EC). exact Ic. }
    rewrite X. split.
    + intros [[A|(r & B)]|(p' & r & A & B)]; [left; exact A|right; exists p, r; split; [left; reflexivity|exact B]|right; exists p', r; split; [right; exact A|exact B]].
    + intros [A|(p' & r & [<-|A] & B)]; [left; left; exact A|left; right; exists r; exact B|right; exists p', r; auto].
Qed.

(* ---------- all values of the independent variable ---------- *)
Lemma split_unique {A} (x : A) : forall a b c d, NoDup (a ++ x :: b) -> (a ++ x :: b = c ++ x :: d)%list -> a = c /\ b = d.
Proof.
  induction a as [|y a IH]; intros b [|z c] d ND E; cbn in E.
  - injection E as ->. auto.
  - injection E as <- E. exfalso. cbn in ND. inversion ND as [|? ? N _]; subst. apply N. apply in_or_app. right. left. reflexivity.
  - injection E as -> E. exfalso. cbn in ND. inversion ND as [|? ? N _]; subst. apply N. apply in_or_app. right. left. reflexivity.
  - injection E as <- E. cbn in ND. inversion ND as [|? ? N ND']; subst. destruct (IH b c d ND' E) as (-> & ->). auto.
Qed.
Section Loop.
Variables (text : string -> cell -> string) (calc : string -> tdata -> res pyval).
Variable bootstrap : option ((list string -> list (list string)) * ci_method).
Variables (columns : list string) (data : tdata) (rq : request) (fields : list (string * list string)).
Hypothesis HR : Rectangular data columns.
Hypothesis HF : ModeFields rq fields.
Hypothesis HT : TextRequest rq.
Hypothesis HC : In (indy_var rq) columns.
Variables (first : string) (rest middle : list string) (lst : string).
Hypothesis HS : list_stat rq = first :: rest.
Hypothesis HL : list_stat rq = (middle ++ [lst])%list.
Hypothesis HV : fcst_vars rq = [] \/ ~ In "fcst_var" columns.
Definition pfields : list (string * list string) := (series_val rq ++ [(indy_var rq, indy_vals rq)])%list.
Definition prows (p : list string) (i : string) : tdata := filter (ftests columns (map fst pfields) (p ++ [i]) []) data.
Lemma vars_ignored names p r : ftests columns names p (fcst_vars rq) r = ftests columns names p [] r.
Proof.
  destruct HV as [->|N]; [reflexivity|]. destruct (fcst_vars rq) as [|v vs]; [reflexivity|]. unfold ftests. f_equal. apply ptest_absent.
  destruct (mem "fcst_var" columns) eqn:E; [apply mem_iff in E; contradiction|reflexivity].
Qed.
Lemma indy_single i : In i (indy_vals rq) -> SingleValue i.
Proof. intro I. destruct HT as (_ & _ & X & _). apply X. exact I. Qed.
Lemma prows_rows p i : Combination (series_val rq) p -> In i (indy_vals rq) ->
  filter (ftests columns (map fst (series_val rq)) p []) (filter (ftests columns [indy_var rq] [i] []) data) = prows p i.
Proof.
  intros C Hi. rewrite EqzProofs.filter_filter. unfold prows. apply filter_ext. intro r. unfold pfields. rewrite map_app. cbn [map fst].
  rewrite ftests_app by (rewrite map_length; symmetry; apply combination_length; exact C). apply Bool.andb_comm.
Qed.
Lemma pfields_combination p i : Combination (series_val rq) p -> In i (indy_vals rq) -> Combination pfields (p ++ [i]).
Proof. intros C Hi. unfold pfields. apply Forall2_app; [exact C|]. constructor; [exact Hi|constructor]. Qed.
Lemma pfields_members p i : Combination (series_val rq) p -> In i (indy_vals rq) -> Forall2 (fun nv v => exists l, MembersOf v l) pfields (p ++ [i]).
Proof.
  intros C Hi. pose proof (pfields_combination p i C Hi) as PC. destruct HT as (A & _ & B & _).
  assert (forall n vals v, In (n, vals) pfields -> In v vals -> SingleValue v) as S.
  { intros n vals v I J. unfold pfields in I. apply in_app_or in I. destruct I as [I|[[= <- <-]|[]]]; [apply (A n vals I); exact J|apply B; exact J]. }
  revert PC S. generalize pfields as fs. generalize (p ++ [i])%list as q. clear. intros q fs PC. induction PC as [|[n vals] v fs q H C IH]; intro S; constructor.
  - exists [v]. apply single_members. apply (S n vals v); [left; reflexivity|exact H].
  - apply IH. intros n' vals' v' I J. apply (S n' vals' v'); [right; exact I|exact J].
Qed.
Lemma prows_test p i r : Combination (series_val rq) p -> In i (indy_vals rq) -> In r data -> (In r (prows p i) <-> OfPoint columns pfields [] (p ++ [i]) r).
Proof.
  intros C Hi Hr. unfold prows. rewrite filter_In. rewrite (ftests_iff columns pfields [] (p ++ [i]) r (HR r Hr) (pfields_members p i C Hi)). tauto.
Qed.
Lemma prows_selection p i : Combination (series_val rq) p -> In i (indy_vals rq) -> Selection (OfPoint columns pfields [] (p ++ [i])) data (prows p i).
Proof. intros C Hi. apply EventProofs.selection_filter. intros r Hr. apply ftests_iff; [apply HR; exact Hr|apply pfields_members; assumption]. Qed.
Definition UpTo (pre : list string) (cases : list string) : Prop :=
  StronglySorted (fun a b => String.ltb a b = true) cases /\
  forall c, In c cases <-> exists j p r, In j pre /\ Combination (series_val rq) p /\ In r (prows p j) /\ ObjectCase text columns (indy_var rq) r c.
Lemma upto_cases pre i after cases : indy_vals rq = (pre ++ i :: after)%list -> UpTo (pre ++ [i]) cases -> ModeCases text columns data rq i cases.
Proof.
  intros E (S & U). split; [exact S|]. intro c. rewrite U. split.
  - intros (j & p & r & Hj & C & Hr & O). exists pre, after, j, p, r. split; [auto|]. split; [exact C|].
    assert (In j (indy_vals rq)) as Hi by (rewrite E; apply in_app_or in Hj; apply in_or_app; destruct Hj as [Hj|[<-|[]]]; [left; exact Hj|right; left; reflexivity]).
    assert (In r data) as Hd by (apply filter_In in Hr; apply Hr). split; [exact Hd|]. split; [apply (prows_test p j r C Hi Hd); exact Hr|exact O].
  - intros (b & a & j & p & r & (E' & Hj) & C & Hd & OP & O). assert (b = pre) as -> by (pose proof (proj1 (proj2 HT)) as ND; rewrite E in ND; rewrite E in E'; symmetry; apply (split_unique i pre after b a ND E')).
    assert (In j (indy_vals rq)) as Hi by (rewrite E; apply in_app_or in Hj; apply in_or_app; destruct Hj as [Hj|[<-|[]]]; [left; exact Hj|right; left; reflexivity]).
    exists j, p, r. split; [exact Hj|]. split; [exact C|]. split; [apply (prows_test p j r C Hi Hd); exact OP|exact O].
Qed.
Notation gd := (good fields).
Lemma indys_frame : forall indys pre cases g out, indy_vals rq = (pre ++ indys)%list -> UpTo pre cases -> gd g ->
  mode_indys text calc bootstrap columns data rq None indys cases (frame g (list_stat rq) (qs rq)) = Ok out ->
  exists g', out = frame g' (list_stat rq) (qs rq) /\ gd g' /\
    (forall q s, (s <> first \/ forall p i, In i indys -> q <> (p ++ [i])%list) -> g' q s = g q s) /\
    (forall p i, Combination (series_val rq) p -> In i indys -> Filled text calc bootstrap columns data rq lst p i (g' (p ++ [i])%list first)).
Proof.
  induction indys as [|i indys IH]; intros pre cases g out E U G H; cbn [mode_indys] in H.
  - injection H as <-. exists g. split; [reflexivity|]. split; [exact G|]. split; [reflexivity|]. intros p i _ [].
  - assert (In i (indy_vals rq)) as Hi by (rewrite E; apply in_or_app; right; left; reflexivity).
    destruct (indy_rows columns data (indy_var rq) i HR HC (indy_single i Hi)) as (pd & EP & MP). rewrite EP in H. cbn [bind] in H. rewrite MP in H.
    set (rows := filter (ftests columns [indy_var rq] [i] []) data) in *.
    assert (Rectangular rows columns) as RR by (apply rectangular_filter; exact HR).
    destruct (mode_cases text columns rows rq (product (map snd (series_val rq))) cases) as [cases'|] eqn:EC; [|discriminate H]. cbn [bind] in H.
    destruct (cases_inv _ _ _ _ RR _ _ _ EC (proj1 U)) as (S' & IC).
    assert (UpTo (pre ++ [i]) cases') as U'.
    { split; [exact S'|]. intro c. rewrite IC. destruct U as (_ & U). rewrite U. split.
      - intros [(j & p & r & A & B)|(p & r & A & B & F & O)].
        + exists j, p, r. split; [apply in_or_app; left; exact A|exact B].
        + exists i, p, r. split; [apply in_or_app; right; left; reflexivity|]. apply product_combination in A. split; [exact A|]. split; [|exact O].
          rewrite <- (prows_rows p i A Hi). apply filter_In. split; [exact B|]. rewrite vars_ignored in F. exact F.
      - intros (j & p & r & A & B & D & O). apply in_app_or in A. destruct A as [A|[<-|[]]]; [left; exists j, p, r; auto|right].
        exists p, r. split; [apply product_combination; exact B|]. rewrite <- (prows_rows p i B Hi) in D. apply filter_In in D. rewrite vars_ignored. tauto. }
    match type of H with bind ?x _ = _ => destruct x as [out1|] eqn:EA; [|discriminate H] end. cbn [bind] in H.
    destruct HT as (HT1 & HI & _ & HN).
    destruct (mode_all_last text calc bootstrap columns rq fields HF HT1 HI first rest HS HN rows None i cases' lst middle g out1 Hi HL G EA) as (g1 & -> & G1 & U1 & L1).
    assert (indy_vals rq = (pre ++ [i]) ++ indys)%list as E' by (rewrite <- app_assoc; exact E).
    destruct (IH (pre ++ [i])%list cases' g1 out E' U' G1 H) as (g' & -> & G' & U2 & L2). exists g'. split; [reflexivity|]. split; [exact G'|]. split.
    + intros q s X. rewrite U2, U1; [reflexivity| |].
      * destruct X as [X|X]; [left; exact X|right]. intro p. apply X. left. reflexivity.
      * destruct X as [X|X]; [left; exact X|right]. intros p j Hj. apply X. right. exact Hj.
    + intros p j C [<-|Hj]; [|apply L2; assumption].
      assert (~ In i indys) as Ni by (rewrite E in HI; apply NoDup_remove_2 in HI; intro X; apply HI; apply in_or_app; right; exact X).
      rewrite U2; [|right; intros p' j Hj X; apply app_inj_tail in X; destruct X as (_ & ->); contradiction].
      destruct (L1 p C) as (pd' & r & ER & ES & ->). apply (mode_rows_inv _ _ _ _ _ _ RR) in ER. unfold rows in ER. rewrite (prows_rows p i C Hi) in ER. subst pd'.
      split; [reflexivity|]. cbn [mode_nstats mode_result]. exists (lower lst), (prows p i), cases'. split; [apply small_lower|].
      split; [apply prows_selection; assumption|]. split; [reflexivity|]. split; [eapply upto_cases; eassumption|].
      apply mode_stats_sound; [|exact ES]. intros x c Hx O. apply U'. exists i, p, x. split; [apply in_or_app; right; left; reflexivity|auto].
Qed.
Lemma fields_value : dict_set "stat_name" (list_stat rq) (dict_set (indy_var rq) (indy_vals rq) (series_val rq)) = fields.
Proof.
  destruct HF as (ND & E). rewrite E in ND. rewrite map_app in ND. cbn [map fst] in ND.
  rewrite (dict_set_new (indy_var rq)).
  - rewrite dict_set_new; [rewrite <- app_assoc; symmetry; exact E|]. rewrite map_app. cbn [map fst].
    change [indy_var rq; "stat_name"] with ([indy_var rq] ++ ["stat_name"])%list in ND. rewrite app_assoc in ND. apply NoDup_remove_2 in ND. rewrite app_nil_r in ND. exact ND.
  - intro H. apply NoDup_remove_2 in ND. apply ND. apply in_or_app. left. exact H.
Qed.
Lemma axis_rows out : mode_axis text calc bootstrap columns data rq = Ok out ->
  ModeRows fields (fun p i s o => (s = first -> Filled text calc bootstrap columns data rq lst p i o) /\ (s <> first -> Unfilled o)) out.
Proof.
  intro H. unfold mode_axis in H. rewrite fields_value in H.
  assert (match fcst_vars rq with v :: _ => if mem "fcst_var" columns then Some v else None | [] => None end = None) as EV.
  { destruct HV as [->|N]; [reflexivity|]. destruct (fcst_vars rq); [reflexivity|]. destruct (mem "fcst_var" columns) eqn:M; [apply mem_iff in M; contradiction|reflexivity]. }
  cbv zeta in H. rewrite EV in H. set (g0 := fun q s => ModeRow (combine (map fst fields) (q ++ [s])) None nothing None).
  assert (product (map snd fields) = flat_map (fun q => map (fun s => (q ++ [s])%list) (list_stat rq)) (qs rq)) as EP.
  { unfold qs. rewrite <- product_snoc. f_equal. destruct HF as (_ & ->). rewrite !map_app. rewrite <- app_assoc. reflexivity. }
  assert (map (fun p => ModeRow (combine (map fst fields) p) None nothing None) (product (map snd fields)) = frame g0 (list_stat rq) (qs rq)) as EF.
  { rewrite EP. unfold frame. generalize (qs rq) as l. induction l as [|q l IH]; [reflexivity|]. cbn [flat_map]. rewrite map_app, IH, map_map. reflexivity. }
  rewrite EF in H.
  assert (UpTo [] []) as U0 by (split; [constructor|]; intro c; split; [intros []|intros (j & p & r & [] & _)]).
  destruct (indys_frame (indy_vals rq) [] [] g0 out eq_refl U0 (fun q s => eq_refl) H) as (g' & -> & G' & U & L).
  unfold ModeRows. rewrite combinations_product, EP. unfold frame.
  assert (forall q, In q (qs rq) -> exists p i, q = (p ++ [i])%list /\ Combination (series_val rq) p /\ In i (indy_vals rq)) as Q by (intros q Hq; apply qs_in; exact Hq).
  revert Q. generalize (qs rq) as l. induction l as [|q l IH]; intro Q; [constructor|]. cbn [flat_map]. apply Forall2_app; [|apply IH; intros q' Hq; apply Q; right; exact Hq].
  destruct (Q q (or_introl eq_refl)) as (p & i & -> & C & Hi). clear IH Q.
  assert (forall ss, Forall2 (fun q' o => mode_point o = combine (map fst fields) q' /\ exists p i s, q' = (p ++ [i; s])%list /\
     ((s = first -> Filled text calc bootstrap columns data rq lst p i o) /\ (s <> first -> Unfilled o)))
     (map (fun s => ((p ++ [i]) ++ [s])%list) ss) (map (fun s => g' (p ++ [i])%list s) ss)) as K; [|apply K].
  induction ss as [|s ss IH]; [constructor|]. cbn [map]. constructor; [|exact IH]. split; [apply G'|]. exists p, i, s. split; [rewrite <- app_assoc; reflexivity|]. split.
  - intros ->. apply L; assumption.
  - intro N. rewrite U by (left; exact N). unfold g0. split; [reflexivity|]. split; reflexivity.
Qed.
End Loop.

(* ---------- numbers ---------- *)
Lemma set_first_some test f : forall l out, set_first test f l = Ok out -> exists o, In o l /\ test o = true.
Proof.
  induction l as [|o l IH]; intros out H; cbn [set_first] in H; [discriminate H|]. destruct (test o) eqn:T; [exists o; split; [left; reflexivity|exact T]|].
  destruct (set_first test f l) as [t|]; [|discriminate H]. destruct (IH t eq_refl) as (x & I & X). exists x. split; [right; exact I|exact X].
Qed.
Lemma mode_all_each text calc bootstrap columns rows rq var i cases : forall keys out out' k, mode_all text calc bootstrap columns rows rq var i cases keys out = Ok out' -> In k keys ->
  exists o, mode_test (series_val rq) (indy_var rq) i (snd k) o = true.
Proof.
  induction keys as [|k' keys IH]; intros out out' k H I; [destruct I|]. cbn [mode_all] in H.
  match type of H with bind ?x _ = _ => destruct x as [out1|] eqn:E; [|discriminate H] end. cbn [bind] in H. destruct I as [->|I]; [|exact (IH _ _ _ H I)].
  unfold mode_one in E. destruct (mode_rows columns rows (series_val rq) (snd k) []); [|discriminate E]. cbn [bind] in E.
  match type of E with bind ?x _ = _ => destruct x as [r|]; [|discriminate E] end. cbn [bind] in E. apply set_first_some in E. destruct E as (o & _ & T). exists o. exact T.
Qed.
Lemma number_want v : IsNumber v -> exists q, want v = WNum q.
Proof.
  intro N. unfold want. destruct (parse_int v) as [z|] eqn:E; [eexists; reflexivity|]. destruct N as [(z & W)|(q & D)].
  - apply parse_int_iff in W. congruence.
  - apply strict_float_iff in D. destruct D as (p & -> & _). eexists. reflexivity.
Qed.
Lemma number_single v : IsNumber v -> SingleValue v.
Proof.
  intro N. assert (forall a, Has a v -> Digit a \/ a = "+"%char \/ a = "-"%char \/ a = "."%char) as K by (destruct N as [(z & W)|(q & D)]; [eapply whole_char; exact W|eapply decimal_char; exact D]).
  split; intro X; apply K in X; destruct X as [X|[X|[X|X]]]; try discriminate X; revert X; vm_compute; intuition congruence.
Qed.
Lemma number_isin v t : IsNumber v -> isin (filter_list v) (CStr t) = false.
Proof. intro N. rewrite filter_list_single by (apply number_single; exact N). destruct (number_want v N) as (q & ->). reflexivity. Qed.
Lemma combination_with fields n vals v : (forall m l, In (m, l) fields -> l <> []) -> In (n, vals) fields -> In v vals ->
  exists p, Combination fields p /\ In (n, v) (combine (map fst fields) p).
Proof.
  intros NE I V. induction fields as [|[m l] fields IH]; [destruct I|]. destruct I as [[= -> ->]|I].
  - assert (exists p, Combination fields p) as (p & C).
    { assert (forall m l, In (m, l) fields -> l <> []) as NE' by (intros m l J; apply (NE m l); right; exact J). clear - NE'. induction fields as [|[m l] fields IH]; [exists []; constructor|].
      destruct IH as (p & C); [intros m' l' J; apply (NE' m' l'); right; exact J|]. destruct l as [|x l]; [exfalso; apply (NE' m []); [left; reflexivity|reflexivity]|].
      exists (x :: p). constructor; [left; reflexivity|exact C]. }
    exists (v :: p). split; [constructor; [exact V|exact C]|left; reflexivity].
  - destruct (IH (fun m' l' J => NE m' l' (or_intror J)) I) as (p & C & J). destruct l as [|x l]; [exfalso; apply (NE m []); [left; reflexivity|reflexivity]|].
    exists (x :: p). split; [constructor; [left; reflexivity|exact C]|right; exact J].
Qed.
Lemma in_keys stats points s p : In s stats -> In p points -> In (s, p) (flat_map (fun s => map (fun p => (s, p)) points) stats : list (string * list string)).
Proof. intros A B. apply in_flat_map. exists s. split; [exact A|]. apply in_map. exact B. Qed.
Lemma fields_parts rq fields : ModeFields rq fields -> (forall n vals, In (n, vals) fields -> vals <> []) ->
  indy_vals rq <> [] /\ list_stat rq <> [] /\ (forall n vals, In (n, vals) (series_val rq) -> vals <> []).
Proof.
  intros (_ & ->) N. split; [apply (N (indy_var rq)); apply in_or_app; right; left; reflexivity|]. split; [apply (N "stat_name"); apply in_or_app; right; right; left; reflexivity|].
  intros n vals I. apply (N n). apply in_or_app. left. exact I.
Qed.
Lemma values_axis text calc bootstrap columns data rq out : data <> [] -> mode_values text calc bootstrap columns data rq no_series = Ok out ->
  In "fcst_valid" columns /\ In (indy_var rq) columns /\ mode_axis text calc bootstrap columns data rq = Ok out.
Proof.
  intros N H. unfold mode_values in H. destruct data as [|r data]; [contradiction|]. destruct (has_columns columns ["fcst_valid"; indy_var rq]) as [[]|] eqn:E; [|discriminate H].
  apply has_columns_iff in E. inversion E as [|? ? A E']; subst. inversion E' as [|? ? B _]; subst. split; [exact A|]. split; [exact B|]. cbn [bind] in H.
  match type of H with bind ?x _ = _ => destruct x as [o|]; [|discriminate H] end. exact H.
Qed.
(* ---------- samples ---------- *)
Lemma cases_in_ext s s' rows : (forall c, In c s <-> In c s') -> cases_in s rows = cases_in s' rows.
Proof. intro E. unfold cases_in. f_equal. apply filter_ext. intros [c r]. cbn [fst]. destruct (mem c s) eqn:A, (mem c s') eqn:B; try reflexivity; [apply mem_iff, E, mem_iff in A|apply mem_iff, E, mem_iff in B]; congruence. Qed.
Lemma samples_mapM (calc : string -> tdata -> res pyval) stat tagged : forall a b : list (list string), Forall2 (fun s s' => forall c, In c s <-> In c s') a b ->
  mapM (fun s => calc stat (cases_in s tagged) : res pyval) a = mapM (fun s => calc stat (cases_in s tagged)) b.
Proof. induction 1 as [|s s' a b E F IH]; [reflexivity|]. cbn [mapM]. rewrite (cases_in_ext s s' _ E), IH. reflexivity. Qed.
Section Samples.
Variables (text : string -> cell -> string) (calc : string -> tdata -> res pyval) (samples samples' : list string -> list (list string)) (method : ci_method) (columns : list string).
Hypothesis HS : forall cases, Forall2 (fun s s' => forall c, In c s <-> In c s') (samples cases) (samples' cases).
Lemma stats_samples indy stat rows cases : mode_stats text calc (Some (samples, method)) columns indy stat rows cases = mode_stats text calc (Some (samples', method)) columns indy stat rows cases.
Proof.
  unfold mode_stats. destruct (has_columns _ _); [|reflexivity]. cbn [bind]. destruct (sort_data _ _) as [sorted|]; [|reflexivity]. cbn [bind].
  destruct (mapM _ sorted) as [tagged|]; [|reflexivity]. cbn [bind]. f_equal. cbv zeta. match goal with |- bind ?x _ = _ => destruct x; [|reflexivity] end. cbn [bind].
  rewrite (samples_mapM calc stat tagged _ _ (HS cases)). reflexivity.
Qed.
Lemma all_samples rows rq var i cases : forall keys out, mode_all text calc (Some (samples, method)) columns rows rq var i cases keys out = mode_all text calc (Some (samples', method)) columns rows rq var i cases keys out.
Proof.
  induction keys as [|k keys IH]; intro out; [reflexivity|]. cbn [mode_all].
  assert (mode_one text calc (Some (samples, method)) columns rows rq var i cases k out = mode_one text calc (Some (samples', method)) columns rows rq var i cases k out) as ->.
  { unfold mode_one. destruct (mode_rows _ _ _ _ _); [|reflexivity]. cbn [bind]. rewrite stats_samples. reflexivity. }
  match goal with |- bind ?x _ = _ => destruct x; [|reflexivity] end. apply IH.
Qed.
Lemma indys_samples data rq var : forall indys cases out, mode_indys text calc (Some (samples, method)) columns data rq var indys cases out = mode_indys text calc (Some (samples', method)) columns data rq var indys cases out.
Proof.
  induction indys as [|i indys IH]; intros cases out; [reflexivity|]. cbn [mode_indys]. cbv zeta. destruct (point_data _ _ _); [|reflexivity]. cbn [bind].
  destruct (mode_cases _ _ _ _ _ _); [|reflexivity]. cbn [bind]. rewrite all_samples. match goal with |- bind ?x _ = _ => destruct x; [|reflexivity] end. apply IH.
Qed.
End Samples.
(* ---------- exceptions ---------- *)
Lemma get_some columns r n : length r = length columns -> In n columns -> exists c, get columns r n = Ok c.
Proof.
  intros L I. unfold get. destruct (index_of n columns) as [k|] eqn:E; [|apply index_of_None in E; contradiction].
  unfold cell_at. destruct (nth_error r k) as [c|] eqn:N; [exists c; reflexivity|]. exfalso. apply nth_error_None in N. apply index_of_lt in E. lia.
Qed.
Lemma mapM_ok {A B} (f : A -> res B) l : (forall x, In x l -> exists y, f x = Ok y) -> exists ys, mapM f l = Ok ys.
Proof.
  intro H. destruct (mapM f l) as [ys|e] eqn:E; [exists ys; reflexivity|]. apply mapM_error in E. destruct E as (x & I & X). destruct (H x I) as (y & Y). congruence.
Qed.
Lemma mode_rows_cases columns rows series p vars : Rectangular rows columns ->
  (exists pd, mode_rows columns rows series p vars = Ok pd /\ Rectangular pd columns /\ Forall (fun n => In n columns) (map fst series) /\ point_filters columns (map fst series) p vars <> [])
  \/ mode_rows columns rows series p vars = Err KeyError.
Proof.
  intro R. unfold mode_rows. destruct (has_columns_cases columns (map fst series)) as [E|E]; rewrite E; [|right; reflexivity]. cbn [bind].
  destruct (point_filters columns (map fst series) p vars) as [|f fs] eqn:F; [right; reflexivity|left]. rewrite <- F, point_data_value by (try exact R; rewrite F; discriminate). cbn [bind].
  rewrite map_snd_filter. eexists. split; [reflexivity|]. split; [apply rectangular_filter; exact R|]. split; [apply has_columns_iff; exact E|rewrite F; discriminate].
Qed.
Lemma mode_cases_cases text columns rows rq : Rectangular rows columns -> In "fcst_valid" columns -> In (indy_var rq) columns -> forall points cases,
  (exists c, mode_cases text columns rows rq points cases = Ok c) \/ mode_cases text columns rows rq points cases = Err KeyError.
Proof.
  intros R V I. induction points as [|p points IH]; intro cases; [left; eexists; reflexivity|]. cbn [mode_cases].
  destruct (mode_rows_cases columns rows (series_val rq) p (fcst_vars rq) R) as [(pd & -> & RP & _)| -> ]; [|right; reflexivity]. cbn [bind].
  destruct (mapM_ok (case_of text columns (indy_var rq)) pd) as (cs & ->); [|cbn [bind]; apply IH]. intros r Hr. unfold case_of.
  destruct (get_some columns r "fcst_valid" (RP r Hr) V) as (v & ->). cbn [bind]. destruct (get_some columns r (indy_var rq) (RP r Hr) I) as (c & ->). eexists. reflexivity.
Qed.
Lemma in_mask {A} : forall (bs : list bool) (l : list A) x, In x (mask bs l) -> In x l.
Proof.
  induction bs as [|b bs IH]; intros [|y l] x H; cbn in H; try (destruct b; destruct H; fail); try (destruct H; fail).
  destruct b; [destruct H as [H|H]; [left; exact H|]|]; right; apply IH; exact H.
Qed.
Lemma indy_data columns data indy w : Rectangular data columns -> In indy columns -> exists pd, point_data columns [(indy, w)] data = Ok pd /\ Rectangular (map snd pd) columns.
Proof.
  intros R I. unfold point_data. destruct (mapM_ok (passes columns [(indy, w)]) data) as (bs & ->).
  - intros r Hr. unfold passes. cbn [mapM fst snd]. destruct (get_some columns r indy (R r Hr) I) as (c & ->). eexists. reflexivity.
  - cbn [bind]. eexists. split; [reflexivity|]. intros r Hr. apply in_map_iff in Hr. destruct Hr as ([k x] & <- & J). apply in_mask in J. apply in_combine_r in J. apply R. exact J.
Qed.

Lemma mode_rows_impl fields (P Q : list string -> string -> string -> mode_row -> Prop) out : ModeRows fields P out ->
  (forall p i s o, Combination fields (p ++ [i; s]) -> P p i s o -> Q p i s o) -> ModeRows fields Q out.
Proof.
  unfold ModeRows. intros F K. assert (forall q, In q (combinations (map snd fields)) -> Combination fields q) as C by (intros q Hq; rewrite combinations_product in Hq; apply product_combination; exact Hq).
  induction F as [|q o qs out H F IH]; [constructor|]. constructor; [|apply IH; intros q' Hq; apply C; right; exact Hq].
  destruct H as (E & p & i & s & -> & H). split; [exact E|]. exists p, i, s. split; [reflexivity|]. apply K; [apply C; left; reflexivity|exact H].
Qed.
Lemma last_stat rq fields p i s : ModeFields rq fields -> Combination fields (p ++ [i; s]) -> In s (list_stat rq).
Proof.
  intros (_ & E) C. subst fields. change [(indy_var rq, indy_vals rq); ("stat_name", list_stat rq)] with ([(indy_var rq, indy_vals rq)] ++ [("stat_name", list_stat rq)])%list in C.
  change [i; s] with ([i] ++ [s])%list in C. rewrite !app_assoc in C. apply Forall2_app_inv_l in C. destruct C as (a & b & _ & B & E).
  inversion B as [|? y ? b' Hy B']; subst. inversion B'; subst. apply app_inj_tail in E. destruct E as (_ & ->). exact Hy.
Qed.
Lemma one_axis text calc bootstrap columns data rq fields stat out : Rectangular data columns -> ModeFields rq fields -> TextRequest rq -> list_stat rq = [stat] ->
  (fcst_vars rq = [] \/ ~ In "fcst_var" columns) -> In (indy_var rq) columns -> mode_axis text calc bootstrap columns data rq = Ok out ->
  ModeRows fields (fun p i s o => Filled text calc bootstrap columns data rq stat p i o) out.
Proof.
  intros R F T L V C H. pose proof (axis_rows text calc bootstrap columns data rq fields R F T C stat [] [] stat L L V out H) as K.
  eapply mode_rows_impl; [exact K|]. intros p i s o CC (A & _). apply A. pose proof (last_stat rq fields p i s F CC) as I. rewrite L in I. destruct I as [<-|[]]. reflexivity.
Qed.

(** The statements of PropertiesModeDrive.v. *)
Lemma C63_rows_proof : forall text calc bootstrap columns data rq1 rq2 fields1 fields2 stat1 stat2 output,
  Rectangular data columns ->
  let Good rq fields stat := ModeFields rq fields /\ TextRequest rq /\ list_stat rq = [stat] /\ (fcst_vars rq = [] \/ ~ In "fcst_var" columns) in
  Good rq1 fields1 stat1 -> (series_val rq2 <> [] -> Good rq2 fields2 stat2 /\ indy_var rq2 = indy_var rq1) ->
  mode_values text calc bootstrap columns data rq1 rq2 = Ok output ->
  (data = [] -> output = []) /\
  (data <> [] -> exists o1 o2, output = (o1 ++ o2)%list /\
     ModeRows fields1 (fun p i s o => Filled text calc bootstrap columns data rq1 stat1 p i o) o1 /\
     (series_val rq2 = [] -> o2 = []) /\
     (series_val rq2 <> [] -> ModeRows fields2 (fun p i s o => Filled text calc bootstrap columns data rq2 stat2 p i o) o2)).
Proof.
  intros text calc bootstrap columns data rq1 rq2 fields1 fields2 stat1 stat2 output R Good (F1 & T1 & L1 & V1) G2 H. split.
  - intros ->. injection H as <-. reflexivity.
  - intro N. unfold mode_values in H. destruct data as [|r data]; [contradiction|]. destruct (has_columns columns ["fcst_valid"; indy_var rq1]) as [[]|] eqn:E; [|discriminate H].
    apply has_columns_iff in E. inversion E as [|? ? A E']; subst. inversion E' as [|? ? B _]; subst. cbn [bind] in H.
    match type of H with bind ?x _ = _ => destruct x as [o1|] eqn:A1; [|discriminate H] end. cbn [bind] in H.
    pose proof (one_axis _ _ _ _ _ _ _ _ _ R F1 T1 L1 V1 B A1) as K1. destruct (series_val rq2) as [|sv l] eqn:E2.
    + injection H as <-. exists o1, []. rewrite app_nil_r. split; [reflexivity|]. split; [exact K1|]. split; [reflexivity|]. intro X. contradiction.
    + match type of H with bind ?x _ = _ => destruct x as [o2|] eqn:A2; [|discriminate H] end. injection H as <-. exists o1, o2. split; [reflexivity|]. split; [exact K1|]. split; [intro X; discriminate X|]. intros _.
      destruct G2 as ((F2 & T2 & L2 & V2) & I2); [discriminate|]. rewrite <- I2 in B. exact (one_axis _ _ _ _ _ _ _ _ _ R F2 T2 L2 V2 B A2).
Qed.

Lemma C63_rows_case_proof :
  let rq := mode_request ["A"; "B"] [] ["COUNT"] in
  let row m l n := ModeRow [("model", m); ("fcst_lead", l); ("stat_name", "COUNT")] None (Results None (Some (inject_Z (Z.of_nat n))) None) (Some n) in
  Rectangular mode_data mode_columns /\
  ModeFields rq [("model", ["A"; "B"]); ("fcst_lead", ["12"; "24"]); ("stat_name", ["COUNT"])] /\ TextRequest rq /\
  mode_values mode_text mode_count None mode_columns mode_data rq no_series =
    Ok [row "A" "12" 2; row "A" "24" 1; row "B" "12" 2; row "B" "24" 0]%nat.
Proof.
  assert (forall v, has_char ":" v = false -> has_char ";" v = false -> SingleValue v) as SV by (intros v A B; split; intro X; apply has_char_iff in X; congruence).
  assert (forall v s, want v = WText s -> ~ IsNumber v) as NN by (intros v s W N; apply number_want in N; destruct N as (q & N); congruence).
  cbv zeta. split; [|split; [|split]].
  - intros r H. repeat (destruct H as [<-|H]; [reflexivity|]). destruct H.
  - split; [|reflexivity]. repeat constructor; cbn; intuition discriminate.
  - split; [|split; [|split]].
    + intros n vals [[= <- <-]|[]]. split; [repeat constructor; cbn; intuition discriminate|]. intros v [<-|[<-|[]]]; (split; [apply SV; reflexivity|eapply NN; vm_compute; reflexivity]).
    + repeat constructor; cbn; intuition discriminate.
    + intros v [<-|[<-|[]]]; apply SV; reflexivity.
    + repeat constructor; cbn; intuition discriminate.
  - vm_compute. reflexivity.
Qed.

Lemma C63_statistics_refuted_proof : forall text calc bootstrap columns data rq fields first middle lst output,
  Rectangular data columns -> ModeFields rq fields -> TextRequest rq -> list_stat rq = (first :: middle ++ [lst])%list ->
  (fcst_vars rq = [] \/ ~ In "fcst_var" columns) -> data <> [] ->
  mode_values text calc bootstrap columns data rq no_series = Ok output ->
  ModeRows fields (fun p i s o => (s = first -> Filled text calc bootstrap columns data rq lst p i o) /\ (s <> first -> Unfilled o)) output.
Proof.
  intros text calc bootstrap columns data rq fields first middle lst output R F T L V N H. destruct (values_axis _ _ _ _ _ _ _ N H) as (_ & C & A).
  exact (axis_rows text calc bootstrap columns data rq fields R F T C first (middle ++ [lst]) (first :: middle) lst L L V output A).
Qed.

Lemma C63_statistics_case_proof :
  let rq := mode_request ["A"] [] ["COUNT"; "OTHER"] in
  ModeFields rq [("model", ["A"]); ("fcst_lead", ["12"; "24"]); ("stat_name", ["COUNT"; "OTHER"])] /\ TextRequest rq /\
  exists output, mode_values mode_text mode_count None mode_columns mode_data rq no_series = Ok output.
Proof.
  assert (forall v, has_char ":" v = false -> has_char ";" v = false -> SingleValue v) as SV by (intros v A B; split; intro X; apply has_char_iff in X; congruence).
  assert (forall v s, want v = WText s -> ~ IsNumber v) as NN by (intros v s W N; apply number_want in N; destruct N as (q & N); congruence).
  cbv zeta. split; [|split].
  - split; [|reflexivity]. repeat constructor; cbn; intuition discriminate.
  - split; [|split; [|split]].
    + intros n vals [[= <- <-]|[]]. split; [repeat constructor; cbn; intuition discriminate|]. intros v [<-|[]]; (split; [apply SV; reflexivity|eapply NN; vm_compute; reflexivity]).
    + repeat constructor; cbn; intuition discriminate.
    + intros v [<-|[<-|[]]]; apply SV; reflexivity.
    + repeat constructor; cbn; intuition discriminate.
  - eexists. vm_compute. reflexivity.
Qed.

Lemma C63_numbers_refuted_proof : forall text calc bootstrap columns data rq fields n vals v output,
  Rectangular data columns -> data <> [] -> ModeFields rq fields -> (forall n vals, In (n, vals) fields -> vals <> []) ->
  In (n, vals) (series_val rq) -> In v vals -> IsNumber v ->
  mode_values text calc bootstrap columns data rq no_series <> Ok output.
Proof.
  intros text calc bootstrap columns data rq fields n vals v output R N F NE I V NV H. destruct (values_axis _ _ _ _ _ _ _ N H) as (_ & C & A).
  destruct (fields_parts rq fields F NE) as (NI & NS & NP). unfold mode_axis in A. cbv zeta in A. destruct (indy_vals rq) as [|i indys] eqn:EI; [contradiction|]. cbn [mode_indys] in A.
  destruct (point_data columns [(indy_var rq, [want i])] data) as [pd|]; [|discriminate A]. cbn [bind] in A.
  destruct (mode_cases text columns (map snd pd) rq (product (map snd (series_val rq))) []) as [cases|]; [|discriminate A]. cbn [bind] in A.
  match type of A with bind ?x _ = _ => destruct x as [out1|] eqn:E; [|discriminate A] end.
  destruct (list_stat rq) as [|s ss] eqn:ES; [contradiction|]. destruct (combination_with (series_val rq) n vals v NP I V) as (p & CP & J).
  destruct (mode_all_each _ _ _ _ _ _ _ _ _ _ _ _ (s, p) E) as (o & T); [apply in_keys; [left; reflexivity|apply product_combination; exact CP]|].
  unfold mode_test in T. apply Bool.andb_true_iff in T. destruct T as (T & _). rewrite forallb_forall in T. specialize (T (n, v) J). cbn [fst snd] in T.
  destruct (AggModel.assoc n (mode_point o)) as [t|]; [|discriminate T]. rewrite number_isin in T by exact NV. discriminate T.
Qed.

Lemma C63_numbers_case_proof :
  let rq := Request [("object_id", ["3"; "7"])] "fcst_lead" ["12"] ["COUNT"] [] [] in
  ModeFields rq [("object_id", ["3"; "7"]); ("fcst_lead", ["12"]); ("stat_name", ["COUNT"])] /\ IsNumber "7" /\
  mode_values mode_text mode_count None mode_columns mode_data rq no_series = Err IndexError.
Proof.
  cbv zeta. split; [|split].
  - split; [|reflexivity]. repeat constructor; cbn; intuition discriminate.
  - left. exists 7%Z. apply parse_int_iff. vm_compute. reflexivity.
  - vm_compute. reflexivity.
Qed.

Lemma C63_groups_refuted_proof :
  let row m l n := ModeRow [("model", m); ("fcst_lead", l); ("stat_name", "COUNT")] None (Results None (Some (inject_Z (Z.of_nat n))) None) (Some n) in
  let empty m l := ModeRow [("model", m); ("fcst_lead", l); ("stat_name", "COUNT")] None NoResult None in
  mode_values mode_text mode_count None mode_columns mode_data (mode_request ["A"; "A:B"] [] ["COUNT"]) no_series =
    Ok [row "A" "12" 4; row "A" "24" 1; empty "A:B" "12"; empty "A:B" "24"]%nat /\
  mode_values mode_text mode_count None mode_columns mode_data (mode_request ["A:B"] [] ["COUNT"]) no_series = Err IndexError.
Proof.
  cbv zeta. split; vm_compute; reflexivity.
Qed.

Lemma C63_variable_refuted_proof :
  let row m l n k := ModeRow [("model", m); ("fcst_lead", l); ("stat_name", "COUNT")] (Some "HGT") (Results None (Some (inject_Z (Z.of_nat n))) None) (Some k) in
  mode_values mode_text mode_count None mode_columns mode_data (mode_request ["A"; "B"] ["HGT"] ["COUNT"]) no_series =
    Ok [row "A" "12" 1 2; row "A" "24" 0 1; row "B" "12" 1 2; row "B" "24" 0 0]%nat.
Proof.
  cbv zeta. vm_compute. reflexivity.
Qed.

Lemma C63_samples_refuted_proof : forall text calc samples samples' method columns data rq1 rq2,
  (forall cases, Forall2 (fun s s' => forall c : string, In c s <-> In c s') (samples cases) (samples' cases)) ->
  mode_values text calc (Some (samples, method)) columns data rq1 rq2 = mode_values text calc (Some (samples', method)) columns data rq1 rq2.
Proof.
  intros text calc samples samples' method columns data rq1 rq2 HS.
  assert (forall rq, mode_axis text calc (Some (samples, method)) columns data rq = mode_axis text calc (Some (samples', method)) columns data rq) as K by (intro rq; unfold mode_axis; apply (indys_samples text calc samples samples' method columns HS)).
  unfold mode_values. destruct data as [|r data]; [reflexivity|]. rewrite !K. reflexivity.
Qed.

Lemma C63_samples_case_proof :
  let draws cases := match cases with a :: _ => [[a; a]] | [] => [[]] end in
  let once cases := match cases with a :: _ => [[a]] | [] => [[]] end in
  (forall cases, Forall2 (fun s s' => forall c : string, In c s <-> In c s') (draws cases) (once cases)).
Proof.
  cbv zeta. intros [|a cases]; (constructor; [intro c; cbn; tauto|constructor]).
Qed.

Lemma C63_exceptions_proof : forall text calc bootstrap columns data rq fields,
  mode_values text calc bootstrap columns [] rq no_series = Ok [] /\
  (Rectangular data columns -> data <> [] -> ModeFields rq fields -> (forall n vals, In (n, vals) fields -> vals <> []) ->
   (~ In "fcst_valid" columns \/ ~ In (indy_var rq) columns \/ (exists n, In n (map fst (series_val rq)) /\ ~ In n columns) \/
    series_val rq = [] \/ ~ In "fcst_lead" columns) ->
   mode_values text calc bootstrap columns data rq no_series = Err KeyError).
Proof.
  intros text calc bootstrap columns data rq fields. split; [reflexivity|]. intros R N F NE D. destruct (fields_parts rq fields F NE) as (NI & NS & NP).
  unfold mode_values. destruct data as [|r0 data0] eqn:ED; [contradiction|]. rewrite <- ED in *. clear r0 data0 ED.
  destruct (has_columns_cases columns ["fcst_valid"; indy_var rq]) as [E|E]; rewrite E; [|reflexivity]. cbn [bind].
  apply has_columns_iff in E. inversion E as [|? ? A E']; subst. inversion E' as [|? ? B _]; subst. clear E E'.
  enough (mode_axis text calc bootstrap columns data rq = Err KeyError) as -> by reflexivity.
  unfold mode_axis. cbv zeta. destruct (indy_vals rq) as [|i indys] eqn:EI; [contradiction|]. cbn [mode_indys].
  destruct (indy_data columns data (indy_var rq) [want i] R B) as (pd & -> & RP). cbn [bind].
  destruct (mode_cases_cases text columns (map snd pd) rq RP A B (product (map snd (series_val rq))) []) as [(cases & ->)|X]; [|rewrite X; reflexivity]. cbn [bind].
  match goal with |- bind ?x _ = _ => enough (x = Err KeyError) as -> by reflexivity end.
  destruct (list_stat rq) as [|s ss] eqn:ES; [contradiction|].
  assert (exists p ps, product (map snd (series_val rq)) = p :: ps) as (p & ps & EP).
  { destruct (product (map snd (series_val rq))) as [|p ps] eqn:EP; [|eexists; eexists; reflexivity]. exfalso. assert (exists q, Combination (series_val rq) q) as (q & CQ).
    { clear - NP. induction (series_val rq) as [|[m l] fs IH]; [exists []; constructor|]. destruct IH as (q & CQ); [intros m' l' J; apply (NP m' l'); right; exact J|].
      destruct l as [|x l]; [exfalso; apply (NP m []); [left; reflexivity|reflexivity]|]. exists (x :: q). constructor; [left; reflexivity|exact CQ]. }
    apply product_combination in CQ. rewrite EP in CQ. destruct CQ. }
  rewrite EP. cbn [flat_map map app mode_all]. match goal with |- bind ?x _ = _ => enough (x = Err KeyError) as -> by reflexivity end.
  unfold mode_one. cbn [fst snd]. destruct (mode_rows_cases columns (map snd pd) (series_val rq) p [] RP) as [(pd' & -> & RP' & FA & PN)|X]; [|rewrite X; reflexivity]. cbn [bind].
  rewrite Forall_forall in FA. destruct D as [D|[D|[(n & I & D)|[D|D]]]]; [contradiction|contradiction|exfalso; apply D; apply FA; exact I| |].
  - exfalso. apply PN. rewrite D. reflexivity.
  - unfold mode_stats. destruct (has_columns_cases columns (sort_fields columns)) as [E|E]; [|rewrite E; reflexivity]. exfalso. apply has_columns_iff in E. rewrite Forall_forall in E.
    apply D. apply E. unfold sort_fields. apply in_or_app. left. right. left. reflexivity.
Qed.

