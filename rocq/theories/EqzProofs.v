(** Proofs about the drivers of event equalization. *)
From Coq Require Import Ascii Permutation.
From Verif Require Import PyBase ColumnModel BaseSpec BaseProofs AggModel EventModel EventSpec EventProofs RocModel RocProofs EqzModel EqzSpec.
From Coq Require Import List Lia.
Open Scope string_scope.

(* ---------- filters ---------- *)
Definition testat (i : nat) (test : cell -> bool) (r : row) : bool :=
  match nth_error r i with Some c => test c | None => false end.
Lemma mask_map {A} (b : A -> bool) l : mask (map b l) l = filter b l.
Proof. induction l as [|x l IH]; simpl; [reflexivity|]. destruct (b x); rewrite IH; reflexivity. Qed.
Lemma filter_column_value columns name test data i : index_of name columns = Some i ->
  (forall r, In r data -> length r = length columns) ->
  filter_column columns name test data = Ok (filter (testat i test) data).
Proof.
  intros H L. unfold filter_column. rewrite H.
  rewrite (mapM_map _ (testat i test)); [cbn [bind]; rewrite mask_map; reflexivity|].
  intros r Hr. unfold cell_at, testat. destruct (nth_error r i) eqn:E; [reflexivity|].
  exfalso. apply nth_error_None in E. rewrite (L r Hr) in E. pose proof (index_of_lt _ _ _ H). lia.
Qed.
(** The test that belongs to a filter, whether or not the column is there. *)
Definition ptest (columns : list string) (name : string) (test : cell -> bool) (r : row) : bool :=
  match index_of name columns with Some i => testat i test r | None => true end.
Lemma filter_true {A} (l : list A) : filter (fun _ => true) l = l.
Proof. induction l as [|x l IH]; simpl; [reflexivity|]. rewrite IH. reflexivity. Qed.
Lemma filter_present columns name test data : (forall r, In r data -> length r = length columns) ->
  filter_if_present columns name test data = Ok (filter (ptest columns name test) data).
Proof.
  intro L. unfold filter_if_present, ptest. destruct (mem name columns) eqn:M.
  - apply mem_iff in M. destruct (in_index _ _ M) as [i E]. rewrite E. apply filter_column_value; assumption.
  - apply mem_false in M. rewrite (not_in_index _ _ M). rewrite filter_true. reflexivity.
Qed.
Lemma filter_width {A} (b : A -> bool) (P : A -> Prop) l : (forall x, In x l -> P x) -> forall x, In x (filter b l) -> P x.
Proof. intros H x Hx. apply filter_In in Hx. apply H, Hx. Qed.
Lemma filter_filter {A} (a b : A -> bool) l : filter a (filter b l) = filter (fun x => b x && a x) l.
Proof. induction l as [|x l IH]; simpl; [reflexivity|]. destruct (b x); simpl; [destruct (a x)|]; rewrite IH; reflexivity. Qed.

Definition stest columns var values fv st (r : row) : bool :=
  ptest columns var (isin_text values) r && ptest columns "fcst_var" (equals_text fv) r && ptest columns "stat_name" (equals_text st) r.
Lemma series_turn columns data sv vals fv st : (forall r, In r data -> length r = length columns) ->
  (d1 <- filter_if_present columns sv (isin_text (flat_map ungroup vals)) data ;;
   d2 <- filter_if_present columns "fcst_var" (equals_text fv) d1 ;;
   filter_if_present columns "stat_name" (equals_text st) d2)
  = Ok (filter (stest columns sv (flat_map ungroup vals) fv st) data).
Proof.
  intro L. rewrite (filter_present _ _ _ _ L). cbn [bind].
  rewrite filter_present by (apply filter_width; exact L). cbn [bind].
  rewrite filter_present by (apply filter_width; apply filter_width; exact L).
  rewrite !filter_filter. f_equal. apply filter_ext. intro r. unfold stest.
  destruct (ptest columns sv _ r); reflexivity.
Qed.
Lemma filter_series_value columns data fv st before var groups : (forall r, In r data -> length r = length columns) ->
  forall current, filter_series (columns, data) fv st (before ++ [(var, groups)])%list current
    = Ok (filter (stest columns var (flat_map ungroup groups) fv st) data).
Proof.
  intro L. induction before as [|[v g] before IH]; intro current; cbn [app filter_series fst snd].
  - pose proof (series_turn columns data var groups fv st L) as E.
    destruct (filter_if_present columns var _ data) as [d1|]; [|discriminate E]. cbn [bind] in *.
    destruct (filter_if_present columns "fcst_var" _ d1) as [d2|]; [|discriminate E]. cbn [bind] in *.
    rewrite E. reflexivity.
  - pose proof (series_turn columns data v g fv st L) as E.
    destruct (filter_if_present columns v _ data) as [d1|]; [|discriminate E]. cbn [bind] in *.
    destruct (filter_if_present columns "fcst_var" _ d1) as [d2|]; [|discriminate E]. cbn [bind] in *.
    rewrite E. cbn [bind]. apply IH.
Qed.
Lemma ptest_iff columns name test (P : cell -> Prop) r : length r = length columns ->
  (forall c, test c = true <-> P c) ->
  (ptest columns name test r = true <-> forall c, CellOf columns r name c -> P c).
Proof.
  intros L H. unfold ptest. destruct (index_of name columns) as [i|] eqn:E.
  - unfold testat. destruct (nth_error r i) as [c|] eqn:En.
    + rewrite H. split; [intros K c' C; apply (cellof_nth _ _ i) in C; [|exact E]; congruence|].
      intro K. apply K. apply (nth_cellof _ _ i); assumption.
    + exfalso. apply nth_error_None in En. rewrite L in En. pose proof (index_of_lt _ _ _ E). lia.
  - split; [|reflexivity]. intros _ c (i & C & _). apply index_of_ColumnAt in C. congruence.
Qed.
Lemma isin_iff values c : isin_text values c = true <-> exists s, c = CStr s /\ In s values.
Proof.
  destruct c as [q| |s]; simpl; try (split; [discriminate|intros (s & E & _); discriminate E]).
  rewrite mem_iff. split; [eauto|]. intros (s' & E & H). injection E as ->. exact H.
Qed.
Lemma equals_iff v c : equals_text v c = true <-> c = CStr v.
Proof.
  destruct c as [q| |s]; simpl; try (split; discriminate). rewrite String.eqb_eq. split; [intros ->; reflexivity|intro H; injection H as ->; reflexivity].
Qed.
Lemma listed_iff columns var values r : length r = length columns ->
  (ptest columns var (isin_text values) r = true <-> Listed columns var values r).
Proof. intro L. apply (ptest_iff _ _ _ (fun c => exists s, c = CStr s /\ In s values)); [exact L|]. intro c. apply isin_iff. Qed.
Lemma stest_iff columns var values fv st r : length r = length columns ->
  (stest columns var values fv st r = true <-> Listed columns var values r /\ OfStatistic columns (fv, st) r).
Proof.
  intro L. unfold stest, OfStatistic. rewrite !andb_true_iff. rewrite (listed_iff _ _ _ _ L).
  rewrite (ptest_iff _ _ _ (fun c => c = CStr fv) _ L (equals_iff fv)).
  rewrite (ptest_iff _ _ _ (fun c => c = CStr st) _ L (equals_iff st)). cbn [fst snd]. tauto.
Qed.

(* ---------- one equalization ---------- *)
Lemma members_value groups values : Members groups values -> flat_map ungroup groups = values.
Proof. intros (ls & F & ->). apply ungroup_groups. exact F. Qed.
Lemma with_keys_new columns rows : ~ In "equalize" columns ->
  with_keys columns rows = ((columns ++ ["equalize"])%list, with_key rows).
Proof.
  intro H. apply not_in_index in H. unfold with_keys, add_column, set_cell, with_key. rewrite H. reflexivity.
Qed.
Lemma drop_last {A} (l : list A) x : drop_nth (length l) (l ++ [x]) = l.
Proof. induction l as [|a l IH]; simpl; [reflexivity|]. rewrite IH. reflexivity. Qed.
Lemma drop_new columns rows : ~ In "equalize" columns -> (forall kr, In kr rows -> length (snd kr) = length columns) ->
  drop_equalize ((columns ++ ["equalize"])%list, with_key rows) = Ok (columns, map snd rows).
Proof.
  intros H L. unfold drop_equalize. cbn [fst snd]. rewrite index_app by (apply not_in_index; exact H). rewrite String.eqb_refl.
  rewrite drop_last. do 2 f_equal. unfold with_key. rewrite map_map. apply map_ext_in. intros kr Hk.
  rewrite <- (L kr Hk). apply drop_last.
Qed.

Section One.
Variables (show : Q -> string) (columns : list string) (indy : string) (series fixed : list (string * list string)).
Variables (kc : list string) (vars : list (string * list string)).
Hypothesis NE : ~ In "equalize" columns.
Hypothesis ND : NoDup (map fst series ++ map fst fixed).
Hypothesis HK : KeyColumns columns true indy kc.
Hypothesis HV : Variables series fixed vars.
Hypothesis HN : forall n, In n (map fst vars) -> In n columns.

Definition Kept (data : tdata) (rows kept : list (string * row)) : Prop :=
  Keyed show columns kc data rows /\ Selection (fun kr => Common columns vars rows (fst kr)) rows kept.

Lemma equalize_frame_value data : Rectangular data columns ->
  exists rows kept, Kept data rows kept /\
    equalize_frame show (columns, data) indy series (map fst fixed) (map snd fixed)
      = Ok (((columns ++ ["equalize"])%list, with_key rows), ((columns ++ ["equalize"])%list, with_key kept)).
Proof.
  intro W. pose proof HK as HK'. destruct HK' as [base [_ [_ HC]]].
  destruct (keys_value show columns kc data HC W) as [keys [E K]].
  destruct (event_equalize_spec show data columns indy series fixed true kc vars _ W ND HK HV HN K) as [kept [Ek S]].
  exists (combine keys data), kept. split; [split; assumption|].
  unfold equalize_frame. cbn [fst snd]. rewrite Ek. cbn [bind]. rewrite (key_columns_value _ _ _ _ HK). cbn [bind].
  rewrite E. cbn [bind]. rewrite !with_keys_new by exact NE. reflexivity.
Qed.
Lemma kept_width data rows kept : Rectangular data columns -> Kept data rows kept ->
  forall kr, In kr kept -> length (snd kr) = length columns.
Proof.
  intros W [K S] kr H. apply (selection_in _ _ _ _ S) in H. eapply keyed_width; [exact K|exact W|apply H].
Qed.
Lemma kept_equalized data rows kept : Kept data rows kept -> Equalized show columns kc vars data (map snd kept).
Proof. intros [K S]. exists rows, kept. auto. Qed.
Lemma kept_keys data rows kept : Kept data rows kept -> WithKeys show columns kc (map snd kept) (with_key kept).
Proof.
  intros [K S]. assert (forall kr, In kr kept -> EventKey show columns kc (snd kr) (fst kr)) as H.
  { intros kr Hk. apply (selection_in _ _ _ _ S) in Hk. eapply keyed_in; [exact K|apply Hk]. }
  clear K S. induction kept as [|kr kept IH]; [constructor|]. cbn [map with_key]. constructor.
  - exists (fst kr). split; [apply H; left; reflexivity|reflexivity].
  - apply IH. intros; apply H; right; assumption.
Qed.

Lemma with_key_app a b : with_key (a ++ b) = (with_key a ++ with_key b)%list.
Proof. unfold with_key. apply map_app. Qed.
Notation CE := (columns ++ ["equalize"])%list.
Definition Acc (acc : list (string * row)) (output : option (list string * tdata)) : Prop :=
  (output = None /\ acc = []) \/ output = Some (CE, with_key acc).
Lemma append_part acc output kept : Acc acc output ->
  (match output with
   | Some (c, (_ :: _) as d) => concat_frames output (Some (CE, with_key kept))
   | _ => Ok (Some (CE, with_key kept))
   end) = Ok (Some (CE, with_key (acc ++ kept))).
Proof.
  intros [[-> ->]| ->]; [reflexivity|]. rewrite with_key_app. destruct (with_key acc) as [|r l]; [reflexivity|].
  cbn [concat_frames]. destruct (list_eq_dec string_dec CE CE) as [_|N]; [reflexivity|contradiction].
Qed.
Lemma append_part' {X} acc output kept (i : X) : Acc acc output ->
  (match output with
   | Some (c, (_ :: _) as d) => out <- concat_frames output (Some (CE, with_key kept)) ;; Ok (i, out)
   | _ => Ok (i, Some (CE, with_key kept))
   end) = Ok (i, Some (CE, with_key (acc ++ kept))).
Proof.
  intros [[-> ->]| ->]; [reflexivity|]. rewrite with_key_app. destruct (with_key acc) as [|r l]; [reflexivity|].
  cbn [concat_frames]. destruct (list_eq_dec string_dec CE CE) as [_|N]; [reflexivity|contradiction].
Qed.

Section Axis.
Variables (data : tdata) (before : list (string * list string)) (var : string) (groups values : list string).
Hypothesis W : Rectangular data columns.
Hypothesis HS : series = (before ++ [(var, groups)])%list.
Hypothesis HM : Members groups values.
Definition OnePart (vs : string * string) (kept : list (string * row)) : Prop :=
  exists sub rows, Selection (fun r => Listed columns var values r /\ OfStatistic columns vs r) data sub /\ Kept sub rows kept.
Lemma filter_rect (b : row -> bool) : Rectangular (filter b data) columns.
Proof. intros r Hr. apply filter_In in Hr. apply W, Hr. Qed.
Lemma statistic_value fv st acc output : Acc acc output ->
  exists kept, OnePart (fv, st) kept /\
    equalize_statistic show indy series (map fst fixed) (map snd fixed) fv st (columns, data) output
      = Ok ((columns, data), Some (CE, with_key (acc ++ kept))).
Proof.
  intro HA. destruct (equalize_frame_value (filter (stest columns var values fv st) data) (filter_rect _)) as (rows & kept & K & E).
  exists kept. split.
  - exists (filter (stest columns var values fv st) data), rows. split; [|exact K].
    apply selection_filter. intros r Hr. apply stest_iff. apply W, Hr.
  - unfold equalize_statistic.
    assert (forall (X : Type) (a b : X), match series with [] => a | _ :: _ => b end = b) as NN.
    { intros. rewrite HS. destruct before; reflexivity. }
    rewrite NN. rewrite HS at 1. rewrite (filter_series_value columns data fv st before var groups W).
    rewrite (members_value _ _ HM). cbn [bind fst]. rewrite E. cbn [bind snd]. apply append_part'. exact HA.
Qed.
Lemma statistics_value sts : forall acc output, Acc acc output ->
  exists parts, Forall2 OnePart sts parts /\
    equalize_statistics show indy series (map fst fixed) (map snd fixed) sts (columns, data) output
      = Ok ((columns, data), match sts with [] => output | _ => Some (CE, with_key (acc ++ concat parts)) end).
Proof.
  induction sts as [|[fv st] sts IH]; intros acc output HA.
  - exists []. split; [constructor|reflexivity].
  - destruct (statistic_value fv st acc output HA) as (kept & P & E).
    destruct (IH (acc ++ kept)%list (Some (CE, with_key (acc ++ kept)))) as (parts & F & E'); [right; reflexivity|].
    exists (kept :: parts). split; [constructor; assumption|]. cbn [equalize_statistics]. rewrite E. cbn [bind fst snd].
    rewrite E'. cbn [concat]. rewrite app_assoc. destruct sts; [|reflexivity]. inversion F; subst. cbn [concat].
    rewrite app_nil_r. reflexivity.
Qed.
Lemma parts_width sts parts : Forall2 OnePart sts parts -> forall kr, In kr (concat parts) -> length (snd kr) = length columns.
Proof.
  induction 1 as [|vs kept sts parts (sub & rows & S & K) F IH]; intros kr Hk; [destruct Hk|].
  cbn [concat] in Hk. apply in_app_or in Hk. destruct Hk as [Hk|Hk]; [|auto].
  eapply kept_width; [|exact K|exact Hk]. intros r Hr. apply (selection_in _ _ _ _ S) in Hr. apply W, Hr.
Qed.
Lemma axis_value fcst_vars : exists parts, Forall2 OnePart (axis_pairs fcst_vars) parts /\
  equalize_axis_data show (map fst fixed) (map snd fixed) indy (Some (Some fcst_vars)) series (columns, data)
    = Ok ((columns, data), match axis_pairs fcst_vars with [] => None | _ => Some (columns, map snd (concat parts)) end).
Proof.
  assert (statistics (axis_variables (Some (Some fcst_vars))) = axis_pairs fcst_vars) as ES.
  { unfold statistics, axis_pairs, axis_variables. apply flat_map_concat_map. }
  destruct (statistics_value (axis_pairs fcst_vars) [] None) as (parts & F & E); [left; auto|].
  exists parts. split; [exact F|]. unfold equalize_axis_data. rewrite ES, E. cbn [bind snd].
  destruct (axis_pairs fcst_vars) as [|vs sts] eqn:EP; [reflexivity|]. cbn [app].
  rewrite (drop_new columns (concat parts) NE (parts_width _ _ F)). reflexivity.
Qed.
End Axis.
End One.

(* ---------- variables ---------- *)
Definition gmap (nv : string * list string) : string * list string := (fst nv, flat_map ungroup (snd nv)).
Lemma variables_inv series fixed vars : Variables series fixed vars ->
  (forall n vals v, In (n, vals) series -> In v vals -> exists l, Group v l) /\
  vars = filter not_time (map gmap series ++ fixed).
Proof.
  intros (series' & F & S). split.
  - clear S. induction F as [|nv nv' s s' (E & ls & G & E') F IH]; intros n vals v Hin Hv; [destruct Hin|].
    destruct Hin as [->|Hin]; [|eapply IH; eassumption]. clear -G Hv. cbn [snd] in G.
    induction G as [|x l vals ls g G IH]; [destruct Hv|]. destruct Hv as [<-|Hv]; eauto.
  - assert (series' = map gmap series) as ->.
    { clear S. induction F as [|[n vals] [n' vals'] s s' (E & ls & G & E') F IH]; [reflexivity|]. cbn [map fst snd] in *.
      rewrite <- IH. f_equal. unfold gmap. cbn [fst snd]. rewrite (ungroup_groups _ _ G), E, E'. reflexivity. }
    eapply selection_unique; [exact S|apply selection_filter; intros; apply not_time_iff|]. intros; reflexivity.
Qed.
Lemma groups_exist vals : (forall v, In v vals -> exists l, Group v l) -> exists ls, Forall2 Group vals ls.
Proof.
  induction vals as [|v vals IH]; intro H; [exists []; constructor|].
  destruct (H v (or_introl eq_refl)) as [l G]. destruct IH as [ls F]; [intros; apply H; right; assumption|].
  exists (l :: ls). constructor; assumption.
Qed.
Lemma variables_make series fixed : (forall n vals v, In (n, vals) series -> In v vals -> exists l, Group v l) ->
  Variables series fixed (filter not_time (map gmap series ++ fixed)).
Proof.
  intro H. exists (map gmap series). split.
  - induction series as [|[n vals] series IH]; [constructor|]. cbn [map]. constructor.
    + split; [reflexivity|]. destruct (groups_exist vals) as [ls F].
      { intros v Hv. apply (H n vals); [left; reflexivity|exact Hv]. }
      exists ls. split; [exact F|]. cbn [gmap snd]. apply ungroup_groups. exact F.
    + apply IH. intros; eapply H; [right; eassumption|assumption].
  - apply selection_filter. intros; apply not_time_iff.
Qed.
Lemma variables_members series fixed vars n vals : Variables series fixed vars -> In (n, vals) series -> exists values, Members vals values.
Proof.
  intros V H. apply variables_inv in V. destruct V as [V _]. destruct (groups_exist vals) as [ls F].
  { intros v Hv. eapply V; eassumption. }
  exists (concat ls), ls. auto.
Qed.
Definition SameValues (a b : string * list string) : Prop := fst a = fst b /\ forall v, In v (snd a) <-> In v (snd b).
Lemma perm_filter {A} (b : A -> bool) l l' : Permutation l l' -> Permutation (filter b l) (filter b l').
Proof.
  induction 1; simpl; [constructor|destruct (b x); [constructor|]; assumption| |etransitivity; eassumption].
  destruct (b x), (b y); try reflexivity. apply perm_swap.
Qed.
Lemma same_filter l l' : Forall2 SameValues l l' -> Forall2 SameValues (filter not_time l) (filter not_time l').
Proof.
  induction 1 as [|a b l l' [E S] F IH]; cbn [filter]; [constructor|].
  assert (not_time a = not_time b) as -> by (unfold not_time; rewrite E; reflexivity).
  destruct (not_time b); [constructor; [split|]|]; assumption.
Qed.
Lemma same_refl l : Forall2 SameValues l l.
Proof. induction l; constructor; [split; [reflexivity|tauto]|assumption]. Qed.
Lemma same_names l l' : Forall2 SameValues l l' -> map fst l = map fst l'.
Proof. induction 1 as [|a b l l' [E _] F IH]; [reflexivity|]. cbn. rewrite E, IH. reflexivity. Qed.
Lemma variables_same m m' m2 fixed vars : Variables m fixed vars -> Permutation m m' -> Forall2 SameValues m' m2 ->
  exists vars', Variables m2 fixed vars' /\ SameVariables vars vars'.
Proof.
  intros V P F. apply variables_inv in V. destruct V as [G ->].
  exists (filter not_time (map gmap m2 ++ fixed)). split.
  - apply variables_make.
    assert (forall n vals v, In (n, vals) m' -> In v vals -> exists l, Group v l) as G'.
    { intros n vals v H. eapply G. eapply Permutation_in; [symmetry; exact P|exact H]. }
    clear G P. induction F as [|[a va] [b vb] m' m2 [E S] F IH]; intros n vals v Hin Hv; [destruct Hin|].
    destruct Hin as [Hin|Hin].
    + injection Hin as E1 E2. cbn [snd] in S. eapply (G' a va); [left; reflexivity|]. apply S. rewrite E2. exact Hv.
    + eapply IH; [|exact Hin|exact Hv]. intros; eapply G'; [right; eassumption|assumption].
  - exists (filter not_time (map gmap m' ++ fixed)). split.
    + apply perm_filter, Permutation_app_tail, Permutation_map, P.
    + apply same_filter. apply Forall2_app; [|apply same_refl]. clear -F.
      induction F as [|[a va] [b vb] m' m2 [E S] F IH]; [constructor|]. constructor; [|exact IH].
      split; [exact E|]. cbn [gmap snd fst] in *. intro v. rewrite !in_flat_map.
      split; intros (x & Hx & Hv); exists x; (split; [apply S; exact Hx|exact Hv]).
Qed.
Lemma same_vars_names vars vars' n : SameVariables vars vars' -> In n (map fst vars') -> In n (map fst vars).
Proof.
  intros (mid & P & F) H. apply (Permutation_in n (Permutation_map fst (Permutation_sym P))).
  rewrite (same_names _ _ F). exact H.
Qed.
Lemma selection_ext {A} (P P' : A -> Prop) l o : Selection P l o -> (forall x, In x l -> P x <-> P' x) -> Selection P' l o.
Proof.
  induction 1 as [|x l o Px S IH|x l o Px S IH]; intro H.
  - constructor.
  - constructor; [apply (H x); [left; reflexivity|exact Px]|apply IH; intros; apply H; right; assumption].
  - apply sel_drop; [intro C; apply Px; apply (H x); [left; reflexivity|exact C]|apply IH; intros; apply H; right; assumption].
Qed.
Lemma kept_same show columns kc vars vars' data rows kept : SameVariables vars vars' ->
  Kept show columns kc vars' data rows kept -> Kept show columns kc vars data rows kept.
Proof.
  intros S [K H]. split; [exact K|]. eapply selection_ext; [exact H|].
  intros x Hx. split; apply common_same; [apply same_sym|]; exact S.
Qed.

(* ---------- balance ---------- *)
Lemma kept_occurs show columns kc vars data rows kept p1 p2 k : Kept show columns kc vars data rows kept ->
  Combination vars p1 -> Combination vars p2 ->
  Occurs show columns kc vars (map snd kept) p1 k -> Occurs show columns kc vars (map snd kept) p2 k.
Proof.
  intros [K S] C1 C2 (r & Hr & E & B). apply in_map_iff in Hr. destruct Hr as ([k' r'] & <- & Hr). cbn [snd] in *.
  assert (EventKey show columns kc r' k') as E'.
  { apply (selection_in _ _ _ _ S) in Hr. apply (keyed_in _ _ _ _ _ (k', r') K). apply Hr. }
  rewrite (event_key_fun _ _ _ _ _ _ E E') in *.
  destruct (common_selected _ _ _ _ p2 _ _ S Hr C2) as (r2 & H2 & B2).
  exists r2. split; [apply in_map_iff; exists (k', r2); auto|]. split; [|exact B2].
  apply (selection_in _ _ _ _ S) in H2. apply (keyed_in _ _ _ _ _ (k', r2) K). apply H2.
Qed.

(* ---------- several statistics ---------- *)
Lemma part_functional show columns kc vars data var values vs vs' kept kept' :
  ~ In "fcst_var" columns -> ~ In "stat_name" columns ->
  OnePart show columns kc vars data var values vs kept -> OnePart show columns kc vars data var values vs' kept' -> kept = kept'.
Proof.
  intros N1 N2 (sub & rows & S & K & H) (sub' & rows' & S' & K' & H').
  assert (sub = sub') as <-.
  { eapply selection_unique; [exact S|exact S'|]. intros r Hr. unfold OfStatistic.
    split; intros [L _]; (split; [exact L|]); split; intros c (i & [Ci _] & _); exfalso; apply nth_error_In in Ci; contradiction. }
  rewrite (keyed_fun _ _ _ _ _ _ K K') in *. eapply selection_unique; [exact H|exact H'|]. intros; reflexivity.
Qed.
Lemma parts_constant {A B} (P : A -> B -> Prop) l parts part : (forall a b, P a b -> b = part) -> Forall2 P l parts ->
  parts = map (fun _ => part) l.
Proof. intros H F. induction F as [|a b l parts p F IH]; [reflexivity|]. cbn. rewrite (H _ _ p), IH. reflexivity. Qed.
Lemma kept_nil show columns kc vars rows kept : Kept show columns kc vars [] rows kept -> kept = [].
Proof. intros [K S]. inversion K; subst. inversion S. reflexivity. Qed.
Lemma selection_none {A} (P : A -> Prop) l o : Selection P l o -> (forall x, In x l -> ~ P x) -> o = [].
Proof. intros S H. destruct o as [|x o]; [reflexivity|]. exfalso. destruct (proj1 (selection_in _ _ _ x S) (or_introl eq_refl)) as [I Px]. exact (H x I Px). Qed.
Lemma last_series {A} (l : list A) : l <> [] -> exists b x, l = (b ++ [x])%list.
Proof. intro H. destruct (exists_last H) as (b & x & ->). eauto. Qed.

(* ---------- no series ---------- *)
Section NoSeries.
Variables (show : Q -> string) (columns : list string) (vars : list (string * list string)).
Hypothesis NE : ~ In "equalize" columns.
Hypothesis HN : forall n, In n (map fst vars) -> In n columns.
Definition lift (rows : list (string * row)) : list (string * row) := map (fun kr => (fst kr, (snd kr ++ [CStr (fst kr)])%list)) rows.
Notation CE := (columns ++ ["equalize"])%list.
Lemma cell_of_new r n c y : In n columns -> length r = length columns -> CellOf CE (r ++ [y])%list n c -> CellOf columns r n c.
Proof.
  intros H L C. destruct (get_cell columns r n H L) as (c' & _ & C').
  rewrite (cell_of_fun _ _ _ _ _ C (cell_of_app _ _ _ _ _ _ C')). exact C'.
Qed.
Lemma belongs_new vars' p r y : (forall n, In n (map fst vars') -> In n columns) -> length r = length columns ->
  BelongsTo CE vars' p (r ++ [y])%list -> BelongsTo columns vars' p r.
Proof.
  intros H L B. induction B as [|nv v vs p (c & C & G) B IH]; constructor.
  - exists c. split; [|exact G]. eapply cell_of_new; [apply H; left; reflexivity|exact L|exact C].
  - apply IH. intros n Hn. apply H. right. exact Hn.
Qed.
Lemma common_lift rows k : (forall kr, In kr rows -> length (snd kr) = length columns) ->
  (Common CE vars (lift rows) k <-> Common columns vars rows k).
Proof.
  intro W. split; intros [E H]; (split; [exact E|]); intros p Hp; destruct (H p Hp) as (r & Hr & B).
  - apply in_map_iff in Hr. destruct Hr as ([k' r'] & E' & Hr). cbn [fst snd] in E'. injection E' as -> <-.
    exists r'. split; [exact Hr|]. eapply belongs_new; [exact HN|exact (W _ Hr)|exact B].
  - exists (r ++ [CStr k])%list. split; [apply in_map_iff; exists (k, r); auto|]. apply belongs_app. exact B.
Qed.
Lemma selection_lift (P P' : string * row -> Prop) rows kept : Selection P rows kept ->
  (forall kr, In kr rows -> P kr <-> P' (fst kr, (snd kr ++ [CStr (fst kr)])%list)) -> Selection P' (lift rows) (lift kept).
Proof.
  induction 1 as [|x l o Px S IH|x l o Px S IH]; intro H; cbn [lift map].
  - constructor.
  - constructor; [apply (H x); [left; reflexivity|exact Px]|apply IH; intros; apply H; right; assumption].
  - apply sel_drop; [intro C; apply Px; apply (H x); [left; reflexivity|exact C]|apply IH; intros; apply H; right; assumption].
Qed.
Lemma lift_keyed rows : (forall kr, In kr rows -> length (snd kr) = length columns) ->
  Keyed show CE ["equalize"] (with_key rows) (lift rows).
Proof.
  induction rows as [|[k r] rows IH]; intro W; [constructor|]. cbn [with_key lift map]. constructor.
  - cbn [fst snd]. split; [reflexivity|]. exists [k]. split; [|reflexivity]. constructor; [|constructor].
    exists (CStr k). split; [|constructor]. apply cell_of_last; [exact NE|]. exact (W _ (or_introl eq_refl)).
  - apply IH. intros; apply W; right; assumption.
Qed.
Lemma set_last (l : row) x y : set_nth (length l) y (l ++ [x]) = (l ++ [y])%list.
Proof. induction l as [|a l IH]; cbn; [reflexivity|]. rewrite IH. reflexivity. Qed.
Lemma with_keys_again rows : (forall kr, In kr rows -> length (snd kr) = length columns) ->
  with_keys CE (lift rows) = (CE, with_key rows).
Proof.
  intro W. assert (index_of "equalize" CE = Some (length columns)) as E.
  { rewrite index_app by (apply not_in_index; exact NE). rewrite String.eqb_refl. reflexivity. }
  unfold with_keys, add_column, set_cell. rewrite E. f_equal. unfold lift, with_key. rewrite map_map. apply map_ext_in.
  intros kr Hk. cbn [fst snd]. rewrite <- (W kr Hk). apply set_last.
Qed.
Lemma key_columns_again indy : TimeColumn indy -> KeyColumns CE true indy ["equalize"].
Proof.
  intro T. exists ["equalize"]. split; [left; split; [apply in_or_app; right; left; reflexivity|reflexivity]|].
  split; [right; auto|]. intros c [<-|[]]. apply in_or_app; right; left; reflexivity.
Qed.
Variables (indy : string) (fixed : list (string * list string)) (kc : list string) (data : tdata) (rows kept : list (string * row)).
Hypothesis T : TimeColumn indy.
Hypothesis ND : NoDup (map fst fixed).
Hypothesis HV : Variables [] fixed vars.
Hypothesis W : Rectangular data columns.
Hypothesis HK : Kept show columns kc vars data rows kept.
Lemma rows_width : forall kr, In kr rows -> length (snd kr) = length columns.
Proof. destruct HK as [K _]. eapply keyed_width; eassumption. Qed.
Lemma keptrows_width : forall kr, In kr kept -> length (snd kr) = length columns.
Proof. intros kr H. destruct HK as [_ S]. apply (selection_in _ _ _ _ S) in H. apply rows_width, H. Qed.
Lemma equalize_again : equalize_frame show (CE, with_key rows) indy [] (map fst fixed) (map snd fixed)
  = Ok ((CE, with_key rows), (CE, with_key kept)).
Proof.
  assert (Rectangular (with_key rows) CE) as W'.
  { intros r Hr. apply in_map_iff in Hr. destruct Hr as (kr & <- & Hr). rewrite !app_length. rewrite (rows_width kr Hr). reflexivity. }
  pose proof (key_columns_again indy T) as KC.
  assert (forall c, In c ["equalize"] -> In c CE) as HC by (destruct KC as (? & _ & _ & X); exact X).
  destruct (keys_value show CE ["equalize"] (with_key rows) HC W') as (keys & E & K).
  pose proof (keyed_fun _ _ _ _ _ _ K (lift_keyed rows rows_width)) as EL.
  destruct (event_equalize_spec show (with_key rows) CE indy [] fixed true ["equalize"] vars _ W' ND KC HV
             (fun n H => in_or_app _ _ _ (or_introl (HN n H))) K) as (out & Eo & S).
  assert (out = lift kept) as ->.
  { eapply selection_unique; [exact S| |intros; reflexivity]. rewrite EL. destruct HK as [_ S']. eapply selection_lift; [exact S'|].
    intros kr Hk. cbn [fst]. symmetry. apply common_lift, rows_width. }
  unfold equalize_frame. cbn [fst snd]. rewrite Eo. cbn [bind]. rewrite (key_columns_value _ _ _ _ KC). cbn [bind].
  rewrite E. cbn [bind]. rewrite EL. rewrite (with_keys_again rows rows_width), (with_keys_again kept keptrows_width). reflexivity.
Qed.
Lemma statistics_again sts : forall acc,
  equalize_statistics show indy [] (map fst fixed) (map snd fixed) sts (CE, with_key rows) (Some (CE, with_key acc))
    = Ok ((CE, with_key rows), Some (CE, with_key (acc ++ concat (map (fun _ => kept) sts)))).
Proof.
  induction sts as [|[fv st] sts IH]; intro acc; [cbn; rewrite app_nil_r; reflexivity|].
  cbn [equalize_statistics]. unfold equalize_statistic at 1. rewrite equalize_again. cbn [bind].
  rewrite (append_part' columns acc (Some (CE, with_key acc)) kept _ (or_intror eq_refl)). cbn [bind fst snd]. rewrite IH. cbn [map concat].
  rewrite app_assoc. reflexivity.
Qed.
End NoSeries.

(* ---------- merged dictionaries ---------- *)
Lemma dict_set_names {A} k (v : A) d n : In n (map fst (dict_set k v d)) <-> n = k \/ In n (map fst d).
Proof.
  induction d as [|[k' w] d IH]; cbn; [intuition|]. destruct (String.eqb_spec k' k) as [->|N]; cbn; [intuition|]. rewrite IH. intuition.
Qed.
Lemma dict_set_in {A} k (v : A) d : NoDup (map fst d) -> NoDup (map fst (dict_set k v d)) /\
  forall n w, In (n, w) (dict_set k v d) <-> (n = k /\ w = v) \/ (In (n, w) d /\ n <> k).
Proof.
  induction d as [|[k' w'] d IH]; intro ND; cbn [dict_set].
  - split; [constructor; [tauto|constructor]|]. intros n w. cbn. split; [intros [H|[]]; injection H as <- <-; auto|intros [[-> ->]|[[] _]]; auto].
  - cbn [map fst] in ND. inversion ND as [|? ? Nin ND']; subst. destruct (String.eqb_spec k' k) as [->|N].
    + split; [exact ND|]. intros n w. cbn. split.
      * intros [H|H]; [injection H as <- <-; auto|]. right. split; [auto|]. intros ->. apply Nin. apply in_map_iff. exists (k, w). auto.
      * intros [[-> ->]|[[H|H] Hn]]; [auto|injection H as <- <-; contradiction|auto].
    + destruct (IH ND') as [ND1 H1]. split.
      * cbn [map fst]. constructor; [|exact ND1]. rewrite dict_set_names. intros [->|H]; contradiction.
      * intros n w. cbn. rewrite H1. split.
        -- intros [H|[H|[H Hn]]]; [injection H as <- <-; right; split; [auto|exact N]|auto|auto].
        -- intros [H|[[H|H] Hn]]; auto.
Qed.
Lemma fold_merged (s2 : list (string * list string)) : forall s1, NoDup (map fst s1) -> NoDup (map fst s2) ->
  Merged s1 s2 (fold_left (fun d kv => dict_set (fst kv) (snd kv) d) s2 s1).
Proof.
  induction s2 as [|[k v] s2 IH]; intros s1 N1 N2; cbn [fold_left fst snd].
  - split; [exact N1|]. intros; cbn. intuition.
  - cbn [map fst] in N2. inversion N2 as [|? ? Nin N2']; subst. destruct (dict_set_in k v s1 N1) as [Nd Hd].
    destruct (IH (dict_set k v s1) Nd N2') as [Nm Hm]. split; [exact Nm|]. intros n w. rewrite Hm, Hd. cbn [In map fst]. split.
    + intros [H|[[[-> ->]|[H Hn]] Hk]]; [auto|auto|]. right. split; [exact H|]. intros [->|]; contradiction.
    + intros [[H|H]|[H Hk]].
      * injection H as -> ->. right. split; [auto|exact Nin].
      * auto.
      * right. split; [right; split; [exact H|intros ->; apply Hk; auto]|intro; apply Hk; auto].
Qed.
Lemma nodup_fst {A} (m : list (string * A)) : NoDup (map fst m) -> NoDup m.
Proof. apply NoDup_map_inv. Qed.
Lemma merged_perm s1 s2 m m' : Merged s1 s2 m -> Merged s1 s2 m' -> Permutation m m'.
Proof.
  intros [N H] [N' H']. apply NoDup_Permutation; [apply nodup_fst, N|apply nodup_fst, N'|].
  intros [n w]. rewrite H, H'. reflexivity.
Qed.
Lemma merged_same s : NoDup (map fst s) -> Merged s s s.
Proof. intro N. split; [exact N|]. intros n w. split; [auto|]. intros [H|[H _]]; exact H. Qed.
Lemma all_series_same set_order m : (forall l (x : string), In x (set_order l) <-> In x l) ->
  Forall2 SameValues m (map (fun kv : string * list string => (fst kv, set_order (snd kv))) m).
Proof.
  intro H. induction m as [|kv m IH]; [constructor|]. constructor; [|exact IH]. split; [reflexivity|]. intro v. cbn [snd]. symmetry. apply H.
Qed.
Lemma concat_same c d1 d2 : concat_frames (Some (c, d1)) (Some (c, d2)) = Ok (Some (c, (d1 ++ d2)%list)).
Proof. cbn [concat_frames]. destruct (list_eq_dec string_dec c c) as [_|N]; [reflexivity|contradiction]. Qed.
Lemma nodup_app_l {A} (a b : list A) : NoDup (a ++ b) -> NoDup a.
Proof. induction a as [|x a IH]; intro H; [constructor|]. inversion H; subst. constructor; [intro C; apply H2, in_or_app; auto|auto]. Qed.

Lemma both_kept show set_order columns data indy var1 var2 series1 series2 m fixed fixed' kc vars d1 d2 :
  Rectangular data columns -> ~ In "equalize" columns ->
  (forall l x, In x (set_order l) <-> In x l) ->
  NoDup (map fst series1) -> NoDup (map fst series2) -> series2 <> [] -> Merged series1 series2 m ->
  NoDup (map fst m ++ map fst fixed) -> KeyColumns columns true indy kc ->
  Variables m fixed vars -> (forall n, In n (map fst vars) -> In n columns) ->
  map fst fixed' = map fst fixed -> map (fun kv => fixed_permuted (snd kv)) fixed' = map snd fixed ->
  equalize_axis_data show (map fst fixed) (map snd fixed) indy var1 series1 (columns, data) = Ok ((columns, data), Some (columns, d1)) ->
  equalize_axis_data show (map fst fixed) (map snd fixed) indy var2 series2 (columns, data) = Ok ((columns, data), Some (columns, d2)) ->
  (forall r, In r (d1 ++ d2) -> In r data) ->
  exists rows kept, Kept show columns kc vars (d1 ++ d2) rows kept /\
    perform_event_equalization show set_order fixed' indy var1 var2 series1 series2 (columns, data) = Ok (Some (columns, map snd kept)).
Proof.
  intros W NE SO N1 N2 NN HM ND HK HV HN F1 F2 E1 E2 Sub.
  pose proof (merged_perm _ _ _ _ HM (fold_merged series2 series1 N1 N2)) as P.
  set (m' := fold_left (fun d kv => dict_set (fst kv) (snd kv) d) series2 series1) in *.
  pose proof (all_series_same set_order m' SO) as SV.
  destruct (variables_same _ _ _ fixed _ HV P SV) as (vars' & HV' & SameV).
  assert (NoDup (map fst (all_series set_order series1 series2) ++ map fst fixed)) as ND'.
  { unfold all_series. fold m'. rewrite <- (same_names _ _ SV).
    eapply Permutation_NoDup; [|exact ND]. apply Permutation_app_tail, Permutation_map, P. }
  assert (Rectangular (d1 ++ d2)%list columns) as W' by (intros r Hr; apply W, Sub, Hr).
  destruct (equalize_frame_value show columns indy (all_series set_order series1 series2) fixed kc vars' NE ND' HK HV'
    (fun n H => HN n (same_vars_names _ _ n SameV H)) (d1 ++ d2)%list W') as (rows & kept & K & E).
  pose proof (kept_same _ _ _ _ _ _ _ _ SameV K) as K'.
  exists rows, kept. split; [exact K'|].
  unfold perform_event_equalization. rewrite F1, F2, E1. cbn [bind fst snd].
  destruct series2 as [|s2 series2]; [contradiction|]. rewrite E2. cbn [bind snd]. rewrite concat_same. cbn [bind].
  rewrite E. cbn [bind snd]. rewrite drop_new; [reflexivity|exact NE|]. eapply kept_width; eassumption.
Qed.

(** The rows of several equalized parts. *)
Lemma part_rows show columns kc vars data var values sts parts r :
  Forall2 (OnePart show columns kc vars data var values) sts parts -> In r (map snd (concat parts)) ->
  exists vs kept, In vs sts /\ In kept parts /\ OnePart show columns kc vars data var values vs kept /\ In r (map snd kept).
Proof.
  intros F H. induction F as [|vs kept sts parts P F IH]; [destruct H|]. cbn [concat] in H. rewrite map_app in H.
  apply in_app_or in H. destruct H as [H|H].
  - exists vs, kept. repeat split; try (left; reflexivity); assumption.
  - destruct (IH H) as (vs' & kept' & A & B & C & D). exists vs', kept'. repeat split; try (right; assumption); assumption.
Qed.
Lemma in_parts {A B} (f : A -> B) (parts : list (list A)) kept r : In kept parts -> In r (map f kept) -> In r (map f (concat parts)).
Proof. intros H Hr. apply in_map_iff in Hr. destruct Hr as (x & <- & Hx). apply in_map_iff. exists x. split; [reflexivity|]. apply in_concat. eauto. Qed.
Lemma part_sub show columns kc vars data var values sts parts r :
  Forall2 (OnePart show columns kc vars data var values) sts parts -> In r (map snd (concat parts)) -> In r data.
Proof.
  intros F H. destruct (part_rows _ _ _ _ _ _ _ _ _ _ F H) as (vs & kept & _ & _ & (sub & rows & S & K & S') & Hr).
  apply in_map_iff in Hr. destruct Hr as (kr & <- & Hr). apply (selection_in _ _ _ _ S') in Hr. destruct Hr as [Hr _].
  pose proof (keyed_map _ _ _ _ _ K) as E. assert (In (snd kr) sub) as I by (rewrite <- E; apply in_map; exact Hr).
  apply (selection_in _ _ _ _ S) in I. apply I.
Qed.
(** Every row of the parts has a common event, in every bigger table. *)
Lemma part_common show columns kc vars data var values sts parts all rows k r :
  Forall2 (OnePart show columns kc vars data var values) sts parts -> In r (map snd (concat parts)) ->
  (forall r', In r' (map snd (concat parts)) -> In r' all) -> Keyed show columns kc all rows ->
  EventKey show columns kc r k -> Common columns vars rows k.
Proof.
  intros F H Sub KA E. destruct (part_rows _ _ _ _ _ _ _ _ _ _ F H) as (vs & kept & _ & IP & (sub & rs & S & K & S') & Hr).
  apply in_map_iff in Hr. destruct Hr as ([k' r'] & <- & Hr). cbn [snd] in *.
  assert (forall k2 r2, In (k2, r2) kept -> EventKey show columns kc r2 k2) as EK.
  { intros k2 r2 H2. apply (selection_in _ _ _ _ S') in H2. apply (keyed_in _ _ _ _ _ (k2, r2) K). apply H2. }
  rewrite (event_key_fun _ _ _ _ _ _ E (EK _ _ Hr)) in *.
  destruct (selection_common_all _ _ _ _ S' _ Hr) as [C1 C2]. cbn [fst] in C2. split; [exact C1|].
  intros p Hp. destruct (C2 p Hp) as (r2 & H2 & B2). exists r2. split; [|exact B2].
  assert (In r2 all) as I. { apply Sub. eapply in_parts; [exact IP|]. apply in_map_iff. exists (k', r2). auto. }
  rewrite <- (keyed_map _ _ _ _ _ KA) in I. apply in_map_iff in I. destruct I as ([k3 r3] & E3 & I). cbn [snd] in E3. subst r3.
  pose proof (keyed_in _ _ _ _ _ _ KA I) as E3. cbn [fst snd] in E3. rewrite (event_key_fun _ _ _ _ _ _ (EK _ _ H2) E3). exact I.
Qed.

(* ---------- the stand-alone program ---------- *)
Lemma pieces_value vals ls : Forall2 Pieces vals ls -> flat_map (split_on ":") vals = concat ls.
Proof.
  induction 1 as [|s l vals ls (N & -> & F) G IH]; [reflexivity|]. cbn [flat_map concat]. rewrite IH. rewrite (split_concat l N F). reflexivity.
Qed.
Lemma split_free sep s : forall w, In w (split_on sep s) -> ~ In sep (list_ascii_of_string w).
Proof.
  induction s as [|c s IH]; cbn [split_on]; intros w H.
  - destruct H as [<-|[]]. cbn. tauto.
  - destruct (Ascii.eqb_spec c sep) as [->|N].
    + destruct H as [<-|H]; [cbn; tauto|auto].
    + destruct (split_on sep s) as [|w0 ws].
      * destruct H as [<-|[]]. cbn. intuition.
      * destruct H as [<-|H]; [|apply IH; right; exact H]. cbn. intros [C|C]; [contradiction|]. exact (IH w0 (or_introl eq_refl) C).
Qed.
Lemma datetime_colon w : DateTime w -> In ":"%char (list_ascii_of_string w).
Proof.
  intros (y & m & d & b & h & mi & s & _ & _ & _ & _ & _ & _ & _ & ->). repeat rewrite la_app.
  do 7 (apply in_or_app; right). left. reflexivity.
Qed.
Section Run.
Variables (show : Q -> string) (columns : list string) (indy : string) (series fixed : list (string * list string)).
Variables (kc : list string) (vars : list (string * list string)) (data : tdata).
Hypothesis NE : ~ In "equalize" columns.
Hypothesis ND : NoDup (map fst series ++ map fst fixed).
Hypothesis HK : KeyColumns columns true indy kc.
Hypothesis HV : Variables series fixed vars.
Hypothesis HN : forall n, In n (map fst vars) -> In n columns.
Hypothesis W : Rectangular data columns.
Notation CE := (columns ++ ["equalize"])%list.
Definition RunPart (svv : (string * list string) * list string) (kept : list (string * row)) : Prop :=
  exists sub rows, Selection (Listed columns (fst (fst svv)) (snd svv)) data sub /\ Kept show columns kc vars sub rows kept.
Lemma run_turn sv values acc output rest : In (fst sv) columns -> flat_map (split_on ":") (snd sv) = values -> Acc columns acc output ->
  exists kept, RunPart (sv, values) kept /\
    run_ee_loop show indy series (map fst fixed) (map snd fixed) (columns, data) (sv :: rest) output
    = run_ee_loop show indy series (map fst fixed) (map snd fixed) (columns, data) rest (Some (CE, with_key (acc ++ kept))).
Proof.
  intros Hc HP HA. destruct sv as [var vals]. cbn [fst snd] in *. destruct (in_index _ _ Hc) as [i Ei].
  assert (Rectangular (filter (testat i (isin_text values)) data) columns) as W' by (intros r Hr; apply filter_In in Hr; apply W, Hr).
  destruct (equalize_frame_value show columns indy series fixed kc vars NE ND HK HV HN _ W') as (rows & kept & K & E).
  exists kept. split.
  - exists (filter (testat i (isin_text values)) data), rows. split; [|exact K]. cbn [fst snd]. apply selection_filter.
    intros r Hr. rewrite <- (listed_iff columns var values r (W r Hr)). unfold ptest. rewrite Ei. tauto.
  - cbn [run_ee_loop fst snd]. rewrite HP. rewrite (filter_column_value _ _ _ _ i Ei W). cbn [bind]. rewrite E. cbn [bind snd].
    rewrite (append_part columns acc output kept HA). reflexivity.
Qed.
Lemma run_value vs values : Forall2 (fun sv vals => exists ls, Forall2 Pieces (snd sv) ls /\ vals = concat ls) vs values ->
  (forall n, In n (map fst vs) -> In n columns) -> forall acc output, Acc columns acc output ->
  exists parts, Forall2 RunPart (combine vs values) parts /\
    run_ee_loop show indy series (map fst fixed) (map snd fixed) (columns, data) vs output
    = Ok (match vs with [] => output | _ => Some (CE, with_key (acc ++ concat parts)) end).
Proof.
  induction 1 as [|sv vals vs values (ls & P & ->) F IH]; intros Hc acc output HA.
  - exists []. split; [constructor|reflexivity].
  - destruct (run_turn sv (concat ls) acc output vs) as (kept & RP & E); [apply Hc; left; reflexivity|apply pieces_value, P|exact HA|].
    destruct (IH (fun n H => Hc n (or_intror H)) (acc ++ kept)%list (Some (CE, with_key (acc ++ kept)))) as (parts & FP & E'); [right; reflexivity|].
    exists (kept :: parts). split; [constructor; assumption|]. rewrite E, E'. cbn [concat]. rewrite app_assoc.
    destruct vs; [|reflexivity]. inversion F; subst. inversion FP; subst. cbn [concat]. rewrite app_nil_r. reflexivity.
Qed.
Lemma run_keys l parts : Forall2 RunPart l parts -> WithKeys show columns kc (map snd (concat parts)) (with_key (concat parts)).
Proof.
  induction 1 as [|svv kept l parts (sub & rows & S & K) F IH]; [constructor|]. cbn [concat]. rewrite map_app, with_key_app.
  apply Forall2_app; [eapply kept_keys; exact K|exact IH].
Qed.
End Run.
Lemma drop_withkeys show columns kc d k : ~ In "equalize" columns -> (forall r, In r d -> length r = length columns) ->
  WithKeys show columns kc d k -> drop_equalize ((columns ++ ["equalize"])%list, k) = Ok (columns, d).
Proof.
  intros NE W H. unfold drop_equalize. cbn [fst snd]. rewrite index_app by (apply not_in_index; exact NE). rewrite String.eqb_refl.
  rewrite drop_last. do 2 f_equal. induction H as [|r r' d k (key & _ & ->) F IH]; [reflexivity|]. cbn [map].
  rewrite IH by (intros; apply W; right; assumption). f_equal. rewrite <- (W r (or_introl eq_refl)). apply drop_last.
Qed.
Lemma product_single {A} (l : list A) : product (map (fun x => [x]) l) = [l].
Proof. induction l as [|x l IH]; [reflexivity|]. cbn. rewrite IH. reflexivity. Qed.
Lemma flat_permuted_single fixed' fixed : Forall2 (fun kv' kv => map snd (snd kv') = map (fun x => [x]) (snd kv)) fixed' fixed ->
  flat_permuted fixed' = map snd (fixed : list (string * list string)).
Proof.
  induction 1 as [|a b l l' E F IH]; [reflexivity|]. unfold flat_permuted in *. cbn [flat_map map]. rewrite E, product_single, IH. reflexivity.
Qed.

(* ---------- previous cases ---------- *)
Lemma texts_in cells k : In k (texts_of cells) <-> In (CStr k) cells.
Proof.
  unfold texts_of. rewrite in_flat_map. split.
  - intros (c & H & E). destruct c as [q| |s]; cbn in E; try tauto. destruct E as [<-|[]]. exact H.
  - intro H. exists (CStr k). split; [exact H|]. left. reflexivity.
Qed.
Lemma testat_cell columns name i fv r : index_of name columns = Some i ->
  (testat i (equals_text fv) r = true <-> CellOf columns r name (CStr fv)).
Proof.
  intro E. unfold testat. split.
  - intro H. destruct (nth_error r i) as [c|] eqn:En; [|discriminate]. apply equals_iff in H. subst c. eapply nth_cellof; eassumption.
  - intro H. rewrite (cellof_nth _ _ _ _ _ E H). apply equals_iff. reflexivity.
Qed.
Lemma mapM_exists {A B X} (f : A -> res B) (P : A * X -> B -> Prop) (R : A -> X -> Prop) l xs :
  Forall2 R l xs -> (forall a x, In a l -> R a x -> exists b, P (a, x) b /\ f a = Ok b) ->
  exists bs, Forall2 P (combine l xs) bs /\ mapM f l = Ok bs.
Proof.
  induction 1 as [|a x l xs r F IH]; intro H; [exists []; split; [constructor|reflexivity]|].
  destruct (H a x (or_introl eq_refl) r) as (b & Pb & E). destruct IH as (bs & Fb & Eb); [intros; apply H; [right|]; assumption|].
  exists (b :: bs). split; [constructor; assumption|]. cbn [mapM]. rewrite E. cbn [bind]. rewrite Eb. reflexivity.
Qed.

(** The statements of PropertiesEqz.v. *)
Lemma C51_axis_proof : forall show columns data indy fcst_vars series fixed kc vars before var groups values,
  Rectangular data columns -> ~ In "equalize" columns ->
  NoDup (map fst series ++ map fst fixed) -> KeyColumns columns true indy kc ->
  Variables series fixed vars -> (forall n, In n (map fst vars) -> In n columns) ->
  series = (before ++ [(var, groups)])%list -> Members groups values ->
  exists parts,
    Forall2 (fun vs part => exists sub,
        Selection (fun r => Listed columns var values r /\ OfStatistic columns vs r) data sub /\
        Equalized show columns kc vars sub part) (axis_pairs fcst_vars) parts /\
    equalize_axis_data show (map fst fixed) (map snd fixed) indy (Some (Some fcst_vars)) series (columns, data)
      = Ok ((columns, data), match axis_pairs fcst_vars with [] => None | _ => Some (columns, concat parts) end).
Proof.
  intros show columns data indy fcst_vars series fixed kc vars before var groups values W NE ND HK HV HN HS HM.
  destruct (axis_value show columns indy series fixed kc vars NE ND HK HV HN data before var groups values W HS HM fcst_vars) as (parts & F & E).
  exists (map (map snd) parts). split.
  - clear E. induction F as [|vs kept l parts (sub & rows & S & K) F IH]; [constructor|]. cbn [map]. constructor; [|exact IH].
    exists sub. split; [exact S|]. eapply kept_equalized. exact K.
  - rewrite E. rewrite concat_map. reflexivity.
Qed.

Lemma C51_axis_case_proof :
  equalize_axis_data show_lead ["vx_mask"] [["NH"]] "fcst_lead" (Some (Some [("TMP", ["ME"; "RMSE"])])) [("model", ["A:B"])]
    (eqz_columns, [eqz_row "d1" "A" "NH" "ME"; eqz_row "d1" "B" "NH" "ME"; eqz_row "d2" "A" "NH" "ME";
                   eqz_row "d2" "A" "NH" "RMSE"; eqz_row "d2" "B" "NH" "RMSE"; eqz_row "d1" "C" "NH" "ME"])
  = Ok ((eqz_columns, [eqz_row "d1" "A" "NH" "ME"; eqz_row "d1" "B" "NH" "ME"; eqz_row "d2" "A" "NH" "ME";
                   eqz_row "d2" "A" "NH" "RMSE"; eqz_row "d2" "B" "NH" "RMSE"; eqz_row "d1" "C" "NH" "ME"]),
        Some (eqz_columns, [eqz_row "d1" "A" "NH" "ME"; eqz_row "d1" "B" "NH" "ME"; eqz_row "d2" "A" "NH" "RMSE"; eqz_row "d2" "B" "NH" "RMSE"])) /\
  Rectangular [eqz_row "d1" "A" "NH" "ME"] eqz_columns /\ ~ In "equalize" eqz_columns /\
  KeyColumns eqz_columns true "fcst_lead" ["fcst_valid_beg"; "fcst_lead"] /\
  Variables [("model", ["A:B"])] [("vx_mask", ["NH"])] [("model", ["A"; "B"]); ("vx_mask", ["NH"])] /\
  Members ["A:B"] ["A"; "B"].
Proof.
  split; [reflexivity|]. split; [intros r [<-|[]]; reflexivity|]. split; [intro X; cbn in X; intuition discriminate|].
  split; [|split; [exact case_variables|]].
  - exists ["fcst_valid_beg"; "fcst_lead"]. split; [right; left; split; [intro X; cbn in X; intuition discriminate|split; [left; reflexivity|reflexivity]]|].
    split; [right; split; [right; right; right; left; reflexivity|reflexivity]|]. intros c [<-|[<-|[]]]; cbn; tauto.
  - exists [["A"; "B"]]. split; [|reflexivity]. constructor; [|constructor]. right. split; [apply no_date; cbn; lia|].
    split; [discriminate|]. split; [reflexivity|]. repeat constructor; cbn; intuition discriminate.
Qed.

Lemma C51_balanced_proof : forall show columns data indy fcst_vars series fixed kc vars input' out,
  Rectangular data columns -> ~ In "equalize" columns -> In "fcst_var" columns -> In "stat_name" columns ->
  NoDup (map fst series ++ map fst fixed) -> KeyColumns columns true indy kc ->
  Variables series fixed vars -> (forall n, In n (map fst vars) -> In n columns) -> series <> [] ->
  equalize_axis_data show (map fst fixed) (map snd fixed) indy (Some (Some fcst_vars)) series (columns, data)
    = Ok (input', Some (columns, out)) ->
  forall vs p1 p2 k, Combination vars p1 -> Combination vars p2 ->
    (OccursFor show columns kc vars vs out p1 k <-> OccursFor show columns kc vars vs out p2 k).
Proof.
  intros show columns data indy fcst_vars series fixed kc vars input' out W NE I1 I2 ND HK HV HN NS H vs.
  destruct (last_series series NS) as (before & [var groups] & HS).
  destruct (variables_members series fixed vars var groups HV) as (values & HM); [rewrite HS; apply in_or_app; right; left; reflexivity|].
  destruct (axis_value show columns indy series fixed kc vars NE ND HK HV HN data before var groups values W HS HM fcst_vars) as (parts & F & E).
  rewrite E in H. assert (out = map snd (concat parts)) as ->.
  { destruct (axis_pairs fcst_vars); [discriminate H|]. injection H as _ <-. reflexivity. }
  assert (forall p1 p2 k, Combination vars p1 -> Combination vars p2 ->
    OccursFor show columns kc vars vs (map snd (concat parts)) p1 k -> OccursFor show columns kc vars vs (map snd (concat parts)) p2 k) as G.
  { intros p1 p2 k C1 C2 (r & Hr & V & St & EK & B).
    destruct (part_rows _ _ _ _ _ _ _ _ _ _ F Hr) as (vs' & kept & _ & IP & (sub & rows & S & K) & Hk).
    assert (forall r2, In r2 (map snd kept) -> In r2 sub) as Sub.
    { intros r2 H2. apply in_map_iff in H2. destruct H2 as (kr & <- & H2). destruct K as [K S']. apply (selection_in _ _ _ _ S') in H2.
      rewrite <- (keyed_map _ _ _ _ _ K). apply in_map. apply H2. }
    destruct (proj1 (selection_in _ _ _ _ S) (Sub _ Hk)) as (_ & _ & O1 & O2).
    pose proof (O1 _ V) as A1. pose proof (O2 _ St) as A2. injection A1 as A1. injection A2 as A2.
    destruct (kept_occurs _ _ _ _ _ _ _ p1 p2 k K C1 C2) as (r2 & H2 & EK2 & B2); [exists r; auto|].
    destruct (proj1 (selection_in _ _ _ _ S) (Sub _ H2)) as (D2 & _ & P1 & P2).
    exists r2. split; [eapply in_parts; eassumption|]. rewrite A1, A2.
    destruct (get_cell columns r2 "fcst_var" I1 (W _ D2)) as (c1 & _ & Q1). destruct (get_cell columns r2 "stat_name" I2 (W _ D2)) as (c2 & _ & Q2).
    rewrite <- (P1 _ Q1), <- (P2 _ Q2). auto. }
  intros p1 p2 k C1 C2. split; apply G; assumption.
Qed.

Lemma C51_unlisted_refuted_proof : exists input',
  equalize_axis_data show_lead [] [] "fcst_lead" (Some (Some [("TMP", ["ME"])])) [("model", ["A"]); ("vx_mask", ["NH"])]
    (eqz_columns, [eqz_row "d1" "A" "NH" "ME"; eqz_row "d1" "B" "NH" "ME"])
  = Ok (input', Some (eqz_columns, [eqz_row "d1" "A" "NH" "ME"; eqz_row "d1" "B" "NH" "ME"])).
Proof.
  eexists. reflexivity.
Qed.

Lemma C51_numbers_refuted_proof : forall show columns data indy fcst_vars series fixed kc vars before var groups values,
  Rectangular data columns -> ~ In "equalize" columns ->
  NoDup (map fst series ++ map fst fixed) -> KeyColumns columns true indy kc ->
  Variables series fixed vars -> (forall n, In n (map fst vars) -> In n columns) ->
  series = (before ++ [(var, groups)])%list -> Members groups values -> axis_pairs fcst_vars <> [] ->
  In var columns -> (forall r s, In r data -> ~ CellOf columns r var (CStr s)) ->
  equalize_axis_data show (map fst fixed) (map snd fixed) indy (Some (Some fcst_vars)) series (columns, data)
    = Ok ((columns, data), Some (columns, [])).
Proof.
  intros show columns data indy fcst_vars series fixed kc vars before var groups values W NE ND HK HV HN HS HM NP HI HC.
  destruct (axis_value show columns indy series fixed kc vars NE ND HK HV HN data before var groups values W HS HM fcst_vars) as (parts & F & E).
  rewrite E. assert (concat parts = []) as ->.
  { clear E NP. induction F as [|vs kept l parts (sub & rows & S & K) F IH]; [reflexivity|]. cbn [concat]. rewrite IH.
    assert (sub = []) as ->; [|rewrite (kept_nil _ _ _ _ _ _ K); reflexivity].
    apply (selection_none _ _ _ S). intros r Hr [L _]. destruct (get_cell columns r var HI (W r Hr)) as (c & _ & C).
    destruct (L c C) as (s & -> & _). exact (HC r s Hr C). }
  destruct (axis_pairs fcst_vars); [contradiction|]. reflexivity.
Qed.

Lemma C51_numbers_case_proof :
  let columns := ["fcst_valid_beg"; "fcst_lead"; "points"] in
  let data := [[CStr "d1"; CNum 12; CNum 1]; [CStr "d1"; CNum 12; CNum 9]] in
  (exists kept, event_equalize show_lead data columns "fcst_lead" [("points", ["1"; "9"])] [] [] true = Ok kept /\ map snd kept = data) /\
  equalize_axis_data show_lead [] [] "fcst_lead" (Some (Some [("TMP", ["ME"])])) [("points", ["1"; "9"])] (columns, data)
    = Ok ((columns, data), Some (columns, [])).
Proof.
  cbn zeta. split; [eexists; split; reflexivity|]. reflexivity.
Qed.

Lemma C51_copies_refuted_proof : forall show columns data indy fcst_vars series fixed kc vars,
  Rectangular data columns -> ~ In "equalize" columns -> ~ In "fcst_var" columns -> ~ In "stat_name" columns ->
  NoDup (map fst series ++ map fst fixed) -> KeyColumns columns true indy kc ->
  Variables series fixed vars -> (forall n, In n (map fst vars) -> In n columns) ->
  series <> [] -> axis_pairs fcst_vars <> [] ->
  exists part,
    equalize_axis_data show (map fst fixed) (map snd fixed) indy (Some (Some fcst_vars)) series (columns, data)
      = Ok ((columns, data), Some (columns, concat (map (fun _ => part) (axis_pairs fcst_vars)))).
Proof.
  intros show columns data indy fcst_vars series fixed kc vars W NE N1 N2 ND HK HV HN NS NP.
  destruct (last_series series NS) as (before & [var groups] & HS).
  destruct (variables_members series fixed vars var groups HV) as (values & HM); [rewrite HS; apply in_or_app; right; left; reflexivity|].
  destruct (axis_value show columns indy series fixed kc vars NE ND HK HV HN data before var groups values W HS HM fcst_vars) as (parts & F & E).
  assert (exists vs part, OnePart show columns kc vars data var values vs part) as (vs & part & P).
  { destruct F as [|vs part]; [contradiction|eauto]. }
  exists (map snd part). rewrite E.
  rewrite (parts_constant _ _ parts part (fun a b p => part_functional _ _ _ _ _ _ _ _ _ _ _ N1 N2 p P) F).
  rewrite concat_map, map_map. destruct (axis_pairs fcst_vars); [contradiction|]. reflexivity.
Qed.

Lemma C51_copies_case_proof :
  let columns := ["fcst_valid_beg"; "fcst_lead"; "model"] in
  let data := [[CStr "d1"; CNum 12; CStr "A"]] in
  equalize_axis_data show_lead [] [] "fcst_lead" (Some (Some [("TMP", ["ME"; "RMSE"])])) [("model", ["A"])] (columns, data)
    = Ok ((columns, data), Some (columns, data ++ data))%list.
Proof.
  reflexivity.
Qed.

Lemma C51_no_series_proof : forall show columns data indy fcst_vars fixed kc vars,
  Rectangular data columns -> ~ In "equalize" columns -> TimeColumn indy ->
  NoDup (map fst fixed) -> KeyColumns columns true indy kc ->
  Variables [] fixed vars -> (forall n, In n (map fst vars) -> In n columns) -> axis_pairs fcst_vars <> [] ->
  exists part keyed,
    Equalized show columns kc vars data part /\ WithKeys show columns kc data keyed /\
    equalize_axis_data show (map fst fixed) (map snd fixed) indy (Some (Some fcst_vars)) [] (columns, data)
      = Ok (((columns ++ ["equalize"])%list, keyed), Some (columns, concat (map (fun _ => part) (axis_pairs fcst_vars)))).
Proof.
  intros show columns data indy fcst_vars fixed kc vars W NE T ND HK HV HN NP.
  destruct (equalize_frame_value show columns indy [] fixed kc vars NE ND HK HV HN data W) as (rows & kept & K & E).
  exists (map snd kept), (with_key rows). split; [eapply kept_equalized; exact K|]. split.
  - destruct K as [K _]. clear -K. induction K as [|r [k r'] data rows [E' EK] K IH]; [constructor|]. cbn [with_key map]. constructor; [|exact IH].
    cbn [fst snd] in *. exists k. split; [exact EK|]. rewrite E'. reflexivity.
  - assert (statistics (axis_variables (Some (Some fcst_vars))) = axis_pairs fcst_vars) as ES.
    { unfold statistics, axis_pairs, axis_variables. apply flat_map_concat_map. }
    unfold equalize_axis_data. rewrite ES. destruct (axis_pairs fcst_vars) as [|[fv st] sts]; [contradiction|].
    cbn [equalize_statistics]. unfold equalize_statistic. rewrite E. cbn [bind fst snd].
    rewrite (statistics_again show columns vars NE HN indy fixed kc data rows kept T ND HV W K). cbn [bind fst snd].
    change (kept ++ concat (map (fun _ : string * string => kept) sts))%list with (concat (map (fun _ : string * string => kept) ((fv, st) :: sts))).
    rewrite drop_new; [|exact NE|].
    + rewrite concat_map, map_map. reflexivity.
    + intros kr Hk. apply in_concat in Hk. destruct Hk as (x & Hx & Hk). apply in_map_iff in Hx. destruct Hx as (_ & <- & _).
      eapply kept_width; eassumption.
Qed.

Lemma C51_entry_proof : forall show fix_vars fix_vals indy series input,
  equalize_axis_data show fix_vars fix_vals indy None series input
    = equalize_axis_data show fix_vars fix_vals indy (Some (Some [("", [""])])) series input /\
  equalize_axis_data show fix_vars fix_vals indy (Some None) series input = Ok (input, None).
Proof.
  intros. split; reflexivity.
Qed.

Lemma C52_both_proof : forall show set_order columns data indy var1 var2 series1 series2 m fixed fixed' kc vars d1 d2,
  Rectangular data columns -> ~ In "equalize" columns ->
  (forall l x, In x (set_order l) <-> In x l) ->
  NoDup (map fst series1) -> NoDup (map fst series2) -> series2 <> [] -> Merged series1 series2 m ->
  NoDup (map fst m ++ map fst fixed) -> KeyColumns columns true indy kc ->
  Variables m fixed vars -> (forall n, In n (map fst vars) -> In n columns) ->
  map fst fixed' = map fst fixed -> map (fun kv => fixed_permuted (snd kv)) fixed' = map snd fixed ->
  equalize_axis_data show (map fst fixed) (map snd fixed) indy var1 series1 (columns, data) = Ok ((columns, data), Some (columns, d1)) ->
  equalize_axis_data show (map fst fixed) (map snd fixed) indy var2 series2 (columns, data) = Ok ((columns, data), Some (columns, d2)) ->
  (forall r, In r (d1 ++ d2) -> In r data) ->
  exists out,
    perform_event_equalization show set_order fixed' indy var1 var2 series1 series2 (columns, data) = Ok (Some (columns, out)) /\
    Equalized show columns kc vars (d1 ++ d2) out /\
    (forall p1 p2 k, Combination vars p1 -> Combination vars p2 ->
       (Occurs show columns kc vars out p1 k <-> Occurs show columns kc vars out p2 k)).
Proof.
  intros show set_order columns data indy var1 var2 series1 series2 m fixed fixed' kc vars d1 d2 W NE SO N1 N2 NN HM ND HK HV HN F1 F2 E1 E2 Sub.
  destruct (both_kept show set_order columns data indy var1 var2 series1 series2 m fixed fixed' kc vars d1 d2 W NE SO N1 N2 NN HM ND HK HV HN F1 F2 E1 E2 Sub) as (rows & kept & K & E).
  exists (map snd kept). split; [exact E|]. split; [eapply kept_equalized; exact K|].
  intros p1 p2 k C1 C2. split; eapply kept_occurs; eassumption.
Qed.

Lemma C52_both_case_proof :
  let columns := eqz_columns in
  let data := [eqz_row "d1" "A" "NH" "ME"; eqz_row "d2" "A" "NH" "ME"; eqz_row "d1" "A" "SH" "ME"] in
  equalize_axis_data show_lead [] [] "fcst_lead" (Some (Some [("TMP", ["ME"])])) [("model", ["A"])] (columns, data)
    = Ok ((columns, data), Some (columns, data)) /\
  equalize_axis_data show_lead [] [] "fcst_lead" (Some (Some [("TMP", ["ME"])])) [("vx_mask", ["NH"; "SH"])] (columns, data)
    = Ok ((columns, data), Some (columns, [eqz_row "d1" "A" "NH" "ME"; eqz_row "d1" "A" "SH" "ME"])) /\
  Merged [("model", ["A"])] [("vx_mask", ["NH"; "SH"])] [("model", ["A"]); ("vx_mask", ["NH"; "SH"])] /\
  perform_event_equalization show_lead (fun l => l) [] "fcst_lead" (Some (Some [("TMP", ["ME"])])) (Some (Some [("TMP", ["ME"])]))
    [("model", ["A"])] [("vx_mask", ["NH"; "SH"])] (columns, data)
    = Ok (Some (columns, [eqz_row "d1" "A" "NH" "ME"; eqz_row "d1" "A" "SH" "ME"; eqz_row "d1" "A" "NH" "ME"; eqz_row "d1" "A" "SH" "ME"])).
Proof.
  cbn zeta. split; [reflexivity|]. split; [reflexivity|]. split; [|reflexivity].
  split.
  - constructor; [cbn; intuition discriminate|]. constructor; [cbn; tauto|constructor].
  - intros name vals. cbn. split.
    + intros [H|[H|[]]]; [right|left; left; exact H]. injection H as <- <-. split; [left; reflexivity|]. intros [C|[]]. discriminate C.
    + intros [[H|[]]|[[H|[]] _]]; [right; left; exact H|left; exact H].
Qed.

Lemma C52_fixed_proof : forall key l, fixed_permuted (FList l) = l /\ fixed_permuted (FDict [(key, l)]) = l.
Proof.
  assert (forall l : list string, concat (product [l]) = l) as H.
  { induction l as [|x l IH]; [reflexivity|]. cbn in *. rewrite IH. reflexivity. }
  intros key l. unfold fixed_permuted. cbn [map snd]. rewrite H. auto.
Qed.

Lemma C52_fixed_text_refuted_proof : forall show set_order indy var1 var2 series1 series2 input name s,
  perform_event_equalization show set_order [(name, FText s)] indy var1 var2 series1 series2 input =
  perform_event_equalization show set_order [(name, FList (map (fun c => String c "") (list_ascii_of_string s)))]
    indy var1 var2 series1 series2 input.
Proof.
  reflexivity.
Qed.

Lemma C52_one_axis_proof : forall show set_order fixed indy var1 var2 series1 input input' out,
  equalize_axis_data show (map fst fixed) (map (fun kv => fixed_permuted (snd kv)) fixed) indy var1 series1 input = Ok (input', out) ->
  perform_event_equalization show set_order fixed indy var1 var2 series1 [] input = Ok out.
Proof.
  intros show set_order fixed indy var1 var2 series1 input input' out H. unfold perform_event_equalization. rewrite H. reflexivity.
Qed.

Lemma C52_same_series_refuted_proof : forall show set_order columns data indy vars1 vars2 series fixed fixed' kc vars d1 d2,
  Rectangular data columns -> ~ In "equalize" columns ->
  (forall l x, In x (set_order l) <-> In x l) ->
  series <> [] -> NoDup (map fst series ++ map fst fixed) -> KeyColumns columns true indy kc ->
  Variables series fixed vars -> (forall n, In n (map fst vars) -> In n columns) ->
  map fst fixed' = map fst fixed -> map (fun kv => fixed_permuted (snd kv)) fixed' = map snd fixed ->
  equalize_axis_data show (map fst fixed) (map snd fixed) indy (Some (Some vars1)) series (columns, data) = Ok ((columns, data), Some (columns, d1)) ->
  equalize_axis_data show (map fst fixed) (map snd fixed) indy (Some (Some vars2)) series (columns, data) = Ok ((columns, data), Some (columns, d2)) ->
  perform_event_equalization show set_order fixed' indy (Some (Some vars1)) (Some (Some vars2)) series series (columns, data)
    = Ok (Some (columns, (d1 ++ d2)%list)).
Proof.
  intros show set_order columns data indy vars1 vars2 series fixed fixed' kc vars d1 d2 W NE SO NS ND HK HV HN F1 F2 E1 E2.
  destruct (last_series series NS) as (before & [var groups] & HS).
  destruct (variables_members series fixed vars var groups HV) as (values & HM); [rewrite HS; apply in_or_app; right; left; reflexivity|].
  assert (forall fv d, equalize_axis_data show (map fst fixed) (map snd fixed) indy (Some (Some fv)) series (columns, data) = Ok ((columns, data), Some (columns, d)) ->
    exists parts, Forall2 (OnePart show columns kc vars data var values) (axis_pairs fv) parts /\ d = map snd (concat parts)) as G.
  { intros fv d Ed. destruct (axis_value show columns indy series fixed kc vars NE ND HK HV HN data before var groups values W HS HM fv) as (parts & F & E).
    exists parts. split; [exact F|]. rewrite E in Ed. destruct (axis_pairs fv); [discriminate Ed|]. injection Ed as <-. reflexivity. }
  destruct (G _ _ E1) as (parts1 & P1 & ->). destruct (G _ _ E2) as (parts2 & P2 & ->).
  pose proof (nodup_app_l _ _ ND) as N1.
  destruct (both_kept show set_order columns data indy (Some (Some vars1)) (Some (Some vars2)) series series series fixed fixed' kc vars _ _ W NE SO N1 N1 NS
    (merged_same _ N1) ND HK HV HN F1 F2 E1 E2) as (rows & kept & K & E).
  { intros r Hr. apply in_app_or in Hr. destruct Hr as [Hr|Hr]; [eapply part_sub; [exact P1|exact Hr]|eapply part_sub; [exact P2|exact Hr]]. }
  rewrite E. destruct K as [K S]. assert (kept = rows) as ->; [|rewrite (keyed_map _ _ _ _ _ K); reflexivity].
  eapply selection_unique; [exact S|apply selection_all|intros; reflexivity].
  intros [k r] Hk. cbn [fst]. pose proof (keyed_in _ _ _ _ _ _ K Hk) as EK. cbn [fst snd] in EK.
  assert (In r (map snd (concat parts1) ++ map snd (concat parts2))%list) as Hr by (rewrite <- (keyed_map _ _ _ _ _ K); apply in_map_iff; exists (k, r); auto).
  apply in_app_or in Hr. destruct Hr as [Hr|Hr].
  - eapply part_common; [exact P1|exact Hr| |exact K|exact EK]. intros; apply in_or_app; left; assumption.
  - eapply part_common; [exact P2|exact Hr| |exact K|exact EK]. intros; apply in_or_app; right; assumption.
Qed.

Lemma C52_same_series_case_proof :
  perform_event_equalization show_lead (fun l => l) [] "fcst_lead" (Some (Some [("TMP", ["ME"])])) (Some (Some [("TMP", ["RMSE"])]))
    [("model", ["A"])] [("model", ["A"])]
    (eqz_columns, [eqz_row "d1" "A" "NH" "ME"; eqz_row "d2" "A" "NH" "ME"; eqz_row "d2" "A" "NH" "RMSE"])
  = Ok (Some (eqz_columns, [eqz_row "d1" "A" "NH" "ME"; eqz_row "d2" "A" "NH" "ME"; eqz_row "d2" "A" "NH" "RMSE"])).
Proof.
  reflexivity.
Qed.

Lemma C52_shared_variable_refuted_proof : forall set_order, (forall x, set_order [x] = [x]) ->
  perform_event_equalization show_lead set_order [] "fcst_lead" (Some (Some [("TMP", ["ME"])])) (Some (Some [("TMP", ["ME"])]))
    [("model", ["A"])] [("model", ["B"])]
    (eqz_columns, [eqz_row "d1" "A" "NH" "ME"; eqz_row "d1" "B" "NH" "ME"; eqz_row "d2" "B" "NH" "ME"; eqz_row "d3" "A" "NH" "ME"])
  = Ok (Some (eqz_columns, [eqz_row "d1" "A" "NH" "ME"; eqz_row "d1" "B" "NH" "ME"; eqz_row "d2" "B" "NH" "ME"])).
Proof.
  intros set_order H. unfold perform_event_equalization, all_series.
  replace (map (fun kv : string * list string => (fst kv, set_order (snd kv))) (fold_left (fun d kv => dict_set (fst kv) (snd kv) d) [("model", ["B"])] [("model", ["A"])]))
    with [("model", ["B"])] by (cbn [fold_left dict_set String.eqb fst snd map Ascii.eqb Bool.eqb]; rewrite H; reflexivity).
  reflexivity.
Qed.

Lemma C53_axis_proof : forall show columns data indy series fixed kc vars values,
  Rectangular data columns -> ~ In "equalize" columns ->
  NoDup (map fst series ++ map fst fixed) -> KeyColumns columns true indy kc ->
  Variables series fixed vars -> (forall n, In n (map fst vars) -> In n columns) ->
  series <> [] -> (forall n, In n (map fst series) -> In n columns) ->
  Forall2 (fun sv vals => exists ls, Forall2 Pieces (snd sv) ls /\ vals = concat ls) series values ->
  exists parts out,
    Forall2 (fun svv part => exists sub, Selection (Listed columns (fst (fst svv)) (snd svv)) data sub /\
               Equalized show columns kc vars sub part) (combine series values) parts /\
    WithKeys show columns kc (concat parts) out /\
    run_ee_on_axis show indy series (map fst fixed) (map snd fixed) (columns, data)
      = Ok (Some ((columns ++ ["equalize"])%list, out)).
Proof.
  intros show columns data indy series fixed kc vars values W NE ND HK HV HN NS HC HP.
  destruct (run_value show columns indy series fixed kc vars data NE ND HK HV HN W series values HP HC [] None) as (parts & F & E); [left; auto|].
  exists (map (map snd) parts), (with_key (concat parts)). split; [|split].
  - clear E. induction F as [|vs kept l parts (sub & rows & S & K) F IH]; [constructor|]. cbn [map]. constructor; [|exact IH].
    exists sub. split; [exact S|]. eapply kept_equalized. exact K.
  - rewrite <- concat_map. eapply run_keys. exact F.
  - unfold run_ee_on_axis. rewrite E. destruct series; [contradiction|]. reflexivity.
Qed.

Lemma C53_axis_case_proof :
  run_ee_on_axis show_lead "fcst_lead" [("model", ["A:B"])] ["vx_mask"] [["NH"]]
    (eqz_columns, [eqz_row "d1" "A" "NH" "ME"; eqz_row "d1" "B" "NH" "ME"; eqz_row "d2" "A" "NH" "ME"])
  = Ok (Some ((eqz_columns ++ ["equalize"])%list,
      [eqz_row "d1" "A" "NH" "ME" ++ [CStr "d1 12"]; eqz_row "d1" "B" "NH" "ME" ++ [CStr "d1 12"]]%list)) /\
  Forall2 (fun sv vals => exists ls, Forall2 Pieces (snd sv) ls /\ vals = concat ls) [("model", ["A:B"])] [["A"; "B"]].
Proof.
  split; [reflexivity|]. constructor; [|constructor]. exists [["A"; "B"]]. split; [|reflexivity]. constructor; [|constructor].
  split; [discriminate|]. split; [reflexivity|]. repeat constructor; cbn; intuition discriminate.
Qed.

Lemma C53_copies_refuted_proof :
  run_ee_on_axis show_lead "fcst_lead" [("model", ["A"]); ("vx_mask", ["NH"])] [] [] (eqz_columns, [eqz_row "d1" "A" "NH" "ME"])
  = Ok (Some ((eqz_columns ++ ["equalize"])%list,
      [eqz_row "d1" "A" "NH" "ME" ++ [CStr "d1 12"]; eqz_row "d1" "A" "NH" "ME" ++ [CStr "d1 12"]]%list)).
Proof.
  reflexivity.
Qed.

Lemma C53_fixed_refuted_proof : forall show uniq indy series1 series2 input a b ka kb x y z,
  agg_stat_event_equalize show uniq [(a, [(ka, [x; y])]); (b, [(kb, [z])])] indy series1 series2 input =
  agg_stat_event_equalize show uniq [(a, [(ka, [x])]); (b, [(kb, [y])])] indy series1 series2 input.
Proof.
  intros show uniq indy series1 series2 input a b ka kb x y z.
  assert (forall f s, equalize_frame show f indy s [a; b] [[x]; [y]; [z]] = equalize_frame show f indy s [a; b] [[x]; [y]]) as H.
  { intros f s. unfold equalize_frame, event_equalize.
    assert (ee_vars s [a; b] [[x]; [y]; [z]] = ee_vars s [a; b] [[x]; [y]]) as ->; [|reflexivity].
    unfold ee_vars. cbn [fixed_vars nth_error]. reflexivity. }
  assert (forall s vs o, run_ee_loop show indy s [a; b] [[x]; [y]; [z]] input vs o = run_ee_loop show indy s [a; b] [[x]; [y]] input vs o) as G.
  { intros s vs. induction vs as [|[v l] vs IH]; intro o; [reflexivity|]. cbn [run_ee_loop].
    destruct (filter_column (fst input) v (isin_text (flat_map (split_on ":") l)) (snd input)) as [d|]; [|reflexivity]. cbn [bind]. rewrite H.
    destruct (equalize_frame show (fst input, d) indy s [a; b] [[x]; [y]]) as [io|]; [|reflexivity]. cbn [bind].
    destruct (match o with Some (c, (_ :: _) as d0) => concat_frames o (Some (snd io)) | _ => Ok (Some (snd io)) end); [|reflexivity]. cbn [bind]. apply IH. }
  unfold agg_stat_event_equalize, run_ee_on_axis, flat_permuted. cbn [map fst snd flat_map product app]. 
  rewrite !G. destruct (snd input) as [|r d]; [reflexivity|].
  destruct (run_ee_loop show indy series1 [a; b] [[x]; [y]] input series1 None) as [o1|]; [|reflexivity]. cbn [bind].
  destruct series2 as [|s2 series2]; [reflexivity|].
  destruct (run_ee_loop show indy (s2 :: series2) [a; b] [[x]; [y]] input (s2 :: series2) None) as [o2|]; [|reflexivity]. cbn [bind].
  destruct (drop_required o1) as [f1|]; [|reflexivity]. cbn [bind]. destruct (drop_required o2) as [f2|]; [|reflexivity]. cbn [bind].
  destruct (concat_frames (Some f1) (Some f2)) as [all|]; [|reflexivity]. cbn [bind]. rewrite H. reflexivity.
Qed.

Lemma C53_both_proof : forall show uniq columns data indy series1 series2 fixed fixed' kc vars d1 d2 k1 k2,
  Rectangular data columns -> ~ In "equalize" columns ->
  (forall l x, In x (uniq l) <-> In x l) ->
  data <> [] -> series2 <> [] -> NoDup (map fst series2 ++ map fst fixed) -> KeyColumns columns true indy kc ->
  Variables series2 fixed vars -> (forall n, In n (map fst vars) -> In n columns) ->
  map fst fixed' = map fst fixed ->
  Forall2 (fun kv' kv => map snd (snd kv') = map (fun x => [x]) (snd kv)) fixed' fixed ->
  run_ee_on_axis show indy series1 (map fst fixed) (map snd fixed) (columns, data) = Ok (Some ((columns ++ ["equalize"])%list, k1)) ->
  run_ee_on_axis show indy series2 (map fst fixed) (map snd fixed) (columns, data) = Ok (Some ((columns ++ ["equalize"])%list, k2)) ->
  WithKeys show columns kc d1 k1 -> WithKeys show columns kc d2 k2 -> (forall r, In r (d1 ++ d2) -> In r data) ->
  exists part out,
    agg_stat_event_equalize show uniq fixed' indy series1 series2 (columns, data) = Ok (Some ((columns ++ ["equalize"])%list, out)) /\
    Equalized show columns kc vars (d1 ++ d2) part /\ WithKeys show columns kc part out.
Proof.
  intros show uniq columns data indy series1 series2 fixed fixed' kc vars d1 d2 k1 k2 W NE SO NDt NS ND HK HV HN F1 F2 E1 E2 WK1 WK2 Sub.
  pose proof (all_series_same (fun l => uniq (l ++ l)%list) series2
    (fun l x => iff_trans (SO (l ++ l)%list x) (conj (fun h => match in_app_or _ _ _ h with or_introl i => i | or_intror i => i end) (fun h => in_or_app _ _ _ (or_introl h))))) as SV.
  destruct (variables_same _ _ _ fixed _ HV (Permutation_refl _) SV) as (vars' & HV' & SameV).
  set (s' := map (fun kv : string * list string => (fst kv, uniq (snd kv ++ snd kv)%list)) series2) in *.
  assert (NoDup (map fst s' ++ map fst fixed)) as ND' by (rewrite <- (same_names _ _ SV); exact ND).
  assert (Rectangular (d1 ++ d2)%list columns) as W' by (intros r Hr; apply W, Sub, Hr).
  destruct (equalize_frame_value show columns indy s' fixed kc vars' NE ND' HK HV'
    (fun n H => HN n (same_vars_names _ _ n SameV H)) (d1 ++ d2)%list W') as (rows & kept & K & E).
  pose proof (kept_same _ _ _ _ _ _ _ _ SameV K) as K'.
  exists (map snd kept), (with_key kept). split; [|split; [eapply kept_equalized; exact K'|eapply kept_keys; exact K']].
  unfold agg_stat_event_equalize. cbn [snd]. destruct data as [|r0 data]; [contradiction|]. rewrite F1, (flat_permuted_single _ _ F2), E1. cbn [bind].
  destruct series2 as [|sv series2]; [contradiction|]. rewrite E2. cbn [bind drop_required].
  rewrite (drop_withkeys show columns kc d1 k1 NE); [|intros r Hr; apply W', in_or_app; left; exact Hr|exact WK1]. cbn [bind].
  rewrite (drop_withkeys show columns kc d2 k2 NE); [|intros r Hr; apply W', in_or_app; right; exact Hr|exact WK2]. cbn [bind].
  rewrite concat_same. cbn [bind]. fold s'. rewrite E. reflexivity.
Qed.

Lemma C53_both_case_proof :
  let data := [eqz_row "d1" "A" "NH" "ME"; eqz_row "d2" "A" "NH" "ME"; eqz_row "d1" "A" "SH" "ME"] in
  agg_stat_event_equalize show_lead (fun l => l) [] "fcst_lead" [("vx_mask", ["NH"; "SH"])] [("model", ["A"])] (eqz_columns, data)
    = Ok (Some ((eqz_columns ++ ["equalize"])%list,
        [eqz_row "d1" "A" "NH" "ME" ++ [CStr "d1 12"]; eqz_row "d1" "A" "SH" "ME" ++ [CStr "d1 12"];
         eqz_row "d1" "A" "NH" "ME" ++ [CStr "d1 12"]; eqz_row "d2" "A" "NH" "ME" ++ [CStr "d2 12"];
         eqz_row "d1" "A" "SH" "ME" ++ [CStr "d1 12"]]%list)).
Proof.
  reflexivity.
Qed.

Lemma C53_dates_refuted_proof : forall show columns data indy series fixed kc vars var vals,
  Rectangular data columns -> ~ In "equalize" columns ->
  NoDup (map fst series ++ map fst fixed) -> KeyColumns columns true indy kc ->
  Variables series fixed vars -> (forall n, In n (map fst vars) -> In n columns) ->
  series = [(var, vals)] -> In var columns -> (forall r c, In r data -> CellOf columns r var c -> exists w, c = CStr w /\ DateTime w) ->
  run_ee_on_axis show indy series (map fst fixed) (map snd fixed) (columns, data)
    = Ok (Some ((columns ++ ["equalize"])%list, [])).
Proof.
  intros show columns data indy series fixed kc vars var vals W NE ND HK HV HN HS HI HD.
  destruct (run_turn show columns indy series fixed kc vars data NE ND HK HV HN W (var, vals) (flat_map (split_on ":") vals) [] None [])
    as (kept & (sub & rows & S & K) & E); [exact HI|reflexivity|left; auto|].
  unfold run_ee_on_axis. rewrite HS at 2. rewrite E. cbn [run_ee_loop app].
  assert (sub = []) as ->; [|rewrite (kept_nil _ _ _ _ _ _ K); reflexivity].
  apply (selection_none _ _ _ S). intros r Hr L. cbn [fst snd] in L. destruct (get_cell columns r var HI (W r Hr)) as (c & _ & C).
  destruct (L c C) as (s & -> & Hs). destruct (HD r _ Hr C) as (w & Ew & D). injection Ew as <-.
  apply in_flat_map in Hs. destruct Hs as (v & _ & Hs). exact (split_free _ _ _ Hs (datetime_colon _ D)).
Qed.

Lemma C54_axis_proof : forall show columns data pcolumns prev fcst_vars series values,
  Rectangular data columns -> Rectangular prev pcolumns ->
  In "fcst_valid" columns -> In "fcst_lead" columns -> In "fcst_var" columns -> ~ In "equalize" columns ->
  In "fcst_var" pcolumns -> In "equalize" pcolumns ->
  (forall n, In n (map fst series) -> In n columns /\ In n pcolumns) ->
  Forall2 (fun sv vals => exists ls, Forall2 Pieces (snd sv) ls /\ vals = concat ls) series values ->
  exists parts,
    Forall2 (fun fvs part => exists sub rows kept,
        let fv := fst fvs in let var := fst (fst (snd fvs)) in let vals := snd (snd fvs) in
        Selection (fun r => CellOf columns r "fcst_var" (CStr fv) /\ Listed columns var vals r) data sub /\
        Keyed show columns ["fcst_valid"; "fcst_lead"] sub rows /\
        Selection (fun kr => exists r, In r prev /\ CellOf pcolumns r "fcst_var" (CStr fv) /\ Listed pcolumns var vals r /\
                                       CellOf pcolumns r "equalize" (CStr (fst kr))) rows kept /\
        part = map snd kept)
      (list_prod (map fst fcst_vars) (combine series values)) parts /\
    eqz_on_axis show (columns, data) (pcolumns, prev) fcst_vars series = Ok (concat parts).
Proof.
  intros show columns data pcolumns prev fcst_vars series values W WP Iv Il If NE PIf PIe HC HP.
  set (P := fun (fvs : string * ((string * list string) * list string)) (part : tdata) => exists sub rows kept,
        let fv := fst fvs in let var := fst (fst (snd fvs)) in let vals := snd (snd fvs) in
        Selection (fun r => CellOf columns r "fcst_var" (CStr fv) /\ Listed columns var vals r) data sub /\
        Keyed show columns ["fcst_valid"; "fcst_lead"] sub rows /\
        Selection (fun kr => exists r, In r prev /\ CellOf pcolumns r "fcst_var" (CStr fv) /\ Listed pcolumns var vals r /\
                                       CellOf pcolumns r "equalize" (CStr (fst kr))) rows kept /\
        part = map snd kept).
  assert (forall fv sv vals, In sv series -> (exists ls, Forall2 Pieces (snd sv) ls /\ vals = concat ls) ->
    exists part, P (fv, (sv, vals)) part /\ eqz_pair show (columns, data) (pcolumns, prev) fv sv = Ok part) as G.
  { intros fv [var gs] vals Hsv (ls & Fp & ->). cbn [snd] in Fp. destruct (HC var) as [Ic Ip]; [apply in_map_iff; exists (var, gs); auto|].
    destruct (in_index _ _ If) as [i Ei]. destruct (in_index _ _ Ic) as [j Ej].
    destruct (in_index _ _ PIf) as [pi Epi]. destruct (in_index _ _ Ip) as [pj Epj]. destruct (in_index _ _ PIe) as [e Ee].
    set (d2 := filter (testat j (isin_text (concat ls))) (filter (testat i (equals_text fv)) data)).
    set (p2 := filter (testat pj (isin_text (concat ls))) (filter (testat pi (equals_text fv)) prev)).
    assert (Rectangular d2 columns) as W2 by (intros r Hr; apply filter_In in Hr; destruct Hr as [Hr _]; apply filter_In in Hr; apply W, Hr).
    assert (Rectangular p2 pcolumns) as WP2 by (intros r Hr; apply filter_In in Hr; destruct Hr as [Hr _]; apply filter_In in Hr; apply WP, Hr).
    assert (forall r, In r p2 -> exists c, CellOf pcolumns r "equalize" c /\ cell_at e r = Ok c) as CE.
    { intros r Hr. destruct (get_cell pcolumns r "equalize" PIe (WP2 r Hr)) as (c & _ & C). exists c. split; [exact C|].
      unfold cell_at. rewrite (cellof_nth _ _ _ _ _ Ee C). reflexivity. }
    assert (exists cs, mapM (cell_at e) p2 = Ok cs) as [cs Ecs].
    { clear -CE. induction p2 as [|r p2 IH]; [exists []; reflexivity|]. destruct (CE r (or_introl eq_refl)) as (c & _ & Ec).
      destruct IH as [cs E]; [intros; apply CE; right; assumption|]. exists (c :: cs). cbn [mapM]. rewrite Ec. cbn [bind]. rewrite E. reflexivity. }
    destruct (keyed_exists show columns ["fcst_valid"; "fcst_lead"] d2) as [rows K]; [intros c [<-|[<-|[]]]; assumption|exact W2|].
    destruct (against_values_spec show d2 columns (texts_of cs) rows W2 Iv Il NE K) as (kept & S & E).
    exists (map snd kept). split.
    - exists d2, rows, kept. cbn [fst snd]. split; [|split; [exact K|split; [|reflexivity]]].
      + unfold d2. rewrite filter_filter. apply selection_filter. intros r Hr. rewrite andb_true_iff. rewrite (testat_cell _ _ _ _ _ Ei).
        rewrite <- (listed_iff columns var (concat ls) r (W r Hr)). unfold ptest. rewrite Ej. tauto.
      + eapply selection_ext; [exact S|]. intros kr _. rewrite texts_in.
        assert (forall r, In r p2 <-> In r prev /\ CellOf pcolumns r "fcst_var" (CStr fv) /\ Listed pcolumns var (concat ls) r) as IP.
        { intro r. unfold p2. rewrite !filter_In. rewrite (testat_cell _ _ _ _ _ Epi). split.
          - intros [[A B] C]. split; [exact A|]. split; [exact B|]. apply (listed_iff _ _ _ _ (WP r A)). unfold ptest. rewrite Epj. exact C.
          - intros (A & B & C). split; [auto|]. apply (listed_iff _ _ _ _ (WP r A)) in C. unfold ptest in C. rewrite Epj in C. exact C. }
        pose proof (mapM_inv _ _ _ Ecs) as FM. split.
        * intro H. assert (exists r, In r p2 /\ cell_at e r = Ok (CStr (fst kr))) as (r & Hr & Er).
          { clear -FM H. induction FM as [|r c p2 cs Er FM IH]; [destruct H|]. destruct H as [->|H]; [exists r; split; [left; reflexivity|exact Er]|].
            destruct (IH H) as (r' & Hr' & E'). exists r'. split; [right; exact Hr'|exact E']. }
          destruct (CE r Hr) as (c & C & Ec). rewrite Ec in Er. injection Er as ->. exists r. apply IP in Hr. tauto.
        * intros (r & A & B & C & D). assert (In r p2) as Hr by (apply IP; auto).
          destruct (CE r Hr) as (c & C' & Ec). rewrite (cell_of_fun _ _ _ _ _ D C').
          clear -FM Hr Ec. induction FM as [|r' c' p2 cs Er FM IH]; [destruct Hr|]. destruct Hr as [->|Hr]; [left; congruence|right; auto].
    - unfold eqz_pair. cbn [fst snd]. rewrite (pieces_value _ _ Fp). rewrite (filter_column_value _ _ _ _ i Ei W). cbn [bind].
      rewrite (filter_column_value _ _ _ _ j Ej); [|apply filter_width; exact W]. cbn [bind].
      rewrite (filter_column_value _ _ _ _ pi Epi WP). cbn [bind].
      rewrite (filter_column_value _ _ _ _ pj Epj); [|apply filter_width; exact WP]. cbn [bind]. rewrite Ee. fold d2 p2. rewrite Ecs. cbn [bind]. exact E. }
  assert (forall l, exists pss, Forall2 P (list_prod (map fst l) (combine series values)) (concat pss) /\
     mapM (fun fv : string * list string => mapM (eqz_pair show (columns, data) (pcolumns, prev) (fst fv)) series) l = Ok pss) as O.
  { induction l as [|fv l (pss & Fp & E)]; [exists []; split; [constructor|reflexivity]|].
    destruct (mapM_exists (eqz_pair show (columns, data) (pcolumns, prev) (fst fv)) (fun x b => P (fst fv, x) b) _ series values HP
      (fun sv vals Hs Hv => G (fst fv) sv vals Hs Hv)) as (ps & Fi & Ei).
    exists (ps :: pss). split; [|cbn [mapM]; rewrite Ei; cbn [bind]; rewrite E; reflexivity].
    cbn [map list_prod concat]. apply Forall2_app; [|exact Fp]. clear -Fi. induction Fi; constructor; assumption. }
  destruct (O fcst_vars) as (pss & Fp & E). exists (concat pss). split; [exact Fp|].
  unfold eqz_on_axis. rewrite E. cbn [bind]. f_equal. clear. induction pss as [|ps pss IH]; [reflexivity|]. cbn [map concat]. rewrite concat_app, IH. reflexivity.
Qed.

Lemma C54_axis_case_proof :
  let columns := ["fcst_valid"; "fcst_lead"; "fcst_var"; "model"] in
  eqz_on_axis show_lead
    (columns, [[CStr "d1"; CNum 12; CStr "TMP"; CStr "A"]; [CStr "d2"; CNum 12; CStr "TMP"; CStr "A"]])
    ((columns ++ ["equalize"])%list, [[CStr "d2"; CNum 12; CStr "TMP"; CStr "A"; CStr "d2 12"]; [CStr "d1"; CNum 12; CStr "TMP"; CStr "B"; CStr "d1 12"]])
    [("TMP", ["ME"])] [("model", ["A"])]
  = Ok [[CStr "d2"; CNum 12; CStr "TMP"; CStr "A"]].
Proof.
  reflexivity.
Qed.

Lemma C53_missing_proof : forall show columns data indy series fix_vars fix_vals var,
  In var (map fst series) -> ~ In var columns ->
  (forall out, run_ee_on_axis show indy series fix_vars fix_vals (columns, data) <> Ok out) /\
  (hd_error (map fst series) = Some var -> run_ee_on_axis show indy series fix_vars fix_vals (columns, data) = Err KeyError).
Proof.
  intros show columns data indy series fv fx var Hin N.
  assert (forall name test d, ~ In name columns -> filter_column columns name test d = Err KeyError) as F.
  { intros name test d M. unfold filter_column. rewrite (proj2 (index_of_None _ _) M). reflexivity. }
  split.
  - intros out. unfold run_ee_on_axis.
    assert (forall vars acc, In var (map fst vars) -> run_ee_loop show indy series fv fx (columns, data) vars acc <> Ok out) as G; [|apply G; exact Hin].
    clear Hin. induction vars as [|[v vals] rest IH]; intros acc Hin; [destruct Hin|]. cbn [run_ee_loop fst snd].
    destruct (string_dec v var) as [->|D].
    + rewrite F by exact N. discriminate.
    + destruct Hin as [E|Hin]; [contradiction|]. destruct (filter_column _ _ _ _); [|discriminate]. cbn [bind].
      destruct (equalize_frame _ _ _ _ _ _); [|discriminate]. cbn [bind].
      match goal with |- bind ?x _ <> _ => destruct x; [|discriminate] end. cbn [bind]. apply IH. exact Hin.
  - destruct series as [|[v vals] rest]; [discriminate|]. simpl. intros [= ->]. unfold run_ee_on_axis. cbn [run_ee_loop fst snd]. rewrite F by exact N. reflexivity.
Qed.

Lemma C53_missing_case_proof :
  In "thresh" (map fst [("model", ["A"]); ("thresh", [">0"])]) /\ ~ In "thresh" eqz_columns.
Proof.
  split; [right; left; reflexivity|]. intros H. simpl in H. repeat (destruct H as [H|H]; [discriminate H|]). exact H.
Qed.

Lemma C53_empty_proof : forall show uniq fixed indy series1 series2 columns,
  agg_stat_event_equalize show uniq fixed indy series1 series2 (columns, []) = Ok None.
Proof.
  reflexivity.
Qed.

Lemma C54_missing_proof : forall show columns data pcolumns prev fcst_vars series,
  fcst_vars <> [] -> series <> [] ->
  (~ In "fcst_var" columns \/ ~ In "fcst_var" pcolumns \/ ~ In "equalize" pcolumns \/
   exists n, In n (map fst series) /\ (~ In n columns \/ ~ In n pcolumns)) ->
  forall out, eqz_on_axis show (columns, data) (pcolumns, prev) fcst_vars series <> Ok out.
Proof.
  intros show columns data pcolumns prev fvs series F S H out.
  assert (forall cols name test d, ~ In name cols -> filter_column cols name test d = Err KeyError) as FC.
  { intros cols name test d M. unfold filter_column. rewrite (proj2 (index_of_None _ _) M). reflexivity. }
  assert (exists sv, In sv series /\ forall fv t, eqz_pair show (columns, data) (pcolumns, prev) fv sv <> Ok t) as (sv & Hsv & E).
  { destruct H as [H|[H|[H|(n & Hn & H)]]].
    - destruct series as [|sv r]; [contradiction|]. exists sv. split; [left; reflexivity|]. intros fv t. unfold eqz_pair. cbn [fst snd]. rewrite FC by exact H. discriminate.
    - destruct series as [|sv r]; [contradiction|]. exists sv. split; [left; reflexivity|]. intros fv t. unfold eqz_pair. cbn [fst snd].
      destruct (filter_column columns _ _ _); [|discriminate]. cbn [bind]. destruct (filter_column columns _ _ _); [|discriminate]. cbn [bind]. rewrite FC by exact H. discriminate.
    - destruct series as [|sv r]; [contradiction|]. exists sv. split; [left; reflexivity|]. intros fv t. unfold eqz_pair. cbn [fst snd].
      rewrite (proj2 (index_of_None _ _) H).
      destruct (filter_column columns _ _ _); [|discriminate]. cbn [bind]. destruct (filter_column columns _ _ _); [|discriminate]. cbn [bind].
      destruct (filter_column pcolumns _ _ _); [|discriminate]. cbn [bind]. destruct (filter_column pcolumns _ _ _); discriminate.
    - apply in_map_iff in Hn. destruct Hn as (sv & <- & Hsv). exists sv. split; [exact Hsv|]. intros fv t. unfold eqz_pair. cbn [fst snd].
      destruct (filter_column columns _ _ _); [|discriminate]. cbn [bind].
      destruct H as [H|H]; [rewrite FC by exact H; discriminate|].
      destruct (filter_column columns _ _ _); [|discriminate]. cbn [bind].
      destruct (filter_column pcolumns _ _ _); [|discriminate]. cbn [bind]. rewrite FC by exact H. discriminate. }
  unfold eqz_on_axis. destruct fvs as [|fv rest]; [contradiction|]. cbn [mapM].
  assert (forall t, mapM (eqz_pair show (columns, data) (pcolumns, prev) (fst fv)) series <> Ok t) as M.
  { intros t Ht. apply mapM_inv in Ht. clear - Ht Hsv E. induction Ht as [|x y l l' X Ht IH]; [destruct Hsv|]. destruct Hsv as [->|Hsv]; [exact (E _ _ X)|auto]. }
  destruct (mapM (eqz_pair show (columns, data) (pcolumns, prev) (fst fv)) series) as [t|]; [destruct (M t eq_refl)|discriminate].
Qed.

Lemma C54_missing_case_proof :
  [("TMP", ["ME"])] <> [] /\ [("model", ["A"])] <> [] /\ ~ In "equalize" eqz_columns.
Proof.
  split; [discriminate|]. split; [discriminate|]. intros H. simpl in H. repeat (destruct H as [H|H]; [discriminate H|]). exact H.
Qed.

