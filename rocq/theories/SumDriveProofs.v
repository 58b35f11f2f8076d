(** Proofs about summary statistics of lines. *)
From Coq Require Import Ascii.
From Verif Require Import PyBase ColumnModel BaseSpec BaseProofs EventModel EventSpec EventProofs UtilModel UtilSpec UtilProofs SumModel DriveModel DriveSpec DriveProofs.
From Verif Require Import SumDriveModel SumDriveSpec.
From Verif Require AggModel AggProofs SumProofs EqzProofs ModeDriveProofs CurveProofs.
From Coq Require Import List Lia.
Open Scope string_scope.

(* ---------- cells ---------- *)
Lemma get_cons m columns c r n : get (m :: columns) (c :: r) n = if String.eqb m n then Ok c else get columns r n.
Proof.
  unfold get. cbn [index_of]. rewrite String.eqb_sym. destruct (String.eqb n m); [reflexivity|]. destruct (index_of n columns); reflexivity.
Qed.
Definition proj (b : string -> bool) (columns : list string) (r : row) : row := map snd (filter (fun nc => b (fst nc)) (combine columns r)).
Definition tproj (b : string -> bool) (tb : table) : table := (filter b (fst tb), map (fun x => (fst x, proj b (fst tb) (snd x))) (snd tb)).
Lemma get_proj b n : b n = true -> forall columns r, length r = length columns -> get (filter b columns) (proj b columns r) n = get columns r n.
Proof.
  intro B. induction columns as [|m columns IH]; intros [|c r] L; try discriminate L; [reflexivity|]. injection L as L. rewrite get_cons. unfold proj. cbn [combine filter fst].
  destruct (b m) eqn:BM.
  - cbn [map snd]. rewrite get_cons. destruct (String.eqb m n); [reflexivity|]. apply IH. exact L.
  - destruct (String.eqb_spec m n) as [->|N]; [congruence|]. apply IH. exact L.
Qed.
Lemma proj_length b : forall columns r, length r = length columns -> length (proj b columns r) = length (filter b columns).
Proof.
  induction columns as [|m columns IH]; intros [|c r] L; try discriminate L; [reflexivity|]. injection L as L. unfold proj. cbn [combine filter fst].
  destruct (b m); cbn [map length]; rewrite (IH r L) || (f_equal; exact (IH r L)); reflexivity.
Qed.
Lemma combine_proj b : forall columns r, length r = length columns -> combine (filter b columns) (proj b columns r) = filter (fun nc => b (fst nc)) (combine columns r).
Proof.
  induction columns as [|m columns IH]; intros [|c r] L; try discriminate L; [reflexivity|]. injection L as L. unfold proj. cbn [combine filter fst].
  destruct (b m); cbn [map combine snd]; [f_equal|]; exact (IH r L).
Qed.
Definition wide (tb : table) : Prop := forall x, In x (snd tb) -> length (snd x) = length (fst tb).
Lemma tproj_tproj a b tb : wide tb -> tproj b (tproj a tb) = tproj (fun n => a n && b n) tb.
Proof.
  intro W. unfold tproj. cbn [fst snd]. f_equal; [apply EqzProofs.filter_filter|]. rewrite map_map. apply map_ext_in. intros x Hx. cbn [fst snd]. f_equal.
  unfold proj at 1. rewrite combine_proj by (apply W; exact Hx). unfold proj. f_equal. apply EqzProofs.filter_filter.
Qed.
Lemma tproj_wide b tb : wide tb -> wide (tproj b tb).
Proof. intros W x Hx. unfold tproj in Hx. cbn [snd] in Hx. apply in_map_iff in Hx. destruct Hx as (y & <- & Hy). cbn [snd fst]. unfold tproj. cbn [fst]. apply proj_length. apply W. exact Hy. Qed.
Lemma drop_tproj n tb : drop_column n tb = tproj (fun m => negb (String.eqb m n)) tb.
Proof. reflexivity. Qed.
Lemma tproj_ext a b tb : (forall n, In n (fst tb) -> a n = b n) -> tproj a tb = tproj b tb.
Proof.
  intro E. unfold tproj. f_equal; [apply filter_ext_in; exact E|]. apply map_ext_in. intros x _. f_equal. unfold proj. f_equal. apply filter_ext_in. intros [n c] I. apply in_combine_l in I. apply E. exact I.
Qed.
Definition kept (fields : list string) (n : string) : bool := negb (mem n fields) && negb (String.eqb n "equalize").
Lemma drop_fields_value names : forall fields a tb, wide tb -> (forall n, In n names -> In n (fst tb)) -> (forall n, In n (fst tb) -> In n fields -> In n names) -> NoDup fields ->
  (forall n, In n fields -> a n = true) ->
  drop_fields names fields (tproj a tb) = Ok (tproj (fun n => a n && negb (mem n fields)) tb).
Proof.
  induction fields as [|f fields IH]; intros a tb W S D ND A; cbn [drop_fields].
  - f_equal. apply tproj_ext. intros n _. cbn [mem existsb]. rewrite Bool.andb_true_r. reflexivity.
  - inversion ND as [|? ? NI ND']; subst. destruct (mem f names) eqn:M.
    + apply mem_iff in M. assert (mem f (fst (tproj a tb)) = true) as ->.
      { apply mem_iff. unfold tproj. cbn [fst]. apply filter_In. split; [apply S; exact M|apply A; left; reflexivity]. }
      rewrite drop_tproj, tproj_tproj by exact W. rewrite IH; try assumption.
      * f_equal. apply tproj_ext. intros n _. cbn [mem existsb]. rewrite Bool.negb_orb, Bool.andb_assoc. reflexivity.
      * intros n I J. apply D; [exact I|right; exact J].
      * intros n I. rewrite A by (right; exact I). destruct (String.eqb_spec n f) as [->|]; [contradiction|reflexivity].
    + rewrite IH; try assumption.
      * f_equal. apply tproj_ext. intros n I. cbn [mem existsb]. destruct (String.eqb_spec n f) as [->|N]; [|reflexivity].
        exfalso. assert (mem f names = true) by (apply mem_iff; apply D; [exact I|left; reflexivity]). congruence.
      * intros n I J. apply D; [exact I|right; exact J].
      * intros n I. apply A. right. exact I.
Qed.
Lemma tproj_all tb : wide tb -> tproj (fun _ => true) tb = tb.
Proof.
  intro W. destruct tb as [columns rows]. unfold tproj. cbn [fst snd]. f_equal; [apply ModeDriveProofs.filter_all; reflexivity|].
  transitivity (map (fun x : nat * row => x) rows); [|apply map_id]. apply map_ext_in. intros [i r] H. cbn [fst snd]. f_equal. unfold proj.
  rewrite ModeDriveProofs.filter_all by reflexivity. specialize (W (i, r) H). cbn [fst snd] in W. clear H. revert r W.
  induction columns as [|m columns IH]; intros [|c r] W; try discriminate W; [reflexivity|]. cbn. f_equal. apply IH. injection W as W. exact W.
Qed.
Lemma finish_value names fields tb : wide tb -> (forall n, In n names -> In n (fst tb)) -> (forall n, In n (fst tb) -> In n fields -> In n names) -> NoDup fields ->
  finish names fields tb = Ok (filter (kept fields) (fst tb), map (fun x => proj (kept fields) (fst tb) (snd x)) (snd tb)).
Proof.
  intros W S D ND. unfold finish. rewrite <- (tproj_all tb W) at 1. rewrite drop_fields_value; [|assumption|assumption|assumption|assumption|reflexivity]. cbn [bind].
  rewrite drop_tproj, tproj_tproj by exact W. cbn [andb]. unfold tproj. cbn [fst snd]. f_equal. f_equal. rewrite map_map. reflexivity.
Qed.

(* ---------- values of rows ---------- *)
Section Rows.
Variable statistic : string -> option (list string -> tdata -> res pyval).
Variable names : list string.
Lemma row_value_ok r v : row_value statistic names names r = Ok v <-> StatisticOf statistic names r v.
Proof.
  unfold row_value, StatisticOf. split.
  - destruct (get names r "stat_name") as [c|] eqn:E; [|discriminate]. cbn [bind]. destruct c as [q| |s]; try discriminate. destruct (statistic (lower s)) as [f|] eqn:F; [|discriminate].
    intro H. apply get_sound in E. exists s, (lower s), f. split; [exact E|]. split; [apply small_lower|]. auto.
  - intros (s & st & f & C & L & F & H). apply get_sound in C. rewrite C. cbn [bind]. apply small_fun in L. subst st. rewrite F. exact H.
Qed.
Lemma row_value_key r : length r = length names -> (row_value statistic names names r = Err KeyError <-> NoStatistic statistic names r).
Proof.
  intro L. unfold row_value, NoStatistic. split.
  - destruct (get names r "stat_name") as [c|e] eqn:E; cbn [bind].
    + destruct c as [q| |s]; try discriminate. intro H. right. apply get_sound in E. exists s, (lower s). split; [exact E|]. split; [apply small_lower|].
      destruct (statistic (lower s)) as [f|]; [right; exists f; auto|left; reflexivity].
    + intros _. left. intro I. destruct (ModeDriveProofs.get_some names r "stat_name" L I) as (c & G). congruence.
  - intros [N|(s & st & C & S & H)].
    + unfold get. apply index_of_None in N. rewrite N. reflexivity.
    + apply get_sound in C. rewrite C. cbn [bind]. apply small_fun in S. subst st. destruct H as [->|(f & -> & H)]; [reflexivity|exact H].
Qed.
Lemma row_values_all : forall rows vs, (forall r, In r rows -> length r = length names) -> (forall r, In r rows -> ~ NoStatistic statistic names r) ->
  row_values statistic names names rows = Ok vs -> exists values, vs = map Some values /\ Forall2 (StatisticOf statistic names) rows values.
Proof.
  induction rows as [|r rows IH]; intros vs L N H; cbn [row_values] in H; [injection H as <-; exists []; split; [reflexivity|constructor]|].
  destruct (row_value statistic names names r) as [v|e] eqn:E.
  - destruct (row_values statistic names names rows) as [ws|] eqn:R; [|discriminate H]. injection H as <-.
    destruct (IH ws (fun x I => L x (or_intror I)) (fun x I => N x (or_intror I)) eq_refl) as (values & -> & F). exists (v :: values). split; [reflexivity|]. constructor; [apply row_value_ok; exact E|exact F].
  - assert (e <> KeyError) as NK by (intros ->; apply row_value_key in E; [apply (N r); [left; reflexivity|exact E]|apply L; left; reflexivity]). destruct e; try discriminate H. contradiction.
Qed.
Lemma row_values_stop r after : forall before vs, (forall x, In x (before ++ r :: after) -> length x = length names) -> (forall x, In x before -> ~ NoStatistic statistic names x) -> NoStatistic statistic names r ->
  row_values statistic names names (before ++ r :: after) = Ok vs ->
  exists values, vs = (map Some values ++ map (fun _ => None) (r :: after))%list /\ Forall2 (StatisticOf statistic names) before values.
Proof.
  induction before as [|x before IH]; intros vs L N NR H.
  - cbn [app row_values] in H. assert (row_value statistic names names r = Err KeyError) as E by (apply row_value_key; [apply L; left; reflexivity|exact NR]). rewrite E in H. injection H as <-.
    exists []. split; [reflexivity|constructor].
  - cbn [app row_values] in H. destruct (row_value statistic names names x) as [v|e] eqn:E.
    + destruct (row_values statistic names names (before ++ r :: after)) as [ws|] eqn:R; [|discriminate H]. injection H as <-.
      destruct (IH ws (fun y I => L y (or_intror I)) (fun y I => N y (or_intror I)) NR eq_refl) as (values & -> & F). exists (v :: values). split; [reflexivity|]. constructor; [apply row_value_ok; exact E|exact F].
    + assert (e <> KeyError) as NK by (intros ->; apply row_value_key in E; [apply (N x); [left; reflexivity|exact E]|apply L; left; reflexivity]). destruct e; try discriminate H. contradiction.
Qed.
Lemma row_values_error r after e : forall before, (forall x, In x before -> exists v, StatisticOf statistic names x v) -> row_value statistic names names r = Err e -> e <> KeyError ->
  row_values statistic names names (before ++ r :: after) = Err e.
Proof.
  induction before as [|x before IH]; intros N E NK; cbn [app row_values].
  - rewrite E. destruct e; try reflexivity. contradiction.
  - destruct (N x (or_introl eq_refl)) as (v & S). apply row_value_ok in S. rewrite S. rewrite IH; [reflexivity|intros y I; apply N; right; exact I|exact E|exact NK].
Qed.
End Rows.

(* ---------- written values ---------- *)
Lemma relabel_snd rows : map snd (relabel rows) = rows.
Proof. unfold relabel. rewrite <- (map_id rows) at 3. generalize 0%nat. induction rows as [|r rows IH]; intro k; [reflexivity|]. cbn [length seq combine map snd]. rewrite IH. reflexivity. Qed.
Lemma get_set i v names r n : index_of "stat_value" names = Some i -> n <> "stat_value" -> get names (AggModel.set_nth i v r) n = get names r n.
Proof.
  intros E N. unfold get. destruct (index_of n names) as [j|] eqn:J; [|reflexivity]. unfold cell_at. rewrite AggProofs.set_nth_other; [reflexivity|].
  intros ->. apply index_of_ColumnAt in E, J. destruct E as (E & _), J as (J & _). congruence.
Qed.
Lemma get_new names r v n : length r = length names -> get (names ++ ["stat_value"]) (r ++ [v]) n = if mem n names then get names r n else if String.eqb "stat_value" n then Ok v else Err KeyError.
Proof.
  revert r. induction names as [|m names IH]; intros [|c r] L; try discriminate L; [apply get_cons|]. injection L as L. cbn [app]. rewrite !get_cons. cbn [mem existsb].
  rewrite (String.eqb_sym n m). destruct (String.eqb m n); [reflexivity|]. cbn [orb]. apply IH. exact L.
Qed.
Definition opt_cell (v : option pyval) : cell := match v with Some x => value_cell x | None => CMiss end.
Lemma value_cell_iff v : ValueCell v (value_cell v).
Proof. destruct v; reflexivity. Qed.
Lemma kept_iff fields n : kept fields n = true <-> n <> "equalize" /\ ~ In n fields.
Proof.
  unfold kept. rewrite Bool.andb_true_iff, !Bool.negb_true_iff. destruct (mem n fields) eqn:M; destruct (String.eqb_spec n "equalize") as [E|E]; split; intro H; try (destruct H; congruence); try tauto.
  - exfalso. apply (proj2 H). apply mem_iff. exact M.
  - split; [exact E|]. intro I. apply mem_iff in I. congruence.
Qed.
Lemma sum_table names fields rows vs : (forall r, In r rows -> length r = length names) -> length vs = length rows -> NoDup fields -> ~ In "stat_value" fields ->
  forall out output, finish names fields (write_values (names, relabel rows) vs) = Ok (out, output) ->
  SumTable names fields (combine rows vs) out output.
Proof.
  intros L LV ND NS out output H.
  assert (forall (f : (nat * row) * option pyval -> row) (g : row -> option pyval -> row), (forall x v, f (x, v) = g (snd x) v) -> forall k, map f (combine (combine (seq k (length rows)) rows) vs) = map (fun e => g (fst e) (snd e)) (combine rows vs)) as MC.
  { intros f g FG. clear - FG. revert vs. induction rows as [|r rows IH]; intros vs k; [reflexivity|]. destruct vs as [|v vs]; [reflexivity|]. cbn [length seq combine map fst snd]. rewrite FG. f_equal. apply IH. }
  assert (kept fields "stat_value" = true) as KS by (apply kept_iff; split; [discriminate|exact NS]).
  assert (forall e, In e (combine rows vs) -> length (fst e) = length names) as LE by (intros [r v] I; apply in_combine_l in I; apply L; exact I).
  unfold write_values in H. cbn [fst snd] in H. destruct (index_of "stat_value" names) as [i|] eqn:E.
  - assert (In "stat_value" names) as IS by (eapply CurveProofs.index_in; exact E).
    rewrite finish_value in H.
    + cbn [fst snd] in H. injection H as <- <-. split.
      * exists names. split; [|left; auto]. apply selection_filter. intros n _. apply kept_iff.
      * rewrite map_map. cbn [fst snd]. unfold relabel.
        rewrite (MC _ (fun r v => proj (kept fields) names (match v with Some v => AggModel.set_nth i (value_cell v) r | None => r end))) by (intros; reflexivity).

        assert (forall l, (forall e, In e l -> length (fst e) = length names) -> Forall2 (fun e o => OutRow names (filter (kept fields) names) (fst e) (snd e) o) l (map (fun e => proj (kept fields) names (match snd e with Some v => AggModel.set_nth i (value_cell v) (fst e) | None => fst e end)) l)) as K; [|apply K; exact LE].
        intros l HL. induction l as [|[r v] l IH]; constructor; [|apply IH; intros e I; apply HL; right; exact I]. cbn [fst snd].
        specialize (HL (r, v) (or_introl eq_refl)). cbn [fst] in HL.
        assert (length (match v with Some v => AggModel.set_nth i (value_cell v) r | None => r end) = length names) as HL' by (destruct v; [rewrite AggProofs.set_nth_length|]; exact HL).
        split; [apply proj_length; exact HL'|]. split.
        -- intros n c NV I. apply filter_In in I. rewrite <- !get_sound. rewrite get_proj by (try exact HL'; apply I). destruct v as [v|]; [rewrite (get_set i _ names r n E NV)|]; reflexivity.
        -- destruct v as [v|].
           ++ exists (value_cell v). split; [|apply value_cell_iff]. apply get_sound. rewrite get_proj by (try exact HL'; exact KS). unfold get. rewrite E. unfold cell_at. rewrite AggProofs.set_nth_same; [reflexivity|]. apply index_of_lt in E. lia.
           ++ split; [|contradiction]. intros c _. rewrite <- !get_sound. rewrite get_proj by (try exact HL'; exact KS). reflexivity.
    + intros x Hx. cbn [fst snd] in *. apply in_map_iff in Hx. destruct Hx as ([[k r] v] & <- & I). cbn [fst snd]. apply in_combine_l in I. apply in_combine_r in I.
      destruct v; [rewrite AggProofs.set_nth_length|]; apply L; exact I.
    + intros n I. exact I.
    + intros n I _. exact I.
    + exact ND.
  - assert (~ In "stat_value" names) as IS by (apply index_of_None; exact E).
    destruct (existsb (fun v => match v with Some _ => true | None => false end) vs) eqn:X.
    + rewrite finish_value in H.
      * cbn [fst snd] in H. injection H as <- <-. split.
        -- exists (names ++ ["stat_value"])%list. split; [apply selection_filter; intros n _; apply kept_iff|]. right. split; [exact IS|]. split; [|reflexivity].
           intro F. apply existsb_exists in X. destruct X as ([x|] & I & X); [|discriminate X]. apply In_nth_error in I. destruct I as (j & I).
           destruct (nth_error rows j) as [r|] eqn:J; [|apply nth_error_None in J; assert (nth_error vs j <> None) as Y by congruence; apply nth_error_Some in Y; lia].
           rewrite Forall_forall in F. assert (In (r, Some x) (combine rows vs)) as Y.
           { clear - I J. revert vs I J. generalize dependent j. induction rows as [|r0 rows IH]; intros [|j] [|v vs] I J; try discriminate; cbn in *; [injection I as ->; injection J as ->; left; reflexivity|right; eapply IH; eassumption]. }
           specialize (F _ Y). discriminate F.
        -- rewrite map_map. cbn [fst snd]. unfold relabel.
           rewrite (MC _ (fun r v => proj (kept fields) (names ++ ["stat_value"]) (r ++ [opt_cell v]))) by (intros; reflexivity).
           assert (forall l, (forall e, In e l -> length (fst e) = length names) -> Forall2 (fun e o => OutRow names (filter (kept fields) (names ++ ["stat_value"])) (fst e) (snd e) o) l (map (fun e => proj (kept fields) (names ++ ["stat_value"]) (fst e ++ [opt_cell (snd e)])) l)) as K; [|apply K; exact LE].
           intros l HL. induction l as [|[r v] l IH]; constructor; [|apply IH; intros e I; apply HL; right; exact I]. cbn [fst snd].
           specialize (HL (r, v) (or_introl eq_refl)). cbn [fst] in HL.
           assert (length (r ++ [opt_cell v]) = length (names ++ ["stat_value"])) as HL' by (rewrite !app_length; cbn; lia).
           assert (get (filter (kept fields) (names ++ ["stat_value"])) (proj (kept fields) (names ++ ["stat_value"]) (r ++ [opt_cell v])) "stat_value" = Ok (opt_cell v)) as GS.
           { rewrite get_proj by (try exact HL'; exact KS). rewrite get_new by exact HL. destruct (mem "stat_value" names) eqn:M; [apply mem_iff in M; contradiction|]. reflexivity. }
           split; [apply proj_length; exact HL'|]. split.
           ++ intros n c NV I. apply filter_In in I. destruct I as (I & K). rewrite <- !get_sound. rewrite get_proj by (try exact HL'; exact K). rewrite get_new by exact HL.
              apply in_app_or in I. destruct I as [I|[<-|[]]]; [|contradiction]. apply mem_iff in I. rewrite I. reflexivity.
           ++ destruct v as [v|].
              ** exists (value_cell v). split; [apply get_sound; exact GS|apply value_cell_iff].
              ** split; [contradiction|]. intros _ _. apply get_sound. exact GS.
      * intros x Hx. cbn [fst snd] in *. apply in_map_iff in Hx. destruct Hx as ([[k r] v] & <- & I). cbn [fst snd]. apply in_combine_l in I. apply in_combine_r in I. rewrite !app_length, (L r I). reflexivity.
      * intros n I. apply in_or_app. left. exact I.
      * intros n I J. apply in_app_or in I. destruct I as [I|[<-|[]]]; [exact I|contradiction].
      * exact ND.
    + assert (Forall (fun e : row * option pyval => snd e = None) (combine rows vs)) as FN.
      { apply Forall_forall. intros [r [x|]] I; [|reflexivity]. exfalso. apply in_combine_r in I. assert (existsb (fun v : option pyval => match v with Some _ => true | None => false end) vs = true) by (apply existsb_exists; exists (Some x); auto). congruence. }
      rewrite finish_value in H.
      * cbn [fst snd] in H. injection H as <- <-. split.
        -- exists names. split; [apply selection_filter; intros n _; apply kept_iff|left; auto].
        -- assert (map (fun x : nat * row => proj (kept fields) names (snd x)) (relabel rows) = map (fun e => proj (kept fields) names (fst e)) (combine rows vs)) as ->.
           { rewrite <- (map_map snd (proj (kept fields) names)), relabel_snd, <- (map_map fst (proj (kept fields) names)). f_equal. symmetry. apply ModeDriveProofs.combine_fst'. symmetry. exact LV. }
           revert LE FN. generalize (combine rows vs). intros l HL FN. induction l as [|[r v] l IH]; constructor; [|apply IH; [intros e I; apply HL; right; exact I|inversion FN; assumption]].
           cbn [fst snd]. specialize (HL (r, v) (or_introl eq_refl)). cbn [fst] in HL. inversion FN as [|? ? V _]; subst. cbn [snd] in V. subst v.
           split; [apply proj_length; exact HL|]. split.
           ++ intros n c NV I. apply filter_In in I. rewrite <- !get_sound. rewrite get_proj by (try exact HL; apply I). reflexivity.
           ++ split; [contradiction|]. intros _ I. apply filter_In in I. destruct I as (I & _). contradiction.
      * intros x Hx. cbn [fst snd] in *. apply (in_map snd) in Hx. rewrite relabel_snd in Hx. apply L. exact Hx.
      * intros n I. exact I.
      * intros n I _. exact I.
      * exact ND.
Qed.

(* ---------- request ---------- *)
Lemma line_known lt fields : In (lt, fields) line_fields -> AggModel.assoc lt STATISTIC_TO_FIELDS = Some fields /\ NoDup fields /\ ~ In "stat_value" fields /\ In "total" fields.
Proof.
  intro H. repeat (destruct H as [[= <- <-]|H]; [split; [reflexivity|split; [repeat constructor; cbn; intuition discriminate|split; [cbn; intuition discriminate|cbn; tauto]]]|]). destruct H.
Qed.
Lemma line_unknown lt : ~ In lt (map fst line_fields) -> AggModel.assoc lt STATISTIC_TO_FIELDS = None.
Proof.
  intro N. assert (forall l, ~ In lt (map fst l) -> AggModel.assoc lt l = (None : option (list string))) as K.
  { induction l as [|[k v] l IH]; intro H; [reflexivity|]. cbn. destruct (String.eqb_spec k lt) as [->|X]; [exfalso; apply H; left; reflexivity|]. apply IH. intro I. apply H. right. exact I. }
  apply K. intro I. apply N. cbn in *. tauto.
Qed.
Lemma rename_value c n : (In (c, n) anomalies \/ (~ In c (map fst anomalies) /\ n = c)) -> n = rename_anomaly c.
Proof.
  unfold rename_anomaly, anomalies. intros [I|(N & ->)].
  - repeat (destruct I as [[= <- <-]|I]; [reflexivity|]). destruct I.
  - cbn [AggModel.assoc]. repeat match goal with |- context [String.eqb ?a c] => destruct (String.eqb_spec a c) as [E|_]; [exfalso; apply N; rewrite <- E; cbn; tauto|] end. reflexivity.
Qed.
Lemma names_value lt columns names : NamesFor lt columns names -> (if String.eqb lt "sal1l2" then map rename_anomaly columns else columns) = names.
Proof.
  intros [(N & ->)|(-> & F)]; [destruct (String.eqb_spec lt "sal1l2"); [contradiction|reflexivity]|]. cbn.
  induction F as [|c n l m H F IH]; [reflexivity|]. cbn [map]. rewrite IH, (rename_value c n H). reflexivity.
Qed.
Lemma names_length lt columns names : NamesFor lt columns names -> length names = length columns.
Proof. intro H. rewrite <- (names_value _ _ _ H). destruct (String.eqb lt "sal1l2"); [apply map_length|reflexivity]. Qed.
Lemma existsb_none (b : string -> bool) l : (forall x, In x l -> b x = false) -> existsb b l = false.
Proof. induction l as [|x l IH]; intro H; [reflexivity|]. cbn. rewrite (H x (or_introl eq_refl)). apply IH. intros y I. apply H. right. exact I. Qed.
Lemma axis_plain lt indy indys series tb : NoGroups indys series -> aggregate_special_fields lt indy indys (Some series) tb = Ok tb.
Proof.
  intros (A & B). unfold aggregate_special_fields.
  rewrite (existsb_none _ indys) by (intros v I; apply has_char_false; apply A; exact I). rewrite (existsb_none _ (map fst series)) by (intros v I; apply has_char_false; apply B; exact I).
  destruct series; reflexivity.
Qed.
Lemma row_values_length statistic names columns : forall rows vs, row_values statistic names columns rows = Ok vs -> length vs = length rows.
Proof.
  induction rows as [|r rows IH]; intros vs H; cbn [row_values] in H; [injection H as <-; reflexivity|]. destruct (row_value statistic names columns r) as [v|e].
  - destruct (row_values statistic names columns rows) as [ws|]; [|discriminate H]. injection H as <-. cbn. f_equal. apply IH. reflexivity.
  - destruct e; try discriminate H. injection H as <-. cbn [length map]. f_equal. apply map_length.
Qed.
Lemma plain_run statistic columns names data lt fields indy indys s1 s2 : In (lt, fields) line_fields -> NamesFor lt columns names -> NoGroups indys s1 -> NoGroups indys s2 -> data <> [] ->
  calculate_stats statistic columns data lt indy indys (Some s1) (Some s2) =
    bind (row_values statistic names names data) (fun vs => finish names fields (write_values (names, relabel data) vs)).
Proof.
  intros F N G1 G2 ND. unfold calculate_stats. destruct data as [|r data]; [contradiction|]. destruct (line_known _ _ F) as (-> & _). rewrite (names_value _ _ _ N).
  rewrite (axis_plain lt indy indys s1 _ G1), (axis_plain lt indy indys s2 _ G2). cbn [fst snd]. rewrite relabel_snd. reflexivity.
Qed.

(* ---------- groups ---------- *)
Definition ktest (columns : list string) (n : string) (test : cell -> bool) (r : row) : bool := match get columns r n with Ok c => test c | Err _ => false end.
Lemma keep_rows_value test n tb : wide tb -> In n (fst tb) -> keep_rows test n tb = Ok (fst tb, filter (fun x => ktest (fst tb) n test (snd x)) (snd tb)).
Proof.
  intros W I. unfold keep_rows. destruct (index_of n (fst tb)) as [i|] eqn:E; [|apply index_of_None in E; contradiction].
  rewrite (SumProofs.filterM_ok _ (fun x => ktest (fst tb) n test (snd x))); [reflexivity|]. intros x Hx. destruct (ModeDriveProofs.get_some (fst tb) (snd x) n (W x Hx) I) as (c & G).
  unfold ktest. rewrite G. unfold get in G. rewrite E in G. rewrite G. reflexivity.
Qed.
Definition vals_of (v : string) : list string := if has_char ";" v then split_on ";" v else split_on ":" v.
Fixpoint ptests (columns names point : list string) (r : row) : bool :=
  match names, point with
  | n :: names', v :: point' => ktest columns n (isin (map want (vals_of v))) r && ptests columns names' point' r
  | _, _ => true
  end.
Lemma wide_filter b columns rows : wide (columns, rows) -> wide (columns, filter b rows).
Proof. intros W x H. cbn [fst snd] in *. apply filter_In in H. apply W. apply H. Qed.
Lemma keep_point_value columns : forall names point rows, wide (columns, rows) -> (forall n, In n names -> In n columns) ->
  keep_point names point (columns, rows) = Ok (columns, filter (fun x => ptests columns names point (snd x)) rows).
Proof.
  induction names as [|n names IH]; intros point rows W I.
  - cbn [keep_point ptests]. rewrite ModeDriveProofs.filter_all by reflexivity. reflexivity.
  - destruct point as [|v point]; cbn [keep_point ptests]; [rewrite ModeDriveProofs.filter_all by reflexivity; reflexivity|].
    fold (vals_of v). rewrite keep_rows_value by (try exact W; apply I; left; reflexivity). cbn [bind fst snd]. rewrite IH; [|apply wide_filter; exact W|intros m J; apply I; right; exact J].
    rewrite EqzProofs.filter_filter. reflexivity.
Qed.
Lemma sum_points_value lt indy i columns names rows : wide (columns, rows) -> (forall n, In n names -> In n columns) -> has_char ";" i = false -> forall points series acc,
  (forall p, In p points -> existsb (has_char ";") p = false) ->
  sum_points lt indy i names (columns, rows) points series acc =
    Ok (series, (match points with [] => fst acc | _ => columns end, snd acc ++ flat_map (fun p => filter (fun x => ptests columns names p (snd x)) rows) points)%list).
Proof.
  intros W I NI. induction points as [|p points IH]; intros series acc NP; cbn [sum_points flat_map].
  - rewrite app_nil_r. destruct acc. reflexivity.
  - rewrite keep_point_value by assumption. cbn [bind fst snd]. rewrite (NP p (or_introl eq_refl)), NI. cbn [bind fst snd]. rewrite IH by (intros q J; apply NP; right; exact J). cbn [fst snd].
    rewrite <- app_assoc. destruct points; reflexivity.
Qed.
Lemma sum_indys_value lt indy columns names rows points : wide (columns, rows) -> (forall n, In n names -> In n columns) -> In indy columns -> points <> [] ->
  (forall p, In p points -> existsb (has_char ";") p = false) -> forall indys series acc, (forall i, In i indys -> has_char ";" i = false) ->
  sum_indys lt indy names (columns, rows) points indys series acc =
    Ok (match indys with [] => fst acc | _ => columns end,
        snd acc ++ flat_map (fun ip => filter (fun x => ktest columns indy (isin_text (split_on ";" (fst ip))) (snd x) && ptests columns names (snd ip) (snd x)) rows) (list_prod indys points))%list.
Proof.
  intros W I II PN NP. induction indys as [|i indys IH]; intros series acc NI; cbn [sum_indys list_prod flat_map].
  - rewrite app_nil_r. destruct acc. reflexivity.
  - rewrite keep_rows_value by (try exact W; exact II). cbn [bind fst snd]. rewrite sum_points_value; [|apply wide_filter; exact W|exact I|apply NI; left; reflexivity|exact NP]. cbn [bind fst snd].
    rewrite IH by (intros j J; apply NI; right; exact J). cbn [fst snd]. rewrite flat_map_app. f_equal. f_equal.
    + destruct indys; [|reflexivity]. destruct points; [contradiction|reflexivity].
    + rewrite <- app_assoc. f_equal. f_equal. clear. induction points as [|p points IH]; [reflexivity|]. cbn [map flat_map]. rewrite IH. f_equal. cbn [fst snd]. apply EqzProofs.filter_filter.
Qed.

Lemma fold_same {A B} (f : B -> A -> res A) a : (forall x, f x a = Ok a) -> forall l, SumModel.foldM f l a = Ok a.
Proof. intros H. induction l as [|x l IH]; [reflexivity|]. cbn [SumModel.foldM]. rewrite H. exact IH. Qed.
Lemma aggregate_empty s columns lt rows : aggregate_field_values s columns [] lt = Ok rows -> rows = [].
Proof.
  unfold aggregate_field_values. destruct (index_of "fcst_valid_beg" columns) as [pi|]; [|discriminate]. destruct (index_of "fcst_lead" columns) as [li|]; [|discriminate]. cbn.
  rewrite fold_same; [intros [= <-]; reflexivity|]. intros [var vals]. apply fold_same. intro v. destruct (has_semicolon v); [|reflexivity]. unfold aggregate_value. destruct (String.eqb var "fcst_lead"); reflexivity.
Qed.
Lemma sum_points_empty lt indy i columns names : (forall n, In n names -> In n columns) -> forall points series acc r,
  sum_points lt indy i names (columns, []) points series acc = Ok r -> (fst (snd r) = match points with [] => fst acc | _ => columns end) /\ snd (snd r) = snd acc.
Proof.
  intros I. induction points as [|p points IH]; intros series acc r H; cbn [sum_points] in H; [injection H as <-; split; reflexivity|].
  rewrite keep_point_value in H by (try exact I; intros x []). cbn [bind filter fst snd] in H.
  assert (forall s rw, bind (aggregate_field_values s columns [] lt) (fun rows => Ok (s, (columns, rows))) = Ok rw -> snd rw = (columns, [])) as K.
  { intros s rw X. destruct (aggregate_field_values s columns [] lt) as [rows|] eqn:E; [|discriminate X]. injection X as <-. apply aggregate_empty in E. subst. reflexivity. }
  match type of H with bind ?x _ = _ => destruct x as [[s tb]|] eqn:E; [|discriminate H] end. cbn [bind fst snd] in H.
  assert (tb = (columns, [])) as ->.
  { destruct (existsb (has_char ";") p); [exact (K _ _ E)|]. destruct (has_char ";" i); [exact (K _ _ E)|]. injection E as _ <-. reflexivity. }
  apply IH in H. cbn [fst snd] in H. rewrite app_nil_r in H. destruct H as (A & B). split; [|exact B]. rewrite A. destruct points; reflexivity.
Qed.
Lemma sum_indys_empty lt indy columns names rows points : wide (columns, rows) -> (forall n, In n names -> In n columns) -> In indy columns -> points <> [] ->
  (forall x s, In x rows -> get columns (snd x) indy <> Ok (CStr s)) -> forall indys series acc r,
  sum_indys lt indy names (columns, rows) points indys series acc = Ok r -> fst r = match indys with [] => fst acc | _ => columns end /\ snd r = snd acc.
Proof.
  intros W I II PN NT. induction indys as [|i indys IH]; intros series acc r H; cbn [sum_indys] in H; [injection H as <-; split; reflexivity|].
  rewrite keep_rows_value in H by (try exact W; exact II). cbn [bind fst snd] in H.
  replace (filter (fun x => ktest columns indy (isin_text (split_on ";" i)) (snd x)) rows) with ([] : list (nat * row)) in H.
  - match type of H with bind ?x _ = _ => destruct x as [[s tb]|] eqn:E; [|discriminate H] end. cbn [bind fst snd] in H. apply sum_points_empty in E; [|exact I]. cbn [fst snd] in E. destruct E as (A & B).
    apply IH in H. destruct H as (X & Y). rewrite Y. split; [|exact B]. rewrite X. destruct indys; [|reflexivity]. rewrite A. destruct points; [contradiction|reflexivity].
  - clear - NT. induction rows as [|x rows IH]; [reflexivity|]. cbn [filter].
    replace (ktest columns indy (isin_text (split_on ";" i)) (snd x)) with false; [apply IH; intros y s J; apply NT; right; exact J|].
    unfold ktest. specialize (fun s => NT x s (or_introl eq_refl)). destruct (get columns (snd x) indy) as [c|]; [|reflexivity]. destruct c as [q| |s]; try reflexivity. exfalso. exact (NT s eq_refl).
Qed.
Lemma aggregate_empty_key s columns lt : aggregate_field_values s columns [] lt <> Err KeyError.
Proof.
  unfold aggregate_field_values. destruct (index_of "fcst_valid_beg" columns) as [pi|]; [|discriminate]. destruct (index_of "fcst_lead" columns) as [li|]; [|discriminate]. cbn.
  rewrite fold_same; [discriminate|]. intros [var vals]. apply fold_same. intro v. destruct (has_semicolon v); [|reflexivity]. unfold aggregate_value. destruct (String.eqb var "fcst_lead"); reflexivity.
Qed.
Lemma sum_points_key lt indy i columns names : (forall n, In n names -> In n columns) -> forall points series acc,
  sum_points lt indy i names (columns, []) points series acc <> Err KeyError.
Proof.
  intros I. induction points as [|p points IH]; intros series acc H; cbn [sum_points] in H; [discriminate H|].
  rewrite keep_point_value in H by (try exact I; intros x []). cbn [bind filter fst snd] in H.
  assert (forall s, bind (aggregate_field_values s columns [] lt) (fun rows => Ok (s, (columns, rows))) <> Err KeyError) as K.
  { intros s X. destruct (aggregate_field_values s columns [] lt) as [rows|e] eqn:E; [discriminate X|]. injection X as ->. exact (aggregate_empty_key _ _ _ E). }
  match type of H with bind ?x _ = _ => destruct x as [[s tb]|e] eqn:E end; [cbn [bind] in H; exact (IH _ _ H)|]. cbn [bind] in H. injection H as ->.
  destruct (existsb (has_char ";") p); [exact (K _ E)|]. destruct (has_char ";" i); [exact (K _ E)|discriminate E].
Qed.
Lemma no_text_rows columns indy i (rows : list (nat * row)) : (forall x s, In x rows -> get columns (snd x) indy <> Ok (CStr s)) ->
  filter (fun x => ktest columns indy (isin_text (split_on ";" i)) (snd x)) rows = [].
Proof.
  intro NT. induction rows as [|x rows IH]; [reflexivity|]. cbn [filter].
  replace (ktest columns indy (isin_text (split_on ";" i)) (snd x)) with false; [apply IH; intros y s J; apply NT; right; exact J|].
  unfold ktest. specialize (fun s => NT x s (or_introl eq_refl)). destruct (get columns (snd x) indy) as [c|]; [|reflexivity]. destruct c as [q| |s]; try reflexivity. exfalso. exact (NT s eq_refl).
Qed.
Lemma sum_indys_key lt indy columns names rows points : wide (columns, rows) -> (forall n, In n names -> In n columns) -> In indy columns ->
  (forall x s, In x rows -> get columns (snd x) indy <> Ok (CStr s)) -> forall indys series acc,
  sum_indys lt indy names (columns, rows) points indys series acc <> Err KeyError.
Proof.
  intros W I II NT. induction indys as [|i indys IH]; intros series acc H; cbn [sum_indys] in H; [discriminate H|].
  rewrite keep_rows_value in H by (try exact W; exact II). cbn [bind fst snd] in H. rewrite (no_text_rows columns indy i rows NT) in H.
  match type of H with bind ?x _ = _ => destruct x as [[s tb]|e] eqn:E end; [cbn [bind] in H; exact (IH _ _ H)|]. cbn [bind] in H. injection H as ->. exact (sum_points_key _ _ _ _ _ I _ _ _ E).
Qed.
Lemma product_nonempty {A} (ls : list (list A)) : (forall l, In l ls -> l <> []) -> product ls <> [].
Proof.
  induction ls as [|l ls IH]; intro H; [discriminate|]. cbn [product]. destruct l as [|a l]; [exfalso; exact (H [] (or_introl eq_refl) eq_refl)|]. cbn [flat_map].
  destruct (product ls) as [|p ps] eqn:E; [exfalso; apply IH; [intros x J; apply H; right; exact J|reflexivity]|]. discriminate.
Qed.
Lemma product_empty {A} (ls : list (list A)) : In [] ls -> product ls = [].
Proof. induction ls as [|l ls IH]; [intros []|]. intros [->|I]; [reflexivity|]. cbn [product]. rewrite (IH I). clear. induction l; [reflexivity|exact IHl]. Qed.
Lemma special_run lt indy indys series tb : (exists v, In v indys /\ Has ":" v) -> series <> [] ->
  aggregate_special_fields lt indy indys (Some series) tb =
    bind (sum_indys lt indy (map fst series) tb (product (map snd series)) indys series ([], [])) (fun acc => Ok (fst acc, relabel (map snd (snd acc)))).
Proof.
  intros (v & I & Hv) SN. unfold aggregate_special_fields. assert (existsb (has_char ":") indys = true) as -> by (apply existsb_exists; exists v; split; [exact I|apply has_char_iff; exact Hv]).
  cbn [orb]. destruct series; [contradiction|reflexivity].
Qed.
Lemma concat_split sep v : String.concat (String sep "") (split_on sep v) = v.
Proof.
  induction v as [|c v IH]; [reflexivity|]. cbn [split_on]. destruct (Ascii.eqb_spec c sep) as [->|N].
  - destruct (split_on sep v) as [|w l] eqn:E; [exfalso; exact (EventProofs.split_on_ne _ _ E)|]. change (String sep (String.concat (String sep "") (w :: l)) = String sep v). rewrite IH. reflexivity.
  - destruct (split_on sep v) as [|w l] eqn:E; [exfalso; exact (EventProofs.split_on_ne _ _ E)|]. destruct l as [|w' l]; cbn [String.concat append] in *; rewrite IH; reflexivity.
Qed.
Lemma parts_split v : Parts v (split_on ":" v).
Proof.
  split; [|split].
  - apply EventProofs.split_on_ne.
  - symmetry. apply concat_split.
  - apply Forall_forall. intros m I. exact (EqzProofs.split_free _ _ _ I).
Qed.
Lemma parts_unique v l : Parts v l -> l = split_on ":" v.
Proof. intros (N & -> & F). symmetry. apply DriveProofs.split_joined; assumption. Qed.
Lemma ptests_iff columns r : forall series p, length p = length series -> (forall v, In v p -> ~ Has ";" v) ->
  (ptests columns (map fst series) p r = true <-> OfSeries columns series p r).
Proof.
  induction series as [|[n vals] series IH]; intros [|v p] L NS; try discriminate L; [split; [constructor|reflexivity]|].
  cbn [map fst ptests]. rewrite andb_true_iff. rewrite IH by (try (injection L as L; exact L); intros w I; apply NS; right; exact I).
  assert (ktest columns n (isin (map want (vals_of v))) r = true <-> exists c l m, CellOf columns r n c /\ Parts v l /\ In m l /\ HasValue m c) as K.
  { unfold ktest, vals_of. rewrite (proj2 (has_char_false _ _) (NS v (or_introl eq_refl))). split.
    - destruct (get columns r n) as [c|] eqn:G; [|discriminate]. intro H. unfold isin in H. apply existsb_exists in H. destruct H as (w & I & X). apply in_map_iff in I. destruct I as (m & <- & I).
      exists c, (split_on ":" v), m. split; [apply get_sound; exact G|]. split; [apply parts_split|]. split; [exact I|apply wanted_iff; exact X].
    - intros (c & l & m & C & P & I & X). apply get_sound in C. rewrite C. apply parts_unique in P. subst l. unfold isin. apply existsb_exists. exists (want m). split; [apply in_map; exact I|apply wanted_iff; exact X]. }
  rewrite K. unfold OfSeries. split; [intros (A & B); constructor; [exact A|exact B]|]. intro H. inversion H; subst. split; assumption.
Qed.
Lemma product_length {A} (ls : list (list A)) : forall p, In p (product ls) -> length p = length ls.
Proof.
  induction ls as [|l ls IH]; intros p I; [destruct I as [<-|[]]; reflexivity|]. cbn [product] in I. apply in_flat_map in I. destruct I as (x & _ & I). apply in_map_iff in I. destruct I as (q & <- & I). cbn. f_equal. apply IH. exact I.
Qed.
Lemma product_in {A} (ls : list (list A)) : forall p v, In p (product ls) -> In v p -> exists l, In l ls /\ In v l.
Proof.
  induction ls as [|l ls IH]; intros p v I J; [destruct I as [<-|[]]; destruct J|]. cbn [product] in I. apply in_flat_map in I. destruct I as (x & X & I). apply in_map_iff in I. destruct I as (q & <- & I).
  destruct J as [->|J]; [exists l; split; [left; reflexivity|exact X]|]. destruct (IH q v I J) as (l' & U & V). exists l'. split; [right; exact U|exact V].
Qed.
Lemma relabel_wide names rows : (forall r, In r rows -> length r = length names) -> wide (names, relabel rows).
Proof. intros H x I. cbn [fst snd] in *. apply H. unfold relabel in I. destruct x. apply in_combine_r in I. exact I. Qed.
Lemma relabel_filter (b : row -> bool) rows : map snd (filter (fun x => b (snd x)) (relabel rows)) = filter b rows.
Proof.
  unfold relabel. generalize 0%nat as k. induction rows as [|r rows IH]; intro k; [reflexivity|]. cbn [length seq combine filter snd]. destruct (b r); cbn [map snd]; rewrite IH; reflexivity.
Qed.
Lemma row_in_relabel rows x : In x (relabel rows) -> In (snd x) rows.
Proof. unfold relabel. destruct x. intro I. apply in_combine_r in I. exact I. Qed.
Lemma write_none tb vs : (forall v, In v vs -> v = None) -> length vs = length (snd tb) -> write_values tb vs = tb.
Proof.
  intros H L. unfold write_values. destruct (index_of "stat_value" (fst tb)) as [i|].
  - destruct tb as [names rows]. cbn [fst snd] in *. f_equal. revert vs H L. induction rows as [|[k r] rows IH]; intros [|v vs] H L; try discriminate L; [reflexivity|]. cbn [combine map fst snd].
    rewrite (H v (or_introl eq_refl)). f_equal. apply IH; [intros w I; apply H; right; exact I|injection L as L; exact L].
  - replace (existsb _ vs) with false; [reflexivity|]. symmetry. induction vs as [|v vs IH]; [reflexivity|]. cbn [existsb]. rewrite (H v (or_introl eq_refl)). cbn [orb].
    clear - H. induction vs as [|w vs IH]; [reflexivity|]. cbn [existsb]. rewrite (H w (or_intror (or_introl eq_refl))). cbn [orb]. apply IH. intros u [->|I]; apply H; [left; reflexivity|right; right; exact I].
Qed.

Lemma match_nonempty {A B} (l : list A) (x y : B) : l <> [] -> match l with [] => x | _ => y end = y.
Proof. destruct l; [contradiction|reflexivity]. Qed.

Lemma isin_iff values c : isin_text values c = true <-> exists s, c = CStr s /\ In s values.
Proof.
  destruct c as [q| |s]; simpl; try (split; [discriminate|intros (s & E & _); discriminate E]).
  rewrite mem_iff. split; [eauto|]. intros (s' & E & H). injection E as ->. exact H.
Qed.

Lemma keep_rows_missing test n tb : ~ In n (fst tb) -> keep_rows test n tb = Err KeyError.
Proof. intro N. unfold keep_rows. apply index_of_None in N. rewrite N. reflexivity. Qed.
Lemma keep_point_missing columns n : ~ In n columns -> forall names point rows, wide (columns, rows) -> length point = length names -> In n names -> keep_point names point (columns, rows) = Err KeyError.
Proof.
  intro NC. induction names as [|m names IH]; intros [|v point] rows W L I; try discriminate L; [destruct I|]. cbn [keep_point]. destruct (in_dec string_dec m columns) as [Im|Nm].
  - rewrite keep_rows_value by (try exact W; exact Im). cbn [bind fst snd]. apply IH; [apply wide_filter; exact W|injection L as L; exact L|]. destruct I as [->|I]; [contradiction|exact I].
  - rewrite keep_rows_missing by exact Nm. reflexivity.
Qed.
Lemma sum_indys_missing lt indy columns names rows points indys series acc : wide (columns, rows) -> points <> [] -> (forall p, In p points -> length p = length names) -> indys <> [] ->
  (exists n, In n (indy :: names) /\ ~ In n columns) -> sum_indys lt indy names (columns, rows) points indys series acc = Err KeyError.
Proof.
  intros W PN PL IN (n & I & NC). destruct indys as [|i indys]; [contradiction|]. destruct points as [|p points]; [contradiction|]. cbn [sum_indys sum_points]. destruct (in_dec string_dec indy columns) as [II|NI].
  - rewrite keep_rows_value by (try exact W; exact II). cbn [bind fst snd]. rewrite (keep_point_missing columns n NC names p); [reflexivity|apply wide_filter; exact W|apply PL; left; reflexivity|]. destruct I as [->|I]; [contradiction|exact I].
  - rewrite keep_rows_missing by exact NI. reflexivity.
Qed.

(** The statements of PropertiesSumDrive.v. *)
Lemma C64_rows_proof : forall statistic columns names data line_type fields indy indys series1 series2 out output,
  Rectangular data columns -> In (line_type, fields) line_fields -> NamesFor line_type columns names -> NoDup names ->
  NoGroups indys series1 -> NoGroups indys series2 -> (forall r, In r data -> ~ NoStatistic statistic names r) ->
  calculate_stats statistic columns data line_type indy indys (Some series1) (Some series2) = Ok (out, output) ->
  exists values, Forall2 (StatisticOf statistic names) data values /\
    SumTable names fields (combine data (map Some values)) out output.
Proof.
  intros statistic columns names data line_type fields indy indys series1 series2 out output RC F N ND G1 G2 NS H.
  assert (data <> []) as DN by (intros ->; discriminate H). rewrite (plain_run statistic columns names data line_type fields indy indys series1 series2 F N G1 G2 DN) in H.
  assert (forall r, In r data -> length r = length names) as L by (intros r I; rewrite (names_length _ _ _ N); apply RC; exact I).
  destruct (row_values statistic names names data) as [vs|] eqn:R; [|discriminate H]. cbn [bind] in H. pose proof (row_values_length _ _ _ _ _ R) as LV.
  destruct (row_values_all statistic names data vs L NS R) as (values & -> & FV). exists values. split; [exact FV|].
  destruct (line_known _ _ F) as (_ & NDF & NV & _). exact (sum_table names fields data _ L LV NDF NV out output H).
Qed.

Lemma C64_stop_refuted_proof : forall statistic columns names data line_type fields indy indys series1 series2 before r after out output,
  Rectangular data columns -> In (line_type, fields) line_fields -> NamesFor line_type columns names -> NoDup names ->
  NoGroups indys series1 -> NoGroups indys series2 ->
  data = (before ++ r :: after)%list -> (forall x, In x before -> ~ NoStatistic statistic names x) -> NoStatistic statistic names r ->
  calculate_stats statistic columns data line_type indy indys (Some series1) (Some series2) = Ok (out, output) ->
  exists values, Forall2 (StatisticOf statistic names) before values /\
    SumTable names fields (combine data (map Some values ++ map (fun _ => None) (r :: after))) out output.
Proof.
  intros statistic columns names data line_type fields indy indys series1 series2 before r after out output RC F N ND G1 G2 -> NB NR H.
  rewrite (plain_run statistic columns names (before ++ r :: after) line_type fields indy indys series1 series2 F N G1 G2) in H by (intro E; apply app_eq_nil in E; destruct E; discriminate).
  assert (forall x, In x (before ++ r :: after) -> length x = length names) as L by (intros x I; rewrite (names_length _ _ _ N); apply RC; exact I).
  destruct (row_values statistic names names (before ++ r :: after)) as [vs|] eqn:R; [|discriminate H]. cbn [bind] in H. pose proof (row_values_length _ _ _ _ _ R) as LV.
  destruct (row_values_stop statistic names r after before vs L NB NR R) as (values & -> & FV). exists values. split; [exact FV|].
  destruct (line_known _ _ F) as (_ & NDF & NV & _). exact (sum_table names fields _ _ L LV NDF NV out output H).
Qed.

Lemma C64_joined_refuted_proof : forall statistic columns data line_type indy indys series1 series2,
  NoGroups indys series1 -> NoGroups indys series2 ->
  calculate_stats statistic columns data line_type indy indys (Some series1) (Some series2) =
  calculate_stats statistic columns data line_type indy [] (Some []) (Some []).
Proof.
  intros statistic columns data line_type indy indys series1 series2 G1 G2. unfold calculate_stats. destruct data as [|r data]; [reflexivity|]. destruct (AggModel.assoc line_type STATISTIC_TO_FIELDS); [|reflexivity].
  rewrite (axis_plain line_type indy indys series1 _ G1), (axis_plain line_type indy indys series2 _ G2). reflexivity.
Qed.

Lemma C64_groups_proof : forall statistic columns names data line_type fields indy indys series out output,
  Rectangular data columns -> In (line_type, fields) line_fields -> NamesFor line_type columns names -> NoDup names ->
  In indy names -> (forall n, In n (map fst series) -> In n names) -> (forall n vals, In (n, vals) series -> vals <> []) -> series <> [] ->
  (exists v, In v indys /\ Has ":" v) ->
  (forall v, In v indys -> ~ Has ";" v) -> (forall n vals v, In (n, vals) series -> In v vals -> ~ Has ";" v) ->
  (forall r, In r data -> ~ NoStatistic statistic names r) ->
  calculate_stats statistic columns data line_type indy indys (Some series) (Some []) = Ok (out, output) ->
  exists blocks values,
    Forall2 (fun ip rows => Selection (fun r => CellOf names r indy (CStr (fst ip)) /\ OfSeries names series (snd ip) r) data rows)
      (list_prod indys (combinations (map snd series))) blocks /\
    Forall2 (StatisticOf statistic names) (concat blocks) values /\
    SumTable names fields (combine (concat blocks) (map Some values)) out output.
Proof.
  intros statistic columns names data line_type fields indy indys series out output RC F N ND II IS SV SN HG NI NP NS H.
  assert (forall r, In r data -> length r = length names) as L by (intros r I; rewrite (names_length _ _ _ N); apply RC; exact I).
  destruct (line_known _ _ F) as (A & NDF & NV & _). unfold calculate_stats in H. assert (data <> []) as DN by (intros ->; discriminate H).
  rewrite (match_nonempty data) in H by exact DN. rewrite A, (names_value _ _ _ N), (special_run _ _ _ _ _ HG SN) in H.
  assert (product (map snd series) <> []) as PN by (apply product_nonempty; intros l I; apply in_map_iff in I; destruct I as ([n vals] & <- & I); exact (SV n vals I)).
  assert (forall p v, In p (product (map snd series)) -> In v p -> ~ Has ";" v) as NP'.
  { intros p v I J. destruct (product_in _ _ _ I J) as (l & K & M). apply in_map_iff in K. destruct K as ([n vals] & <- & K). exact (NP n vals v K M). }
  rewrite sum_indys_value in H.
  2: apply relabel_wide; exact L.
  2: exact IS.
  2: exact II.
  2: exact PN.
  2: intros p I; apply existsb_none; intros v J; apply has_char_false; exact (NP' p v I J).
  2: intros i I; apply has_char_false; exact (NI i I).
  cbn [bind fst snd aggregate_special_fields app] in H.
  destruct HG as (v0 & I0 & _). replace (match indys with [] => [] | _ => names end) with names in H by (destruct indys; [destruct I0|reflexivity]).
  set (blocks := map (fun ip => filter (fun r => ktest names indy (isin_text (split_on ";" (fst ip))) r && ptests names (map fst series) (snd ip) r) data) (list_prod indys (product (map snd series)))).
  assert (map snd (flat_map (fun ip => filter (fun x => ktest names indy (isin_text (split_on ";" (fst ip))) (snd x) && ptests names (map fst series) (snd ip) (snd x)) (relabel data)) (list_prod indys (product (map snd series)))) = concat blocks) as EB.
  { unfold blocks. rewrite <- flat_map_concat_map. generalize (list_prod indys (product (map snd series))) as l. induction l as [|ip l IH]; [reflexivity|]. cbn [flat_map]. rewrite map_app, IH. f_equal.
    exact (relabel_filter (fun r => ktest names indy (isin_text (split_on ";" (fst ip))) r && ptests names (map fst series) (snd ip) r) data). }
  rewrite EB in H. cbn [fst snd] in H. rewrite relabel_snd in H.
  assert (forall r, In r (concat blocks) -> In r data) as SUB.
  { intros r I. apply in_concat in I. destruct I as (b & K & I). unfold blocks in K. apply in_map_iff in K. destruct K as (ip & <- & _). apply filter_In in I. apply I. }
  assert (forall r, In r (concat blocks) -> length r = length names) as LB by (intros r I; apply L, SUB, I).
  destruct (row_values statistic names names (concat blocks)) as [vs|] eqn:R; [|discriminate H]. cbn [bind] in H. pose proof (row_values_length _ _ _ _ _ R) as LV.
  destruct (row_values_all statistic names (concat blocks) vs LB (fun r I => NS r (SUB r I)) R) as (values & -> & FV). exists blocks, values. split; [|split; [exact FV|exact (sum_table names fields _ _ LB LV NDF NV out output H)]].
  rewrite combinations_product. unfold blocks. clear - NI NP' L.
  assert (forall l, (forall ip, In ip l -> In ip (list_prod indys (product (map snd series)))) ->
    Forall2 (fun ip rows => Selection (fun r => CellOf names r indy (CStr (fst ip)) /\ OfSeries names series (snd ip) r) data rows) l
      (map (fun ip => filter (fun r => ktest names indy (isin_text (split_on ";" (fst ip))) r && ptests names (map fst series) (snd ip) r) data) l)) as K; [|apply K; auto].
  induction l as [|[i p] l IH]; intro SUB; constructor; [|apply IH; intros ip I; apply SUB; right; exact I].
  cbn [fst snd]. specialize (SUB (i, p) (or_introl eq_refl)). apply in_prod_iff in SUB. destruct SUB as (Ii & Ip).
  apply EventProofs.selection_filter. intros r Ir. rewrite andb_true_iff. rewrite ptests_iff by (try (rewrite (product_length _ _ Ip); apply map_length); intros v J; exact (NP' p v Ip J)).
  apply Morphisms_Prop.and_iff_morphism; [|reflexivity]. rewrite (EventProofs.split_on_last _ _ (NI i Ii)). unfold ktest. rewrite <- get_sound. destruct (get names r indy) as [c|]; [|split; discriminate].
  rewrite isin_iff. split.
  - intros (s & -> & [->|[]]). reflexivity.
  - intros [= ->]. exists i. split; [reflexivity|left; reflexivity].
Qed.

Lemma C64_numbers_refuted_proof : forall statistic columns names data line_type fields indy indys series out output,
  Rectangular data columns -> In (line_type, fields) line_fields -> NamesFor line_type columns names -> NoDup names ->
  In indy names -> (forall n, In n (map fst series) -> In n names) -> (forall n vals, In (n, vals) series -> vals <> []) -> series <> [] ->
  (exists v, In v indys /\ Has ":" v) ->
  (forall r s, In r data -> ~ CellOf names r indy (CStr s)) ->
  calculate_stats statistic columns data line_type indy indys (Some series) (Some []) = Ok (out, output) -> output = [].
Proof.
  intros statistic columns names data line_type fields indy indys series out output RC F N ND II IS SV SN HG NT H.
  assert (forall r, In r data -> length r = length names) as L by (intros r I; rewrite (names_length _ _ _ N); apply RC; exact I).
  destruct (line_known _ _ F) as (A & NDF & NV & _). unfold calculate_stats in H. assert (data <> []) as DN by (intros ->; discriminate H).
  rewrite (match_nonempty data) in H by exact DN. rewrite A, (names_value _ _ _ N), (special_run _ _ _ _ _ HG SN) in H.
  assert (product (map snd series) <> []) as PN by (apply product_nonempty; intros l I; apply in_map_iff in I; destruct I as ([n vals] & <- & I); exact (SV n vals I)).
  destruct HG as (v0 & I0 & _).
  destruct (sum_indys line_type indy (map fst series) (names, relabel data) (product (map snd series)) indys series ([], [])) as [r|e] eqn:E.
  - apply sum_indys_empty in E; [|apply relabel_wide; exact L|exact IS|exact II|exact PN|intros x s I G; apply get_sound in G; exact (NT _ s (row_in_relabel _ _ I) G)].
    cbn [bind] in H. destruct E as (E1 & E2). replace (match indys with [] => fst ([], []) | _ => names end) with names in E1 by (destruct indys; [destruct I0|reflexivity]).
    rewrite E1, E2 in H. cbn in H.
    pose proof (sum_table names fields [] [] (fun r (I : In r []) => match I with end) eq_refl NDF NV out output H) as (_ & T). inversion T. reflexivity.
  - cbn [bind] in H. destruct e; try discriminate H. exfalso.
    revert E. apply sum_indys_key; [apply relabel_wide; exact L|exact IS|exact II|intros x s I G; apply get_sound in G; exact (NT _ s (row_in_relabel _ _ I) G)].
Qed.

Lemma C64_request_refuted_proof : forall statistic columns names data line_type fields indy indys series out output,
  Rectangular data columns -> NoDup names ->
  (In (line_type, fields) line_fields -> NamesFor line_type columns names -> NoGroups indys series ->
   calculate_stats statistic columns data line_type indy indys (Some series) None = Ok (out, output) ->
   SumTable names fields (map (fun r => (r, None)) data) out output) /\
  (~ In line_type (map fst line_fields) -> NoDup columns -> forall series1 series2,
   calculate_stats statistic columns data line_type indy indys series1 series2 = Ok (out, output) ->
   SumTable columns [] (map (fun r => (r, None)) data) out output) /\
  (In (line_type, fields) line_fields -> NamesFor line_type columns names -> (exists v, In v indys /\ Has ":" v) -> series <> [] ->
   (forall n vals, In (n, vals) series -> vals <> []) -> (exists n, In n (indy :: map fst series) /\ ~ In n names) -> forall series2,
   calculate_stats statistic columns data line_type indy indys (Some series) series2 = Ok (out, output) ->
   SumTable names fields (map (fun r => (r, None)) data) out output).
Proof.
  intros statistic columns names data line_type fields indy indys series out output RC ND.
  assert (forall (rows : list row), combine rows (map (fun _ : row => (None : option pyval)) rows) = map (fun r => (r, None)) rows) as CM by (induction rows as [|r rows IH]; [reflexivity|]; cbn; rewrite IH; reflexivity).
  assert (forall ns fs, (forall r, In r data -> length r = length ns) -> NoDup fs -> ~ In "stat_value" fs -> finish ns fs (ns, relabel data) = Ok (out, output) -> SumTable ns fs (map (fun r => (r, None)) data) out output) as K.
  { intros ns fs L NDF NV H. rewrite <- CM. apply sum_table; try assumption; [apply map_length|]. rewrite write_none; [exact H| |].
    - intros v I. apply in_map_iff in I. destruct I as (? & <- & _). reflexivity.
    - cbn [snd]. unfold relabel. rewrite map_length, combine_length, seq_length, Nat.min_id. reflexivity. }
  split; [|split].
  - intros F N G H. unfold calculate_stats in H. assert (data <> []) as DN by (intros ->; discriminate H). rewrite (match_nonempty data) in H by exact DN.
    destruct (line_known _ _ F) as (A & NDF & NV & _). rewrite A, (names_value _ _ _ N), (axis_plain _ _ _ _ _ G) in H. cbn [aggregate_special_fields] in H.
    apply K; try assumption. intros r I. rewrite (names_length _ _ _ N). apply RC. exact I.
  - intros NL NC series1 series2 H. unfold calculate_stats in H. assert (data <> []) as DN by (intros ->; discriminate H). rewrite (match_nonempty data) in H by exact DN.
    rewrite (line_unknown _ NL) in H. apply K; [exact RC|constructor|intros []|exact H].
  - intros F N HG SN SV MISS series2 H. unfold calculate_stats in H. assert (data <> []) as DN by (intros ->; discriminate H). rewrite (match_nonempty data) in H by exact DN.
    destruct (line_known _ _ F) as (A & NDF & NV & _). rewrite A, (names_value _ _ _ N), (special_run _ _ _ _ _ HG SN) in H.
    assert (forall r, In r data -> length r = length names) as L by (intros r I; rewrite (names_length _ _ _ N); apply RC; exact I).
    rewrite sum_indys_missing in H; [cbn [bind] in H; apply K; assumption|apply relabel_wide; exact L| |intros p I; rewrite (product_length _ _ I), !map_length; reflexivity|destruct HG as (v & I & _); intros ->; destruct I|exact MISS].
    apply product_nonempty. intros l I. apply in_map_iff in I. destruct I as ([n vals] & <- & I). exact (SV n vals I).
Qed.

Lemma C64_exceptions_proof : forall statistic columns names data line_type fields indy indys series1 series2 before r after,
  calculate_stats statistic columns [] line_type indy indys (Some series1) (Some series2) = Err ValueError /\
  (Rectangular data columns -> In (line_type, fields) line_fields -> NamesFor line_type columns names ->
   NoGroups indys series1 -> NoGroups indys series2 ->
   data = (before ++ r :: after)%list -> (forall x, In x before -> exists v, StatisticOf statistic names x v) ->
   (forall c, CellOf names r "stat_name" c -> (forall s, c <> CStr s) ->
      calculate_stats statistic columns data line_type indy indys (Some series1) (Some series2) = Err AttributeError) /\
   (forall s st f e, CellOf names r "stat_name" (CStr s) -> InSmallLetters s st -> statistic st = Some f -> f names [r] = Err e -> e <> KeyError ->
      calculate_stats statistic columns data line_type indy indys (Some series1) (Some series2) = Err e)) /\
  (In "total" names -> NamesFor line_type columns names -> In (line_type, fields) line_fields -> data <> [] ->
   (exists v, In v indys /\ Has ":" v) -> Rectangular data columns -> In indy names -> (exists n, In (n, []) series1) ->
   calculate_stats statistic columns data line_type indy indys (Some series1) (Some []) = Err KeyError).
Proof.
  intros statistic columns names data line_type fields indy indys series1 series2 before r after. split; [reflexivity|]. split.
  - intros RC F N G1 G2 -> NB.
    assert (forall e, row_value statistic names names r = Err e -> e <> KeyError -> calculate_stats statistic columns (before ++ r :: after) line_type indy indys (Some series1) (Some series2) = Err e) as K.
    { intros e E NK. rewrite (plain_run statistic columns names (before ++ r :: after) line_type fields indy indys series1 series2 F N G1 G2) by (intro X; apply app_eq_nil in X; destruct X; discriminate).
      rewrite (row_values_error statistic names r after e before NB E NK). reflexivity. }
    split.
    + intros c C NT. apply K; [|discriminate]. unfold row_value. apply get_sound in C. rewrite C. cbn [bind]. destruct c as [q| |s]; try reflexivity. exfalso. exact (NT s eq_refl).
    + intros s st f e C S FS X NK. apply K; [|exact NK]. unfold row_value. apply get_sound in C. rewrite C. cbn [bind]. apply small_fun in S. subst st. rewrite FS. exact X.
  - intros T N F DN HG RC II (n & EN). assert (series1 <> []) as SN by (intros ->; destruct EN). unfold calculate_stats. rewrite (match_nonempty data) by exact DN.
    destruct (line_known _ _ F) as (A & _). rewrite A, (names_value _ _ _ N), (special_run _ _ _ _ _ HG SN).
    rewrite product_empty by (apply in_map_iff; exists (n, []); auto).
    assert (forall l s, sum_indys line_type indy (map fst series1) (names, relabel data) [] l s ([], []) = Ok ([], [])) as Z.
    { induction l as [|i l IH]; intro s; [reflexivity|]. cbn [sum_indys]. rewrite keep_rows_value; [|apply relabel_wide; intros x I; rewrite (names_length _ _ _ N); apply RC; exact I|exact II]. cbn [bind sum_points fst snd]. apply IH. }
    rewrite Z. cbn [bind fst snd map aggregate_special_fields relabel length seq combine row_values write_values index_of existsb]. unfold write_values. cbn [fst index_of existsb].
    assert (exists rest, fields = "total" :: rest) as (rest & ->) by (repeat (destruct F as [[= <- <-]|F]; [eexists; reflexivity|]); destruct F).
    unfold finish. cbn [drop_fields]. rewrite (proj2 (mem_iff _ _) T). reflexivity.
Qed.

Lemma C64_rows_case_proof :
  let series := [("model", ["A"; "B"; "A;B"])] in
  Rectangular sum_data sum_columns /\ (exists fields, In ("sl1l2", fields) line_fields) /\ NamesFor "sl1l2" sum_columns sum_columns /\ NoDup sum_columns /\
  NoGroups ["12"; "24"] series /\ (forall r, In r sum_data -> ~ NoStatistic sum_statistic sum_columns r) /\
  calculate_stats sum_statistic sum_columns sum_data "sl1l2" "fcst_lead" ["12"; "24"] (Some series) (Some []) =
    Ok (["model"; "fcst_lead"; "fcst_valid_beg"; "stat_name"; "stat_value"],
        [[CStr "A"; CNum 12; CStr "d1"; CStr "FBAR"; CNum 3]; [CStr "B"; CNum 12; CStr "d1"; CStr "FBAR"; CNum 5];
         [CStr "A"; CNum 24; CStr "d1"; CStr "FBAR"; CNum 7]]).
Proof.
  cbv zeta. split; [intros r I; repeat (destruct I as [<-|I]; [reflexivity|]); destruct I|]. split; [eexists; right; right; left; reflexivity|]. split; [left; split; [discriminate|reflexivity]|].
  split; [repeat constructor; cbn; intuition discriminate|]. split; [split; intros v I; repeat (destruct I as [<-|I]; [cbv; intuition discriminate|]); destruct I|].
  split; [|reflexivity]. intros r I X. apply row_value_key in X; [|repeat (destruct I as [<-|I]; [reflexivity|]); destruct I]. repeat (destruct I as [<-|I]; [discriminate X|]). destruct I.
Qed.

Lemma C64_stop_case_proof :
  NoStatistic sum_statistic sum_columns (sum_line "A" 12 "OTHER" 1 1) /\ ~ NoStatistic sum_statistic sum_columns (sum_line "A" 12 "FBAR" 10 3) /\
  calculate_stats sum_statistic sum_columns [sum_line "A" 12 "FBAR" 10 3; sum_line "A" 12 "OTHER" 1 1; sum_line "B" 12 "FBAR" 20 5]
    "sl1l2" "fcst_lead" ["12"] (Some [("model", ["A"])]) (Some []) =
    Ok (["model"; "fcst_lead"; "fcst_valid_beg"; "stat_name"; "stat_value"],
        [[CStr "A"; CNum 12; CStr "d1"; CStr "FBAR"; CNum 3]; [CStr "A"; CNum 12; CStr "d1"; CStr "OTHER"; CMiss];
         [CStr "B"; CNum 12; CStr "d1"; CStr "FBAR"; CMiss]]).
Proof.
  split; [apply row_value_key; reflexivity|]. split; [|reflexivity]. intro X. apply row_value_key in X; [discriminate X|reflexivity].
Qed.

Lemma C64_joined_case_proof : NoGroups ["12"; "12;24"] [("model", ["A;B"])].
Proof.
  split; intros v I; repeat (destruct I as [<-|I]; [cbv; intuition discriminate|]); destruct I.
Qed.

Lemma C64_groups_case_proof :
  let run indy indys := calculate_stats sum_statistic sum_columns sum_data "sl1l2" indy indys (Some [("fcst_lead", ["12:24"; "24"])]) (Some []) in
  run "model" ["A"; "A:B"] =
    Ok (["model"; "fcst_lead"; "fcst_valid_beg"; "stat_name"; "stat_value"],
        [[CStr "A"; CNum 12; CStr "d1"; CStr "FBAR"; CNum 3]; [CStr "A"; CNum 24; CStr "d1"; CStr "FBAR"; CNum 7];
         [CStr "A"; CNum 24; CStr "d1"; CStr "FBAR"; CNum 7]]).
Proof.
  reflexivity.
Qed.

Lemma C64_numbers_case_proof :
  (forall r s, In r sum_data -> ~ CellOf sum_columns r "fcst_lead" (CStr s)) /\
  calculate_stats sum_statistic sum_columns sum_data "sl1l2" "fcst_lead" ["12:24"; "12"] (Some [("model", ["A"; "B"])]) (Some []) =
    Ok (["model"; "fcst_lead"; "fcst_valid_beg"; "stat_name"], []).
Proof.
  split; [|reflexivity]. intros r s I C. apply get_sound in C. repeat (destruct I as [<-|I]; [discriminate C|]). destruct I.
Qed.

Lemma C64_request_case_proof :
  calculate_stats sum_statistic sum_columns sum_data "sl1l2" "fcst_lead" ["12"] (Some [("model", ["A"])]) None =
    Ok (["model"; "fcst_lead"; "fcst_valid_beg"; "stat_name"],
        [[CStr "A"; CNum 12; CStr "d1"; CStr "FBAR"]; [CStr "B"; CNum 12; CStr "d1"; CStr "FBAR"]; [CStr "A"; CNum 24; CStr "d1"; CStr "FBAR"]]) /\
  (exists output, calculate_stats sum_statistic sum_columns sum_data "mctc" "fcst_lead" ["12"] None None = Ok output) /\
  exists output, calculate_stats sum_statistic sum_columns sum_data "sl1l2" "model" ["A:B"] (Some [("vx_mask", ["A"])]) (Some []) = Ok output.
Proof.
  split; [reflexivity|]. split; eexists; reflexivity.
Qed.

Lemma C64_exceptions_case_proof :
  calculate_stats sum_statistic sum_columns [[CStr "A"; CNum 12; CStr "d1"; CMiss; CNum 1; CNum 1; CNum 1]] "sl1l2" "fcst_lead" ["12"] (Some [("model", ["A"])]) (Some []) = Err AttributeError /\
  calculate_stats sum_statistic sum_columns [[CStr "A"; CNum 12; CStr "d1"; CStr "FBAR"; CNum 1; CNum 1; CMiss]] "sl1l2" "fcst_lead" ["12"] (Some [("model", ["A"])]) (Some []) = Err TypeError /\
  calculate_stats sum_statistic sum_columns sum_data "sl1l2" "fcst_lead" ["12:24"] (Some [("model", [])]) (Some []) = Err KeyError.
Proof.
  repeat split; reflexivity.
Qed.

