(** Proofs about [PublishModel.v]. *)
From Coq Require Import Reals String ZArith Lia.
From Verif Require Import PyBase ColumnModel ModesModel ModesProofs PublishModel PublishSpec.
From Coq Require Import List Lra.
Import ListNotations.
Open Scope R_scope.

(* ---------- rounding ---------- *)
Lemma nearest_near x : Rabs (IZR (nearest x) - x) <= / 2 /\ (Rabs (IZR (nearest x) - x) = / 2 -> Z.even (nearest x) = true).
Proof.
  unfold nearest. destruct (base_Int_part x) as [L U]. set (f := Int_part x) in *.
  destruct (Rlt_dec (x - IZR f) (1 / 2)) as [A|A].
  - rewrite Rabs_left1 by lra. split; intros; lra.
  - destruct (Rlt_dec (1 / 2) (x - IZR f)) as [B|B].
    + rewrite plus_IZR. rewrite Rabs_pos_eq by lra. split; intros; lra.
    + destruct (Z.even f) eqn:E.
      * rewrite Rabs_left1 by lra. split; [lra|]. intros _. exact E.
      * rewrite plus_IZR, Rabs_pos_eq by lra. split; [lra|]. intros _. rewrite Z.even_add, E. reflexivity.
Qed.
Lemma round_hundredth x : Hundredth x (np_round 2 x).
Proof.
  unfold np_round. replace (10 ^ 2) with 100 by (cbn; ring). destruct (nearest_near (x * 100)) as [A B]. exists (nearest (x * 100)). set (k := nearest (x * 100)) in *. split; [reflexivity|].
  assert (Rabs (IZR k / 100 - x) = Rabs (IZR k - x * 100) / 100) as E.
  { replace (IZR k / 100 - x) with ((IZR k - x * 100) * / 100) by field. rewrite Rabs_mult, (Rabs_pos_eq (/ 100)) by lra. reflexivity. }
  rewrite E. split; [lra|]. intro X. apply B. lra.
Qed.
Lemma hundredth_order x y x' y' : Hundredth x x' -> Hundredth y y' -> x <= y -> x' <= y'.
Proof.
  intros (k & K & A & EA) (j & J & B & EB) L. destruct (Rle_or_lt x' y') as [X|X]; [exact X|]. exfalso. subst x' y'.
  assert (j + 1 <= k)%Z as Z. { assert (IZR j < IZR k) as Z by lra. apply lt_IZR in Z. lia. }
  apply IZR_le in Z as Z'. rewrite plus_IZR in Z'.
  pose proof (Rle_abs (IZR k / 100 - x)) as P. pose proof (Rle_abs (- (IZR j / 100 - y))) as Q. rewrite Rabs_Ropp in Q.
  assert (IZR k = IZR j + 1) as KJ by lra. rewrite <- plus_IZR in KJ. apply eq_IZR in KJ. subst k. rewrite plus_IZR in *.
  assert (Z.even j = true) as E1 by (apply EB; lra). assert (Z.even (j + 1) = true) as E2 by (apply EA; lra). rewrite Z.even_add, E1 in E2. discriminate.
Qed.
Lemma hundredth_one x a b : Hundredth x a -> Hundredth x b -> a = b.
Proof. intros A B. apply Rle_antisym; [apply (hundredth_order x x)|apply (hundredth_order x x)]; assumption || lra. Qed.
Lemma round_again x : np_round 2 (np_round 2 x) = np_round 2 x.
Proof.
  apply (hundredth_one (np_round 2 x)); [apply round_hundredth|]. destruct (round_hundredth x) as (k & -> & _). exists k. split; [reflexivity|]. replace (IZR k / 100 - IZR k / 100) with 0 by ring. rewrite Rabs_R0. split; [lra|]. intros; lra.
Qed.
(* ---------- options ---------- *)
Lemma setting row col : round_setting row col = if String.eqb col "CI95%" then Decimals 2 else if String.eqb col "BF10" then Format else Nothing.
Proof.
  unfold round_setting. change (lookup ("round.cell.[" ++ row ++ "]x[" ++ col ++ "]")) with (@None option_value). cbv iota.
  change (lookup ("round.row." ++ row)) with (@None option_value). cbv iota. unfold lookup, options. cbn [find fst].
  change (String.eqb "round" ("round.column." ++ col)) with false. cbv iota.
  change (String.eqb "round.column.CI95%" ("round.column." ++ col)) with (String.eqb "CI95%" col).
  change (String.eqb "round.column.BF10" ("round.column." ++ col)) with (String.eqb "BF10" col). rewrite (String.eqb_sym col "CI95%"), (String.eqb_sym col "BF10").
  destruct (String.eqb "CI95%" col); [reflexivity|]. destruct (String.eqb "BF10" col); reflexivity.
Qed.
(* ---------- columns ---------- *)
Section Columns.
Variables (str : cell -> string) (scientific positional : option R -> string).
Let step := column_step str scientific positional.
Fixpoint col_loop (l : list (nat * string)) (c : string * list cell) : res (string * list cell) :=
  match l with [] => Ok c | (i, row) :: rest => c' <- step i row c ;; col_loop rest c' end.
Lemma mapM_ok {A B : Type} (f : A -> res B) l l' : Forall2 (fun a b => f a = Ok b) l l' -> mapM f l = Ok l'.
Proof. induction 1 as [|a b l l' E _ IH]; [reflexivity|]. cbn. rewrite E. cbn [bind]. rewrite IH. reflexivity. Qed.
Lemma rows_cols l : forall cs ds, Forall2 (fun c d => col_loop l c = Ok d) cs ds -> rows_loop str scientific positional l cs = Ok ds.
Proof.
  induction l as [|[i row] l IH]; intros cs ds F.
  - cbn. f_equal. induction F as [|c d cs ds E _ IH]; [reflexivity|]. injection E as ->. rewrite IH. reflexivity.
  - cbn [rows_loop]. assert (exists es, Forall2 (fun c e => step i row c = Ok e) cs es /\ Forall2 (fun e d => col_loop l e = Ok d) es ds) as (es & A & B).
    { clear IH. induction F as [|c d cs ds E _ (es & A & B)]; [exists []; split; constructor|]. cbn [col_loop] in E. destruct (step i row c) as [e|] eqn:S; [|discriminate]. exists (e :: es). split; constructor; assumption. }
    change (mapM (column_step str scientific positional i row) cs) with (mapM (step i row) cs). rewrite (mapM_ok _ _ _ A). cbn [bind]. apply IH. exact B.
Qed.
Lemma set_mid pre x c rest : set_at (List.length pre) c (pre ++ x :: rest) = pre ++ c :: rest.
Proof. unfold set_at. rewrite firstn_app, Nat.sub_diag, firstn_all, app_nil_r. f_equal. f_equal. rewrite skipn_app, skipn_all2 by lia. replace (S (List.length pre) - List.length pre)%nat with 1%nat by lia. reflexivity. Qed.
Lemma nth_mid {A : Type} (pre : list A) x rest : nth_error (pre ++ x :: rest) (List.length pre) = Some x.
Proof. rewrite nth_error_app2, Nat.sub_diag by lia. reflexivity. Qed.
Lemma loop_round rows : forall pre cells, List.length cells = List.length rows ->
  col_loop (combine (seq (List.length pre) (List.length rows)) rows) ("CI95%"%string, pre ++ cells) = Ok ("CI95%"%string, pre ++ map (round_cell 2) cells).
Proof.
  induction rows as [|row rows IH]; intros pre cells L; destruct cells as [|c cells]; try discriminate; [reflexivity|]. cbn [List.length seq combine col_loop map]. unfold step, column_step. rewrite nth_mid, setting. cbn [String.eqb Ascii.eqb Bool.eqb bind].
  change (if String.eqb "CI95%" "CI95%" then Decimals 2 else if String.eqb "CI95%" "BF10" then Format else Nothing) with (Decimals 2). cbn [bind]. rewrite set_mid. specialize (IH (pre ++ [round_cell 2 c]) cells). rewrite app_length, Nat.add_1_r, <- !app_assoc in IH. cbn [app] in IH. apply IH. cbn in L. lia.
Qed.
Lemma loop_same name rows : name <> "CI95%"%string -> name <> "BF10"%string -> forall k cells, (k + List.length rows <= List.length cells)%nat ->
  col_loop (combine (seq k (List.length rows)) rows) (name, cells) = Ok (name, cells).
Proof.
  intros A B. induction rows as [|row rows IH]; intros k cells L; [reflexivity|]. cbn [List.length seq combine col_loop] in *. unfold step, column_step. destruct (nth_error cells k) as [c|] eqn:E; [|apply nth_error_None in E; lia].
  rewrite setting. apply String.eqb_neq in A. apply String.eqb_neq in B. rewrite A, B. cbn [bind]. apply IH. lia.
Qed.
Lemma texts_same cells : Forall (fun c => exists s, c = Text s) cells -> map (as_text str) cells = cells.
Proof. induction 1 as [|c l (s & ->) _ IH]; [reflexivity|]. cbn. rewrite IH. reflexivity. Qed.
Lemma set_same i c (l : list cell) : nth_error l i = Some c -> set_at i c l = l.
Proof. intro E. apply nth_error_split in E. destruct E as (a & b & -> & <-). apply set_mid. Qed.
Lemma loop_texts rows cells : Forall (fun c => exists s, c = Text s) cells -> forall k, (k + List.length rows <= List.length cells)%nat ->
  col_loop (combine (seq k (List.length rows)) rows) ("BF10"%string, cells) = Ok ("BF10"%string, cells).
Proof.
  intro F. induction rows as [|row rows IH]; intros k L; [reflexivity|]. cbn [List.length seq combine col_loop] in *. unfold step, column_step. destruct (nth_error cells k) as [c|] eqn:E; [|apply nth_error_None in E; lia].
  rewrite setting. change (if String.eqb "BF10" "CI95%" then Decimals 2 else if String.eqb "BF10" "BF10" then Format else Nothing) with Format. cbv iota.
  pose proof (proj1 (Forall_forall _ _) F c (nth_error_In _ _ E)) as (s & ->). cbn [format_bf bind]. rewrite texts_same by exact F. rewrite set_same by exact E. apply IH. lia.
Qed.
Lemma as_text_text c : exists s, as_text str c = Text s.
Proof. destruct c; eexists; reflexivity. Qed.
Definition text_of (c : cell) : cell := match format_bf scientific positional c with Ok s => Text s | Err _ => c end.
Lemma loop_bf rows cells : Forall NumberOrText cells -> List.length cells = List.length rows ->
  col_loop (combine (seq 0 (List.length rows)) rows) ("BF10"%string, cells) = Ok ("BF10"%string, match cells with [] => [] | c :: rest => text_of c :: map (as_text str) rest end).
Proof.
  intros F L. destruct rows as [|row rows]; destruct cells as [|c cells]; try discriminate; [reflexivity|]. cbn [List.length seq combine col_loop] in *. unfold step, column_step. cbn [nth_error].
  rewrite setting. change (if String.eqb "BF10" "CI95%" then Decimals 2 else if String.eqb "BF10" "BF10" then Format else Nothing) with Format. cbv iota.
  inversion F as [|? ? H _]; subst. assert (exists s, format_bf scientific positional c = Ok s) as (s & E).
  { destruct c as [[v|]|s| | |]; try destruct H; cbn; [destruct (Rle_dec 10000 v); [eexists; reflexivity|]; destruct (Rle_dec v (1 / 10000)); eexists; reflexivity|eexists; reflexivity|eexists; reflexivity]. }
  unfold text_of. rewrite E. cbn [bind]. unfold set_at. cbn [map firstn skipn app]. apply loop_texts; [|cbn in *; rewrite map_length; lia]. constructor; [eexists; reflexivity|]. apply Forall_forall. intros x X. apply in_map_iff in X. destruct X as (y & <- & _). apply as_text_text.
Qed.
Definition treat (p : string * list cell) : string * list cell :=
  (fst p, if String.eqb (fst p) "CI95%" then map (round_cell 2) (snd p)
          else if String.eqb (fst p) "BF10" then match snd p with [] => [] | c :: rest => text_of c :: map (as_text str) rest end else snd p).
Lemma post_treat t : Proper t -> postprocess str scientific positional t = Ok {| labels := labels t; cols := map treat (cols t) |}.
Proof.
  intros (A & B & L & N). unfold postprocess. rewrite (proj2 (distinct_iff _) A), (proj2 (distinct_iff _) B). cbn [andb]. rewrite (rows_cols _ _ (map treat (cols t))); [reflexivity|].
  clear A B. induction (cols t) as [|[name cells] cs IH]; [constructor|]. inversion L as [|? ? H L']; subst. cbn [map]. constructor; [|apply IH; [exact L'|intros c I; apply (N c); right; exact I]]. cbn [snd] in H. unfold treat. cbn [fst snd].
  destruct (String.eqb_spec name "CI95%") as [->|X]; [apply (loop_round (labels t) [] cells H)|]. destruct (String.eqb_spec name "BF10") as [->|Y].
  - apply loop_bf; [apply N; left; reflexivity|exact H].
  - apply loop_same; [exact X|exact Y|]. cbn. rewrite H. apply le_n.
Qed.
Lemma treat_length p : List.length (snd (treat p)) = List.length (snd p).
Proof. unfold treat. cbn [snd]. destruct (String.eqb _ _); [apply map_length|]. destruct (String.eqb _ _); [|reflexivity]. destruct (snd p); [reflexivity|]. cbn. rewrite map_length. reflexivity. Qed.
Lemma text_of_text c : NumberOrText c -> exists s, text_of c = Text s.
Proof. destruct c as [[v|]|s| | |]; intro H; try destruct H; unfold text_of; cbn; [destruct (Rle_dec 10000 v); [eexists; reflexivity|]; destruct (Rle_dec v (1 / 10000)); eexists; reflexivity|eexists; reflexivity|eexists; reflexivity]. Qed.
Lemma proper_treat t : Proper t -> Proper {| labels := labels t; cols := map treat (cols t) |}.
Proof.
  intros (A & B & L & N). split; [exact A|]. cbn [labels cols]. split; [rewrite map_map; exact B|]. split.
  - apply Forall_forall. intros p I. apply in_map_iff in I. destruct I as (q & <- & I). rewrite treat_length. apply (proj1 (Forall_forall _ _) L). exact I.
  - intros cells I. apply in_map_iff in I. destruct I as ([name q] & E & I). unfold treat in E. cbn [fst snd] in E. injection E as -> E. change (String.eqb "BF10" "CI95%") with false in E. change (String.eqb "BF10" "BF10") with true in E. cbv iota in E. subst cells.
    specialize (N q I). destruct q as [|c q]; [constructor|]. inversion N; subst. constructor.
    + destruct (text_of_text c) as (s & ->); [assumption|exact Logic.I].
    + apply Forall_forall. intros x X. apply in_map_iff in X. destruct X as (y & <- & _). destruct (as_text_text y) as (s & ->). exact Logic.I.
Qed.
Lemma round_cell_again c : round_cell 2 (round_cell 2 c) = round_cell 2 c.
Proof.
  destruct c as [[v|]|s|b|l|l]; try reflexivity; cbn [round_cell option_map]; [rewrite round_again; reflexivity|]. f_equal. rewrite map_map. apply map_ext. intros [v|]; [|reflexivity]. cbn. rewrite round_again. reflexivity.
Qed.
Lemma treat_again t p : Proper t -> In p (cols t) -> treat (treat p) = treat p.
Proof.
  intros (_ & _ & _ & N) I. destruct p as [name cells]. unfold treat. cbn [fst snd]. destruct (String.eqb_spec name "CI95%") as [->|X].
  - f_equal. rewrite map_map. apply map_ext, round_cell_again.
  - destruct (String.eqb_spec name "BF10") as [->|Y]; [|reflexivity]. f_equal. specialize (N cells I). destruct cells as [|c cells]; [reflexivity|]. inversion N; subst. f_equal.
    + destruct (text_of_text c) as (s & ->); [assumption|reflexivity].
    + apply texts_same. apply Forall_forall. intros x Z. apply in_map_iff in Z. destruct Z as (y & <- & _). apply as_text_text.
Qed.
Lemma bayes_text c : NumberOrText c -> BayesText scientific positional c (text_of c).
Proof. destruct c as [[v|]|s| | |]; intro H; try destruct H; unfold text_of; cbn; [|reflexivity|reflexivity]. destruct (Rle_dec 10000 v); [reflexivity|]. destruct (Rle_dec v (1 / 10000)); reflexivity. Qed.
Lemma plain_text c : PlainText str c (as_text str c). Proof. destruct c; reflexivity. Qed.
End Columns.
Lemma rounded c : RoundedTo c (round_cell 2 c).
Proof.
  assert (forall v, HundredthOf v (option_map (np_round 2) v)) as O by (intros [v|]; [apply round_hundredth|exact I]).
  destruct c as [v|s|b|l|l]; cbn; try (repeat split; discriminate); [apply O|]. induction l as [|v l IH]; constructor; [apply O|exact IH].
Qed.
Lemma forall2_map {A B : Type} (P : A -> B -> Prop) (f : A -> B) l : (forall a, In a l -> P a (f a)) -> Forall2 P l (map f l).
Proof. induction l as [|a l IH]; intro H; constructor; [apply H; left; reflexivity|apply IH; intros b I; apply H; right; exact I]. Qed.
Definition two_rows : table :=
  {| labels := ["a"; "b"]%string; cols := [("n", [Num (Some 5); Num (Some 6)]); ("CI95%", [Floats [Some (1 / 3); Some (1 / 2)]; Num None]); ("BF10", [Num (Some 20000); Num (Some 30000)])]%string |}.
Lemma two_proper : Proper two_rows.
Proof.
  split; [apply distinct_iff; reflexivity|]. split; [apply distinct_iff; reflexivity|]. split; [repeat constructor|]. intros cells [E|[E|[E|[]]]]; try discriminate. injection E as <-. repeat constructor.
Qed.
Definition some_answer : answer := Answer 11 (Some (3 / 4)) (Some (9 / 16)) (Some (1 / 2)) (Some (27 / 100), Some (93 / 100)) (Some (1 / 100)) (Some (4 / 5)) (Some 8).
Definition no_answer : answer := Answer 11 None None None (None, None) None None None.
Lemma corr_proper tail method a r (bayes : bool) : Proper {| labels := [method]; cols :=
  let stats := [("n", [Num (Some (a_n a))]); ("r", [Num (Some r)]); ("r2", [Num (a_r2 a)]); ("adj_r2", [Num (a_adj a)]);
                    ("CI95%", [Floats [fst (a_ci a); snd (a_ci a)]]);
                    ("p-val", [Num (if String.eqb tail "two-sided" then a_p a else option_map (fun p => / 2 * p) (a_p a))]);
                    ("power", [Num (a_power a)])]%string in if bayes then stats ++ [("BF10"%string, [Num (a_bf a)])] else stats |}.
Proof.
  split; [apply distinct_iff; reflexivity|]. cbv zeta. split; [apply distinct_iff; destruct bayes; reflexivity|]. split; [destruct bayes; repeat constructor|]. cbn [cols]. intros cells I. destruct bayes; cbn in I.
  - repeat (destruct I as [I|I]; [try discriminate; injection I as <-; repeat constructor|]). destruct I.
  - repeat (destruct I as [I|I]; [try discriminate|]). destruct I.
Qed.

Lemma Forall2_in_left {A B : Type} (P : A -> B -> Prop) l m a : Forall2 P l m -> In a l -> exists b, In b m /\ P a b.
Proof. induction 1 as [|x y l m H F IH]; intros []; [subst; exists y; split; [left; reflexivity|exact H]|destruct (IH H0) as (b & I & Q); exists b; split; [right; exact I|exact Q]]. Qed.
Lemma Forall2_nth_left {A B : Type} (P : A -> B -> Prop) l m i a : Forall2 P l m -> nth_error l i = Some a -> exists b, nth_error m i = Some b /\ P a b.
Proof. intro F. revert i. induction F as [|x y l m H F IH]; intros [|i] E; try discriminate; [injection E as <-; exists y; split; [reflexivity|exact H]|exact (IH i E)]. Qed.

(** The statements of PropertiesPublish.v. *)
Lemma C146_cells_proof : forall str scientific positional t, Proper t ->
  exists t', postprocess str scientific positional t = Ok t' /\ labels t' = labels t /\
    Forall2 (fun p q => fst q = fst p /\
      (fst p <> "CI95%"%string -> fst p <> "BF10"%string -> snd q = snd p) /\
      (fst p = "CI95%"%string -> Forall2 RoundedTo (snd p) (snd q)) /\
      (fst p = "BF10"%string -> forall c rest, snd p = c :: rest ->
         exists d rest', snd q = d :: rest' /\ BayesText scientific positional c d /\ Forall2 (PlainText str) rest rest')) (cols t) (cols t').
Proof.
  intros str sci pos t P. eexists. split; [apply post_treat; exact P|]. split; [reflexivity|]. cbn [cols]. apply forall2_map. intros [name cells] I. destruct P as (_ & _ & _ & N). unfold treat. cbn [fst snd]. split; [reflexivity|]. split; [|split].
  - intros A B. apply String.eqb_neq in A. apply String.eqb_neq in B. rewrite A, B. reflexivity.
  - intros ->. cbn. apply forall2_map. intros c _. apply rounded.
  - intros -> c rest ->. change (String.eqb "BF10" "CI95%") with false. change (String.eqb "BF10" "BF10") with true. cbv iota. exists (text_of sci pos c), (map (as_text str) rest). split; [reflexivity|]. specialize (N _ I). inversion N; subst. split; [apply bayes_text; assumption|]. apply forall2_map. intros d _. apply plain_text.
Qed.

Lemma C146_cells_case_proof : Proper two_rows /\ List.length (labels two_rows) = 2%nat /\ List.length (cols two_rows) = 3%nat.
Proof.
  split; [exact two_proper|]. split; reflexivity.
Qed.

Lemma C146_format_refuted_proof : ~ (forall str scientific positional t t' cells cells' i c d, Proper t ->
  postprocess str scientific positional t = Ok t' -> In ("BF10"%string, cells) (cols t) -> In ("BF10"%string, cells') (cols t') ->
  nth_error cells i = Some c -> nth_error cells' i = Some d -> BayesText scientific positional c d).
Proof.
  intro X. pose proof (post_treat (fun _ => "plain"%string) (fun _ => "big"%string) (fun _ => "small"%string) _ two_proper) as E.
  specialize (X _ _ _ two_rows _ _ [Text "big"; Text "plain"] 1%nat (Num (Some 30000)) (Text "plain") two_proper E (or_intror (or_intror (or_introl eq_refl)))).
  cbn [BayesText] in X. destruct (Rle_dec 10000 30000) as [L|L]; [|lra]. enough (Text "plain" = Text "big") by discriminate. apply X; [|reflexivity|reflexivity].
  right. right. left. unfold treat. cbn [fst snd]. change (String.eqb "BF10" "CI95%") with false. change (String.eqb "BF10" "BF10") with true. cbv iota. unfold text_of. cbn [format_bf]. destruct (Rle_dec 10000 20000) as [M|M]; [reflexivity|lra].
Qed.

Lemma C146_again_proof : forall str scientific positional t t', Proper t -> postprocess str scientific positional t = Ok t' ->
  postprocess str scientific positional t' = Ok t'.
Proof.
  intros str sci pos t t' P E. rewrite post_treat in E by exact P. injection E as <-. rewrite post_treat by (apply proper_treat; exact P). cbn [labels cols]. f_equal. f_equal. rewrite map_map. apply map_ext_in. intros p I. apply (treat_again str sci pos t); assumption.
Qed.

Lemma C146_again_case_proof : exists t', postprocess (fun _ => ""%string) (fun _ => "big"%string) (fun _ => "small"%string) two_rows = Ok t' /\ t' <> two_rows.
Proof.
  eexists. split; [apply post_treat; exact two_proper|]. intro E. unfold two_rows in E. injection E. intros. destruct (Rle_dec 10000 20000); discriminate.
Qed.

Lemma C146_array_proof : forall str scientific positional row a b l,
  postprocess str scientific positional {| labels := [row]; cols := [("BF10"%string, [Floats (a :: b :: l)])] |} = Err ValueError.
Proof.
  intros. unfold postprocess. cbn [labels cols map fst distinct has_name existsb negb andb List.length seq combine rows_loop mapM]. unfold column_step. cbn [nth_error]. rewrite setting. reflexivity.
Qed.

Lemma C146_order_proof : forall str scientific positional t t' cells i x y, Proper t ->
  postprocess str scientific positional t = Ok t' -> In ("CI95%"%string, cells) (cols t) -> nth_error cells i = Some (Floats [Some x; Some y]) -> x <= y ->
  exists cells' x' y', In ("CI95%"%string, cells') (cols t') /\ nth_error cells' i = Some (Floats [Some x'; Some y']) /\ x' <= y'.
Proof.
  intros str sci pos t t' cells i x y P E I N L. destruct (C146_cells_proof str sci pos t P) as (u & E' & _ & F). rewrite E in E'. injection E' as <-.
  destruct (Forall2_in_left _ _ _ _ F I) as (q & Q & (A & _ & B & _)). specialize (B eq_refl). cbn [fst snd] in *.
  destruct q as [qn qc]. cbn [fst snd] in *. subst qn. destruct (Forall2_nth_left _ _ _ _ _ B N) as (d & D & Rd).
  destruct d as [v|s0|b|l|l]; cbn in Rd; try (destruct Rd as (Z & _ & _); discriminate Z); try contradiction.
  inversion Rd as [|? v1 ? l1 H1 T1]; subst. inversion T1 as [|? v2 ? l2 H2 T2]; subst. inversion T2; subst.
  destruct v1 as [x'|], v2 as [y'|]; cbn in H1, H2; try contradiction.
  exists qc, x', y'. split; [exact Q|]. split; [exact D|]. exact (hundredth_order _ _ _ _ H1 H2 L).
Qed.

Lemma C146_order_case_proof : Proper two_rows /\ In ("CI95%"%string, [Floats [Some (1 / 3); Some (1 / 2)]; Num None]) (cols two_rows) /\ 1 / 3 <= 1 / 2.
Proof.
  split; [exact two_proper|]. split; [right; left; reflexivity|lra].
Qed.

Lemma C146_sign_refuted_proof : ~ (forall str scientific positional t t' cells cells' i x y x' y', Proper t ->
  postprocess str scientific positional t = Ok t' -> In ("CI95%"%string, cells) (cols t) -> In ("CI95%"%string, cells') (cols t') ->
  nth_error cells i = Some (Floats [Some x; Some y]) -> nth_error cells' i = Some (Floats [Some x'; Some y']) -> 0 < x -> 0 < x').
Proof.
  intro X. set (t := {| labels := ["a"%string]; cols := [("CI95%"%string, [Floats [Some (1 / 200); Some 1]])] |}).
  assert (P : Proper t).
  { split; [apply distinct_iff; reflexivity|]. split; [apply distinct_iff; reflexivity|]. split; [repeat constructor|]. intros cells [E|[]]. discriminate E. }
  destruct (C146_cells_proof (fun _ => ""%string) (fun _ => ""%string) (fun _ => ""%string) t P) as (u & E & _ & F). cbn [cols t] in F.
  inversion F as [|? q ? l1 (A & _ & B & _) T1 E1 E2]; subst. inversion T1; subst. destruct q as [qn qc]. cbn [fst snd] in *. subst qn. specialize (B eq_refl).
  inversion B as [|? d ? l2 Rd T2]; subst. inversion T2; subst.
  destruct d as [v|s0|b|l|l]; cbn in Rd; try (destruct Rd as (Z & _ & _); discriminate Z); try contradiction.
  inversion Rd as [|? v1 ? l3 H1 T3]; subst. inversion T3 as [|? v2 ? l4 H2 T4]; subst. inversion T4; subst.
  destruct v1 as [x'|], v2 as [y'|]; cbn in H1, H2; try contradiction.
  assert (H0 : Hundredth (1 / 200) 0). { exists 0%Z. split; [lra|]. rewrite Rabs_left1 by lra. split; [lra|]. reflexivity. }
  pose proof (hundredth_order _ _ _ _ H1 H0 (Rle_refl _)) as L.
  assert (0 < x'); [|lra].
  apply (X _ _ _ t u [Floats [Some (1 / 200); Some 1]] [Floats [Some x'; Some y']] 0%nat (1 / 200) 1 x' y' P E); [left; reflexivity| |reflexivity|reflexivity|lra].
  rewrite <- E2. left. reflexivity.
Qed.

Lemma C146_corr_proof : forall str scientific positional tail method a r, a_r a = Some r ->
  exists t ci bf, corr_table str scientific positional tail method a = Ok t /\ labels t = [method] /\
    map fst (cols t) = corr_columns (String.eqb method "pearson") /\
    (forall name c, In (name, c) [("n", Num (Some (a_n a))); ("r", Num (Some r)); ("CI95%", ci); ("r2", Num (a_r2 a)); ("adj_r2", Num (a_adj a));
                                  ("p-val", Num (if String.eqb tail "two-sided" then a_p a else option_map (fun p => p / 2) (a_p a))); ("power", Num (a_power a))]%string ->
       In (name, [c]) (cols t)) /\
    RoundedTo (Floats [fst (a_ci a); snd (a_ci a)]) ci /\ (method = "pearson"%string -> In ("BF10"%string, [bf]) (cols t)) /\
    BayesText scientific positional (Num (a_bf a)) bf.
Proof.
  intros str sci pos tail method a r E. unfold corr_table. rewrite E. cbv zeta. pose proof (corr_proper tail method a r (String.eqb method "pearson")) as P. cbv zeta in P. rewrite post_treat by exact P. cbn [bind labels cols].
  eexists _, (round_cell 2 (Floats [fst (a_ci a); snd (a_ci a)])), (text_of sci pos (Num (a_bf a))). split; [reflexivity|]. cbn [labels cols]. split; [reflexivity|]. split; [destruct (String.eqb method "pearson"); reflexivity|].
  split; [|split; [apply rounded|split; [intros ->; do 6 right; left; reflexivity|apply bayes_text; exact I]]].
  assert (option_map (fun p => / 2 * p) (a_p a) = option_map (fun p => p / 2) (a_p a)) as -> by (destruct (a_p a); cbn; [f_equal; lra|reflexivity]).
  intros name c I. cbn [In] in I. destruct (String.eqb method "pearson"); cbn.
  - repeat (destruct I as [I|I]; [injection I as <- <-; tauto|]). destruct I.
  - repeat (destruct I as [I|I]; [injection I as <- <-; tauto|]). destruct I.
Qed.

Lemma C146_corr_case_proof : a_r some_answer = Some (3 / 4) /\ corr_columns true <> corr_columns false.
Proof.
  split; [reflexivity|discriminate].
Qed.

Lemma C146_none_proof : forall str scientific positional tail method a, a_r a = None ->
  exists t, corr_table str scientific positional tail method a = Ok t /\ labels t = [method] /\ map fst (cols t) = corr_columns true /\
    forall name cells, In (name, cells) (cols t) -> cells = [if String.eqb name "n" then Num (Some (a_n a)) else Num None].
Proof.
  intros str sci pos tail method a E. unfold corr_table. rewrite E. eexists. split; [reflexivity|]. split; [reflexivity|]. split; [reflexivity|]. intros name cells I. cbn in I. repeat (destruct I as [I|I]; [injection I as <- <-; reflexivity|]). destruct I.
Qed.

Lemma C146_none_case_proof : a_r no_answer = None.
Proof.
  reflexivity.
Qed.

Lemma C146_columns_refuted_proof : ~ (forall str scientific positional tail method a b t u,
  corr_table str scientific positional tail method a = Ok t -> corr_table str scientific positional tail method b = Ok u -> map fst (cols t) = map fst (cols u)).
Proof.
  intro X. destruct (C146_corr_proof (fun _ => ""%string) (fun _ => ""%string) (fun _ => ""%string) "two-sided" "bicor" some_answer _ eq_refl) as (t & ci & bf & T & _ & A & _).
  destruct (C146_none_proof (fun _ => ""%string) (fun _ => ""%string) (fun _ => ""%string) "two-sided" "bicor" no_answer eq_refl) as (u & U & _ & B & _).
  specialize (X _ _ _ _ _ _ _ _ _ T U). rewrite A, B in X. discriminate.
Qed.

Lemma C146_outliers_proof : forall str scientific positional tail method a t,
  corr_table str scientific positional tail method a = Ok t -> ~ In "outliers"%string (map fst (cols t)).
Proof.
  intros str sci pos tail method a t E. destruct (a_r a) as [r|] eqn:H.
  - destruct (C146_corr_proof str sci pos tail method a r H) as (t' & ci & bf & T & _ & A & _). rewrite T in E. injection E as <-. rewrite A. destruct (String.eqb method "pearson"); cbn; intuition discriminate.
  - destruct (C146_none_proof str sci pos tail method a H) as (t' & T & _ & A & _). rewrite T in E. injection E as <-. rewrite A. cbn. intuition discriminate.
Qed.

