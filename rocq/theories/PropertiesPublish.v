(** C146: the table of a correlation as it is returned. *)
From Coq Require Import Reals String ZArith List.
From Verif Require Import PyBase PublishModel PublishSpec PublishProofs.
Import ListNotations.
Open Scope R_scope.

(** C146: only intervals and Bayes factors change: numbers of intervals are rounded to hundredths, Bayes factors become texts. *)
Theorem C146_cells : forall str scientific positional t, Proper t ->
  exists t', postprocess str scientific positional t = Ok t' /\ labels t' = labels t /\
    Forall2 (fun p q => fst q = fst p /\
      (fst p <> "CI95%"%string -> fst p <> "BF10"%string -> snd q = snd p) /\
      (fst p = "CI95%"%string -> Forall2 RoundedTo (snd p) (snd q)) /\
      (fst p = "BF10"%string -> forall c rest, snd p = c :: rest ->
         exists d rest', snd q = d :: rest' /\ BayesText scientific positional c d /\ Forall2 (PlainText str) rest rest')) (cols t) (cols t').
Proof. exact C146_cells_proof. Qed.
Print Assumptions C146_cells.
Example C146_cells_case : Proper two_rows /\ List.length (labels two_rows) = 2%nat /\ List.length (cols two_rows) = 3%nat.
Proof. exact C146_cells_case_proof. Qed.

(** C146: full statement (the Bayes factor of every row has the same format): false, from the second row on it is a plain text. *)
Theorem C146_format_refuted : ~ (forall str scientific positional t t' cells cells' i c d, Proper t ->
  postprocess str scientific positional t = Ok t' -> In ("BF10"%string, cells) (cols t) -> In ("BF10"%string, cells') (cols t') ->
  nth_error cells i = Some c -> nth_error cells' i = Some d -> BayesText scientific positional c d).
Proof. exact C146_format_refuted_proof. Qed.
Print Assumptions C146_format_refuted.

(** C146: a table that has been treated stays as it is. *)
Theorem C146_again : forall str scientific positional t t', Proper t -> postprocess str scientific positional t = Ok t' ->
  postprocess str scientific positional t' = Ok t'.
Proof. exact C146_again_proof. Qed.
Print Assumptions C146_again.
Example C146_again_case : exists t', postprocess (fun _ => ""%string) (fun _ => "big"%string) (fun _ => "small"%string) two_rows = Ok t' /\ t' <> two_rows.
Proof. exact C146_again_case_proof. Qed.

(** C146: an array among the Bayes factors is refused. *)
Theorem C146_array : forall str scientific positional row a b l,
  postprocess str scientific positional {| labels := [row]; cols := [("BF10"%string, [Floats (a :: b :: l)])] |} = Err ValueError.
Proof. exact C146_array_proof. Qed.
Print Assumptions C146_array.

(** C146: limits stay in order; but a limit may become zero. *)
Theorem C146_order : forall str scientific positional t t' cells i x y, Proper t ->
  postprocess str scientific positional t = Ok t' -> In ("CI95%"%string, cells) (cols t) -> nth_error cells i = Some (Floats [Some x; Some y]) -> x <= y ->
  exists cells' x' y', In ("CI95%"%string, cells') (cols t') /\ nth_error cells' i = Some (Floats [Some x'; Some y']) /\ x' <= y'.
Proof. exact C146_order_proof. Qed.
Print Assumptions C146_order.
Example C146_order_case : Proper two_rows /\ In ("CI95%"%string, [Floats [Some (1 / 3); Some (1 / 2)]; Num None]) (cols two_rows) /\ 1 / 3 <= 1 / 2.
Proof. exact C146_order_case_proof. Qed.
Theorem C146_sign_refuted : ~ (forall str scientific positional t t' cells cells' i x y x' y', Proper t ->
  postprocess str scientific positional t = Ok t' -> In ("CI95%"%string, cells) (cols t) -> In ("CI95%"%string, cells') (cols t') ->
  nth_error cells i = Some (Floats [Some x; Some y]) -> nth_error cells' i = Some (Floats [Some x'; Some y']) -> 0 < x -> 0 < x').
Proof. exact C146_sign_refuted_proof. Qed.
Print Assumptions C146_sign_refuted.

(** C146: [corr] gives one row with the name of the method and these columns. *)
Theorem C146_corr : forall str scientific positional tail method a r, a_r a = Some r ->
  exists t ci bf, corr_table str scientific positional tail method a = Ok t /\ labels t = [method] /\
    map fst (cols t) = corr_columns (String.eqb method "pearson") /\
    (forall name c, In (name, c) [("n", Num (Some (a_n a))); ("r", Num (Some r)); ("CI95%", ci); ("r2", Num (a_r2 a)); ("adj_r2", Num (a_adj a));
                                  ("p-val", Num (if String.eqb tail "two-sided" then a_p a else option_map (fun p => p / 2) (a_p a))); ("power", Num (a_power a))]%string ->
       In (name, [c]) (cols t)) /\
    RoundedTo (Floats [fst (a_ci a); snd (a_ci a)]) ci /\ (method = "pearson"%string -> In ("BF10"%string, [bf]) (cols t)) /\
    BayesText scientific positional (Num (a_bf a)) bf.
Proof. exact C146_corr_proof. Qed.
Print Assumptions C146_corr.
Example C146_corr_case : a_r some_answer = Some (3 / 4) /\ corr_columns true <> corr_columns false.
Proof. exact C146_corr_case_proof. Qed.

(** C146: without a correlation all is NaN but the number of pairs, and there is a Bayes factor for any method. *)
Theorem C146_none : forall str scientific positional tail method a, a_r a = None ->
  exists t, corr_table str scientific positional tail method a = Ok t /\ labels t = [method] /\ map fst (cols t) = corr_columns true /\
    forall name cells, In (name, cells) (cols t) -> cells = [if String.eqb name "n" then Num (Some (a_n a)) else Num None].
Proof. exact C146_none_proof. Qed.
Print Assumptions C146_none.
Example C146_none_case : a_r no_answer = None.
Proof. exact C146_none_case_proof. Qed.
(** C146: so the columns depend on the data, and the outliers that Shepherd's method finds, which are documented, are never shown. *)
Theorem C146_columns_refuted : ~ (forall str scientific positional tail method a b t u,
  corr_table str scientific positional tail method a = Ok t -> corr_table str scientific positional tail method b = Ok u -> map fst (cols t) = map fst (cols u)).
Proof. exact C146_columns_refuted_proof. Qed.
Print Assumptions C146_columns_refuted.
Theorem C146_outliers : forall str scientific positional tail method a t,
  corr_table str scientific positional tail method a = Ok t -> ~ In "outliers"%string (map fst (cols t)).
Proof. exact C146_outliers_proof. Qed.
Print Assumptions C146_outliers.
