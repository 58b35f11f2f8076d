(** Proofs about environment variables in configuration files. *)
From Coq Require Import Ascii String List.
From Verif Require Import PyBase ConfigModel ConfigSpec.
From Coq Require Import List Lia.
Import ListNotations.
Open Scope nat_scope.
Open Scope list_scope.

Lemma word_iff c : is_word c = true <-> Word c.
Proof.
  unfold Word. split.
  - destruct c as [[] [] [] [] [] [] [] []]; intros H; try discriminate H; clear H; cbn; tauto.
  - cbn [list_ascii_of_string]. intros H. repeat (destruct H as [<-|H]; [reflexivity|]). destruct H.
Qed.
Lemma word_brace : is_word "}"%char = false. Proof. reflexivity. Qed.
Lemma word_dollar c : Word c -> c <> "$"%char.
Proof. intros H ->. apply word_iff in H. discriminate. Qed.
Lemma word_not_brace c : Word c -> c <> "}"%char.
Proof. intros H ->. apply word_iff in H. discriminate. Qed.
Lemma eqb_iff a b : Ascii.eqb a b = true <-> a = b. Proof. apply Ascii.eqb_eq. Qed.
Lemma span_app w t : Forall Word w -> span_word (w ++ "}"%char :: t) = (w, "}"%char :: t).
Proof.
  induction w as [|c w IH]; intros H; [reflexivity|]. inversion H; subst. cbn [app span_word]. apply word_iff in H2. rewrite H2, IH by assumption. reflexivity.
Qed.
Lemma span_inv l w r : span_word l = (w, r) -> l = w ++ r /\ Forall Word w.
Proof.
  revert w r. induction l as [|c l IH]; intros w r H; cbn in H; [injection H as <- <-; split; [reflexivity|constructor]|].
  destruct (is_word c) eqn:E; [|injection H as <- <-; split; [reflexivity|constructor]]. destruct (span_word l) as [w0 r0] eqn:S0. injection H as <- <-. destruct (IH _ _ eq_refl) as [L F]. subst l. split; [reflexivity|]. constructor; [apply word_iff; exact E|exact F].
Qed.
Lemma variable_iff l w : variable_at l = Some w <-> Name w /\ exists t, l = written w ++ t.
Proof.
  split.
  - unfold variable_at. destruct l as [|d [|b t]]; [discriminate|discriminate|]. destruct (Ascii.eqb d _ && Ascii.eqb b _) eqn:E; [|discriminate]. apply andb_prop in E. destruct E as [D B]. apply eqb_iff in D, B. subst.
    destruct (span_word t) as [[|c v] [|e r]] eqn:S0; try discriminate. destruct (Ascii.eqb e _) eqn:E; [|discriminate]. apply eqb_iff in E. subst e. intros [= <-]. apply span_inv in S0. destruct S0 as [-> F].
    split; [split; [discriminate|exact F]|]. exists r. unfold written. cbn [app]. rewrite <- app_assoc. reflexivity.
  - intros ((N & F) & t & ->). unfold written. cbn [app]. rewrite <- app_assoc. cbn [app variable_at]. cbn [Ascii.eqb Bool.eqb andb]. rewrite span_app by exact F. destruct w as [|c w]; [congruence|]. reflexivity.
Qed.
Lemma findall_iff t w : In w (findall t) <-> Mentions t w.
Proof.
  induction t as [|c t IH].
  - split; [intros []|]. intros (_ & a & b & H). unfold written in H. destruct a; discriminate.
  - cbn [findall]. assert (G : Mentions (c :: t) w <-> variable_at (c :: t) = Some w \/ Mentions t w).
    { split.
      - intros (N & [|d a] & b & H).
        + left. apply variable_iff. split; [exact N|]. exists b. exact H.
        + right. injection H as _ H. split; [exact N|]. exists a, b. exact H.
      - intros [H|(N & a & b & ->)].
        + apply variable_iff in H. destruct H as (N & r & E). split; [exact N|]. exists [], r. exact E.
        + split; [exact N|]. exists (c :: a), b. reflexivity. }
    rewrite G, <- IH. destruct (variable_at (c :: t)) as [v|] eqn:E; cbn [In]; split; intros H; try tauto.
    + destruct H as [->|H]; tauto.
    + destruct H as [[= ->]|H]; tauto.
    + destruct H as [H|H]; [discriminate|exact H].
Qed.
Lemma no_variables t : (forall w, ~ Mentions t w) -> findall t = [].
Proof. intros H. destruct (findall t) as [|w l] eqn:E; [reflexivity|]. exfalso. apply (H w). apply findall_iff. rewrite E. left. reflexivity. Qed.

(** ** Replacing *)
Lemma starts_iff p l : starts p l = true <-> exists r, l = p ++ r.
Proof.
  revert l. induction p as [|a p IH]; intros l; [split; [intros _; exists l; reflexivity|reflexivity]|].
  destruct l as [|b l]; [split; [discriminate|intros (r & H); discriminate]|]. cbn [starts]. rewrite andb_true_iff, eqb_iff, IH. split.
  - intros (-> & r & ->). exists r. reflexivity.
  - intros (r & H). injection H as -> ->. split; [reflexivity|]. exists r. reflexivity.
Qed.
Lemma skip_app old new a l : replace_from old new (length a) (a ++ l) = replace_from old new 0 l.
Proof. induction a as [|c a IH]; [reflexivity|]. exact IH. Qed.
Lemma replace_hit g new l : replace (written g) new (written g ++ l) = new ++ replace (written g) new l.
Proof.
  unfold replace. assert (H : starts (written g) (written g ++ l) = true) by (apply starts_iff; exists l; reflexivity).
  set (tail := "{"%char :: g ++ ["}"%char]). change (written g) with ("$"%char :: tail) in *. cbn [app replace_from]. cbn [app] in H. rewrite H. f_equal.
  cbn [length Nat.sub]. rewrite Nat.sub_0_r. apply skip_app.
Qed.
Lemma replace_other g new c l : (c <> "$"%char) -> replace (written g) new (c :: l) = c :: replace (written g) new l.
Proof.
  intros H. unfold replace. cbn [replace_from]. destruct (starts (written g) (c :: l)) eqn:E; [|reflexivity]. apply starts_iff in E. destruct E as (r & E). injection E as E _. contradiction.
Qed.
Lemma replace_others g new v l : ~ In "$"%char v -> replace (written g) new (v ++ l) = v ++ replace (written g) new l.
Proof.
  induction v as [|c v IH]; intros H; [reflexivity|]. cbn [app]. rewrite replace_other by (intros ->; apply H; left; reflexivity). rewrite IH by (intros K; apply H; right; exact K). reflexivity.
Qed.
Lemma replace_miss g new l : (forall r, "$"%char :: l <> written g ++ r) -> replace (written g) new ("$"%char :: l) = "$"%char :: replace (written g) new l.
Proof.
  intros H. unfold replace. cbn [replace_from]. destruct (starts (written g) ("$"%char :: l)) eqn:E; [|reflexivity]. apply starts_iff in E. destruct E as (r & E). destruct (H r E).
Qed.
Lemma word_run w w' r r' : Forall Word w -> Forall Word w' -> w ++ "}"%char :: r = w' ++ "}"%char :: r' -> w = w'.
Proof. intros F F' H. pose proof (span_app w r F) as A. pose proof (span_app w' r' F') as B. rewrite H in A. congruence. Qed.
Lemma not_in_words w : Forall Word w -> ~ In "$"%char ("{"%char :: w ++ ["}"%char]).
Proof.
  intros F [H|H]; [discriminate|]. apply in_app_or in H. destruct H as [H|[H|[]]]; [|discriminate]. rewrite Forall_forall in F. apply (word_dollar _ (F _ H)). reflexivity.
Qed.
Lemma replace_wrong g new w l : Name g -> Name w -> g <> w -> replace (written g) new (written w ++ l) = written w ++ replace (written g) new l.
Proof.
  intros (_ & G) (_ & W) D. change (written w ++ l) with ("$"%char :: ("{"%char :: w ++ ["}"%char]) ++ l). rewrite replace_miss.
  - rewrite replace_others by (apply not_in_words; exact W). reflexivity.
  - intros r H. unfold written in H. cbn [app] in H. injection H as H. rewrite <- !app_assoc in H. cbn [app] in H. apply D. symmetry. exact (word_run _ _ _ _ W G H).
Qed.

(** ** Texts with some variables filled in *)
Inductive piece := Var (w : text) | Chr (c : ascii) | Dollar (c : ascii) | Last.
Definition fine (p : piece) : Prop :=
  match p with
  | Var w => Name w
  | Chr c => c <> "$"%char
  | Dollar c => c <> "$"%char /\ c <> "{"%char
  | Last => True
  end.
Fixpoint well (l : list piece) : Prop :=
  match l with
  | [] => True
  | Last :: l' => l' = []
  | p :: l' => fine p /\ well l'
  end.
Definition text_eqb (a b : text) : bool := if list_eq_dec ascii_dec a b then true else false.
Definition show (environ : environment) (known : list text) (p : piece) : text :=
  match p with
  | Var w => if existsb (text_eqb w) known then meaning environ w else written w
  | Chr c => [c]
  | Dollar c => ["$"%char; c]
  | Last => ["$"%char]
  end.
Definition render (environ : environment) (known : list text) (l : list piece) : text := flat_map (show environ known) l.
Definition names (l : list piece) : list text := flat_map (fun p => match p with Var w => [w] | _ => [] end) l.

Lemma text_eqb_iff a b : text_eqb a b = true <-> a = b.
Proof. unfold text_eqb. destruct (list_eq_dec ascii_dec a b); split; congruence. Qed.
Lemma known_iff w known : existsb (text_eqb w) known = true <-> In w known.
Proof. rewrite existsb_exists. split; [intros (x & I & E); apply text_eqb_iff in E; subst; exact I|intros I; exists w; split; [exact I|apply text_eqb_iff; reflexivity]]. Qed.
Lemma filled_pieces environ t r : Filled environ t r -> exists l, well l /\ render environ [] l = t /\ render environ (names l) l = r.
Proof.
  intros H. assert (G : exists l, well l /\ render environ [] l = t /\ forall known, incl (names l) known -> render environ known l = r).
  - induction H as [|w t r N H (l & W & T & K)|c t r N H (l & W & T & K)|c t r N B H (l & W & T & K)|].
    + exists []. repeat split.
    + exists (Var w :: l). split; [split; [exact N|exact W]|]. split; [rewrite <- T; reflexivity|]. intros known I. cbn [render flat_map show]. cbn [names flat_map app] in I.
      rewrite (proj2 (known_iff w known)) by (apply I; left; reflexivity). f_equal. apply K. intros x X. apply I. right. exact X.
    + exists (Chr c :: l). split; [split; [exact N|exact W]|]. split; [rewrite <- T; reflexivity|]. intros known I. cbn [render flat_map show app]. f_equal. apply K. exact I.
    + exists (Dollar c :: l). split; [split; [split; [exact N|exact B]|exact W]|]. split; [rewrite <- T; reflexivity|]. intros known I. cbn [render flat_map show app]. do 2 f_equal. apply K. exact I.
    + exists [Last]. repeat split.
  - destruct G as (l & W & T & K). exists l. split; [exact W|]. split; [exact T|]. apply K. intros x X. exact X.
Qed.
Lemma replace_nil g new : replace (written g) new [] = []. Proof. reflexivity. Qed.
Lemma show_step environ known g l : Name g -> well l -> (forall w, In w (names l) -> ~ In "$"%char (meaning environ w)) ->
  replace (written g) (meaning environ g) (render environ known l) = render environ (g :: known) l.
Proof.
  intros G. induction l as [|p l IH]; intros W V; [reflexivity|]. destruct p as [w|c|c|].
  - destruct W as [N W]. cbn [render flat_map show existsb]. cbn [names flat_map app] in V. assert (IH' := IH W (fun x X => V x (or_intror X))). destruct (text_eqb w g) eqn:E.
    + apply text_eqb_iff in E. subst w. cbn [orb]. destruct (existsb (text_eqb g) known) eqn:X.
      * rewrite replace_others by (apply V; left; reflexivity). f_equal. exact IH'.
      * rewrite replace_hit. f_equal. exact IH'.
    + cbn [orb]. destruct (existsb (text_eqb w) known) eqn:X.
      * rewrite replace_others by (apply V; left; reflexivity). f_equal. exact IH'.
      * rewrite replace_wrong; [f_equal; exact IH'|exact G|exact N|]. intros ->. rewrite (proj2 (text_eqb_iff w w) eq_refl) in E. discriminate.
  - destruct W as [N W]. cbn [render flat_map show app]. rewrite replace_other by exact N. f_equal. apply IH; assumption.
  - destruct W as [[N B] W]. cbn [render flat_map show app]. rewrite replace_miss by (intros r H; unfold written in H; cbn [app] in H; injection H as H _; contradiction). rewrite replace_other by exact N. do 2 f_equal. apply IH; assumption.
  - cbn in W. subst l. cbn. reflexivity.
Qed.
Lemma fold_steps environ l : well l -> (forall w, In w (names l) -> ~ In "$"%char (meaning environ w)) -> forall gs known, Forall Name gs ->
  fold_left (put_variable environ) gs (render environ known l) = render environ (rev gs ++ known) l.
Proof.
  intros W V gs. induction gs as [|g gs IH]; intros known F; [reflexivity|]. inversion F; subst. cbn [fold_left]. change (put_variable environ (render environ known l) g) with (replace (written g) (meaning environ g) (render environ known l)).
  rewrite show_step by assumption. rewrite IH by assumption. cbn [rev]. rewrite <- app_assoc. reflexivity.
Qed.
Lemma variable_none_other c t : c <> "$"%char -> variable_at (c :: t) = None.
Proof.
  intros H. destruct (variable_at (c :: t)) eqn:E; [|reflexivity]. apply variable_iff in E. destruct E as (_ & r & E). injection E as E _. contradiction.
Qed.
Lemma variable_none_dollar c t : c <> "{"%char -> variable_at ("$"%char :: c :: t) = None.
Proof.
  intros H. destruct (variable_at _) eqn:E; [|reflexivity]. apply variable_iff in E. destruct E as (_ & r & E). injection E as E _. contradiction.
Qed.
Lemma findall_others v t : ~ In "$"%char v -> findall (v ++ t) = findall t.
Proof.
  induction v as [|c v IH]; intros H; [reflexivity|]. cbn [app findall]. rewrite variable_none_other by (intros ->; apply H; left; reflexivity). apply IH. intros K. apply H. right. exact K.
Qed.
Lemma findall_written w t : Name w -> findall (written w ++ t) = w :: findall t.
Proof.
  intros N. assert (E : variable_at (written w ++ t) = Some w) by (apply variable_iff; split; [exact N|exists t; reflexivity]).
  change (written w ++ t) with ("$"%char :: (("{"%char :: w ++ ["}"%char]) ++ t)) in *. remember (("{"%char :: w ++ ["}"%char]) ++ t) as u eqn:U. cbn [findall]. rewrite E. f_equal. subst u. apply findall_others. apply not_in_words. apply N.
Qed.
Lemma findall_render environ l : well l -> findall (render environ [] l) = names l.
Proof.
  induction l as [|p l IH]; intros W; [reflexivity|]. destruct p as [w|c|c|].
  - destruct W as [N W]. cbn [render flat_map show existsb names]. rewrite findall_written by exact N. cbn [app]. f_equal. apply IH. exact W.
  - destruct W as [N W]. cbn [render flat_map show app findall]. rewrite variable_none_other by exact N. apply IH. exact W.
  - destruct W as [[N B] W]. cbn [render flat_map show app]. change (findall ("$"%char :: c :: flat_map (show environ []) l)) with
      (match variable_at ("$"%char :: c :: flat_map (show environ []) l) with Some w => w :: findall (c :: flat_map (show environ []) l) | None => findall (c :: flat_map (show environ []) l) end).
    rewrite variable_none_dollar by exact B. cbn [findall]. rewrite variable_none_other by exact N. apply IH. exact W.
  - cbn in W. subst l. reflexivity.
Qed.
Lemma findall_rendered environ known l : well l -> (forall w, In w (names l) -> ~ In "$"%char (meaning environ w)) -> incl (names l) known -> findall (render environ known l) = [].
Proof.
  induction l as [|p l IH]; intros W V I; [reflexivity|]. destruct p as [w|c|c|].
  - destruct W as [N W]. cbn [names flat_map app] in V, I. cbn [render flat_map show]. rewrite (proj2 (known_iff w known)) by (apply I; left; reflexivity). rewrite findall_others by (apply V; left; reflexivity).
    apply IH; [exact W|intros x X; apply V; right; exact X|intros x X; apply I; right; exact X].
  - destruct W as [N W]. cbn [render flat_map show app findall]. rewrite variable_none_other by exact N. apply IH; assumption.
  - destruct W as [[N B] W]. cbn [render flat_map show app]. change (findall ("$"%char :: c :: flat_map (show environ known) l)) with
      (match variable_at ("$"%char :: c :: flat_map (show environ known) l) with Some w => w :: findall (c :: flat_map (show environ known) l) | None => findall (c :: flat_map (show environ known) l) end).
    rewrite variable_none_dollar by exact B. cbn [findall]. rewrite variable_none_other by exact N. apply IH; assumption.
  - cbn in W. subst l. reflexivity.
Qed.
Lemma names_name l w : well l -> In w (names l) -> Name w.
Proof.
  induction l as [|p l IH]; intros W I; [destruct I|]. destruct p as [v|c|c|]; cbn [names flat_map app] in I.
  - destruct W as [N W]. destruct I as [<-|I]; [exact N|exact (IH W I)].
  - destruct W as [_ W]. exact (IH W I).
  - destruct W as [_ W]. exact (IH W I).
  - cbn in W. subst l. destruct I.
Qed.
Lemma names_clean environ l : well l -> (forall w v, Mentions (render environ [] l) w -> environ w = Some v -> ~ In "$"%char v) -> forall w, In w (names l) -> ~ In "$"%char (meaning environ w).
Proof.
  intros W V w I. unfold meaning. destruct (environ w) as [v|] eqn:E.
  - apply (V w v); [|exact E]. apply findall_iff. rewrite findall_render by exact W. exact I.
  - destruct (names_name _ _ W I) as [_ F]. intros D. rewrite Forall_forall in F. apply (word_dollar _ (F _ D)). reflexivity.
Qed.
Lemma render_known environ known known' l : (forall w, In w known <-> In w known') -> render environ known l = render environ known' l.
Proof.
  intros H. unfold render. induction l as [|p l IH]; [reflexivity|]. cbn [flat_map]. f_equal; [|exact IH]. destruct p as [w| | |]; cbn [show]; try reflexivity.
  destruct (existsb (text_eqb w) known) eqn:A, (existsb (text_eqb w) known') eqn:B; try reflexivity.
  - apply known_iff in A. apply H in A. apply known_iff in A. congruence.
  - apply known_iff in B. apply H in B. apply known_iff in B. congruence.
Qed.
Lemma construct_render environ l : well l -> (forall w, In w (names l) -> ~ In "$"%char (meaning environ w)) -> constructor_env_variables environ (render environ [] l) = render environ (names l) l.
Proof.
  intros W V. unfold constructor_env_variables. rewrite findall_render by exact W. rewrite fold_steps; [|exact W|exact V|apply Forall_forall; intros w I; exact (names_name _ _ W I)].
  apply render_known. intros w. rewrite app_nil_r, <- in_rev. reflexivity.
Qed.
Lemma construct_none environ t : findall t = [] -> constructor_env_variables environ t = t.
Proof. intros H. unfold constructor_env_variables. rewrite H. reflexivity. Qed.
Lemma fold_same environ environ' gs t : (forall w, In w gs -> environ w = environ' w) -> fold_left (put_variable environ) gs t = fold_left (put_variable environ') gs t.
Proof.
  revert t. induction gs as [|g gs IH]; intros t H; [reflexivity|]. cbn [fold_left]. unfold put_variable at 2 4. rewrite (H g) by (left; reflexivity). apply IH. intros w I. apply H. right. exact I.
Qed.
Lemma first_line_all v : ~ In (ascii_of_nat 10) v -> first_line v = v.
Proof.
  induction v as [|c v IH]; intros H; [reflexivity|]. cbn [first_line]. destruct (Nat.eqb_spec (nat_of_ascii c) 10) as [E|E]; [|f_equal; apply IH; intros K; apply H; right; exact K].
  exfalso. apply H. left. rewrite <- E. symmetry. apply ascii_nat_embedding.
Qed.
Lemma first_line_prefix v : exists r, v = first_line v ++ r.
Proof.
  induction v as [|c v (r & IH)]; [exists []; reflexivity|]. cbn [first_line]. destruct (nat_of_ascii c =? 10); [exists (c :: v); reflexivity|]. exists r. cbn [app]. f_equal. exact IH.
Qed.
Definition case_environ : environment := fun w => if text_eqb w (list_ascii_of_string "LOG") then Some (list_ascii_of_string "a{b}") else None.
Definition loop_environ : environment := fun w => if text_eqb w (list_ascii_of_string "A") then Some (list_ascii_of_string "${B}") else if text_eqb w (list_ascii_of_string "B") then Some (list_ascii_of_string "x") else None.

(** The statements of PropertiesConfig.v. *)
Lemma C92_unchanged_proof : forall environ t, (forall w, ~ Mentions t w) -> constructor_env_variables environ t = t.
Proof.
  intros environ t H. apply construct_none. apply no_variables. exact H.
Qed.

Lemma C92_unchanged_case_proof : forall w, ~ Mentions (list_ascii_of_string "cost: $5 {x} ${} ${a b}") w.
Proof.
  intros w H. apply findall_iff in H. exact H.
Qed.

Lemma C92_filled_proof : forall environ t r,
  (forall w v, Mentions t w -> environ w = Some v -> ~ In "$"%char v) -> Filled environ t r -> constructor_env_variables environ t = r.
Proof.
  intros environ t r V F. apply filled_pieces in F. destruct F as (l & W & <- & <-). apply construct_render; [exact W|]. exact (names_clean _ _ W V).
Qed.

Lemma C92_filled_case_proof :
  Filled case_environ (list_ascii_of_string "/var/${LOG}/$1/${NONE}${LOG}") (list_ascii_of_string "/var/a{b}/$1/NONEa{b}") /\
  (forall w v, Mentions (list_ascii_of_string "/var/${LOG}/$1/${NONE}${LOG}") w -> case_environ w = Some v -> ~ In "$"%char v).
Proof.
  split.
  - do 5 (apply filled_other; [discriminate|]).
    apply (filled_variable case_environ (list_ascii_of_string "LOG") (list_ascii_of_string "/$1/${NONE}${LOG}") (list_ascii_of_string "/$1/NONEa{b}")); [split; [discriminate|repeat (constructor; [apply word_iff; reflexivity|]); constructor]|].
    apply filled_other; [discriminate|]. apply filled_dollar; [discriminate|discriminate|]. apply filled_other; [discriminate|].
    apply (filled_variable case_environ (list_ascii_of_string "NONE") (list_ascii_of_string "${LOG}") (list_ascii_of_string "a{b}")); [split; [discriminate|repeat (constructor; [apply word_iff; reflexivity|]); constructor]|].
    apply (filled_variable case_environ (list_ascii_of_string "LOG") [] []); [split; [discriminate|repeat (constructor; [apply word_iff; reflexivity|]); constructor]|]. constructor.
  - intros w v _ E. unfold case_environ in E. destruct (text_eqb _ _); [|discriminate]. injection E as <-. cbn. intros H. repeat (destruct H as [H|H]; [discriminate|]). exact H.
Qed.

Lemma C92_final_proof : forall environ environ' t r,
  (forall w v, Mentions t w -> environ w = Some v -> ~ In "$"%char v) -> Filled environ t r ->
  constructor_env_variables environ' (constructor_env_variables environ t) = r.
Proof.
  intros environ environ' t r V F. apply filled_pieces in F. destruct F as (l & W & <- & <-). pose proof (names_clean _ _ W V) as N. rewrite construct_render by assumption.
  apply construct_none. apply findall_rendered; [exact W|exact N|]. intros x X. exact X.
Qed.

Lemma C92_mentioned_proof : forall environ environ' t, (forall w, Mentions t w -> environ w = environ' w) ->
  constructor_env_variables environ t = constructor_env_variables environ' t.
Proof.
  intros environ environ' t H. apply fold_same. intros w I. apply H. apply findall_iff. exact I.
Qed.

Lemma C92_filled_refuted_proof : exists environ t r, Filled environ t r /\ constructor_env_variables environ t <> r.
Proof.
  exists loop_environ, (list_ascii_of_string "${A}${B}"), (list_ascii_of_string "${B}x"). split; [|discriminate].
  apply (filled_variable loop_environ (list_ascii_of_string "A") (list_ascii_of_string "${B}") (list_ascii_of_string "x")); [split; [discriminate|repeat (constructor; [apply word_iff; reflexivity|]); constructor]|].
  apply (filled_variable loop_environ (list_ascii_of_string "B") [] []); [split; [discriminate|repeat (constructor; [apply word_iff; reflexivity|]); constructor]|]. constructor.
Qed.

Lemma C93_tagged_proof : forall environ st tag v, In tag st ->
  load_scalar environ st (Tagged tag v) = Ok (Text (constructor_env_variables environ v)) /\
  load_scalar environ st (QuotedScalar v) = Ok (Text v).
Proof.
  intros environ st tag v H. split; [|reflexivity]. cbn [load_scalar]. assert (E : existsb (String.eqb tag) st = true) by (apply existsb_exists; exists tag; split; [exact H|apply String.eqb_refl]). rewrite E. reflexivity.
Qed.

Lemma C93_tagged_case_proof : In "!ENV"%string ["!ENV"%string].
Proof.
  left. reflexivity.
Qed.

Lemma C93_plain_proof : forall environ st v, (forall w, ~ Mentions v w) -> load_scalar environ st (PlainScalar v) = Ok (ByYaml v).
Proof.
  intros environ st v H. cbn [load_scalar]. rewrite (no_variables (first_line v)); [destruct st; reflexivity|].
  intros w (N & a & b & E). destruct (first_line_prefix v) as (r & P). apply (H w). split; [exact N|]. exists a, (b ++ r). rewrite P, E. rewrite <- !app_assoc. reflexivity.
Qed.

Lemma C93_tag_refuted_proof : forall environ st v w, st <> [] -> ~ In (ascii_of_nat 10) v -> Mentions v w ->
  load_scalar environ st (PlainScalar v) = Ok (Text (constructor_env_variables environ v)).
Proof.
  intros environ st v w S0 L M. cbn [load_scalar]. rewrite first_line_all by exact L. apply findall_iff in M. destruct st as [|x st]; [congruence|]. destruct (findall v); [destruct M|]. reflexivity.
Qed.

Lemma C93_tag_refuted_case_proof : ~ In (ascii_of_nat 10) (list_ascii_of_string "x${A}") /\ Mentions (list_ascii_of_string "x${A}") (list_ascii_of_string "A").
Proof.
  split; [intros H; repeat (destruct H as [H|H]; [discriminate|]); exact H|]. apply findall_iff. left. reflexivity.
Qed.

Lemma C93_source_proof : forall doc open_file load st path data tag,
  let given (o : option string) := match o with Some s => s <> ""%string | None => False end in
  let result := snd (@parse_config doc open_file load st path data tag) in
  (forall p, path = Some p -> p <> ""%string -> (forall c, open_file p = Ok c -> result = load (st ++ [tag]) c) /\ (forall e, open_file p = Err e -> result = Err e)) /\
  (forall d, ~ given path -> data = Some d -> d <> ""%string -> result = load (st ++ [tag]) d) /\
  (~ given path -> ~ given data -> result = Err ValueError).
Proof.
  intros doc open_file load st path data tag given result. unfold result, given. unfold parse_config. cbn [snd]. split; [|split].
  - intros p -> N. destruct p as [|c p]; [congruence|]. split; intros x E; rewrite E; reflexivity.
  - intros d G -> N. destruct d as [|c d]; [congruence|]. destruct path as [[|c' p]|]; try reflexivity. exfalso. apply G. discriminate.
  - intros G K. destruct path as [[|c' p]|]; [|exfalso; apply G; discriminate|]; (destruct data as [[|c d]|]; [reflexivity|exfalso; apply K; discriminate|reflexivity]).
Qed.

Lemma C93_loader_refuted_proof : forall environ v w doc open_file load tag, ~ In (ascii_of_nat 10) v -> Mentions v w ->
  load_scalar environ [] (PlainScalar v) = Ok (ByYaml v) /\
  let '(st, result) := @parse_config doc open_file load [] None None tag in
  result = Err ValueError /\ load_scalar environ st (PlainScalar v) = Ok (Text (constructor_env_variables environ v)).
Proof.
  intros environ v w doc open_file load tag L M. split; [reflexivity|]. cbn [parse_config]. split; [reflexivity|]. apply findall_iff in M. cbn [load_scalar app]. rewrite first_line_all by exact L. destruct (findall v); [destruct M|]. reflexivity.
Qed.

