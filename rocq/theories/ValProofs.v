(** Proofs about ValModel.v. *)
From Verif Require Import PyBase ColumnModel EventModel EventProofs.
From Verif Require RocModel RocProofs.
From Verif Require Import ValModel ValSpec.
From Coq Require Import String Ascii List Sorted Permutation Lia.
Import ListNotations.
Open Scope string_scope.
Open Scope Z_scope.

(* ---------- texts ---------- *)
Lemma app_nil_s (s : string) : s ++ "" = s.
Proof. induction s as [|c s IH]; [reflexivity|]. cbn. rewrite IH. reflexivity. Qed.
Lemma app_assoc_s (a b c : string) : (a ++ b) ++ c = a ++ b ++ c.
Proof. induction a as [|x a IH]; [reflexivity|]. cbn. rewrite IH. reflexivity. Qed.
Lemma app_inj_s (a b c : string) : a ++ b = a ++ c -> b = c.
Proof. induction a as [|x a IH]; [auto|]. cbn. intro H. injection H as H. auto. Qed.
Lemma without_nil c : Without c "".
Proof. intros a b H. destruct a; discriminate. Qed.
Lemma without_cons c d s : Without c (String d s) <-> c <> d /\ Without c s.
Proof.
  split.
  - intro H. split; [intros ->; exact (H "" s eq_refl)|]. intros a b E. apply (H (String d a) b). rewrite E. reflexivity.
  - intros [N H] a b E. destruct a as [|x a]; injection E as -> ->; [apply N; reflexivity|exact (H a b eq_refl)].
Qed.
Lemma without_app c a b : Without c (a ++ b) <-> Without c a /\ Without c b.
Proof.
  induction a as [|x a IH]; cbn [append]; [split; [intro H; split; [apply without_nil|exact H]|intros [_ H]; exact H]|].
  rewrite !without_cons, IH. tauto.
Qed.
Lemma has_char_false c s : has_char c s = false <-> Without c s.
Proof.
  induction s as [|d s IH]; cbn [has_char]; [split; [intros _; apply without_nil|reflexivity]|].
  rewrite orb_false_iff, without_cons, IH. destruct (Ascii.eqb_spec c d) as [->|N]; split; intros [A B]; split; auto; [discriminate|congruence].
Qed.
Lemma has_char_true c s : has_char c s = true <-> ~ Without c s.
Proof. rewrite <- has_char_false. destruct (has_char c s); split; congruence. Qed.
Lemma without_in c s : Without c s -> ~ In c (list_ascii_of_string s).
Proof. induction s as [|d s IH]; [intros _ []|]. rewrite without_cons. intros [N H] [E|I]; [congruence|exact (IH H I)]. Qed.
Lemma without_dec c s : Without c s \/ ~ Without c s.
Proof. rewrite <- has_char_false. destruct (has_char c s); [right; discriminate|left; reflexivity]. Qed.
Lemma strip_iff p s r : strip p s = Some r <-> s = p ++ r.
Proof.
  revert s. induction p as [|a p IH]; intro s; cbn [strip append]; [split; intro H; [injection H as ->; reflexivity|rewrite H; reflexivity]|].
  destruct s as [|b s]; [split; discriminate|]. destruct (Ascii.eqb_spec a b) as [->|N].
  - rewrite IH. split; [intros ->; reflexivity|intro H; injection H as ->; reflexivity].
  - split; [discriminate|]. intro H. injection H as -> _. congruence.
Qed.
Lemma ends_slash_iff s : ends_slash s = true <-> Slash s.
Proof.
  unfold Slash. induction s as [|c s IH]; cbn [ends_slash].
  - split; [discriminate|]. intros [s H]. destruct s; discriminate.
  - destruct s as [|d s].
    + destruct (Ascii.eqb_spec c "/") as [->|N]; split; try discriminate; [exists ""; reflexivity|reflexivity|].
      intros [t H]. destruct t as [|x t]; [injection H as ->; congruence|]. injection H as _ H. destruct t; discriminate.
    + rewrite IH. split; intros [t H].
      * exists (String c t). rewrite H. reflexivity.
      * destruct t as [|x t]; [discriminate|]. injection H as _ H. exists t. exact H.
Qed.
Lemma in_dir_iff d p : in_dir d p = true <-> InDir d p.
Proof.
  unfold in_dir, InDir. destruct (strip d p) as [name|] eqn:E.
  - apply strip_iff in E. subst p. rewrite andb_true_iff, !negb_true_iff, String.eqb_neq, has_char_false. split.
    + intros [A B]. exists name. auto.
    + intros (n & H & A & B). apply app_inj_s in H. subst n. auto.
  - split; [discriminate|]. intros (n & H & _). apply strip_iff in H. congruence.
Qed.
Lemma in_dir_dec d p : InDir d p \/ ~ InDir d p.
Proof. rewrite <- in_dir_iff. destruct (in_dir d p); [left; reflexivity|right; discriminate]. Qed.

(* ---------- tables ---------- *)
Section Table.
Context {V : Type}.
Implicit Types (m : list (string * V)).
Lemma maps_cons k x v m u : Maps ((x, u) :: m) k v <-> (k = x /\ u = v) \/ (k <> x /\ Maps m k v).
Proof.
  unfold Maps. split.
  - intros ([|[y z] a] & b & E & N).
    + injection E as -> -> ->. left. auto.
    + injection E as -> -> ->. right. cbn in N. split; [intros ->; apply N; left; reflexivity|]. exists a, b. split; [reflexivity|tauto].
  - intros [[-> ->]|[N (a & b & -> & H)]].
    + exists [], m. split; [reflexivity|intros []].
    + exists ((x, u) :: a), b. split; [reflexivity|]. cbn. intros [E|I]; [congruence|exact (H I)].
Qed.
Lemma maps_nil k v : ~ Maps (@nil (string * V)) k v.
Proof. intros (a & b & E & _). destruct a; discriminate. Qed.
Lemma absent_cons k x u m : Absent ((x, u) :: m) k <-> k <> x /\ Absent m k.
Proof. unfold Absent. cbn. split; [intro H; split; [intros ->; apply H; left; reflexivity|tauto]|intros [A B] [E|I]; [congruence|exact (B I)]]. Qed.
Lemma find_maps m k : match find (fun x => String.eqb k (fst x)) m with Some x => fst x = k /\ Maps m k (snd x) | None => Absent m k end.
Proof.
  induction m as [|[x u] m IH]; cbn [find fst]; [intros []|]. destruct (String.eqb_spec k x) as [->|N].
  - cbn. split; [reflexivity|]. apply maps_cons. left. auto.
  - destruct (find _ m) as [y|].
    + destruct IH as [A B]. split; [exact A|]. apply maps_cons. right. auto.
    + apply absent_cons. auto.
Qed.
Lemma maps_uniq m k v v' : Maps m k v -> Maps m k v' -> v = v'.
Proof.
  induction m as [|[x u] m IH]; intros A B; [exact (False_ind _ (maps_nil k v A))|].
  apply maps_cons in A, B. destruct A as [[-> ->]|[N A]], B as [[E ->]|[N' B]]; try congruence. apply IH; assumption.
Qed.
Lemma maps_absent m k v : Maps m k v -> Absent m k -> False.
Proof. intros (a & b & -> & _) H. apply H. rewrite map_app. apply in_or_app. right. left. reflexivity. Qed.
Lemma maps_or m k : Absent m k \/ exists v, Maps m k v.
Proof. pose proof (find_maps m k) as H. destruct (find _ m) as [x|]; [right; exists (snd x); tauto|left; exact H]. Qed.
Lemma find_maps_eq m k v : Maps m k v -> find (fun x => String.eqb k (fst x)) m = Some (k, v).
Proof.
  intro H. pose proof (find_maps m k) as F. destruct (find _ m) as [[y z]|]; [|destruct (maps_absent _ _ _ H F)].
  destruct F as [A B]. cbn in *. subst y. rewrite (maps_uniq _ _ _ _ H B). reflexivity.
Qed.
Lemma find_absent_eq m k : Absent m k -> find (fun x => String.eqb k (fst x)) m = None.
Proof. intro H. pose proof (find_maps m k) as F. destruct (find _ m) as [[y z]|]; [destruct F as [_ B]; destruct (maps_absent _ _ _ B H)|reflexivity]. Qed.
Lemma not_absent m k : ~ Absent m k <-> exists v, Maps m k v.
Proof. destruct (maps_or m k) as [A|[v A]]; split; [tauto|intros [v B]; destruct (maps_absent _ _ _ B A)|exists v; exact A|intros _ B; exact (maps_absent _ _ _ A B)]. Qed.
End Table.

Lemma find_file_maps w p f : Maps w p f -> find_file p w = Some f.
Proof. intro H. unfold find_file. rewrite (find_maps_eq _ _ _ H). reflexivity. Qed.
Lemma find_file_absent w p : Absent w p -> find_file p w = None.
Proof. intro H. unfold find_file. rewrite (find_absent_eq _ _ H). reflexivity. Qed.
Lemma find_file_some w p f : find_file p w = Some f -> Maps w p f.
Proof. unfold find_file. pose proof (find_maps w p) as F. destruct (find _ w) as [x|]; [|discriminate]. intro H. injection H as <-. tauto. Qed.
Lemma find_file_none w p : find_file p w = None -> Absent w p.
Proof. unfold find_file. pose proof (find_maps w p) as F. destruct (find _ w) as [x|]; [discriminate|auto]. Qed.
Lemma has_file_true w p : has_file p w = true <-> ~ Absent w p.
Proof.
  unfold has_file. destruct (find_file p w) as [f|] eqn:E.
  - apply find_file_some in E. split; [|reflexivity]. intros _ A. exact (maps_absent _ _ _ E A).
  - apply find_file_none in E. split; [discriminate|tauto].
Qed.
Lemma has_file_false w p : has_file p w = false <-> Absent w p.
Proof.
  unfold has_file. destruct (find_file p w) as [f|] eqn:E.
  - apply find_file_some in E. split; [discriminate|]. intro A. destruct (maps_absent _ _ _ E A).
  - apply find_file_none in E. split; auto.
Qed.
Lemma param_ok P k v : Maps P k v -> param P k = Ok v.
Proof. intro H. unfold param. rewrite (find_maps_eq _ _ _ H). reflexivity. Qed.
Lemma param_no P k : Absent P k -> param P k = Err KeyError.
Proof. intro H. unfold param. rewrite (find_absent_eq _ _ H). reflexivity. Qed.
Lemma dir_ok P k v : Maps P k v -> Slash v -> dir_param P k = Ok v.
Proof. intros H S. unfold dir_param. rewrite (param_ok _ _ _ H). cbn. apply ends_slash_iff in S. rewrite S. reflexivity. Qed.
Lemma dir_no P k : Absent P k -> dir_param P k = Err KeyError.
Proof. intro H. unfold dir_param. rewrite (param_no _ _ H). reflexivity. Qed.

(* ---------- the disk ---------- *)
Lemma same_refl w p : SameAt w w p.
Proof. split; [intro f|]; reflexivity. Qed.
Lemma same_trans w1 w2 w3 p : SameAt w1 w2 p -> SameAt w2 w3 p -> SameAt w1 w3 p.
Proof. intros [A B] [A' B']. split; [intro f; rewrite A; apply A'|rewrite B; exact B']. Qed.
Lemma same_find w w' p : find_file p w = find_file p w' -> SameAt w w' p.
Proof.
  intro H. destruct (find_file p w') as [f|] eqn:E.
  - apply find_file_some in E, H. split; [intro g|].
    + split; intro G; [rewrite (maps_uniq _ _ _ _ G H)|rewrite (maps_uniq _ _ _ _ G E)]; assumption.
    + split; intro G; [destruct (maps_absent _ _ _ H G)|destruct (maps_absent _ _ _ E G)].
  - apply find_file_none in E, H. split; [intro g|tauto]. split; intro G; [destruct (maps_absent _ _ _ G H)|destruct (maps_absent _ _ _ G E)].
Qed.
Lemma same_find_inv w w' p : SameAt w w' p -> find_file p w = find_file p w'.
Proof.
  intros [A B]. destruct (find_file p w) as [f|] eqn:E.
  - apply find_file_some in E. apply A in E. rewrite (find_file_maps _ _ _ E). reflexivity.
  - apply find_file_none in E. apply B in E. rewrite (find_file_absent _ _ E). reflexivity.
Qed.
Lemma drop_other p q w : q <> p -> find_file q (drop p w) = find_file q w.
Proof.
  intro N. unfold find_file, drop. induction w as [|[x f] w IH]; [reflexivity|]. cbn [filter fst].
  destruct (String.eqb_spec p x) as [->|M]; cbn [negb find fst].
  - destruct (String.eqb_spec q x) as [->|_]; [congruence|exact IH].
  - destruct (String.eqb q x); [reflexivity|exact IH].
Qed.
Lemma drop_same p w : Absent (drop p w) p.
Proof.
  unfold Absent, drop. intro H. apply in_map_iff in H. destruct H as ([x f] & E & I). cbn in E. subst x.
  apply filter_In in I. cbn in I. rewrite String.eqb_refl in I. destruct I; discriminate.
Qed.
Lemma drops_find l : forall w q, find_file q (fold_left (fun w p => drop p w) l w) = if existsb (String.eqb q) l then None else find_file q w.
Proof.
  induction l as [|p l IH]; intros w q; [reflexivity|]. cbn [fold_left existsb]. rewrite IH.
  destruct (String.eqb_spec q p) as [->|N]; cbn [orb].
  - destruct (existsb _ l); [reflexivity|]. apply find_file_absent, drop_same.
  - destruct (existsb _ l); [reflexivity|]. apply drop_other. exact N.
Qed.
Lemma existsb_in q l : existsb (String.eqb q) l = true <-> In q l.
Proof. rewrite existsb_exists. split; [intros (x & I & E); apply String.eqb_eq in E; subst x; exact I|intro I; exists q; rewrite String.eqb_refl; auto]. Qed.
Lemma drops_removed (g : string -> bool) (gone : string -> Prop) w : (forall p, g p = true <-> gone p) ->
  Removed gone w (fold_left (fun w p => drop p w) (filter g (map fst w)) w).
Proof.
  intros H p. pose proof (drops_find (filter g (map fst w)) w p) as F. split.
  - intro G. apply find_file_none. rewrite F. destruct (existsb _ _) eqn:E; [reflexivity|]. apply find_file_absent. intro I.
    assert (In p (filter g (map fst w))) as K by (apply filter_In; split; [exact I|apply H; exact G]). apply existsb_in in K. congruence.
  - intro G. apply same_find. rewrite F. destruct (existsb _ _) eqn:E; [|reflexivity].
    apply existsb_in, filter_In in E. destruct E as [_ E]. apply H in E. contradiction.
Qed.
Lemma empty_removed d w : Removed (InDir d) w (empty_dir d w).
Proof. apply drops_removed. intro p. apply in_dir_iff. Qed.
Lemma removed_then (g1 g2 : string -> Prop) w1 w2 w3 : (forall p, g1 p \/ ~ g1 p) -> (forall p, g2 p \/ ~ g2 p) -> Removed g1 w1 w2 -> Removed g2 w2 w3 ->
  Removed (fun p => g1 p \/ g2 p) w1 w3.
Proof.
  intros D1 D2 R1 R2 p. destruct (R1 p) as [A1 B1], (R2 p) as [A2 B2]. destruct (D2 p) as [G2|G2]; [split; [auto|tauto]|].
  specialize (B2 G2). destruct (D1 p) as [G1|G1].
  - split; [|tauto]. intros _. apply B2. auto.
  - split; [tauto|]. intros _. exact (same_trans _ _ _ _ (B1 G1) B2).
Qed.
Lemma removed_ext (g1 g2 : string -> Prop) w w' : (forall p, g1 p <-> g2 p) -> Removed g1 w w' -> Removed g2 w w'.
Proof. intros E R p. destruct (R p) as [A B]. rewrite E in A. split; [exact A|]. intro N. apply B. rewrite E. exact N. Qed.
Lemma write_put day p c w : Put p (File c day) w (write_file day p c w).
Proof.
  unfold write_file. split; [apply maps_cons; left; auto|]. intros q N. apply same_find. unfold find_file at 2. cbn [find fst].
  destruct (String.eqb_spec q p) as [->|_]; [congruence|]. symmetry. apply (drop_other p q w N).
Qed.
(* ---------- names ---------- *)
Lemma replace_without s post : Without "." s -> replace_name s post = s.
Proof.
  induction s as [|c s IH]; [reflexivity|]. rewrite without_cons. intros [N H]. cbn [replace_name].
  destruct (Ascii.eqb_spec c ".") as [->|_]; [congruence|]. rewrite (IH H). reflexivity.
Qed.
Lemma replace_app a b post : replace_name (a ++ b) post = replace_name a post ++ replace_name b post.
Proof.
  induction a as [|c a IH]; [reflexivity|]. cbn [append replace_name]. rewrite IH. destruct (Ascii.eqb c "."); [|reflexivity].
  cbn [append]. f_equal. rewrite app_assoc_s. reflexivity.
Qed.
Lemma replace_concat parts post : Forall (Without ".") parts -> replace_name (String.concat "." parts) post = String.concat ("_" ++ post ++ ".") parts.
Proof.
  intro F. induction F as [|a l Ha F IH]; [reflexivity|]. destruct l as [|b l]; [cbn [String.concat]; apply replace_without; exact Ha|].
  change (String.concat "." (a :: b :: l)) with (a ++ "." ++ String.concat "." (b :: l)).
  change (String.concat ("_" ++ post ++ ".") (a :: b :: l)) with (a ++ ("_" ++ post ++ ".") ++ String.concat ("_" ++ post ++ ".") (b :: l)).
  rewrite !replace_app, IH, (replace_without a post Ha). change (replace_name "." post) with ("_" ++ post ++ "." ++ ""). rewrite !app_assoc_s. reflexivity.
Qed.
Lemma replace_slash s post : Without "/" post -> Without "/" s -> Without "/" (replace_name s post).
Proof.
  intros HP. induction s as [|c s IH]; [auto|]. rewrite without_cons. intros [N H]. cbn [replace_name]. destruct (Ascii.eqb c ".").
  - apply without_app. split; [apply without_cons; split; [discriminate|apply without_nil]|]. apply without_app. split; [exact HP|].
    apply without_app. split; [apply without_cons; split; [discriminate|apply without_nil]|exact (IH H)].
  - apply without_cons. auto.
Qed.
Lemma replace_nonempty s post : s <> "" -> replace_name s post <> "".
Proof. destruct s as [|c s]; [congruence|]. intros _. cbn [replace_name]. destruct (Ascii.eqb c "."); discriminate. Qed.
Lemma py_slash : Without "/" "py". Proof. apply has_char_false. reflexivity. Qed.
Lemma thresh_slash : Without "/" "thresh". Proof. apply has_char_false. reflexivity. Qed.
Lemma basename_slash d n : Slash d -> Without "/" n -> basename (d ++ n) = n.
Proof.
  intros [s ->] H. apply has_char_false in H. induction s as [|c s IH]; cbn [append basename].
  - rewrite H. reflexivity.
  - assert (has_char "/" ((s ++ "/") ++ n) = true) as ->; [|exact IH]. rewrite app_assoc_s. change ("/" ++ n) with (String "/" n). clear.
    induction s as [|c s IH]; [reflexivity|]. cbn [append has_char]. rewrite IH. apply orb_true_r.
Qed.
Lemma replace_dir_slash d post : Slash d -> Slash (replace_name d post).
Proof. intros [s ->]. exists (replace_name s post). rewrite replace_app. reflexivity. Qed.
Lemma basename_replaced d name : Slash d -> Without "/" name -> basename (replace_name (d ++ name) "py") = replace_name name "py".
Proof. intros S H. rewrite replace_app. apply basename_slash; [apply replace_dir_slash; exact S|apply replace_slash; [exact py_slash|exact H]]. Qed.

(* ---------- similar files ---------- *)
Lemma ends_app d s : s <> "" -> Without "/" s -> ends_slash (d ++ s) = false.
Proof.
  intros N H. destruct (ends_slash (d ++ s)) eqn:E; [|reflexivity]. apply ends_slash_iff in E. destruct E as [t E]. exfalso.
  revert d t E. induction s as [|c s IH]; intros d t E; [congruence|]. apply without_cons in H. destruct H as [M H]. destruct s as [|c' s].
  - revert t E. induction d as [|x d IHd]; intros t E; cbn [append] in E; destruct t as [|y t]; cbn [append] in E.
    + injection E as E. congruence.
    + injection E as _ E. destruct t; discriminate.
    + injection E as _ E. destruct d; discriminate.
    + injection E as _ E. exact (IHd t E).
  - apply (IH ltac:(discriminate) H (d ++ String c "") t). rewrite app_assoc_s. exact E.
Qed.
Lemma matches_iff d stem p : Slash d -> Without "/" stem -> matches (d ++ stem) p = true <-> Similar d stem p.
Proof.
  intros S H. unfold matches, Similar. destruct (strip (d ++ stem) p) as [r|] eqn:E.
  - apply strip_iff in E. rewrite app_assoc_s in E. subst p. rewrite andb_true_iff, orb_true_iff, !negb_true_iff, has_char_false.
    assert (((ends_slash (d ++ stem) = false \/ match r with EmptyString => false | String c _ => negb (Ascii.eqb c ".") end = true)) <->
      (stem = "" -> exists c s, r = String c s /\ c <> "."%char)) as Q.
    { destruct (string_dec stem "") as [->|N].
      - rewrite app_nil_s. apply ends_slash_iff in S. rewrite S. destruct r as [|c s].
        + split; [intros [A|A]; discriminate|]. intro A. destruct (A eq_refl) as (c & s & A' & _). discriminate.
        + destruct (Ascii.eqb_spec c "."); cbn; split; intro A; try (destruct A; discriminate).
          * destruct (A eq_refl) as (c' & s' & A' & B). injection A' as <- <-. contradiction.
          * intros _. exists c, s. auto.
          * right. reflexivity.
      - rewrite (ends_app d stem N H). split; [contradiction|auto]. }
    rewrite Q. split.
    + intros [A B]. exists r. auto.
    + intros (r' & A & B & K). apply app_inj_s, app_inj_s in A. subst r'. auto.
  - split; [discriminate|]. intros (r & A & _). rewrite <- app_assoc_s in A. apply strip_iff in A. congruence.
Qed.
Lemma similar_dec d stem p : Slash d -> Without "/" stem -> Similar d stem p \/ ~ Similar d stem p.
Proof. intros A B. rewrite <- (matches_iff d stem p A B). destruct (matches _ _); [left; reflexivity|right; discriminate]. Qed.
Lemma similar_dir d stem p : Without "/" stem -> Similar d stem p -> InDir d p.
Proof.
  intros H (r & -> & W & E). exists (stem ++ r). split; [reflexivity|]. split; [|apply without_app; auto].
  destruct stem as [|c s]; [|discriminate]. destruct (E eq_refl) as (x & y & -> & _). discriminate.
Qed.
Lemma split_stem name : exists stem rest, split_on "." name = stem :: rest /\ StemOf name stem.
Proof.
  induction name as [|c s (stem & rest & E & W & H)]; [exists "", []; split; [reflexivity|split; [apply without_nil|left; reflexivity]]|].
  cbn [split_on]. destruct (Ascii.eqb_spec c ".") as [->|N].
  - exists "", (split_on "." s). split; [reflexivity|]. split; [apply without_nil|]. right. exists s. reflexivity.
  - rewrite E. exists (String c stem), rest. split; [reflexivity|]. split; [apply without_cons; split; [congruence|exact W]|].
    destruct H as [->|[ext ->]]; [left; reflexivity|right; exists ext; reflexivity].
Qed.
Lemma stem_uniq name s1 s2 : StemOf name s1 -> StemOf name s2 -> s1 = s2.
Proof.
  revert name s2. induction s1 as [|c s1 IH]; intros name s2 [W1 H1] [W2 H2].
  - destruct s2 as [|d s2]; [reflexivity|]. apply without_cons in W2. destruct W2 as [N _].
    destruct H1 as [-> |[e1 ->]], H2 as [E|[e2 E]]; try discriminate; cbn in E; injection E as E1 E2; congruence.
  - apply without_cons in W1. destruct W1 as [N W1]. destruct s2 as [|d s2].
    + destruct H1 as [-> |[e1 ->]], H2 as [E|[e2 E]]; try discriminate; cbn in E; injection E as E1 E2; congruence.
    + apply without_cons in W2. destruct W2 as [N2 W2].
      assert (exists nm, name = String c nm /\ StemOf nm s1) as (nm & -> & S1).
      { destruct H1 as [->|[e ->]]; [exists s1|exists (s1 ++ "." ++ e)]; (split; [reflexivity|split; [exact W1|]]); [left; reflexivity|right; exists e; reflexivity]. }
      assert (c = d /\ StemOf nm s2) as [<- S2].
      { destruct H2 as [E|[e E]]; cbn in E; injection E as -> ->; (split; [reflexivity|split; [exact W2|]]); [left; reflexivity|right; exists e; reflexivity]. }
      rewrite (IH nm s2 S1 S2). reflexivity.
Qed.
Lemma stem_slash name stem : Without "/" name -> StemOf name stem -> Without "/" stem.
Proof. intros W [_ [->|[e ->]]]; [exact W|]. apply without_app in W. tauto. Qed.
Lemma stem_plain name stem : Plain name -> StemOf name stem -> Plain stem.
Proof. intros W [_ [->|[e ->]]]; [exact W|]. unfold Plain in *. rewrite !without_app in W. tauto. Qed.
Lemma special_plain d s : Plain d -> Plain s -> special (d ++ s) = false.
Proof.
  intros (A & B & K) (A' & B' & K'). unfold special. rewrite !orb_false_iff, !has_char_false, !without_app. auto.
Qed.
Lemma delete_ok d name stem w : StemOf name stem -> Without "/" stem -> Slash d -> Plain d -> Plain stem ->
  exists w', delete_similar_files d name w = Ok w' /\ Removed (Similar d stem) w w'.
Proof.
  intros HS HW SL P1 P2. unfold delete_similar_files. destruct (split_stem name) as (st & rest & -> & HS').
  rewrite (stem_uniq _ _ _ HS' HS), (special_plain d stem P1 P2). eexists. split; [reflexivity|].
  apply drops_removed. intro p. apply matches_iff; assumption.
Qed.
Lemma delete_outside d name w w' q : delete_similar_files d name w = Ok w' -> Slash d -> Without "/" name -> ~ InDir d q -> SameAt w w' q.
Proof.
  unfold delete_similar_files. destruct (split_stem name) as (stem & rest & -> & HS). destruct (special _); [discriminate|].
  intros E SL W N. injection E as <-. pose proof (stem_slash _ _ W HS) as WS.
  refine (proj2 (drops_removed _ (Similar d stem) w _ q) _); [intro p; apply matches_iff; assumption|]. intro A. apply N. exact (similar_dir d stem q WS A).
Qed.

(* ---------- extensions ---------- *)
Lemma last_dot_iff s b a : last_dot s = Some (b, a) <-> s = b ++ "." ++ a /\ Without "." a.
Proof.
  revert b a. induction s as [|c s IH]; intros b a; cbn [last_dot].
  - split; [discriminate|]. intros [E _]. destruct b; discriminate.
  - destruct (last_dot s) as [[b' a']|] eqn:E.
    + destruct (proj1 (IH b' a') eq_refl) as [-> W']. split.
      * intro H. injection H as <- <-. split; [reflexivity|exact W'].
      * intros [H W]. destruct b as [|x b].
        -- injection H as -> H. exfalso. apply (W b' a'). symmetry. exact H.
        -- injection H as -> H. cut (Some (b', a') = Some (b, a)); [intro K; injection K as -> ->; reflexivity|]. apply IH. split; [exact H|exact W].
    + assert (Without "." s) as W'.
      { clear -E. induction s as [|d s IHs]; [apply without_nil|]. cbn [last_dot] in E. destruct (last_dot s) as [[? ?]|]; [discriminate|].
        destruct (Ascii.eqb_spec d ".") as [->|N]; [discriminate|]. apply without_cons. split; [congruence|apply IHs; reflexivity]. }
      destruct (Ascii.eqb_spec c ".") as [->|N]; split.
      * intro H. injection H as <- <-. split; [reflexivity|exact W'].
      * intros [H W]. destruct b as [|x b]; [injection H as ->; reflexivity|]. injection H as _ H. exfalso. exact (W' b a H).
      * discriminate.
      * intros [H W]. destruct b as [|x b]; [injection H as -> _; congruence|]. injection H as _ H. exfalso. exact (W' b a H).
Qed.
Lemma only_dots_false s : only_dots s = false <-> exists a c b, s = a ++ String c b /\ c <> "."%char.
Proof.
  induction s as [|d s IH]; cbn [only_dots].
  - split; [discriminate|]. intros (a & c & b & E & _). destruct a; discriminate.
  - destruct (Ascii.eqb_spec d ".") as [->|N]; cbn [andb].
    + rewrite IH. split; intros (a & c & b & E & M).
      * exists (String "." a), c, b. rewrite E. auto.
      * destruct a as [|x a]; [injection E as E _; congruence|]. injection E as _ E. exists a, c, b. auto.
    + split; [|reflexivity]. intros _. exists "", d, s. auto.
Qed.
Lemma extension_iff name : extension name = ".xml" <-> XmlName name.
Proof.
  unfold extension, XmlName. split.
  - destruct (last_dot name) as [[b a]|] eqn:E; [|discriminate]. apply last_dot_iff in E. destruct E as [-> W].
    destruct (only_dots b) eqn:D; [discriminate|]. intro H. apply only_dots_false in D. destruct D as (x & c & y & -> & N).
    exists x, c, y. split; [|exact N]. rewrite H. rewrite app_assoc_s. reflexivity.
  - intros (x & c & y & -> & N). assert (last_dot (x ++ String c y ++ ".xml") = Some (x ++ String c y, "xml")) as ->.
    { apply last_dot_iff. split; [rewrite app_assoc_s; reflexivity|apply has_char_false; reflexivity]. }
    assert (only_dots (x ++ String c y) = false) as ->; [|reflexivity]. apply only_dots_false. exists x, c, y. auto.
Qed.

(* ---------- the selection ---------- *)
Lemma sorted_strict l : NoDup l -> StronglySorted (fun p q => String.compare p q = Lt) (RocModel.sort_by RocModel.text_le l).
Proof.
  intro N. assert (NoDup (RocModel.sort_by RocModel.text_le l)) as N' by (apply (Permutation_NoDup (RocProofs.sort_perm RocModel.text_le l)); exact N).
  assert (StronglySorted (fun a b => RocModel.text_le a b = true) (RocModel.sort_by RocModel.text_le l)) as HS.
  { apply (RocProofs.sort_sorted RocModel.text_le (fun _ => True)); [intros; apply RocProofs.text_le_total; assumption|intros; eapply RocProofs.text_le_trans; eassumption|].
    apply Forall_forall. auto. }
  revert N' HS. generalize (RocModel.sort_by RocModel.text_le l). clear. intros s N HS. induction HS as [|x s HS IH F]; [constructor|].
  inversion N as [|? ? Nx Ns]; subst. constructor; [exact (IH Ns)|]. rewrite Forall_forall in *. intros y Hy. specialize (F y Hy).
  unfold RocModel.text_le in F. destruct (String.compare x y) eqn:E; [|reflexivity|discriminate]. apply RocProofs.str_eq in E. subst y. contradiction.
Qed.
Lemma sorted_unique l1 : forall l2, StronglySorted (fun p q => String.compare p q = Lt) l1 -> StronglySorted (fun p q => String.compare p q = Lt) l2 ->
  (forall p, In p l1 <-> In p l2) -> l1 = l2.
Proof.
  induction l1 as [|x l1 IH]; intros l2 S1 S2 H.
  - destruct l2 as [|y l2]; [reflexivity|]. destruct (proj2 (H y) (or_introl eq_refl)).
  - destruct l2 as [|y l2]; [destruct (proj1 (H x) (or_introl eq_refl))|].
    inversion S1 as [|? ? S1' F1]; subst. inversion S2 as [|? ? S2' F2]; subst. rewrite Forall_forall in F1, F2.
    assert (x = y) as <-.
    { destruct (proj1 (H x) (or_introl eq_refl)) as [E|I1]; [auto|]. destruct (proj2 (H y) (or_introl eq_refl)) as [E|I2]; [auto|].
      pose proof (RocProofs.str_lt_trans _ _ _ (F1 y I2) (F2 x I1)) as L. rewrite RocProofs.str_refl in L. discriminate. }
    f_equal. apply IH; [exact S1'|exact S2'|]. intro p. split; intro I.
    + destruct (proj1 (H p) (or_intror I)) as [<-|I']; [|exact I']. specialize (F1 x I). rewrite RocProofs.str_refl in F1. discriminate.
    + destruct (proj2 (H p) (or_intror I)) as [<-|I']; [|exact I']. specialize (F2 x I). rewrite RocProofs.str_refl in F2. discriminate.
Qed.
Lemma period_iff day_of now now' P first last :
  get_testing_period day_of now now' P = Ok (first, last) <-> FirstDay day_of now P first /\ LastDay day_of now' P last /\ first <= last.
Proof.
  unfold get_testing_period, FirstDay, LastDay.
  assert (forall k dflt d, match param P k with Ok s => day_of s | Err _ => Ok dflt end = Ok d <->
    ((exists t, Maps P k t /\ day_of t = Ok d) \/ (Absent P k /\ d = dflt))) as Q.
  { intros k dflt d. destruct (maps_or P k) as [A|[v A]].
    - rewrite (param_no _ _ A). split; [intro H; injection H as <-; right; auto|]. intros [(t & B & _)|[_ ->]]; [destruct (maps_absent _ _ _ B A)|reflexivity].
    - rewrite (param_ok _ _ _ A). split; [intro H; left; exists v; auto|]. intros [(t & B & H)|[B _]]; [rewrite (maps_uniq _ _ _ _ A B); exact H|destruct (maps_absent _ _ _ A B)]. }
  rewrite <- !Q. destruct (match param P "start_date" with Ok s => day_of s | Err _ => Ok (now - 1) end) as [a|e]; cbn [bind]; [|split; [discriminate|intros [H _]; discriminate]].
  destruct (match param P "end_date" with Ok s => day_of s | Err _ => Ok now' end) as [b|e]; cbn [bind]; [|split; [discriminate|intros (_ & H & _); discriminate]].
  destruct (Z.ltb_spec b a).
  - split; [discriminate|]. intros (A & B & L). injection A as ->. injection B as ->. lia.
  - split; [intro E; injection E as -> ->; auto|]. intros (A & B & L). injection A as ->. injection B as ->. reflexivity.
Qed.
Lemma period_refused day_of now now' P first last : FirstDay day_of now P first -> LastDay day_of now' P last -> last < first ->
  get_testing_period day_of now now' P = Err KeyError.
Proof.
  unfold get_testing_period, FirstDay, LastDay. intros A B L.
  assert (match param P "start_date" with Ok s => day_of s | Err _ => Ok (now - 1) end = Ok first) as ->.
  { destruct A as [(t & M & E)|[M ->]]; [rewrite (param_ok _ _ _ M); exact E|rewrite (param_no _ _ M); reflexivity]. }
  cbn [bind]. assert (match param P "end_date" with Ok s => day_of s | Err _ => Ok now' end = Ok last) as ->.
  { destruct B as [(t & M & E)|[M ->]]; [rewrite (param_ok _ _ _ M); exact E|rewrite (param_no _ _ M); reflexivity]. }
  cbn [bind]. destruct (Z.ltb_spec last first); [reflexivity|lia].
Qed.
Lemma in_selected (g : string -> bool) l p : In p (RocModel.sort_by RocModel.text_le (filter g l)) <-> In p l /\ g p = true.
Proof.
  rewrite <- filter_In. split; apply Permutation_in; [apply Permutation_sym|]; apply RocProofs.sort_perm.
Qed.
Lemma selected_files day_of now now' P w d first last : Maps P "input_xml_dir" d -> Slash d ->
  FirstDay day_of now P first -> LastDay day_of now' P last -> first <= last -> NoDup (map fst w) ->
  exists files, get_test_xml day_of now now' P w = Ok files /\
    (forall p, In p files <-> exists name f, p = d ++ name /\ name <> "" /\ Without "/" name /\ XmlName name /\ Maps w p f /\ first <= changed f <= last) /\
    StronglySorted (fun p q => String.compare p q = Lt) files.
Proof.
  intros M S F L O N. unfold get_test_xml. rewrite (proj2 (period_iff day_of now now' P first last) (conj F (conj L O))). cbn [bind].
  rewrite (dir_ok _ _ _ M S). cbn [bind fst snd]. eexists. split; [reflexivity|]. split.
  - intro p. rewrite in_selected. unfold scandir. rewrite filter_In, in_dir_iff. split.
    + intros [[I (name & E & NE & W)] G]. rewrite (proj2 (strip_iff d p name) E) in G. destruct (find_file p w) as [f|] eqn:FF; [|discriminate].
      apply andb_true_iff in G. destruct G as [G X]. apply andb_true_iff in G. destruct G as [G1 G2]. apply String.eqb_eq, extension_iff in X.
      apply find_file_some in FF. exists name, f. repeat (split; [assumption|]). lia.
    + intros (name & f & E & NE & W & X & MF & B1 & B2). rewrite (proj2 (strip_iff d p name) E), (find_file_maps _ _ _ MF). split.
      * split; [destruct MF as (a & b & -> & _); rewrite map_app; apply in_or_app; right; left; reflexivity|]. exists name. auto.
      * apply extension_iff in X. rewrite X, String.eqb_refl, andb_true_r. apply andb_true_iff. split; lia.
  - apply sorted_strict. apply NoDup_filter, NoDup_filter. exact N.
Qed.

(* ---------- documents ---------- *)
Definition sets (changes : list (string * string)) (doc : list (string * option string)) : list (string * option string) :=
  fold_left (fun d c => set_first (fst c) (snd c) d) changes doc.
Lemma tag_ok doc t v : Maps doc t (Some v) -> tag_value doc t = Ok v.
Proof. intro H. unfold tag_value. rewrite (find_maps_eq _ _ _ H). reflexivity. Qed.
Lemma tag_inv doc t v : tag_value doc t = Ok v -> Maps doc t (Some v).
Proof.
  unfold tag_value. pose proof (find_maps doc t) as F. destruct (find _ doc) as [[x [u|]]|]; try discriminate. intro H. injection H as <-. cbn in F. tauto.
Qed.
Lemma set_first_maps t v doc k x : ~ Absent doc t -> Maps (set_first t v doc) k x <-> (k = t /\ x = Some v) \/ (k <> t /\ Maps doc k x).
Proof.
  induction doc as [|[y u] doc IH]; intro H; [destruct H; intros []|]. cbn [set_first fst].
  destruct (String.eqb_spec t y) as [<-|N].
  - rewrite !maps_cons. split; [intros [[-> ->]|[A B]]; [left; auto|right; auto]|]. intros [[-> ->]|[A [[B _]|[_ B]]]]; [left; auto|congruence|right; auto].
  - rewrite !maps_cons. rewrite IH by (intro A; apply H; apply absent_cons; auto). split.
    + intros [[-> ->]|[A [[-> ->]|[B K]]]]; [right; split; [congruence|left; auto]|left; auto|right; split; [exact B|right; auto]].
    + intros [[-> ->]|[A [[-> ->]|[B K]]]]; [right; split; [exact N|left; auto]|left; auto|right; split; [exact B|right; auto]].
Qed.
Lemma set_first_keys t v doc : map fst (set_first t v doc) = map fst doc.
Proof. induction doc as [|[y u] doc IH]; [reflexivity|]. cbn [set_first fst]. destruct (String.eqb t y); [reflexivity|]. cbn. rewrite IH. reflexivity. Qed.
Lemma rewritten_sets changes : forall doc, NoDup (map fst changes) -> Forall (fun c => ~ Absent doc (fst c)) changes -> Rewritten changes doc (sets changes doc).
Proof.
  induction changes as [|[t v] changes IH]; intros doc N F k x.
  - cbn. split; [intro H; right; split; [intros []|exact H]|]. intros [(y & A & _)|[_ A]]; [destruct (maps_nil _ _ A)|exact A].
  - inversion N as [|? ? Nt N']; subst. inversion F as [|? ? Ft F']; subst. cbn in Ft. unfold sets. cbn [fold_left fst snd]. fold (sets changes (set_first t v doc)).
    assert (Forall (fun c => ~ Absent (set_first t v doc) (fst c)) changes) as F2.
    { revert F'. apply Forall_impl. intros c H. unfold Absent in *. rewrite set_first_keys. exact H. }
    pose proof (IH (set_first t v doc) N' F2 k x) as K0. rewrite K0. clear K0.
    rewrite (set_first_maps t v doc k x Ft). split.
    + intros [(y & A & ->)|[A [[-> ->]|[B K]]]].
      * left. exists y. split; [|reflexivity]. apply maps_cons. right. split; [|exact A]. intros ->. exact (maps_absent _ _ _ A Nt).
      * left. exists v. split; [|reflexivity]. apply maps_cons. left. auto.
      * right. split; [apply absent_cons; auto|exact K].
    + intros [(y & A & ->)|[A B]].
      * apply maps_cons in A. destruct A as [[-> ->]|[NE A]]; [right; split; [exact Nt|left; auto]|left; exists y; auto].
      * apply absent_cons in A. destruct A as [A1 A2]. right. split; [exact A2|right; auto].
Qed.
Lemma sets_other changes : forall doc k x, ~ In k (map fst changes) -> Forall (fun c => ~ Absent doc (fst c)) changes -> Maps doc k x -> Maps (sets changes doc) k x.
Proof.
  induction changes as [|[t v] changes IH]; intros doc k x N F M; [exact M|]. inversion F as [|? ? Ft F']; subst. cbn in N, Ft. unfold sets. cbn [fold_left fst snd].
  fold (sets changes (set_first t v doc)). apply IH; [tauto| |apply set_first_maps; [exact Ft|right; split; [intro E; apply N; left; symmetry; exact E|exact M]]].
  revert F'. apply Forall_impl. intros c H. unfold Absent in *. rewrite set_first_keys. exact H.
Qed.
Definition wanted (plot data_file r_file home plots user pass data scripts : string) : list (string * string) :=
  [("plot_file", replace_name plot "py"); ("data_file", replace_name data_file "py"); ("r_file", replace_name r_file "py");
   ("r_tmpl", home ++ "R_tmpl"); ("r_work", home ++ "R_work"); ("plots", plots); ("user", user); ("password", pass);
   ("data", data); ("scripts", scripts)].
Lemma set_tag_ok changes doc t v : ~ In t (map fst changes) -> Forall (fun c => ~ Absent doc (fst c)) changes -> (exists u, Maps doc t (Some u)) ->
  set_tag t v (sets changes doc) = Ok (sets (changes ++ [(t, v)]) doc).
Proof.
  intros N F [u M]. unfold set_tag. rewrite (tag_ok _ _ u (sets_other _ _ _ _ N F M)). cbn [bind]. unfold sets at 2. rewrite fold_left_app. reflexivity.
Qed.
Lemma prepare_ok P w path day doc plot where_ data_file r_file home xml plots data scripts user pass :
  Maps w path (File (Doc doc) day) ->
  Maps doc "plot_file" (Some plot) -> plot <> "" -> Without "/" plot -> Maps doc "plots" (Some where_) ->
  Maps doc "data_file" (Some data_file) -> Maps doc "r_file" (Some r_file) ->
  (forall t, In t ["r_tmpl"; "r_work"; "user"; "password"; "data"; "scripts"] -> exists v, Maps doc t (Some v)) ->
  Maps P "mv_home" home -> Maps P "db_user" user -> Maps P "db_pass" pass ->
  Maps P "output_xml_dir" xml -> Maps P "output_plots_dir" plots -> Maps P "output_data_dir" data -> Maps P "output_scripts_dir" scripts ->
  Slash xml -> Slash plots -> Slash data -> Slash scripts ->
  prepare P path w = Ok (Job plot (where_ ++ "/" ++ plot) (xml ++ basename (replace_name path "py")) (plots ++ replace_name plot "py")
    (sets (wanted plot data_file r_file home plots user pass data scripts) doc) plots data scripts (home ++ "/bin/mv_batch.sh")) /\
  Rewritten (wanted plot data_file r_file home plots user pass data scripts) doc (sets (wanted plot data_file r_file home plots user pass data scripts) doc).
Proof.
  intros MW Mplot NE WS Mplots Mdata Mr Mt Phome Puser Ppass Pxml Pplots Pdata Pscripts Sx Sp Sd Ss.
  assert (forall t, In t ["plot_file"; "plots"; "data_file"; "r_file"; "r_tmpl"; "r_work"; "user"; "password"; "data"; "scripts"] -> exists v, Maps doc t (Some v)) as AT.
  { intros t I. cbn in I. destruct I as [<-|[<-|[<-|[<-|I]]]]; [eauto|eauto|eauto|eauto|]. apply Mt. cbn. tauto. }
  assert (forall l, incl (map fst l) ["plot_file"; "plots"; "data_file"; "r_file"; "r_tmpl"; "r_work"; "user"; "password"; "data"; "scripts"] ->
    Forall (fun c : string * string => ~ Absent doc (fst c)) l) as AF.
  { intros l I. apply Forall_forall. intros c Hc. apply not_absent. destruct (AT (fst c)) as [v V]; [apply I; apply in_map; exact Hc|]. exists (Some v). exact V. }
  assert (forall t v l, ~ In t (map fst l) -> incl (t :: map fst l) ["plot_file"; "plots"; "data_file"; "r_file"; "r_tmpl"; "r_work"; "user"; "password"; "data"; "scripts"] ->
    set_tag t v (sets l doc) = Ok (sets (l ++ [(t, v)]) doc)) as ST.
  { intros t v l N I. apply set_tag_ok; [exact N|apply AF; intros x Hx; apply I; right; exact Hx|apply AT; apply I; left; reflexivity]. }
  assert (forall t v l, ~ In t (map fst l) -> incl (map fst l) ["plot_file"; "plots"; "data_file"; "r_file"; "r_tmpl"; "r_work"; "user"; "password"; "data"; "scripts"] ->
    Maps doc t (Some v) -> tag_value (sets l doc) t = Ok v) as TV.
  { intros t v l N I M. apply tag_ok, sets_other; [exact N|apply AF; exact I|exact M]. }
  split.
  - unfold prepare. rewrite (find_file_maps _ _ _ MW).
    rewrite (tag_ok _ _ _ Mplot). cbn [bind]. rewrite (tag_ok _ _ _ Mplots). cbn [bind].
    change doc with (sets [] doc) at 1.
    Ltac nin := cbn; intuition discriminate.
    Ltac inc := let x := fresh in intros x; cbn; tauto.
    rewrite (ST "plot_file" _ []) by first [nin|inc]. cbn [bind app].
    rewrite (TV "data_file" data_file) by first [assumption|nin|inc]. cbn [bind].
    rewrite (ST "data_file") by first [nin|inc]. cbn [bind app].
    rewrite (TV "r_file" r_file) by first [assumption|nin|inc]. cbn [bind].
    rewrite (ST "r_file") by first [nin|inc]. cbn [bind app].
    rewrite (param_ok _ _ _ Phome). cbn [bind].
    rewrite (ST "r_tmpl") by first [nin|inc]. cbn [bind app].
    rewrite (ST "r_work") by first [nin|inc]. cbn [bind app].
    rewrite (dir_ok _ _ _ Pplots Sp). cbn [bind].
    rewrite (ST "plots") by first [nin|inc]. cbn [bind app].
    rewrite (param_ok _ _ _ Puser). cbn [bind].
    rewrite (ST "user") by first [nin|inc]. cbn [bind app].
    rewrite (param_ok _ _ _ Ppass). cbn [bind].
    rewrite (ST "password") by first [nin|inc]. cbn [bind app].
    rewrite (dir_ok _ _ _ Pdata Sd). cbn [bind].
    rewrite (ST "data") by first [nin|inc]. cbn [bind app].
    rewrite (dir_ok _ _ _ Pscripts Ss). cbn [bind].
    rewrite (ST "scripts") by first [nin|inc]. cbn [bind app].
    rewrite (dir_ok _ _ _ Pxml Sx). cbn [bind].
    apply String.eqb_neq in NE. apply has_char_false in WS. rewrite NE, WS. reflexivity.
  - apply rewritten_sets; [cbn; repeat constructor; cbn; intuition discriminate|apply AF; inc].
Qed.
Lemma prepare_inv P w path j xml plots data scripts :
  Maps P "output_xml_dir" xml -> Maps P "output_plots_dir" plots -> Maps P "output_data_dir" data -> Maps P "output_scripts_dir" scripts ->
  Slash xml -> Slash plots -> Slash data -> Slash scripts ->
  prepare P path w = Ok j ->
  (exists doc day, Maps w path (File (Doc doc) day) /\ Maps doc "plot_file" (Some (plot j))) /\
  plot j <> "" /\ Without "/" (plot j) /\ new_xml j = xml ++ basename (replace_name path "py") /\ new_image j = plots ++ replace_name (plot j) "py" /\
  plots_dir j = plots /\ data_dir j = data /\ scripts_dir j = scripts.
Proof.
  intros Pxml Pplots Pdata Pscripts Sx Sp Sd Ss. unfold prepare.
  rewrite (dir_ok _ _ _ Pplots Sp), (dir_ok _ _ _ Pdata Sd), (dir_ok _ _ _ Pscripts Ss), (dir_ok _ _ _ Pxml Sx).
  destruct (find_file path w) as [[[doc|a|t] day]|] eqn:FF; try discriminate. apply find_file_some in FF.
  destruct (tag_value doc "plot_file") as [pl|e] eqn:E1; cbn [bind]; [|discriminate].
  destruct (tag_value doc "plots") as [pp|e] eqn:E2; cbn [bind]; [|discriminate].
  apply tag_inv in E1.
  Ltac st := match goal with
    | |- (match set_tag ?t ?v ?d with Ok _ => _ | Err _ => _ end) = _ -> _ => destruct (set_tag t v d) as [?|?]; [|discriminate]
    | |- bind (set_tag ?t ?v ?d) _ = _ -> _ => destruct (set_tag t v d) as [?|?]; cbn [bind]; [|discriminate]
    | |- bind (tag_value ?d ?t) _ = _ -> _ => destruct (tag_value d t) as [?|?]; cbn [bind]; [|discriminate]
    | |- bind (param ?d ?t) _ = _ -> _ => destruct (param d t) as [?|?]; cbn [bind]; [|discriminate]
    | |- bind (Ok _) _ = _ -> _ => cbn [bind] end.
  repeat st.
  destruct (String.eqb_spec pl "") as [->|NE]; cbn [orb]; [discriminate|]. destruct (has_char "/" pl) eqn:W; [discriminate|]. apply has_char_false in W.
  intro H. injection H as <-. cbn. repeat (split; [eauto|]). reflexivity.
Qed.

(* ---------- the verdict ---------- *)
Lemma dir_unique d1 d2 p : Slash d1 -> Slash d2 -> InDir d1 p -> InDir d2 p -> d1 = d2.
Proof.
  intros [s1 ->] [s2 ->] (n1 & E & _ & W1) (n2 & E2 & _ & W2). rewrite E in E2. clear E p. rewrite !app_assoc_s in E2.
  change ("/" ++ n1) with (String "/" n1) in E2. change ("/" ++ n2) with (String "/" n2) in E2. f_equal.
  revert s2 E2. induction s1 as [|c s1 IH]; intros [|d s2] E2; [reflexivity| | |].
  - cbn in E2. injection E2 as _ E2. subst n1. apply without_app in W1. destruct W1 as [_ W1]. apply without_cons in W1. destruct W1 as [W1 _]. congruence.
  - cbn in E2. injection E2 as _ E2. subst n2. apply without_app in W2. destruct W2 as [_ W2]. apply without_cons in W2. destruct W2 as [W2 _]. congruence.
  - cbn in E2. injection E2 as -> E2. f_equal. exact (IH s2 E2).
Qed.
Lemma remove_removed p w : ~ Absent w p -> exists w', remove_file p w = Ok w' /\ Removed (fun q => q = p) w w'.
Proof.
  intro H. unfold remove_file. rewrite (proj2 (has_file_true w p) H). eexists. split; [reflexivity|]. intro q. split.
  - intros ->. apply drop_same.
  - intro N. apply same_find. symmetry. apply drop_other. exact N.
Qed.
Lemma eq_dec_p (p q : string) : q = p \/ ~ q = p.
Proof. destruct (string_dec q p); auto. Qed.
Lemma tidy_ok j image (w : disk) stem : StemOf (plot j) stem -> Without "/" stem -> Plain stem -> Slash (scripts_dir j) -> Plain (scripts_dir j) -> Slash (data_dir j) -> Plain (data_dir j) ->
  ~ Absent w (new_xml j) -> (image = true -> ~ Absent w (new_image j)) -> new_xml j <> new_image j ->
  exists w', tidy j image w = Ok w' /\ Tidied image (plot j) (new_xml j) (new_image j) (scripts_dir j) (data_dir j) w w'.
Proof.
  intros HS WS PS S1 P1 S2 P2 HX HI NE. unfold tidy.
  assert (exists w1, (if image then remove_file (new_image j) w else Ok w) = Ok w1 /\ Removed (fun q => image = true /\ q = new_image j) w w1) as (w1 & -> & R1).
  { destruct image.
    - destruct (remove_removed (new_image j) w (HI eq_refl)) as (w1 & E & R). exists w1. split; [exact E|]. revert R. apply removed_ext. intro p. tauto.
    - exists w. split; [reflexivity|]. intro p. split; [intros [A _]; discriminate|intros _; apply same_refl]. }
  cbn [bind].
  assert (~ Absent w1 (new_xml j)) as HX1.
  { destruct (R1 (new_xml j)) as [_ B]. intro A. apply HX. apply B; [intros [_ E]; exact (NE E)|exact A]. }
  destruct (remove_removed (new_xml j) w1 HX1) as (w2 & -> & R2). cbn [bind].
  destruct (delete_ok (scripts_dir j) (plot j) stem w2 HS WS S1 P1 PS) as (w3 & -> & R3). cbn [bind].
  destruct (delete_ok (data_dir j) (plot j) stem w3 HS WS S2 P2 PS) as (w4 & -> & R4).
  exists w4. split; [reflexivity|]. exists stem. split; [exact HS|].
  assert (forall p, (image = true /\ p = new_image j) \/ ~ (image = true /\ p = new_image j)) as D1.
  { intro p. destruct image; [|right; intros [A _]; discriminate]. destruct (eq_dec_p (new_image j) p); tauto. }
  pose proof (fun p => similar_dec (scripts_dir j) stem p S1 WS) as D3. pose proof (fun p => similar_dec (data_dir j) stem p S2 WS) as D4.
  pose proof (removed_then _ _ _ _ _ D1 (eq_dec_p (new_xml j)) R1 R2) as R12.
  assert (forall p, ((image = true /\ p = new_image j) \/ p = new_xml j) \/ ~ ((image = true /\ p = new_image j) \/ p = new_xml j)) as D12.
  { intro p. destruct (D1 p), (eq_dec_p (new_xml j) p); tauto. }
  pose proof (removed_then _ _ _ _ _ D12 D3 R12 R3) as R123.
  eapply removed_ext; [|apply (removed_then _ _ _ _ _ (fun p => match D12 p, D3 p with or_introl a, _ => or_introl (or_introl a) | _, or_introl b => or_introl (or_intror b)
     | or_intror a, or_intror b => or_intror (fun h => match h with or_introl x => a x | or_intror y => b y end) end) D4 R123 R4)].
  intro p. tauto.
Qed.
Lemma threshold_map level g : Threshold level g (map (fun x => if level <? x then 0 else 255) g).
Proof. unfold Threshold. induction g as [|x g IH]; [constructor|]. cbn [map]. constructor; [|exact IH]. destruct (Z.ltb_spec level x); split; intro; try reflexivity; lia. Qed.
Section Judging.
Variable gray : list Z -> list Z.
Variable similarity : list Z -> list Z -> res (Q * list Z).
Variable otsu : list Z -> Z.
Variable boxes : list Z -> list Z -> list Z.
Variable day : Z.
Variable decode : body -> option (list Z).
Lemma imread_some p w a : imread decode p w = Some a <-> Reads decode w p a.
Proof.
  unfold imread, Reads. split.
  - destruct (find_file p w) as [f|] eqn:E; [|discriminate]. intro H. exists f. split; [exact (find_file_some _ _ _ E)|exact H].
  - intros (f & M & H). rewrite (find_file_maps _ _ _ M). exact H.
Qed.
Lemma imread_none p w : imread decode p w = None <-> Unreadable decode w p.
Proof.
  unfold imread, Unreadable. destruct (find_file p w) as [f|] eqn:E.
  - apply find_file_some in E. split; [intro H; right; exists f; auto|]. intros [A|(g & M & H)]; [destruct (maps_absent _ _ _ E A)|]. rewrite (maps_uniq _ _ _ _ E M). exact H.
  - apply find_file_none in E. split; [intros _; left; exact E|reflexivity].
Qed.
Lemma judged j w stem : (forall x y, similarity x y <> Err KeyError) ->
  StemOf (plot j) stem -> Without "/" stem -> Plain stem -> Slash (scripts_dir j) -> Plain (scripts_dir j) -> Slash (data_dir j) -> Plain (data_dir j) ->
  ~ Absent w (new_xml j) -> new_xml j <> new_image j ->
  Judged gray similarity otsu decode day (plot j) (original j) (new_xml j) (new_image j) (plots_dir j ++ replace_name (plot j) "thresh") (scripts_dir j) (data_dir j) w
    (fst (judge gray similarity otsu boxes day decode j w)) (v <- snd (judge gray similarity otsu boxes day decode j w) ;; Ok (plot j, v)).
Proof.
  intros HK HS WS PS S1 P1 S2 P2 HX NE. unfold judge.
  destruct (negb (has_file (original j) w) && negb (has_file (new_image j) w)) eqn:E.
  - apply andb_true_iff in E. destruct E as [E1 E2]. apply negb_true_iff, has_file_false in E1, E2.
    destruct (tidy_ok j false w stem HS WS PS S1 P1 S2 P2 HX ltac:(discriminate) NE) as (w' & -> & T). cbn [after fst snd bind]. apply JudgedAbsent; assumption.
  - assert (~ (Absent w (original j) /\ Absent w (new_image j))) as NA.
    { intros [A B]. apply has_file_false in A, B. rewrite A, B in E. discriminate. }
    unfold compare_images.
    destruct (imread decode (original j) w) as [a|] eqn:RA; [|apply imread_none in RA; cbn; apply JudgedProblem; auto].
    destruct (imread decode (new_image j) w) as [b|] eqn:RB; [|apply imread_none in RB; cbn; apply JudgedProblem; auto].
    assert (~ Absent w (new_image j)) as HI.
    { intro A. unfold imread in RB. rewrite (find_file_absent _ _ A) in RB. discriminate. }
    apply imread_some in RA, RB. destruct (similarity (gray a) (gray b)) as [[q g]|e] eqn:ES; cbn [bind].
    + cbn [mssim fst snd]. destruct (Qeq_bool q 1) eqn:Q1.
      * apply Qeq_bool_iff in Q1. destruct (tidy_ok j true w stem HS WS PS S1 P1 S2 P2 HX (fun _ => HI) NE) as (w' & -> & T). cbn [after fst snd bind].
        eapply JudgedSame; eassumption.
      * apply Qeq_bool_neq in Q1. cbn. eapply JudgedDifferent; [exact RA|exact RB|exact ES|exact Q1|apply threshold_map|apply write_put].
    + assert (e <> KeyError) as NK by (intros ->; exact (HK _ _ ES)).
      destruct e; try congruence; cbn [fst snd bind]; eapply JudgedFailed; eassumption.
Qed.

(* ---------- files that are not touched ---------- *)
Lemma remove_other p w w' q : remove_file p w = Ok w' -> q <> p -> SameAt w w' q.
Proof. unfold remove_file. destruct (has_file p w); [|discriminate]. intros H N. injection H as <-. apply same_find. symmetry. apply drop_other. exact N. Qed.
Lemma tidy_other j image (w w' : disk) q : tidy j image w = Ok w' -> Without "/" (plot j) -> Slash (scripts_dir j) -> Slash (data_dir j) ->
  q <> new_xml j -> q <> new_image j -> ~ InDir (scripts_dir j) q -> ~ InDir (data_dir j) q -> SameAt w w' q.
Proof.
  unfold tidy. intros H W S1 S2 N1 N2 D1 D2.
  destruct (if image then remove_file (new_image j) w else Ok w) as [w1|] eqn:E1; cbn [bind] in H; [|discriminate].
  destruct (remove_file (new_xml j) w1) as [w2|] eqn:E2; cbn [bind] in H; [|discriminate].
  destruct (delete_similar_files (scripts_dir j) (plot j) w2) as [w3|] eqn:E3; cbn [bind] in H; [|discriminate].
  assert (SameAt w w1 q) as A1 by (destruct image; [exact (remove_other _ _ _ _ E1 N2)|injection E1 as <-; apply same_refl]).
  apply (same_trans _ _ _ _ A1). apply (same_trans _ w2); [exact (remove_other _ _ _ _ E2 N1)|].
  apply (same_trans _ w3); [exact (delete_outside _ _ _ _ _ E3 S1 W D1)|exact (delete_outside _ _ _ _ _ H S2 W D2)].
Qed.
Lemma judge_other j w w' r q : judge gray similarity otsu boxes day decode j w = (w', r) -> Without "/" (plot j) -> Slash (scripts_dir j) -> Slash (data_dir j) ->
  q <> new_xml j -> q <> new_image j -> q <> plots_dir j ++ replace_name (plot j) "thresh" -> ~ InDir (scripts_dir j) q -> ~ InDir (data_dir j) q -> SameAt w w' q.
Proof.
  intros H W S1 S2 N1 N2 N3 D1 D2. unfold judge in H.
  destruct (_ && _).
  - destruct (tidy j false w) as [w1|e] eqn:T; cbn [after] in H; injection H as <- _; [exact (tidy_other _ _ _ _ _ T W S1 S2 N1 N2 D1 D2)|apply same_refl].
  - destruct (compare_images _ _ _ _) as [c|e].
    + destruct (Qeq_bool _ _).
      * destruct (tidy j true w) as [w1|e] eqn:T; cbn [after] in H; injection H as <- _; [exact (tidy_other _ _ _ _ _ T W S1 S2 N1 N2 D1 D2)|apply same_refl].
      * destruct (do_call _ _ _ _) as [[c' [n|a]]|e]; [injection H as <- _; apply same_refl|injection H as <- _; apply write_put; exact N3|].
        destruct e; injection H as <- _; apply same_refl.
    + destruct e; injection H as <- _; apply same_refl.
Qed.
Variable batch : string -> string -> disk -> disk.
Variables (P : params) (xml plots data scripts : string).
Hypothesis Pxml : Maps P "output_xml_dir" xml.
Hypothesis Pplots : Maps P "output_plots_dir" plots.
Hypothesis Pdata : Maps P "output_data_dir" data.
Hypothesis Pscripts : Maps P "output_scripts_dir" scripts.
Hypotheses (Sx : Slash xml) (Sp : Slash plots) (Sd : Slash data) (Ss : Slash scripts).
Definition out_of (p : string) : Prop := ~ InDir xml p /\ ~ InDir plots p /\ ~ InDir data p /\ ~ InDir scripts p.
Hypothesis keeps : forall c x w p, out_of p -> SameAt w (batch c x w) p.
Lemma out_neq d n q : In d [xml; plots; data; scripts] -> out_of q -> n <> "" -> Without "/" n -> q <> d ++ n.
Proof.
  intros I (O1 & O2 & O3 & O4) NE W ->. assert (InDir d (d ++ n)) as K by (exists n; auto).
  destruct I as [<-|[<-|[<-|[<-|[]]]]]; contradiction.
Qed.
Lemma check_other d name w w' r q : Slash d -> name <> "" -> Without "/" name ->
  check gray similarity otsu boxes day batch decode P (d ++ name) w = (w', r) -> out_of q -> SameAt w w' q.
Proof.
  intros SL NE W H O. unfold check in H. destruct (prepare P (d ++ name) w) as [j|e] eqn:E; [|injection H as <- _; apply same_refl].
  destruct (prepare_inv P w (d ++ name) j xml plots data scripts Pxml Pplots Pdata Pscripts Sx Sp Sd Ss E) as (_ & NP & WP & EX & EI & EP & ED & ES).
  rewrite (basename_replaced d name SL W) in EX.
  destruct (judge _ _ _ _ _ _ j _) as [w1 r1] eqn:J. injection H as <- _.
  assert (q <> new_xml j) as N1.
  { rewrite EX. apply out_neq; [cbn; auto|exact O|apply replace_nonempty; exact NE|apply replace_slash; [exact py_slash|exact W]]. }
  eapply same_trans; [|eapply judge_other; [exact J|exact WP|rewrite ES; exact Ss|rewrite ED; exact Sd|exact N1| | | |]].
  - eapply same_trans; [|apply keeps; exact O]. apply write_put. exact N1.
  - rewrite EI. apply out_neq; [cbn; auto|exact O|apply replace_nonempty; exact NP|apply replace_slash; [exact py_slash|exact WP]].
  - rewrite EP. apply out_neq; [cbn; auto|exact O|apply replace_nonempty; exact NP|apply replace_slash; [exact thresh_slash|exact WP]].
  - rewrite ES. apply O.
  - rewrite ED. apply O.
Qed.
Lemma checks_other d : Slash d -> forall files, Forall (InDir d) files -> forall w w' rep r q,
  checks gray similarity otsu boxes day batch decode P files w = (w', rep, r) -> out_of q -> SameAt w w' q.
Proof.
  intros SL files F. induction F as [|p files (name & -> & NE & W) F IH]; intros w w' rep r q H O; cbn [checks] in H.
  - injection H as <- _ _. apply same_refl.
  - destruct (check _ _ _ _ _ _ _ P (d ++ name) w) as [w1 r1] eqn:E. pose proof (check_other d name w w1 r1 q SL NE W E O) as A.
    destruct r1 as [v|e]; [|injection H as <- _ _; exact A].
    destruct (checks _ _ _ _ _ _ _ P files w1) as [[w2 vs] e] eqn:K. injection H as <- _ _. exact (same_trans _ _ _ _ A (IH _ _ _ _ _ K O)).
Qed.
Lemma checks_report d : Slash d -> (forall p, InDir d p -> out_of p) -> forall files, Forall (InDir d) files -> forall w w' rep,
  checks gray similarity otsu boxes day batch decode P files w = (w', rep, Ok tt) ->
  Forall2 (fun p x => exists doc day, Maps w p (File (Doc doc) day) /\ Maps doc "plot_file" (Some (fst x))) files rep.
Proof.
  intros SL OUT files F. induction F as [|p files H0 F IH]; intros w w' rep H; cbn [checks] in H.
  - injection H as _ <-. constructor.
  - destruct H0 as (name & -> & NE & W).
    destruct (check _ _ _ _ _ _ _ P (d ++ name) w) as [w1 r1] eqn:E.
    pose proof (fun q O => check_other d name w w1 r1 q SL NE W E O) as A.
    destruct r1 as [v|e]; [|discriminate].
    destruct (checks _ _ _ _ _ _ _ P files w1) as [[w2 vs] e] eqn:K. injection H as -> <- ->. constructor.
    + unfold check in E. destruct (prepare P (d ++ name) w) as [j|e] eqn:E1; [|discriminate].
      destruct (prepare_inv P w (d ++ name) j xml plots data scripts Pxml Pplots Pdata Pscripts Sx Sp Sd Ss E1) as (M & _).
      destruct (judge _ _ _ _ _ _ j _) as [w3 r3]. destruct r3 as [x|]; cbn [bind] in E; [|discriminate]. injection E as _ <-. exact M.
    + specialize (IH _ _ _ K). rewrite Forall_forall in F. clear - IH A OUT F.
      induction IH as [|p x files vs (doc & dy & M & T) IH1 IH2]; constructor.
      * exists doc, dy. split; [|exact T]. apply (A p (OUT p (F p (or_introl eq_refl)))). exact M.
      * apply IH2. intros q Hq. apply F. right. exact Hq.
Qed.
Lemma clean_ok w : exists w', clean P w = (w', Ok tt) /\ Removed (fun p => InDir xml p \/ InDir plots p \/ InDir data p \/ InDir scripts p) w w' /\
  (NoDup (map fst w) -> NoDup (map fst w')).
Proof.
  unfold clean. cbn [clean_dirs]. rewrite (dir_ok _ _ _ Pxml Sx), (dir_ok _ _ _ Pplots Sp), (dir_ok _ _ _ Pdata Sd), (dir_ok _ _ _ Pscripts Ss).
  eexists. split; [reflexivity|]. split.
  - pose proof (removed_then _ _ _ _ _ (in_dir_dec data) (in_dir_dec scripts) (empty_removed data (empty_dir plots (empty_dir xml w))) (empty_removed scripts _)) as R1.
    assert (forall p, (InDir data p \/ InDir scripts p) \/ ~ (InDir data p \/ InDir scripts p)) as D1 by (intro p; destruct (in_dir_dec data p), (in_dir_dec scripts p); tauto).
    pose proof (removed_then _ _ _ _ _ (in_dir_dec plots) D1 (empty_removed plots (empty_dir xml w)) R1) as R2.
    assert (forall p, (InDir plots p \/ InDir data p \/ InDir scripts p) \/ ~ (InDir plots p \/ InDir data p \/ InDir scripts p)) as D2 by (intro p; destruct (in_dir_dec plots p), (D1 p); tauto).
    exact (removed_then _ _ _ _ _ (in_dir_dec xml) D2 (empty_removed xml w) R2).
  - assert (forall l w, NoDup (map fst w) -> NoDup (map fst (fold_left (fun w p => drop p w) l w))) as K.
    { induction l as [|p l IH]; intros u N; [exact N|]. cbn [fold_left]. apply IH. clear IH. unfold drop. induction u as [|x u IHu]; [constructor|].
      inversion N as [|? ? Nx Nu]; subst. cbn [filter]. destruct (negb _); [|exact (IHu Nu)]. cbn [map]. constructor; [|exact (IHu Nu)].
      intro I. apply Nx. apply in_map_iff in I. destruct I as (y & Ey & Iy). apply filter_In in Iy. rewrite <- Ey. apply in_map. tauto. }
    intro N. unfold empty_dir. apply K, K, K, K. exact N.
Qed.
Variable day_of : string -> res Z.
Variables now now' : Z.
Lemma test_xml_dirs w files : get_test_xml day_of now now' P w = Ok files -> exists d, Maps P "input_xml_dir" d /\ Slash d /\ Forall (InDir d) files /\
  exists first last, FirstDay day_of now P first /\ LastDay day_of now' P last /\ first <= last.
Proof.
  unfold get_test_xml. destruct (get_testing_period day_of now now' P) as [[first last]|e] eqn:E; cbn [bind]; [|discriminate].
  destruct (dir_param P "input_xml_dir") as [d|e] eqn:D; cbn [bind]; [|discriminate]. intro H. injection H as <-. exists d.
  assert (Maps P "input_xml_dir" d /\ Slash d) as [A B].
  { unfold dir_param in D. destruct (maps_or P "input_xml_dir") as [N|[v V]]; [rewrite (param_no _ _ N) in D; discriminate|].
    rewrite (param_ok _ _ _ V) in D. cbn [bind] in D. destruct (ends_slash v) eqn:S; [|discriminate]. injection D as <-. split; [exact V|apply ends_slash_iff; exact S]. }
  split; [exact A|]. split; [exact B|]. split.
  - apply Forall_forall. intros p I. apply in_selected in I. destruct I as [I _]. unfold scandir in I. apply filter_In in I. apply in_dir_iff. tauto.
  - exists first, last. apply period_iff. exact E.
Qed.
Lemma main_other w w' rep r q : main gray similarity otsu boxes day_of now now' day batch decode P w = (w', rep, r) -> out_of q -> SameAt w w' q.
Proof.
  intros H O. unfold main in H. destruct (clean_ok w) as (w1 & E & R & _). rewrite E in H.
  assert (SameAt w w1 q) as A by (apply R; unfold out_of in O; tauto).
  destruct (get_test_xml day_of now now' P w1) as [files|e] eqn:G; [|injection H as <- _ _; exact A].
  destruct (test_xml_dirs _ _ G) as (d & _ & SL & F & _). exact (same_trans _ _ _ _ A (checks_other d SL files F _ _ _ _ _ H O)).
Qed.
Lemma main_report d w w' rep : Maps P "input_xml_dir" d -> (forall p, InDir d p -> out_of p) -> NoDup (map fst w) ->
  main gray similarity otsu boxes day_of now now' day batch decode P w = (w', rep, Ok tt) ->
  exists files, get_test_xml day_of now now' P w = Ok files /\
    Forall2 (fun p x => exists doc day, Maps w p (File (Doc doc) day) /\ Maps doc "plot_file" (Some (fst x))) files rep.
Proof.
  intros MD OUT ND H. unfold main in H. destruct (clean_ok w) as (w1 & E & R & K). rewrite E in H.
  destruct (get_test_xml day_of now now' P w1) as [files|e] eqn:G; [|discriminate].
  destruct (test_xml_dirs _ _ G) as (d' & MD' & SL & F & first & last & FD & LD & O). rewrite <- (maps_uniq _ _ _ _ MD MD') in *. clear d' MD'.
  assert (forall p, InDir d p -> SameAt w w1 p) as SA.
  { intros p I. apply R. pose proof (OUT p I) as O'. unfold out_of in O'. tauto. }
  destruct (selected_files day_of now now' P w1 d first last MD SL FD LD O (K ND)) as (f1 & G1 & I1 & S1). rewrite G in G1. injection G1 as <-.
  destruct (selected_files day_of now now' P w d first last MD SL FD LD O ND) as (f2 & G2 & I2 & S2).
  assert (f2 = files) as ->.
  { apply sorted_unique; [exact S2|exact S1|]. intro p. rewrite I1, I2. split; intros (name & f & Ep & NE & W & X & M & B); exists name, f;
      (repeat (split; [assumption|])); (split; [|exact B]); apply (SA p); try (exists name; auto); exact M. }
  exists files. split; [exact G2|]. pose proof (checks_report d SL OUT files F _ _ _ H) as Q. rewrite Forall_forall in F.
  clear - Q SA F. induction Q as [|p x files rep (doc & dy & M & T) Q IH]; constructor.
  - exists doc, dy. split; [|exact T]. apply (SA p (F p (or_introl eq_refl))). exact M.
  - apply IH. intros q Hq. apply F. right. exact Hq.
Qed.
End Judging.

(* ---------- histories of calls ---------- *)
Definition is_thresh (m : call) : bool := match m with SaveThresh | ShowThresh => true | _ => false end.
Definition is_first (m : call) : bool := match m with SaveIn1 | ShowIn1 => true | _ => false end.
Definition is_second (m : call) : bool := match m with SaveIn2 | ShowIn2 => true | _ => false end.
Fixpoint allowed (made second : bool) (l : list call) : bool :=
  match l with
  | [] => true
  | m :: rest => negb (is_thresh m && made) && negb (is_second m && second) &&
                 allowed (made || is_thresh m || is_first m || is_second m) (second || is_second m) rest
  end.
Lemma is_thresh_iff m : is_thresh m = true <-> ForThresh m.
Proof. unfold ForThresh. destruct m; cbn; intuition congruence. Qed.
Lemma is_first_iff m : is_first m = true <-> ForFirst m.
Proof. unfold ForFirst. destruct m; cbn; intuition congruence. Qed.
Lemma is_second_iff m : is_second m = true <-> ForSecond m.
Proof. unfold ForSecond. destruct m; cbn; intuition congruence. Qed.
Lemma allowed_iff l : forall made second, allowed made second l = true <->
  forall before m after, l = (before ++ m :: after)%list ->
  (ForThresh m -> made = false /\ forall x, In x before -> ~ ForThresh x /\ ~ ForFirst x /\ ~ ForSecond x) /\
  (ForSecond m -> second = false /\ forall x, In x before -> ~ ForSecond x).
Proof.
  induction l as [|m0 l IH]; intros made second; cbn [allowed].
  - split; [|reflexivity]. intros _ before m after E. destruct before; discriminate.
  - rewrite !andb_true_iff, IH, !negb_true_iff. split.
    + intros [[A B] H] before m after E. destruct before as [|y before].
      * injection E as -> ->. rewrite <- is_thresh_iff, <- is_second_iff. split; intro T; rewrite T in *; cbn in *; (split; [assumption|intros x []]).
      * injection E as -> E. destruct (H before m after E) as [H1 H2]. split; intro T.
        -- destruct (H1 T) as [O N]. rewrite !orb_false_iff in O. destruct O as [[[O1 O2] O3] O4]. split; [exact O1|]. intros x [<-|I]; [|exact (N x I)].
           rewrite <- is_thresh_iff, <- is_first_iff, <- is_second_iff, O2, O3, O4. repeat split; discriminate.
        -- destruct (H2 T) as [O N]. rewrite orb_false_iff in O. destruct O as [O1 O2]. split; [exact O1|]. intros x [<-|I]; [|exact (N x I)].
           rewrite <- is_second_iff, O2. discriminate.
    + intro H. split; [split|].
      * destruct (H [] m0 l eq_refl) as [H1 _]. destruct (is_thresh m0) eqn:T; [|reflexivity]. apply is_thresh_iff in T. destruct (H1 T) as [-> _]. reflexivity.
      * destruct (H [] m0 l eq_refl) as [_ H2]. destruct (is_second m0) eqn:T; [|reflexivity]. apply is_second_iff in T. destruct (H2 T) as [-> _]. reflexivity.
      * intros before m after ->. destruct (H (m0 :: before) m after eq_refl) as [H1 H2]. split; intro T.
        -- destruct (H1 T) as [-> N]. destruct (N m0 (or_introl eq_refl)) as (N1 & N2 & N3). rewrite <- is_thresh_iff, <- is_first_iff, <- is_second_iff in *.
           apply not_true_is_false in N1, N2, N3. rewrite N1, N2, N3. split; [reflexivity|]. intros x I. destruct (N x (or_intror I)) as (A & B & D).
           rewrite <- is_thresh_iff, <- is_first_iff, <- is_second_iff in *. auto.
        -- destruct (H2 T) as [-> N]. pose proof (N m0 (or_introl eq_refl)) as N1. rewrite <- is_second_iff in *. apply not_true_is_false in N1. rewrite N1.
           split; [reflexivity|]. intros x I. apply N. right. exact I.
Qed.
Lemma allowed_spec l : allowed false false l = true <-> Allowed l.
Proof.
  rewrite allowed_iff. unfold Allowed. split; intros H before m after E; destruct (H before m after E) as [H1 H2]; split; intro T.
  - apply H1. exact T.
  - apply H2. exact T.
  - split; [reflexivity|exact (H1 T)].
  - split; [reflexivity|exact (H2 T)].
Qed.
Section History.
Variable otsu : list Z -> Z.
Variable boxes : list Z -> list Z -> list Z.
Variables (a b : list Z) (q : Q) (g : list Z).
Hypothesis big_g : (2 <= List.length g)%nat.
Hypothesis big_b : (2 <= List.length b)%nat.
Hypothesis boxes_length : forall t x, List.length (boxes t x) = List.length x.
Let t := map (fun x => if otsu g <? x then 0 else 255) g.
Definition state (made first second : bool) : compared :=
  Compared a b q g (if made then Some t else None) (if first then Some (boxes t a) else None) (if second then Some (boxes t b) else None).
Lemma big_truth x : (2 <= List.length x)%nat -> truth x = Err ValueError.
Proof. destruct x as [|u [|v x]]; cbn; intro H; [lia|lia|reflexivity]. Qed.
Lemma big_t : truth t = Err ValueError.
Proof. apply big_truth. unfold t. rewrite map_length. exact big_g. Qed.
Lemma big_2 : truth (boxes t b) = Err ValueError.
Proof. apply big_truth. rewrite boxes_length. exact big_b. Qed.
Lemma step_thresh m made first second : is_thresh m = true ->
  do_call otsu boxes m (state made first second) = if made then Err ValueError else Ok (state true first second, Image t).
Proof.
  intro H. assert (do_call otsu boxes m = thresh_call otsu) as -> by (destruct m; try discriminate; reflexivity).
  unfold thresh_call. destruct made; cbn [state thresh falsy]; [rewrite big_t; reflexivity|reflexivity].
Qed.
Lemma step_first m made first second : is_first m = true -> (first = true -> made = true) ->
  do_call otsu boxes m (state made first second) = Ok (state true true second, Image (boxes t a)).
Proof.
  intros H I. assert (do_call otsu boxes m = in_1_call otsu boxes) as -> by (destruct m; try discriminate; reflexivity).
  unfold in_1_call. destruct first; cbn [state diff_1]; [rewrite (I eq_refl); reflexivity|]. destruct made; reflexivity.
Qed.
Lemma step_second m made first second : is_second m = true -> (second = true -> made = true) ->
  do_call otsu boxes m (state made first second) = if second then Err ValueError else Ok (state true first true, Image (boxes t b)).
Proof.
  intros H I. assert (do_call otsu boxes m = in_2_call otsu boxes) as -> by (destruct m; try discriminate; reflexivity).
  unfold in_2_call. destruct second; cbn [state diff_2 falsy]; [rewrite big_2; reflexivity|]. destruct made; reflexivity.
Qed.
Lemma history l : forall made first second, (first = true -> made = true) -> (second = true -> made = true) ->
  if allowed made second l then exists out, do_calls otsu boxes l (state made first second) = Ok out /\ Forall2 (Gives a b boxes (otsu g) q g) l out
  else do_calls otsu boxes l (state made first second) = Err ValueError.
Proof.
  induction l as [|m l IH]; intros made first second H1 H2; [exists []; split; [reflexivity|constructor]|].
  cbn [allowed do_calls]. destruct (is_thresh m) eqn:T; [|destruct (is_first m) eqn:F; [|destruct (is_second m) eqn:S2]].
  - rewrite (step_thresh m made first second T). assert (is_first m = false /\ is_second m = false) as [-> ->] by (destruct m; try discriminate; auto).
    destruct made; cbn [andb negb orb bind fst snd]; [reflexivity|]. rewrite orb_false_r.
    specialize (IH true first second (fun _ => eq_refl) (fun _ => eq_refl)). destruct (allowed true second l).
    + destruct IH as (out & -> & G). exists (Image t :: out). split; [reflexivity|]. constructor; [|exact G]. apply GivesThresh; [apply is_thresh_iff; exact T|apply threshold_map].
    + rewrite IH. reflexivity.
  - rewrite (step_first m made first second F H1). assert (is_second m = false) as -> by (destruct m; try discriminate; auto).
    cbn [andb negb bind fst snd]. rewrite !orb_false_r, orb_true_r.
    specialize (IH true true second (fun _ => eq_refl) (fun _ => eq_refl)). destruct (allowed true second l).
    + destruct IH as (out & -> & G). exists (Image (boxes t a) :: out). split; [reflexivity|]. constructor; [|exact G]. apply GivesFirst; [apply is_first_iff; exact F|apply threshold_map].
    + rewrite IH. reflexivity.
  - rewrite (step_second m made first second S2 H2). destruct second; cbn [andb negb bind fst snd]; [reflexivity|]. rewrite !orb_true_r. cbn [orb].
    specialize (IH true first true (fun _ => eq_refl) (fun _ => eq_refl)). destruct (allowed true true l).
    + destruct IH as (out & -> & G). exists (Image (boxes t b) :: out). split; [reflexivity|]. constructor; [|exact G]. apply GivesSecond; [apply is_second_iff; exact S2|apply threshold_map].
    + rewrite IH. reflexivity.
  - cbn [andb negb]. rewrite !orb_false_r.
    assert (exists o, do_call otsu boxes m (state made first second) = Ok (state made first second, o) /\ Gives a b boxes (otsu g) q g m o) as (o & -> & G0).
    { destruct m; try discriminate; eexists; (split; [reflexivity|]); [apply GivesIndex|apply GivesDifference; auto|apply GivesDifference; auto]. }
    cbn [bind fst snd]. specialize (IH made first second H1 H2). destruct (allowed made second l).
    + destruct IH as (out & -> & G). exists (o :: out). split; [reflexivity|]. constructor; assumption.
    + rewrite IH. reflexivity.
Qed.
End History.

(** The statements of PropertiesVal.v. *)
Lemma C135_name_proof : forall parts postfix, Forall (Without ".") parts ->
  replace_name (String.concat "." parts) postfix = String.concat ("_" ++ postfix ++ ".") parts.
Proof.
  exact replace_concat.
Qed.

Lemma C135_name_case_proof : Forall (Without ".") ["plot"; "png"] /\ replace_name "plot.png" "py" = "plot_py.png".
Proof.
  split; [|reflexivity]. repeat constructor; apply has_char_false; reflexivity.
Qed.

Lemma C135_extension_refuted_proof : ~ (forall stem ext postfix, Without "." ext ->
  replace_name (stem ++ "." ++ ext) postfix = stem ++ "_" ++ postfix ++ "." ++ ext).
Proof.
  intro H. assert (Without "." "png") as W by (apply has_char_false; reflexivity). specialize (H "plot.v1" "png" "py" W). discriminate H.
Qed.

Lemma C135_extension_refuted_case_proof : replace_name "plot.v1.png" "py" = "plot_py.v1_py.png".
Proof.
  reflexivity.
Qed.

Lemma C136_clean_proof : forall P w xml plots data scripts,
  Maps P "output_xml_dir" xml -> Maps P "output_plots_dir" plots -> Maps P "output_data_dir" data -> Maps P "output_scripts_dir" scripts ->
  Slash xml -> Slash plots -> Slash data -> Slash scripts ->
  exists w', clean P w = (w', Ok tt) /\ Removed (fun p => InDir xml p \/ InDir plots p \/ InDir data p \/ InDir scripts p) w w'.
Proof.
  intros P w xml plots data scripts A B K D S1 S2 S3 S4. destruct (clean_ok P xml plots data scripts A B K D S1 S2 S3 S4 w) as (w' & E & R & _). exists w'. auto.
Qed.

Lemma C136_clean_case_proof : Maps val_params "output_xml_dir" "/x/" /\ Slash "/x/" /\ InDir "/x/" "/x/a.xml" /\ ~ InDir "/x/" "/x/y/a.xml".
Proof.
  split; [apply maps_cons; right; split; [discriminate|]; apply maps_cons; left; split; reflexivity|]. split; [exists "/x"; reflexivity|].
  split; [apply in_dir_iff; reflexivity|]. rewrite <- in_dir_iff. discriminate.
Qed.

Lemma C136_documented_proof : forall P w xml plots, Maps P "output_xml_dir" xml -> Maps P "output_plots_dir" plots -> Absent P "output_data_dir" ->
  Slash xml -> Slash plots -> exists w', clean P w = (w', Err KeyError) /\ Removed (fun p => InDir xml p \/ InDir plots p) w w'.
Proof.
  intros P w xml plots A B K S1 S2. unfold clean. cbn [clean_dirs]. rewrite (dir_ok _ _ _ A S1), (dir_ok _ _ _ B S2), (dir_no _ _ K).
  eexists. split; [reflexivity|]. exact (removed_then _ _ _ _ _ (in_dir_dec xml) (in_dir_dec plots) (empty_removed xml w) (empty_removed plots _)).
Qed.

Lemma C136_documented_case_proof : Absent documented_params "output_data_dir" /\ Maps documented_params "output_plots_dir" "/p/".
Proof.
  split; [intro H; cbn in H; intuition discriminate|]. unfold documented_params. repeat first [apply maps_cons; left; split; reflexivity | apply maps_cons; right; split; [discriminate|]].
Qed.

Lemma C136_similar_proof : forall d name stem w, StemOf name stem -> Without "/" stem -> Slash d -> Plain d -> Plain stem ->
  exists w', delete_similar_files d name w = Ok w' /\ Removed (Similar d stem) w w'.
Proof.
  intros d name stem w HS W S P1 P2. exact (delete_ok d name stem w HS W S P1 P2).
Qed.

Lemma C136_similar_case_proof : StemOf "plot_1.png" "plot_1" /\ Similar "/d/" "plot_1" "/d/plot_1.data" /\ Similar "/d/" "plot_1" "/d/plot_10.data" /\
  ~ Similar "/d/" "plot_1" "/d/plot_2.data".
Proof.
  assert (Slash "/d/") as S by (exists "/d"; reflexivity). assert (Without "/" "plot_1") as W by (apply has_char_false; reflexivity).
  split; [split; [apply has_char_false; reflexivity|right; exists "png"; reflexivity]|]. rewrite <- !(matches_iff "/d/" "plot_1" _ S W).
  repeat split; try reflexivity. discriminate.
Qed.

Lemma C136_similar_refuted_proof : ~ (forall d plot other w w' f, plot <> other -> delete_similar_files d (plot ++ ".png") w = Ok w' ->
  Maps w (d ++ other ++ ".data") f -> Maps w' (d ++ other ++ ".data") f).
Proof.
  intro H. specialize (H "/d/" "plot_1" "plot_10" [("/d/plot_10.data", File (Other "x") 0)] [] (File (Other "x") 0) ltac:(discriminate) eq_refl).
  apply (maps_nil "/d/plot_10.data" (File (Other "x") 0)). apply H. apply maps_cons. left. split; reflexivity.
Qed.

Lemma C136_similar_refuted_case_proof : "plot_1" <> "plot_10" /\ delete_similar_files "/d/" "plot_1.png" [("/d/plot_10.data", File (Other "x") 0)] = Ok [].
Proof.
  split; [discriminate|reflexivity].
Qed.

Lemma C137_period_proof : forall day_of now now' P first last,
  get_testing_period day_of now now' P = Ok (first, last) <-> FirstDay day_of now P first /\ LastDay day_of now' P last /\ first <= last.
Proof.
  exact period_iff.
Qed.

Lemma C137_period_case_proof : FirstDay (fun _ => Ok 5) 9 [("start_date", "2020-01-06")] 5 /\ LastDay (fun _ => Ok 5) 9 [("start_date", "2020-01-06")] 9.
Proof.
  split; [left; exists "2020-01-06"; split; [apply maps_cons; left; auto|reflexivity]|]. right. split; [|reflexivity]. intro H. cbn in H. intuition discriminate.
Qed.

Lemma C137_refused_proof : forall day_of now now' P w first last, FirstDay day_of now P first -> LastDay day_of now' P last -> last < first ->
  get_test_xml day_of now now' P w = Err KeyError.
Proof.
  intros day_of now now' P w first last A B L. unfold get_test_xml. rewrite (period_refused _ _ _ _ _ _ A B L). reflexivity.
Qed.

Lemma C137_refused_case_proof : FirstDay (fun _ => Ok 10) 9 [("start_date", "2020-01-11")] 10 /\ LastDay (fun _ => Ok 10) 9 [("start_date", "2020-01-11")] 9.
Proof.
  split; [left; exists "2020-01-11"; split; [apply maps_cons; left; auto|reflexivity]|]. right. split; [|reflexivity]. intro H. cbn in H. intuition discriminate.
Qed.

Lemma C137_selected_proof : forall day_of now now' P w d first last, Maps P "input_xml_dir" d -> Slash d ->
  FirstDay day_of now P first -> LastDay day_of now' P last -> first <= last -> NoDup (map fst w) ->
  exists files, get_test_xml day_of now now' P w = Ok files /\
    (forall p, In p files <-> exists name f, p = d ++ name /\ name <> "" /\ Without "/" name /\ XmlName name /\ Maps w p f /\ first <= changed f <= last) /\
    StronglySorted (fun p q => String.compare p q = Lt) files.
Proof.
  exact selected_files.
Qed.

Lemma C137_selected_case_proof : XmlName "a.xml" /\ XmlName ".a.xml" /\ ~ XmlName ".xml" /\ ~ XmlName "a.xml.bak" /\
  get_test_xml (fun _ => Ok 0) 9 9 val_params val_disk = Ok ["/in/a.xml"; "/in/b.xml"].
Proof.
  rewrite <- !extension_iff. repeat split; try reflexivity; discriminate.
Qed.

Lemma C138_check_proof : forall gray similarity otsu boxes day_new batch decode P w d name day doc plot where_ data_file r_file
    home xml plots data scripts user pass,
  (forall x y, similarity x y <> Err KeyError) -> (forall c x w, ~ Absent w x -> ~ Absent (batch c x w) x) ->
  Slash d -> name <> "" -> Without "/" name -> Maps w (d ++ name) (File (Doc doc) day) ->
  Maps doc "plot_file" (Some plot) -> plot <> "" -> Without "/" plot -> Plain plot -> Maps doc "plots" (Some where_) ->
  Maps doc "data_file" (Some data_file) -> Maps doc "r_file" (Some r_file) ->
  (forall t, In t ["r_tmpl"; "r_work"; "user"; "password"; "data"; "scripts"] -> exists v, Maps doc t (Some v)) ->
  Maps P "mv_home" home -> Maps P "db_user" user -> Maps P "db_pass" pass ->
  Maps P "output_xml_dir" xml -> Maps P "output_plots_dir" plots -> Maps P "output_data_dir" data -> Maps P "output_scripts_dir" scripts ->
  Slash xml -> Slash plots -> Slash data -> Slash scripts -> Plain data -> Plain scripts -> xml <> plots ->
  let new_xml := xml ++ replace_name name "py" in
  exists doc' w0 w' r,
    Rewritten [("plot_file", replace_name plot "py"); ("data_file", replace_name data_file "py"); ("r_file", replace_name r_file "py");
               ("r_tmpl", home ++ "R_tmpl"); ("r_work", home ++ "R_work"); ("plots", plots); ("user", user); ("password", pass);
               ("data", data); ("scripts", scripts)] doc doc' /\
    Put new_xml (File (Doc doc') day_new) w w0 /\
    check gray similarity otsu boxes day_new batch decode P (d ++ name) w = (w', r) /\
    Judged gray similarity otsu decode day_new plot (where_ ++ "/" ++ plot) new_xml (plots ++ replace_name plot "py")
      (plots ++ replace_name plot "thresh") scripts data (batch (home ++ "/bin/mv_batch.sh") new_xml w0) w' r.
Proof.
  intros gray similarity otsu boxes day_new batch decode P w d name day doc plot where_ data_file r_file home xml plots data scripts user pass
    HK HB SL NE W MW Mplot NP WP PP Mplots Mdata Mr Mt Phome Puser Ppass Pxml Pplots Pdata Pscripts Sx Sp Sd Ss Pld Pls NX new_xml.
  destruct (prepare_ok P w (d ++ name) day doc plot where_ data_file r_file home xml plots data scripts user pass MW Mplot NP WP Mplots Mdata Mr Mt Phome Puser Ppass
    Pxml Pplots Pdata Pscripts Sx Sp Sd Ss) as [E RW]. rewrite (basename_replaced d name SL W) in E. fold new_xml in E.
  set (doc' := sets (wanted plot data_file r_file home plots user pass data scripts) doc) in *.
  set (w0 := write_file day_new new_xml (Doc doc') w). set (w1 := batch (home ++ "/bin/mv_batch.sh") new_xml w0).
  pose proof (write_put day_new new_xml (Doc doc') w) as PUT.
  set (j := Job plot (where_ ++ "/" ++ plot) new_xml (plots ++ replace_name plot "py") doc' plots data scripts (home ++ "/bin/mv_batch.sh")) in E.
  destruct (split_stem plot) as (stem & rest & _ & HS).
  assert (~ Absent w1 new_xml) as HX.
  { apply HB. intro A. destruct PUT as [M _]. exact (maps_absent _ _ _ M A). }
  assert (new_xml <> plots ++ replace_name plot "py") as ND.
  { intro Q. apply NX. apply (dir_unique xml plots new_xml Sx Sp).
    - exists (replace_name name "py"). split; [reflexivity|]. split; [apply replace_nonempty; exact NE|apply replace_slash; [exact py_slash|exact W]].
    - exists (replace_name plot "py"). split; [exact Q|]. split; [apply replace_nonempty; exact NP|apply replace_slash; [exact py_slash|exact WP]]. }
  pose proof (judged gray similarity otsu boxes day_new decode j w1 stem HK HS (stem_slash _ _ WP HS) (stem_plain _ _ PP HS) Ss Pls Sd Pld HX ND) as J.
  exists doc', w0, (fst (judge gray similarity otsu boxes day_new decode j w1)), (v <- snd (judge gray similarity otsu boxes day_new decode j w1) ;; Ok (plot, v)).
  split; [exact RW|]. split; [exact PUT|]. split; [|exact J]. unfold check. rewrite E.
  change (batch (command j) (ValModel.new_xml j) (write_file day_new (ValModel.new_xml j) (Doc (new_doc j)) w)) with w1.
  destruct (judge _ _ _ _ _ _ j w1) as [w2 r2]. reflexivity.
Qed.

Lemma C138_check_case_proof : Maps val_disk "/in/a.xml" (File (Doc (val_doc "a.png")) 9) /\ Maps (val_doc "a.png") "plot_file" (Some "a.png") /\
  check id val_similarity (fun _ => 0) (fun _ a => a) 9 val_batch val_decode val_params "/in/b.xml" val_disk =
    (("/p/b_thresh.png", File (Picture [255; 0]) 9) :: val_made "/in/b.xml" val_disk, Ok ("b.png", Different)).
Proof.
  split; [unfold val_disk, val_files; repeat first [apply maps_cons; left; split; reflexivity | apply maps_cons; right; split; [discriminate|]]|]. split; [unfold val_doc; apply maps_cons; left; split; reflexivity|]. vm_compute. reflexivity.
Qed.

Lemma C138_no_tag_proof : forall gray similarity otsu boxes day_new batch decode P w p doc day, Maps w p (File (Doc doc) day) ->
  (Absent doc "plot_file" -> check gray similarity otsu boxes day_new batch decode P p w = (w, Err IndexError)) /\
  (Maps doc "plot_file" None -> check gray similarity otsu boxes day_new batch decode P p w = (w, Err AttributeError)) /\
  (forall plot, Maps doc "plot_file" (Some plot) -> Absent doc "plots" ->
    check gray similarity otsu boxes day_new batch decode P p w = (w, Err IndexError)).
Proof.
  intros gray similarity otsu boxes day_new batch decode P w p doc day M. unfold check, prepare. rewrite (find_file_maps _ _ _ M).
  assert (forall t, Absent doc t -> tag_value doc t = Err IndexError) as TA by (intros t A; unfold tag_value; rewrite (find_absent_eq _ _ A); reflexivity).
  split; [|split].
  - intro A. rewrite (TA _ A). reflexivity.
  - intro A. unfold tag_value. rewrite (find_maps_eq _ _ _ A). reflexivity.
  - intros plot A B. rewrite (tag_ok _ _ _ A). cbn [bind]. rewrite (TA _ B). reflexivity.
Qed.

Lemma C138_no_tag_case_proof : Maps [("/in/c.xml", File (Doc [("plots", None)]) 9)] "/in/c.xml" (File (Doc [("plots", None)]) 9) /\
  Absent [("plots", @None string)] "plot_file".
Proof.
  split; [apply maps_cons; left; split; reflexivity|]. intro H. cbn in H. intuition discriminate.
Qed.

Lemma C138_untouched_proof : forall gray similarity otsu boxes day_of now now' day_new batch decode P w xml plots data scripts w' report r,
  Maps P "output_xml_dir" xml -> Maps P "output_plots_dir" plots -> Maps P "output_data_dir" data -> Maps P "output_scripts_dir" scripts ->
  Slash xml -> Slash plots -> Slash data -> Slash scripts ->
  let outside p := ~ InDir xml p /\ ~ InDir plots p /\ ~ InDir data p /\ ~ InDir scripts p in
  (forall c x w p, outside p -> SameAt w (batch c x w) p) ->
  main gray similarity otsu boxes day_of now now' day_new batch decode P w = (w', report, r) ->
  forall p, outside p -> SameAt w w' p.
Proof.
  intros gray similarity otsu boxes day_of now now' day_new batch decode P w xml plots data scripts w' report r A B K D S1 S2 S3 S4 outside HB H p O.
  exact (main_other gray similarity otsu boxes day_new decode batch P xml plots data scripts A B K D S1 S2 S3 S4 HB day_of now now' w w' report r p H O).
Qed.

Lemma C138_untouched_case_proof : Maps val_params "output_xml_dir" "/x/" /\ ~ InDir "/x/" "/in/a.xml" /\ ~ InDir "/p/" "/in/a.xml" /\
  ~ InDir "/d/" "/in/a.xml" /\ ~ InDir "/s/" "/in/a.xml".
Proof.
  rewrite <- !in_dir_iff. split; [unfold val_params; repeat first [apply maps_cons; left; split; reflexivity | apply maps_cons; right; split; [discriminate|]]|]. repeat split; discriminate.
Qed.

Lemma C138_report_proof : forall gray similarity otsu boxes day_of now now' day_new batch decode P w d xml plots data scripts w' report,
  Maps P "input_xml_dir" d -> Slash d ->
  Maps P "output_xml_dir" xml -> Maps P "output_plots_dir" plots -> Maps P "output_data_dir" data -> Maps P "output_scripts_dir" scripts ->
  Slash xml -> Slash plots -> Slash data -> Slash scripts ->
  let outside p := ~ InDir xml p /\ ~ InDir plots p /\ ~ InDir data p /\ ~ InDir scripts p in
  (forall p, InDir d p -> outside p) -> (forall c x w p, outside p -> SameAt w (batch c x w) p) -> NoDup (map fst w) ->
  main gray similarity otsu boxes day_of now now' day_new batch decode P w = (w', report, Ok tt) ->
  exists files, get_test_xml day_of now now' P w = Ok files /\
    Forall2 (fun p x => exists doc day, Maps w p (File (Doc doc) day) /\ Maps doc "plot_file" (Some (fst x))) files report.
Proof.
  intros gray similarity otsu boxes day_of now now' day_new batch decode P w d xml plots data scripts w' report MD SL A B K D S1 S2 S3 S4 outside OUT HB ND H.
  exact (main_report gray similarity otsu boxes day_new decode batch P xml plots data scripts A B K D S1 S2 S3 S4 HB day_of now now' d w w' report MD OUT ND H).
Qed.

Lemma C138_report_case_proof :
  snd (fst (main id val_similarity (fun _ => 0) (fun _ a => a) (fun _ => Ok 0) 9 9 9 val_batch val_decode val_params val_disk)) =
  [("a.png", Identical); ("b.png", Different)].
Proof.
  vm_compute. reflexivity.
Qed.

Lemma C138_all_refuted_proof : ~ (forall gray similarity otsu boxes day_of now now' day_new batch decode P w w' report r files,
  (forall x y e, similarity x y = Err e -> e = ValueError) ->
  get_test_xml day_of now now' P w = Ok files -> Forall (fun p => exists plot day, Maps w p (File (Doc (val_doc plot)) day)) files ->
  main gray similarity otsu boxes day_of now now' day_new batch decode P w = (w', report, r) -> List.length report = List.length files).
Proof.
  intro H.
  assert (forall x y e, val_similarity x y = Err e -> e = ValueError) as HV.
  { intros x y e E. unfold val_similarity in E. destruct (Nat.eqb _ _); [discriminate|]. injection E as <-. reflexivity. }
  specialize (H id val_similarity (fun _ => 0) (fun _ a => a) (fun _ => Ok 0) 9 9 9 val_batch val_decode val_params val_sizes
    (fst (fst (main id val_similarity (fun _ => 0) (fun _ a => a) (fun _ => Ok 0) 9 9 9 val_batch val_decode val_params val_sizes))) [] (Err ValueError)
    ["/in/a.xml"; "/in/b.xml"] HV).
  assert (get_test_xml (fun _ => Ok 0) 9 9 val_params val_sizes = Ok ["/in/a.xml"; "/in/b.xml"]) as E1 by (vm_compute; reflexivity).
  specialize (H E1).
  assert (Forall (fun p => exists plot day, Maps val_sizes p (File (Doc (val_doc plot)) day)) ["/in/a.xml"; "/in/b.xml"]) as E2.
  { constructor; [exists "a.png", 9|constructor; [exists "b.png", 8|constructor]]; apply find_file_some; vm_compute; reflexivity. }
  specialize (H E2). assert (List.length (@nil (string * verdict)) = List.length ["/in/a.xml"; "/in/b.xml"]) as E3; [apply H; vm_compute; reflexivity|discriminate E3].
Qed.

Lemma C138_all_refuted_case_proof :
  main id val_similarity (fun _ => 0) (fun _ a => a) (fun _ => Ok 0) 9 9 9 val_batch val_decode val_params val_sizes =
  (fst (fst (main id val_similarity (fun _ => 0) (fun _ a => a) (fun _ => Ok 0) 9 9 9 val_batch val_decode val_params val_sizes)), [], Err ValueError).
Proof.
  vm_compute. reflexivity.
Qed.

Lemma C139_unreadable_proof : forall gray similarity im1 im2, im1 = None \/ im2 = None -> compare_images gray similarity im1 im2 = Err KeyError.
Proof.
  intros gray similarity im1 im2 [->| ->]; [reflexivity|]. destruct im1; reflexivity.
Qed.

Lemma C139_unreadable_case_proof : compare_images id val_similarity (Some [1; 2]) (Some [1; 3; 4]) = Err ValueError.
Proof.
  reflexivity.
Qed.

Lemma C139_history_proof : forall gray similarity otsu boxes a b q g c l,
  similarity (gray a) (gray b) = Ok (q, g) -> (2 <= List.length g)%nat -> (2 <= List.length b)%nat ->
  (forall t x, List.length (boxes t x) = List.length x) ->
  compare_images gray similarity (Some a) (Some b) = Ok c ->
  (Allowed l -> exists out, do_calls otsu boxes l c = Ok out /\ Forall2 (Gives a b boxes (otsu g) q g) l out) /\
  (~ Allowed l -> do_calls otsu boxes l c = Err ValueError).
Proof.
  intros gray similarity otsu boxes a b q g c l ES BG BB BL E. unfold compare_images in E. rewrite ES in E. cbn [bind fst snd] in E. injection E as <-.
  pose proof (history otsu boxes a b q g BG BB BL l false false false ltac:(discriminate) ltac:(discriminate)) as H.
  rewrite <- allowed_spec. destruct (allowed false false l); split; intro K; try discriminate; try (destruct K; reflexivity); exact H.
Qed.

Lemma C139_history_case_proof : Allowed [GetMssim; SaveThresh; SaveIn1; ShowIn1; SaveIn2] /\ ~ Allowed [SaveIn1; SaveThresh] /\ ~ Allowed [SaveIn2; ShowIn2].
Proof.
  rewrite <- !allowed_spec. repeat split; try reflexivity; discriminate.
Qed.

Lemma C139_again_refuted_proof : ~ (forall gray similarity otsu boxes a b c, compare_images gray similarity (Some a) (Some b) = Ok c ->
  exists out, do_calls otsu boxes [SaveThresh; ShowThresh] c = Ok out).
Proof.
  intro H. destruct (H id val_similarity (fun _ => 0) (fun _ a => a) [1; 2] [1; 2] (Compared [1; 2] [1; 2] 1 [255; 255] None None None) eq_refl) as [out E]. discriminate E.
Qed.

Lemma C139_again_refuted_case_proof : compare_images id val_similarity (Some [1; 2]) (Some [1; 2]) =
  Ok (Compared [1; 2] [1; 2] 1 [255; 255] None None None).
Proof.
  reflexivity.
Qed.

