From Verif Require Import PyBase ColumnModel BaseSpec BaseProofs AggModel AggSpec AggProofs MomentProofs
  RealBase RealSpec RealProofs Sl1l2Model Sl1l2Spec CtcProofs Sl1l2Proofs Sl1l2Proofs2 ModeProofs EnsModel EnsSpec.
From Coq Require Import Reals Qreals Qabs Qminmax Lra.
Open Scope string_scope.
Open Scope Q_scope.

(** * Expressions whose exceptions are all caught *)
Definition Val (x : res pyval) (o : option Q) : Prop :=
  match o with
  | Some q => exists p, x = Ok (Some p) /\ p == q
  | None => x = Ok None \/ exists e, x = Err e /\ existsb (exn_eqb e) std_exns = true
  end.

Lemma val_oeq x o o' : oeq o o' -> Val x o -> Val x o'.
Proof.
  destruct o as [q|], o' as [q'|]; simpl; try tauto. intros E (p & H & F). exists p. split; [exact H|].
  now rewrite F.
Qed.
Lemma val_ok o o' : oeq o o' -> Val (Ok o) o'.
Proof. destruct o as [p|], o' as [q|]; simpl; try tauto. intros E. exists p. auto. Qed.
Lemma val_lit q : Val (pylit q) (Some q).
Proof. exists q. split; reflexivity. Qed.

Lemma oeq_trans a b c : oeq a b -> oeq b c -> oeq a c.
Proof. destruct a, b, c; simpl; try tauto. intros E F. now rewrite E. Qed.
Lemma oeq_sym a b : oeq a b -> oeq b a.
Proof. destruct a, b; simpl; try tauto. intros E. now rewrite E. Qed.

Lemma caught_type : existsb (exn_eqb TypeError) std_exns = true. Proof. reflexivity. Qed.
Lemma caught_zero : existsb (exn_eqb ZeroDivisionError) std_exns = true. Proof. reflexivity. Qed.
Lemma caught_warning : existsb (exn_eqb PyWarning) std_exns = true. Proof. reflexivity. Qed.

Ltac verr := right; eexists; split; [reflexivity|reflexivity].

Lemma val_bin f x y a b :
  (forall p q p' q', p == p' -> q == q' -> f p q == f p' q') ->
  Val x a -> Val y b -> Val (pybin f x y) (match a, b with Some p, Some q => Some (f p q) | _, _ => None end).
Proof.
  intros C Hx Hy. unfold pybin. destruct a as [a|], b as [b|]; simpl in *.
  - destruct Hx as (p & -> & E), Hy as (q & -> & F). exists (f p q). split; [reflexivity|]. now apply C.
  - destruct Hx as (p & -> & E). destruct Hy as [->|(e & -> & F)]; simpl; [verr|]. right. exists e. auto.
  - destruct Hx as [->|(e & -> & F)]; simpl.
    + destruct Hy as (q & -> & F). simpl. verr.
    + right. exists e. auto.
  - destruct Hx as [->|(e & -> & F)]; simpl.
    + destruct Hy as [->|(e & -> & F)]; simpl; [verr|]. right. exists e. auto.
    + right. exists e. auto.
Qed.
Lemma val_plus x y a b : Val x a -> Val y b -> Val (x [+] y) (oadd a b).
Proof. apply val_bin. intros p q p' q' E F. now rewrite E, F. Qed.
Lemma val_minus x y a b : Val x a -> Val y b -> Val (x [-] y) (osub a b).
Proof. apply val_bin. intros p q p' q' E F. now rewrite E, F. Qed.
Lemma val_mult x y a b : Val x a -> Val y b -> Val (x [*] y) (omul a b).
Proof. apply val_bin. intros p q p' q' E F. now rewrite E, F. Qed.
Lemma val_npdiv x y a b : Val x a -> Val y b -> Val (x [//] y) (oratio a b).
Proof.
  intros Hx Hy. unfold npdiv. destruct a as [a|], b as [b|]; simpl in *.
  - destruct Hx as (p & -> & E), Hy as (q & -> & F). simpl. destruct (Qeq_dec b 0) as [K|K].
    + rewrite (proj2 (Qeq_bool_iff q 0)) by now rewrite F. simpl. verr.
    + rewrite Qeq_bool_false by (rewrite F; exact K). exists (p / q). split; [reflexivity|]. now rewrite E, F.
  - destruct Hx as (p & -> & E). destruct Hy as [->|(e & -> & F)]; simpl; [verr|]. right. exists e. auto.
  - destruct Hx as [->|(e & -> & F)]; simpl.
    + destruct Hy as (q & -> & F). simpl. verr.
    + right. exists e. auto.
  - destruct Hx as [->|(e & -> & F)]; simpl.
    + destruct Hy as [->|(e & -> & F)]; simpl; [verr|]. right. exists e. auto.
    + right. exists e. auto.
Qed.
Lemma val_pydiv x y a b : Val x a -> Val y b -> Val (x [/] y) (oratio a b).
Proof.
  intros Hx Hy. unfold pydiv. destruct a as [a|], b as [b|]; simpl in *.
  - destruct Hx as (p & -> & E), Hy as (q & -> & F). simpl. destruct (Qeq_dec b 0) as [K|K].
    + rewrite (proj2 (Qeq_bool_iff q 0)) by now rewrite F. simpl. verr.
    + rewrite Qeq_bool_false by (rewrite F; exact K). exists (p / q). split; [reflexivity|]. now rewrite E, F.
  - destruct Hx as (p & -> & E). destruct Hy as [->|(e & -> & F)]; simpl; [verr|]. right. exists e. auto.
  - destruct Hx as [->|(e & -> & F)]; simpl.
    + destruct Hy as (q & -> & F). simpl. verr.
    + right. exists e. auto.
  - destruct Hx as [->|(e & -> & F)]; simpl.
    + destruct Hy as [->|(e & -> & F)]; simpl; [verr|]. right. exists e. auto.
    + right. exists e. auto.
Qed.

(** Binding: the continuation sees either the value or nothing at all. *)
Lemma val_round x o : Val x o ->
  match o with
  | Some q => exists w, pyround x = Ok (Some w) /\ Nearest 7 q w
  | None => exists e, pyround x = Err e /\ existsb (exn_eqb e) std_exns = true
  end.
Proof.
  destruct o as [q|]; simpl.
  - intros (p & -> & E). eexists. split; [reflexivity|]. apply (nearest_compat 7 p); [exact E|]. apply rhu_nearest.
  - intros [->|(e & -> & E)]; simpl; eexists; (split; [reflexivity|]); [reflexivity|exact E].
Qed.
Lemma val_publish x o : Val x o -> exists r, catch std_exns (pyround x) None = Ok r /\ Published o r.
Proof.
  intro H. apply val_round in H. destruct o as [q|].
  - destruct H as (w & -> & N). exists (Some w). split; [reflexivity|exact N].
  - destruct H as (e & -> & E). cbn [catch]. rewrite E. exists None. split; [reflexivity|exact I].
Qed.

(** [x <- m ;; k x] when [m] is an expression: if it fails, the whole body fails. *)
Lemma catch_bind (m : res pyval) (k : pyval -> res pyval) o (P : option Q -> Prop) :
  Val m o ->
  (forall v, oeq v o -> exists r, catch std_exns (k v) None = Ok r /\ P r) ->
  (o = None -> P None) ->
  exists r, catch std_exns (x <- m ;; k x) None = Ok r /\ P r.
Proof.
  intros Hv K HN. destruct o as [q|]; unfold Val in Hv.
  - destruct Hv as (p & -> & E). apply K. exact E.
  - destruct Hv as [->|(e & -> & E)]; [apply K; exact I|]. cbn [bind catch]. rewrite E.
    exists None. split; [reflexivity|]. now apply HN.
Qed.

(** * Tables *)
Definition CellO (columns : list string) (r : row) (name : string) (o : option Q) : Prop :=
  exists i c, ColumnAt columns name i /\ nth_error r i = Some c /\
    match c, o with CNum p, Some q => p == q | CMiss, None => True | _, _ => False end.

Definition env := string -> option (line -> option Q).
Definition upd (E : env) (name : string) (g : line -> option Q) : env :=
  fun n => if String.eqb n name then Some g else E n.

Definition HoldsRow (E : env) (columns : list string) (e : line) (r : row) : Prop :=
  length r = length columns /\ forall name g, E name = Some g -> CellO columns r name (g e).
Definition Holds (E : env) (columns : list string) (es : list line) (data : tdata) : Prop :=
  es <> [] /\ Forall2 (HoldsRow E columns) es data.

Definition env_of (fields : list string) : env :=
  fun n => if existsb (String.eqb n) fields then Some (field n) else None.

Lemma table_holds fields columns es data : Table fields columns es data -> Holds (env_of fields) columns es data.
Proof.
  intros [N F]. split; [exact N|]. eapply f2_impl; [|exact F]. intros e r [L H]. split; [exact L|].
  intros name g E. unfold env_of in E. destruct (existsb (String.eqb name) fields) eqn:B; [|discriminate E].
  injection E as <-. apply existsb_exists in B. destruct B as (n & I & B). apply String.eqb_eq in B. subst n.
  destruct (H name I) as (i & C & R). unfold CellO, field. exists i. eexists. split; [exact C|]. split; [exact R|].
  destruct (e name); [reflexivity|exact Logic.I].
Qed.

Lemma cello_index columns r name o : CellO columns r name o -> exists i, index_of name columns = Some i.
Proof. intros (i & c & C & _). exists i. now apply index_of_ColumnAt. Qed.

Lemma holds_index E columns es data name g : Holds E columns es data -> E name = Some g ->
  exists i, index_of name columns = Some i.
Proof.
  intros [N F] G. destruct F as [|e r es data [_ H] F]; [congruence|]. eapply cello_index. apply H. exact G.
Qed.

Lemma columnat_app columns name n i : ColumnAt columns name i -> ColumnAt (columns ++ [n])%list name i.
Proof.
  intros [A B]. assert (i < length columns)%nat by (apply nth_error_Some; congruence).
  split; [now rewrite nth_error_app1 by lia|]. intros j Hj. rewrite nth_error_app1 by lia. now apply B.
Qed.
Lemma columnat_new columns n : index_of n columns = None -> ColumnAt (columns ++ [n])%list n (length columns).
Proof.
  intro H. apply index_of_None in H. split.
  - rewrite nth_error_app2 by lia. now rewrite Nat.sub_diag.
  - intros j Hj K. rewrite nth_error_app1 in K by lia. apply nth_error_In in K. contradiction.
Qed.

(** What a row operation has to satisfy. *)
Definition OpOk (f : cell -> cell -> cell -> res cell) (x y z : option Q) (o : option Q) : Prop :=
  forall a b c,
    match a, x with CNum p, Some q => p == q | CMiss, None => True | _, _ => False end ->
    match b, y with CNum p, Some q => p == q | CMiss, None => True | _, _ => False end ->
    match c, z with CNum p, Some q => p == q | CMiss, None => True | _, _ => False end ->
    exists d, f a b c = Ok d /\
      match d, o with CNum p, Some q => p == q | CMiss, None => True | _, _ => False end.

Lemma cello_at columns r name o i : index_of name columns = Some i -> CellO columns r name o ->
  exists c, cell_at i r = Ok c /\
    match c, o with CNum p, Some q => p == q | CMiss, None => True | _, _ => False end.
Proof.
  intros I (j & c & C & R & M). apply index_of_ColumnAt in C. rewrite I in C. injection C as <-.
  exists c. unfold cell_at. rewrite R. auto.
Qed.

Lemma assign3_holds E columns es data name a b c f ga gb gc g :
  Holds E columns es data ->
  E a = Some ga -> E b = Some gb -> E c = Some gc ->
  (forall e, In e es -> OpOk f (ga e) (gb e) (gc e) (g e)) ->
  exists d cs, assign3 (data, columns) name a b c f = Ok (d, cs) /\ Holds (upd E name g) cs es d.
Proof.
  intros H Ha Hb Hc HF. pose proof H as [N F].
  destruct (holds_index _ _ _ _ _ _ H Ha) as [i Hi].
  destruct (holds_index _ _ _ _ _ _ H Hb) as [j Hj].
  destruct (holds_index _ _ _ _ _ _ H Hc) as [k Hk].
  unfold assign3, col_index. rewrite Hi, Hj, Hk. cbn [bind].
  set (new := fun r : row => x <- cell_at i r ;; y <- cell_at j r ;; z <- cell_at k r ;; f x y z).
  assert (HN : forall e r, In e es -> HoldsRow E columns e r -> exists d, new r = Ok d /\
      match d, g e with CNum p, Some q => p == q | CMiss, None => True | _, _ => False end).
  { intros e r Ie [L R].
    destruct (cello_at _ _ _ _ _ Hi (R a ga Ha)) as (x & Ex & Mx).
    destruct (cello_at _ _ _ _ _ Hj (R b gb Hb)) as (y & Ey & My).
    destruct (cello_at _ _ _ _ _ Hk (R c gc Hc)) as (z & Ez & Mz).
    unfold new. rewrite Ex, Ey, Ez. cbn [bind]. exact (HF e Ie x y z Mx My Mz). }
  assert (forall (h : cell -> row -> row) cs,
    (forall e r d, HoldsRow E columns e r ->
       match d, g e with CNum p, Some q => p == q | CMiss, None => True | _, _ => False end ->
       HoldsRow (upd E name g) cs e (h d r)) ->
    exists d, mapM (fun r => n <- new r ;; Ok (h n r)) data = Ok d /\ Holds (upd E name g) cs es d) as K.
  { intros h cs Hh. destruct (mapM_Forall2 (fun e r => In e es /\ HoldsRow E columns e r) (HoldsRow (upd E name g) cs)
       (fun r => n <- new r ;; Ok (h n r)) es data) as (d & Ed & Fd).
    - intros e r [Ie He]. destruct (HN e r Ie He) as (x & Ex & Mx). rewrite Ex. cbn [bind].
      eexists. split; [reflexivity|]. now apply Hh.
    - clear -F. assert (forall l, (forall e, In e es -> In e l) -> Forall2 (fun e r => In e l /\ HoldsRow E columns e r) es data).
      { induction F as [|e r es data A F IH]; intros l Hl; constructor.
        - split; [apply Hl; left; reflexivity|exact A].
        - apply IH. intros x Hx. apply Hl. right. exact Hx. }
      apply H. auto.
    - exists d. split; [exact Ed|]. split; [exact N|exact Fd]. }
  destruct (index_of name columns) as [t|] eqn:T.
  - destruct (K (fun n r => set_nth t n r) columns) as (d & Ed & Hd).
    { intros e r d [L R] M. split; [now rewrite set_nth_length|]. intros n h En. unfold upd in En.
      destruct (String.eqb_spec n name) as [->|D].
      - injection En as <-. exists t, d. split; [now apply index_of_ColumnAt|].
        split; [|exact M]. apply set_nth_same. rewrite L. eapply index_of_lt. exact T.
      - destruct (R n h En) as (u & x & Cu & Ru & Mu). exists u, x. split; [exact Cu|]. split; [|exact Mu].
        rewrite set_nth_other; [exact Ru|]. intro. subst u. apply D. apply index_of_ColumnAt in T.
        eapply columnat_inj; eassumption. }
    subst new. cbv beta zeta in Ed |- *. rewrite Ed. cbn [bind]. eexists. eexists. split; [reflexivity|exact Hd].
  - destruct (K (fun n r => r ++ [n])%list (columns ++ [name])%list) as (d & Ed & Hd).
    { intros e r d [L R] M. split; [rewrite !app_length; simpl; lia|]. intros n h En. unfold upd in En.
      destruct (String.eqb_spec n name) as [->|D].
      - injection En as <-. exists (length columns), d. split; [now apply columnat_new|].
        split; [|exact M]. rewrite nth_error_app2 by lia. now rewrite L, Nat.sub_diag.
      - destruct (R n h En) as (u & x & Cu & Ru & Mu). exists u, x. split; [now apply columnat_app|].
        split; [|exact Mu]. rewrite nth_error_app1; [exact Ru|]. apply nth_error_Some. congruence. }
    subst new. cbv beta zeta in Ed |- *. rewrite Ed. cbn [bind]. eexists. eexists. split; [reflexivity|exact Hd].
Qed.

(** Row operations. *)
Ltac cells := repeat match goal with
  | a : cell |- _ => destruct a; try contradiction
  | H : match ?x with Some _ => _ | None => _ end |- _ => destruct x eqn:?; try contradiction
  end.
Lemma cell_times_ok a b x y :
  match a, x with CNum p, Some q => p == q | CMiss, None => True | _, _ => False end ->
  match b, y with CNum p, Some q => p == q | CMiss, None => True | _, _ => False end ->
  exists d, cell_times a b = Ok d /\
    match d, omul x y with CNum p, Some q => p == q | CMiss, None => True | _, _ => False end.
Proof.
  destruct a as [p| |s], x as [q|]; try contradiction; destruct b as [p'| |s'], y as [q'|]; try contradiction;
    intros H1 H2; simpl; eexists; (split; [reflexivity|]); simpl; auto. now rewrite H1, H2.
Qed.
Lemma op_times_times x z : OpOk times_times x x z (omul (omul x x) z).
Proof.
  intros a b c A B C. unfold times_times. destruct (cell_times_ok a b x x A B) as (d & -> & D). cbn [bind].
  exact (cell_times_ok d c _ _ D C).
Qed.
Lemma op_times_third x y z : OpOk times_third x y z (omul x z).
Proof. intros a b c A B C. exact (cell_times_ok a c _ _ A C). Qed.
Lemma op_over x y z :
  (forall q s, y = Some q -> x = Some s -> q == 1 -> s == 0) ->
  OpOk over_complement x y z (omul (oratio x (osub (Some 1) y)) z).
Proof.
  intros K a b c A B C. unfold over_complement.
  destruct y as [y|], b as [b| |s]; try contradiction; simpl in B; cbn [cell_complement bind].
  - destruct x as [x|], a as [a| |s]; try contradiction; simpl in A; cbn [cell_div].
    + cbn [osub oratio]. destruct (Qeq_dec (1 - y) 0) as [Z|Z].
      * rewrite (proj2 (Qeq_bool_iff (1 - b) 0)) by now rewrite B.
        assert (Y : y == 1) by qlra. specialize (K y x eq_refl eq_refl Y).
        rewrite (proj2 (Qeq_bool_iff a 0)) by now rewrite A. cbn [bind].
        exact (cell_times_ok CMiss c None z I C).
      * rewrite Qeq_bool_false by (rewrite B; exact Z). cbn [bind].
        apply (cell_times_ok (CNum (a / (1 - b))) c (Some (x / (1 - y))) z); [|exact C]. now rewrite A, B.
    + cbn [bind]. exact (cell_times_ok CMiss c None z I C).
  - destruct x as [x|], a as [a| |s]; try contradiction; cbn [cell_div bind]; exact (cell_times_ok CMiss c None z I C).
Qed.

(** Column sums. *)
Lemma sum_present_cells E columns es data name g i :
  Forall2 (HoldsRow E columns) es data -> E name = Some g -> ColumnAt columns name i ->
  match sum_present (map g es) with
  | Some s => present_at i data <> [] /\ qsum (present_at i data) == s
  | None => present_at i data = []
  end.
Proof.
  intros F G C. induction F as [|e r es data [L H] F IH]; [reflexivity|].
  cbn [map sum_present present_at].
  destruct (H name g G) as (j & c & Cj & Rj & M). assert (j = i) by (eapply columnat_fun; eassumption). subst j.
  rewrite Rj. destruct c as [p| |s], (g e) as [q|]; try contradiction.
  - destruct (sum_present (map g es)) as [s|].
    + split; [discriminate|]. simpl. destruct IH as [_ ->]. now rewrite M.
    + split; [discriminate|]. rewrite IH. simpl. rewrite M. ring.
  - exact IH.
Qed.

Lemma holds_rectangular E columns es data : Holds E columns es data -> Rectangular data columns.
Proof.
  intros [_ F] r I. induction F as [|e r' es data [L _] F IH]; [destruct I|]. destruct I as [<-|I]; auto.
Qed.
Lemma holds_numeric E columns es data name g : Holds E columns es data -> E name = Some g ->
  NumericColumn data columns name.
Proof.
  intros [_ F] G i r s C I. induction F as [|e r' es data [_ H] F IH]; [destruct I|].
  destruct I as [<-|I]; [|exact (IH I)]. destruct (H name g G) as (j & c & Cj & Rj & M).
  assert (j = i) by (eapply columnat_fun; eassumption). subst j. rewrite Rj. intro K. injection K as ->.
  exact M.
Qed.

Lemma holds_sum E columns es data name g : Holds E columns es data -> E name = Some g ->
  Val (colsum data columns name) (sum_present (map g es)).
Proof.
  intros H G. destruct (holds_index _ _ _ _ _ _ H G) as [i Hi]. apply index_of_ColumnAt in Hi.
  pose proof (sum_present_cells _ _ _ _ _ _ _ (proj2 H) G Hi) as S.
  destruct (sum_column_total data columns name (sum_present (map g es))) as (o & Eo & Fo).
  - eapply holds_rectangular. exact H.
  - eapply holds_numeric; eassumption.
  - split.
    + intro K. exfalso. apply K. destruct Hi as [A _]. eapply nth_error_In. exact A.
    + intros j Cj. assert (j = i) by (eapply columnat_fun; eassumption). subst j.
      destruct (sum_present (map g es)) as [s|].
      * split; [intro K; destruct S as [S _]; contradiction|]. intros _. exists s. split; [reflexivity|].
        symmetry. apply S.
      * split; [reflexivity|]. intro K. contradiction.
  - unfold colsum. rewrite Eo. apply val_ok. exact Fo.
Qed.

(** * Statistics of prepared tables *)
Lemma oratio_none_r a : oratio a None = None. Proof. destruct a; reflexivity. Qed.
Lemma osub_none_r a : osub a None = None. Proof. destruct a; reflexivity. Qed.
Lemma oadd_none_r a : oadd a None = None. Proof. destruct a; reflexivity. Qed.
Lemma omul_none_r a : omul a None = None. Proof. destruct a; reflexivity. Qed.

Definition tsum (g : line -> option Q) (es : list line) : option Q := sum_present (map g es).

Section Prepared.
Variables (E : env) (data : tdata) (columns : list string) (es : list line).
Hypothesis H : Holds E columns es data.
Hypothesis HT : E "total" = Some (field "total").
Notation T := (tsum (field "total") es).

Lemma total_val : Val (get_total data columns true) T.
Proof. exact (holds_sum _ _ _ _ _ _ H HT). Qed.

Lemma mean_val name g v : E name = Some g -> oeq v T ->
  Val (column_mean data columns v name) (oratio (tsum g es) T).
Proof.
  intros G V. apply val_npdiv; [exact (holds_sum _ _ _ _ _ _ H G)|]. now apply val_ok.
Qed.

Lemma mean_published name g : E name = Some g ->
  exists r, mean_stat data columns true name = Ok r /\ Published (oratio (tsum g es) T) r.
Proof.
  intro G. unfold mean_stat. eapply catch_bind; [exact total_val| |].
  - intros v V. apply val_publish. now apply mean_val.
  - intros ->. now rewrite oratio_none_r.
Qed.

Lemma skill_published (num den : string) gn gd (first : bool) :
  E num = Some gn -> E den = Some gd ->
  let o := osub (Some 1) (oratio (oratio (tsum gn es) T) (oratio (tsum gd es) T)) in
  (exists r, with_total data columns true (fun total =>
     a <- column_mean data columns total num ;; b <- column_mean data columns total den ;;
     pyround (pylit 1 [-] (Ok a [//] Ok b))) = Ok r /\ Published o r) /\
  (exists r, with_total data columns true (fun total =>
     b <- column_mean data columns total den ;; a <- column_mean data columns total num ;;
     pyround (pylit 1 [-] (Ok a [//] Ok b))) = Ok r /\ Published o r).
Proof.
  intros Gn Gd o. unfold with_total, o. split.
  - eapply catch_bind; [exact total_val| |intros ->; now rewrite !oratio_none_r].
    intros v V. eapply catch_bind; [exact (mean_val _ _ _ Gn V)| |intros ->; reflexivity].
    intros a A. eapply catch_bind; [exact (mean_val _ _ _ Gd V)| |intros ->; now rewrite oratio_none_r].
    intros b B. apply val_publish. apply val_minus; [apply val_lit|]. apply val_npdiv; now apply val_ok.
  - eapply catch_bind; [exact total_val| |intros ->; now rewrite !oratio_none_r].
    intros v V. eapply catch_bind; [exact (mean_val _ _ _ Gd V)| |intros ->; now rewrite oratio_none_r].
    intros b B. eapply catch_bind; [exact (mean_val _ _ _ Gn V)| |intros ->; reflexivity].
    intros a A. apply val_publish. apply val_minus; [apply val_lit|]. apply val_npdiv; now apply val_ok.
Qed.

Lemma root_published name g : E name = Some g ->
  exists r, root_stat data columns true name = Ok r /\ RootPublished (oratio (tsum g es) T) r.
Proof.
  intro G. destruct (mean_published name g G) as (m & Em & Pm). unfold root_stat, weighted_average. rewrite Em.
  destruct (oratio (tsum g es) T) as [v|], m as [m|]; try contradiction; simpl in Pm; unfold math_sqrt; cbn [bind].
  - destruct (Qlt_bool m 0) eqn:B; Qbool.
    + exists None. split; [reflexivity|]. exists m. split; [exact Pm|]. split; [reflexivity|]. intro. exfalso. qlra.
    + eexists. split; [reflexivity|]. exists m. split; [exact Pm|]. split; [intro; exfalso; qlra|].
      intros _. simpl. apply rhuR_nearest.
  - exists None. split; reflexivity.
Qed.

Lemma conditional_published n m gn gm : E n = Some gn -> E m = Some gm ->
  exists r, catch std_exns (k <- colsum data columns n ;; pyround (colsum data columns m [//] Ok k)) None = Ok r /\
    Published (oratio (tsum gm es) (tsum gn es)) r.
Proof.
  intros Gn Gm. eapply catch_bind; [exact (holds_sum _ _ _ _ _ _ H Gn)| |].
  - intros v V. apply val_publish. apply val_npdiv; [exact (holds_sum _ _ _ _ _ _ H Gm)|now apply val_ok].
  - intro K. unfold tsum. rewrite K. now rewrite oratio_none_r.
Qed.
Lemma sum_published n gn : E n = Some gn ->
  exists r, catch std_exns (pyround (colsum data columns n)) None = Ok r /\ Published (tsum gn es) r.
Proof. intro G. apply val_publish. exact (holds_sum _ _ _ _ _ _ H G). Qed.

Lemma bias_ratio_published gn gm gn' gm' :
  E "n_ge_obs" = Some gn -> E "me_ge_obs" = Some gm -> E "n_lt_obs" = Some gn' -> E "me_lt_obs" = Some gm' ->
  exists ge lt r, Published (oratio (tsum gm es) (tsum gn es)) ge /\ Published (oratio (tsum gm' es) (tsum gn' es)) lt /\
    calculate_ecnt_bias_ratio data columns = Ok r /\ Published (oratio ge (oabs lt)) r.
Proof.
  intros G1 G2 G3 G4.
  destruct (conditional_published _ _ _ _ G1 G2) as (ge & Eg & Pg).
  destruct (conditional_published _ _ _ _ G3 G4) as (lt & El & Pl).
  exists ge, lt. unfold calculate_ecnt_bias_ratio, calculate_ecnt_me_ge_obs, calculate_ecnt_me_lt_obs.
  rewrite Eg, El. cbn [bind].
  destruct (val_publish (Ok ge [/] pyabs (Ok lt)) (oratio ge (oabs lt))) as (r & Er & Pr).
  { apply val_pydiv; [apply val_ok; apply oeq_refl|]. destruct lt as [q|]; simpl.
    - eexists. split; reflexivity.
    - right. eexists. split; reflexivity. }
  exists r. auto.
Qed.

Lemma percent_published (num den : string) gn gd :
  E num = Some gn -> E den = Some gd ->
  exists r, percent_ratio data columns true num den = Ok r /\
    Published (oratio (omul (Some 100) (oratio (tsum gn es) T)) (oratio (tsum gd es) T)) r.
Proof.
  intros Gn Gd. unfold percent_ratio, with_total.
  eapply catch_bind; [exact total_val| |intros ->; now rewrite !oratio_none_r].
  intros v V. eapply catch_bind; [exact (mean_val _ _ _ Gn V)| |intros ->; reflexivity].
  intros a A. eapply catch_bind; [exact (mean_val _ _ _ Gd V)| |intros ->; now rewrite oratio_none_r].
  intros b B. apply val_publish. apply val_npdiv; [|now apply val_ok]. apply val_mult; [apply val_lit|now apply val_ok].
Qed.

Lemma afss_published gf go : E "f_rate" = Some gf -> E "o_rate" = Some go ->
  let f := oratio (tsum gf es) T in let o := oratio (tsum go es) T in
  exists r, calculate_nbr_afss data columns true = Ok r /\
    Published (oratio (omul (omul (Some 2) f) o) (oadd (omul f f) (omul o o))) r.
Proof.
  intros Gf Go f o. unfold calculate_nbr_afss, with_total.
  assert (P : f = None \/ o = None -> Published (oratio (omul (omul (Some 2) f) o) (oadd (omul f f) (omul o o))) None).
  { intros [->| ->]; [reflexivity|]. rewrite !omul_none_r. reflexivity. }
  eapply catch_bind; [exact total_val| |intro K; apply P; right; unfold o; rewrite K; apply oratio_none_r].
  intros v V. eapply catch_bind; [exact (mean_val _ _ _ Gf V)| |intro K; apply P; left; exact K].
  intros a A. fold f in A. eapply catch_bind; [exact (mean_val _ _ _ Go V)| |intro K; apply P; right; exact K].
  intros b B. fold o in B. eapply catch_bind.
  { apply val_mult; [apply val_mult; [apply val_lit|apply val_ok; exact A]|apply val_ok; exact B]. }
  2:{ intro K. rewrite K. reflexivity. }
  intros n N. eapply catch_bind.
  { apply val_plus; apply val_mult; apply val_ok; eassumption. }
  2:{ intro K. rewrite K. now rewrite oratio_none_r. }
  intros d D. apply val_publish. apply val_npdiv; now apply val_ok.
Qed.

Lemma ufss_published go : E "o_rate" = Some go ->
  exists r, calculate_nbr_ufss data columns true = Ok r /\
    Published (oadd (Some (1 # 2)) (oratio (oratio (tsum go es) T) (Some 2))) r.
Proof.
  intros Go. unfold calculate_nbr_ufss, with_total.
  eapply catch_bind; [exact total_val| |intros ->; now rewrite !oratio_none_r].
  intros v V. eapply catch_bind; [exact (mean_val _ _ _ Go V)| |intros ->; reflexivity].
  intros b B. apply val_publish. apply val_plus; [apply val_lit|]. apply val_npdiv; [now apply val_ok|apply val_lit].
Qed.
End Prepared.

Lemma tsum_ext g h es : (forall e, In e es -> oeq (g e) (h e)) -> oeq (tsum g es) (tsum h es).
Proof.
  unfold tsum. induction es as [|e es IH]; intro K; [exact I|]. cbn [map sum_present].
  pose proof (K e (or_introl eq_refl)) as Ke.
  assert (IH' := IH (fun x Hx => K x (or_intror Hx))).
  destruct (g e) as [p|], (h e) as [q|]; try contradiction; [|exact IH'].
  destruct (sum_present (map g es)) as [s|], (sum_present (map h es)) as [s'|]; try contradiction; simpl in *.
  - now rewrite Ke, IH'.
  - exact Ke.
Qed.

(** * Preparation *)
Definition env5 : env :=
  upd (upd (upd (upd (upd (env_of ecnt_fields)
    "mse" (fun e => omul (square_of "rmse" e) (field "total" e)))
    "mse_oerr" (fun e => omul (square_of "rmse_oerr" e) (field "total" e)))
    "variance" (fun e => omul (square_of "spread" e) (field "total" e)))
    "variance_oerr" (fun e => omul (square_of "spread_oerr" e) (field "total" e)))
    "variance_plus_oerr" (fun e => omul (square_of "spread_oerr" e) (field "total" e)).

Lemma ecnt_prepared statistic cols data columns es :
  assoc statistic STATISTIC_TO_FIELDS = Some cols ->
  Table ecnt_fields columns es data ->
  exists d cs, prepare_ecnt statistic (data, columns) = ecnt_scale cols (d, cs) /\ Holds env5 cs es d.
Proof.
  intros A HT. apply table_holds in HT. unfold prepare_ecnt.
  edestruct (assign3_holds _ _ _ _ "mse" "rmse" "rmse" "total" times_times (field "rmse") (field "rmse") (field "total")
    (fun e => omul (square_of "rmse" e) (field "total" e)) HT) as (d1 & c1 & E1 & H1);
    [reflexivity|reflexivity|reflexivity|intros; apply op_times_times|]. rewrite E1. cbn [bind].
  edestruct (assign3_holds _ _ _ _ "mse_oerr" "rmse_oerr" "rmse_oerr" "total" times_times (field "rmse_oerr") (field "rmse_oerr")
    (field "total") (fun e => omul (square_of "rmse_oerr" e) (field "total" e)) H1) as (d2 & c2 & E2 & H2);
    [reflexivity|reflexivity|reflexivity|intros; apply op_times_times|]. rewrite E2. cbn [bind].
  edestruct (assign3_holds _ _ _ _ "variance" "spread" "spread" "total" times_times (field "spread") (field "spread")
    (field "total") (fun e => omul (square_of "spread" e) (field "total" e)) H2) as (d3 & c3 & E3 & H3);
    [reflexivity|reflexivity|reflexivity|intros; apply op_times_times|]. rewrite E3. cbn [bind].
  edestruct (assign3_holds _ _ _ _ "variance_oerr" "spread_oerr" "spread_oerr" "total" times_times (field "spread_oerr")
    (field "spread_oerr") (field "total") (fun e => omul (square_of "spread_oerr" e) (field "total" e)) H3)
    as (d4 & c4 & E4 & H4);
    [reflexivity|reflexivity|reflexivity|intros; apply op_times_times|]. rewrite E4. cbn [bind].
  edestruct (assign3_holds _ _ _ _ "variance_plus_oerr" "spread_oerr" "spread_oerr" "total" times_times (field "spread_oerr")
    (field "spread_oerr") (field "total") (fun e => omul (square_of "spread_oerr" e) (field "total" e)) H4)
    as (d5 & c5 & E5 & H5);
    [reflexivity|reflexivity|reflexivity|intros; apply op_times_times|]. rewrite E5. cbn [bind].
  rewrite A. exists d5, c5. split; [reflexivity|exact H5].
Qed.

(** One column scaled by its weight. *)
Definition weight_of (c : string) : string :=
  if String.eqb c "me_ge_obs" then "n_ge_obs" else if String.eqb c "me_lt_obs" then "n_lt_obs" else "total".
Lemma ecnt_scale_step E c rest d cs es :
  Holds E cs es d -> E c = Some (field c) -> E (weight_of c) = Some (field (weight_of c)) ->
  exists d' cs', ecnt_scale (c :: rest) (d, cs) = ecnt_scale rest (d', cs') /\
    Holds (upd E c (fun e => omul (field c e) (field (weight_of c) e))) cs' es d'.
Proof.
  intros H G W.
  destruct (assign3_holds _ _ _ _ c c c (weight_of c) times_third (field c) (field c) (field (weight_of c))
    (fun e => omul (field c e) (field (weight_of c) e)) H G G W) as (d' & cs' & E' & H');
    [intros; apply op_times_third|].
  exists d', cs'. split; [|exact H']. cbn [ecnt_scale]. fold (weight_of c). rewrite E'. reflexivity.
Qed.

Ltac prep HT := unfold aggregated_ecnt;
  let d := fresh "d" in let cs := fresh "cs" in let E := fresh "E" in let H := fresh "H" in
  match goal with |- context [prepare_ecnt ?s _] =>
    edestruct (ecnt_prepared s _ _ _ _ ltac:(reflexivity) HT) as (d & cs & E & H) end; rewrite E; clear E.
Ltac scale H := 
  let d := fresh "d" in let cs := fresh "cs" in let E := fresh "E" in let H' := fresh "H" in
  match goal with |- context [ecnt_scale (?c :: ?rest) _] =>
    edestruct (ecnt_scale_step _ c rest _ _ _ H) as (d & cs & E & H'); [reflexivity|reflexivity|] end; rewrite E; clear E H;
  rename H' into H.

Ltac each := repeat (apply Forall_cons; [cbv beta iota|]); [..|apply Forall_nil].

(** Ranked probabilities and neighbourhoods. *)
Definition env_rps : env :=
  upd (upd (upd (env_of rps_fields)
    "rps_climo" (fun e => omul (reference "rps" "rpss" e) (field "total" e)))
    "rps" (fun e => omul (field "rps" e) (field "total" e)))
    "rps_comp" (fun e => omul (field "rps_comp" e) (field "total" e)).
Lemma rps_prepared data columns es : Table rps_fields columns es data -> ConsistentSkill "rps" "rpss" es ->
  exists d cs, prepare_rps (data, columns) = Ok (d, cs) /\ Holds env_rps cs es d.
Proof.
  intros HT HC. apply table_holds in HT. unfold prepare_rps.
  edestruct (assign3_holds _ _ _ _ "rps_climo" "rps" "rpss" "total" over_complement (field "rps") (field "rpss")
    (field "total") (fun e => omul (reference "rps" "rpss" e) (field "total" e)) HT) as (d1 & c1 & E1 & H1);
    [reflexivity|reflexivity|reflexivity| |].
  { intros e Ie. apply op_over. intros q s Q1 Q2. exact (HC e q s Ie Q1 Q2). }
  rewrite E1. cbn [bind].
  edestruct (assign3_holds _ _ _ _ "rps" "rps" "rps" "total" times_third (field "rps") (field "rps")
    (field "total") (fun e => omul (field "rps" e) (field "total" e)) H1) as (d2 & c2 & E2 & H2);
    [reflexivity|reflexivity|reflexivity|intros; apply op_times_third|]. rewrite E2. cbn [bind].
  edestruct (assign3_holds _ _ _ _ "rps_comp" "rps_comp" "rps_comp" "total" times_third (field "rps_comp") (field "rps_comp")
    (field "total") (fun e => omul (field "rps_comp" e) (field "total" e)) H2) as (d3 & c3 & E3 & H3);
    [reflexivity|reflexivity|reflexivity|intros; apply op_times_third|]. rewrite E3.
  exists d3, c3. split; [reflexivity|exact H3].
Qed.
Definition env_nbr : env :=
  upd (upd (upd (env_of nbr_fields)
    "fss" (fun e => omul (reference "fbs" "fss" e) (field "total" e)))
    "fbs" (fun e => omul (field "fbs" e) (field "total" e)))
    "f_rate" (fun e => omul (field "f_rate" e) (field "total" e)).
Lemma nbr_prepared data columns es : Table nbr_fields columns es data -> ConsistentSkill "fbs" "fss" es ->
  exists d cs, prepare_nbr_cnt (data, columns) = Ok (d, cs) /\ Holds env_nbr cs es d.
Proof.
  intros HT HC. apply table_holds in HT. unfold prepare_nbr_cnt.
  edestruct (assign3_holds _ _ _ _ "fss" "fbs" "fss" "total" over_complement (field "fbs") (field "fss")
    (field "total") (fun e => omul (reference "fbs" "fss" e) (field "total" e)) HT) as (d1 & c1 & E1 & H1);
    [reflexivity|reflexivity|reflexivity| |].
  { intros e Ie. apply op_over. intros q s Q1 Q2. exact (HC e q s Ie Q1 Q2). }
  rewrite E1. cbn [bind].
  edestruct (assign3_holds _ _ _ _ "fbs" "fbs" "fbs" "total" times_third (field "fbs") (field "fbs")
    (field "total") (fun e => omul (field "fbs" e) (field "total" e)) H1) as (d2 & c2 & E2 & H2);
    [reflexivity|reflexivity|reflexivity|intros; apply op_times_third|]. rewrite E2. cbn [bind].
  edestruct (assign3_holds _ _ _ _ "f_rate" "f_rate" "f_rate" "total" times_third (field "f_rate") (field "f_rate")
    (field "total") (fun e => omul (field "f_rate" e) (field "total" e)) H2) as (d3 & c3 & E3 & H3);
    [reflexivity|reflexivity|reflexivity|intros; apply op_times_third|]. rewrite E3.
  exists d3, c3. split; [reflexivity|exact H3].
Qed.

(** Values under a prepared neighbourhood table. *)
Lemma nbr_values data columns es : Table nbr_fields columns es data -> ConsistentSkill "fbs" "fss" es ->
  let o := oratio (sum_present (map (field "o_rate") es)) (sum_present (map (field "total") es)) in
  let f := by_total (field "f_rate") es in
  (exists r, aggregated_nbr_cnt calculate_nbr_fbs data columns = Ok r /\ Published (by_total (field "fbs") es) r) /\
  (exists r, aggregated_nbr_cnt calculate_nbr_f_rate data columns = Ok r /\ Published f r) /\
  (exists r, aggregated_nbr_cnt calculate_nbr_fss data columns = Ok r /\
     Published (osub (Some 1) (oratio (by_total (field "fbs") es) (by_total (reference "fbs" "fss") es))) r) /\
  (exists r, aggregated_nbr_cnt calculate_nbr_o_rate data columns = Ok r /\ Published o r) /\
  (exists r, aggregated_nbr_cnt calculate_nbr_ufss data columns = Ok r /\
     Published (oadd (Some (1 # 2)) (oratio o (Some 2))) r) /\
  (exists r, aggregated_nbr_cnt calculate_nbr_afss data columns = Ok r /\
     Published (oratio (omul (omul (Some 2) f) o) (oadd (omul f f) (omul o o))) r).
Proof.
  intros HT HC o f. destruct (nbr_prepared _ _ _ HT HC) as (d & cs & E & H). unfold aggregated_nbr_cnt. rewrite E.
  cbn [bind fst snd].
  split; [|split; [|split; [|split; [|split]]]].
  - exact (mean_published _ _ _ _ H eq_refl "fbs" _ eq_refl).
  - exact (mean_published _ _ _ _ H eq_refl "f_rate" _ eq_refl).
  - exact (proj2 (skill_published _ _ _ _ H eq_refl "fbs" "fss" _ _ true eq_refl eq_refl)).
  - exact (mean_published _ _ _ _ H eq_refl "o_rate" _ eq_refl).
  - exact (ufss_published _ _ _ _ H eq_refl _ eq_refl).
  - exact (afss_published _ _ _ _ H eq_refl _ _ eq_refl eq_refl).
Qed.

(** Sums. *)
Lemma tsum_nonneg g es s : (forall e q, In e es -> g e = Some q -> 0 <= q) -> tsum g es = Some s -> 0 <= s.
Proof.
  unfold tsum. revert s. induction es as [|e es IH]; intros s K; [discriminate|]. cbn [map sum_present].
  assert (IH' := fun s => IH s (fun x q Hx => K x q (or_intror Hx))).
  pose proof (K e) as Ke. destruct (g e) as [q|].
  - specialize (Ke q (or_introl eq_refl) eq_refl). destruct (sum_present (map g es)) as [t|].
    + intro E. injection E as <-. specialize (IH' t eq_refl). qlra.
    + intro E. injection E as <-. exact Ke.
  - apply IH'.
Qed.
Lemma oratio_nonneg a b v : (forall x, a = Some x -> 0 <= x) -> (forall y, b = Some y -> 0 <= y) ->
  oratio a b = Some v -> 0 <= v.
Proof.
  destruct a as [x|], b as [y|]; try discriminate. simpl. intros A B. destruct (Qeq_dec y 0) as [K|K]; [discriminate|].
  intro E. injection E as <-. specialize (A x eq_refl). specialize (B y eq_refl).
  apply Qle_shift_div_l; [destruct (Qle_lt_or_eq _ _ B) as [L|L]; [exact L|symmetry in L; contradiction]|]. qlra.
Qed.
Lemma omul_nonneg a b v : (forall x, a = Some x -> 0 <= x) -> (forall y, b = Some y -> 0 <= y) ->
  omul a b = Some v -> 0 <= v.
Proof.
  destruct a as [x|], b as [y|]; try discriminate. simpl. intros A B E. injection E as <-.
  apply Qmult_le_0_compat; auto.
Qed.
Lemma by_total_nonneg value es v :
  (forall e q, In e es -> value e = Some q -> 0 <= q) -> (forall e q, In e es -> e "total" = Some q -> 0 <= q) ->
  by_total value es = Some v -> 0 <= v.
Proof.
  intros V N. unfold by_total, weighted_mean. apply oratio_nonneg.
  - intros x. apply (tsum_nonneg (fun e => omul (value e) (field "total" e))). intros e q Ie.
    apply omul_nonneg; intros; [eapply V|eapply N]; eassumption.
  - intros x. apply (tsum_nonneg (field "total")). exact N.
Qed.

Lemma weighted_bounds (w v : line -> option Q) es lo hi :
  (forall e, In e es -> exists n x, w e = Some n /\ v e = Some x /\ 0 <= n /\ lo <= x <= hi) ->
  es = [] \/ exists S N, weighted_sum w v es = Some S /\ sum_present (map w es) = Some N /\
    lo * N <= S <= hi * N /\ 0 <= N /\ ((exists e n, In e es /\ w e = Some n /\ 0 < n) -> 0 < N).
Proof.
  unfold weighted_sum. induction es as [|e es IH]; intro K; [left; reflexivity|right].
  destruct (K e (or_introl eq_refl)) as (n & x & Ew & Ev & Hn & Hx).
  assert (B1 : lo * n <= x * n) by (apply Qmult_le_compat_r; tauto).
  assert (B2 : x * n <= hi * n) by (apply Qmult_le_compat_r; tauto).
  cbn [map sum_present]. rewrite Ew, Ev. cbn [omul].
  destruct (IH (fun y Hy => K y (or_intror Hy))) as [->|(S & N & ES & EN & B & HN & P)].
  - simpl. exists (x * n), n. split; [reflexivity|]. split; [reflexivity|]. split; [tauto|]. split; [exact Hn|].
    intros (e' & n' & [<-|[]] & E' & L). rewrite Ew in E'. injection E' as <-. exact L.
  - rewrite ES, EN. exists (x * n + S), (n + N). split; [reflexivity|]. split; [reflexivity|].
    split; [split; qlra|]. split; [qlra|]. intros (e' & n' & [<-|I'] & E' & L).
    + rewrite Ew in E'. injection E' as <-. qlra.
    + assert (0 < N) by (apply P; eauto). qlra.
Qed.

(** Groups of neighbourhoods. *)
Lemma pooled_mean (g : fractions -> Q) (v : line -> option Q) groups es :
  es <> [] ->
  Forall2 (fun l e => l <> [] /\ oeq (e "total") (Some (count l)) /\ oeq (v e) (Some (mean_of g l))) groups es ->
  oeq (by_total v es) (Some (mean_of g (concat groups))).
Proof.
  intros N F.
  assert (K : es = [] \/ (exists S M, weighted_sum (field "total") v es = Some S /\
      sum_present (map (field "total") es) = Some M /\ S == total_of g (concat groups) /\ M == count (concat groups)
      /\ 0 < M)).
  { clear N. induction F as [|l e groups es (L & T & V) F IH]; [left; reflexivity|right].
    unfold weighted_sum in *. cbn [map sum_present concat]. unfold field at 1 3.
    destruct (e "total") as [n|] eqn:En; [|contradiction]. destruct (v e) as [x|]; [|contradiction].
    simpl in T, V. cbn [omul]. pose proof (count_pos l L) as P.
    assert (W : x * n == total_of g l) by (rewrite T, V; apply mean_times_count; exact L).
    destruct IH as [->|(S & M & ES & EM & HS & HM & PM)].
    - inversion F; subst. simpl. exists (x * n), n. split; [reflexivity|]. split; [unfold field; now rewrite En|].
      rewrite app_nil_r. split; [exact W|]. split; [exact T|]. rewrite T. exact P.
    - rewrite ES, EM. unfold field. rewrite En. exists (x * n + S), (n + M). split; [reflexivity|]. split; [reflexivity|].
      unfold total_of, count in *. rewrite map_app, qsum_app, app_length, Nat2Z.inj_add, inject_Z_plus.
      split; [qlra|]. split; [qlra|]. qlra. }
  destruct K as [->|(S & M & ES & EM & HS & HM & PM)]; [congruence|].
  unfold by_total, weighted_mean. rewrite ES, EM. cbn [oratio]. destruct (Qeq_dec M 0) as [Z|Z]; [exfalso; qlra|].
  simpl. unfold mean_of. now rewrite HS, HM.
Qed.

Lemma mean_mono {A} (g h : A -> Q) l : l <> [] -> (forall x, In x l -> g x <= h x) -> mean_of g l <= mean_of h l.
Proof.
  intros L K. assert (0 <= mean_of (fun x => h x - g x) l) as P.
  { apply mean_nonneg; [exact L|]. intros x I. specialize (K x I). qlra. }
  rewrite mean_minus in P. qlra.
Qed.

Lemma fbs_nonneg l : l <> [] -> 0 <= fbs_of l.
Proof. intro L. apply mean_nonneg; [exact L|]. intros. apply Qsq_nonneg. Qed.
Lemma fbs_le_2worst l : l <> [] -> fbs_of l <= 2 * fbs_worst l.
Proof.
  intro L. unfold fbs_worst. rewrite <- mean_scale. apply mean_mono; [exact L|]. intros [f o] _. simpl.
  pose proof (Qsq_nonneg (f + o)). qlra.
Qed.
Lemma worst_nonneg l : l <> [] -> 0 <= fbs_worst l.
Proof.
  intro L. apply mean_nonneg; [exact L|]. intros [f o] _. simpl. pose proof (Qsq_nonneg f). pose proof (Qsq_nonneg o). qlra.
Qed.

Lemma nbr_consistent groups es : Forall2 NbrLine groups es -> ConsistentSkill "fbs" "fss" es.
Proof.
  intros F e q s Ie. induction F as [|l e' groups es H F IH]; [destruct Ie|]. destruct Ie as [->|Ie]; [|exact (IH Ie)].
  destruct H as (L & _ & B & S & _). intros Eq Es Q1. rewrite Eq in S. rewrite Es in B. simpl in B.
  unfold fss_of in S. cbn [oratio] in S. destruct (Qeq_dec (fbs_worst l) 0) as [Z|Z]; [contradiction|].
  cbn [osub oeq] in S. rewrite B.
  assert (D : fbs_of l / fbs_worst l == 0) by qlra.
  setoid_replace (fbs_of l) with (fbs_of l / fbs_worst l * fbs_worst l) by (field; exact Z). rewrite D. ring.
Qed.

Lemma nbr_reference l e : NbrLine l e -> ~ fbs_of l == 0 -> oeq (reference "fbs" "fss" e) (Some (fbs_worst l)).
Proof.
  intros (L & _ & B & S & _) NZ. unfold reference.
  assert (Z : ~ fbs_worst l == 0).
  { intro K. apply NZ. pose proof (fbs_nonneg l L). pose proof (fbs_le_2worst l L). qlra. }
  unfold fss_of in S. cbn [oratio] in S. destruct (Qeq_dec (fbs_worst l) 0) as [K|_]; [contradiction|].
  cbn [osub] in S. eapply oeq_trans.
  - apply oratio_compat; [exact B|]. destruct (e "fss") as [q|]; [|contradiction]. simpl in S.
    instantiate (1 := Some (fbs_of l / fbs_worst l)). simpl. rewrite S. ring.
  - cbn [oratio]. destruct (Qeq_dec (fbs_of l / fbs_worst l) 0) as [K|K].
    + exfalso. apply NZ. setoid_replace (fbs_of l) with (fbs_of l / fbs_worst l * fbs_worst l) by (field; exact Z).
      rewrite K. ring.
    + simpl. field. split; [exact Z|]. exact NZ.
Qed.

Lemma table_ne fields columns es data : Table fields columns es data -> es <> [].
Proof. intros [N _]. exact N. Qed.

(** Gradients. *)
Lemma percent_mom {A} data columns (l : list A) names n num den g h :
  Mom data columns true l names n -> In (num, g) names -> In (den, h) names ->
  exists r, percent_ratio data columns true num den = Ok r /\
    Published (oratio (Some (100 * mean_of g l)) (Some (mean_of h l))) r.
Proof.
  intros HM H1 H2. unfold percent_ratio, with_total, column_mean.
  rewrite (mom_get_total _ _ _ _ _ _ HM). cbn [bind].
  destruct (mom_mean _ _ _ _ _ _ HM _ _ H1) as (a & Ea & Ha). destruct (mom_mean _ _ _ _ _ _ HM _ _ H2) as (b & Eb & Hb).
  rewrite Ea. cbn [bind]. rewrite Eb. cbn [bind]. apply val_publish. apply val_npdiv.
  - apply (val_mult _ _ (Some 100) (Some (mean_of g l))); [apply val_lit|apply val_ok; exact Ha].
  - apply val_ok. exact Hb.
Qed.

Lemma total_zero_each {A} (g : A -> Q) l : (forall x, In x l -> 0 <= g x) -> total_of g l == 0 ->
  forall x, In x l -> g x == 0.
Proof.
  unfold total_of. induction l as [|y l IH]; intros P Z x Ix; [destruct Ix|]. simpl in Z.
  pose proof (P y (or_introl eq_refl)) as Py.
  assert (0 <= qsum (map g l)) by (apply (total_nonneg g); intros; apply P; right; assumption).
  destruct Ix as [<-|Ix]; [qlra|]. apply IH; [intros; apply P; right; assumption|qlra|exact Ix].
Qed.

Lemma nearest_self d w : MultipleOf d w -> Nearest d w w.
Proof. intro M. pose proof (half_unit_pos d). split; [exact M|]. split; qlra. Qed.

Ltac agrad HS v := eapply (agg_intro grad_fields (fun _ r => Published v r));
  [reflexivity|reflexivity|reflexivity|reflexivity|exact HS|];
  let d := fresh "d" in let n := fresh "n" in let HM := fresh "HM" in intros d n HM.

(** The statements of PropertiesEns.v. *)
Lemma C36_weighted_means_proof : forall es data columns,
  Table ecnt_fields columns es data ->
  Forall (fun '(name, stat, column) =>
      exists r, aggregated_ecnt name stat data columns = Ok r /\ Published (by_total (field column) es) r)
  [("ecnt_crps", calculate_ecnt_crps, "crps"); ("ecnt_crpscl", calculate_ecnt_crpscl, "crpscl");
   ("ecnt_crps_emp", calculate_ecnt_crps_emp, "crps_emp");
   ("ecnt_crps_emp_fair", calculate_ecnt_crps_emp_fair, "crps_emp_fair");
   ("ecnt_spread_md", calculate_ecnt_spread_md, "spread_md");
   ("ecnt_crpscl_emp", calculate_ecnt_crpscl_emp, "crpscl_emp"); ("ecnt_ign", calculate_ecnt_ign, "ign");
   ("ecnt_me", calculate_ecnt_me, "me"); ("ecnt_mae", calculate_ecnt_mae, "mae");
   ("ecnt_mae_oerr", calculate_ecnt_mae_oerr, "mae_oerr"); ("ecnt_me_oerr", calculate_ecnt_me_oerr, "me_oerr")].
Proof.
  intros es data columns HT. each; (prep HT; scale H; cbn [ecnt_scale bind fst snd];
    unfold calculate_ecnt_crps, calculate_ecnt_crpscl, calculate_ecnt_crps_emp, calculate_ecnt_crps_emp_fair,
      calculate_ecnt_spread_md, calculate_ecnt_crpscl_emp, calculate_ecnt_ign, calculate_ecnt_me, calculate_ecnt_mae,
      calculate_ecnt_mae_oerr, calculate_ecnt_me_oerr, weighted_average;
    match goal with |- context [mean_stat _ _ _ ?n] => exact (mean_published _ _ _ _ H eq_refl n _ eq_refl) end).
Qed.

Lemma C36_skill_proof : forall es data columns,
  Table ecnt_fields columns es data ->
  (exists r, aggregated_ecnt "ecnt_crpss" calculate_ecnt_crpss data columns = Ok r /\
     Published (osub (Some 1) (oratio (by_total (field "crps") es) (by_total (field "crpscl") es))) r) /\
  (exists r, aggregated_ecnt "ecnt_crpss_emp" calculate_ecnt_crpss_emp data columns = Ok r /\
     Published (osub (Some 1) (oratio (by_total (field "crps_emp") es) (by_total (field "crpscl_emp") es))) r).
Proof.
  intros es data columns HT. split.
  - prep HT. scale H. scale H. cbn [ecnt_scale bind fst snd].
    exact (proj2 (skill_published _ _ _ _ H eq_refl "crps" "crpscl" _ _ true eq_refl eq_refl)).
  - prep HT. scale H. scale H. cbn [ecnt_scale bind fst snd].
    exact (proj1 (skill_published _ _ _ _ H eq_refl "crps_emp" "crpscl_emp" _ _ true eq_refl eq_refl)).
Qed.

Lemma C36_roots_proof : forall es data columns,
  Table ecnt_fields columns es data ->
  Forall (fun '(name, stat, column) =>
      exists r, aggregated_ecnt name stat data columns = Ok r /\ RootPublished (by_total (square_of column) es) r)
  [("ecnt_rmse", calculate_ecnt_rmse, "rmse"); ("ecnt_spread", calculate_ecnt_spread, "spread");
   ("ecnt_rmse_oerr", calculate_ecnt_rmse_oerr, "rmse_oerr");
   ("ecnt_spread_oerr", calculate_ecnt_spread_oerr, "spread_oerr")].
Proof.
  intros es data columns HT. each; (prep HT; try scale H; cbn [ecnt_scale bind fst snd];
    unfold calculate_ecnt_rmse, calculate_ecnt_spread, calculate_ecnt_rmse_oerr, calculate_ecnt_spread_oerr;
    match goal with |- context [root_stat _ _ _ ?n] => exact (root_published _ _ _ _ H eq_refl n _ eq_refl) end).
Qed.

Lemma C36_spread_plus_oerr_actual_proof : forall es data columns,
  Table ecnt_fields columns es data ->
  exists r, aggregated_ecnt "ecnt_spread_plus_oerr" calculate_ecnt_spread_plus_oerr data columns = Ok r /\
    RootPublished (by_total (square_of "spread_oerr") es) r.
Proof.
  intros es data columns HT. prep HT. scale H. cbn [ecnt_scale bind fst snd].
  exact (root_published _ _ _ _ H eq_refl "variance_plus_oerr" _ eq_refl).
Qed.

Lemma C36_spread_plus_oerr_refuted_proof :
  ~ (forall es data columns r, Table ecnt_fields columns es data ->
       aggregated_ecnt "ecnt_spread_plus_oerr" calculate_ecnt_spread_plus_oerr data columns = Ok r ->
       RootPublished (by_total (square_of "spread_plus_oerr") es) r).
Proof.
  intro K.
  pose (e := fun n : string => if String.eqb n "spread_oerr" then Some 0 else Some 1 : option Q).
  assert (HT : Table ecnt_fields ecnt_fields [e] [map (fun n => if String.eqb n "spread_oerr" then CNum 0 else CNum 1) ecnt_fields]).
  { split; [discriminate|]. constructor; [|constructor]. split; [reflexivity|]. intros name I. simpl in I.
    repeat (destruct I as [<-|I]; [eexists; split; [apply index_of_ColumnAt; reflexivity|reflexivity]|]). destruct I. }
  destruct (C36_spread_plus_oerr_actual_proof _ _ _ HT) as (r & E & R).
  specialize (K _ _ _ _ HT E).
  assert (B0 : by_total (square_of "spread_oerr") [e] = Some (0 * 0 * 1 / 1)) by reflexivity.
  assert (B1 : by_total (square_of "spread_plus_oerr") [e] = Some (1 * 1 * 1 / 1)) by reflexivity.
  rewrite B0 in R. rewrite B1 in K. clear -R K. destruct R as (m & Nm & _ & R), K as (m' & Nm' & _ & K).
  assert (M : m == 0).
  { apply (nearest_unique 7 0); [apply (nearest_compat 7 (0 * 0 * 1 / 1)); [reflexivity|exact Nm]|].
    apply nearest_self, multiple_0. }
  assert (M' : m' == 1).
  { apply (nearest_unique 7 1); [apply (nearest_compat 7 (1 * 1 * 1 / 1)); [reflexivity|exact Nm']|].
    apply nearest_self, multiple_1. }
  assert (P : 0 <= m) by qlra. assert (P' : 0 <= m') by qlra. specialize (R P). specialize (K P').
  destruct r as [w|]; [|contradiction]. simpl in R, K.
  rewrite (Q2R_eq _ _ M) in R. rewrite (Q2R_eq _ _ M') in K. rewrite RMicromega.Q2R_0 in R. rewrite RMicromega.Q2R_1 in K.
  rewrite sqrt_0 in R. rewrite sqrt_1 in K. destruct R as (_ & R & _), K as (_ & _ & K).
  assert (HU : (Q2R (half_unit 7) < 1 / 4)%R).
  { replace (1 / 4)%R with (Q2R (1 # 4)) by (unfold Q2R; simpl; rlra). apply Qlt_Rlt. reflexivity. }
  rlra.
Qed.

Lemma C36_conditional_proof : forall es data columns,
  Table ecnt_fields columns es data ->
  (exists r, aggregated_ecnt "ecnt_n_ge_obs" (fun d c _ => calculate_ecnt_n_ge_obs d c) data columns = Ok r /\
     Published (sum_present (map (field "n_ge_obs") es)) r) /\
  (exists r, aggregated_ecnt "ecnt_n_lt_obs" (fun d c _ => calculate_ecnt_n_lt_obs d c) data columns = Ok r /\
     Published (sum_present (map (field "n_lt_obs") es)) r) /\
  (exists r, aggregated_ecnt "ecnt_me_ge_obs" (fun d c _ => calculate_ecnt_me_ge_obs d c) data columns = Ok r /\
     Published (weighted_mean (field "n_ge_obs") (field "me_ge_obs") es) r) /\
  (exists r, aggregated_ecnt "ecnt_me_lt_obs" (fun d c _ => calculate_ecnt_me_lt_obs d c) data columns = Ok r /\
     Published (weighted_mean (field "n_lt_obs") (field "me_lt_obs") es) r) /\
  (exists ge lt r,
     Published (weighted_mean (field "n_ge_obs") (field "me_ge_obs") es) ge /\
     Published (weighted_mean (field "n_lt_obs") (field "me_lt_obs") es) lt /\
     aggregated_ecnt "ecnt_bias_ratio" (fun d c _ => calculate_ecnt_bias_ratio d c) data columns = Ok r /\
     Published (oratio ge (oabs lt)) r).
Proof.
  intros es data columns HT. split; [|split; [|split; [|split]]].
  - prep HT. cbn [ecnt_scale bind fst snd]. exact (sum_published _ _ _ _ H "n_ge_obs" _ eq_refl).
  - prep HT. cbn [ecnt_scale bind fst snd]. exact (sum_published _ _ _ _ H "n_lt_obs" _ eq_refl).
  - prep HT. scale H. cbn [ecnt_scale bind fst snd]. exact (conditional_published _ _ _ _ H "n_ge_obs" "me_ge_obs" _ _ eq_refl eq_refl).
  - prep HT. scale H. cbn [ecnt_scale bind fst snd]. exact (conditional_published _ _ _ _ H "n_lt_obs" "me_lt_obs" _ _ eq_refl eq_refl).
  - prep HT. scale H. scale H. cbn [ecnt_scale bind fst snd].
    exact (bias_ratio_published _ _ _ _ H _ _ _ _ eq_refl eq_refl eq_refl eq_refl).
Qed.

Lemma C36_within_proof : forall w v es lo hi,
  (forall e, In e es -> exists n x, w e = Some n /\ v e = Some x /\ 0 <= n /\ lo <= x <= hi) ->
  (exists e n, In e es /\ w e = Some n /\ 0 < n) ->
  exists m, weighted_mean w v es = Some m /\ lo <= m <= hi.
Proof.
  intros w v es lo hi K P. destruct (weighted_bounds w v es lo hi K) as [->|(S & N & ES & EN & B & HN & L)].
  - destruct P as (e & n & [] & _).
  - unfold weighted_mean. rewrite ES, EN. specialize (L P). cbn [oratio]. destruct (Qeq_dec N 0) as [Z|Z]; [exfalso; qlra|].
    eexists. split; [reflexivity|]. split; [apply Qle_shift_div_l|apply Qle_shift_div_r]; tauto.
Qed.

Lemma C36_published_within_proof : forall es data columns lo hi,
  Table ecnt_fields columns es data ->
  (forall e, In e es -> exists n x, e "total" = Some n /\ e "crps" = Some x /\ 0 <= n /\ lo <= x <= hi) ->
  (exists e n, In e es /\ e "total" = Some n /\ 0 < n) ->
  MultipleOf 7 lo -> MultipleOf 7 hi ->
  exists r, aggregated_ecnt "ecnt_crps" calculate_ecnt_crps data columns = Ok (Some r) /\ lo <= r <= hi.
Proof.
  intros es data columns lo hi HT K P Ml Mh.
  assert (W := C36_weighted_means_proof es data columns HT). rewrite !Forall_cons_iff in W. destruct W as [(r & E & R) _].
  destruct (C36_within_proof (field "total") (field "crps") es lo hi K P) as (m & Em & B).
  unfold by_total in R. rewrite Em in R. destruct r as [r|]; [|contradiction]. exists r. split; [exact E|].
  eapply published_range; eassumption.
Qed.

Lemma C36_missing_ignored_refuted_proof :
  ~ (forall es data columns r, Table ecnt_fields columns es data ->
       aggregated_ecnt "ecnt_crps" calculate_ecnt_crps data columns = Ok r ->
       Published (by_total (field "crps")
         (filter (fun e => match e "crps" with Some _ => true | None => false end) es)) r).
Proof.
  intro K.
  pose (e1 := fun n : string => if String.eqb n "crps" then None else Some 1 : option Q).
  pose (e2 := fun n : string => Some 1 : option Q).
  assert (HT : Table ecnt_fields ecnt_fields [e1; e2]
     [map (fun n => if String.eqb n "crps" then CMiss else CNum 1) ecnt_fields; map (fun n => CNum 1) ecnt_fields]).
  { split; [discriminate|]. constructor; [|constructor; [|constructor]]; (split; [reflexivity|]); intros name I; simpl in I;
    repeat (destruct I as [<-|I]; [eexists; split; [apply index_of_ColumnAt; reflexivity|reflexivity]|]); destruct I. }
  assert (W := C36_weighted_means_proof _ _ _ HT). rewrite !Forall_cons_iff in W. destruct W as [(r & E & R) _].
  specialize (K _ _ _ _ HT E). simpl filter in K.
  assert (B0 : by_total (field "crps") [e1; e2] = Some (1 * 1 / (1 + 1))) by reflexivity.
  assert (B1 : by_total (field "crps") [e2] = Some (1 * 1 / 1)) by reflexivity.
  rewrite B0 in R. rewrite B1 in K. destruct r as [w|]; [|contradiction]. destruct R as (_ & R & _), K as (_ & _ & K).
  assert (C : 1 * 1 / 1 - half_unit 7 < 1 * 1 / (1 + 1) + half_unit 7) by (eapply Qlt_le_trans; eassumption).
  revert C. vm_compute. discriminate.
Qed.

Lemma C36_rps_proof : forall es data columns,
  Table rps_fields columns es data -> ConsistentSkill "rps" "rpss" es ->
  (exists r, aggregated_rps calculate_rps data columns = Ok r /\ Published (by_total (field "rps") es) r) /\
  (exists r, aggregated_rps calculate_rps_comp data columns = Ok r /\ Published (by_total (field "rps_comp") es) r) /\
  (exists r, aggregated_rps calculate_rpss data columns = Ok r /\
     Published (osub (Some 1) (oratio (by_total (field "rps") es) (by_total (reference "rps" "rpss") es))) r).
Proof.
  intros es data columns HT HC. destruct (rps_prepared _ _ _ HT HC) as (d & cs & E & H). unfold aggregated_rps. rewrite E.
  cbn [bind fst snd]. split; [|split].
  - exact (mean_published _ _ _ _ H eq_refl "rps" _ eq_refl).
  - exact (mean_published _ _ _ _ H eq_refl "rps_comp" _ eq_refl).
  - exact (proj1 (skill_published _ _ _ _ H eq_refl "rps" "rps_climo" _ _ true eq_refl eq_refl)).
Qed.

Lemma C36_case_proof :
  Table ecnt_fields ecnt_fields (two_lines 3 5) [map (fun _ => CNum 3) ecnt_fields;
    map (fun n => if String.eqb n "ign" then CMiss else CNum 5) ecnt_fields] /\
  Table rps_fields rps_fields (two_lines 3 5) [map (fun _ => CNum 3) rps_fields; map (fun _ => CNum 5) rps_fields] /\
  ConsistentSkill "rps" "rpss" (two_lines 3 5) /\
  by_total (field "crps") (two_lines 3 5) = Some ((3 * 3 + 5 * 5) / (3 + 5)).
Proof.
  split; [|split; [|split; [|reflexivity]]].
  - split; [discriminate|]. constructor; [|constructor; [|constructor]]; (split; [reflexivity|]); intros name I; simpl in I;
    repeat (destruct I as [<-|I]; [eexists; split; [apply index_of_ColumnAt; reflexivity|reflexivity]|]); destruct I.
  - split; [discriminate|]. constructor; [|constructor; [|constructor]]; (split; [reflexivity|]); intros name I; simpl in I;
    repeat (destruct I as [<-|I]; [eexists; split; [apply index_of_ColumnAt; reflexivity|reflexivity]|]); destruct I.
  - intros e q s [<-|[<-|[]]] E1 E2 Q1; simpl in E1; injection E1 as <-; discriminate Q1.
Qed.

Lemma C28_pooling_proof : forall groups es data columns,
  Table nbr_fields columns es data -> Forall2 NbrLine groups es ->
  (forall b, In b groups -> ~ fbs_of b == 0) ->
  (exists r, aggregated_nbr_cnt calculate_nbr_fbs data columns = Ok r /\
     Published (Some (fbs_of (concat groups))) r) /\
  (exists r, aggregated_nbr_cnt calculate_nbr_f_rate data columns = Ok r /\
     Published (Some (f_rate_of (concat groups))) r) /\
  (exists r, aggregated_nbr_cnt calculate_nbr_fss data columns = Ok r /\ Published (fss_of (concat groups)) r).
Proof.
  intros groups es data columns HT HF NZ. pose proof (nbr_consistent _ _ HF) as HC. pose proof (table_ne _ _ _ _ HT) as NE.
  destruct (nbr_values _ _ _ HT HC) as ((r1 & E1 & R1) & (r2 & E2 & R2) & (r3 & E3 & R3) & _).
  assert (O1 : oeq (by_total (field "fbs") es) (Some (fbs_of (concat groups)))).
  { apply pooled_mean; [exact NE|]. eapply f2_impl; [|exact HF]. intros l e (A & B & C & _). auto. }
  assert (O2 : oeq (by_total (field "f_rate") es) (Some (f_rate_of (concat groups)))).
  { apply pooled_mean; [exact NE|]. eapply f2_impl; [|exact HF]. intros l e (A & B & C & _ & D & _). auto. }
  assert (O3 : oeq (by_total (reference "fbs" "fss") es) (Some (fbs_worst (concat groups)))).
  { apply pooled_mean; [exact NE|]. clear -HF NZ. induction HF as [|l e groups es H F IH]; constructor.
    - pose proof H as (A & B & _). split; [exact A|]. split; [exact B|]. apply nbr_reference; [exact H|].
      apply NZ. left. reflexivity.
    - apply IH. intros b Ib. apply NZ. right. exact Ib. }
  split; [|split].
  - exists r1. split; [exact E1|]. eapply published_compat; [exact O1|exact R1].
  - exists r2. split; [exact E2|]. eapply published_compat; [exact O2|exact R2].
  - exists r3. split; [exact E3|]. eapply published_compat; [|exact R3]. unfold fss_of.
    pose proof (oratio_compat _ _ _ _ O1 O3) as O4. destruct (oratio (by_total (field "fbs") es) (by_total (reference "fbs" "fss") es)) as [x|],
      (oratio (Some (fbs_of (concat groups))) (Some (fbs_worst (concat groups)))) as [y|]; try contradiction; simpl in *; [|exact I].
    now rewrite O4.
Qed.

Lemma C28_fss_range_proof : forall l v,
  (forall p, In p l -> 0 <= fst p /\ 0 <= snd p) -> fss_of l = Some v -> 0 <= v <= 1.
Proof.
  intros l v P. unfold fss_of. cbn [oratio]. destruct (Qeq_dec (fbs_worst l) 0) as [Z|Z]; [discriminate|].
  cbn [osub]. intro E. injection E as <-.
  assert (L : l <> []) by (intros ->; apply Z; reflexivity).
  pose proof (fbs_nonneg l L) as A. pose proof (worst_nonneg l L) as B.
  assert (C : fbs_of l <= fbs_worst l).
  { apply mean_mono; [exact L|]. intros [f o] Ip. destruct (P _ Ip) as [Pf Po]. simpl in *.
    pose proof (Qmult_le_0_compat _ _ Pf Po). qlra. }
  assert (W : 0 < fbs_worst l) by (destruct (Qle_lt_or_eq _ _ B) as [Y|Y]; [exact Y|symmetry in Y; contradiction]).
  assert (R1 : 0 <= fbs_of l / fbs_worst l) by (apply Qle_shift_div_l; [exact W|]; qlra).
  assert (R2 : fbs_of l / fbs_worst l <= 1) by (apply Qle_shift_div_r; [exact W|]; qlra).
  split; qlra.
Qed.

Lemma C28_perfect_line_refuted_proof :
  ~ (forall groups es data columns r,
       Table nbr_fields columns es data -> Forall2 NbrLine groups es ->
       aggregated_nbr_cnt calculate_nbr_fss data columns = Ok r -> Published (fss_of (concat groups)) r).
Proof.
  intro K. pose (groups := [[(1, 1)]; [(1, 0)]] : list (list fractions)).
  specialize (K groups (map nbr_line groups) (map nbr_row (map nbr_line groups)) nbr_fields).
  assert (HT : Table nbr_fields nbr_fields (map nbr_line groups) (map nbr_row (map nbr_line groups))).
  { split; [discriminate|]. constructor; [|constructor; [|constructor]]; (split; [reflexivity|]); intros name I; simpl in I;
    repeat (destruct I as [<-|I]; [eexists; split; [apply index_of_ColumnAt; reflexivity|reflexivity]|]); destruct I. }
  assert (HF : Forall2 NbrLine groups (map nbr_line groups)).
  { constructor; [|constructor; [|constructor]]; (split; [discriminate|]); repeat match goal with |- _ /\ _ => split end; vm_compute; reflexivity. }
  pose proof (K (Some (0 # 10000000)) HT HF ltac:(vm_compute; reflexivity)) as R.
  assert (O : oeq (fss_of (concat groups)) (Some (2 # 3))) by (vm_compute; reflexivity).
  pose proof (published_compat _ _ _ O R) as (_ & _ & C). revert C. vm_compute. discriminate.
Qed.

Lemma C28_o_rate_pooling_refuted_proof :
  ~ (forall groups es data columns r,
       Table nbr_fields columns es data -> Forall2 NbrLine groups es ->
       aggregated_nbr_cnt calculate_nbr_o_rate data columns = Ok r ->
       Published (Some (o_rate_of (concat groups))) r) /\
  ~ (forall groups es data columns r,
       Table nbr_fields columns es data -> Forall2 NbrLine groups es ->
       aggregated_nbr_cnt calculate_nbr_ufss data columns = Ok r ->
       Published (Some ((1 # 2) + o_rate_of (concat groups) / 2)) r) /\
  ~ (forall groups es data columns r,
       Table nbr_fields columns es data -> Forall2 NbrLine groups es ->
       aggregated_nbr_cnt calculate_nbr_afss data columns = Ok r ->
       let f := f_rate_of (concat groups) in let o := o_rate_of (concat groups) in
       Published (oratio (Some (2 * f * o)) (Some (f * f + o * o))) r).
Proof.
  pose (groups := [[(1, 1); (1, 0)]] : list (list fractions)).
  assert (HT : Table nbr_fields nbr_fields (map nbr_line groups) (map nbr_row (map nbr_line groups))).
  { split; [discriminate|]. constructor; [|constructor]; (split; [reflexivity|]); intros name I; simpl in I;
    repeat (destruct I as [<-|I]; [eexists; split; [apply index_of_ColumnAt; reflexivity|reflexivity]|]); destruct I. }
  assert (HF : Forall2 NbrLine groups (map nbr_line groups)).
  { constructor; [|constructor]; (split; [discriminate|]); repeat match goal with |- _ /\ _ => split end; vm_compute; reflexivity. }
  assert (HC := nbr_consistent _ _ HF).
  destruct (nbr_values _ _ _ HT HC) as (_ & _ & _ & (r1 & E1 & R1) & (r2 & E2 & R2) & (r3 & E3 & R3)).
  split; [|split]; intro K.
  - specialize (K _ _ _ _ _ HT HF E1). destruct r1 as [w|]; [|exact K].
    assert (O : oeq (oratio (sum_present (map (field "o_rate") (map nbr_line groups))) (sum_present (map (field "total") (map nbr_line groups)))) (Some (1 # 4)))
      by (vm_compute; reflexivity).
    pose proof (published_compat _ _ _ O R1) as (_ & U & _). destruct K as (_ & _ & L).
    pose proof (Qlt_le_trans _ _ _ L U) as C. revert C. vm_compute. discriminate.
  - specialize (K _ _ _ _ _ HT HF E2). destruct r2 as [w|]; [|exact K].
    assert (O : oeq (oadd (Some (1 # 2)) (oratio (oratio (sum_present (map (field "o_rate") (map nbr_line groups))) (sum_present (map (field "total") (map nbr_line groups)))) (Some 2))) (Some (5 # 8)))
      by (vm_compute; reflexivity).
    pose proof (published_compat _ _ _ O R2) as (_ & U & _). destruct K as (_ & _ & L).
    pose proof (Qlt_le_trans _ _ _ L U) as C. revert C. vm_compute. discriminate.
  - specialize (K _ _ _ _ _ HT HF E3). cbv zeta in K.
    match type of R3 with Published ?x _ => assert (O : oeq x (Some (8 # 17))) by (vm_compute; reflexivity) end.
    match type of K with Published ?x _ => assert (O' : oeq x (Some (4 # 5))) by (vm_compute; reflexivity) end.
    pose proof (published_compat _ _ _ O R3) as R. pose proof (published_compat _ _ _ O' K) as K'. destruct r3 as [w|]; [|exact K'].
    destruct R as (_ & U & _). destruct K' as (_ & _ & L).
    pose proof (Qlt_le_trans _ _ _ L U) as C. revert C. vm_compute. discriminate.
Qed.

Lemma C28_o_rate_actual_proof : forall es data columns,
  Table nbr_fields columns es data -> ConsistentSkill "fbs" "fss" es ->
  let o := oratio (sum_present (map (field "o_rate") es)) (sum_present (map (field "total") es)) in
  let f := by_total (field "f_rate") es in
  (exists r, aggregated_nbr_cnt calculate_nbr_o_rate data columns = Ok r /\ Published o r) /\
  (exists r, aggregated_nbr_cnt calculate_nbr_ufss data columns = Ok r /\
     Published (oadd (Some (1 # 2)) (oratio o (Some 2))) r) /\
  (exists r, aggregated_nbr_cnt calculate_nbr_afss data columns = Ok r /\
     Published (oratio (omul (omul (Some 2) f) o) (oadd (omul f f) (omul o o))) r).
Proof.
  intros es data columns HT HC. destruct (nbr_values _ _ _ HT HC) as (_ & _ & _ & H). exact H.
Qed.

Lemma C28_ranges_proof : forall es data columns,
  Table nbr_fields columns es data -> ConsistentSkill "fbs" "fss" es ->
  (forall e name q, In e es -> In name ["total"; "fbs"; "f_rate"; "o_rate"] -> e name = Some q -> 0 <= q) ->
  (forall e q, In e es -> e "fss" = Some q -> q <= 1) ->
  (exists r, aggregated_nbr_cnt calculate_nbr_fss data columns = Ok r /\ forall v, r = Some v -> v <= 1) /\
  (exists r, aggregated_nbr_cnt calculate_nbr_afss data columns = Ok r /\ forall v, r = Some v -> 0 <= v <= 1) /\
  (exists r, aggregated_nbr_cnt calculate_nbr_ufss data columns = Ok r /\ forall v, r = Some v -> 1 # 2 <= v).
Proof.
  intros es data columns HT HC P PS. destruct (nbr_values _ _ _ HT HC) as (_ & _ & (r3 & E3 & R3) & _ & (r5 & E5 & R5) & (r6 & E6 & R6)).
  assert (PT : forall e q, In e es -> e "total" = Some q -> 0 <= q) by (intros e q Ie; apply P; [exact Ie|simpl; auto]).
  assert (PO : forall v, oratio (sum_present (map (field "o_rate") es)) (sum_present (map (field "total") es)) = Some v -> 0 <= v).
  { intro v. apply oratio_nonneg.
    - intro x. apply (tsum_nonneg (field "o_rate")). intros e q Ie. apply P; [exact Ie|simpl; auto].
    - intro x. apply (tsum_nonneg (field "total")). exact PT. }
  assert (PF : forall v, by_total (field "f_rate") es = Some v -> 0 <= v).
  { intro v. apply by_total_nonneg; [|exact PT]. intros e q Ie. apply P; [exact Ie|simpl; auto]. }
  assert (PB : forall v, by_total (field "fbs") es = Some v -> 0 <= v).
  { intro v. apply by_total_nonneg; [|exact PT]. intros e q Ie. apply P; [exact Ie|simpl; auto]. }
  assert (PR : forall v, by_total (reference "fbs" "fss") es = Some v -> 0 <= v).
  { intro v. apply by_total_nonneg; [|exact PT]. intros e q Ie. unfold reference. apply oratio_nonneg.
    - intro x. apply P; [exact Ie|simpl; auto].
    - intros y. destruct (e "fss") as [s|] eqn:Es; [|discriminate]. simpl. intro Y. injection Y as <-.
      pose proof (PS e s Ie Es). qlra. }
  split; [|split].
  - exists r3. split; [exact E3|]. intros v ->. destruct (oratio (by_total (field "fbs") es) (by_total (reference "fbs" "fss") es)) as [x|] eqn:X;
      [|contradiction]. assert (0 <= x) by (eapply oratio_nonneg; [exact PB|exact PR|exact X]).
    cbn [osub] in R3. assert (Nearest 7 (1 - x) v) as N by exact R3.
    pose proof (nearest_unique _ _ _ _ (rhu_nearest (1 - x) 7) N) as U. rewrite <- U.
    pose proof (rhu_mono (1 - x) 1 7 ltac:(qlra)). pose proof (rhu_fix 1 7 (multiple_1 7)). qlra.
  - exists r6. split; [exact E6|]. intros v ->.
    destruct (by_total (field "f_rate") es) as [f|]; [|contradiction].
    destruct (oratio (sum_present (map (field "o_rate") es)) (sum_present (map (field "total") es))) as [o|];
      [|simpl in R6; contradiction].
    cbn [omul oadd oratio] in R6. destruct (Qeq_dec (f * f + o * o) 0) as [Z|Z]; [contradiction|].
    apply (published_range 0 1 (2 * f * o / (f * f + o * o))); [apply multiple_0|apply multiple_1| |exact R6].
    assert (0 <= f) by (apply PF; reflexivity). assert (0 <= o) by (apply PO; reflexivity).
    pose proof (Qsq_nonneg f). pose proof (Qsq_nonneg o). pose proof (Qsq_nonneg (f - o)).
    assert (0 <= f * o) by (apply Qmult_le_0_compat; assumption).
    assert (0 < f * f + o * o).
    { destruct (Qle_lt_or_eq 0 (f * f + o * o)) as [Y|Y]; [qlra|exact Y|symmetry in Y; contradiction]. }
    split; [apply Qle_shift_div_l|apply Qle_shift_div_r]; try assumption; qlra.
  - exists r5. split; [exact E5|]. intros v ->.
    destruct (oratio (sum_present (map (field "o_rate") es)) (sum_present (map (field "total") es))) as [o|];
      [|simpl in R5; contradiction].
    assert (0 <= o) by (apply PO; reflexivity). cbn [oratio] in R5. destruct (Qeq_dec 2 0) as [Z|_]; [discriminate Z|].
    cbn [oadd] in R5. assert (Nearest 7 ((1 # 2) + o / 2) v) as N by exact R5.
    pose proof (nearest_unique _ _ _ _ (rhu_nearest _ 7) N) as U. rewrite <- U.
    assert (M : MultipleOf 7 (1 # 2)) by (exists 5000000%Z; reflexivity).
    assert (0 <= o / 2) by (apply Qle_shift_div_l; [reflexivity|]; qlra).
    pose proof (rhu_mono (1 # 2) ((1 # 2) + o / 2) 7 ltac:(qlra)). pose proof (rhu_fix (1 # 2) 7 M). qlra.
Qed.

Lemma C28_ufss_upper_proof : forall es data columns,
  Table nbr_fields columns es data -> ConsistentSkill "fbs" "fss" es ->
  (forall e, In e es -> exists n q, e "total" = Some n /\ e "o_rate" = Some q /\ 1 <= n /\ 0 <= q <= 1) ->
  exists v, aggregated_nbr_cnt calculate_nbr_ufss data columns = Ok (Some v) /\ 1 # 2 <= v <= 1.
Proof.
  intros es data columns HT HC K. destruct (nbr_values _ _ _ HT HC) as (_ & _ & _ & _ & (r5 & E5 & R5) & _).
  assert (NE := table_ne _ _ _ _ HT).
  assert (B : es = [] \/ exists S N, sum_present (map (field "o_rate") es) = Some S /\ sum_present (map (field "total") es) = Some N /\
      0 <= S <= N /\ 1 <= N).
  { clear -K. induction es as [|e es IH]; [left; reflexivity|right]. destruct (K e (or_introl eq_refl)) as (n & q & En & Eq & Hn & Hq).
    cbn [map sum_present]. unfold field at 1 3. rewrite Eq. unfold field at 2. rewrite En.
    destruct (IH (fun x Hx => K x (or_intror Hx))) as [->|(S & N & ES & EN & H1 & H2)].
    - exists q, n. simpl. split; [reflexivity|]. split; [reflexivity|]. split; [split; qlra|exact Hn].
    - rewrite ES, EN. exists (q + S), (n + N). split; [reflexivity|]. split; [reflexivity|]. split; [split; qlra|qlra]. }
  destruct B as [->|(S & N & ES & EN & H1 & H2)]; [congruence|]. rewrite ES, EN in R5. cbn [oratio] in R5.
  destruct (Qeq_dec N 0) as [Z|_]; [exfalso; qlra|]. destruct (Qeq_dec 2 0) as [Z|_]; [discriminate Z|]. cbn [oadd] in R5.
  destruct r5 as [v|]; [|contradiction]. exists v. split; [exact E5|].
  apply (published_range (1 # 2) 1 ((1 # 2) + S / N / 2)); [exists 5000000%Z; reflexivity|apply multiple_1| |exact R5].
  assert (0 <= S / N) by (apply Qle_shift_div_l; qlra). assert (S / N <= 1) by (apply Qle_shift_div_r; qlra).
  assert (S / N / 2 == S / N * (1 # 2)) as -> by (field; intro; qlra). split; qlra.
Qed.

Lemma C28_case_proof : let groups := [[(1 # 2, 1 # 4); (0, 1 # 2)]; [(1, 3 # 4)]] in
  Table nbr_fields nbr_fields (map nbr_line groups) (map nbr_row (map nbr_line groups)) /\
  Forall2 NbrLine groups (map nbr_line groups) /\ (forall b, In b groups -> ~ fbs_of b == 0) /\
  ConsistentSkill "fbs" "fss" (map nbr_line groups) /\
  (forall e, In e (map nbr_line groups) ->
     exists n q, e "total" = Some n /\ e "o_rate" = Some q /\ 1 <= n /\ 0 <= q <= 1) /\
  (forall e q, In e (map nbr_line groups) -> e "fss" = Some q -> q <= 1).
Proof.
  cbv zeta. split; [|split; [|split; [|split; [|split]]]].
  - split; [discriminate|]. constructor; [|constructor; [|constructor]]; (split; [reflexivity|]); intros name I; simpl in I;
    repeat (destruct I as [<-|I]; [eexists; split; [apply index_of_ColumnAt; reflexivity|reflexivity]|]); destruct I.
  - constructor; [|constructor; [|constructor]]; (split; [discriminate|]); repeat match goal with |- _ /\ _ => split end; vm_compute; reflexivity.
  - intros b [<-|[<-|[]]] Z; revert Z; vm_compute; discriminate.
  - eapply nbr_consistent. instantiate (1 := [[(1 # 2, 1 # 4); (0, 1 # 2)]; [(1, 3 # 4)]]). constructor; [|constructor; [|constructor]]; (split; [discriminate|]); repeat match goal with |- _ /\ _ => split end; vm_compute; reflexivity.
  - intros e [<-|[<-|[]]]; eexists; eexists; (split; [reflexivity|]); (split; [reflexivity|]); vm_compute; repeat split; discriminate.
  - intros e q [<-|[<-|[]]] E; vm_compute in E; injection E as <-; vm_compute; discriminate.
Qed.

Lemma C40_pooling_proof : forall groups data columns,
  Summaries grad_fields columns groups data ->
  let mean g := mean_of g (concat groups) in
  let f := mean (fun p => Qabs (fst p)) in let o := mean (fun p => Qabs (snd p)) in
  let m := mean (fun p => Qmax (Qabs (fst p)) (Qabs (snd p))) in let e := mean (fun p => Qabs (fst p - snd p)) in
  Forall (fun '(name, stat, value) =>
      exists r, aggregated name stat data columns = Ok r /\ Published value r)
  [("fgbar", calculate_fgbar, Some f); ("ogbar", calculate_ogbar, Some o); ("mgbar", calculate_mgbar, Some m);
   ("egbar", calculate_egbar, Some e); ("s1", calculate_s1, oratio (Some (100 * e)) (Some m));
   ("s1_og", calculate_s1_og, oratio (Some (100 * e)) (Some o));
   ("fgog_ratio", calculate_fgog_ratio, oratio (Some (100 * f)) (Some o))].
Proof.
  intros groups data columns HS mean f o m e.
  pose (gf := fun p : Q * Q => Qabs (fst p)). pose (go := fun p : Q * Q => Qabs (snd p)).
  pose (gm := fun p : Q * Q => Qmax (Qabs (fst p)) (Qabs (snd p))). pose (ge := fun p : Q * Q => Qabs (fst p - snd p)).
  each.
  - agrad HS (Some f). exact (mean_stat_value _ _ _ _ _ _ HM "fgbar" gf ltac:(simpl; tauto)).
  - agrad HS (Some o). exact (mean_stat_value _ _ _ _ _ _ HM "ogbar" go ltac:(simpl; tauto)).
  - agrad HS (Some m). exact (mean_stat_value _ _ _ _ _ _ HM "mgbar" gm ltac:(simpl; tauto)).
  - agrad HS (Some e). exact (mean_stat_value _ _ _ _ _ _ HM "egbar" ge ltac:(simpl; tauto)).
  - agrad HS (oratio (Some (100 * e)) (Some m)). exact (percent_mom _ _ _ _ _ "egbar" "mgbar" ge gm HM ltac:(simpl; tauto) ltac:(simpl; tauto)).
  - agrad HS (oratio (Some (100 * e)) (Some o)). exact (percent_mom _ _ _ _ _ "egbar" "ogbar" ge go HM ltac:(simpl; tauto) ltac:(simpl; tauto)).
  - agrad HS (oratio (Some (100 * f)) (Some o)). exact (percent_mom _ _ _ _ _ "fgbar" "ogbar" gf go HM ltac:(simpl; tauto) ltac:(simpl; tauto)).
Qed.

Lemma C40_s1_range_proof : forall groups data columns,
  Summaries grad_fields columns groups data ->
  exists r, aggregated "s1" calculate_s1 data columns = Ok r /\
    (forall v, r = Some v -> 0 <= v <= 200) /\
    (r = None <-> forall p, In p (concat groups) -> fst p == 0 /\ snd p == 0) /\
    ((forall p, In p (concat groups) -> fst p == snd p) -> forall v, r = Some v -> v == 0).
Proof.
  intros groups data columns HS. pose proof (C40_pooling_proof _ _ _ HS) as W. cbv zeta in W.
  rewrite !Forall_cons_iff in W. destruct W as (_ & _ & _ & _ & (r & E & R) & _). exists r. split; [exact E|].
  assert (NE : concat groups <> []).
  { intro K. pose proof (Summaries_count _ _ _ _ HS) as P. rewrite K in P. exact (Qlt_irrefl 0 P). }
  set (l := concat groups) in *. set (m := mean_of (fun p => Qmax (Qabs (fst p)) (Qabs (snd p))) l) in *.
  set (e := mean_of (fun p => Qabs (fst p - snd p)) l) in *.
  assert (PM : forall p : Q * Q, 0 <= Qmax (Qabs (fst p)) (Qabs (snd p))).
  { intro p. pose proof (Qabs_nonneg (fst p)). pose proof (Q.le_max_l (Qabs (fst p)) (Qabs (snd p))). qlra. }
  assert (M0 : 0 <= m) by (apply mean_nonneg; [exact NE|intros; apply PM]).
  assert (E0 : 0 <= e) by (apply mean_nonneg; [exact NE|intros; apply Qabs_nonneg]).
  assert (EM : e <= 2 * m).
  { unfold m. rewrite <- mean_scale. apply mean_mono; [exact NE|]. intros [a b] _. cbn [fst snd].
    pose proof (Q.le_max_l (Qabs a) (Qabs b)). pose proof (Q.le_max_r (Qabs a) (Qabs b)).
    pose proof (Qabs_triangle a (- b)) as Tr. rewrite Qabs_opp in Tr. unfold Qminus. qlra. }
  assert (Z : m == 0 <-> forall p, In p l -> fst p == 0 /\ snd p == 0).
  { split.
    - intros Z p Ip. assert (T : total_of (fun p => Qmax (Qabs (fst p)) (Qabs (snd p))) l == 0).
      { rewrite <- mean_times_count by exact NE. fold m. rewrite Z. ring. }
      pose proof (total_zero_each _ _ (fun p _ => PM p) T p Ip) as K. cbv beta in K.
      pose proof (Q.le_max_l (Qabs (fst p)) (Qabs (snd p))). pose proof (Q.le_max_r (Qabs (fst p)) (Qabs (snd p))).
      assert (KA : forall x, Qabs x <= 0 -> x == 0).
      { intros x Hx. pose proof (Qle_Qabs x). pose proof (Qle_Qabs (- x)) as N. rewrite Qabs_opp in N. qlra. }
      split; apply KA; qlra.
    - intro Z. unfold m, mean_of. rewrite (total_ext _ (fun _ => 0)).
      + rewrite total_const. unfold Qdiv. ring.
      + intros p Ip. destruct (Z p Ip) as [A B]. cbv beta. rewrite A, B. reflexivity. }
  cbn [oratio] in R. destruct (Qeq_dec m 0) as [Hm|Hm].
  - destruct r as [r|]; [contradiction|]. split; [intros v K; discriminate K|]. split; [|intros _ v K; discriminate K].
    split; [intros _; apply Z; exact Hm|reflexivity].
  - destruct r as [r|]; [|contradiction]. assert (P : 0 < m).
    { destruct (Qle_lt_or_eq _ _ M0) as [Y|Y]; [exact Y|symmetry in Y; contradiction]. }
    split; [|split].
    + intros v K. injection K as <-. apply (published_range 0 200 (100 * e / m)); [apply multiple_0|apply (multiple_int 200)| |exact R].
      split; [apply Qle_shift_div_l|apply Qle_shift_div_r]; try exact P; qlra.
    + split; [discriminate|]. intro K. exfalso. apply Hm. apply Z. exact K.
    + intros Q v K. injection K as <-. assert (e == 0) as Ze.
      { unfold e, mean_of. rewrite (total_ext _ (fun _ => 0)).
        - rewrite total_const. unfold Qdiv. ring.
        - intros p Ip. rewrite (Q p Ip). setoid_replace (snd p - snd p) with 0 by ring. reflexivity. }
      simpl in R. apply (nearest_unique 7 0); [|apply nearest_self, multiple_0].
      apply (nearest_compat 7 (100 * e / m)); [rewrite Ze; field; exact Hm|exact R].
Qed.

Lemma C40_case_proof : Summaries grad_fields (line_columns grad_fields)
  [[(1, -(2)); (3, 5)]; [(2, 2)]] (map (line_of grad_fields) [[(1, -(2)); (3, 5)]; [(2, 2)]]).
Proof.
  apply lines_summaries; [apply nodupb_ok; reflexivity|discriminate|]. intros b [<-|[<-|[]]]; discriminate.
Qed.

