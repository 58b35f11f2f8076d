(** Proofs of the statements C147 and C148. *)
From Coq Require Import Reals String List Lia.
From Verif Require Import PyBase ColumnModel VertModel VertSpec VertProofs LevelsModel LevelsSpec.
From Coq Require Import Lra.
Import ListNotations.
Open Scope R_scope.

Lemma bind_inv {A B : Type} (x : res A) (f : A -> res B) b : (y <- x ;; f y) = Ok b -> exists a, x = Ok a /\ f a = Ok b.
Proof. destruct x; simpl; [eauto|discriminate]. Qed.
Lemma key_inv {A : Type} (x : option A) v : key x = Ok v -> x = Some v.
Proof. destruct x; simpl; congruence. Qed.
Lemma lookup_in {A : Type} n (v : A) l : NoDup (map fst l) -> In (n, v) l -> lookup n l = Ok v.
Proof.
  unfold lookup. induction l as [|[m w] l IH]; simpl; intros ND I; [easy|]. inversion ND; subst.
  destruct I as [E|I].
  - injection E as -> ->. rewrite String.eqb_refl. reflexivity.
  - destruct (String.eqb_spec m n) as [->|N].
    + exfalso. apply H1. apply (in_map fst _ _ I).
    + auto.
Qed.
Lemma lookup_some {A : Type} n (v : A) l : lookup n l = Ok v -> In (n, v) l.
Proof.
  unfold lookup. induction l as [|[m w] l IH]; simpl; [discriminate|].
  destruct (String.eqb_spec m n) as [->|N]; simpl; intros E; [injection E as ->; auto|auto].
Qed.
Lemma lookup_err {A : Type} n (l : list (string * A)) e : lookup n l = Err e -> e = KeyError.
Proof. unfold lookup. destruct (find _ l); simpl; congruence. Qed.
Lemma key_err {A : Type} (x : option A) e : key x = Err e -> e = KeyError.
Proof. destruct x; simpl; congruence. Qed.

Lemma zip_nth {A B D : Type} (f : A -> B -> res D) l : forall m out j a b, zip_with f l m = Ok out ->
  nth_error l j = Some a -> nth_error m j = Some b -> exists d, f a b = Ok d /\ nth_error out j = Some d.
Proof.
  induction l as [|x l IH]; intros [|y m] out j a b E La Mb; simpl in E; try discriminate.
  - destruct j; discriminate.
  - apply bind_inv in E as (d & E1 & E). apply bind_inv in E as (t & E2 & E). injection E as <-.
    destruct j; simpl in *.
    + injection La as ->. injection Mb as ->. eauto.
    + eauto.
Qed.
Lemma zip_length {A B D : Type} (f : A -> B -> res D) l : forall m out, zip_with f l m = Ok out -> List.length out = List.length l /\ List.length m = List.length l.
Proof.
  induction l as [|x l IH]; intros [|y m] out E; simpl in E; try discriminate; [injection E as <-; auto|].
  apply bind_inv in E as (d & E1 & E). apply bind_inv in E as (t & E2 & E). injection E as <-.
  destruct (IH _ _ E2). simpl. lia.
Qed.

Lemma store_in {A : Type} n (v : A) l : NoDup (map fst l) -> forall m w, In (m, w) (store n v l) <-> (m = n /\ w = v) \/ (m <> n /\ In (m, w) l).
Proof.
  induction l as [|[k x] l IH]; simpl; intros ND m w.
  - split; [intros [E|[]]; injection E as <- <-; auto|intros [[-> ->]|[_ []]]; auto].
  - inversion ND; subst. destruct (String.eqb_spec k n) as [->|N]; simpl.
    + split.
      * intros [E|I]; [injection E as <- <-; auto|]. right. split; [|auto]. intros ->. apply H1, (in_map fst _ _ I).
      * intros [[-> ->]|[Nm [E|I]]]; auto. injection E as <- <-. congruence.
    + rewrite (IH H2). split.
      * intros [E|[?|[? ?]]]; auto. injection E as <- <-. auto.
      * intros [?|[Nm [E|I]]]; auto.
Qed.
Lemma store_keys {A : Type} n (v : A) l m : In m (map fst (store n v l)) <-> m = n \/ In m (map fst l).
Proof.
  induction l as [|[k x] l IH]; simpl; [intuition|]. destruct (String.eqb_spec k n) as [->|N]; simpl; [intuition|rewrite IH; intuition].
Qed.
Lemma store_nodup {A : Type} n (v : A) l : NoDup (map fst l) -> NoDup (map fst (store n v l)).
Proof.
  induction l as [|[k x] l IH]; simpl; intros ND; [constructor; [easy|constructor]|]. inversion ND; subst.
  destruct (String.eqb_spec k n) as [->|N]; simpl; [constructor; auto|]. constructor; [|auto]. rewrite store_keys. intros [->|I]; auto.
Qed.

Section P.
Variable unit_of : string -> option (string * R).
Variables ratio gravity : R.
Variable virtual : R -> option R -> option R -> option R.
Notation prog := (program unit_of ratio gravity virtual).

Lemma fields_spec cfg ds z su names : forall out0 out, NoDup (map fst out0) -> interp_fields unit_of cfg ds z su names out0 = Ok out ->
  NoDup (map fst out) /\ (forall n, In n (map fst out) <-> In n names \/ In n (map fst out0)) /\
  forall n F, In (n, F) out <->
    (In n names /\ exists v, lookup n (variables ds) = Ok v /\ interp_field unit_of cfg ds z su v = Ok F) \/ (~ In n names /\ In (n, F) out0).
Proof.
  induction names as [|m names IH]; simpl; intros out0 out ND E.
  - injection E as <-. repeat split; auto; tauto.
  - apply bind_inv in E as (v & L & E). apply bind_inv in E as (f & I & E).
    destruct (IH _ _ (store_nodup m f _ ND) E) as (N1 & K1 & F1). split; [auto|]. split.
    + intros n. rewrite K1, store_keys. intuition.
    + intros n F. rewrite F1, (store_in _ _ _ ND). split.
      * intros [[In1 Ex]|[NI [[-> ->]|[NE In0]]]]; [left; auto|left; split; [auto|exists v; auto]|right; split; [intros [?|?]; congruence|auto]].
      * destruct (in_dec string_dec n names) as [Hin|Hnot].
        -- intros [[_ Ex]|[NI _]]; [left; auto|exfalso; auto].
        -- intros [[[->|?] (v' & L' & I')]|[NI In0]].
           ++ right. split; [auto|]. left. split; [auto|]. congruence.
           ++ contradiction.
           ++ right. split; [auto|]. right. split; [intros ->; auto|auto].
Qed.

Lemma factor_ratio lu su c r : Factor unit_of lu su c ->
  match unit_ratio unit_of lu su with Err AttributeError => Ok 1 | x => x end = Ok r -> r = c.
Proof.
  unfold unit_ratio. intros [(d & x & y & -> & -> & ->)|[[U|U] ->]].
  - rewrite String.eqb_refl. congruence.
  - rewrite U. congruence.
  - rewrite U. destruct (unit_of lu) as [[? ?]|]; congruence.
Qed.

(** What the program has computed. *)
Lemma program_inv cfg ds out : prog cfg (Some ds) = Ok out -> exists z su names targets,
  layer_height unit_of ratio gravity virtual cfg ds = Ok (z, su) /\ fields cfg = Some names /\ names <> [] /\ vertical_levels cfg = Some targets /\
  lookup "lat" (grid ds) = Ok (o_lat out) /\ lookup "lon" (grid ds) = Ok (o_lon out) /\ o_attributes out = attributes ds /\ o_levels out = targets /\
  interp_fields unit_of cfg ds z su names [] = Ok (o_fields out) /\
  (let has n := existsb (fun p => String.eqb (fst p) n) (times ds) in
   (if has "valid_time"%string then
           v <- lookup "valid_time" (times ds) ;;
           if has "time"%string then i <- lookup "time" (times ds) ;; Ok [("valid_time"%string, v); ("init_time"%string, i)] else Ok [("valid_time"%string, v)]
         else Ok []) = Ok (o_times out)).
Proof.
  unfold program. intros E. apply bind_inv in E as ((z & su) & L & E). apply bind_inv in E as (ts & T & E). apply bind_inv in E as (lat & La & E).
  apply bind_inv in E as (lon & Lo & E). apply bind_inv in E as (names & Na & E). apply bind_inv in E as (fs & Fs & E). apply key_inv in Na.
  destruct names as [|n0 names]; [discriminate|]. apply bind_inv in E as (targets & Ta & E). apply key_inv in Ta. injection E as <-.
  exists z, su, (n0 :: names), targets. simpl. repeat split; auto. discriminate.
Qed.

(** Every value written is that of one column. *)
Lemma written_column cfg ds out z su lu c targets name names fu columns j zc f : prog cfg (Some ds) = Ok out ->
  layer_height unit_of ratio gravity virtual cfg ds = Ok (z, Some su) -> level_units cfg = Some lu -> Factor unit_of lu su c ->
  vertical_levels cfg = Some targets -> fields cfg = Some names -> In name names -> HasColumns ds name fu columns ->
  nth_error z j = Some zc -> nth_error columns j = Some f ->
  List.length zc = List.length f /\
  exists vs, vertical_interp zc c f targets = Ok vs /\ forall k v, Written out name j k v <-> nth_error vs k = Some v.
Proof.
  intros E L LU FA TA NA IN [ND HC] Zj Cj. apply program_inv in E as (z' & su' & names' & targets' & L' & NA' & _ & TA' & _ & _ & _ & _ & IF & _).
  rewrite L in L'. injection L' as <- <-. rewrite NA in NA'. injection NA' as <-. rewrite TA in TA'. injection TA' as <-.
  destruct (fields_spec cfg ds z (Some su) names [] (o_fields out) (NoDup_nil _) IF) as (NDo & KO & FO).
  assert (HI : exists F, interp_field unit_of cfg ds z (Some su) {| units := fu; data := OnLevels columns |} = Ok F /\ In (name, F) (o_fields out)).
  { assert (IK : In name (map fst (o_fields out))) by (apply KO; auto). apply in_map_iff in IK as ((n & F) & En & IF2). simpl in En. subst n.
    pose proof IF2 as IF3. apply FO in IF3 as [(_ & v & Lv & Iv)|[_ []]]. rewrite (lookup_in _ _ _ ND HC) in Lv. injection Lv as <-. eauto. }
  destruct HI as (F & HI & HF). unfold interp_field in HI. apply bind_inv in HI as (ld & _ & HI). simpl in HI.
  destruct (negb (String.eqb ld (dim ds))); [discriminate|]. rewrite TA, LU in HI. simpl in HI. apply bind_inv in HI as (r & Rr & HI).
  apply (factor_ratio _ _ _ _ FA) in Rr. subst r. destruct (zip_nth _ _ _ _ _ _ _ HI Zj Cj) as (vs & Ev & Nv).
  destruct (Nat.eqb_spec (List.length zc) (List.length f)) as [El|]; [|discriminate]. split; [auto|]. exists vs. split; [auto|].
  intros k v. split.
  - intros (F' & column & I' & N1 & N2). apply FO in I' as [(_ & w & Lw & Iw)|[_ []]]. rewrite (lookup_in _ _ _ ND HC) in Lw. injection Lw as <-.
    apply FO in HF as [(_ & w & Lw & Iw')|[_ []]]. rewrite (lookup_in _ _ _ ND HC) in Lw. injection Lw as <-. congruence.
  - intros N. exists F, vs. auto.
Qed.

Lemma interp_nth zc c f targets : forall vs k eta, vertical_interp zc c f targets = Ok vs -> nth_error targets k = Some eta ->
  exists v, interp_level zc c eta f = Ok v /\ nth_error vs k = Some v.
Proof.
  induction targets as [|t targets IH]; simpl; intros vs k eta E N; [destruct k; discriminate|].
  apply bind_inv in E as (v & E1 & E). apply bind_inv in E as (w & E2 & E). injection E as <-. destruct k; simpl in *; [injection N as ->; eauto|eauto].
Qed.
Lemma interp_length zc c f targets : forall vs, vertical_interp zc c f targets = Ok vs -> List.length vs = List.length targets.
Proof.
  induction targets as [|t targets IH]; simpl; intros vs E; [injection E as <-; auto|].
  apply bind_inv in E as (v & E1 & E). apply bind_inv in E as (w & E2 & E). injection E as <-. simpl. auto.
Qed.

Lemma from_field cfg ds hname su z : FromField cfg hname -> HasColumns ds hname su z ->
  layer_height unit_of ratio gravity virtual cfg ds = Ok (z, su).
Proof.
  intros [HN Hs] [ND HC]. unfold layer_height. rewrite HN. simpl.
  assert (Q : (v <- lookup hname (variables ds) ;; match data v with OnLevels columns => Ok (columns, units v) | Surface _ => Err NotModelled end) = Ok (z, su)).
  { rewrite (lookup_in _ _ _ ND HC). reflexivity. }
  destruct Hs as [->|(-> & i & -> & [Ni|(o & Eo & No)])]; simpl; [exact Q| |].
  - destruct (String.eqb_spec i "pressure"); [congruence|]. simpl. exact Q.
  - rewrite Eo. simpl. destruct (String.eqb_spec o "height"); [congruence|]. destruct (String.eqb i "pressure"); simpl; exact Q.
Qed.

(** Heights from pressures. *)
Lemma combine_nth_some {A B : Type} (l : list A) : forall (m : list B) j a b, nth_error l j = Some a -> nth_error m j = Some b -> nth_error (combine l m) j = Some (a, b).
Proof. induction l as [|x l IH]; intros [|y m] [|j] a b; simpl; try discriminate; [congruence|apply IH]. Qed.

Lemma layers_combine virt ps : forall t h layers, Layers virt ps t h layers -> List.length t = List.length ps -> List.length h = List.length ps ->
  map (fun x => (fst x, virt (fst x) (fst (snd x)) (snd (snd x)))) (combine ps (combine t h)) = map (fun l => (fst l, Some (snd l))) layers.
Proof.
  induction ps as [|p ps IH]; intros t h layers [M V] Lt Lh.
  - destruct layers; [reflexivity|discriminate].
  - destruct layers as [|[q v] layers]; [discriminate|]. simpl in M. injection M as -> M.
    destruct t as [|a t]; [discriminate|]. destruct h as [|b h]; [discriminate|]. simpl.
    destruct (V 0%nat p v eq_refl) as (a' & b' & Ea & Eb & Ev). simpl in Ea, Eb. injection Ea as <-. injection Eb as <-. rewrite Ev. f_equal.
    apply IH; [|simpl in Lt; lia|simpl in Lh; lia]. split; [auto|]. intros i p' v' N. exact (V (S i) p' v' N).
Qed.

Lemma from_pressure cfg ds pn psu pressures tn tu temps hn hu hums pu c z su : FromPressure cfg ->
  layer_height unit_of ratio gravity virtual cfg ds = Ok (z, su) ->
  pressure_name cfg = Some pn -> HasSurface ds pn (Some psu) pressures ->
  temperature_name cfg = Some tn -> HasColumns ds tn tu temps -> humidity_name cfg = Some hn -> HasColumns ds hn hu hums ->
  dim_units ds = Some pu -> UnitIs unit_of psu pu c ->
  su = Some "meter"%string /\
  exists zs, List.length zs = List.length pressures /\
    (forall j x, Ground cfg ds j x -> (j < List.length pressures)%nat -> nth_error zs j = Some (Some x)) /\
    zip_with (column_heights ratio gravity virtual c (levels ds)) (combine zs pressures) (combine temps hums) = Ok z /\
    (forall col, In col temps \/ In col hums -> List.length col = List.length (levels ds)).
Proof.
  intros (H1 & H2 & H3) L PN [NDp HP] TN [NDt HT] HN [NDh HH] DU (d & ux & uy & U1 & U2 & ->).
  unfold layer_height in L. rewrite H1, H2, H3 in L. simpl in L. apply bind_inv in L as (r & RF & L).
  destruct r as [[[geo sp] te] hum]. apply bind_inv in L as (z' & HE & L). injection L as -> <-. split; [reflexivity|].
  unfold required_fields in RF. rewrite PN, TN, HN in RF. simpl in RF. rewrite (lookup_in _ _ _ NDp HP) in RF. simpl in RF.
  apply bind_inv in RF as (zero & Zk & RF). apply key_inv in Zk. apply bind_inv in RF as (g & Gk & RF).
  rewrite (lookup_in _ _ _ NDt HT), (lookup_in _ _ _ NDh HH) in RF. simpl in RF. injection RF as <- <- <- <-.
  unfold heights in HE. apply bind_inv in HE as (ld & _ & HE). simpl in HE.
  destruct (data g) as [|zs] eqn:Dg; [discriminate|]. destruct (negb (String.eqb ld (dim ds))); [discriminate|].
  rewrite DU in HE. simpl in HE. apply bind_inv in HE as (tu' & _ & HE). unfold unit_ratio in HE. rewrite U1, U2, String.eqb_refl in HE. simpl in HE.
  destruct (Nat.eqb_spec (List.length zs) (List.length pressures)) as [Lz|]; [|discriminate].
  destruct (Nat.eqb (List.length temps) (List.length hums)); [|discriminate]. simpl in HE.
  destruct (forallb _ (temps ++ hums)) eqn:FB; [|discriminate]. exists zs. split; [auto|]. split; [|split; [exact HE|]].
  - intros j x G Lj. destruct G as [[Z0 ->]|(Z0 & name & u & cells & GN & [NDg HG] & Nj)]; rewrite Z0 in Zk; injection Zk as <-; simpl in Gk.
    + injection Gk as <-. simpl in Dg. injection Dg as <-. rewrite nth_error_map.
      destruct (nth_error pressures j) eqn:En; [reflexivity|]. apply nth_error_None in En. lia.
    + rewrite GN in Gk. simpl in Gk. rewrite (lookup_in _ _ _ NDg HG) in Gk. injection Gk as <-. simpl in Dg. injection Dg as <-. auto.
  - intros col Hc. rewrite forallb_forall in FB. specialize (FB col). rewrite in_app_iff in FB. apply Nat.eqb_eq. auto.
Qed.

Lemma all_gaps z c f eta : z <> [] -> (forall k, (k < List.length z)%nat -> Gap z k) -> 0 < c -> List.length f = List.length z ->
  interp_level z c eta f = Ok None.
Proof.
  intros NZ G Cp Lf. assert (N : forall i h, ~ At z i h).
  { intros i h H. assert (i < List.length z)%nat by (apply nth_error_Some; unfold At in H; congruence). specialize (G i H0). unfold At, Gap in *. congruence. }
  apply C32_nowhere_proof; auto; intros; exfalso; eapply N; eauto.
Qed.
End P.

(** The statements of PropertiesLevels.v. *)
Lemma C147_between_proof : forall unit_of ratio gravity virtual cfg ds out hname su heights name names fu columns lu c targets j z f k eta i h0 h1 a b,
  program unit_of ratio gravity virtual cfg (Some ds) = Ok out ->
  FromField cfg hname -> HasColumns ds hname (Some su) heights ->
  fields cfg = Some names -> In name names -> HasColumns ds name fu columns ->
  level_units cfg = Some lu -> Factor unit_of lu su c -> 0 < c ->
  vertical_levels cfg = Some targets -> nth_error targets k = Some eta ->
  nth_error heights j = Some z -> nth_error columns j = Some f ->
  Rising z -> (S (S i) < List.length z)%nat -> At z i h0 -> At z (S i) h1 -> c * h0 < eta < c * h1 -> At f i a -> At f (S i) b ->
  forall v, Written out name j k v <-> v = Some (line_through (c * h0) (c * h1) a b eta).
Proof.
  intros unit_of ratio gravity virtual cfg ds out hname su heights name names fu columns lu c targets j z f k eta i h0 h1 a b E FF HH NA IN HC LU FA Cp TA Tk Hj Cj Ri Li A0 A1 B Fa Fb v.
  destruct (written_column _ _ _ _ _ _ _ _ _ _ _ _ _ _ _ _ _ _ _ E (from_field unit_of ratio gravity virtual cfg ds hname _ _ FF HH) LU FA TA NA IN HC Hj Cj) as (Le & vs & Ev & W).
  rewrite W. destruct (interp_nth _ _ _ _ _ _ _ Ev Tk) as (w & Ew & Nw). rewrite Nw.
  assert (Q : interp_level z c eta f = Ok (Some (line_through (c * h0) (c * h1) a b eta))) by (eapply C32_between_proof; eauto).
  rewrite Q in Ew. injection Ew as <-. split; intros EQ; [injection EQ as <-; reflexivity|subst; reflexivity].
Qed.

Lemma C147_between_case_proof : exists out,
  program units_example 29 9 (fun _ t _ => t) config_example (Some dataset_example) = Ok out /\
  FromField config_example "HGT" /\ HasColumns dataset_example "HGT" (Some "m"%string) [[Some 1000; Some 2000; Some 3000]] /\
  HasColumns dataset_example "UGRD" (Some "m/s"%string) [[Some 10; Some 20; Some 30]] /\ Factor units_example "m" "m" 1 /\
  Rising [Some 1000; Some 2000; Some 3000] /\ 1 * 1000 < 1500 < 1 * 2000.
Proof.
  assert (Q : exists v, interp_level [Some 1000; Some 2000; Some 3000] (1 / 1) 1500 [Some 10; Some 20; Some 30] = Ok v) by (eexists; reflexivity).
  destruct Q as (v & Q). eexists. split; [cbv -[Rdiv IZR interp_level]; rewrite Q; reflexivity|].
  split; [split; [reflexivity|left; reflexivity]|]. split; [split; [simpl; repeat constructor; simpl; intuition discriminate|simpl; auto]|].
  split; [split; [simpl; repeat constructor; simpl; intuition discriminate|simpl; auto]|].
  split; [left; exists "length"%string, 1, 1; repeat split; auto; lra|]. split; [|lra].
  intros [|[|[|i]]] [|[|[|j]]] a b L Ha Hb; unfold At in *; simpl in *; try lia; try (destruct i; discriminate); try (destruct j; discriminate);
    injection Ha as <-; injection Hb as <-; lra.
Qed.

Lemma C147_linear_proof : forall unit_of ratio gravity virtual cfg ds out hname u d x heights name names fu columns targets j z f k eta i h0 h1 alpha beta,
  program unit_of ratio gravity virtual cfg (Some ds) = Ok out ->
  FromField cfg hname -> HasColumns ds hname (Some u) heights ->
  fields cfg = Some names -> In name names -> HasColumns ds name fu columns ->
  level_units cfg = Some u -> unit_of u = Some (d, x) -> 0 < x ->
  vertical_levels cfg = Some targets -> nth_error targets k = Some eta ->
  nth_error heights j = Some z -> nth_error columns j = Some f ->
  Rising z -> (S (S i) < List.length z)%nat -> At z i h0 -> At z (S i) h1 -> h0 < eta < h1 ->
  (forall m h, At z m h -> At f m (alpha + beta * h)) ->
  Written out name j k (Some (alpha + beta * eta)).
Proof.
  intros unit_of ratio gravity virtual cfg ds out hname u d x heights name names fu columns targets j z f k eta i h0 h1 alpha beta E FF HH NA IN HC LU UU Xp TA Tk Hj Cj Ri Li A0 A1 B LF.
  assert (FA : Factor unit_of u u 1) by (left; exists d, x, x; repeat split; auto; field; lra).
  destruct (written_column _ _ _ _ _ _ _ _ _ _ _ _ _ _ _ _ _ _ _ E (from_field unit_of ratio gravity virtual cfg ds hname _ _ FF HH) LU FA TA NA IN HC Hj Cj) as (Le & vs & Ev & W).
  rewrite W. destruct (interp_nth _ _ _ _ _ _ _ Ev Tk) as (w & Ew & Nw). rewrite Nw.
  assert (Q : interp_level z 1 eta f = Ok (Some (alpha + beta * eta))).
  { eapply C32_linear_proof with (h0 := h0) (h1 := h1); eauto; try lra. intros m h H. rewrite Rmult_1_l. auto. }
  rewrite Q in Ew. injection Ew as <-. reflexivity.
Qed.

Lemma C147_linear_case_proof : forall m h, At [Some 1000; Some 2000; Some 3000] m h -> At [Some 10; Some 20; Some 30] m (0 + 1 / 100 * h).
Proof.
  intros [|[|[|m]]] h H; unfold At in *; simpl in *; try (destruct m; discriminate); injection H as <-; repeat f_equal; lra.
Qed.

Lemma C147_units_refuted_proof : exists cfg ds out out' v v',
  UnitIs units_example "km" "m" 1000 /\
  program units_example 29 9 (fun _ t _ => t) (with_levels [1500] "m" cfg) (Some ds) = Ok out /\
  program units_example 29 9 (fun _ t _ => t) (with_levels [3 / 2] "km" cfg) (Some ds) = Ok out' /\
  Written out "UGRD" 0 0 (Some v) /\ Written out' "UGRD" 0 0 (Some v') /\ v = 15 /\ v' = 10.
Proof.
  assert (Q1 : interp_level [Some 1000; Some 2000; Some 3000] 1 1500 [Some 10; Some 20; Some 30] = Ok (Some 15)).
  { transitivity (@Ok (option R) (Some (line_through (1 * 1000) (1 * 2000) 10 20 1500))).
    - assert (RI : Rising [Some 1000; Some 2000; Some 3000]).
      { intros [|[|[|i]]] [|[|[|j]]] a b L Ha Hb; unfold At in *; simpl in *; try lia; try (destruct i; discriminate); try (destruct j; discriminate);
        injection Ha as <-; injection Hb as <-; lra. }
      destruct (C32_between_proof [Some 1000; Some 2000; Some 3000] 1 [Some 10; Some 20; Some 30] 1500 0 1000 2000 RI) as [CB _];
        try reflexivity; try lra; simpl; try lia. apply (CB 10 20); reflexivity.
    - unfold line_through. do 2 f_equal. lra. }
  assert (Q2 : interp_level [Some 1000; Some 2000; Some 3000] 1000 (3 / 2) [Some 10; Some 20; Some 30] = Ok (Some 10)).
  { edestruct (C32_outside_proof [Some 1000; Some 2000; Some 3000] 1000 [Some 10; Some 20; Some 30] (3 / 2) 1000) as [O _]; [|lra|reflexivity|simpl; lia|].
    - intros [|[|[|i]]] [|[|[|j]]] a b L Ha Hb; unfold At in *; simpl in *; try lia; try (destruct i; discriminate); try (destruct j; discriminate);
        injection Ha as <-; injection Hb as <-; lra.
    - rewrite O; [reflexivity|reflexivity|lra]. }
  assert (D1 : 1 / 1 = 1) by lra. assert (D2 : 1000 / 1 = 1000) by lra.
  exists config_example, dataset_example. do 2 eexists. exists 15, 10. split; [exists "length"%string, 1000, 1; repeat split; auto; lra|].
  assert (X1 : program units_example 29 9 (fun _ t _ => t) (with_levels [1500] "m" config_example) (Some dataset_example) =
    Ok (Output [("valid_time"%string, 6); ("init_time"%string, 0)] [40] [250] [("centre"%string, "kwbc"%string)] [1500] [("UGRD"%string, [[Some 15]])])).
  { transitivity (v <- interp_level [Some 1000; Some 2000; Some 3000] (1 / 1) 1500 [Some 10; Some 20; Some 30] ;;
      Ok (Output [("valid_time"%string, 6); ("init_time"%string, 0)] [40] [250] [("centre"%string, "kwbc"%string)] [1500] [("UGRD"%string, [[v]])])).
    - cbv -[Rdiv IZR interp_level]. destruct (interp_level _ _ _ _); reflexivity.
    - rewrite D1, Q1. reflexivity. }
  assert (X2 : program units_example 29 9 (fun _ t _ => t) (with_levels [3 / 2] "km" config_example) (Some dataset_example) =
    Ok (Output [("valid_time"%string, 6); ("init_time"%string, 0)] [40] [250] [("centre"%string, "kwbc"%string)] [3 / 2] [("UGRD"%string, [[Some 10]])])).
  { transitivity (v <- interp_level [Some 1000; Some 2000; Some 3000] (1000 / 1) (3 / 2) [Some 10; Some 20; Some 30] ;;
      Ok (Output [("valid_time"%string, 6); ("init_time"%string, 0)] [40] [250] [("centre"%string, "kwbc"%string)] [3 / 2] [("UGRD"%string, [[v]])])).
    - cbv -[Rdiv IZR interp_level]. destruct (interp_level _ _ _ _); reflexivity.
    - rewrite D2, Q2. reflexivity. }
  split; [exact X1|]. split; [exact X2|]. split; [exists [[Some 15]], [Some 15]; simpl; auto|]. split; [exists [[Some 10]], [Some 10]; simpl; auto|]. auto.
Qed.

Lemma C147_mismatch_proof : forall unit_of ratio gravity virtual cfg ds out hname su heights lu d x d' x',
  FromField cfg hname -> HasColumns ds hname (Some su) heights -> level_units cfg = Some lu ->
  unit_of lu = Some (d, x) -> unit_of su = Some (d', x') -> d <> d' ->
  program unit_of ratio gravity virtual cfg (Some ds) <> Ok out.
Proof.
  intros unit_of ratio gravity virtual cfg ds out hname su heights lu d x d' x' FF HH LU U1 U2 ND E.
  pose proof (from_field unit_of ratio gravity virtual cfg ds hname _ _ FF HH) as L.
  apply program_inv in E as (z' & su' & names' & targets' & L' & NA' & NN & TA' & _ & _ & _ & _ & IF & _). rewrite L in L'. injection L' as <- <-.
  destruct names' as [|n names']; [congruence|]. simpl in IF. apply bind_inv in IF as (v & Lv & IF). apply bind_inv in IF as (F & HI & IF).
  unfold interp_field in HI. apply bind_inv in HI as (ld & _ & HI). destruct (data v); [|discriminate].
  destruct (negb (String.eqb ld (dim ds))); [discriminate|]. rewrite TA', LU in HI. simpl in HI. unfold unit_ratio in HI. rewrite U1, U2 in HI.
  destruct (String.eqb_spec d d'); [congruence|discriminate].
Qed.

Lemma C147_mismatch_case_proof : units_example "hPa" = Some ("pressure"%string, 100) /\ units_example "m" = Some ("length"%string, 1) /\ "pressure"%string <> "length"%string.
Proof.
  repeat split; auto. discriminate.
Qed.

Lemma C147_alone_proof : forall unit_of ratio gravity virtual cfg ds ds' out out' hname su heights heights' name names fu fu' columns columns' lu c targets j z f,
  program unit_of ratio gravity virtual cfg (Some ds) = Ok out -> program unit_of ratio gravity virtual cfg (Some ds') = Ok out' ->
  FromField cfg hname -> HasColumns ds hname (Some su) heights -> HasColumns ds' hname (Some su) heights' ->
  fields cfg = Some names -> In name names -> HasColumns ds name fu columns -> HasColumns ds' name fu' columns' ->
  level_units cfg = Some lu -> Factor unit_of lu su c -> vertical_levels cfg = Some targets ->
  nth_error heights j = Some z -> nth_error heights' j = Some z -> nth_error columns j = Some f -> nth_error columns' j = Some f ->
  forall k v, Written out name j k v <-> Written out' name j k v.
Proof.
  intros unit_of ratio gravity virtual cfg ds ds' out out' hname su heights heights' name names fu fu' columns columns' lu c targets j z f
    E E' FF HH HH' NA IN HC HC' LU FA TA Hj Hj' Cj Cj' k v.
  destruct (written_column _ _ _ _ _ _ _ _ _ _ _ _ _ _ _ _ _ _ _ E (from_field unit_of ratio gravity virtual cfg ds hname _ _ FF HH) LU FA TA NA IN HC Hj Cj) as (Le & vs & Ev & W).
  destruct (written_column _ _ _ _ _ _ _ _ _ _ _ _ _ _ _ _ _ _ _ E' (from_field unit_of ratio gravity virtual cfg ds' hname _ _ FF HH') LU FA TA NA IN HC' Hj' Cj') as (Le' & vs' & Ev' & W').
  rewrite W, W'. rewrite Ev in Ev'. injection Ev' as <-. reflexivity.
Qed.

Lemma C147_shape_proof : forall unit_of ratio gravity virtual cfg ds out hname su heights names targets,
  program unit_of ratio gravity virtual cfg (Some ds) = Ok out ->
  FromField cfg hname -> HasColumns ds hname su heights -> fields cfg = Some names -> vertical_levels cfg = Some targets ->
  NoDup (map fst (o_fields out)) /\ (forall n, In n (map fst (o_fields out)) <-> In n names) /\
  (forall n columns, In (n, columns) (o_fields out) ->
     List.length columns = List.length heights /\ Forall (fun column => List.length column = List.length targets) columns) /\
  o_levels out = targets /\ o_attributes out = attributes ds /\ In ("lat"%string, o_lat out) (grid ds) /\ In ("lon"%string, o_lon out) (grid ds).
Proof.
  intros unit_of ratio gravity virtual cfg ds out hname su heights names targets E FF HH NA TA.
  pose proof (from_field unit_of ratio gravity virtual cfg ds hname _ _ FF HH) as L.
  apply program_inv in E as (z' & su' & names' & targets' & L' & NA' & NN & TA' & La & Lo & At' & Le & IF & _). rewrite L in L'. injection L' as <- <-.
  rewrite NA in NA'. injection NA' as <-. rewrite TA in TA'. injection TA' as <-.
  destruct (fields_spec _ ratio virtual _ _ _ _ _ [] _ (NoDup_nil _) IF) as (NDo & KO & FO). split; [auto|]. split; [intros n; rewrite KO; simpl; tauto|].
  split; [|split; [auto|split; [auto|split; apply lookup_some; auto]]].
  intros n columns I. apply FO in I as [(_ & v & Lv & HI)|[_ []]].
  unfold interp_field in HI. apply bind_inv in HI as (ld & _ & HI). destruct (data v) as [cols|]; [|discriminate].
  destruct (negb (String.eqb ld (dim ds))); [discriminate|]. rewrite TA in HI. simpl in HI. apply bind_inv in HI as (u & _ & HI).
  apply bind_inv in HI as (lu & _ & HI). apply bind_inv in HI as (r & _ & HI). split; [apply (zip_length _ _ _ _ HI)|].
  apply Forall_forall. intros col Ic. apply In_nth_error in Ic as (j & Nj). pose proof (zip_length _ _ _ _ HI) as (Z1 & Z2).
  assert (Lj : (j < List.length columns)%nat) by (apply nth_error_Some; congruence).
  destruct (nth_error heights j) as [zc|] eqn:Hz; [|apply nth_error_None in Hz; lia].
  destruct (nth_error cols j) as [fc|] eqn:Hf; [|apply nth_error_None in Hf; lia].
  destruct (zip_nth _ _ _ _ _ _ _ HI Hz Hf) as (dd & Ed & Nd). rewrite Nj in Nd. injection Nd as <-.
  destruct (Nat.eqb _ _); [|discriminate]. apply (interp_length _ _ _ _ _ Ed).
Qed.

Lemma C147_times_proof : forall unit_of ratio gravity virtual cfg ds out,
  program unit_of ratio gravity virtual cfg (Some ds) = Ok out -> NoDup (map fst (times ds)) ->
  forall n v, In (n, v) (o_times out) <->
    (n = "valid_time"%string /\ In ("valid_time"%string, v) (times ds)) \/
    (n = "init_time"%string /\ In ("time"%string, v) (times ds) /\ In "valid_time"%string (map fst (times ds))).
Proof.
  intros unit_of ratio gravity virtual cfg ds out E ND n v.
  apply program_inv in E as (z' & su' & names' & targets' & L' & NA' & NN & TA' & La & Lo & At' & Le & IF & T).
  assert (HX : forall m, existsb (fun p => String.eqb (fst p) m) (times ds) = true <-> In m (map fst (times ds))).
  { intros m. rewrite existsb_exists, in_map_iff. split.
    - intros (p & I & Ep). apply String.eqb_eq in Ep. eauto.
    - intros (p & Ep & I). exists p. split; [auto|]. apply String.eqb_eq. auto. }
  pose proof (HX "valid_time"%string) as V. pose proof (HX "time"%string) as U. clear HX. cbv zeta in T.
  destruct (existsb (fun p => String.eqb (fst p) "valid_time") (times ds)).
  - apply bind_inv in T as (tv & Lv & T). pose proof (lookup_some _ _ _ Lv) as Iv.
    assert (UV : forall w, In ("valid_time"%string, w) (times ds) -> w = tv).
    { intros w I. apply (lookup_in _ _ _ ND) in I. congruence. }
    destruct (existsb (fun p => String.eqb (fst p) "time") (times ds)).
    + apply bind_inv in T as (ti & Li & T). pose proof (lookup_some _ _ _ Li) as Ii.
      assert (UT : forall w, In ("time"%string, w) (times ds) -> w = ti).
      { intros w I. apply (lookup_in _ _ _ ND) in I. congruence. }
      injection T as <-. simpl. split.
      * intros [EQ|[EQ|[]]]; injection EQ as <- <-; [left; auto|right]. split; [auto|]. split; [auto|]. apply V. reflexivity.
      * intros [[-> I]|(-> & I & _)]; [left; rewrite (UV _ I); auto|right; left; rewrite (UT _ I); auto].
    + injection T as <-. simpl. split.
      * intros [EQ|[]]; injection EQ as <- <-; left; auto.
      * intros [[-> I]|(-> & I & _)]; [left; rewrite (UV _ I); auto|]. exfalso.
        assert (false = true) by (apply U; apply (in_map fst _ _ I)). discriminate.
  - injection T as <-. simpl. split; [easy|]. intros [[-> I]|(-> & I & J)].
    + assert (false = true) by (apply V; apply (in_map fst _ _ I)). discriminate.
    + assert (false = true) by (apply V; auto). discriminate.
Qed.

Lemma C147_times_case_proof : NoDup (map fst (times dataset_example)) /\ In ("time"%string, 0) (times dataset_example).
Proof.
  split; [simpl; repeat constructor; simpl; intuition discriminate|simpl; auto].
Qed.

Lemma C147_settings_proof : forall unit_of ratio gravity virtual cfg opened b i t,
  height_setting cfg = Some b -> coord_type_in cfg = Some i -> t <> "height"%string \/ i <> "pressure"%string ->
  program unit_of ratio gravity virtual (with_type_out t cfg) opened = program unit_of ratio gravity virtual (with_height_setting false (with_type_out t cfg)) opened.
Proof.
  intros unit_of ratio gravity virtual cfg opened b i t HS CI D. unfold program.
  assert (Q : forall ds, layer_height unit_of ratio gravity virtual (with_type_out t cfg) ds =
    layer_height unit_of ratio gravity virtual (with_height_setting false (with_type_out t cfg)) ds).
  { intros ds. unfold layer_height. simpl. rewrite HS, CI. simpl. destruct b; [|reflexivity].
    destruct (String.eqb_spec i "pressure"); simpl; [|reflexivity]. destruct (String.eqb_spec t "height"); simpl; [|reflexivity].
    destruct D; congruence. }
  assert (IQ : forall ds z su names out, interp_fields unit_of (with_type_out t cfg) ds z su names out =
    interp_fields unit_of (with_height_setting false (with_type_out t cfg)) ds z su names out).
  { intros ds z su names. induction names as [|n names IH]; intros out; [reflexivity|]. simpl. destruct (lookup n (variables ds)); simpl; [|reflexivity].
    change (interp_field unit_of (with_height_setting false (with_type_out t cfg)) ds z su a) with (interp_field unit_of (with_type_out t cfg) ds z su a).
    destruct (interp_field unit_of (with_type_out t cfg) ds z su a); simpl; [apply IH|reflexivity]. }
  cbv zeta. set (ds := match opened with Some d => d | None => nothing end). clearbody ds. rewrite Q.
  destruct (layer_height unit_of ratio gravity virtual (with_height_setting false (with_type_out t cfg)) ds) as [[z su]|]; cbn [bind]; [|reflexivity].
  change (fields (with_height_setting false (with_type_out t cfg))) with (fields (with_type_out t cfg)).
  change (vertical_levels (with_height_setting false (with_type_out t cfg))) with (vertical_levels (with_type_out t cfg)).
  match goal with |- bind ?x _ = _ => destruct x end; cbn [bind]; [|reflexivity]. destruct (lookup "lat" (grid ds)); cbn [bind]; [|reflexivity].
  destruct (lookup "lon" (grid ds)); cbn [bind]; [|reflexivity]. destruct (key (fields (with_type_out t cfg))); cbn [bind]; [|reflexivity].
  rewrite IQ. reflexivity.
Qed.

Lemma C147_settings_case_proof : height_setting config_example = Some false /\ coord_type_in config_example = Some "pressure"%string /\ "pressure"%string <> "height"%string.
Proof.
  repeat split; auto. discriminate.
Qed.

Lemma C147_unopened_proof : forall unit_of ratio gravity virtual cfg, program unit_of ratio gravity virtual cfg None = Err KeyError.
Proof.
  intros unit_of ratio gravity virtual [hs ci co hn pn zs gn tn un fs dn vl lu]. unfold program.
  assert (Q : layer_height unit_of ratio gravity virtual (Config hs ci co hn pn zs gn tn un fs dn vl lu) nothing = Err KeyError).
  { unfold layer_height, required_fields. simpl. destruct hs as [[|]|]; simpl; [|destruct hn; reflexivity|reflexivity].
    destruct ci as [i|]; simpl; [|reflexivity]. destruct (String.eqb i "pressure"); simpl; [|destruct hn; reflexivity].
    destruct co as [o|]; simpl; [|reflexivity]. destruct (String.eqb o "height"); simpl; [|destruct hn; reflexivity].
    destruct pn; reflexivity. }
  rewrite Q. reflexivity.
Qed.

Lemma C147_no_fields_proof : forall unit_of ratio gravity virtual cfg ds hname su heights,
  FromField cfg hname -> HasColumns ds hname su heights -> In "lat"%string (map fst (grid ds)) -> In "lon"%string (map fst (grid ds)) ->
  fields cfg = Some [] -> program unit_of ratio gravity virtual cfg (Some ds) = Err AttributeError.
Proof.
  intros unit_of ratio gravity virtual cfg ds hname su heights FF HH La Lo NF. unfold program.
  assert (K : forall (A : Type) n (l : list (string * A)), In n (map fst l) -> exists v, lookup n l = Ok v).
  { intros A n l. unfold lookup. induction l as [|[m w] l IH]; simpl; [easy|]. destruct (String.eqb_spec m n); simpl; [eauto|]. intros [?|?]; [congruence|auto]. }
  rewrite (from_field unit_of ratio gravity virtual cfg ds hname _ _ FF HH). cbn [bind].
  assert (T : exists ts, (if existsb (fun p => String.eqb (fst p) "valid_time") (times ds) then
           v <- lookup "valid_time" (times ds) ;;
           if existsb (fun p => String.eqb (fst p) "time") (times ds) then i <- lookup "time" (times ds) ;; Ok [("valid_time"%string, v); ("init_time"%string, i)] else Ok [("valid_time"%string, v)]
         else Ok []) = Ok ts).
  { assert (HX : forall m, existsb (fun p => String.eqb (fst p) m) (times ds) = true -> exists v, lookup m (times ds) = Ok v).
    { intros m. rewrite existsb_exists. intros (p & I & Ep). apply String.eqb_eq in Ep. apply K, in_map_iff. eauto. }
    pose proof (HX "valid_time"%string) as V. pose proof (HX "time"%string) as U. clear HX.
    destruct (existsb (fun p => String.eqb (fst p) "valid_time") (times ds)); [|eauto]. destruct V as (v & ->); [auto|]. simpl.
    destruct (existsb (fun p => String.eqb (fst p) "time") (times ds)); [|eauto]. destruct U as (u & ->); [auto|]. simpl. eauto. }
  destruct T as (ts & T). cbv zeta. rewrite T. destruct (K _ _ _ La) as (la & ->). destruct (K _ _ _ Lo) as (lo & ->). rewrite NF. reflexivity.
Qed.

Lemma C147_no_fields_case_proof : In "lat"%string (map fst (grid dataset_example)) /\ In "lon"%string (map fst (grid dataset_example)).
Proof.
  simpl. auto.
Qed.

Lemma C148_between_proof : forall unit_of ratio gravity virtual cfg ds out pn psu pressures ps tn tu temps tcol hn hu hums hcol pu c geopotential layers p t rest
    name names fu columns lu m targets j f k eta i a b,
  program unit_of ratio gravity virtual cfg (Some ds) = Ok out -> 0 < ratio -> FromPressure cfg ->
  pressure_name cfg = Some pn -> HasSurface ds pn (Some psu) pressures -> nth_error pressures j = Some (Some ps) ->
  Ground cfg ds j geopotential ->
  temperature_name cfg = Some tn -> HasColumns ds tn tu temps -> nth_error temps j = Some tcol ->
  humidity_name cfg = Some hn -> HasColumns ds hn hu hums -> nth_error hums j = Some hcol ->
  dim_units ds = Some pu -> UnitIs unit_of psu pu c ->
  Layers virtual (levels ds) tcol hcol layers -> Atmosphere layers -> layers = (p, t) :: rest -> p < c * ps ->
  fields cfg = Some names -> In name names -> HasColumns ds name fu columns -> nth_error columns j = Some f ->
  level_units cfg = Some lu -> Factor unit_of lu "meter" m -> 0 < m ->
  vertical_levels cfg = Some targets -> nth_error targets k = Some eta ->
  let z := height_of ratio gravity geopotential (c * ps) layers in
  (S (S i) < List.length layers)%nat -> m * z i < eta < m * z (S i) -> At f i a -> At f (S i) b ->
  forall v, Written out name j k v <-> v = Some (line_through (m * z i) (m * z (S i)) a b eta).
Proof.
  intros unit_of ratio gravity virtual cfg ds out pn psu pressures ps tn tu temps tcol hn hu hums hcol pu c geopotential layers p t rest
    name names fu columns lu m targets j f k eta i a b E Rp FP PN HP Pj GR TN HT Tj HN HH Hj DU UI LA AT EL LT NA IN HC Cj LU FA Mp TA Tk z Li B Fa Fb v.
  pose proof E as E0. apply program_inv in E0 as (zz & su & _ & _ & L & _).
  destruct (from_pressure _ _ _ _ _ _ _ _ _ _ _ _ _ _ _ _ _ _ _ FP L PN HP TN HT HN HH DU UI) as (-> & zs & Lz & GZ & ZW & LC).
  assert (Lj : (j < List.length pressures)%nat) by (apply nth_error_Some; congruence).
  destruct (zip_nth _ _ _ _ _ _ _ ZW (combine_nth_some _ _ _ _ _ (GZ _ _ GR Lj) Pj) (combine_nth_some _ _ _ _ _ Tj Hj)) as (zc & Ez & Nz).
  unfold column_heights in Ez. cbn [fst snd] in Ez.
  rewrite (layers_combine virtual (levels ds) tcol hcol layers LA) in Ez by (apply LC; [left + right]; eapply nth_error_In; eauto).
  destruct (written_column _ _ _ _ _ _ _ _ _ _ _ _ _ _ _ _ _ _ _ E L LU FA TA NA IN HC Nz Cj) as (Le & vs & Ev & W).
  rewrite EL in Ez, AT. destruct (C46_all_above_proof ratio gravity geopotential c ps p t rest Rp AT LT) as (hs & EH & LH & HA & RI).
  rewrite EH in Ez. injection Ez as <-. rewrite <- EL in HA. assert (LL : List.length layers = S (List.length rest)) by (rewrite EL; reflexivity).
  assert (Q : interp_level hs m eta f = Ok (Some (line_through (m * z i) (m * z (S i)) a b eta))).
  { eapply C32_between_proof; eauto; try lia; apply HA; lia. }
  rewrite W. destruct (interp_nth _ _ _ _ _ _ _ Ev Tk) as (w & Ew & Nw). rewrite Nw. rewrite Q in Ew. injection Ew as <-.
  split; intros EQ; [injection EQ as <-; reflexivity|subst; reflexivity].
Qed.

Lemma C148_between_case_proof : exists out,
  program units_example 29 9 (fun _ t _ => t) (with_height_setting true config_example) (Some dataset_example) = Ok out /\
  FromPressure (with_height_setting true config_example) /\ HasSurface dataset_example "PSFC" (Some "Pa"%string) [Some 101000] /\
  Ground (with_height_setting true config_example) dataset_example 0 0 /\ UnitIs units_example "Pa" "hPa" (1 / 100) /\
  Layers (fun _ t _ => t) (levels dataset_example) [Some 280; Some 270; Some 260] [Some 50; Some 50; Some 50] [(1000, 280); (850, 270); (700, 260)] /\
  Atmosphere [(1000, 280); (850, 270); (700, 260)] /\ 1000 < 1 / 100 * 101000.
Proof.
  assert (H : exists x y w, VertModel.height_from_pressure 29 9 0 (1 / 100) 101000 [(1000, Some 280); (850, Some 270); (700, Some 260)] = Ok [x; y; w])
    by (do 3 eexists; reflexivity).
  destruct H as (x & y & w & H).
  assert (Q : exists v, interp_level [x; y; w] (1 / 1) 1500 [Some 10; Some 20; Some 30] = Ok v) by (eexists; reflexivity).
  destruct Q as (v & Q). eexists. split.
  - cbv -[Rdiv IZR interp_level VertModel.height_from_pressure]. rewrite H. cbv -[Rdiv IZR interp_level]. rewrite Q. reflexivity.
  - split; [split; [reflexivity|split; reflexivity]|]. split; [split; [simpl; repeat constructor; simpl; intuition discriminate|simpl; auto]|].
    split; [left; split; reflexivity|]. split; [exists "pressure"%string, 1, 100; repeat split; auto|].
    split; [split; [reflexivity|]|split; [simpl; lra|lra]].
    clear. intros [|[|[|i]]] p v N; simpl in N; try (destruct i; discriminate); injection N as <- <-; simpl; eauto.
Qed.

Lemma C148_lost_proof : forall unit_of ratio gravity virtual cfg ds out pn psu pressures g tn tu temps tcol hn hu hums hcol pu c geopotential layers
    name names fu columns lu m targets j f k eta,
  program unit_of ratio gravity virtual cfg (Some ds) = Ok out -> FromPressure cfg ->
  pressure_name cfg = Some pn -> HasSurface ds pn (Some psu) pressures -> nth_error pressures j = Some g ->
  Ground cfg ds j geopotential ->
  temperature_name cfg = Some tn -> HasColumns ds tn tu temps -> nth_error temps j = Some tcol ->
  humidity_name cfg = Some hn -> HasColumns ds hn hu hums -> nth_error hums j = Some hcol ->
  dim_units ds = Some pu -> UnitIs unit_of psu pu c ->
  Layers virtual (levels ds) tcol hcol layers -> Atmosphere layers -> layers <> [] ->
  g = None \/ (exists ps, g = Some ps /\ ((exists t, In (c * ps, t) layers) \/ (forall p t, In (p, t) layers -> c * ps <= p))) ->
  fields cfg = Some names -> In name names -> HasColumns ds name fu columns -> nth_error columns j = Some f ->
  level_units cfg = Some lu -> Factor unit_of lu "meter" m -> 0 < m ->
  vertical_levels cfg = Some targets -> nth_error targets k = Some eta ->
  forall v, Written out name j k v <-> v = None.
Proof.
  intros unit_of ratio gravity virtual cfg ds out pn psu pressures g tn tu temps tcol hn hu hums hcol pu c geopotential layers
    name names fu columns lu m targets j f k eta E FP PN HP Pj GR TN HT Tj HN HH Hj DU UI LA AT NL LG NA IN HC Cj LU FA Mp TA Tk v.
  pose proof E as E0. apply program_inv in E0 as (zz & su & _ & _ & L & _).
  destruct (from_pressure _ _ _ _ _ _ _ _ _ _ _ _ _ _ _ _ _ _ _ FP L PN HP TN HT HN HH DU UI) as (-> & zs & Lz & GZ & ZW & LC).
  assert (Lj : (j < List.length pressures)%nat) by (apply nth_error_Some; congruence).
  destruct (zip_nth _ _ _ _ _ _ _ ZW (combine_nth_some _ _ _ _ _ (GZ _ _ GR Lj) Pj) (combine_nth_some _ _ _ _ _ Tj Hj)) as (zc & Ez & Nz).
  destruct (written_column _ _ _ _ _ _ _ _ _ _ _ _ _ _ _ _ _ _ _ E L LU FA TA NA IN HC Nz Cj) as (Le & vs & Ev & W).
  assert (Q : zc <> [] /\ forall q, (q < List.length zc)%nat -> Gap zc q).
  { unfold column_heights in Ez. cbn [fst snd] in Ez.
    rewrite (layers_combine virtual (levels ds) tcol hcol layers LA) in Ez by (apply LC; [left + right]; eapply nth_error_In; eauto).
    destruct LA as [ML _]. destruct LG as [->|(ps & -> & LG)].
    - destruct (levels ds) as [|l0 ls] eqn:EL; [destruct layers; [congruence|discriminate]|]. injection Ez as <-. split; [discriminate|].
      intros q Lq. unfold Gap. change (nth_error (map (fun _ : R => @None R) (l0 :: ls)) q = Some None). rewrite nth_error_map.
      destruct (nth_error (l0 :: ls) q) eqn:En; [reflexivity|]. apply nth_error_None in En. simpl in *. rewrite map_length in Lq. lia.
    - destruct (C46_on_level_proof ratio gravity geopotential c ps layers AT NL LG) as (hs & EH & LH & HG). rewrite EH in Ez. injection Ez as <-.
      split; [destruct hs; [destruct layers; [congruence|discriminate]|discriminate]|]. intros q Lq. apply HG. lia. }
  destruct Q as [NZ GP]. rewrite W. destruct (interp_nth _ _ _ _ _ _ _ Ev Tk) as (w & Ew & Nw). rewrite Nw.
  rewrite (all_gaps zc m f eta NZ GP Mp) in Ew by auto. injection Ew as <-. split; intros EQ; [injection EQ as <-; reflexivity|subst; reflexivity].
Qed.

Lemma C148_lost_case_proof : In (1 / 100 * 85000, 270) [(1000, 280); (850, 270); (700, 260)].
Proof.
  right. left. f_equal. lra.
Qed.

