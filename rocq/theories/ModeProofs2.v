From Coq Require Import Lqa.
From Verif Require Import PyBase ColumnModel BaseSpec BaseProofs FilterProofs CtcProofs EventProofs ModeModel ModeSpec ModeProofs.
Open Scope string_scope.

(* ---------- the objects of one type ---------- *)
Lemma forall2_and {A B} (R R' : A -> B -> Prop) l l' : Forall2 R l l' -> Forall2 R' l l' ->
  Forall2 (fun a b => R a b /\ R' a b) l l'.
Proof. intro H. induction H; intro H'; inversion H'; subst; constructor; auto. Qed.

Lemma kind_filter data columns objs k : FlagTable data columns objs -> KindTable data columns objs ->
  exists data', filter_any false (FRows data) (NpArray columns) [("object_type", FStr k)] = Ok (FRows data') /\
    FlagTable data' columns (of_kind k objs) /\
    (AreaTable data columns objs -> AreaTable data' columns (of_kind k objs)).
Proof.
  intros (HR & I1 & I2 & I3 & HF) (IK & HK).
  set (conds := [("object_type", FStr k)]).
  assert (E : filter_any false (FRows data) (NpArray columns) conds = Ok (FRows (filter (conds_bool columns conds) data))).
  { unfold filter_any, column_data_by_name_value. rewrite filter_loop_spec; [reflexivity|exact HR| |].
    - intros k' z [X|[]]. discriminate X.
    - intros k' v [X|[]]. injection X as <- _. exact IK. }
  exists (filter (conds_bool columns conds) data). split; [exact E|].
  set (RK := fun (r : list cell) o => exists i, ColumnAt columns "object_type" i /\ nth_error r i = Some (CStr (kind o))) in *.
  assert (SEL : forall r o, RK r o -> conds_bool columns conds r = String.eqb (kind o) k).
  { intros r o (i & Hi & Hr). cbn [conds_bool conds]. apply index_of_ColumnAt in Hi. rewrite Hi.
    unfold row_matches. rewrite Hr. simpl. now rewrite andb_true_r. }
  assert (GEN : forall R : list cell -> object -> Prop, Forall2 R data objs ->
            Forall2 R (filter (conds_bool columns conds) data) (of_kind k objs)).
  { intros R H. pose proof (forall2_and _ _ _ _ H HK) as B.
    apply (f2_impl (fun a b => R a b /\ RK a b)); [intros a b (X & _); exact X|].
    apply filter_forall2; [exact B|]. intros r o _ _ (_ & D). now apply SEL. }
  split.
  - split; [intros r Hr; apply filter_In in Hr; apply HR; tauto|]. repeat split; try assumption.
    apply GEN. exact HF.
  - intros (IA & HA). split; [exact IA|]. apply GEN. exact HA.
Qed.

(* ---------- sizes of classes ---------- *)
Definition count (name : string) (objs : list object) : Q :=
  inject_Z (Z.of_nat (length (filter (in_class name) objs))).
Lemma number_count name objs : number name objs = Some (count name objs).
Proof. reflexivity. Qed.
Lemma count_nonneg name objs : 0 <= count name objs.
Proof. unfold count. change 0 with (inject_Z 0). rewrite <- Zle_Qle. apply Zle_0_nat. Qed.

Definition splits (n1 n2 n : string) : Prop :=
  forall o, (Nat.b2n (in_class n1 o) + Nat.b2n (in_class n2 o) = Nat.b2n (in_class n o))%nat.

Lemma count_split n1 n2 n objs : splits n1 n2 n -> count n1 objs + count n2 objs == count n objs.
Proof.
  intro H. unfold count. rewrite <- inject_Z_plus, <- Nat2Z.inj_add.
  replace (length (filter (in_class n1) objs) + length (filter (in_class n2) objs))%nat
    with (length (filter (in_class n) objs)); [reflexivity|].
  induction objs as [|o l IH]; [reflexivity|]. cbn [filter]. specialize (H o).
  destruct (in_class n1 o), (in_class n2 o), (in_class n o); cbn [length Nat.b2n] in *; lia.
Qed.

Lemma unit_published (f : res pyval) a b q :
  (exists r, f = Ok r /\ Published (oratio (Some a) (Some b)) r) -> 0 <= a <= b ->
  f = Ok (Some q) -> 0 <= q <= 1.
Proof.
  intros H (A & B) E.
  apply (ratio_range f a b 0 1 q H); [exists 0%Z; reflexivity|exists 10000000%Z; reflexivity|lra|lra|lra|exact E].
Qed.

Lemma complement_published a b w r r' : ~ w == 0 -> a + b == w ->
  Published (oratio (Some a) (Some w)) (Some r) -> Published (oratio (Some b) (Some w)) (Some r') ->
  1 - (1 # 10000000) <= r + r' <= 1 + (1 # 10000000).
Proof.
  intros W S. simpl. destruct (Qeq_dec w 0) as [K|_]; [contradiction|].
  intros (_ & A1 & A2) (_ & B1 & B2).
  assert (E : a / w + b / w == 1).
  { transitivity ((a + b) / w); [field; exact W|]. rewrite S. field. exact W. }
  assert (H : half_unit 7 == 1 # 20000000) by reflexivity.
  rewrite H in *. lra.
Qed.

Lemma complement_count (f g : res pyval) n1 n2 n objs : splits n1 n2 n ->
  (exists r, f = Ok r /\ Published (oratio (number n1 objs) (number n objs)) r) ->
  (exists r, g = Ok r /\ Published (oratio (number n2 objs) (number n objs)) r) ->
  (f = Ok None /\ g = Ok None) \/
  exists a b, f = Ok (Some a) /\ g = Ok (Some b) /\ 1 - (1 # 10000000) <= a + b <= 1 + (1 # 10000000).
Proof.
  intros S (r & -> & P) (r' & -> & P'). rewrite !number_count in *.
  pose proof (count_split _ _ _ objs S) as E.
  destruct (Qeq_dec (count n objs) 0) as [K|K].
  - left. simpl in P, P'. destruct (Qeq_dec (count n objs) 0); [|contradiction].
    destruct r, r'; try contradiction. split; reflexivity.
  - right.
    destruct r as [x|], r' as [y|];
      try (exfalso; simpl in P, P'; destruct (Qeq_dec (count n objs) 0); [contradiction|contradiction]).
    exists x, y. repeat split; eauto using complement_published; eapply (complement_published _ _ _ _ _ K E); eassumption.
Qed.

(* ---------- areas of classes ---------- *)
Definition tarea (name : string) (objs : list object) : Q := qsum (areas (filter (in_class name) objs)).
Lemma total_tarea name objs s : total_area name objs = Some s -> s = tarea name objs.
Proof. unfold total_area, tarea. destruct (areas _); [discriminate|]. intro H. now injection H. Qed.

Lemma tarea_split n1 n2 n objs : splits n1 n2 n -> tarea n1 objs + tarea n2 objs == tarea n objs.
Proof.
  intro H. unfold tarea. induction objs as [|o l IH]; [reflexivity|]. cbn [filter]. specialize (H o).
  destruct (in_class n1 o), (in_class n2 o), (in_class n o); cbn [Nat.b2n] in H; try discriminate H;
    cbn [areas]; destruct (area o); unfold qsum in *; cbn [fold_right] in *; lra.
Qed.

Definition inside (n1 n : string) : Prop := forall o, in_class n1 o = true -> in_class n o = true.
Lemma tarea_nonneg n objs : (forall o a, In o objs -> area o = Some a -> 0 <= a) -> 0 <= tarea n objs.
Proof.
  intro H. unfold tarea. induction objs as [|o l IH]; [apply Qle_refl|]. cbn [filter].
  assert (0 <= qsum (areas (filter (in_class n) l))) by (apply IH; intros; eapply H; simpl; eauto).
  destruct (in_class n o); [|assumption]. cbn [areas]. destruct (area o) as [x|] eqn:E; [|assumption].
  assert (0 <= x) by (eapply H; simpl; eauto). unfold qsum in *; cbn [fold_right]; lra.
Qed.
Lemma tarea_inside n1 n objs : inside n1 n -> (forall o a, In o objs -> area o = Some a -> 0 <= a) ->
  tarea n1 objs <= tarea n objs.
Proof.
  intros I H. unfold tarea. induction objs as [|o l IH]; [apply Qle_refl|]. cbn [filter].
  assert (qsum (areas (filter (in_class n1) l)) <= qsum (areas (filter (in_class n) l)))
    by (apply IH; intros; eapply H; simpl; eauto).
  specialize (I o). destruct (in_class n1 o).
  - rewrite I by reflexivity. cbn [areas]. destruct (area o); [|assumption]. unfold qsum in *; cbn [fold_right]; lra.
  - destruct (in_class n o); [|assumption]. cbn [areas]. destruct (area o) as [x|] eqn:E; [|assumption].
    assert (0 <= x) by (eapply H; simpl; eauto). unfold qsum in *; cbn [fold_right]; lra.
Qed.

Lemma area_unit (f : res pyval) n1 n objs q : inside n1 n ->
  (forall o a, In o objs -> area o = Some a -> 0 <= a) ->
  (exists r, f = Ok r /\ Published (oratio (total_area n1 objs) (total_area n objs)) r) ->
  f = Ok (Some q) -> 0 <= q <= 1.
Proof.
  intros I H P E. destruct (total_area n1 objs) as [a|] eqn:A.
  2:{ destruct P as (r & E' & P). rewrite E in E'. injection E' as <-. contradiction. }
  destruct (total_area n objs) as [b|] eqn:B.
  2:{ destruct P as (r & E' & P). rewrite E in E'. injection E' as <-. contradiction. }
  apply total_tarea in A, B. subst a b. eapply unit_published; [exact P| |exact E].
  split; [now apply tarea_nonneg|now apply tarea_inside].
Qed.

Lemma area_unit2 (f : res pyval) n1 n2 objs q :
  (forall o a, In o objs -> area o = Some a -> 0 <= a) ->
  (exists r, f = Ok r /\ Published (oratio (total_area n1 objs) (oadd (total_area n1 objs) (omul (Some 2) (total_area n2 objs)))) r) ->
  f = Ok (Some q) -> 0 <= q <= 1.
Proof.
  intros H P E. destruct (total_area n1 objs) as [a|] eqn:A.
  2:{ destruct P as (r & E' & P). rewrite E in E'. injection E' as <-. contradiction. }
  destruct (total_area n2 objs) as [b|] eqn:B.
  2:{ destruct P as (r & E' & P). rewrite E in E'. injection E' as <-. contradiction. }
  apply total_tarea in A, B. subst a b. eapply unit_published; [exact P| |exact E].
  pose proof (tarea_nonneg n1 objs H). pose proof (tarea_nonneg n2 objs H). lra.
Qed.

Lemma complement_area (f g : res pyval) n1 n2 n objs a b : splits n1 n2 n ->
  (exists r, f = Ok r /\ Published (oratio (total_area n1 objs) (total_area n objs)) r) ->
  (exists r, g = Ok r /\ Published (oratio (total_area n2 objs) (total_area n objs)) r) ->
  f = Ok (Some a) -> g = Ok (Some b) ->
  1 - (1 # 10000000) <= a + b <= 1 + (1 # 10000000).
Proof.
  intros S (r & Ef & P) (r' & Eg & P') Fa Gb. rewrite Fa in Ef. rewrite Gb in Eg. injection Ef as <-. injection Eg as <-.
  destruct (total_area n1 objs) as [x|] eqn:A; [|contradiction].
  destruct (total_area n2 objs) as [y|] eqn:B; [|destruct (total_area n objs); contradiction].
  destruct (total_area n objs) as [z|] eqn:C; [|contradiction].
  apply total_tarea in A, B, C. subst x y z.
  assert (K : ~ tarea n objs == 0).
  { simpl in P. destruct (Qeq_dec (tarea n objs) 0); [contradiction|assumption]. }
  eapply (complement_published _ _ _ _ _ K (tarea_split _ _ _ objs S)); eassumption.
Qed.

(* ---------- count statistics that are not simple ratios ---------- *)
Section Others.
Variables (data : list (list cell)) (columns : list string) (objs : list object).
Hypothesis HT : FlagTable data columns objs.

Lemma count_half c1 n1 : flag_conds c1 -> (forall o, flags_ok c1 o = in_class n1 o) ->
  exists r, catch std_exns
      (nominator <- nrow_any (FRows data) (NpArray columns) c1 ;;
       pyround (Ok nominator [/] pylit 2)) None = Ok r /\
    Published (oratio (number n1 objs) (Some 2)) r.
Proof. intros F1 E1. rewrite (count_value _ _ _ _ _ HT F1 E1). cbn [bind]. apply (pub_ratio _ (Some 2)). Qed.
Lemma count_one c1 n1 : flag_conds c1 -> (forall o, flags_ok c1 o = in_class n1 o) ->
  exists r, catch std_exns
      (nominator <- nrow_any (FRows data) (NpArray columns) c1 ;;
       pyround (Ok nominator)) None = Ok r /\
    Published (number n1 objs) r.
Proof. intros F1 E1. rewrite (count_value _ _ _ _ _ HT F1 E1). cbn [bind]. apply (pub_one (number n1 objs)). Qed.
Lemma count_plain c1 n1 : flag_conds c1 -> (forall o, flags_ok c1 o = in_class n1 o) ->
  exists r, catch std_exns (nrow_any (FRows data) (NpArray columns) c1) None = Ok r /\
    Published (number n1 objs) r.
Proof.
  intros F1 E1. rewrite (count_value _ _ _ _ _ HT F1 E1). eexists; split; [reflexivity|].
  apply published_self. exists (Z.of_nat (length (filter (in_class n1) objs)) * 10000000)%Z.
  rewrite inject_Z_mult. reflexivity.
Qed.
Lemma count_two c1 c2 c3 n1 n2 n3 : flag_conds c1 -> flag_conds c2 -> flag_conds c3 ->
  (forall o, flags_ok c1 o = in_class n1 o) -> (forall o, flags_ok c2 o = in_class n2 o) ->
  (forall o, flags_ok c3 o = in_class n3 o) ->
  exists r, catch std_exns
      (nominator <- nrow_any (FRows data) (NpArray columns) c1 ;;
       denominator_1 <- nrow_any (FRows data) (NpArray columns) c2 ;;
       denominator_2 <- nrow_any (FRows data) (NpArray columns) c3 ;;
       pyround (Ok nominator [/] (Ok denominator_1 [+] (pylit 2 [*] Ok denominator_2)))) None = Ok r /\
    Published (oratio (number n1 objs) (oadd (number n2 objs) (omul (Some 2) (number n3 objs)))) r.
Proof.
  intros F1 F2 F3 E1 E2 E3.
  rewrite (count_value _ _ _ _ _ HT F1 E1), (count_value _ _ _ _ _ HT F2 E2), (count_value _ _ _ _ _ HT F3 E3).
  cbn [bind]. apply (pub_ratio (number n1 objs) (Some (count n2 objs + 2 * count n3 objs))).
Qed.
Lemma count_far c1 c2 c3 n1 n2 n3 : flag_conds c1 -> flag_conds c2 -> flag_conds c3 ->
  (forall o, flags_ok c1 o = in_class n1 o) -> (forall o, flags_ok c2 o = in_class n2 o) ->
  (forall o, flags_ok c3 o = in_class n3 o) ->
  exists r, catch std_exns
      (nominator <- nrow_any (FRows data) (NpArray columns) c1 ;;
       denominator_1 <- nrow_any (FRows data) (NpArray columns) c2 ;;
       denominator_2 <- nrow_any (FRows data) (NpArray columns) c3 ;;
       pyround (Ok nominator [/] (Ok denominator_1 [+] (Ok denominator_2 [/] pylit 2)))) None = Ok r /\
    Published (oratio (number n1 objs) (oadd (number n2 objs) (oratio (number n3 objs) (Some 2)))) r.
Proof.
  intros F1 F2 F3 E1 E2 E3.
  rewrite (count_value _ _ _ _ _ HT F1 E1), (count_value _ _ _ _ _ HT F2 E2), (count_value _ _ _ _ _ HT F3 E3).
  cbn [bind]. apply (pub_ratio (number n1 objs) (Some (count n2 objs + count n3 objs / 2))).
Qed.
End Others.

Ltac solve_count HT :=
  first [ solve_ratio HT
        | match goal with |- exists r, ?s _ _ = Ok r /\ _ => unfold s end;
          first [ eapply (count_half _ _ _ HT); [flagc|cls]
                | eapply (count_one _ _ _ HT); [flagc|cls]
                | eapply (count_plain _ _ _ HT); [flagc|cls]
                | eapply (count_two _ _ _ HT); [flagc|flagc|flagc|cls|cls|cls]
                | eapply (count_far _ _ _ HT); [flagc|flagc|flagc|cls|cls|cls] ] ].

Lemma area_ratio_value' data columns objs (HT : FlagTable data columns objs) (HA : AreaTable data columns objs) c1 c2 n1 n2 : flag_conds c1 -> flag_conds c2 ->
  (forall o, flags_ok c1 o = in_class n1 o) -> (forall o, flags_ok c2 o = in_class n2 o) ->
  exists r, catch std_exns
      (nominator_data <- filter_any true (FRows data) (NpArray columns) c1 ;;
       nominator <- sum_any nominator_data (NpArray columns) "area" ;;
       denominator_data <- filter_any true (FRows data) (NpArray columns) c2 ;;
       denominator <- sum_any denominator_data (NpArray columns) "area" ;;
       pyround (Ok nominator [//] Ok denominator)) None = Ok r /\
    Published (oratio (total_area n1 objs) (total_area n2 objs)) r.
Proof.
  intros F1 F2 E1 E2.
  destruct (area_value _ _ _ HT HA c1 n1 F1 E1) as (d1 & s1 & -> & A1 & O1).
  destruct (area_value _ _ _ HT HA c2 n2 F2 E2) as (d2 & s2 & -> & A2 & O2).
  cbn [bind]. rewrite A1. cbn [bind]. rewrite A2. cbn [bind]. destruct (pub_npratio s1 s2) as (r & E & P).
  exists r. split; [exact E|]. eapply published_compat; [|exact P]. now apply oratio_compat.
Qed.

Ltac solve_area2 HT HA :=
  first [ solve_area HT HA
        | match goal with |- exists r, ?s _ _ = Ok r /\ _ => unfold s end;
          eapply (area_ratio_value' _ _ _ HT HA); [flagc|flagc|cls|cls] ].

(* ---------- concrete tables ---------- *)
Definition obj_columns : list string := ["fcst_flag"; "simple_flag"; "matched_flag"; "area"; "object_type"].
Definition flag_cell (b : bool) : cell := CNum (if b then 1 else 0).
Definition obj_row (o : object) : list cell :=
  [flag_cell (forecast o); flag_cell (simple o); flag_cell (matched o);
   match area o with Some a => CNum a | None => CMiss end; CStr (kind o)].
Definition obj_table (objs : list object) : list (list cell) := map obj_row objs.

Lemma obj_col n i : index_of n obj_columns = Some i -> ColumnAt obj_columns n i.
Proof. apply index_of_ColumnAt. Qed.

Lemma obj_flags objs : FlagTable (obj_table objs) obj_columns objs.
Proof.
  split; [intros r Hr; apply in_map_iff in Hr; destruct Hr as (o & <- & _); reflexivity|].
  split; [simpl; tauto|]. split; [simpl; tauto|]. split; [simpl; tauto|].
  induction objs as [|o l IH]; [constructor|]. constructor; [|exact IH].
  split; [|split].
  - exists 0%nat. eexists. split; [apply obj_col; reflexivity|]. split; [reflexivity|]. destruct (forecast o); reflexivity.
  - exists 1%nat. eexists. split; [apply obj_col; reflexivity|]. split; [reflexivity|]. destruct (simple o); reflexivity.
  - exists 2%nat. eexists. split; [apply obj_col; reflexivity|]. split; [reflexivity|]. destruct (matched o); reflexivity.
Qed.
Lemma obj_areas objs : AreaTable (obj_table objs) obj_columns objs.
Proof.
  split; [simpl; tauto|]. induction objs as [|o l IH]; [constructor|]. constructor; [|exact IH].
  exists 3%nat. split; [apply obj_col; reflexivity|]. reflexivity.
Qed.
Lemma obj_kinds objs : KindTable (obj_table objs) obj_columns objs.
Proof.
  split; [simpl; tauto|]. induction objs as [|o l IH]; [constructor|]. constructor; [|exact IH].
  exists 4%nat. split; [apply obj_col; reflexivity|]. reflexivity.
Qed.

Definition sample_objects : list object :=
  let o f s m := Obj f s m (Some 1) "2d" in
  [o true true true; o true true false; o true true false; o false true true; o false true true; o false true true;
   o false true false; o false true false; o false true false; o false true false; o true false true].
Definition all_combinations : list object :=
  [Obj true true true (Some 3) "2d"; Obj true true false (Some 1) "2d"; Obj true false true (Some 2) "3d";
   Obj true false false None "2d"; Obj false true true (Some 4) "2d"; Obj false true false (Some (1 # 2)) "3d";
   Obj false false true (Some 1) "2d"; Obj false false false (Some 7) "2d"].

Ltac refute_sample :=
  let H := fresh in let r := fresh in let E := fresh in let P := fresh in
  let A := fresh in let B := fresh in
  intro H;
  first [ destruct (H _ _ sample_objects (obj_flags sample_objects) (obj_areas sample_objects)) as (r & E & P)
        | destruct (H _ _ sample_objects (obj_flags sample_objects)) as (r & E & P) ];
  vm_compute in E; injection E as <-; destruct P as (_ & A & B);
  first [ vm_compute in A; apply A; reflexivity | vm_compute in B; discriminate B ].
Ltac splitc := let o := fresh in intro o; destruct o as [[|] [|] [|] ? ?]; reflexivity.
Ltac insidec := let o := fresh in let H := fresh in intro o; destruct o as [[|] [|] [|] ? ?]; intro H; solve [reflexivity | discriminate H].

Lemma count_inside n1 n objs : inside n1 n -> count n1 objs <= count n objs.
Proof.
  intro I. unfold count. rewrite <- Zle_Qle. apply Nat2Z.inj_le.
  induction objs as [|o l IH]; [apply le_n|]. cbn [filter]. specialize (I o).
  destruct (in_class n1 o); [rewrite I by reflexivity; cbn [length]; lia|].
  destruct (in_class n o); cbn [length]; lia.
Qed.
Lemma part_unit (f : res pyval) n1 n objs q : inside n1 n ->
  (exists r, f = Ok r /\ Published (oratio (number n1 objs) (number n objs)) r) ->
  f = Ok (Some q) -> 0 <= q <= 1.
Proof.
  intros I P E. rewrite !number_count in P. eapply unit_published; [exact P| |exact E].
  split; [apply count_nonneg|now apply count_inside].
Qed.
Lemma count_multiple n objs : MultipleOf 7 (count n objs).
Proof.
  exists (Z.of_nat (length (filter (in_class n) objs)) * 10000000)%Z. unfold count. rewrite inject_Z_mult. reflexivity.
Qed.
Lemma half_multiple n objs : MultipleOf 7 (count n objs / 2).
Proof.
  exists (Z.of_nat (length (filter (in_class n) objs)) * 5000000)%Z. unfold count. rewrite inject_Z_mult.
  change (inject_Z (10 ^ Z.of_nat 7)) with (10000000 # 1). change (inject_Z 5000000) with (5000000 # 1). field.
Qed.
Lemma no_members {A} (p : A -> bool) l : (forall x, In x l -> p x = false) -> filter p l = [].
Proof.
  induction l as [|a l IH]; intro H; [reflexivity|]. simpl. rewrite H by (simpl; auto). apply IH. intros; apply H; simpl; auto.
Qed.

Lemma inverse_published x y a b : 0 <= x -> 0 <= y ->
  Published (oratio (Some x) (Some y)) (Some a) -> Published (oratio (Some y) (Some x)) (Some b) ->
  - ((a + b + 1) * (1 # 10000000)) <= a * b - 1 <= (a + b + 1) * (1 # 10000000).
Proof.
  intros X Y. simpl. destruct (Qeq_dec y 0) as [?|NY]; [contradiction|]. destruct (Qeq_dec x 0) as [?|NX]; [contradiction|].
  intros (_ & A1 & A2) (_ & B1 & B2).
  assert (H : half_unit 7 == 1 # 20000000) by reflexivity. rewrite H in *. clear H.
  assert (E : (x / y) * (y / x) == 1) by (field; split; assumption).
  pose proof (pos_of_nonneg _ X NX) as PX. pose proof (pos_of_nonneg _ Y NY) as PY.
  assert (0 <= x / y) by (apply Qle_shift_div_l; lra). assert (0 <= y / x) by (apply Qle_shift_div_l; lra).
  set (u := x / y) in *. set (v := y / x) in *. clearbody u v.
  set (h := 1 # 20000000) in *. assert (Hh : h == 1 # 20000000) by reflexivity.
  assert (T : (1 # 10000000) == 2 * h) by reflexivity. rewrite T.
  assert (h > 0) by reflexivity. assert (h < 1 # 10) by reflexivity. clearbody h.
  (* a = u + e, b = v + d with |e|, |d| <= h *)
  set (e := a - u). set (d := b - v).
  assert (Ea : a == u + e) by (unfold e; ring). assert (Eb : b == v + d) by (unfold d; ring).
  assert (-h <= e <= h) by (unfold e; lra). assert (-h <= d <= h) by (unfold d; lra). clearbody e d.
  assert (0 <= u * (h - d)) by (apply Qmult_le_0_compat; lra).
  assert (0 <= u * (h + d)) by (apply Qmult_le_0_compat; lra).
  assert (0 <= v * (h - e)) by (apply Qmult_le_0_compat; lra).
  assert (0 <= v * (h + e)) by (apply Qmult_le_0_compat; lra).
  assert (0 <= (h - e) * (h - d)) by (apply Qmult_le_0_compat; lra).
  assert (0 <= (h + e) * (h + d)) by (apply Qmult_le_0_compat; lra).
  assert (0 <= (h - e) * (h + d)) by (apply Qmult_le_0_compat; lra).
  assert (0 <= (h + e) * (h - d)) by (apply Qmult_le_0_compat; lra).
  assert (0 <= h * (h + e)) by (apply Qmult_le_0_compat; lra).
  assert (0 <= h * (h + d)) by (apply Qmult_le_0_compat; lra).
  assert (0 <= h * ((1 # 10) - h)) by (apply Qmult_le_0_compat; lra).
  assert (0 <= h * u) by (apply Qmult_le_0_compat; lra).
  assert (0 <= h * v) by (apply Qmult_le_0_compat; lra).
  assert (Eab : a * b == 1 + u * d + v * e + e * d) by (rewrite Ea, Eb, <- E; ring).
  rewrite Eab, Ea, Eb.
  assert (M1 : (u + e + (v + d) + 1) * (2 * h) == 2 * (h * u) + 2 * (h * v) + 2 * (h * e) + 2 * (h * d) + 2 * h) by ring.
  rewrite M1. split; lra.
Qed.

Lemma inverse_count (f g : res pyval) n1 n2 objs a b :
  (exists r, f = Ok r /\ Published (oratio (number n1 objs) (number n2 objs)) r) ->
  (exists r, g = Ok r /\ Published (oratio (number n2 objs) (number n1 objs)) r) ->
  f = Ok (Some a) -> g = Ok (Some b) ->
  - ((a + b + 1) * (1 # 10000000)) <= a * b - 1 <= (a + b + 1) * (1 # 10000000).
Proof.
  intros (r & Ef & P) (r' & Eg & P') Fa Gb. rewrite Fa in Ef. rewrite Gb in Eg. injection Ef as <-. injection Eg as <-.
  rewrite !number_count in *. eapply inverse_published; [| |exact P|exact P']; apply count_nonneg.
Qed.

(** The statements of PropertiesMode.v. *)
Lemma C24_ratios_follow_their_names_proof : forall data columns objs,
  FlagTable data columns objs ->
  Forall (fun '(stat, part, whole) =>
            exists r, stat (FRows data) (NpArray columns) = Ok r /\
                      Published (oratio (number part objs) (number whole objs)) r)
    [
        (calculate_ratio_asm_asa, "asm", "asa");
        (calculate_ratio_fsa_asa, "fsa", "asa");
        (calculate_ratio_osa_asa, "osa", "asa");
        (calculate_ratio_asu_asa, "asu", "asa");
        (calculate_ratio_osm_osa, "osm", "osa");
        (calculate_ratio_osu_osa, "osu", "osa");
        (calculate_ratio_fsu_asu, "fsu", "asu");
        (calculate_ratio_osu_asu, "osu", "asu");
        (calculate_ratio_fsa_aaa, "fsa", "aaa");
        (calculate_ratio_osa_aaa, "osa", "aaa");
        (calculate_ratio_fsa_faa, "fsa", "faa");
        (calculate_ratio_fca_faa, "fca", "faa");
        (calculate_ratio_osa_oaa, "osa", "oaa");
        (calculate_ratio_oca_oaa, "oca", "oaa");
        (calculate_ratio_fca_aca, "fca", "aca");
        (calculate_ratio_oca_aca, "oca", "aca");
        (calculate_ratio_fsa_osa, "fsa", "osa");
        (calculate_ratio_osa_fsa, "osa", "fsa");
        (calculate_ratio_aca_asa, "aca", "asa");
        (calculate_ratio_asa_aca, "asa", "aca");
        (calculate_ratio_fca_fsa, "fca", "fsa");
        (calculate_ratio_fsa_fca, "fsa", "fca");
        (calculate_ratio_oca_osa, "oca", "osa");
        (calculate_ratio_osa_oca, "osa", "oca")].
Proof.
  intros data columns objs HT.
  repeat (apply Forall_cons; [solve_count HT|]); apply Forall_nil.
Qed.

Lemma C24_2d_ratios_follow_their_names_proof : forall data columns objs,
  FlagTable data columns objs -> KindTable data columns objs ->
  Forall (fun '(stat, part, whole) =>
            exists r, stat (FRows data) (NpArray columns) = Ok r /\
                      Published (oratio (number part (of_kind "2d" objs)) (number whole (of_kind "2d" objs))) r)
    [
        (calculate_2d_ratio_asm_asa, "asm", "asa");
        (calculate_2d_ratio_fsa_asa, "fsa", "asa");
        (calculate_2d_ratio_osa_asa, "osa", "asa");
        (calculate_2d_ratio_asu_asa, "asu", "asa");
        (calculate_2d_ratio_osm_osa, "osm", "osa");
        (calculate_2d_ratio_osu_osa, "osu", "osa");
        (calculate_2d_ratio_fsu_asu, "fsu", "asu");
        (calculate_2d_ratio_osu_asu, "osu", "asu");
        (calculate_2d_ratio_fsa_aaa, "fsa", "aaa");
        (calculate_2d_ratio_osa_aaa, "osa", "aaa");
        (calculate_2d_ratio_fsa_faa, "fsa", "faa");
        (calculate_2d_ratio_fca_faa, "fca", "faa");
        (calculate_2d_ratio_osa_oaa, "osa", "oaa");
        (calculate_2d_ratio_oca_oaa, "oca", "oaa");
        (calculate_2d_ratio_fca_aca, "fca", "aca");
        (calculate_2d_ratio_oca_aca, "oca", "aca");
        (calculate_2d_ratio_fsa_osa, "fsa", "osa");
        (calculate_2d_ratio_osa_fsa, "osa", "fsa");
        (calculate_2d_ratio_aca_asa, "aca", "asa");
        (calculate_2d_ratio_asa_aca, "asa", "aca");
        (calculate_2d_ratio_fca_fsa, "fca", "fsa");
        (calculate_2d_ratio_fsa_fca, "fsa", "fca");
        (calculate_2d_ratio_oca_osa, "oca", "osa");
        (calculate_2d_ratio_osa_oca, "osa", "oca")].
Proof.
  intros data columns objs HT HK. destruct (kind_filter _ _ _ "2d" HT HK) as (data' & E & HT' & _).
  pose proof (C24_ratios_follow_their_names_proof _ _ _ HT') as H.
  rewrite !Forall_cons_iff in H. repeat match goal with H : _ /\ _ |- _ => destruct H end.
  repeat (apply Forall_cons; [match goal with |- exists r, ?s _ _ = _ /\ _ => unfold s, TWO_D_DATA_FILTER end; rewrite E; cbn [bind]; assumption|]); apply Forall_nil.
Qed.

Lemma C24_3d_ratios_follow_their_names_proof : forall data columns objs,
  FlagTable data columns objs -> KindTable data columns objs ->
  Forall (fun '(stat, part, whole) =>
            exists r, stat (FRows data) (NpArray columns) = Ok r /\
                      Published (oratio (number part (of_kind "3d" objs)) (number whole (of_kind "3d" objs))) r)
    [
        (calculate_3d_ratio_asm_asa, "asm", "asa");
        (calculate_3d_ratio_fsa_asa, "fsa", "asa");
        (calculate_3d_ratio_osa_asa, "osa", "asa");
        (calculate_3d_ratio_asu_asa, "asu", "asa");
        (calculate_3d_ratio_osm_osa, "osm", "osa");
        (calculate_3d_ratio_osu_osa, "osu", "osa");
        (calculate_3d_ratio_fsu_asu, "fsu", "asu");
        (calculate_3d_ratio_osu_asu, "osu", "asu");
        (calculate_3d_ratio_fsa_aaa, "fsa", "aaa");
        (calculate_3d_ratio_osa_aaa, "osa", "aaa");
        (calculate_3d_ratio_fsa_faa, "fsa", "faa");
        (calculate_3d_ratio_fca_faa, "fca", "faa");
        (calculate_3d_ratio_osa_oaa, "osa", "oaa");
        (calculate_3d_ratio_oca_oaa, "oca", "oaa");
        (calculate_3d_ratio_fca_aca, "fca", "aca");
        (calculate_3d_ratio_fsa_osa, "fsa", "osa");
        (calculate_3d_ratio_osa_fsa, "osa", "fsa");
        (calculate_3d_ratio_asa_aca, "asa", "aca");
        (calculate_3d_ratio_fca_fsa, "fca", "fsa");
        (calculate_3d_ratio_fsa_fca, "fsa", "fca");
        (calculate_3d_ratio_oca_osa, "oca", "osa");
        (calculate_3d_ratio_osa_oca, "osa", "oca")].
Proof.
  intros data columns objs HT HK. destruct (kind_filter _ _ _ "3d" HT HK) as (data' & E & HT' & _).
  pose proof (C24_ratios_follow_their_names_proof _ _ _ HT') as H.
  rewrite !Forall_cons_iff in H. repeat match goal with H : _ /\ _ |- _ => destruct H end.
  repeat (apply Forall_cons; [match goal with |- exists r, ?s _ _ = _ /\ _ => unfold s, THREE_D_DATA_FILTER end; rewrite E; cbn [bind]; assumption|]); apply Forall_nil.
Qed.

Lemma C24_parts_in_unit_interval_proof : forall data columns objs,
  FlagTable data columns objs ->
  Forall (fun stat => forall q, stat (FRows data) (NpArray columns) = Ok (Some q) -> 0 <= q <= 1)
    [
        calculate_ratio_asm_asa;
        calculate_ratio_fsa_asa;
        calculate_ratio_osa_asa;
        calculate_ratio_asu_asa;
        calculate_ratio_osm_osa;
        calculate_ratio_osu_osa;
        calculate_ratio_fsu_asu;
        calculate_ratio_osu_asu;
        calculate_ratio_fsa_aaa;
        calculate_ratio_osa_aaa;
        calculate_ratio_fsa_faa;
        calculate_ratio_fca_faa;
        calculate_ratio_osa_oaa;
        calculate_ratio_oca_oaa;
        calculate_ratio_fca_aca;
        calculate_ratio_oca_aca].
Proof.
  intros data columns objs HT. pose proof (C24_ratios_follow_their_names_proof _ _ _ HT) as H.
  rewrite !Forall_cons_iff in H. repeat match goal with H : _ /\ _ |- _ => destruct H end.
  repeat (apply Forall_cons; [intros q E; eapply (part_unit _ _ _ _ q); [| | exact E]; [| eassumption ]; insidec|]); apply Forall_nil.
Qed.

Lemma C24_complements_proof : forall data columns objs,
  FlagTable data columns objs ->
  Forall (fun '(stat, stat') =>
            (stat (FRows data) (NpArray columns) = Ok None /\ stat' (FRows data) (NpArray columns) = Ok None) \/
            exists a b, stat (FRows data) (NpArray columns) = Ok (Some a) /\
                        stat' (FRows data) (NpArray columns) = Ok (Some b) /\
                        1 - (1 # 10000000) <= a + b <= 1 + (1 # 10000000))
    [
        (calculate_ratio_asm_asa, calculate_ratio_asu_asa);
        (calculate_ratio_fsa_asa, calculate_ratio_osa_asa);
        (calculate_ratio_osm_osa, calculate_ratio_osu_osa);
        (calculate_ratio_fsu_asu, calculate_ratio_osu_asu);
        (calculate_ratio_fsa_faa, calculate_ratio_fca_faa);
        (calculate_ratio_osa_oaa, calculate_ratio_oca_oaa);
        (calculate_ratio_fca_aca, calculate_ratio_oca_aca)].
Proof.
  intros data columns objs HT. pose proof (C24_ratios_follow_their_names_proof _ _ _ HT) as H.
  rewrite !Forall_cons_iff in H. repeat match goal with H : _ /\ _ |- _ => destruct H end.
  repeat (apply Forall_cons; [eapply complement_count; [| eassumption | eassumption]; splitc|]); apply Forall_nil.
Qed.

Lemma C24_inverses_proof : forall data columns objs,
  FlagTable data columns objs ->
  Forall (fun '(stat, stat') =>
            forall a b, stat (FRows data) (NpArray columns) = Ok (Some a) ->
                        stat' (FRows data) (NpArray columns) = Ok (Some b) ->
                        - ((a + b + 1) * (1 # 10000000)) <= a * b - 1 <= (a + b + 1) * (1 # 10000000))
    [(calculate_ratio_fsa_osa, calculate_ratio_osa_fsa);
     (calculate_ratio_aca_asa, calculate_ratio_asa_aca);
     (calculate_ratio_fca_fsa, calculate_ratio_fsa_fca);
     (calculate_ratio_oca_osa, calculate_ratio_osa_oca)].
Proof.
  intros data columns objs HT. pose proof (C24_ratios_follow_their_names_proof _ _ _ HT) as H.
  rewrite !Forall_cons_iff in H. repeat match goal with H : _ /\ _ |- _ => destruct H end.
  repeat (apply Forall_cons; [intros a b Ea Eb; eapply inverse_count; [| | exact Ea | exact Eb]; eassumption|]); apply Forall_nil.
Qed.

Lemma C24_hits_misses_false_alarms_proof : forall data columns objs,
  FlagTable data columns objs ->
  Forall (fun '(stat, value) =>
            exists r, stat (FRows data) (NpArray columns) = Ok r /\ Published value r)
    [(calculate_objhits, oratio (number "asm" objs) (Some 2));
     (calculate_objmisses, number "osu" objs);
     (calculate_objfas, number "fsu" objs);
     (calculate_objfar, oratio (number "fsu" objs) (oadd (number "fsu" objs) (oratio (number "asm" objs) (Some 2))))].
Proof.
  intros data columns objs HT.
  repeat (apply Forall_cons; [solve_count HT|]); apply Forall_nil.
Qed.

Lemma C24_accounts_for_simple_objects_proof : forall data columns objs,
  FlagTable data columns objs ->
  exists h m f, calculate_objhits (FRows data) (NpArray columns) = Ok (Some h) /\
    calculate_objmisses (FRows data) (NpArray columns) = Ok (Some m) /\
    calculate_objfas (FRows data) (NpArray columns) = Ok (Some f) /\
    oeq (Some (2 * h + m + f)) (number "asa" objs).
Proof.
  intros data columns objs HT.
  assert (H : exists r, calculate_objhits (FRows data) (NpArray columns) = Ok r /\ Published (oratio (number "asm" objs) (Some 2)) r) by solve_count HT.
  assert (M : exists r, calculate_objmisses (FRows data) (NpArray columns) = Ok r /\ Published (number "osu" objs) r) by solve_count HT.
  assert (F : exists r, calculate_objfas (FRows data) (NpArray columns) = Ok r /\ Published (number "fsu" objs) r) by solve_count HT.
  destruct H as (h & -> & H), M as (m & -> & M), F as (f & -> & F). rewrite !number_count in *.
  destruct h as [h|]; [|contradiction]. destruct m as [m|]; [|contradiction]. destruct f as [f|]; [|contradiction].
  exists h, m, f. split; [reflexivity|]. split; [reflexivity|]. split; [reflexivity|]. simpl.
  assert (Eh : h == count "asm" objs / 2) by (apply published_exact; [apply half_multiple|exact H]).
  assert (Em : m == count "osu" objs) by (apply published_exact; [apply count_multiple|exact M]).
  assert (Ef : f == count "fsu" objs) by (apply published_exact; [apply count_multiple|exact F]).
  rewrite Eh, Em, Ef.
  assert (S1 : count "asm" objs + count "asu" objs == count "asa" objs) by (apply count_split; splitc).
  assert (S2 : count "fsu" objs + count "osu" objs == count "asu" objs) by (apply count_split; splitc).
  unfold number. fold (count "asa" objs). rewrite <- S1, <- S2. field.
Qed.

Lemma C24_deviating_ratios_actual_proof : forall data columns objs,
  FlagTable data columns objs ->
  Forall (fun '(stat, value) =>
            exists r, stat (FRows data) (NpArray columns) = Ok r /\ Published value r)
    [(calculate_ratio_fsm_fsa, oratio (number "fam" objs) (number "fsa" objs));
     (calculate_ratio_fsu_fsa, oratio (number "fsm" objs) (number "fsa" objs));
     (calculate_ratio_fsm_asm, oratio (number "fsu" objs) (number "asm" objs));
     (calculate_ratio_osm_asm, oratio (number "osu" objs) (number "asm" objs));
     (calculate_objcsi, oratio (number "fau" objs) (oadd (number "asm" objs) (omul (Some 2) (number "asu" objs))));
     (calculate_objpody, oratio (number "asm" objs) (oadd (number "asm" objs) (omul (Some 2) (number "fsu" objs))))].
Proof.
  intros data columns objs HT.
  repeat (apply Forall_cons; [solve_count HT|]); apply Forall_nil.
Qed.

Lemma C24_documented_ratios_refuted_proof :
  Forall (fun '(stat, documented) =>
            ~ (forall data columns objs, FlagTable data columns objs ->
                 exists r, stat (FRows data) (NpArray columns) = Ok r /\ Published (documented objs) r))
    [(calculate_ratio_fsm_fsa, fun objs => oratio (number "fsm" objs) (number "fsa" objs));
     (calculate_ratio_fsu_fsa, fun objs => oratio (number "fsu" objs) (number "fsa" objs));
     (calculate_ratio_fsm_asm, fun objs => oratio (number "fsm" objs) (number "asm" objs));
     (calculate_ratio_osm_asm, fun objs => oratio (number "osm" objs) (number "asm" objs));
     (calculate_objcsi, fun objs => oratio (number "asm" objs) (oadd (number "asm" objs) (omul (Some 2) (number "asu" objs))));
     (calculate_objpody, fun objs => oratio (number "asm" objs) (oadd (number "asm" objs) (omul (Some 2) (number "osu" objs))))].
Proof.
  repeat (apply Forall_cons; [refute_sample|]); apply Forall_nil.
Qed.

Lemma C24_fsm_fsa_range_refuted_proof :
  ~ (forall data columns objs q, FlagTable data columns objs ->
       calculate_ratio_fsm_fsa (FRows data) (NpArray columns) = Ok (Some q) -> q <= 1).
Proof.
  intro H.
  set (objs := [Obj true true true (Some 1) "2d"; Obj true false true (Some 1) "2d"]).
  specialize (H _ _ objs (20000000 # 10000000) (obj_flags objs)). vm_compute in H. apply H; reflexivity.
Qed.

Lemma C24_missing_flags_raise_proof : forall data columns,
  ~ In "fcst_flag" columns -> ~ In "simple_flag" columns -> ~ In "matched_flag" columns ->
  Forall (fun stat => stat (FRows data) (NpArray columns) = Err AttributeError)
    [
        calculate_ratio_asm_asa;
        calculate_ratio_fsa_asa;
        calculate_ratio_osa_asa;
        calculate_ratio_asu_asa;
        calculate_ratio_fsm_fsa;
        calculate_ratio_fsu_fsa;
        calculate_ratio_osm_osa;
        calculate_ratio_osu_osa;
        calculate_ratio_fsm_asm;
        calculate_ratio_osm_asm;
        calculate_ratio_fsu_asu;
        calculate_ratio_osu_asu;
        calculate_ratio_fsa_aaa;
        calculate_ratio_osa_aaa;
        calculate_ratio_fsa_faa;
        calculate_ratio_fca_faa;
        calculate_ratio_osa_oaa;
        calculate_ratio_oca_oaa;
        calculate_ratio_fca_aca;
        calculate_ratio_oca_aca;
        calculate_ratio_fsa_osa;
        calculate_ratio_osa_fsa;
        calculate_ratio_aca_asa;
        calculate_ratio_asa_aca;
        calculate_ratio_fca_fsa;
        calculate_ratio_fsa_fca;
        calculate_ratio_oca_osa;
        calculate_ratio_osa_oca;
        calculate_objhits;
        calculate_objmisses;
        calculate_objfas;
        calculate_objcsi;
        calculate_objpody;
        calculate_objfar].
Proof.
  intros data columns A B C. apply index_of_None in A, B, C.
  repeat (apply Forall_cons; [match goal with |- ?s _ _ = _ => unfold s end;
    unfold nrow_any, filter_any, column_data_by_name_value; cbn [filter_loop]; rewrite ?A, ?B, ?C; reflexivity|]); apply Forall_nil.
Qed.

Lemma C24_case_proof :
  exists data columns objs, FlagTable data columns objs /\ AreaTable data columns objs /\ KindTable data columns objs /\
    length objs = 8%nat /\
    calculate_ratio_osm_osa (FRows data) (NpArray columns) = Ok (Some (5000000 # 10000000)) /\
    calculate_ratio_osu_osa (FRows data) (NpArray columns) = Ok (Some (5000000 # 10000000)).
Proof.
  exists (obj_table all_combinations), obj_columns, all_combinations.
  split; [apply obj_flags|]. split; [apply obj_areas|]. split; [apply obj_kinds|]. repeat split; vm_compute; reflexivity.
Qed.

Lemma C25_area_ratios_follow_their_names_proof : forall data columns objs,
  FlagTable data columns objs -> AreaTable data columns objs ->
  Forall (fun '(stat, part, whole) =>
            exists r, stat (FRows data) (NpArray columns) = Ok r /\
                      Published (oratio (total_area part objs) (total_area whole objs)) r)
    [
        (calculate_arearat_fsa_asa, "fsa", "asa");
        (calculate_arearat_osa_asa, "osa", "asa");
        (calculate_arearat_asm_asa, "asm", "asa");
        (calculate_arearat_asu_asa, "asu", "asa");
        (calculate_arearat_fsm_fsa, "fsm", "fsa");
        (calculate_arearat_fsu_fsa, "fsu", "fsa");
        (calculate_arearat_osm_osa, "osm", "osa");
        (calculate_arearat_osu_osa, "osu", "osa");
        (calculate_arearat_osm_asm, "osm", "asm");
        (calculate_arearat_osu_asu, "osu", "asu");
        (calculate_arearat_fsa_aaa, "fsa", "aaa");
        (calculate_arearat_osa_aaa, "osa", "aaa");
        (calculate_arearat_fsa_faa, "fsa", "faa");
        (calculate_arearat_fca_faa, "fca", "faa");
        (calculate_arearat_osa_oaa, "osa", "oaa");
        (calculate_arearat_oca_oaa, "oca", "oaa");
        (calculate_arearat_fca_aca, "fca", "aca");
        (calculate_arearat_oca_aca, "oca", "aca");
        (calculate_arearat_fsa_osa, "fsa", "osa");
        (calculate_arearat_aca_asa, "aca", "asa");
        (calculate_arearat_asa_aca, "asa", "aca");
        (calculate_arearat_fca_fsa, "fca", "fsa");
        (calculate_arearat_fsa_fca, "fsa", "fca");
        (calculate_arearat_oca_osa, "oca", "osa");
        (calculate_arearat_osa_oca, "osa", "oca")].
Proof.
  intros data columns objs HT HA.
  repeat (apply Forall_cons; [solve_area2 HT HA|]); apply Forall_nil.
Qed.

Lemma C25_2d_area_ratios_follow_their_names_proof : forall data columns objs,
  FlagTable data columns objs -> AreaTable data columns objs -> KindTable data columns objs ->
  Forall (fun '(stat, part, whole) =>
            exists r, stat (FRows data) (NpArray columns) = Ok r /\
                      Published (oratio (total_area part (of_kind "2d" objs)) (total_area whole (of_kind "2d" objs))) r)
    [
        (calculate_2d_arearat_fsa_asa, "fsa", "asa");
        (calculate_2d_arearat_osa_asa, "osa", "asa");
        (calculate_2d_arearat_asm_asa, "asm", "asa");
        (calculate_2d_arearat_asu_asa, "asu", "asa");
        (calculate_2d_arearat_fsm_fsa, "fsm", "fsa");
        (calculate_2d_arearat_fsu_fsa, "fsu", "fsa");
        (calculate_2d_arearat_osm_osa, "osm", "osa");
        (calculate_2d_arearat_osu_osa, "osu", "osa");
        (calculate_2d_arearat_osm_asm, "osm", "asm");
        (calculate_2d_arearat_osu_asu, "osu", "asu");
        (calculate_2d_arearat_fsa_aaa, "fsa", "aaa");
        (calculate_2d_arearat_osa_aaa, "osa", "aaa");
        (calculate_2d_arearat_fsa_faa, "fsa", "faa");
        (calculate_2d_arearat_fca_faa, "fca", "faa");
        (calculate_2d_arearat_osa_oaa, "osa", "oaa");
        (calculate_2d_arearat_oca_oaa, "oca", "oaa");
        (calculate_2d_arearat_fca_aca, "fca", "aca");
        (calculate_2d_arearat_oca_aca, "oca", "aca");
        (calculate_2d_arearat_fsa_osa, "fsa", "osa");
        (calculate_2d_arearat_aca_asa, "aca", "asa");
        (calculate_2d_arearat_asa_aca, "asa", "aca");
        (calculate_2d_arearat_fca_fsa, "fca", "fsa");
        (calculate_2d_arearat_fsa_fca, "fsa", "fca");
        (calculate_2d_arearat_oca_osa, "oca", "osa");
        (calculate_2d_arearat_osa_oca, "osa", "oca")].
Proof.
  intros data columns objs HT HA HK. destruct (kind_filter _ _ _ "2d" HT HK) as (data' & E & HT' & HA').
  pose proof (C25_area_ratios_follow_their_names_proof _ _ _ HT' (HA' HA)) as H.
  rewrite !Forall_cons_iff in H. repeat match goal with H : _ /\ _ |- _ => destruct H end.
  repeat (apply Forall_cons; [match goal with |- exists r, ?s _ _ = _ /\ _ => unfold s, TWO_D_DATA_FILTER end; rewrite E; cbn [bind]; assumption|]); apply Forall_nil.
Qed.

Lemma C25_area_hits_misses_proof : forall data columns objs,
  FlagTable data columns objs -> AreaTable data columns objs ->
  Forall (fun '(stat, value) =>
            exists r, stat (FRows data) (NpArray columns) = Ok r /\ Published value r)
    [(calculate_objahits, oratio (total_area "asm" objs) (Some 2));
     (calculate_objamisses, total_area "osu" objs);
     (calculate_objafas, total_area "fsu" objs);
     (calculate_objacsi, oratio (total_area "asm" objs) (oadd (total_area "asm" objs) (omul (Some 2) (total_area "asu" objs))));
     (calculate_objapody, oratio (total_area "asm" objs) (oadd (total_area "asm" objs) (omul (Some 2) (total_area "osu" objs))))].
Proof.
  intros data columns objs HT HA.
  repeat (apply Forall_cons; [solve_area2 HT HA|]); apply Forall_nil.
Qed.

Lemma C25_parts_in_unit_interval_proof : forall data columns objs,
  FlagTable data columns objs -> AreaTable data columns objs ->
  (forall o a, In o objs -> area o = Some a -> 0 <= a) ->
  Forall (fun stat => forall q, stat (FRows data) (NpArray columns) = Ok (Some q) -> 0 <= q <= 1)
    [
        calculate_arearat_fsa_asa;
        calculate_arearat_osa_asa;
        calculate_arearat_asm_asa;
        calculate_arearat_asu_asa;
        calculate_arearat_fsm_fsa;
        calculate_arearat_fsu_fsa;
        calculate_arearat_osm_osa;
        calculate_arearat_osu_osa;
        calculate_arearat_osm_asm;
        calculate_arearat_osu_asu;
        calculate_arearat_fsa_aaa;
        calculate_arearat_osa_aaa;
        calculate_arearat_fsa_faa;
        calculate_arearat_fca_faa;
        calculate_arearat_osa_oaa;
        calculate_arearat_oca_oaa;
        calculate_arearat_fca_aca;
        calculate_arearat_oca_aca;
        calculate_objacsi;
        calculate_objapody].
Proof.
  intros data columns objs HT HA N. pose proof (C25_area_ratios_follow_their_names_proof _ _ _ HT HA) as H.
  rewrite !Forall_cons_iff in H. repeat match goal with H : _ /\ _ |- _ => destruct H end.
  pose proof (C25_area_hits_misses_proof _ _ _ HT HA) as HX. rewrite !Forall_cons_iff in HX. repeat match goal with H : _ /\ _ |- _ => destruct H end.
  repeat (apply Forall_cons; [intros q E; first
     [ eapply (area_unit _ _ _ _ q); [| exact N | | exact E]; [| eassumption]; insidec
     | eapply (area_unit2 _ _ _ _ q); [exact N | | exact E]; eassumption ]|]); apply Forall_nil.
Qed.

Lemma C25_complements_proof : forall data columns objs,
  FlagTable data columns objs -> AreaTable data columns objs ->
  Forall (fun '(stat, stat') =>
            forall a b, stat (FRows data) (NpArray columns) = Ok (Some a) ->
                        stat' (FRows data) (NpArray columns) = Ok (Some b) ->
                        1 - (1 # 10000000) <= a + b <= 1 + (1 # 10000000))
    [
        (calculate_arearat_asm_asa, calculate_arearat_asu_asa);
        (calculate_arearat_fsa_asa, calculate_arearat_osa_asa);
        (calculate_arearat_fsm_fsa, calculate_arearat_fsu_fsa);
        (calculate_arearat_osm_osa, calculate_arearat_osu_osa);
        (calculate_arearat_fsa_faa, calculate_arearat_fca_faa);
        (calculate_arearat_osa_oaa, calculate_arearat_oca_oaa);
        (calculate_arearat_fca_aca, calculate_arearat_oca_aca)].
Proof.
  intros data columns objs HT HA. pose proof (C25_area_ratios_follow_their_names_proof _ _ _ HT HA) as H.
  rewrite !Forall_cons_iff in H. repeat match goal with H : _ /\ _ |- _ => destruct H end.
  repeat (apply Forall_cons; [intros a b Ea Eb; eapply complement_area; [| | | exact Ea | exact Eb]; [| eassumption | eassumption]; splitc|]); apply Forall_nil.
Qed.

Lemma C25_deviating_areas_actual_proof : forall data columns objs,
  FlagTable data columns objs -> AreaTable data columns objs ->
  Forall (fun '(stat, value) =>
            exists r, stat (FRows data) (NpArray columns) = Ok r /\ Published value r)
    [(calculate_arearat_fsm_asm, oratio (total_area "fsu" objs) (total_area "fsa" objs));
     (calculate_arearat_osa_fsa, oratio (total_area "osa" objs) (total_area "osa" objs));
     (calculate_objafar, oratio (total_area "fsu" objs) (oadd (total_area "fsu" objs) (omul (Some 2) (total_area "asm" objs))))].
Proof.
  intros data columns objs HT HA.
  repeat (apply Forall_cons; [solve_area2 HT HA|]); apply Forall_nil.
Qed.

Lemma C25_osa_fsa_constant_proof : forall data columns objs q,
  FlagTable data columns objs -> AreaTable data columns objs ->
  calculate_arearat_osa_fsa (FRows data) (NpArray columns) = Ok (Some q) -> q == 1.
Proof.
  intros data columns objs q HT HA E.
  assert (H : exists r, calculate_arearat_osa_fsa (FRows data) (NpArray columns) = Ok r /\ Published (oratio (total_area "osa" objs) (total_area "osa" objs)) r) by solve_area2 HT HA.
  destruct (value_inv _ _ _ H E) as (v & V & P). destruct (total_area "osa" objs) as [a|]; [|discriminate V].
  apply oratio_Some in V. destruct V as (N & ->). apply published_exact; [exists 10000000%Z; reflexivity|].
  eapply published_compat; [|exact P]. simpl. field. exact N.
Qed.

Lemma C25_documented_areas_refuted_proof :
  Forall (fun '(stat, documented) =>
            ~ (forall data columns objs, FlagTable data columns objs -> AreaTable data columns objs ->
                 exists r, stat (FRows data) (NpArray columns) = Ok r /\ Published (documented objs) r))
    [(calculate_arearat_fsm_asm, fun objs => oratio (total_area "fsm" objs) (total_area "asm" objs));
     (calculate_arearat_osa_fsa, fun objs => oratio (total_area "osa" objs) (total_area "fsa" objs));
     (calculate_objafar, fun objs => oratio (total_area "fsu" objs)
                           (oadd (total_area "fsu" objs) (oratio (total_area "asm" objs) (Some 2))))].
Proof.
  repeat (apply Forall_cons; [refute_sample|]); apply Forall_nil.
Qed.

Lemma C25_perfect_forecast_undefined_proof : forall data columns objs,
  FlagTable data columns objs -> AreaTable data columns objs ->
  (forall o, In o objs -> simple o = true -> matched o = true) ->
  calculate_objacsi (FRows data) (NpArray columns) = Ok None /\
  calculate_objapody (FRows data) (NpArray columns) = Ok None.
Proof.
  intros data columns objs HT HA N.
  assert (Z : forall n, inside n "asu" -> total_area n objs = None).
  { intros n I. unfold total_area. replace (filter (in_class n) objs) with (@nil object); [reflexivity|]. symmetry.
    apply no_members. intros o Ho. destruct (in_class n o) eqn:E; [|reflexivity]. exfalso. apply I in E. specialize (N o Ho).
    destruct o as [[|] [|] [|] ? ?]; try discriminate E; discriminate (N eq_refl). }
  assert (A : exists r, calculate_objacsi (FRows data) (NpArray columns) = Ok r /\ Published (oratio (total_area "asm" objs) (oadd (total_area "asm" objs) (omul (Some 2) (total_area "asu" objs)))) r) by solve_area2 HT HA.
  assert (B : exists r, calculate_objapody (FRows data) (NpArray columns) = Ok r /\ Published (oratio (total_area "asm" objs) (oadd (total_area "asm" objs) (omul (Some 2) (total_area "osu" objs)))) r) by solve_area2 HT HA.
  destruct A as (a & -> & A), B as (b & -> & B). rewrite (Z "asu") in A by insidec. rewrite (Z "osu") in B by insidec.
  destruct (total_area "asm" objs); destruct a, b; try contradiction; split; reflexivity.
Qed.

Lemma C25_volume_statistics_undefined_proof : forall data columns,
  Forall (fun stat => stat (FRows data) (NpArray columns) = Ok None)
    [
        calculate_3d_volrat_fsa_asa;
        calculate_3d_volrat_osa_asa;
        calculate_3d_volrat_asm_asa;
        calculate_3d_volrat_asu_asa;
        calculate_3d_volrat_fsm_fsa;
        calculate_3d_volrat_fsu_fsa;
        calculate_3d_volrat_osm_osa;
        calculate_3d_volrat_osu_osa;
        calculate_3d_volrat_fsm_asm;
        calculate_3d_volrat_osm_asm;
        calculate_3d_volrat_osu_asu;
        calculate_3d_volrat_fsa_aaa;
        calculate_3d_volrat_osa_aaa;
        calculate_3d_volrat_fsa_faa;
        calculate_3d_volrat_fca_faa;
        calculate_3d_volrat_osa_oaa;
        calculate_3d_volrat_oca_oaa;
        calculate_3d_volrat_fca_aca;
        calculate_3d_volrat_oca_aca;
        calculate_3d_volrat_fsa_osa;
        calculate_3d_volrat_osa_fsa;
        calculate_3d_volrat_aca_asa;
        calculate_3d_volrat_asa_aca;
        calculate_3d_volrat_fca_fsa;
        calculate_3d_volrat_fsa_fca;
        calculate_3d_volrat_oca_osa;
        calculate_3d_volrat_osa_oca;
        calculate_3d_objvhits;
        calculate_3d_objvmisses;
        calculate_3d_objvfas;
        calculate_3d_objvcsi;
        calculate_3d_objvpody;
        calculate_3d_objvfar].
Proof.
  intros data columns.
  repeat (apply Forall_cons; [reflexivity|]); apply Forall_nil.
Qed.

(** Two objects that match; their cluster is not matched and has no area. *)
Definition matched_pair : list object :=
  [Obj true true true (Some 12) "2d"; Obj false true true (Some 9) "2d"; Obj false false false None "2d"].

Lemma C25_case_proof : exists data columns objs, FlagTable data columns objs /\ AreaTable data columns objs /\
    (forall o a, In o objs -> area o = Some a -> 0 <= a) /\
    (forall o, In o objs -> simple o = true -> matched o = true) /\
    total_area "fsm" objs = Some 12 /\ calculate_arearat_osm_osa (FRows data) (NpArray columns) = Ok (Some (10000000 # 10000000)) /\
    calculate_objacsi (FRows data) (NpArray columns) = Ok None.
Proof.
  exists (obj_table matched_pair), obj_columns, matched_pair.
  split; [apply obj_flags|]. split; [apply obj_areas|].
  split; [intros o a [<-|[<-|[<-|[]]]] E; inversion E; discriminate|].
  split; [intros o [<-|[<-|[<-|[]]]]; auto|]. repeat split; vm_compute; reflexivity.
Qed.
