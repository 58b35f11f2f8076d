(** Proofs about writing an interpolated dataset. *)
From Verif Require Import PyBase ColumnModel EventModel BlockProofs WriteModel WriteSpec.
From Coq Require Import Qabs Lqa String Ascii List Lia.
Import ListNotations.
Open Scope string_scope.
Open Scope Z_scope.
Open Scope list_scope.

(* ---------- names ---------- *)
Lemma names_out {A} (nm : A -> string) n (l : list A) : ~ In n (map nm l) -> existsb (fun w => String.eqb n (nm w)) l = false.
Proof.
  intro H. apply Bool.not_true_iff_false. intro X. apply existsb_exists in X. destruct X as (w & I & E). apply String.eqb_eq in E. apply H. rewrite E. apply in_map. exact I.
Qed.
Lemma names_in {A} (nm : A -> string) n (l : list A) : In n (map nm l) -> existsb (fun w => String.eqb n (nm w)) l = true.
Proof. intro H. apply in_map_iff in H. destruct H as (w & E & I). apply existsb_exists. exists w. split; [exact I|]. rewrite E. apply String.eqb_refl. Qed.
Lemma create_dim_ok name n f : ~ In name (map fst (ncdims f)) -> create_dim name n f = Ok {| ncdims := ncdims f ++ [(name, n)]; ncvars := ncvars f; ncattrs := ncattrs f |}.
Proof. intro H. unfold create_dim. rewrite (names_out fst name (ncdims f) H). reflexivity. Qed.
Lemma create_var_ok v f : ~ In (vname v) (map vname (ncvars f)) -> create_var v f = Ok {| ncdims := ncdims f; ncvars := ncvars f ++ [v]; ncattrs := ncattrs f |}.
Proof. intro H. unfold create_var. rewrite (names_out vname (vname v) (ncvars f) H). reflexivity. Qed.
Lemma kept_iff t : kept t = true <-> KeptType t.
Proof. unfold KeptType. destruct t; cbn; split; intro H; try discriminate; try reflexivity; intuition discriminate. Qed.

(* ---------- dimensions ---------- *)
Definition coord_var (d : string * coord) : ncvar :=
  match snd d with
  | Numbers t v => {| vname := fst d; vtype := t; vdims := [fst d]; vvalues := v; vattrs := [] |}
  | Times v =>
      let u := map micro v in
      {| vname := fst d; vtype := Float64; vdims := [fst d];
         vvalues := map (fun t => Some (seconds (t - match u with [] => 0 | t0 :: _ => t0 end))) u; vattrs := [] |}
  end.
Definition dim_of (d : string * coord) : string * nat := (fst d, SizeOf (snd d)).
Lemma coord_name d : vname (coord_var d) = fst d.
Proof. destruct d as [n [t v|v]]; reflexivity. Qed.
Lemma write_dim_ok d f : GoodDim d -> ~ In (fst d) (map fst (ncdims f)) -> ~ In (fst d) (map vname (ncvars f)) ->
  write_dim d f = Ok {| ncdims := ncdims f ++ [dim_of d]; ncvars := ncvars f ++ [coord_var d]; ncattrs := ncattrs f |}.
Proof.
  destruct d as [n [t v|v]]; unfold GoodDim; cbn [fst snd]; intros G D V.
  - destruct G as [K N]. unfold write_dim. destruct (String.eqb_spec n "time") as [E|_]; [destruct (N E)|]. rewrite (proj2 (kept_iff t) K). cbn [orb negb].
    rewrite create_dim_ok by exact D. cbn [bind]. rewrite create_var_ok by exact V. unfold coord_type. rewrite (proj2 (kept_iff t) K). reflexivity.
  - subst n. unfold write_dim. cbn [String.eqb Ascii.eqb Bool.eqb negb]. rewrite create_dim_ok by exact D. cbn [bind]. rewrite create_var_ok by exact V.
    unfold dim_of, coord_var. cbn [SizeOf fst snd]. reflexivity.
Qed.
Lemma write_dims l : forall f, Forall GoodDim l -> NoDup (map fst l) -> (forall n, In n (map fst l) -> ~ In n (map fst (ncdims f)) /\ ~ In n (map vname (ncvars f))) ->
  each write_dim l f = Ok {| ncdims := ncdims f ++ map dim_of l; ncvars := ncvars f ++ map coord_var l; ncattrs := ncattrs f |}.
Proof.
  induction l as [|d l IH]; intros f G N O.
  - cbn. rewrite !app_nil_r. destruct f; reflexivity.
  - cbn [each]. inversion G as [|? ? G1 G2]; subst. inversion N as [|? ? N1 N2]; subst. destruct (O (fst d)) as [O1 O2]; [left; reflexivity|].
    rewrite write_dim_ok by assumption. cbn [bind]. rewrite IH; [|exact G2|exact N2|].
    + cbn [ncdims ncvars ncattrs map]. rewrite <- !app_assoc. reflexivity.
    + intros n I. destruct (O n) as [P1 P2]; [right; exact I|]. cbn [ncdims ncvars]. rewrite !map_app. cbn [map]. rewrite coord_name. cbn [dim_of fst].
      split; intro X; apply in_app_iff in X; destruct X as [X|[<-|[]]]; try contradiction; apply N1; exact I.
Qed.

(* ---------- attributes ---------- *)
Lemma put_attr_new a l : ~ In (fst a) (map fst l) -> put_attr a l = l ++ [a].
Proof.
  induction l as [|b l IH]; intro H; [reflexivity|]. cbn [put_attr map] in *. destruct (String.eqb_spec (fst a) (fst b)) as [E|_]; [destruct H; left; auto|].
  rewrite IH; [reflexivity|]. intro X. apply H. right. exact X.
Qed.
Lemma put_attrs l : forall m, NoDup (map fst (m ++ l)) -> fold_left (fun l a => put_attr a l) l m = m ++ l.
Proof.
  induction l as [|a l IH]; intros m N; [symmetry; apply app_nil_r|]. cbn [fold_left]. rewrite put_attr_new.
  - rewrite IH; [rewrite <- app_assoc; reflexivity|]. rewrite <- app_assoc. exact N.
  - intro X. rewrite map_app in N. cbn [map] in N. apply NoDup_remove_2 in N. apply N. apply in_app_iff. left. exact X.
Qed.
Definition with_attrs (v : ncvar) (l : list (string * string)) : ncvar :=
  {| vname := vname v; vtype := vtype v; vdims := vdims v; vvalues := vvalues v; vattrs := l |}.
Lemma each_attrs l : forall v vs d a, ~ In (vname v) (map vname vs) ->
  each (put_var_attr (Some (vname v))) l {| ncdims := d; ncvars := vs ++ [v]; ncattrs := a |}
  = Ok {| ncdims := d; ncvars := vs ++ [with_attrs v (fold_left (fun l a => put_attr a l) l (vattrs v))]; ncattrs := a |}.
Proof.
  induction l as [|b l IH]; intros v vs d a N; [cbn; destruct v; reflexivity|]. cbn [each put_var_attr bind ncvars ncdims ncattrs]. rewrite map_app. cbn [map].
  rewrite String.eqb_refl. rewrite (map_ext_in _ (fun w => w)).
  - rewrite map_id. exact (IH (with_attrs v (put_attr b (vattrs v))) vs d a N).
  - intros w I. destruct (String.eqb_spec (vname v) (vname w)) as [E|_]; [|reflexivity]. destruct N. rewrite E. apply in_map. exact I.
Qed.

(* ---------- fields ---------- *)
Definition store (t : dtype) (v : pyval) : pyval := if kept t then v else match v with Some q => Some (inject_Z (Qfloor q mod 2 ^ 64)) | None => None end.
Lemma stored_good x : GoodField x -> mapM (stored (ftype x)) (fvalues x) = Ok (map (store (ftype x)) (fvalues x)).
Proof.
  intros [[K|[S F]] _].
  - apply kept_iff in K. unfold stored, store. rewrite K. induction (fvalues x) as [|v l IH]; [reflexivity|]. cbn [mapM]. rewrite IH. reflexivity.
  - assert (K : kept (ftype x) = false) by (unfold SmallType in S; destruct (ftype x); cbn in S; intuition discriminate || reflexivity).
    induction (fvalues x) as [|v l IH]; [reflexivity|]. inversion F as [|? ? (z & ->) F']; subst. cbn [mapM map]. rewrite IH by exact F'.
    replace (stored (ftype x) (Some (inject_Z z))) with (Ok (store (ftype x) (Some (inject_Z z)))); [reflexivity|].
    unfold stored, store. rewrite K. unfold SmallType in S. destruct (ftype x); cbn in S; intuition discriminate || reflexivity.
Qed.
Definition field_var (c : bool) (x : field) : ncvar :=
  {| vname := fname x; vtype := field_type (ftype x); vdims := if c then "valid_time"%string :: fdims x else fdims x;
     vvalues := map (store (ftype x)) (fvalues x); vattrs := fattrs x |}.
Lemma write_field_ok c x var f : GoodField x -> (c && String.eqb (fname x) "valid_time") = false -> ~ In (fname x) (map vname (ncvars f)) ->
  write_field c x (var, f) = Ok (Some (fname x), {| ncdims := ncdims f; ncvars := ncvars f ++ [field_var c x]; ncattrs := ncattrs f |}).
Proof.
  intros G E N. unfold write_field. rewrite E. rewrite stored_good by exact G. cbn [bind]. rewrite create_var_ok by exact N. cbn [bind].
  set (v0 := {| vname := fname x; vtype := field_type (ftype x); vdims := if c then "valid_time"%string :: fdims x else fdims x; vvalues := map (store (ftype x)) (fvalues x); vattrs := [] |}).
  pose proof (each_attrs (fattrs x) v0 (ncvars f) (ncdims f) (ncattrs f) N) as A. cbn [vname v0] in A. rewrite A. cbn [bind]. unfold with_attrs, v0. cbn [vattrs vname vtype vdims vvalues].
  rewrite (put_attrs (fattrs x) []) by exact (proj2 G). reflexivity.
Qed.
Definition time_field (c : bool) (x : field) : bool := c && String.eqb (fname x) "valid_time".
Lemma write_fields c l : forall var f, Forall GoodField l -> NoDup (map fname l) ->
  (forall n, In n (map fname l) -> (c = true /\ n = "valid_time"%string) \/ ~ In n (map vname (ncvars f))) ->
  (forall x, In x l -> time_field c x = true -> fattrs x = []) ->
  exists var', each (write_field c) l (var, f) = Ok (var', {| ncdims := ncdims f; ncvars := ncvars f ++ map (field_var c) (filter (fun x => negb (time_field c x)) l); ncattrs := ncattrs f |}).
Proof.
  induction l as [|x l IH]; intros var f G N O A.
  - exists var. cbn. rewrite app_nil_r. destruct f; reflexivity.
  - inversion G as [|? ? G1 G2]; subst. inversion N as [|? ? N1 N2]; subst. cbn [each filter]. destruct (time_field c x) eqn:T.
    + assert (E : write_field c x (var, f) = Ok (var, f)).
      { unfold write_field. unfold time_field in T. rewrite T. cbn [bind]. rewrite (A x (or_introl eq_refl)) by exact T. reflexivity. }
      rewrite E. cbn [bind negb]. apply IH; try assumption.
      * intros n I. apply O. right. exact I.
      * intros y I. apply A. right. exact I.
    + assert (NX : ~ In (fname x) (map vname (ncvars f))).
      { destruct (O (fname x)) as [[C V]|V]; [left; reflexivity| |exact V]. unfold time_field in T. rewrite C, V in T. discriminate. }
      rewrite (write_field_ok c x var f G1 T NX). cbn [bind negb].
      match goal with |- context [each _ l (?v, ?g)] => destruct (IH v g) as (var' & E) end; try assumption.
      * intros n I. destruct (O n (or_intror I)) as [P|P]; [left; exact P|right]. cbn [ncvars]. rewrite map_app. cbn [map vname field_var]. intro X. apply in_app_iff in X.
        destruct X as [X|[<-|[]]]; [contradiction|]. apply N1. exact I.
      * intros y I. apply A. right. exact I.
      * exists var'. rewrite E. cbn [ncdims ncvars ncattrs map]. rewrite <- app_assoc. reflexivity.
Qed.

(* ---------- the file ---------- *)
Definition plain (ds : dset) : ncfile :=
  {| ncdims := map dim_of (dims ds); ncvars := map coord_var (dims ds) ++ map (field_var false) (fields ds); ncattrs := dattrs ds |}.
Lemma filter_true {A} (l : list A) : filter (fun _ => true) l = l.
Proof. induction l as [|a l IH]; [reflexivity|]. cbn. rewrite IH. reflexivity. Qed.
Lemma nodup_left {A} (l m : list A) : NoDup (l ++ m) -> NoDup l.
Proof. induction l as [|a l IH]; intro H; [constructor|]. inversion H; subst. constructor; [intro X; apply H2; apply in_app_iff; left; exact X|apply IH; assumption]. Qed.
Lemma nodup_right {A} (l m : list A) : NoDup (l ++ m) -> NoDup m.
Proof. induction l as [|a l IH]; intro H; [exact H|]. inversion H; subst. apply IH. assumption. Qed.
Lemma nodup_apart {A} (l m : list A) a : NoDup (l ++ m) -> In a l -> In a m -> False.
Proof. induction l as [|b l IH]; intros H I J; [destruct I|]. inversion H; subst. destruct I as [->|I]; [apply H2; apply in_app_iff; right; exact J|exact (IH H3 I J)]. Qed.
Lemma coord_names l : map vname (map coord_var l) = map fst l.
Proof. rewrite map_map. apply map_ext. exact coord_name. Qed.
Lemma dim_names l : map fst (map dim_of l) = map fst l.
Proof. rewrite map_map. reflexivity. Qed.
Lemma dims_part ds : GoodSet ds -> each write_dim (dims ds) {| ncdims := []; ncvars := []; ncattrs := [] |} = Ok {| ncdims := map dim_of (dims ds); ncvars := map coord_var (dims ds); ncattrs := [] |}.
Proof. intros (N & G & _ & _). rewrite write_dims; [reflexivity|exact G|exact (nodup_left _ _ N)|]. intros n _. cbn. auto. Qed.
Lemma plain_run tt off ds ref : GoodSet ds -> write_dataset tt off ds ref false = match ref with None => Ok (plain ds) | Some r => write_ref_time off r (plain ds) end.
Proof.
  intro H. pose proof H as (N & G & F & A). unfold write_dataset. rewrite dims_part by exact H. cbn [bind].
  destruct (write_fields false (fields ds) None {| ncdims := map dim_of (dims ds); ncvars := map coord_var (dims ds); ncattrs := [] |} F (nodup_right _ _ N)) as (var & E).
  - intros n I. right. cbn [ncvars]. rewrite coord_names. intro X. exact (nodup_apart _ _ _ N X I).
  - intros x _ T. discriminate T.
  - rewrite E. cbn [bind snd ncdims ncvars ncattrs]. unfold time_field. cbn [andb negb]. rewrite filter_true. rewrite (put_attrs (dattrs ds) []) by exact A. reflexivity.
Qed.

(* ---------- times ---------- *)
Lemma micro_near ns : -500 <= 1000 * micro ns - ns <= 500.
Proof.
  unfold micro. pose proof (Z.div_mod ns 1000 ltac:(lia)) as D. pose proof (Z.mod_pos_bound ns 1000 ltac:(lia)) as B. cbv zeta.
  destruct (Z.ltb_spec (ns mod 1000) 500); [lia|]. destruct (Z.ltb_spec 500 (ns mod 1000)); [lia|]. destruct (Z.even (ns / 1000)); lia.
Qed.
Lemma micro_exact ns : (1000 | ns) -> 1000 * micro ns = ns.
Proof.
  intros [k ->]. unfold micro. rewrite Z.mod_mul by lia. rewrite Z.div_mul by lia. cbv zeta. change (0 <? 500) with true. cbv iota. lia.
Qed.
Lemma micro_shift ns k : micro (ns + k * 1000000000) = micro ns + k * 1000000.
Proof.
  unfold micro. replace (ns + k * 1000000000) with (ns + (k * 1000000) * 1000) by lia. rewrite Z.div_add, Z.mod_add by lia. cbv zeta.
  replace (Z.even (ns / 1000 + k * 1000000)) with (Z.even (ns / 1000)).
  - destruct (ns mod 1000 <? 500), (500 <? ns mod 1000), (Z.even (ns / 1000)); lia.
  - rewrite Z.even_add, Z.even_mul. change (Z.even 1000000) with true. rewrite Bool.orb_true_r. destruct (Z.even (ns / 1000)); reflexivity.
Qed.
Lemma seconds_near a b : (Qabs (seconds (micro a - micro b) - inject_Z (a - b) / 1000000000) <= 1 / 1000000)%Q.
Proof.
  pose proof (micro_near a). pose proof (micro_near b). unfold seconds.
  assert (E : (inject_Z (micro a - micro b) / inject_Z 1000000 - inject_Z (a - b) / 1000000000 == inject_Z ((1000 * micro a - a) - (1000 * micro b - b)) / 1000000000)%Q).
  { unfold Z.sub. rewrite !inject_Z_plus, !inject_Z_opp, !inject_Z_plus, !inject_Z_opp, !inject_Z_mult. change (inject_Z 1000000) with 1000000%Q. change (inject_Z 1000) with 1000%Q. field. }
  rewrite E. set (z := (1000 * micro a - a) - (1000 * micro b - b)) in *. assert (B : -1000 <= z <= 1000) by lia. clearbody z.
  apply Qabs_Qle_condition. assert (B1 : (inject_Z (-1000) <= inject_Z z)%Q) by (rewrite <- Zle_Qle; lia). assert (B2 : (inject_Z z <= inject_Z 1000)%Q) by (rewrite <- Zle_Qle; lia).
  split.
  - apply Qle_shift_div_l; [reflexivity|]. eapply Qle_trans; [|exact B1]. vm_compute. discriminate.
  - apply Qle_shift_div_r; [reflexivity|]. eapply Qle_trans; [exact B2|]. vm_compute. discriminate.
Qed.
Lemma seconds_exact a b : (1000 | a) -> (1000 | b) -> (seconds (micro a - micro b) == inject_Z (a - b) / 1000000000)%Q.
Proof.
  intros A B. pose proof (micro_exact a A) as EA. pose proof (micro_exact b B) as EB. unfold seconds.
  replace (a - b) with (1000 * (micro a - micro b)) by lia. rewrite inject_Z_mult. change (inject_Z 1000) with 1000%Q. change (inject_Z 1000000) with 1000000%Q. field.
Qed.
Lemma floor_z z : Qfloor (inject_Z z) = z.
Proof. unfold Qfloor, inject_Z. apply Z.div_1_r. Qed.

(* ---------- the valid time ---------- *)
Lemma find_field l x n : NoDup (map fname l) -> In x l -> fname x = n -> find (fun y => String.eqb n (fname y)) l = Some x.
Proof.
  intros N I <-. induction l as [|y l IH]; [destruct I|]. cbn [find]. inversion N as [|? ? N1 N2]; subst. destruct I as [->|I].
  - rewrite String.eqb_refl. reflexivity.
  - destruct (String.eqb_spec (fname x) (fname y)) as [E|_]; [destruct N1; rewrite <- E; apply in_map; exact I|]. apply IH; assumption.
Qed.
Lemma find_none l n : ~ In n (map fname l) -> find (fun y => String.eqb n (fname y)) l = None.
Proof.
  intro H. destruct (find _ l) as [y|] eqn:E; [|reflexivity]. apply find_some in E. destruct E as [I E]. apply String.eqb_eq in E. destruct H. rewrite E. apply in_map. exact I.
Qed.
Definition start_file (ds : dset) : ncfile := {| ncdims := map dim_of (dims ds); ncvars := map coord_var (dims ds); ncattrs := [] |}.
Lemma valid_start tt ds : ~ In "valid_time"%string (map fst (dims ds)) ->
  write_valid_time tt ds (start_file ds) =
  (valid <- time_of ds "valid_time" ;; init <- time_of ds "init_time" ;;
   Ok {| ncdims := map dim_of (dims ds) ++ [("valid_time"%string, 1%nat)];
         ncvars := map coord_var (dims ds) ++ [{| vname := "valid_time"; vtype := Float64; vdims := ["valid_time"%string]; vvalues := [Some (seconds (micro valid - micro init))];
                     vattrs := [("long_name", "valid_time"); ("units", "seconds since " ++ tt (micro init))]%string |}];
         ncattrs := [] |}).
Proof.
  intro N. unfold write_valid_time. rewrite create_dim_ok by (cbn [start_file ncdims]; rewrite dim_names; exact N). cbn [bind].
  rewrite create_var_ok by (cbn [start_file ncvars vname]; rewrite coord_names; exact N). cbn [bind].
  destruct (time_of ds "valid_time"); [|reflexivity]. cbn [bind]. destruct (time_of ds "init_time"); [|reflexivity]. cbn [bind].
  rewrite create_var_ok by (cbn [start_file ncvars vname]; rewrite coord_names; exact N). reflexivity.
Qed.

(* ---------- the calendar ---------- *)
Lemma leap_iff y : is_leap y = true <-> LeapYear y.
Proof.
  unfold is_leap, LeapYear. rewrite Bool.andb_true_iff, Bool.orb_true_iff, Bool.negb_true_iff, !Z.eqb_eq, Z.eqb_neq.
  rewrite !Z.mod_divide by lia. reflexivity.
Qed.
Lemma month_iff y m n : MonthLength y m n <-> 1 <= m <= 12 /\ n = days_in_month y m.
Proof.
  unfold MonthLength, days_in_month. cbn [In]. split.
  - intros [[I ->]|[[I ->]|[(-> & L & ->)|(-> & L & ->)]]].
    + assert (m = 1 \/ m = 3 \/ m = 5 \/ m = 7 \/ m = 8 \/ m = 10 \/ m = 12) as D by lia. split; [lia|]. destruct D as [-> |[-> |[-> |[-> |[-> |[-> | ->]]]]]]; reflexivity.
    + assert (m = 4 \/ m = 6 \/ m = 9 \/ m = 11) as D by lia. split; [lia|]. destruct D as [-> |[-> |[-> | ->]]]; reflexivity.
    + split; [lia|]. apply leap_iff in L. rewrite L. reflexivity.
    + split; [lia|]. destruct (is_leap y) eqn:E; [apply leap_iff in E; contradiction|reflexivity].
  - intros [B ->]. assert (m = 1 \/ m = 2 \/ m = 3 \/ m = 4 \/ m = 5 \/ m = 6 \/ m = 7 \/ m = 8 \/ m = 9 \/ m = 10 \/ m = 11 \/ m = 12) as D by lia.
    repeat (destruct D as [->|D]; [cbn; try (left; split; [tauto|reflexivity]); try (right; left; split; [tauto|reflexivity])|]).
    2:{ subst m. cbn. left. split; [tauto|reflexivity]. }
    destruct (is_leap y) eqn:E; [right; right; left; split; [reflexivity|split; [apply leap_iff; exact E|reflexivity]]|].
    right; right; right. split; [reflexivity|]. split; [|reflexivity]. intro L. apply leap_iff in L. congruence.
Qed.
Definition stamp (t : Z * Z * Z * Z) : Z :=
  let '(y, m, d, h) := t in ((days_before_year y + days_before_month y m + d - 719163) * 24 + h) * 3600.
Definition reach (t : Z * Z * Z * Z) : Prop := SecondsSince1970 t (stamp t).
Lemma year_step y : days_before_year (y + 1) = days_before_year y + 365 + (if is_leap y then 1 else 0).
Proof.
  unfold days_before_year, is_leap. cbv zeta. replace (y + 1 - 1) with y by lia.
  pose proof (Z.div_mod y 4 ltac:(lia)). pose proof (Z.mod_pos_bound y 4 ltac:(lia)). pose proof (Z.div_mod y 100 ltac:(lia)). pose proof (Z.mod_pos_bound y 100 ltac:(lia)).
  pose proof (Z.div_mod y 400 ltac:(lia)). pose proof (Z.mod_pos_bound y 400 ltac:(lia)).
  pose proof (Z.div_mod (y - 1) 4 ltac:(lia)). pose proof (Z.mod_pos_bound (y - 1) 4 ltac:(lia)). pose proof (Z.div_mod (y - 1) 100 ltac:(lia)). pose proof (Z.mod_pos_bound (y - 1) 100 ltac:(lia)).
  pose proof (Z.div_mod (y - 1) 400 ltac:(lia)). pose proof (Z.mod_pos_bound (y - 1) 400 ltac:(lia)).
  destruct (Z.eqb_spec (y mod 4) 0), (Z.eqb_spec (y mod 100) 0), (Z.eqb_spec (y mod 400) 0); cbn [andb orb negb]; lia.
Qed.
Lemma month_step y m : 1 <= m -> days_before_month y (m + 1) = days_before_month y m + days_in_month y m.
Proof.
  intro H. unfold days_before_month. replace (Z.to_nat (m + 1 - 1)) with (S (Z.to_nat (m - 1))) by lia. rewrite seq_S, map_app, fold_right_app. cbn [map fold_right].
  replace (Z.of_nat (1 + Z.to_nat (m - 1))) with m by lia. generalize (days_in_month y m) as k. intro k.
  induction (map (fun i => days_in_month y (Z.of_nat i)) (seq 1 (Z.to_nat (m - 1)))) as [|a l IH]; cbn [fold_right]; lia.
Qed.
Lemma month_first y : days_before_month y 1 = 0. Proof. reflexivity. Qed.
Lemma month_all y : days_before_month y 12 + 31 = 365 + (if is_leap y then 1 else 0).
Proof.
  change 12 with (1 + 1 + 1 + 1 + 1 + 1 + 1 + 1 + 1 + 1 + 1 + 1). rewrite !month_step by lia. rewrite month_first. cbn [Z.add Pos.add Pos.succ]. unfold days_in_month. cbn. destruct (is_leap y); lia.
Qed.
Lemma later_stamp t t' : HourLater t t' -> (let '(_, m, _, _) := t in 1 <= m) -> stamp t' = stamp t + 3600.
Proof.
  intros H M. destruct H as [y m d h|y m d n ML|y m n ML L|y]; unfold stamp.
  - lia.
  - lia.
  - apply month_iff in ML. destruct ML as [B ->]. rewrite month_step by lia. lia.
  - rewrite year_step, month_first. pose proof (month_all y). destruct (is_leap y); lia.
Qed.
Lemma reach_step t t' : HourLater t t' -> (let '(_, m, _, _) := t in 1 <= m) -> (reach t <-> reach t').
Proof.
  intros H M. pose proof (later_stamp t t' H M) as E. unfold reach. rewrite E. split; intro K.
  - exact (After t t' _ H K).
  - replace (stamp t) with (stamp t + 3600 - 3600) by lia. exact (Before t t' _ H K).
Qed.
Lemma reach_hours y m d : 1 <= m -> forall k : nat, (Z.of_nat k <= 23) -> (reach (y, m, d, 0) <-> reach (y, m, d, Z.of_nat k)).
Proof.
  intros M. induction k as [|k IH]; intro K; [reflexivity|]. rewrite IH by lia. replace (Z.of_nat (S k)) with (Z.of_nat k + 1) by lia.
  apply reach_step; [|exact M]. apply SameDay. lia.
Qed.
Lemma reach_days y m : 1 <= m <= 12 -> forall k : nat, Z.of_nat k + 1 <= days_in_month y m -> (reach (y, m, 1, 0) <-> reach (y, m, Z.of_nat k + 1, 0)).
Proof.
  intros M. induction k as [|k IH]; intro K; [reflexivity|]. rewrite IH by lia. rewrite (reach_hours y m _ (proj1 M) 23) by lia.
  replace (Z.of_nat (S k) + 1) with (Z.of_nat k + 1 + 1) by lia. apply reach_step; [|lia].
  apply (NextDay y m (Z.of_nat k + 1) (days_in_month y m)); [apply month_iff; split; [lia|reflexivity]|lia].
Qed.
Lemma days_pos y m : 28 <= days_in_month y m.
Proof. unfold days_in_month. destruct (m =? 2), (is_leap y), ((m =? 4) || (m =? 6) || (m =? 9) || (m =? 11)); lia. Qed.
Lemma reach_month_end y m : 1 <= m <= 12 -> (reach (y, m, 1, 0) <-> reach (y, m, days_in_month y m, 23)).
Proof.
  intro M. pose proof (days_pos y m). rewrite (reach_days y m M (Z.to_nat (days_in_month y m - 1))) by lia.
  replace (Z.of_nat (Z.to_nat (days_in_month y m - 1)) + 1) with (days_in_month y m) by lia. exact (reach_hours y m _ (proj1 M) 23 ltac:(lia)).
Qed.
Lemma reach_months y : forall k : nat, Z.of_nat k <= 11 -> (reach (y, 1, 1, 0) <-> reach (y, Z.of_nat k + 1, 1, 0)).
Proof.
  induction k as [|k IH]; intro K; [reflexivity|]. rewrite IH by lia. rewrite reach_month_end by lia. replace (Z.of_nat (S k) + 1) with (Z.of_nat k + 1 + 1) by lia.
  apply reach_step; [|lia]. apply NextMonth; [apply month_iff; split; [lia|reflexivity]|lia].
Qed.
Lemma reach_year y : reach (y, 1, 1, 0) <-> reach (y + 1, 1, 1, 0).
Proof. rewrite (reach_months y 11) by lia. change (Z.of_nat 11 + 1) with 12. rewrite reach_month_end by lia. apply reach_step; [apply NextYear|lia]. Qed.
Lemma reach_years y : reach (y, 1, 1, 0).
Proof.
  assert (U : forall k : nat, reach (1970 + Z.of_nat k, 1, 1, 0)).
  { induction k as [|k IH]; [exact Epoch|]. replace (1970 + Z.of_nat (S k)) with (1970 + Z.of_nat k + 1) by lia. apply (proj1 (reach_year _)). exact IH. }
  assert (D : forall k : nat, reach (1970 - Z.of_nat k, 1, 1, 0)).
  { induction k as [|k IH]; [exact Epoch|]. apply (proj2 (reach_year _)). replace (1970 - Z.of_nat (S k) + 1) with (1970 - Z.of_nat k) by lia. exact IH. }
  destruct (Z_le_dec 1970 y) as [L|L].
  - replace y with (1970 + Z.of_nat (Z.to_nat (y - 1970))) by lia. apply U.
  - replace y with (1970 - Z.of_nat (Z.to_nat (1970 - y))) by lia. apply D.
Qed.
Lemma reach_all y m d h : 1 <= m <= 12 -> 1 <= d <= days_in_month y m -> 0 <= h <= 23 -> reach (y, m, d, h).
Proof.
  intros M D H. replace h with (Z.of_nat (Z.to_nat h)) by lia. apply (reach_hours y m d (proj1 M)); [lia|].
  replace d with (Z.of_nat (Z.to_nat (d - 1)) + 1) by lia. apply (reach_days y m M); [lia|].
  replace m with (Z.of_nat (Z.to_nat (m - 1)) + 1) by lia. apply reach_months; [lia|]. apply reach_years.
Qed.
Lemma real_hour y m d h : RealHour y m d h <-> 1 <= y <= 9999 /\ 1 <= m <= 12 /\ 1 <= d <= days_in_month y m /\ 0 <= h <= 23.
Proof.
  unfold RealHour. split.
  - intros (Y & M & H & n & ML & D). apply month_iff in ML. destruct ML as [_ ->]. auto.
  - intros (Y & M & D & H). repeat (split; [assumption|]). exists (days_in_month y m). split; [apply month_iff; auto|exact D].
Qed.
Lemma timestamp_ok off y m d h : RealHour y m d h -> timestamp off y m d h = Ok (stamp (y, m, d, h) - off (stamp (y, m, d, h))) /\ SecondsSince1970 (y, m, d, h) (stamp (y, m, d, h)).
Proof.
  intro V. apply real_hour in V. destruct V as (Y & M & D & H). split; [|apply reach_all; assumption].
  unfold timestamp. replace (_ && _) with true; [reflexivity|]. symmetry. rewrite !Bool.andb_true_iff, !Z.leb_le. lia.
Qed.
Lemma timestamp_bad off y m d h : ~ RealHour y m d h -> timestamp off y m d h = Err ValueError.
Proof.
  intro V. unfold timestamp. match goal with |- (if ?c then _ else _) = _ => destruct c eqn:E end; [|reflexivity]. destruct V. apply real_hour.
  rewrite !Bool.andb_true_iff, !Z.leb_le in E. lia.
Qed.

(* ---------- texts ---------- *)
Open Scope string_scope.
Open Scope Z_scope.
Lemma digit_is c d : DigitIs c d -> digit c = Some d.
Proof. intros [B E]. unfold digit. cbv zeta. rewrite E. replace (48 <=? 48 + d) with true by (symmetry; apply Z.leb_le; lia). replace (48 + d <=? 57) with true by (symmetry; apply Z.leb_le; lia). cbn [andb]. f_equal. lia. Qed.
Lemma digits_app s t : forall acc, digits (s ++ t) acc = match digits s acc with Some a => digits t a | None => None end.
Proof. induction s as [|c s IH]; intro acc; [reflexivity|]. cbn [append digits]. destruct (digit c); [apply IH|reflexivity]. Qed.
Lemma decimal_digits s n : DecimalText s n -> digits s 0 = Some n.
Proof. induction 1 as [|s n c d _ IH D]; [reflexivity|]. rewrite digits_app, IH. cbn [digits]. rewrite (digit_is c d D). reflexivity. Qed.
Lemma to_int_ok s n : DecimalText s n -> s <> "" -> to_int s = Ok n.
Proof. intros D N. unfold to_int. rewrite (decimal_digits s n D). destruct s; [destruct (N eq_refl)|reflexivity]. Qed.
Lemma substring_all a r : substring 0 (String.length a) (a ++ r) = a.
Proof. induction a as [|c a IH]; [destruct r; reflexivity|]. cbn [String.length append substring]. rewrite IH. reflexivity. Qed.
Lemma substring_skip p : forall n r, substring (String.length p) n (p ++ r) = substring 0 n r.
Proof. induction p as [|c p IH]; intros n r; [reflexivity|]. cbn [String.length append substring]. apply IH. Qed.
Lemma app_assoc_s (a b c : string) : (a ++ b) ++ c = a ++ b ++ c.
Proof. induction a as [|x a IH]; [reflexivity|]. cbn [append]. rewrite IH. reflexivity. Qed.
Lemma app_len_s (a b : string) : String.length (a ++ b) = (String.length a + String.length b)%nat.
Proof. induction a as [|x a IH]; [reflexivity|]. cbn [append String.length]. rewrite IH. reflexivity. Qed.
Fixpoint all_digit (s : string) : bool := match s with EmptyString => true | String c s' => match digit c with Some _ => all_digit s' | None => false end end.
Lemma all_digits s : forall acc, all_digit s = true -> exists n, digits s acc = Some n.
Proof. induction s as [|c s IH]; intros acc H; [exists acc; reflexivity|]. cbn [all_digit digits] in *. destruct (digit c); [apply IH; exact H|discriminate]. Qed.
Lemma digits_all s : forall acc n, digits s acc = Some n -> all_digit s = true.
Proof. induction s as [|c s IH]; intros acc n H; [reflexivity|]. cbn [all_digit digits] in *. destruct (digit c); [eapply IH; exact H|discriminate]. Qed.
Lemma all_sub s : forall i n, all_digit s = true -> all_digit (substring i n s) = true.
Proof.
  induction s as [|c s IH]; intros i n H; [destruct i, n; reflexivity|]. cbn [all_digit] in H. destruct (digit c) eqn:E; [|discriminate].
  destruct i as [|i]; [destruct n as [|n]; [reflexivity|]; cbn [substring all_digit]; rewrite E; apply IH; exact H|]. cbn [substring]. apply IH. exact H.
Qed.
Lemma to_int_all s : all_digit s = true -> to_int s = Err ValueError \/ exists n, to_int s = Ok n.
Proof. intro H. destruct s as [|c s]; [left; reflexivity|right]. destruct (all_digits (String c s) 0 H) as (n & E). exists n. unfold to_int. rewrite E. reflexivity. Qed.
Lemma sub_past s : forall i n, (String.length s <= i)%nat -> substring i n s = "".
Proof. induction s as [|c s IH]; intros i n H; [destruct i, n; reflexivity|]. cbn [String.length] in H. destruct i as [|i]; [lia|]. cbn [substring]. apply IH. lia. Qed.
Definition ref_var (v : list pyval) : ncvar :=
  {| vname := "forecast_reference_time"; vtype := Float64; vdims := ["forecast_reference_time"]; vvalues := v;
     vattrs := [("long_name", "forecast_reference_time"); ("standard_name", "forecast_reference_time"); ("units", "seconds since 1970-01-01 00:00")] |}.
Lemma plain_names ds : map vname (ncvars (plain ds)) = (map fst (dims ds) ++ map fname (fields ds))%list.
Proof. unfold plain. cbn [ncvars]. rewrite map_app, coord_names. f_equal. rewrite map_map. reflexivity. Qed.
Lemma ref_run off ref ds : Unused "forecast_reference_time" ds ->
  write_ref_time off ref (plain ds) =
  (yyyy <- to_int (substring 0 4 ref) ;; mm <- to_int (substring 4 2 ref) ;; dd <- to_int (substring 6 2 ref) ;; hh <- to_int (substring 8 2 ref) ;;
   ts <- timestamp off yyyy mm dd hh ;;
   Ok {| ncdims := (ncdims (plain ds) ++ [("forecast_reference_time", 1%nat)])%list; ncvars := (ncvars (plain ds) ++ [ref_var [Some (inject_Z ts)]])%list; ncattrs := ncattrs (plain ds) |}).
Proof.
  intros [U1 U2]. unfold write_ref_time.
  assert (V : ~ In "forecast_reference_time" (map vname (ncvars (plain ds)))).
  { rewrite plain_names. intro X. apply in_app_iff in X. destruct X; contradiction. }
  rewrite create_dim_ok by (cbn [plain ncdims]; rewrite dim_names; exact U1). cbn [bind]. rewrite create_var_ok by exact V. cbn [bind].
  destruct (to_int (substring 0 4 ref)); [|reflexivity]. cbn [bind]. destruct (to_int (substring 4 2 ref)); [|reflexivity]. cbn [bind].
  destruct (to_int (substring 6 2 ref)); [|reflexivity]. cbn [bind]. destruct (to_int (substring 8 2 ref)); [|reflexivity]. cbn [bind].
  destruct (timestamp _ _ _ _ _); [|reflexivity]. cbn [bind]. rewrite create_var_ok by exact V. reflexivity.
Qed.
Lemma hour_pieces ref y m d h : HourText ref y m d h ->
  to_int (substring 0 4 ref) = Ok y /\ to_int (substring 4 2 ref) = Ok m /\ to_int (substring 6 2 ref) = Ok d /\ to_int (substring 8 2 ref) = Ok h.
Proof.
  intros (a & b & c & e & rest & -> & La & Lb & Lc & Le & Da & Db & Dc & De).
  assert (NE : forall s k, String.length s = S k -> s <> "") by (intros s k L X; subst; discriminate).
  split; [|split; [|split]].
  - rewrite <- La, substring_all. apply to_int_ok; [exact Da|exact (NE a 3%nat La)].
  - rewrite <- La, substring_skip, <- Lb, substring_all. apply to_int_ok; [exact Db|exact (NE b 1%nat Lb)].
  - rewrite <- (app_assoc_s a b). replace 6%nat with (String.length (a ++ b)) by (rewrite app_len_s, La, Lb; reflexivity). rewrite substring_skip, <- Lc, substring_all.
    apply to_int_ok; [exact Dc|exact (NE c 1%nat Lc)].
  - rewrite <- (app_assoc_s a b), <- (app_assoc_s (a ++ b) c). replace 8%nat with (String.length ((a ++ b) ++ c)) by (rewrite !app_len_s, La, Lb, Lc; reflexivity).
    rewrite substring_skip, <- Le, substring_all. apply to_int_ok; [exact De|exact (NE e 1%nat Le)].
Qed.
Fixpoint no_dot (s : string) : bool := match s with EmptyString => true | String c s' => negb (Ascii.eqb c ".") && no_dot s' end.
Lemma no_dot_free a : (forall s t, a <> s ++ "." ++ t) -> no_dot a = true.
Proof.
  induction a as [|c a IH]; intro H; [reflexivity|]. cbn [no_dot]. destruct (Ascii.eqb_spec c ".") as [->|_].
  - destruct (H "" a). reflexivity.
  - cbn [negb andb]. apply IH. intros s t E. apply (H (String c s) t). rewrite E. reflexivity.
Qed.
Lemma split_dot a r : no_dot a = true -> split_on "." (a ++ "." ++ r) = a :: split_on "." r.
Proof.
  change ("." ++ r) with (String "." r). induction a as [|c a IH]; intro H; [reflexivity|]. cbn [no_dot] in H. apply Bool.andb_true_iff in H. destruct H as [H1 H2]. cbn [append split_on].
  apply Bool.negb_true_iff in H1. rewrite H1. rewrite IH by exact H2. reflexivity.
Qed.
Lemma dot_free (a : string) : no_dot a = true -> forall s t, a <> s ++ "." ++ t.
Proof.
  intros H s. revert a H. induction s as [|c s IH]; intros a H t E.
  - subst a. discriminate H.
  - destruct a as [|b a]; [discriminate|]. cbn [append] in E. injection E as -> E. cbn [no_dot] in H. apply Bool.andb_true_iff in H. exact (IH a (proj2 H) t E).
Qed.

(* ---------- examples ---------- *)
Definition small_field : field := {| fname := "mask"; ftype := SmallInt; fdims := ["lat"]; fvalues := [Some (inject_Z (-1)); Some (inject_Z 3)]; fattrs := [("long_name", "mask")] |}.
Definition example_set : dset :=
  {| dims := [("lat", Numbers Float64 [Some 10%Q; Some 20%Q]); ("time", Times [1000; 3600000000500])];
     fields := [{| fname := "T"; ftype := Float32; fdims := ["time"; "lat"]; fvalues := [Some 1%Q; None; Some 3%Q; Some 4%Q]; fattrs := [("units", "K"); ("long_name", "temperature")] |}; small_field];
     dattrs := [("source", "model")] |}.
Definition time_at (name : string) (ns : Z) (a : list (string * string)) : field := {| fname := name; ftype := Datetime; fdims := []; fvalues := [Some (inject_Z ns)]; fattrs := a |}.
Definition timed_set : dset :=
  {| dims := [("lat", Numbers Float64 [Some 10%Q; Some 20%Q])];
     fields := [time_at "valid_time" 7200000000000 []; time_at "init_time" 0 [];
                {| fname := "T"; ftype := Float32; fdims := ["lat"]; fvalues := [Some 1%Q; Some 4%Q]; fattrs := [("units", "K")] |}];
     dattrs := [] |}.
Definition mixed_set : dset :=
  {| dims := []; fields := [{| fname := "T"; ftype := Float32; fdims := []; fvalues := [Some 1%Q]; fattrs := [] |};
                            time_at "valid_time" 7200000000000 [("long_name", "time")]; time_at "init_time" 0 []]; dattrs := [] |}.
Definition named_set : dset :=
  {| dims := []; fields := [{| fname := "T"; ftype := Float32; fdims := []; fvalues := [Some 1%Q]; fattrs := [("long_name", "temperature")] |};
                            time_at "valid_time" 7200000000000 [("long_name", "time")]; time_at "init_time" 0 []]; dattrs := [] |}.
Ltac apart := repeat constructor; cbn; intuition discriminate.
Ltac good_field := split; [first [left; cbn; tauto | right; split; [cbn; tauto | repeat (constructor; [eexists; reflexivity|]); constructor]] | cbn; apart].
Ltac good_dim := first [reflexivity | split; [cbn; tauto | discriminate]].
Ltac good := split; [cbn; apart | split; [repeat (apply Forall_cons; [good_dim|]); apply Forall_nil | split; [repeat (apply Forall_cons; [good_field|]); apply Forall_nil | cbn; apart]]].
Lemma example_good : GoodSet example_set. Proof. good. Qed.
Lemma timed_good : GoodSet timed_set. Proof. good. Qed.
Lemma named_good : GoodSet named_set. Proof. good. Qed.
Lemma mixed_good : GoodSet mixed_set. Proof. good. Qed.

(* ---------- the file with a valid time ---------- *)
Definition valid_var (tt : Z -> string) (valid init : Z) : ncvar :=
  {| vname := "valid_time"; vtype := Float64; vdims := ["valid_time"]; vvalues := [Some (seconds (micro valid - micro init))];
     vattrs := [("long_name", "valid_time"); ("units", "seconds since " ++ tt (micro init))] |}.
Lemma time_found ds n ns a t : NoDup (map fname (fields ds)) -> In {| fname := n; ftype := t; fdims := []; fvalues := [Some (inject_Z ns)]; fattrs := a |} (fields ds) -> time_of ds n = Ok ns.
Proof. intros N I. unfold time_of. erewrite find_field; [|exact N|exact I|reflexivity]. cbn [fdims fvalues]. rewrite floor_z. reflexivity. Qed.
Lemma timed_run tt off ds valid init : GoodSet ds -> ~ In "valid_time" (map fst (dims ds)) ->
  In {| fname := "valid_time"; ftype := Datetime; fdims := []; fvalues := [Some (inject_Z valid)]; fattrs := [] |} (fields ds) ->
  In {| fname := "init_time"; ftype := Datetime; fdims := []; fvalues := [Some (inject_Z init)]; fattrs := [] |} (fields ds) ->
  write_dataset tt off ds None true =
  Ok {| ncdims := (map dim_of (dims ds) ++ [("valid_time", 1%nat)])%list;
        ncvars := ((map coord_var (dims ds) ++ [valid_var tt valid init]) ++ map (field_var true) (filter (fun x => negb (time_field true x)) (fields ds)))%list;
        ncattrs := dattrs ds |}.
Proof.
  intros H V IV II. pose proof H as (N & G & F & A). pose proof (nodup_right _ _ N) as NF. unfold write_dataset. rewrite dims_part by exact H. cbn [bind].
  change {| ncdims := map dim_of (dims ds); ncvars := map coord_var (dims ds); ncattrs := [] |} with (start_file ds). rewrite valid_start by exact V.
  rewrite (time_found _ _ _ _ _ NF IV), (time_found _ _ _ _ _ NF II). cbn [bind].
  match goal with |- context [each _ _ (None, ?f)] => destruct (write_fields true (fields ds) None f F NF) as (var & E) end.
  - intros n I. destruct (string_dec n "valid_time") as [->|D]; [left; auto|right]. cbn [ncvars]. rewrite map_app, coord_names. cbn [map vname]. intro X. apply in_app_iff in X.
    destruct X as [X|[X|[]]]; [exact (nodup_apart _ _ _ N X I)|congruence].
  - intros x I T. unfold time_field in T. cbn [andb] in T. apply String.eqb_eq in T. pose proof (find_field _ _ _ NF I T) as E1. pose proof (find_field _ _ "valid_time" NF IV eq_refl) as E2. rewrite E1 in E2. injection E2 as ->. reflexivity.
  - rewrite E. cbn [bind snd ncdims ncvars ncattrs]. rewrite (put_attrs (dattrs ds) []) by exact A. reflexivity.
Qed.
Lemma filter_in {A} (p : A -> bool) l a : In a (filter p l) <-> In a l /\ p a = true. Proof. apply filter_In. Qed.
Lemma timed_names ds : map vname (map (field_var true) (filter (fun x => negb (time_field true x)) (fields ds))) = map fname (filter (fun x => negb (time_field true x)) (fields ds)).
Proof. rewrite map_map. reflexivity. Qed.
Lemma nodup_filter (p : field -> bool) l : NoDup (map fname l) -> NoDup (map fname (filter p l)).
Proof.
  induction l as [|x l IH]; intro N; [constructor|]. inversion N as [|? ? N1 N2]; subst. cbn [filter]. destruct (p x); [|apply IH; exact N2]. cbn [map]. constructor; [|apply IH; exact N2].
  intro X. apply N1. apply in_map_iff in X. destruct X as (y & E & I). apply filter_In in I. rewrite <- E. apply in_map. exact (proj1 I).
Qed.
Lemma store_kept x : KeptType (ftype x) -> map (store (ftype x)) (fvalues x) = fvalues x.
Proof. intro K. apply kept_iff in K. unfold store. rewrite K. apply map_id. Qed.
Lemma type_kept t : KeptType t -> field_type t = t.
Proof. intro K. apply kept_iff in K. unfold field_type. rewrite K. reflexivity. Qed.
Lemma small_not t : SmallType t -> kept t = false.
Proof. unfold SmallType. destruct t; cbn; intro H; intuition discriminate || reflexivity. Qed.
Lemma later_good ns ds : GoodSet ds -> GoodSet (Later ns ds).
Proof.
  intros (N & G & F & A). split; [|split; [|split; assumption]].
  - cbn [Later dims fields]. rewrite map_map. cbn [fst]. exact N.
  - cbn [Later dims]. apply Forall_map. eapply Forall_impl; [|exact G]. intros [n [t v|v]] H; exact H.
Qed.
Lemma later_plain sec ds : plain (Later (sec * 1000000000) ds) = plain ds.
Proof.
  unfold plain. cbn [Later dims fields dattrs]. rewrite !map_map. f_equal.
  - apply map_ext. intros [n [t v|v]]; unfold dim_of; cbn [fst snd SizeOf]; try reflexivity. rewrite map_length. reflexivity.
  - f_equal. apply map_ext. intros [n [t v|v]]; unfold coord_var; cbn [fst snd]; try reflexivity. f_equal. destruct v as [|t0 v]; [reflexivity|]. cbn [map]. rewrite !micro_shift. f_equal; [do 2 f_equal; lia|].
    rewrite !map_map. apply map_ext. intro t. rewrite micro_shift. do 2 f_equal. lia.
Qed.
Lemma decimal_snoc s n c d m : DecimalText s n -> DigitIs c d -> m = 10 * n + d -> DecimalText (s ++ String c "") m.
Proof. intros H D ->. constructor; assumption. Qed.
Lemma digit_make c d : digit c = Some d -> DigitIs c d.
Proof.
  unfold digit, DigitIs. cbv zeta. destruct ((48 <=? Z.of_nat (nat_of_ascii c)) && (Z.of_nat (nat_of_ascii c) <=? 57)) eqn:E; [|discriminate]. intro H. injection H as <-. apply Bool.andb_true_iff in E. rewrite !Z.leb_le in E. lia.
Qed.
Lemma decimal_make s : forall p n m, DecimalText p n -> digits s n = Some m -> DecimalText (p ++ s) m.
Proof.
  induction s as [|c s IH]; intros p n m D E.
  - injection E as <-. replace (p ++ "") with p; [exact D|]. clear. induction p as [|x p IH]; [reflexivity|]. cbn [append]. rewrite <- IH. reflexivity.
  - cbn [digits] in E. destruct (digit c) as [d|] eqn:Ed; [|discriminate]. change (String c s) with (String c "" ++ s). rewrite <- app_assoc_s. apply (IH _ (10 * n + d)); [|exact E].
    constructor; [exact D|apply digit_make; exact Ed].
Qed.
Lemma decimal_of s m : digits s 0 = Some m -> DecimalText s m.
Proof. intro E. exact (decimal_make s "" 0 m NoDigit E). Qed.

(** The statements of PropertiesWrite.v. *)
Lemma C130_fields_proof : forall time_text offset ds, GoodSet ds ->
  exists F, write_dataset time_text offset ds None false = Ok F /\
    ncdims F = map (fun d => (fst d, SizeOf (snd d))) (dims ds) /\
    map vname (ncvars F) = (map fst (dims ds) ++ map fname (fields ds))%list /\ ncattrs F = dattrs ds /\
    (forall name t v, In (name, Numbers t v) (dims ds) ->
       In {| vname := name; vtype := t; vdims := [name]; vvalues := v; vattrs := [] |} (ncvars F)) /\
    (forall x, In x (fields ds) -> KeptType (ftype x) ->
       In {| vname := fname x; vtype := ftype x; vdims := fdims x; vvalues := fvalues x; vattrs := fattrs x |} (ncvars F)).
Proof.
  intros tt off ds H. exists (plain ds). rewrite plain_run by exact H. split; [reflexivity|]. split; [reflexivity|]. split; [apply plain_names|]. split; [reflexivity|]. split.
  - intros name t v I. cbn [plain ncvars]. apply in_app_iff. left. apply in_map_iff. exists (name, Numbers t v). split; [reflexivity|exact I].
  - intros x I K. cbn [plain ncvars]. apply in_app_iff. right. apply in_map_iff. exists x. split; [|exact I]. unfold field_var. rewrite store_kept, type_kept by exact K. reflexivity.
Qed.

Lemma C130_fields_case_proof : GoodSet example_set.
Proof.
  exact example_good.
Qed.

Lemma C130_small_proof : forall time_text offset ds x, GoodSet ds -> In x (fields ds) -> SmallType (ftype x) ->
  exists F values, write_dataset time_text offset ds None false = Ok F /\
    In {| vname := fname x; vtype := UInt64; vdims := fdims x; vvalues := values; vattrs := fattrs x |} (ncvars F) /\
    Forall2 (fun v v' => exists z k, v = Some (inject_Z z) /\ v' = Some (inject_Z (z + k * 2 ^ 64)) /\ 0 <= z + k * 2 ^ 64 < 2 ^ 64) (fvalues x) values.
Proof.
  intros tt off ds x H I S. exists (plain ds), (map (store (ftype x)) (fvalues x)). rewrite plain_run by exact H. split; [reflexivity|].
  pose proof (small_not _ S) as K. split.
  - cbn [plain ncvars]. apply in_app_iff. right. apply in_map_iff. exists x. split; [|exact I]. unfold field_var, field_type. rewrite K. reflexivity.
  - destruct H as (_ & _ & F & _). rewrite Forall_forall in F. destruct (F x I) as [[KT|[_ W]] _]; [apply kept_iff in KT; congruence|]. clear - K W.
    induction W as [|v l (z & ->) _ IH]; [constructor|]. cbn [map]. constructor; [|exact IH]. exists z, (- (z / 2 ^ 64)). unfold store. rewrite K, floor_z.
    pose proof (Z.div_mod z (2 ^ 64) ltac:(lia)). pose proof (Z.mod_pos_bound z (2 ^ 64) ltac:(lia)).
    replace (z + - (z / 2 ^ 64) * 2 ^ 64) with (z mod 2 ^ 64) by lia. auto.
Qed.

Lemma C130_small_case_proof : In small_field (fields example_set) /\ SmallType (ftype small_field) /\ In (Some (-1)%Q) (fvalues small_field).
Proof.
  split; [right; left; reflexivity|]. split; [left; reflexivity|]. left. reflexivity.
Qed.

Lemma C130_small_refuted_proof : ~ (forall time_text offset ds F x, GoodSet ds -> write_dataset time_text offset ds None false = Ok F -> In x (fields ds) ->
  exists v, In v (ncvars F) /\ vname v = fname x /\ vvalues v = fvalues x).
Proof.
  intro P. destruct (P (fun _ => ""%string) (fun _ => 0) example_set (plain example_set) small_field example_good) as (v & I & E & V).
  - rewrite plain_run by exact example_good. reflexivity.
  - right. left. reflexivity.
  - cbn in I. destruct I as [<-|[<-|[<-|[<-|[]]]]]; cbn in E; try discriminate E. vm_compute in V. discriminate V.
Qed.

Lemma C130_refused_proof : forall time_text offset ds, GoodSet ds -> In "forecast_reference_time" (map fname (fields ds)) ->
  forall ref, write_dataset time_text offset ds (Some ref) false = Err RuntimeError.
Proof.
  intros tt off ds H I ref. rewrite plain_run by exact H. unfold write_ref_time. pose proof H as (N & _).
  rewrite create_dim_ok by (cbn [plain ncdims]; rewrite dim_names; intro X; exact (nodup_apart _ _ _ N X I)). cbn [bind]. unfold create_var. cbn [vname ncvars].
  rewrite (names_in vname); [reflexivity|]. rewrite plain_names. apply in_app_iff. right. exact I.
Qed.

Lemma C130_refused_case_proof :
  let ds := {| dims := []; fields := [{| fname := "forecast_reference_time"; ftype := Float64; fdims := []; fvalues := [Some 1%Q]; fattrs := [] |}]; dattrs := [] |} in
  GoodSet ds /\ In "forecast_reference_time" (map fname (fields ds)).
Proof.
  split; [good|]. left. reflexivity.
Qed.

Lemma C131_times_proof : forall time_text offset ds t0 ts, GoodSet ds -> In ("time", Times (t0 :: ts)) (dims ds) ->
  exists F values, write_dataset time_text offset ds None false = Ok F /\
    In {| vname := "time"; vtype := Float64; vdims := ["time"]; vvalues := values; vattrs := [] |} (ncvars F) /\
    Forall2 (fun t v => exists s, v = Some s /\ (Qabs (s - inject_Z (t - t0) / 1000000000) <= 1 / 1000000)%Q /\
                                  ((1000 | t) -> (1000 | t0) -> (s == inject_Z (t - t0) / 1000000000)%Q)) (t0 :: ts) values.
Proof.
  intros tt off ds t0 ts H I. exists (plain ds), (vvalues (coord_var ("time"%string, Times (t0 :: ts)))). rewrite plain_run by exact H. split; [reflexivity|]. split.
  - cbn [plain ncvars]. apply in_app_iff. left. apply in_map_iff. eexists. split; [|exact I]. reflexivity.
  - unfold coord_var. cbn [snd vvalues]. cbv zeta. cbn [map]. fold (map micro ts).
    assert (A : forall t, exists s, Some (seconds (micro t - micro t0)) = Some s /\ (Qabs (s - inject_Z (t - t0) / 1000000000) <= 1 / 1000000)%Q /\ ((1000 | t) -> (1000 | t0) -> (s == inject_Z (t - t0) / 1000000000)%Q)).
    { intro t. eexists. split; [reflexivity|]. split; [apply seconds_near|]. intros. apply seconds_exact; assumption. }
    constructor; [apply A|]. rewrite map_map. induction ts as [|t l IH]; [constructor|]. cbn [map]. constructor; [apply A|]. clear - A. induction l as [|t l IH]; constructor; [apply A|exact IH].
Qed.

Lemma C131_times_case_proof : GoodSet example_set /\ In ("time", Times [1000; 3600000000500]) (dims example_set).
Proof.
  split; [exact example_good|]. right. left. reflexivity.
Qed.

Lemma C131_shift_proof : forall time_text offset ds sec, GoodSet ds ->
  write_dataset time_text offset (Later (sec * 1000000000) ds) None false = write_dataset time_text offset ds None false.
Proof.
  intros tt off ds sec H. rewrite !plain_run by (try apply later_good; exact H). rewrite later_plain. reflexivity.
Qed.

Lemma C131_shift_case_proof : GoodSet example_set /\ dims (Later 1000000000 example_set) <> dims example_set.
Proof.
  split; [exact example_good|]. discriminate.
Qed.

Lemma C131_origin_refuted_proof : ~ (forall time_text offset ds ds' F, GoodSet ds -> GoodSet ds' ->
  write_dataset time_text offset ds None false = Ok F -> write_dataset time_text offset ds' None false = Ok F -> dims ds = dims ds').
Proof.
  intro P. specialize (P (fun _ => ""%string) (fun _ => 0) example_set (Later (1 * 1000000000) example_set) (plain example_set) example_good (later_good _ _ example_good)).
  rewrite !plain_run in P by (try apply later_good; exact example_good). rewrite later_plain in P. specialize (P eq_refl eq_refl). discriminate P.
Qed.

Lemma C132_valid_time_proof : forall time_text offset ds valid init, GoodSet ds -> ~ In "valid_time" (map fst (dims ds)) ->
  In {| fname := "valid_time"; ftype := Datetime; fdims := []; fvalues := [Some (inject_Z valid)]; fattrs := [] |} (fields ds) ->
  In {| fname := "init_time"; ftype := Datetime; fdims := []; fvalues := [Some (inject_Z init)]; fattrs := [] |} (fields ds) ->
  exists F s, write_dataset time_text offset ds None true = Ok F /\
    ncdims F = (map (fun d => (fst d, SizeOf (snd d))) (dims ds) ++ [("valid_time", 1%nat)])%list /\
    NoDup (map vname (ncvars F)) /\ (forall n, In n (map vname (ncvars F)) <-> In n (map fst (dims ds)) \/ In n (map fname (fields ds))) /\
    (exists v, In v (ncvars F) /\ vname v = "valid_time" /\ vdims v = ["valid_time"] /\ vvalues v = [Some s] /\
       (Qabs (s - inject_Z (valid - init) / 1000000000) <= 1 / 1000000)%Q) /\
    (forall x, In x (fields ds) -> fname x <> "valid_time" -> KeptType (ftype x) ->
       In {| vname := fname x; vtype := ftype x; vdims := "valid_time" :: fdims x; vvalues := fvalues x; vattrs := fattrs x |} (ncvars F)).
Proof.
  intros tt off ds valid init H V IV II. pose proof H as (N & G & F & A). pose proof (nodup_right _ _ N) as NF. rewrite (timed_run tt off ds valid init H V IV II).
  eexists. exists (seconds (micro valid - micro init)). split; [reflexivity|]. cbn [ncdims ncvars]. split; [reflexivity|].
  assert (NM : map vname ((map coord_var (dims ds) ++ [valid_var tt valid init]) ++ map (field_var true) (filter (fun x => negb (time_field true x)) (fields ds)))%list
             = (map fst (dims ds) ++ "valid_time"%string :: map fname (filter (fun x => negb (time_field true x)) (fields ds)))%list).
  { rewrite map_app, map_app, coord_names, timed_names, <- app_assoc. reflexivity. }
  rewrite NM. split; [|split; [|split]].
  - apply NoDup_Add with (a := "valid_time"%string) (l := (map fst (dims ds) ++ map fname (filter (fun x => negb (time_field true x)) (fields ds)))%list); [apply Add_app|]. split.
    + assert (X : forall l m : list string, NoDup l -> NoDup m -> (forall a, In a l -> In a m -> False) -> NoDup (l ++ m)%list).
      { induction l as [|a l IH]; intros m NL NM' D; [exact NM'|]. inversion NL; subst. cbn [app]. constructor.
        - intro Q. apply in_app_iff in Q. destruct Q as [Q|Q]; [contradiction|]. apply (D a); [left; reflexivity|exact Q].
        - apply IH; [assumption|exact NM'|]. intros b I J. apply (D b); [right; exact I|exact J]. }
      apply X; [exact (nodup_left _ _ N)|apply nodup_filter; exact NF|]. intros a I J. apply (nodup_apart _ _ a N I). apply in_map_iff in J. destruct J as (x & <- & J). apply filter_In in J. apply in_map. exact (proj1 J).
    + intro Q. apply in_app_iff in Q. destruct Q as [Q|Q]; [contradiction|]. apply in_map_iff in Q. destruct Q as (x & E & J). apply filter_In in J. destruct J as [_ J]. unfold time_field in J. rewrite E in J. discriminate J.
  - intro n. split; intro Q.
    + apply in_app_iff in Q. destruct Q as [Q|[<-|Q]]; [left; exact Q|right; apply in_map_iff; eexists; split; [|exact IV]; reflexivity|right]. apply in_map_iff in Q. destruct Q as (x & <- & J). apply filter_In in J. apply in_map. exact (proj1 J).
    + apply in_app_iff. destruct Q as [Q|Q]; [left; exact Q|right]. destruct (string_dec n "valid_time") as [->|D]; [left; reflexivity|right].
      apply in_map_iff in Q. destruct Q as (x & <- & J). apply in_map. apply filter_In. split; [exact J|]. unfold time_field. cbn [andb]. destruct (String.eqb_spec (fname x) "valid_time"); [contradiction|reflexivity].
  - exists (valid_var tt valid init). split; [apply in_app_iff; left; apply in_app_iff; right; left; reflexivity|]. split; [reflexivity|]. split; [reflexivity|]. split; [reflexivity|]. apply seconds_near.
  - intros x I D K. apply in_app_iff. right. apply in_map_iff. exists x. split; [unfold field_var; rewrite store_kept, type_kept by exact K; reflexivity|]. apply filter_In. split; [exact I|].
    unfold time_field. cbn [andb]. destruct (String.eqb_spec (fname x) "valid_time"); [contradiction|reflexivity].
Qed.

Lemma C132_valid_time_case_proof : GoodSet timed_set /\ ~ In "valid_time" (map fst (dims timed_set)) /\
  In {| fname := "valid_time"; ftype := Datetime; fdims := []; fvalues := [Some (inject_Z 7200000000000)]; fattrs := [] |} (fields timed_set) /\
  In {| fname := "init_time"; ftype := Datetime; fdims := []; fvalues := [Some (inject_Z 0)]; fattrs := [] |} (fields timed_set) /\
  exists x, In x (fields timed_set) /\ fname x <> "valid_time" /\ KeptType (ftype x).
Proof.
  split; [exact timed_good|]. split; [cbn; intuition discriminate|]. split; [left; reflexivity|]. split; [right; left; reflexivity|]. eexists. split; [right; right; left; reflexivity|]. split; [discriminate|]. right; left; reflexivity.
Qed.

Lemma C132_attributes_refuted_proof : ~ (forall time_text offset ds F x, GoodSet ds -> ~ In "valid_time" (map fst (dims ds)) ->
  write_dataset time_text offset ds None true = Ok F -> In x (fields ds) -> fname x <> "valid_time" -> KeptType (ftype x) ->
  exists v, In v (ncvars F) /\ vname v = fname x /\ vattrs v = fattrs x).
Proof.
  intro P. destruct (write_dataset (fun _ => ""%string) (fun _ => 0) mixed_set None true) as [F|e] eqn:E; [|discriminate E].
  edestruct (P (fun _ => ""%string) (fun _ => 0) mixed_set F) as (v & I & N & A); [exact mixed_good|intros []|exact E|left; reflexivity|discriminate|right; left; reflexivity|].
  vm_compute in E. injection E as <-. cbn in I. destruct I as [<-|[<-|[<-|[]]]]; cbn in N, A; discriminate N || discriminate A.
Qed.

Lemma C132_replaced_refuted_proof : ~ (forall time_text offset ds F x a, GoodSet ds -> ~ In "valid_time" (map fst (dims ds)) ->
  write_dataset time_text offset ds None true = Ok F -> In x (fields ds) -> fname x <> "valid_time" -> KeptType (ftype x) -> In a (fattrs x) ->
  exists v, In v (ncvars F) /\ vname v = fname x /\ In a (vattrs v)).
Proof.
  intro P. destruct (write_dataset (fun _ => ""%string) (fun _ => 0) named_set None true) as [F|e] eqn:E; [|discriminate E].
  edestruct (P (fun _ => ""%string) (fun _ => 0) named_set F) as (v & I & N & A); [exact named_good|intros []|exact E|left; reflexivity|discriminate|right; left; reflexivity|left; reflexivity|].
  vm_compute in E. injection E as <-. cbn in I. destruct I as [<-|[<-|[<-|[]]]]; cbn in N, A; try discriminate N; destruct A as [A|[]]; discriminate A.
Qed.

Lemma C132_first_proof : forall time_text offset ds x rest valid init, GoodSet ds -> ~ In "valid_time" (map fst (dims ds)) ->
  fields ds = x :: rest -> fname x = "valid_time" -> fdims x = [] -> fvalues x = [Some (inject_Z valid)] -> fattrs x <> [] ->
  In {| fname := "init_time"; ftype := Datetime; fdims := []; fvalues := [Some (inject_Z init)]; fattrs := [] |} rest ->
  write_dataset time_text offset ds None true = Err UnboundLocalError.
Proof.
  intros tt off ds x rest valid init H V E Nx Dx Vx Ax II. pose proof H as (N & G & F & A). pose proof (nodup_right _ _ N) as NF. unfold write_dataset. rewrite dims_part by exact H. cbn [bind].
  change {| ncdims := map dim_of (dims ds); ncvars := map coord_var (dims ds); ncattrs := [] |} with (start_file ds). rewrite valid_start by exact V.
  assert (TV : time_of ds "valid_time" = Ok valid). { unfold time_of. rewrite (find_field _ x _ NF); [|rewrite E; left; reflexivity|exact Nx]. rewrite Dx, Vx, floor_z. reflexivity. }
  rewrite TV. erewrite (time_found ds "init_time" init); [|exact NF|rewrite E; right; exact II]. cbn [bind]. rewrite E. cbn [each]. unfold write_field at 1. rewrite Nx. cbn [andb String.eqb Ascii.eqb Bool.eqb bind].
  destruct (fattrs x) as [|a l]; [destruct (Ax eq_refl)|]. reflexivity.
Qed.

Lemma C132_first_case_proof : let x := {| fname := "valid_time"; ftype := Datetime; fdims := []; fvalues := [Some (inject_Z 5)]; fattrs := [("long_name", "time")] |} in
  let i := {| fname := "init_time"; ftype := Datetime; fdims := []; fvalues := [Some (inject_Z 0)]; fattrs := [] |} in
  GoodSet {| dims := []; fields := [x; i]; dattrs := [] |}.
Proof.
  intros x i. unfold x, i. good.
Qed.

Lemma C132_missing_proof : forall time_text offset ds ref, GoodSet ds -> ~ In "valid_time" (map fst (dims ds)) ->
  (~ In "valid_time" (map fname (fields ds)) -> write_dataset time_text offset ds ref true = Err KeyError) /\
  (forall valid, In {| fname := "valid_time"; ftype := Datetime; fdims := []; fvalues := [Some (inject_Z valid)]; fattrs := [] |} (fields ds) ->
     ~ In "init_time" (map fname (fields ds)) -> write_dataset time_text offset ds ref true = Err KeyError).
Proof.
  intros tt off ds ref H V. pose proof H as (N & G & F & A). pose proof (nodup_right _ _ N) as NF. unfold write_dataset. rewrite dims_part by exact H. cbn [bind].
  change {| ncdims := map dim_of (dims ds); ncvars := map coord_var (dims ds); ncattrs := [] |} with (start_file ds). rewrite valid_start by exact V. split.
  - intro X. unfold time_of. rewrite find_none by exact X. reflexivity.
  - intros valid I X. rewrite (time_found _ _ _ _ _ NF I). cbn [bind]. unfold time_of. rewrite find_none by exact X. reflexivity.
Qed.

Lemma C132_missing_case_proof : GoodSet example_set /\ ~ In "valid_time" (map fst (dims example_set)) /\ ~ In "valid_time" (map fname (fields example_set)).
Proof.
  split; [exact example_good|]. split; cbn; intuition discriminate.
Qed.

Lemma C133_reference_proof : forall time_text offset ds ref y m d h, GoodSet ds -> Unused "forecast_reference_time" ds -> HourText ref y m d h -> RealHour y m d h ->
  exists F local v, write_dataset time_text offset ds (Some ref) false = Ok F /\ SecondsSince1970 (y, m, d, h) local /\
    In v (ncvars F) /\ vname v = "forecast_reference_time" /\ vvalues v = [Some (inject_Z (local - offset local))] /\
    In ("units", "seconds since 1970-01-01 00:00") (vattrs v) /\
    (forall F', write_dataset time_text offset ds None false = Ok F' -> ncvars F = (ncvars F' ++ [v])%list).
Proof.
  intros tt off ds ref y m d h H U T V. destruct (hour_pieces ref y m d h T) as (P1 & P2 & P3 & P4). destruct (timestamp_ok off y m d h V) as [TS SS].
  rewrite plain_run by exact H. rewrite ref_run by exact U. rewrite P1, P2, P3, P4. cbn [bind]. rewrite TS. cbn [bind].
  eexists. exists (stamp (y, m, d, h)), (ref_var [Some (inject_Z (stamp (y, m, d, h) - off (stamp (y, m, d, h))))]). split; [reflexivity|]. split; [exact SS|]. cbn [ncvars].
  split; [apply in_app_iff; right; left; reflexivity|]. split; [reflexivity|]. split; [reflexivity|]. split; [right; right; left; reflexivity|].
  intros F' E. rewrite plain_run in E by exact H. injection E as <-. reflexivity.
Qed.

Lemma C133_reference_case_proof : Unused "forecast_reference_time" example_set /\ HourText "2024022912.nc" 2024 2 29 12 /\ RealHour 2024 2 29 12.
Proof.
  split; [split; cbn; intuition discriminate|]. split.
  - exists "2024"%string, "02"%string, "29"%string, "12"%string, ".nc"%string. repeat (split; [reflexivity|]). split; [apply decimal_of; reflexivity|]. split; [apply decimal_of; reflexivity|]. split; apply decimal_of; reflexivity.
  - apply real_hour. cbn. lia.
Qed.

Lemma C133_zone_refuted_proof : ~ (forall time_text offset ds ref y m d h F s v, GoodSet ds -> Unused "forecast_reference_time" ds ->
  HourText ref y m d h -> RealHour y m d h -> write_dataset time_text offset ds (Some ref) false = Ok F -> SecondsSince1970 (y, m, d, h) s ->
  In v (ncvars F) -> vname v = "forecast_reference_time" -> vvalues v = [Some (inject_Z s)]).
Proof.
  intro P. pose proof C133_reference_case_proof as (U & T & V).
  destruct (C133_reference_proof (fun _ => ""%string) (fun _ => 3600) example_set _ _ _ _ _ example_good U T V) as (F & s & v & E & SS & I & N & VV & _).
  pose proof (P _ _ _ _ _ _ _ _ F s v example_good U T V E SS I N) as X. rewrite VV in X. injection X as X. lia.
Qed.

Lemma C133_refused_proof : forall time_text offset ds ref, GoodSet ds -> Unused "forecast_reference_time" ds ->
  (forall y m d h, HourText ref y m d h -> ~ RealHour y m d h -> write_dataset time_text offset ds (Some ref) false = Err ValueError) /\
  (forall n, DecimalText ref n -> (String.length ref <= 8)%nat -> write_dataset time_text offset ds (Some ref) false = Err ValueError).
Proof.
  intros tt off ds ref H U. rewrite plain_run by exact H. rewrite ref_run by exact U. split.
  - intros y m d h T V. destruct (hour_pieces ref y m d h T) as (P1 & P2 & P3 & P4). rewrite P1, P2, P3, P4. cbn [bind]. rewrite timestamp_bad by exact V. reflexivity.
  - intros n D L. apply decimal_digits in D. apply digits_all in D. rewrite (sub_past ref 8 2 L).
    destruct (to_int_all _ (all_sub ref 0 4 D)) as [->|(a & ->)]; [reflexivity|]. cbn [bind]. destruct (to_int_all _ (all_sub ref 4 2 D)) as [->|(b & ->)]; [reflexivity|]. cbn [bind].
    destruct (to_int_all _ (all_sub ref 6 2 D)) as [->|(c & ->)]; reflexivity.
Qed.

Lemma C133_refused_case_proof : HourText "2023022900" 2023 2 29 0 /\ ~ RealHour 2023 2 29 0 /\ DecimalText "20240229" 20240229.
Proof.
  split.
  - exists "2023"%string, "02"%string, "29"%string, "00"%string, ""%string. repeat (split; [reflexivity|]). split; [apply decimal_of; reflexivity|]. split; [apply decimal_of; reflexivity|]. split; apply decimal_of; reflexivity.
  - split; [intro V; apply real_hour in V; cbn in V; lia|apply decimal_of; reflexivity].
Qed.

Lemma C133_program_model : forall time_text offset datadir output a ref rest c ds,
  (forall s t, ref <> (s ++ "." ++ t)%string) -> path_join datadir output = (a ++ "." ++ ref ++ "." ++ rest)%string -> (forall s t, a <> (s ++ "." ++ t)%string) ->
  (forall F, write_dataset time_text offset ds (Some ref) c = Ok F -> write_output time_text offset datadir output true c ds = Ok F) /\
  (forall e, e <> NotModelled -> write_dataset time_text offset ds (Some ref) c = Err e -> write_output time_text offset datadir output true c ds = Err AttributeError).
Proof.
  intros tt off datadir output a ref rest c ds R E D. unfold write_output. rewrite E. rewrite split_dot by (apply no_dot_free; exact D). rewrite split_dot by (apply no_dot_free; exact R).
  split; [intros F W; rewrite W; reflexivity|]. intros e NE W. rewrite W. destruct e; try reflexivity. destruct (NE eq_refl).
Qed.


Lemma C133_directory_refuted_proof : ~ (forall time_text offset datadir name ref ds F, GoodSet ds -> (forall s t, ref <> (s ++ "." ++ t)%string) ->
  (forall s t, name <> (s ++ "." ++ t)%string) -> (forall s t, name <> (s ++ "/" ++ t)%string) -> name <> "" -> datadir <> "" ->
  write_dataset time_text offset ds (Some ref) false = Ok F ->
  write_output time_text offset datadir (name ++ "." ++ ref ++ ".nc") true false ds = Ok F).
Proof.
  intro P. assert (R : RealHour 2024 2 29 12) by (apply real_hour; cbn; lia).
  assert (T : HourText "2024022912" 2024 2 29 12).
  { exists "2024"%string, "02"%string, "29"%string, "12"%string, ""%string. repeat (split; [reflexivity|]). split; [apply decimal_of; reflexivity|]. split; [apply decimal_of; reflexivity|]. split; apply decimal_of; reflexivity. }
  pose proof C133_reference_case_proof as (U & _ & _).
  destruct (C133_reference_proof (fun _ => ""%string) (fun _ => 0) example_set _ _ _ _ _ example_good U T R) as (F & s & v & E & _).
  pose proof (P (fun _ => ""%string) (fun _ => 0) "./data"%string "gfs"%string "2024022912"%string example_set F example_good) as Q.
  specialize (Q ltac:(apply dot_free; reflexivity) ltac:(apply dot_free; reflexivity)). specialize (Q ltac:(intros [|a [|b [|c [|d s']]]] t; discriminate) ltac:(discriminate) ltac:(discriminate) E). vm_compute in Q. discriminate Q.
Qed.
Lemma last_char_end d c : last_char (d ++ String c "")%string = Some c.
Proof. induction d as [|x d IH]; [reflexivity|]. cbn [append]. destruct d as [|y d]; [reflexivity|]. exact IH. Qed.
Lemma last_char_split s c : last_char s = Some c -> exists d, s = (d ++ String c "")%string.
Proof.
  induction s as [|x s IH]; [discriminate|]. destruct s as [|y s].
  - cbn. intro E. injection E as ->. exists ""%string. reflexivity.
  - intro E. destruct (IH E) as (d & ->). exists (String x d). reflexivity.
Qed.
Lemma last_char_none s : last_char s = None -> s = ""%string.
Proof. induction s as [|x s IH]; [reflexivity|]. destruct s as [|y s]; [discriminate|]. intro E. discriminate (IH E). Qed.
Lemma app_empty s : (s ++ "")%string = s.
Proof. induction s as [|x s IH]; [reflexivity|]. cbn. rewrite IH. reflexivity. Qed.
Lemma output_path dir file path : OutputPath dir file path -> path_join dir file = path.
Proof.
  unfold path_join. intros [((rest & ->) & ->)|(N & H)]; [reflexivity|].
  assert (J : match last_char dir with None => file | Some d => if Ascii.eqb d "/" then (dir ++ file)%string else (dir ++ "/" ++ file)%string end = path).
  { destruct H as [(-> & ->)|[((d & ->) & ->)|(H1 & H2 & ->)]]; [reflexivity|rewrite last_char_end; reflexivity|].
    destruct (last_char dir) as [c|] eqn:E; [|destruct (H1 (last_char_none _ E))]. destruct (Ascii.eqb c "/") eqn:B; [|reflexivity].
    apply Ascii.eqb_eq in B. subst. destruct (H2 (last_char_split _ _ E)). }
  destruct file as [|c f].
  - rewrite <- J. destruct (last_char dir) as [d|]; [|reflexivity]. rewrite app_empty. reflexivity.
  - destruct (Ascii.eqb c "/") eqn:B; [apply Ascii.eqb_eq in B; subst; destruct (N f eq_refl)|exact J].
Qed.
Lemma C133_program_proof : forall time_text offset datadir output a ref rest c ds,
  (forall s t, ref <> (s ++ "." ++ t)%string) -> OutputPath datadir output (a ++ "." ++ ref ++ "." ++ rest)%string -> (forall s t, a <> (s ++ "." ++ t)%string) ->
  (forall F, write_dataset time_text offset ds (Some ref) c = Ok F -> write_output time_text offset datadir output true c ds = Ok F) /\
  (forall e, e <> NotModelled -> write_dataset time_text offset ds (Some ref) c = Err e -> write_output time_text offset datadir output true c ds = Err AttributeError).
Proof.
  intros tt off dir out a ref rest c ds H1 H2 H3. exact (C133_program_model tt off dir out a ref rest c ds H1 (output_path _ _ _ H2) H3).
Qed.
Lemma C133_program_case_proof : OutputPath "/data" "gfs.2024022912.nc" ("/data/gfs" ++ "." ++ "2024022912" ++ "." ++ "nc")%string /\
  (forall s t, "/data/gfs" <> (s ++ "." ++ t)%string) /\ (forall s t, "2024022912" <> (s ++ "." ++ t)%string).
Proof.
  split; [|split; apply dot_free; reflexivity]. right. split; [discriminate|]. right. right. split; [discriminate|]. split; [|reflexivity].
  intros (d & E). pose proof (last_char_end d "/") as G. rewrite <- E in G. discriminate G.
Qed.
