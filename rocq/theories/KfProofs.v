(** Proofs about the filter for equatorial waves. *)
From Coq Require Import Reals Qreals QArith Qabs String.
From Verif Require Import PyBase ColumnModel WavesModel WavesSpec BlockProofs WavesProofs KfModel KfSpec.
From Verif Require MatsunoProofs.
From Coq Require Import List Lia Lqa Lra.
Import ListNotations.
Open Scope nat_scope.
Open Scope list_scope.

(** ** Rounding *)
Lemma qltb a b : Qlt_bool a b = true <-> (a < b)%Q. Proof. apply Qltb_iff. Qed.
Lemma qltb_false a b : Qlt_bool a b = false <-> (b <= a)%Q.
Proof. rewrite <- Bool.not_true_iff_false, qltb. split; intros H; [apply Qnot_lt_le; exact H|apply Qle_not_lt; exact H]. Qed.
Lemma floor_bounds q : (0 <= q - inject_Z (Qfloor q) < 1)%Q.
Proof. pose proof (Qfloor_le q). pose proof (Qlt_floor q) as L. rewrite inject_Z_plus in L. change (inject_Z 1) with 1%Q in L. Lqa.lra. Qed.
Lemma round_nearest q : Nearest q (round_py q).
Proof.
  unfold round_py. pose proof (floor_bounds q) as B. set (f := Qfloor q) in *. assert (P : inject_Z (f + 1) == inject_Z f + 1) by (rewrite inject_Z_plus; reflexivity).
  destruct (Qlt_bool (q - inject_Z f) (1 # 2)) eqn:E.
  - apply qltb in E. split; [rewrite Qabs_pos by Lqa.lra; Lqa.lra|]. rewrite Qabs_pos by Lqa.lra. intros X. Lqa.lra.
  - apply qltb_false in E. destruct (Qlt_bool (1 # 2) (q - inject_Z f)) eqn:E2.
    + apply qltb in E2. split; [rewrite Qabs_neg by Lqa.lra; Lqa.lra|]. rewrite Qabs_neg by Lqa.lra. intros X. Lqa.lra.
    + apply qltb_false in E2. destruct (Z.even f) eqn:E3.
      * split; [rewrite Qabs_pos by Lqa.lra; Lqa.lra|]. intros _. apply Z.even_spec. exact E3.
      * split; [rewrite Qabs_neg by Lqa.lra; Lqa.lra|]. intros _. apply Z.even_spec. rewrite Z.even_add, E3. reflexivity.
Qed.
Lemma nearest_unique q a b : Nearest q a -> Nearest q b -> a = b.
Proof.
  intros [A EA] [B EB]. apply Qabs_Qle_condition in A, B.
  assert (D : (-1 <= inject_Z a - inject_Z b <= 1)%Q) by Lqa.lra.
  assert (DZ : (-1 <= a - b <= 1)%Z).
  { destruct D as [D1 D2]. unfold Qle, Qminus, Qplus, Qopp, inject_Z in D1, D2. cbn [Qnum Qden] in D1, D2. lia. }
  assert (a = b \/ a = b + 1 \/ b = a + 1)%Z as [E|[E|E]] by lia; [exact E| |]; exfalso.
  - subst a. rewrite inject_Z_plus in *. change (inject_Z 1) with 1%Q in *. assert (X : q - inject_Z b == 1 # 2) by Lqa.lra.
    assert (Z.Even (b + 1)) by (apply EA; rewrite Qabs_neg by Lqa.lra; Lqa.lra). assert (Z.Even b) by (apply EB; rewrite Qabs_pos by Lqa.lra; Lqa.lra).
    destruct H as [x ?], H0 as [y ?]. lia.
  - subst b. rewrite inject_Z_plus in *. change (inject_Z 1) with 1%Q in *. assert (X : q - inject_Z a == 1 # 2) by Lqa.lra.
    assert (Z.Even (a + 1)) by (apply EB; rewrite Qabs_neg by Lqa.lra; Lqa.lra). assert (Z.Even a) by (apply EA; rewrite Qabs_pos by Lqa.lra; Lqa.lra).
    destruct H as [x ?], H0 as [y ?]. lia.
Qed.
Lemma nearest_eq q z : Nearest q z -> round_py q = z.
Proof. intros H. exact (nearest_unique q _ _ (round_nearest q) H). Qed.
Lemma nearest_int z : Nearest (inject_Z z) z.
Proof. split; [rewrite Qabs_pos by Lqa.lra; Lqa.lra|]. rewrite Qabs_pos by Lqa.lra. intros X. Lqa.lra. Qed.
Lemma nearest_proper q q' z : (q == q')%Q -> Nearest q z -> Nearest q' z.
Proof. intros E [A B]. split; [rewrite <- E; exact A|]. rewrite <- E. exact B. Qed.
Lemma nearest_nonneg q z : (0 <= q)%Q -> Nearest q z -> (0 <= z)%Z.
Proof.
  intros P [A B]. apply Qabs_Qle_condition in A. destruct (Z_lt_le_dec z 0) as [N|]; [|assumption]. exfalso. assert (z <= -1)%Z by lia.
  assert (X : (inject_Z z <= inject_Z (-1))%Q) by (rewrite <- Zle_Qle; lia). change (inject_Z (-1)) with (-1 # 1)%Q in X. Lqa.lra.
Qed.
Lemma limit_place nk k : Limit nk k (place (Z.of_nat nk) k).
Proof.
  unfold place, Limit. split; intros K.
  - apply qltb in K. rewrite K. eexists. split; [apply round_nearest|reflexivity].
  - apply qltb_false in K. rewrite K. eexists. split; [apply round_nearest|reflexivity].
Qed.
Lemma place_bounds nk k : (0 <= place (Z.of_nat nk) k <= Z.max (Z.of_nat nk) (place (Z.of_nat nk) k))%Z.
Proof.
  split; [|lia]. unfold place. assert (0 <= Z.of_nat nk / 2)%Z by (apply Z.div_pos; lia). destruct (Qlt_bool k 0) eqn:E; [lia|]. apply qltb_false in E. pose proof (nearest_nonneg k _ E (round_nearest k)). lia.
Qed.
Lemma floor_spec x : Floor x (floor_r x).
Proof. unfold Floor, floor_r. pose proof (base_Int_part x). lra. Qed.
Lemma ceil_spec x : Ceiling x (ceil_r x).
Proof. unfold Ceiling, ceil_r. pose proof (base_Int_part (- x)). rewrite opp_IZR. lra. Qed.
Lemma floor_unique x a b : Floor x a -> Floor x b -> a = b.
Proof. unfold Floor. intros A B. assert (IZR a < IZR (b + 1))%R by (rewrite plus_IZR; lra). assert (IZR b < IZR (a + 1))%R by (rewrite plus_IZR; lra). apply lt_IZR in H, H0. lia. Qed.
Lemma ceil_unique x a b : Ceiling x a -> Ceiling x b -> a = b.
Proof. unfold Ceiling. intros A B. assert (IZR (a - 1) < IZR b)%R by (rewrite minus_IZR; lra). assert (IZR (b - 1) < IZR a)%R by (rewrite minus_IZR; lra). apply lt_IZR in H, H0. lia. Qed.

(** ** Arrays *)
Lemma map_combine_nth {A B} (f : nat * A -> B) (l : list A) j :
  nth_error (map f (combine (seq 0 (length l)) l)) j = option_map (fun v => f (j, v)) (nth_error l j).
Proof.
  assert (G : forall s, nth_error (map f (combine (seq s (length l)) l)) j = option_map (fun v => f (s + j, v)) (nth_error l j)).
  { revert j. induction l as [|a l IH]; intros j s; [destruct j; reflexivity|]. cbn [length seq combine map]. destruct j as [|j]; [cbn; rewrite Nat.add_0_r; reflexivity|]. cbn [nth_error]. rewrite IH. replace (S s + j) with (s + S j) by lia. reflexivity. }
  apply (G 0).
Qed.
Lemma map_combine_len {A B} (f : nat * A -> B) (l : list A) : length (map f (combine (seq 0 (length l)) l)) = length l.
Proof. rewrite map_length, combine_length, seq_length. lia. Qed.
(** [b] has the entries of [a] where [keep] says so, zeros elsewhere. *)
Definition Rel (nk nf : nat) (keep : nat -> nat -> bool) (a b : list (list cplx)) : Prop :=
  Shape nk nf b /\ forall i j v, Entry a i j v -> Entry b i j (if keep i j then v else (0%R, 0%R)).
Lemma rel_refl nk nf a : Shape nk nf a -> Rel nk nf (fun _ _ => true) a a.
Proof. intros H. split; [exact H|]. auto. Qed.
Lemma rel_comp nk nf k1 k2 a b c : Rel nk nf k1 a b -> Rel nk nf k2 b c -> Rel nk nf (fun i j => k1 i j && k2 i j) a c.
Proof.
  intros [_ A] [S0 B]. split; [exact S0|]. intros i j v E. apply A in E. apply B in E. destruct (k1 i j); cbn [andb]; [exact E|]. destruct (k2 i j); exact E.
Qed.
Lemma rel_ext nk nf k1 k2 a b : (forall i j, i < nk -> j < nf -> k1 i j = k2 i j) -> Shape nk nf a -> Rel nk nf k1 a b -> Rel nk nf k2 a b.
Proof.
  intros H [L F] [S0 A]. split; [exact S0|]. intros i j v E. rewrite <- H; [apply A; exact E| |]; destruct E as (row & R1 & R2).
  - rewrite <- L. apply nth_error_Some. congruence.
  - rewrite Forall_forall in F. rewrite <- (F row) by (exact (nth_error_In _ _ R1)). apply nth_error_Some. congruence.
Qed.
Definition cut (a b : Z) (n j : nat) : bool := negb ((bound n a <=? Z.of_nat j) && (Z.of_nat j <? bound n b))%Z.
Lemma zero_slice_nth a b col j : nth_error (zero_slice a b col) j = option_map (fun v => if cut a b (length col) j then v else (0%R, 0%R)) (nth_error col j).
Proof. unfold zero_slice, cplx in *. rewrite map_combine_nth. destruct (nth_error col j); [|reflexivity]. cbn [option_map]. f_equal. unfold cut. destruct (_ && _)%Z; reflexivity. Qed.
Lemma zero_slice_len a b col : length (zero_slice a b col) = length col.
Proof. apply map_combine_len. Qed.
Lemma shape_len {A} nk nf (M : list (list A)) i row : Shape nk nf M -> nth_error M i = Some row -> length row = nf.
Proof. intros [_ F] H. rewrite Forall_forall in F. apply F. exact (nth_error_In _ _ H). Qed.
Lemma rel_rows nk nf a b M : Shape nk nf M -> Rel nk nf (fun _ j => cut a b nf j) M (map (zero_slice a b) M).
Proof. unfold cplx in *.
  intros S0. pose proof S0 as [L F]. split.
  - split; [rewrite map_length; exact L|]. apply Forall_map. rewrite Forall_forall in F |- *. intros row I. rewrite zero_slice_len. apply F. exact I.
  - intros i j v (row & R1 & R2). unfold cplx in *. exists (zero_slice a b row). rewrite nth_error_map, R1. split; [reflexivity|]. rewrite zero_slice_nth. unfold cplx in *. rewrite R2, (shape_len _ _ _ _ _ S0 R1). reflexivity.
Qed.
Lemma rel_columns nk nf a b M : Shape nk nf M -> Rel nk nf (fun i _ => cut a b nk i) M (zero_columns a b M).
Proof. unfold cplx in *.
  intros S0. pose proof S0 as [L F]. unfold zero_columns. split.
  - split; [rewrite map_combine_len; exact L|]. apply Forall_forall. intros row I. apply in_map_iff in I. destruct I as ((i & col) & E & I). apply in_combine_r in I. rewrite Forall_forall in F. specialize (F col I). destruct (_ && _)%Z in E; subst row; [rewrite map_length; exact F|exact F].
  - intros i j v (row & R1 & R2). unfold cplx in *. eexists. rewrite map_combine_nth, R1. cbn [option_map]. split; [reflexivity|]. rewrite L. unfold cut. destruct (_ && _)%Z; cbn [negb]; [rewrite nth_error_map, R2; reflexivity|exact R2].
Qed.
Lemma rel_if nk nf (c : bool) keep M M' : Shape nk nf M -> Rel nk nf keep M M' -> Rel nk nf (fun i j => negb c || keep i j) M (if c then M' else M).
Proof. intros S0 A. destruct c; cbn [negb orb]; [exact A|apply rel_refl; exact S0]. Qed.

(** One turn of the loop, without the column. *)
Definition limits (junk : option R) (obsPerDay hMin hMax : Q) (waveName : string) (nk nf i : nat) : res (Z * Z) :=
  let nt := ((Z.of_nat nf - 1) * 2)%Z in
  let spc := (24 * 3600 / (2 * PI * Q2R obsPerDay))%R in
  let k := wavenumber nk i in
  let '(c0, c1) := speeds junk hMin hMax in
  jMinWave <- (if Qeq_bool hMin (-9999) then Ok 0%Z
               else match wave_freq waveName k 0 c0 with None => Err ValueError | Some f => Ok (floor_r (f * spc * IZR nt)) end) ;;
  jMaxWave <- (if Qeq_bool hMax (-9999) then Ok (Z.of_nat nf)
               else match wave_freq waveName k (INR nf / spc) c1 with None => Err ValueError | Some f => Ok (ceil_r (f * spc * IZR nt)) end) ;;
  Ok (Z.min jMinWave (Z.of_nat nf), Z.max jMaxWave 0).
Definition inside (nf : nat) (l : Z * Z) (j : nat) : bool :=
  (negb (0 <? fst l)%Z || cut 0 (fst l) nf j) && (negb (snd l <? Z.of_nat nf)%Z || cut (snd l + 1) (Z.of_nat nf) nf j).
Definition trim (nf : nat) (l : Z * Z) (col : list cplx) : list cplx :=
  let col := if (0 <? fst l)%Z then zero_slice 0 (fst l) col else col in
  if (snd l <? Z.of_nat nf)%Z then zero_slice (snd l + 1) (Z.of_nat nf) col else col.
Lemma column_limits junk o h0 h1 name nk nf i col : wave_column junk o h0 h1 name nk nf i col = (l <- limits junk o h0 h1 name nk nf i ;; Ok (trim nf l col)).
Proof.
  unfold wave_column, limits. destruct (speeds junk h0 h1) as [c0 c1].
  destruct (if Qeq_bool h0 (-9999) then _ else _) as [a|e]; cbn [bind]; [|reflexivity]. destruct (if Qeq_bool h1 (-9999) then _ else _) as [b|e]; reflexivity.
Qed.
Lemma trim_nth nf l col j v : length col = nf -> nth_error col j = Some v -> nth_error (trim nf l col) j = Some (if inside nf l j then v else (0%R, 0%R)).
Proof. unfold cplx in *.
  intros L E. unfold trim, inside. destruct (0 <? fst l)%Z, (snd l <? Z.of_nat nf)%Z; cbn [negb orb]; rewrite ?zero_slice_nth, ?zero_slice_len, ?zero_slice_nth; unfold cplx in *; rewrite ?E, ?L; cbn [option_map]; try reflexivity.
  - f_equal. destruct (cut 0 (fst l) nf j), (cut (snd l + 1) (Z.of_nat nf) nf j); reflexivity.
  - f_equal. rewrite Bool.andb_true_r. reflexivity.
Qed.
Lemma trim_len nf l col : length (trim nf l col) = length col.
Proof. unfold trim. destruct (0 <? fst l)%Z, (snd l <? Z.of_nat nf)%Z; rewrite ?zero_slice_len; reflexivity. Qed.
Lemma mapM_limits {L A} (lim : nat -> res L) (f : L -> A -> A) cols : forall s,
  mapM (fun p => let '(i, col) := p in l <- lim i ;; Ok (f l col)) (combine (seq s (length cols)) cols) =
  (ls <- mapM lim (seq s (length cols)) ;; Ok (map (fun p => f (fst p) (snd p)) (combine ls cols))).
Proof.
  induction cols as [|c cols IH]; intros s; [reflexivity|]. cbn [length seq combine mapM]. destruct (lim s) as [l|e]; [|reflexivity]. cbn [bind]. rewrite IH. destruct (mapM lim (seq (S s) (length cols))) as [ls|e]; reflexivity.
Qed.
Lemma mapM_ext {A B} (f h : A -> res B) l : (forall x, f x = h x) -> mapM f l = mapM h l.
Proof. intros E. induction l as [|a l IH]; [reflexivity|]. cbn [mapM]. rewrite E, IH. reflexivity. Qed.
Lemma combine_nth_error {A B} (l : list A) (m : list B) i a b : nth_error l i = Some a -> nth_error m i = Some b -> nth_error (combine l m) i = Some (a, b).
Proof. revert m i. induction l as [|x l IH]; intros [|y m] [|i] HA HB; cbn in *; try discriminate; [congruence|]. apply IH; assumption. Qed.
Lemma rel_limits nk nf ls M : length ls = nk -> Shape nk nf M ->
  Rel nk nf (fun i j => match nth_error ls i with Some l => inside nf l j | None => true end) M (map (fun p => trim nf (fst p) (snd p)) (combine ls M)).
Proof. unfold cplx in *.
  intros LL S0. pose proof S0 as [L F]. split.
  - split; [rewrite map_length, combine_length; lia|]. apply Forall_forall. intros row I. apply in_map_iff in I. destruct I as ((l & col) & <- & I). cbn [fst snd]. rewrite trim_len. apply in_combine_r in I. rewrite Forall_forall in F. apply F. exact I.
  - intros i j v (row & R1 & R2). unfold cplx in *. destruct (nth_error ls i) as [l|] eqn:EL.
    + exists (trim nf l row). rewrite nth_error_map, (combine_nth_error _ _ _ _ _ EL R1). split; [reflexivity|]. apply trim_nth; [exact (shape_len _ _ _ _ _ S0 R1)|exact R2].
    + exfalso. apply nth_error_None in EL. assert (i < length M) by (apply nth_error_Some; congruence). lia.
Qed.
(** Which places are kept, given the limits. *)
Definition in_places (nk : nat) (iMin iMax : Z) (i : nat) : bool :=
  if (iMin <? iMax)%Z then (negb (0 <? iMin)%Z || cut 0 iMin nk i) && (negb (iMax <? Z.of_nat nk)%Z || cut (iMax + 1) (Z.of_nat nk) nk i)
  else cut (iMax + 1) iMin nk i.
Definition kept (nk nf : nat) (jMin jMax iMin iMax : Z) (ls : list (Z * Z)) (i j : nat) : bool :=
  ((negb (0 <? jMin)%Z || cut 0 jMin nf j) && (negb (jMax <? Z.of_nat nf)%Z || cut (jMax + 1) (Z.of_nat nf) nf j)) &&
  in_places nk iMin iMax i && (match nth_error ls i with Some l => inside nf l j | None => true end).
Lemma rev_shape {A} nk nf (M : list (list A)) : Shape nk nf M -> Shape nk nf (rev M).
Proof. intros [L F]. split; [rewrite rev_length; exact L|]. apply Forall_rev. exact F. Qed.
Lemma rev_entry {A} nk (M : list (list A)) i j v : length M = nk -> Entry M i j v -> Entry (rev M) (nk - 1 - i) j v.
Proof.
  intros L (row & R1 & R2). exists row. split; [|exact R2]. assert (I : i < length M) by (apply nth_error_Some; congruence).
  rewrite (nth_error_nth' (rev M) []) by (rewrite rev_length; lia). rewrite rev_nth by lia. f_equal. replace (length M - S (nk - 1 - i)) with i by lia. apply nth_error_nth. exact R1.
Qed.
Lemma places_rel nk nf iMin iMax cols : Shape nk nf cols ->
  Rel nk nf (fun i _ => in_places nk iMin iMax i) cols
    (if (iMin <? iMax)%Z then
          let cols := if (0 <? iMin)%Z then zero_columns 0 iMin cols else cols in
          if (iMax <? Z.of_nat nk)%Z then zero_columns (iMax + 1) (Z.of_nat nk) cols else cols
        else zero_columns (iMax + 1) iMin cols).
Proof.
  intros S0. unfold in_places. destruct (iMin <? iMax)%Z; [|apply rel_columns; exact S0]. cbv zeta.
  pose proof (rel_if nk nf (0 <? iMin)%Z _ _ _ S0 (rel_columns nk nf 0 iMin cols S0)) as A. pose proof (proj1 A) as S1.
  exact (rel_comp _ _ _ _ _ _ _ A (rel_if nk nf (iMax <? Z.of_nat nk)%Z _ _ _ S1 (rel_columns nk nf (iMax + 1) (Z.of_nat nk) _ S1))).
Qed.
Lemma mask_run junk nk nf M o tMin tMax kMin kMax h0 h1 name : 0 < nk -> Shape nk nf M ->
  let nt := ((Z.of_nat nf - 1) * 2)%Z in
  match (jMin <- step_of nt tMax o ;; jMax <- step_of nt tMin o ;; ls <- mapM (limits junk o h0 h1 name nk nf) (seq 0 nk) ;; Ok (jMin, jMax, ls)) with
  | Ok (jMin, jMax, ls) => length ls = nk /\ exists out cols,
      kf_filter_mask junk M o tMin tMax kMin kMax h0 h1 name = Ok out /\ out = rev cols /\
      Rel nk nf (kept nk nf jMin (Z.min jMax (Z.of_nat nf)) (place (Z.of_nat nk) kMin) (place (Z.of_nat nk) kMax) ls) (rev M) cols
  | Err e => kf_filter_mask junk M o tMin tMax kMin kMax h0 h1 name = Err e
  end.
Proof.
  intros N S0 nt. pose proof (rev_shape _ _ _ S0) as SR. pose proof S0 as [L F]. unfold kf_filter_mask. destruct M as [|row M]; [cbn in L; lia|]. assert (LR : length row = nf) by (inversion F; assumption). rewrite LR, L. fold nt.
  destruct (step_of nt tMax o) as [jMin|e]; cbn [bind]; [|reflexivity]. destruct (step_of nt tMin o) as [jMax0|e]; cbn [bind]; [|reflexivity]. set (jMax := Z.min jMax0 (Z.of_nat nf)). set (iMin := place (Z.of_nat nk) kMin). set (iMax := place (Z.of_nat nk) kMax).
  set (cols0 := rev (row :: M)) in *.
  pose proof (rel_if nk nf (0 <? jMin)%Z _ _ _ SR (rel_rows nk nf 0 jMin cols0 SR)) as A1. set (cols1 := if (0 <? jMin)%Z then _ else _) in *. pose proof (proj1 A1) as S1.
  pose proof (rel_if nk nf (jMax <? Z.of_nat nf)%Z _ _ _ S1 (rel_rows nk nf (jMax + 1) (Z.of_nat nf) cols1 S1)) as A2. set (cols2 := if (jMax <? Z.of_nat nf)%Z then _ else _) in *. pose proof (proj1 A2) as S2.
  pose proof (places_rel nk nf iMin iMax cols2 S2) as A3. cbv zeta in A3. set (cols3 := if (iMin <? iMax)%Z then _ else _) in *. pose proof (proj1 A3) as S3. pose proof (proj1 S3) as L3.
  rewrite (mapM_ext _ (fun p => let '(i, col) := p in l <- limits junk o h0 h1 name nk nf i ;; Ok (trim nf l col))) by (intros [i col]; apply column_limits).
  replace (seq 0 nk) with (seq 0 (length cols3)) by (rewrite L3; reflexivity). rewrite mapM_limits. destruct (mapM (limits junk o h0 h1 name nk nf) (seq 0 (length cols3))) as [ls|e] eqn:ML; cbn [bind]; [|reflexivity].
  assert (LL : length ls = nk). { apply mapM_inv in ML. apply forall2_len in ML. rewrite seq_length in ML. lia. }
  split; [exact LL|]. eexists. eexists. split; [reflexivity|]. split; [reflexivity|].
  pose proof (rel_limits nk nf ls cols3 LL S3) as A4. exact (rel_comp _ _ _ _ _ _ _ (rel_comp _ _ _ _ _ _ _ (rel_comp _ _ _ _ _ _ _ A1 A2) A3) A4).
Qed.
Lemma rel_masked nk nf keep (P : nat -> nat -> Prop) M cols : 0 < nk -> Shape nk nf M -> Rel nk nf keep (rev M) cols ->
  (forall r j, r < nk -> j < nf -> (keep (nk - 1 - r) j = true <-> P r j)) -> Masked nk nf P M (rev cols).
Proof.
  intros N S0 [SC A] H. split; [apply rev_shape; exact SC|]. intros r j v E. pose proof E as (row & R1 & R2). unfold cplx in *.
  assert (I : r < nk) by (destruct S0 as [L _]; rewrite <- L; apply nth_error_Some; congruence). assert (J : j < nf) by (rewrite <- (shape_len _ _ _ _ _ S0 R1); apply nth_error_Some; congruence).
  apply (rev_entry nk) in E; [|apply S0]. apply A in E. apply (rev_entry nk) in E; [|apply SC]. replace (nk - 1 - (nk - 1 - r)) with r in E by lia. specialize (H r j I J).
  destruct (keep (nk - 1 - r) j); split; intros K; try exact E; [exfalso; apply K; apply H; reflexivity|exfalso; apply H in K; discriminate].
Qed.

(** ** The conditions *)
Lemma cut_from b n j : (0 <= b)%Z -> j < n -> cut 0 b n j = true <-> (b <= Z.of_nat j)%Z.
Proof.
  intros B J. unfold cut, bound. destruct (0 <? 0)%Z eqn:E; [lia|]. destruct (Z.ltb_spec b 0); [lia|]. rewrite Bool.negb_true_iff, Bool.andb_false_iff, Z.leb_gt, Z.ltb_ge. lia.
Qed.
Lemma cut_to a n j : (0 <= a)%Z -> j < n -> cut (a + 1) (Z.of_nat n) n j = true <-> (Z.of_nat j <= a)%Z.
Proof.
  intros B J. unfold cut, bound. destruct (Z.ltb_spec (a + 1) 0); [lia|]. destruct (Z.ltb_spec (Z.of_nat n) 0); [lia|]. rewrite Bool.negb_true_iff, Bool.andb_false_iff, Z.leb_gt, Z.ltb_ge. lia.
Qed.
Lemma range_iff a b n j : (0 <= a)%Z -> (0 <= b)%Z -> j < n ->
  ((negb (0 <? a)%Z || cut 0 a n j) && (negb (Z.min b (Z.of_nat n) <? Z.of_nat n)%Z || cut (Z.min b (Z.of_nat n) + 1) (Z.of_nat n) n j) = true <-> (a <= Z.of_nat j <= b)%Z).
Proof.
  intros A B J. rewrite Bool.andb_true_iff, !Bool.orb_true_iff, !Bool.negb_true_iff, !Z.ltb_ge, cut_from, cut_to by lia. lia.
Qed.
Lemma places_iff nk iMin iMax i : (0 <= iMin)%Z -> (0 <= iMax)%Z -> i < nk -> (in_places nk iMin iMax i = true <-> Between iMin iMax (Z.of_nat i)).
Proof.
  intros A B I. unfold in_places, Between. destruct (Z.ltb_spec iMin iMax) as [L|L].
  - rewrite Bool.andb_true_iff, !Bool.orb_true_iff, !Bool.negb_true_iff, !Z.ltb_ge, cut_from, cut_to by lia. lia.
  - unfold cut, bound. destruct (Z.ltb_spec (iMax + 1) 0); [lia|]. destruct (Z.ltb_spec iMin 0); [lia|]. rewrite Bool.negb_true_iff, Bool.andb_false_iff, Z.leb_gt, Z.ltb_ge. lia.
Qed.
Lemma inside_iff nf a b j : j < nf -> (inside nf (Z.min a (Z.of_nat nf), Z.max b 0) j = true <-> (a <= Z.of_nat j /\ (Z.of_nat j <= b \/ j = 0%nat))%Z).
Proof.
  intros J. unfold inside. cbn [fst snd]. rewrite Bool.andb_true_iff, !Bool.orb_true_iff, !Bool.negb_true_iff, !Z.ltb_ge, cut_to by lia.
  destruct (Z_le_gt_dec a 0).
  - split; intros H; [lia|]. split; [left; lia|lia].
  - rewrite cut_from by lia. lia.
Qed.
Lemma step_ok nt t o : (0 < t)%Q -> (0 < o)%Q -> step_of nt t o = Ok (round_py (inject_Z nt / (t * o))).
Proof.
  intros T O. unfold step_of. assert (P : (0 < t * o)%Q) by (apply Qmult_lt_0_compat; assumption). destruct (Qeq_bool (t * o) 0) eqn:E; [apply Qeq_bool_iff in E; rewrite E in P; exfalso; revert P; apply Qlt_irrefl|reflexivity].
Qed.
Lemma step_nonneg nt t o : (0 <= nt)%Z -> (0 < t)%Q -> (0 < o)%Q -> (0 <= inject_Z nt / (t * o))%Q.
Proof.
  intros N T O. apply Qle_shift_div_l; [apply Qmult_lt_0_compat; assumption|]. rewrite Qmult_0_l. change 0%Q with (inject_Z 0). rewrite <- Zle_Qle. exact N.
Qed.

(** ** Speeds and frequencies *)
Lemma beta_is : beta = beta_equator. Proof. unfold beta, beta_equator, omega, re. lra. Qed.
Lemma beta_pos : (0 < beta)%R. Proof. unfold beta, omega, re. lra. Qed.
Lemma k_is nk i : i < nk -> wavenumber nk i = PlaceWavenumber nk i.
Proof.
  intros I. unfold wavenumber, PlaceWavenumber, re. destruct (2 * i <? nk); [reflexivity|]. rewrite minus_INR by lia. f_equal. ring.
Qed.
Lemma is_name_iff name l : is_name name l = true <-> In name l.
Proof. unfold is_name. rewrite existsb_exists. split; [intros (x & I & E); apply String.eqb_eq in E; subst; exact I|intros I; exists name; split; [exact I|apply String.eqb_refl]]. Qed.
Lemma not_name name l : ~ In name l -> is_name name l = false.
Proof. intros H. apply Bool.not_true_iff_false. rewrite is_name_iff. exact H. Qed.
Ltac clash I H := exfalso; clear - I H; cbn [In] in I, H; repeat match goal with X : _ \/ _ |- _ => destruct X end; try contradiction; subst; discriminate.
Lemma freq_known name k other c : KnownWave name -> (0 < c)%R -> exists w, wave_freq name k other (Some c) = Some w /\ WaveFrequency name k c w /\ forall w', WaveFrequency name k c w' -> w' = w.
Proof.
  intros K C. unfold KnownWave in K. pose proof beta_pos as B. assert (BC : (0 < beta * c)%R) by (apply Rmult_lt_0_compat; assumption).
  assert (SQ : forall q w', (0 < q)%R -> (0 < w')%R -> (w' * w' = q)%R -> w' = sqrt q) by (intros q w' Q W E; rewrite <- E; rewrite sqrt_square; lra).
  assert (SQP : forall q, (0 < q)%R -> (0 < sqrt q)%R /\ (sqrt q * sqrt q = q)%R) by (intros q Q; split; [apply sqrt_lt_R0; exact Q|apply sqrt_sqrt; lra]).
  assert (MX : forall w w', (0 < w)%R -> (0 < w')%R -> (w * w = k * c * w + beta * c)%R -> (w' * w' = k * c * w' + beta * c)%R -> w' = w) by (intros w w' W W' E E'; apply (MatsunoProofs.mixed_unique (k * c) (beta * c)); lra).
  destruct (in_dec string_dec name ["Kelvin"; "kelvin"; "KELVIN"]%string) as [I|N1].
  { exists (k * c)%R. unfold wave_freq. rewrite (proj2 (is_name_iff _ _) I). split; [reflexivity|]. split; [left; auto|]. intros w' H. destruct H as [[_ H]|[[H _]|[[H _]|[[H _]|[H _]]]]]; [exact H| | | |]; clash I H. }
  destruct (in_dec string_dec name ["ER"; "er"]%string) as [I|N2].
  { assert (D : (0 < k ^ 2 + 3 * beta / c)%R) by (assert (0 <= k ^ 2)%R by apply pow2_ge_0; assert (0 < 3 * beta / c)%R by (apply Rdiv_lt_0_compat; lra); lra).
    exists (- beta * k / (k ^ 2 + 3 * beta / c))%R. unfold wave_freq. rewrite (not_name _ _ N1), (proj2 (is_name_iff _ _) I). destruct (Req_EM_T c 0); [lra|]. destruct (Req_EM_T (k ^ 2 + 3 * beta / c) 0); [lra|]. split; [reflexivity|].
    replace (k ^ 2)%R with (k * k)%R in * by ring. split.
    - right. left. split; [exact I|]. rewrite <- beta_is. field. split; [lra|]. intros Z. apply n0. replace (k * k + 3 * beta / c)%R with ((k * k * c + 3 * beta) / c)%R by (field; lra). rewrite Z. field. lra.
    - intros w' H. destruct H as [[H _]|[[_ H]|[[H _]|[[H _]|[H _]]]]]; [clash I H| |clash I H|clash I H|clash I H].
      rewrite <- beta_is in H. apply (Rmult_eq_reg_r (k * k + 3 * beta / c)); [|lra]. rewrite H. unfold Rdiv at 1. rewrite Rmult_assoc, Rinv_l by lra. ring. }
  destruct (in_dec string_dec name ["MRG"; "IG0"; "mrg"; "ig0"]%string) as [I|N3].
  { assert (U : forall w, (0 < w)%R -> (w * w = k * c * w + beta * c)%R -> WaveFrequency name k c w /\ forall w', WaveFrequency name k c w' -> w' = w).
    { intros w W E. split; [right; right; left; rewrite <- beta_is; auto|]. intros w' H. destruct H as [[H _]|[[H _]|[(_ & W' & H)|[[H _]|[H _]]]]]; try (clash I H). rewrite <- beta_is in H. exact (MX _ _ W W' E H). }
    unfold wave_freq. rewrite (not_name _ _ N1), (not_name _ _ N2), (proj2 (is_name_iff _ _) I). destruct (Req_EM_T k 0) as [K0|K0].
    - destruct (Rlt_dec (beta * c) 0); [lra|]. exists (sqrt (beta * c)). split; [reflexivity|]. destruct (SQP _ BC). apply U; [assumption|]. rewrite K0. lra.
    - destruct (Req_EM_T c 0); [lra|]. replace (k ^ 2 * c)%R with (k * k * c)%R by ring. assert (DP : (0 < 4 * beta / (k * k * c))%R) by (apply Rdiv_lt_0_compat; [lra|apply Rmult_lt_0_compat; [nra|exact C]]). destruct (Rlt_dec (1 + 4 * beta / (k * k * c)) 0); [lra|].
      pose proof (MatsunoProofs.mixed_root (c * k) (beta * c) BC) as [W E]. assert (E' : (MatsunoProofs.mixed (c * k) (beta * c) * MatsunoProofs.mixed (c * k) (beta * c) = k * c * MatsunoProofs.mixed (c * k) (beta * c) + beta * c)%R) by (ring_simplify in E; ring_simplify; lra).
      destruct (Rlt_dec 0 k).
      + eexists. split; [reflexivity|]. replace (k * c)%R with (c * k)%R by ring. rewrite (MatsunoProofs.eig_formula c beta k C B) by assumption. apply U; assumption.
      + eexists. split; [reflexivity|]. replace (k * c)%R with (c * k)%R by ring. rewrite (MatsunoProofs.mrg_formula c beta k C B) by lra. apply U; assumption. }
  assert (KC : (0 <= k ^ 2 * c ^ 2)%R) by (replace (k ^ 2 * c ^ 2)%R with ((k * c) ^ 2)%R by ring; apply pow2_ge_0).
  destruct (in_dec string_dec name ["IG1"; "ig1"]%string) as [I|N4].
  { assert (D : (0 < 3 * beta * c + k ^ 2 * c ^ 2)%R) by lra. unfold wave_freq. rewrite (not_name _ _ N1), (not_name _ _ N2), (not_name _ _ N3), (proj2 (is_name_iff _ _) I). destruct (Rlt_dec (3 * beta * c + k ^ 2 * c ^ 2) 0); [lra|].
    eexists. split; [reflexivity|]. destruct (SQP _ D) as [W E]. replace (k ^ 2 * c ^ 2)%R with (k * k * (c * c))%R in * by ring. split; [right; right; right; left; rewrite <- beta_is; auto|].
    intros w' H. destruct H as [[H _]|[[H _]|[[H _]|[(_ & W' & H)|[H _]]]]]; try (clash I H). rewrite <- beta_is in H. apply SQ; assumption. }
  destruct (in_dec string_dec name ["IG2"; "ig2"]%string) as [I|N5].
  { assert (D : (0 < 5 * beta * c + k ^ 2 * c ^ 2)%R) by lra. unfold wave_freq. rewrite (not_name _ _ N1), (not_name _ _ N2), (not_name _ _ N3), (not_name _ _ N4), (proj2 (is_name_iff _ _) I). destruct (Rlt_dec (5 * beta * c + k ^ 2 * c ^ 2) 0); [lra|].
    eexists. split; [reflexivity|]. destruct (SQP _ D) as [W E]. replace (k ^ 2 * c ^ 2)%R with (k * k * (c * c))%R in * by ring. split; [right; right; right; right; rewrite <- beta_is; auto|].
    intros w' H. destruct H as [[H _]|[[H _]|[[H _]|[[H _]|(_ & W' & H)]]]]; try (clash I H). rewrite <- beta_is in H. apply SQ; assumption. }
  exfalso. cbn in K, N1, N2, N3, N4, N5. intuition congruence.
Qed.
Lemma freq_none name k other : KnownWave name -> wave_freq name k other None = None.
Proof.
  intros K. unfold KnownWave in K. unfold wave_freq. destruct (is_name name ["Kelvin"; "kelvin"; "KELVIN"]%string) eqn:E1; [reflexivity|]. destruct (is_name name ["ER"; "er"]%string) eqn:E2; [reflexivity|]. destruct (is_name name ["MRG"; "IG0"; "mrg"; "ig0"]%string) eqn:E3; [reflexivity|].
  destruct (is_name name ["IG1"; "ig1"]%string) eqn:E4; [reflexivity|]. destruct (is_name name ["IG2"; "ig2"]%string) eqn:E5; [reflexivity|]. exfalso. apply Bool.not_true_iff_false in E1, E2, E3, E4, E5. rewrite is_name_iff in *. cbn in *. intuition congruence.
Qed.
Lemma freq_other name k other c : ~ KnownWave name -> wave_freq name k other c = Some other.
Proof.
  intros K. unfold KnownWave in K. unfold wave_freq. rewrite !not_name; [reflexivity| | | | |]; intros H; apply K; cbn in *; intuition congruence.
Qed.
Lemma speed_pos h : (0 < h)%Q -> (0 < sqrt (g * Q2R h))%R.
Proof. intros H. apply sqrt_lt_R0. apply Rmult_lt_0_compat; [unfold g; lra|]. apply Qlt_Rlt in H. rewrite RMicromega.Q2R_0 in H. exact H. Qed.
Lemma g_is : g = 9.80665%R. Proof. unfold g. lra. Qed.
Lemma not_mark h : (0 < h)%Q -> Qeq_bool h (-9999) = false.
Proof. intros H. apply Bool.not_true_iff_false. rewrite Qeq_bool_iff. intros E. rewrite E in H. discriminate H. Qed.

Lemma mapM_ok_seq {B} (f : nat -> res B) (h : nat -> B) n : (forall i, i < n -> f i = Ok (h i)) -> mapM f (seq 0 n) = Ok (map h (seq 0 n)).
Proof.
  intros H. assert (G : forall l, (forall i, In i l -> i < n) -> mapM f l = Ok (map h l)).
  { induction l as [|a l IH]; intros I; [reflexivity|]. cbn [mapM]. rewrite H by (apply I; left; reflexivity). cbn [bind]. rewrite IH by (intros i X; apply I; right; exact X). reflexivity. }
  apply G. intros i I. apply in_seq in I. lia.
Qed.
Lemma nth_map_seq {B} (h : nat -> B) n i : i < n -> nth_error (map h (seq 0 n)) i = Some (h i).
Proof. intros H. rewrite nth_error_map. rewrite (nth_error_nth' (seq 0 n) 0) by (rewrite seq_length; exact H). rewrite seq_nth by exact H. reflexivity. Qed.

Lemma nth_ext_all {A} (l m : list A) : length l = length m -> (forall i v, nth_error l i = Some v -> nth_error m i = Some v) -> l = m.
Proof.
  revert m. induction l as [|a l IH]; intros [|b m] L H; try discriminate L; [reflexivity|]. pose proof (H 0 a eq_refl) as E. cbn in E. injection E as E. subst b. f_equal. apply IH; [cbn in L; lia|]. intros i v X. exact (H (S i) v X).
Qed.
Lemma shape_entry {A} nk nf (M : list (list A)) i j : Shape nk nf M -> i < nk -> j < nf -> exists v, Entry M i j v.
Proof.
  intros [L F] I J. destruct (nth_error M i) as [row|] eqn:E; [|apply nth_error_None in E; lia]. rewrite Forall_forall in F. pose proof (F row (nth_error_In _ _ E)) as LR. destruct (nth_error row j) as [v|] eqn:E2; [|apply nth_error_None in E2; lia]. exists v, row. auto.
Qed.
Lemma entry_bounds {A} nk nf (M : list (list A)) i j v : Shape nk nf M -> Entry M i j v -> i < nk /\ j < nf.
Proof. intros S0 (row & R1 & R2). split; [destruct S0 as [L _]; rewrite <- L; apply nth_error_Some; congruence|rewrite <- (shape_len _ _ _ _ _ S0 R1); apply nth_error_Some; congruence]. Qed.
Lemma entry_fun {A} (M : list (list A)) i j v w : Entry M i j v -> Entry M i j w -> v = w.
Proof. intros (r & R1 & R2) (r' & R1' & R2'). congruence. Qed.
Lemma entries_eq {A} nk nf (M N : list (list A)) : Shape nk nf M -> Shape nk nf N -> (forall i j v, Entry M i j v -> Entry N i j v) -> M = N.
Proof.
  intros SM SN H. apply nth_ext_all; [destruct SM, SN; congruence|]. intros i row E. assert (I : i < nk) by (destruct SM as [L _]; rewrite <- L; apply nth_error_Some; congruence).
  destruct (nth_error N i) as [row'|] eqn:E'; [|apply nth_error_None in E'; destruct SN as [L _]; lia]. f_equal. symmetry. apply nth_ext_all; [rewrite (shape_len _ _ _ _ _ SM E), (shape_len _ _ _ _ _ SN E'); reflexivity|].
  intros j v EV. destruct (H i j v) as (r & R1 & R2); [exists row; auto|]. congruence.
Qed.
Lemma rel_idem nk nf keep A B D : Shape nk nf A -> Rel nk nf keep A B -> Rel nk nf keep B D -> B = D.
Proof.
  intros SA [SB HB] [SD HD]. apply (entries_eq nk nf _ _ SB SD). intros i j v E. destruct (entry_bounds _ _ _ _ _ _ SB E) as [I J]. destruct (shape_entry _ _ _ i j SA I J) as [u U].
  apply HB in U. pose proof (entry_fun _ _ _ _ _ U E) as X. apply HD in E. destruct (keep i j); [exact E|]. rewrite <- X in *. exact E.
Qed.
Lemma limits_exn junk o h0 h1 name nk nf i e : limits junk o h0 h1 name nk nf i = Err e -> e = ValueError.
Proof.
  unfold limits. destruct (speeds junk h0 h1) as [c0 c1]. destruct (Qeq_bool h0 (-9999)), (Qeq_bool h1 (-9999)); cbn [bind].
  - intros H. discriminate H.
  - destruct (wave_freq name _ _ c1); intros [= <-]; reflexivity.
  - destruct (wave_freq name _ _ c0); intros [= <-]; reflexivity.
  - destruct (wave_freq name _ _ c0); cbn [bind]; [|intros [= <-]; reflexivity]. destruct (wave_freq name _ _ c1); intros [= <-]; reflexivity.
Qed.
Lemma floor_zero : floor_r 0 = 0%Z. Proof. apply (floor_unique 0); [apply floor_spec|unfold Floor; lra]. Qed.
Lemma spc_pos o : (0 < o)%Q -> (0 < 24 * 3600 / (2 * PI * Q2R o))%R.
Proof. intros O. apply Qlt_Rlt in O. rewrite RMicromega.Q2R_0 in O. apply Rdiv_lt_0_compat; [lra|]. pose proof PI_RGT_0. apply Rmult_lt_0_compat; lra. Qed.
Lemma limits_open junk o h0 h1 name nk nf i : 0 < nf -> (0 < o)%Q -> ((h0 == -9999)%Q /\ (h1 == -9999)%Q) \/ ~ KnownWave name ->
  exists a b, limits junk o h0 h1 name nk nf i = Ok (Z.min a (Z.of_nat nf), Z.max b 0)%Z /\ (a <= 0)%Z /\ (Z.of_nat nf - 1 <= b)%Z.
Proof.
  intros N O H. unfold limits. destruct (speeds junk h0 h1) as [c0 c1]. pose proof (spc_pos o O) as SP. set (spc := (24 * 3600 / (2 * PI * Q2R o))%R) in *. destruct H as [[H0 H1]|U].
  - apply Qeq_bool_iff in H0, H1. rewrite H0, H1. cbn [bind]. exists 0%Z, (Z.of_nat nf). split; [reflexivity|lia].
  - rewrite !(freq_other _ _ _ _ U). exists 0%Z. replace (0 * spc * IZR ((Z.of_nat nf - 1) * 2))%R with 0%R by ring. rewrite floor_zero.
    assert (CE : ceil_r (INR nf / spc * spc * IZR ((Z.of_nat nf - 1) * 2)) = (Z.of_nat nf * ((Z.of_nat nf - 1) * 2))%Z).
    { apply (ceil_unique (INR nf / spc * spc * IZR ((Z.of_nat nf - 1) * 2))); [apply ceil_spec|]. unfold Ceiling. rewrite (mult_IZR (Z.of_nat nf)), <- INR_IZR_INZ. replace (INR nf / spc * spc)%R with (INR nf) by (field; lra). lra. }
    rewrite CE. assert (X : (Z.of_nat nf - 1 <= Z.of_nat nf * ((Z.of_nat nf - 1) * 2))%Z) by nia. exists (if Qeq_bool h1 (-9999) then Z.of_nat nf else (Z.of_nat nf * ((Z.of_nat nf - 1) * 2))%Z). destruct (Qeq_bool h0 (-9999)), (Qeq_bool h1 (-9999)); cbn [bind]; (split; [reflexivity|]); lia.
Qed.
Lemma masked_ext nk nf (P Q : nat -> nat -> Prop) M out : Shape nk nf M -> (forall r j, r < nk -> j < nf -> (P r j <-> Q r j)) -> Masked nk nf P M out -> Masked nk nf Q M out.
Proof.
  intros S0 H [A B]. split; [exact A|]. intros r j v E. destruct (entry_bounds _ _ _ _ _ _ S0 E) as [I J]. specialize (H r j I J). destruct (B r j v E). split; intros X; [apply H0|apply H1]; tauto.
Qed.
Lemma mask_any junk nk nf M o tMin tMax kMin kMax h0 h1 name (lo hi : nat -> Z) : 0 < nk -> 0 < nf -> Shape nk nf M ->
  (0 < o)%Q -> (0 < tMin)%Q -> (0 < tMax)%Q ->
  (forall i, i < nk -> limits junk o h0 h1 name nk nf i = Ok (Z.min (lo i) (Z.of_nat nf), Z.max (hi i) 0)%Z) ->
  let nt := (2 * (Z.of_nat nf - 1))%Z in
  exists out jlo jhi l h, kf_filter_mask junk M o tMin tMax kMin kMax h0 h1 name = Ok out /\
    Nearest (inject_Z nt / (tMax * o)) jlo /\ Nearest (inject_Z nt / (tMin * o)) jhi /\ Limit nk kMin l /\ Limit nk kMax h /\
    l = place (Z.of_nat nk) kMin /\ h = place (Z.of_nat nk) kMax /\
    Masked nk nf (fun row j => let i := nk - 1 - row in (jlo <= Z.of_nat j <= jhi)%Z /\ Between l h (Z.of_nat i) /\
      (lo i <= Z.of_nat j)%Z /\ ((Z.of_nat j <= hi i)%Z \/ j = 0)) M out.
Proof.
  intros N NF S0 O T0 T1 LI nt. pose proof (mask_run junk nk nf M o tMin tMax kMin kMax h0 h1 name N S0) as MR. cbv zeta in MR. replace ((Z.of_nat nf - 1) * 2)%Z with nt in MR by lia.
  rewrite !step_ok in MR by assumption. cbn [bind] in MR. rewrite (mapM_ok_seq _ (fun i => (Z.min (lo i) (Z.of_nat nf), Z.max (hi i) 0)%Z)) in MR by exact LI. cbn [bind] in MR.
  destruct MR as (_ & out & cols & E & -> & RL). exists (rev cols). do 4 eexists. split; [exact E|]. split; [apply round_nearest|]. split; [apply round_nearest|]. split; [apply limit_place|]. split; [apply limit_place|]. split; [reflexivity|]. split; [reflexivity|].
  apply (rel_masked nk nf _ _ _ _ N S0 RL). intros r j I J. cbv zeta. unfold kept. rewrite nth_map_seq by lia.
  assert (A : (0 <= nt)%Z) by lia. pose proof (nearest_nonneg _ _ (step_nonneg nt tMax o A T1 O) (round_nearest _)) as B. pose proof (nearest_nonneg _ _ (step_nonneg nt tMin o A T0 O) (round_nearest _)) as D.
  rewrite !Bool.andb_true_iff. rewrite <- Bool.andb_true_iff. rewrite range_iff by assumption. rewrite places_iff by (try lia; apply place_bounds). rewrite inside_iff by exact J. tauto.
Qed.

(** ** Sums over two indices *)
Definition S2 (n m : nat) (f : nat -> nat -> R) : R := Total (map (fun p => f (fst p) (snd p)) (list_prod (seq 0 n) (seq 0 m))).
Lemma total_app l m : Total (l ++ m) = (Total l + Total m)%R. Proof. apply tot_app. Qed.
Lemma s2_eq n m f : Total (map (fun i => Total (map (f i) (seq 0 m))) (seq 0 n)) = S2 n m f.
Proof.
  unfold S2. generalize (seq 0 n) as l. induction l as [|a l IH]; [reflexivity|]. cbn [map list_prod]. rewrite map_app, total_app, <- IH, map_map. reflexivity.
Qed.
Lemma s2_ext n m f h : (forall i j, i < n -> j < m -> f i j = h i j) -> S2 n m f = S2 n m h.
Proof. intros H. apply tot_ext. intros [i j] I. apply in_prod_iff in I. destruct I as [I J]. apply in_seq in I, J. cbn [fst snd]. apply H; lia. Qed.
Lemma s2_plus n m f h : S2 n m (fun i j => f i j + h i j)%R = (S2 n m f + S2 n m h)%R.
Proof. apply (tot_plus (fun p => f (fst p) (snd p)) (fun p => h (fst p) (snd p))). Qed.
Lemma s2_scale n m c f : S2 n m (fun i j => c * f i j)%R = (c * S2 n m f)%R.
Proof. apply (tot_scale c (fun p => f (fst p) (snd p))). Qed.
Lemma s2_zero n m f : (forall i j, i < n -> j < m -> f i j = 0%R) -> S2 n m f = 0%R.
Proof. intros H. apply tot_zero. intros [i j] I. apply in_prod_iff in I. destruct I as [I J]. apply in_seq in I, J. cbn [fst snd]. apply H; lia. Qed.
Lemma s2_swap n m n' m' (f : nat -> nat -> nat -> nat -> R) : S2 n m (fun i j => S2 n' m' (f i j)) = S2 n' m' (fun x t => S2 n m (fun i j => f i j x t)).
Proof. unfold S2. apply (tot_swap (fun p q => f (fst p) (snd p) (fst q) (snd q))). Qed.
Lemma s2_one n m f a b : a < n -> b < m -> S2 n m (fun i j => if (i =? a) && (j =? b) then f i j else 0%R) = f a b.
Proof.
  intros A B. rewrite <- s2_eq. rewrite (tot_ext _ (fun i => if i =? a then f i b else 0%R)).
  - rewrite (tot_one (fun i => f i b)) by exact A. reflexivity.
  - intros i _. destruct (i =? a); cbn [andb]; [exact (tot_one (f i) b m B)|apply tot_zero; reflexivity].
Qed.
Lemma s2_prod n m (f h : nat -> R) : S2 n m (fun i j => f i * h j)%R = (Total (map f (seq 0 n)) * Total (map h (seq 0 m)))%R.
Proof. rewrite <- s2_eq. rewrite (tot_ext _ (fun i => Total (map h (seq 0 m)) * f i)%R); [rewrite tot_scale; ring|]. intros i _. rewrite tot_scale. ring. Qed.

(** ** The transform *)
Lemma turn_sym n k j : Turn n k j = Turn n j k. Proof. unfold Turn. unfold Rdiv. ring. Qed.
Lemma tot_minus n k k' b : k < n -> k' < n -> Total (map (fun x => cos (Turn n k x - Turn n k' x + b)) (seq 0 n)) = if k =? k' then (INR n * cos b)%R else 0%R.
Proof.
  intros K K'. destruct (Nat.eqb_spec k k') as [->|D].
  - rewrite <- (tot_const (cos b)). apply tot_ext. intros x _. f_equal. ring.
  - destruct (Nat.lt_ge_cases k' k).
    + rewrite <- (tot_cos n (k - k') b) by lia. apply tot_ext. intros x _. rewrite turn_diff by lia. reflexivity.
    + rewrite <- (tot_cos n (k' - k) (- b)) by lia. apply tot_ext. intros x _. rewrite <- turn_diff by lia. rewrite <- cos_neg. f_equal. ring.
Qed.
Lemma sin_shift x : sin x = cos (x + - (PI / 2)).
Proof. rewrite <- (cos_neg (x + - (PI / 2))). replace (- (x + - (PI / 2)))%R with (PI / 2 - x)%R by ring. rewrite cos_shift. reflexivity. Qed.
Lemma tot_minus_sin n k k' : k < n -> k' < n -> Total (map (fun x => sin (Turn n k x - Turn n k' x)) (seq 0 n)) = 0%R.
Proof.
  intros K K'. rewrite (tot_ext _ (fun x => cos (Turn n k x - Turn n k' x + - (PI / 2)))) by (intros x _; apply sin_shift). rewrite tot_minus by assumption. rewrite cos_neg, cos_PI2. destruct (k =? k'); ring.
Qed.

Lemma double_kernel nk nt x t x' t' : x < nk -> x' < nk -> t < nt -> t' < nt ->
  S2 nk (nt / 2 + 1) (fun r j => share nt j * cos (Turn nk r x + Turn nt j t - (Turn nk r x' + Turn nt j t')))%R =
  if (x' =? x) && (t' =? t) then (INR nk * INR nt)%R else 0%R.
Proof.
  intros X X' T T'.
  rewrite (s2_ext _ _ _ (fun r j => cos (Turn nk x r - Turn nk x' r + 0) * (share nt j * cos (Turn nt j t - Turn nt j t')) + (-1) * (sin (Turn nk x r - Turn nk x' r) * (share nt j * sin (Turn nt j t - Turn nt j t'))))%R).
  - rewrite s2_plus, s2_scale, !s2_prod, tot_minus_sin, tot_minus by assumption. rewrite kernel by assumption. rewrite cos_0. rewrite (Nat.eqb_sym x x'). destruct (x' =? x), (t' =? t); cbn [andb]; ring.
  - intros r j _ _. rewrite (turn_sym nk x r), (turn_sym nk x' r), Rplus_0_r. replace (Turn nk r x + Turn nt j t - (Turn nk r x' + Turn nt j t'))%R with ((Turn nk r x - Turn nk r x') + (Turn nt j t - Turn nt j t'))%R by ring. rewrite cos_plus. ring.
Qed.
(** The coefficients, and the sum of the waves. *)
Definition coefs (nk nt : nat) (v : nat -> nat -> R) (r j : nat) : cplx :=
  (S2 nk nt (fun x t => v x t * cos (Turn nk r x + Turn nt j t))%R, (- S2 nk nt (fun x t => v x t * sin (Turn nk r x + Turn nt j t)))%R).
Lemma back nk nt v x t : x < nk -> t < nt ->
  S2 nk (nt / 2 + 1) (fun r j => share nt j / (INR nk * INR nt) * (fst (coefs nk nt v r j) * cos (Turn nk r x + Turn nt j t) - snd (coefs nk nt v r j) * sin (Turn nk r x + Turn nt j t)))%R = v x t.
Proof.
  intros X T. assert (NZ : (INR nk * INR nt <> 0)%R) by (apply Rmult_integral_contrapositive_currified; apply INR_nz; lia).
  rewrite (s2_ext _ _ _ (fun r j => S2 nk nt (fun x' t' => v x' t' / (INR nk * INR nt) * (share nt j * cos (Turn nk r x + Turn nt j t - (Turn nk r x' + Turn nt j t'))))%R)).
  - rewrite s2_swap. rewrite (s2_ext _ _ _ (fun x' t' => if (x' =? x) && (t' =? t) then v x' t' else 0%R)).
    + exact (s2_one nk nt v x t X T).
    + intros x' t' X' T'. rewrite s2_scale, double_kernel by assumption. destruct (_ && _); [field|ring]. split; apply INR_nz; lia.
  - intros r j _ _. unfold coefs. cbn [fst snd].
    rewrite (s2_ext nk nt (fun x' t' => v x' t' / (INR nk * INR nt) * (share nt j * cos (Turn nk r x + Turn nt j t - (Turn nk r x' + Turn nt j t'))))%R
      (fun x' t' => (share nt j / (INR nk * INR nt) * cos (Turn nk r x + Turn nt j t)) * (v x' t' * cos (Turn nk r x' + Turn nt j t')) + (share nt j / (INR nk * INR nt) * sin (Turn nk r x + Turn nt j t)) * (v x' t' * sin (Turn nk r x' + Turn nt j t')))%R).
    + rewrite s2_plus, !s2_scale. ring.
    + intros x' t' _ _. rewrite cos_minus. unfold Rdiv. ring.
Qed.
Lemma wave_minus nk nt r r0 j j0 b : r < nk -> r0 < nk -> j < nt -> j0 < nt ->
  S2 nk nt (fun x t => cos (Turn nk r0 x + Turn nt j0 t - (Turn nk r x + Turn nt j t) + b)) = if (r =? r0) && (j =? j0) then (INR nk * INR nt * cos b)%R else 0%R.
Proof.
  intros A B D E. rewrite <- s2_eq. rewrite (tot_ext _ (fun x => if j0 =? j then INR nt * cos (Turn nk r0 x - Turn nk r x + b) else 0)%R).
  - rewrite (Nat.eqb_sym r r0), (Nat.eqb_sym j j0). destruct (j0 =? j); [|rewrite Bool.andb_false_r; apply tot_zero; reflexivity]. rewrite tot_scale, tot_minus by assumption. rewrite Bool.andb_true_r. destruct (r0 =? r); ring.
  - intros x _. rewrite <- tot_minus by assumption. apply tot_ext. intros t _. f_equal. ring.
Qed.
Lemma wave_plus nk nt r r0 j j0 b : 0 < j + j0 < nt -> S2 nk nt (fun x t => cos (Turn nk r0 x + Turn nt j0 t + (Turn nk r x + Turn nt j t) + b)) = 0%R.
Proof.
  intros H. rewrite <- s2_eq. apply tot_zero. intros x _. rewrite <- (tot_cos nt (j + j0) (Turn nk r0 x + Turn nk r x + b) H). apply tot_ext. intros t _. rewrite <- turn_sum by lia. f_equal. ring.
Qed.
Lemma coefs_wave nk nt r0 j0 a phi r j : r < nk -> r0 < nk -> 0 < 2 * j0 < nt -> 2 * j <= nt ->
  coefs nk nt (fun x t => a * cos (Turn nk r0 x + Turn nt j0 t + phi))%R r j =
  if (r =? r0) && (j =? j0) then (a * INR nk * INR nt / 2 * cos phi, a * INR nk * INR nt / 2 * sin phi)%R else (0, 0)%R.
Proof.
  intros A B D E. unfold coefs.
  rewrite (s2_ext _ _ _ (fun x t => a / 2 * (cos (Turn nk r0 x + Turn nt j0 t + (Turn nk r x + Turn nt j t) + phi) + cos (Turn nk r0 x + Turn nt j0 t - (Turn nk r x + Turn nt j t) + phi)))%R).
  2:{ intros x t _ _. set (th0 := (Turn nk r0 x + Turn nt j0 t)%R). set (th := (Turn nk r x + Turn nt j t)%R). replace (th0 + th + phi)%R with ((th0 + phi) + th)%R by ring. replace (th0 - th + phi)%R with ((th0 + phi) - th)%R by ring. rewrite (cos_plus (th0 + phi)), (cos_minus (th0 + phi)). field. }
  rewrite (s2_ext nk nt (fun x t => a * cos (Turn nk r0 x + Turn nt j0 t + phi) * sin (Turn nk r x + Turn nt j t))%R
     (fun x t => a / 2 * (cos (Turn nk r0 x + Turn nt j0 t + (Turn nk r x + Turn nt j t) + (phi + - (PI / 2))) + (-1) * cos (Turn nk r0 x + Turn nt j0 t - (Turn nk r x + Turn nt j t) + (phi + - (PI / 2)))))%R).
  2:{ intros x t _ _. set (th0 := (Turn nk r0 x + Turn nt j0 t)%R). set (th := (Turn nk r x + Turn nt j t)%R). replace (th0 + th + (phi + - (PI / 2)))%R with (((th0 + phi) + th) + - (PI / 2))%R by ring. replace (th0 - th + (phi + - (PI / 2)))%R with (((th0 + phi) - th) + - (PI / 2))%R by ring. rewrite <- !sin_shift, (sin_plus (th0 + phi)), (sin_minus (th0 + phi)). field. }
  rewrite !s2_scale, !s2_plus, !s2_scale, !wave_plus by lia. rewrite !wave_minus by lia. rewrite <- sin_shift. destruct (_ && _); apply (f_equal2 pair); field.
Qed.

Lemma tabulate_shape {A} n m (f : nat -> nat -> A) : Shape n m (tabulate n m f).
Proof. unfold tabulate. split; [rewrite map_length, seq_length; reflexivity|]. apply Forall_map. apply Forall_forall. intros i _. rewrite map_length, seq_length. reflexivity. Qed.
Lemma tabulate_entry {A} n m (f : nat -> nat -> A) i j : i < n -> j < m -> Entry (tabulate n m f) i j (f i j).
Proof. intros I J. unfold tabulate. exists (map (f i) (seq 0 m)). split; [apply (nth_map_seq (fun i => map (f i) (seq 0 m))); exact I|apply nth_map_seq; exact J]. Qed.
Lemma entry_at {A} d (M : list (list A)) i j v : Entry M i j v -> entry d M i j = v.
Proof. intros (row & R1 & R2). unfold entry. rewrite (nth_error_nth _ _ _ R1). apply nth_error_nth. exact R2. Qed.
Lemma entry_tab {A} d n m (f : nat -> nat -> A) i j : i < n -> j < m -> entry d (tabulate n m f) i j = f i j.
Proof. intros I J. apply entry_at. apply tabulate_entry; assumption. Qed.
Lemma tabulate_ext {A} n m (f h : nat -> nat -> A) : (forall i j, i < n -> j < m -> f i j = h i j) -> tabulate n m f = tabulate n m h.
Proof. intros H. unfold tabulate. apply map_ext_in. intros i I. apply map_ext_in. intros j J. apply in_seq in I, J. apply H; lia. Qed.
Lemma tabulate_all {A} d n m (M : list (list A)) : Shape n m M -> M = tabulate n m (entry d M).
Proof.
  intros S0. apply (entries_eq n m _ _ S0 (tabulate_shape _ _ _)). intros i j v E. destruct (entry_bounds _ _ _ _ _ _ S0 E) as [I J]. rewrite <- (entry_at d _ _ _ _ E). apply tabulate_entry; assumption.
Qed.
Lemma rfft2_is nk nt v : rfft2 nk nt v = tabulate nk (nt / 2 + 1) (coefs nk nt v).
Proof. unfold rfft2. apply tabulate_ext. intros r j _ _. unfold coefs. rewrite <- !s2_eq. reflexivity. Qed.
Lemma irfft2_is nk m C : Shape nk m C -> 0 < nk -> 1 < m -> irfft2 C = Ok (tabulate nk (2 * (m - 1)) (fun x t => S2 nk m (fun r j =>
   share (2 * (m - 1)) j / (INR nk * INR (2 * (m - 1))) * (fst (entry (0, 0)%R C r j) * cos (Turn nk r x + Turn (2 * (m - 1)) j t) - snd (entry (0, 0)%R C r j) * sin (Turn nk r x + Turn (2 * (m - 1)) j t)))%R)).
Proof.
  intros [L F] N M. unfold irfft2. destruct C as [|row C]; [cbn in L; lia|]. assert (LR : length row = m) by (inversion F; assumption). rewrite L, LR. destruct (Nat.eqb_spec (2 * (m - 1)) 0) as [Z|_]; [lia|]. f_equal. apply tabulate_ext. intros x t _ _. rewrite <- s2_eq.
  apply tot_ext. intros r _. apply tot_ext. intros j _. destruct (entry (0, 0)%R (row :: C) r j) as [a b]. cbn [fst snd]. unfold share. replace (2 * j =? 2 * (m - 1)) with (j =? m - 1) by (destruct (Nat.eqb_spec j (m - 1)), (Nat.eqb_spec (2 * j) (2 * (m - 1))); lia). reflexivity.
Qed.
(** The filter of a mask that is known. *)
Lemma filter_run junk data nk nt o tMin tMax kMin kMax h0 h1 name : 0 < nk -> 0 < nt -> Shape nt nk data ->
  kf_filter junk data o tMin tMax kMin kMax h0 h1 name =
  (f <- kf_filter_mask junk (tabulate nk (nt / 2 + 1) (coefs nk nt (fun x t => entry 0%R data t x))) o tMin tMax kMin kMax h0 h1 name ;; d <- irfft2 f ;; Ok (transpose nk (2 * (nt / 2)) d)).
Proof.
  intros N T [L F]. unfold kf_filter. destruct data as [|row data]; [cbn in L; lia|]. assert (LR : length row = nk) by (inversion F; assumption). rewrite LR, L.
  replace (forallb (fun row => length row =? nk) (row :: data)) with true by (symmetry; apply forallb_forall; intros r I; rewrite Forall_forall in F; apply Nat.eqb_eq; apply F; exact I). cbn [negb].
  destruct (Nat.eqb_spec nt 0); [lia|]. destruct (Nat.eqb_spec nk 0); [lia|]. cbn [orb]. rewrite rfft2_is. reflexivity.
Qed.
Lemma even_half nt : Nat.Even nt -> 2 * (nt / 2) = nt.
Proof. intros [h ->]. replace (2 * h) with (h * 2) by lia. rewrite Nat.div_mul by lia. lia. Qed.
Lemma masked_filter junk data nk nt o tMin tMax kMin kMax h0 h1 name out P : 0 < nk -> 0 < nt -> Nat.Even nt -> Shape nt nk data ->
  kf_filter_mask junk (tabulate nk (nt / 2 + 1) (coefs nk nt (fun x t => entry 0%R data t x))) o tMin tMax kMin kMax h0 h1 name = Ok out ->
  Masked nk (nt / 2 + 1) P (tabulate nk (nt / 2 + 1) (coefs nk nt (fun x t => entry 0%R data t x))) out ->
  forall (D : forall r j, {P r j} + {~ P r j}),
  kf_filter junk data o tMin tMax kMin kMax h0 h1 name = Ok (tabulate nt nk (fun t x => S2 nk (nt / 2 + 1) (fun r j => if D r j then
     (share nt j / (INR nk * INR nt) * (fst (coefs nk nt (fun x t => entry 0%R data t x) r j) * cos (Turn nk r x + Turn nt j t) - snd (coefs nk nt (fun x t => entry 0%R data t x) r j) * sin (Turn nk r x + Turn nt j t)))%R else 0%R))).
Proof.
  intros N T EV S0 E [SO MA] D. rewrite (filter_run _ _ nk nt) by assumption. rewrite E. cbn [bind]. pose proof (even_half nt EV) as H2. rewrite (irfft2_is nk (nt / 2 + 1) out SO N) by lia. cbn [bind]. replace (nt / 2 + 1 - 1) with (nt / 2) by lia. rewrite H2. f_equal. unfold transpose.
  apply tabulate_ext. intros t x J I. rewrite entry_tab by assumption. apply s2_ext. intros r j R1 J1. pose proof (tabulate_entry nk (nt / 2 + 1) (coefs nk nt (fun x t => entry 0%R data t x)) r j R1 J1) as EN. apply MA in EN. destruct EN as [E1 E2].
  destruct (D r j) as [p|p].
  - rewrite (entry_at _ _ _ _ _ (E1 p)). reflexivity.
  - rewrite (entry_at _ _ _ _ _ (E2 p)). cbn [fst snd]. ring.
Qed.
Lemma west_entry nk nt k j a phi t x : t < nt -> x < nk -> entry 0%R (WestWave nk nt k j a phi) t x = (a * cos (Turn nk k x + Turn nt j t + phi))%R.
Proof. intros T X. unfold WestWave. exact (entry_tab 0%R nt nk (fun t x => a * cos (2 * PI * INR k * INR x / INR nk + 2 * PI * INR j * INR t / INR nt + phi))%R t x T X). Qed.
Lemma west_shape nk nt k j a phi : Shape nt nk (WestWave nk nt k j a phi).
Proof. exact (tabulate_shape nt nk (fun t x => a * cos (2 * PI * INR k * INR x / INR nk + 2 * PI * INR j * INR t / INR nt + phi))%R). Qed.
Lemma east_west nk nt k j a phi : 0 < k < nk -> EastWave nk nt k j a phi = WestWave nk nt (nk - k) j a (- phi).
Proof.
  intros K. unfold EastWave, WestWave. apply map_ext. intros t. apply map_ext. intros x. f_equal. rewrite <- cos_neg. rewrite minus_INR by lia. rewrite <- (cos_period _ x). f_equal. unfold Rdiv. set (i := (/ INR nk)%R). set (jt := (/ INR nt)%R). assert (E : (INR nk * i = 1)%R) by (apply Rinv_r; apply INR_nz; lia).
  replace (2 * PI * (INR nk - INR k) * INR x * i)%R with (2 * PI * INR x * (INR nk * i) - 2 * PI * INR k * INR x * i)%R by ring. rewrite E. ring.
Qed.
Lemma between_dec a b i : {Between a b i} + {~ Between a b i}.
Proof.
  destruct (Z_lt_ge_dec a b) as [A|A].
  - destruct (Z_le_gt_dec a i); [|right; intros [X _]; specialize (X A); lia]. destruct (Z_le_gt_dec i b); [left; split; lia|right; intros [X _]; specialize (X A); lia].
  - destruct (Z_le_gt_dec i b); [left; split; lia|]. destruct (Z_le_gt_dec a i); [left; split; lia|]. right. intros [_ X]. lia.
Qed.
Lemma range_dec a b j : {(a <= j <= b)%Z} + {~ (a <= j <= b)%Z}.
Proof. destruct (Z_le_gt_dec a j); [|right; lia]. destruct (Z_le_gt_dec j b); [left; lia|right; lia]. Qed.
Lemma open_run junk nk nt M o tMin tMax kMin kMax name : 0 < nk -> Nat.Even nt -> Shape nk (nt / 2 + 1) M -> (0 < o)%Q -> (0 < tMin)%Q -> (0 < tMax)%Q ->
  exists out jlo jhi, kf_filter_mask junk M o tMin tMax kMin kMax (-9999) (-9999) name = Ok out /\
    Nearest (inject_Z (Z.of_nat nt) / (tMax * o)) jlo /\ Nearest (inject_Z (Z.of_nat nt) / (tMin * o)) jhi /\
    Masked nk (nt / 2 + 1) (fun row j => (jlo <= Z.of_nat j <= jhi)%Z /\ Between (place (Z.of_nat nk) kMin) (place (Z.of_nat nk) kMax) (Z.of_nat (nk - 1 - row))) M out.
Proof.
  intros N EV S0 O T0 T1. pose proof (even_half nt EV) as H2.
  destruct (mask_any junk nk (nt / 2 + 1) M o tMin tMax kMin kMax (-9999) (-9999) name (fun _ => 0%Z) (fun _ => Z.of_nat (nt / 2 + 1))) as (out & jlo & jhi & l & h & E & A & B & _ & _ & -> & -> & MM); try assumption; [lia| |].
  - intros i I. unfold limits, speeds. replace (Qeq_bool (-9999) (-9999)) with true by reflexivity. reflexivity.
  - exists out, jlo, jhi. replace (2 * (Z.of_nat (nt / 2 + 1) - 1))%Z with (Z.of_nat nt) in A, B by lia. split; [exact E|]. split; [exact A|]. split; [exact B|]. revert MM. apply masked_ext; [exact S0|]. intros r j I J. cbv zeta. intuition lia.
Qed.
Lemma filter_wave junk nk nt k j a phi o tMin tMax kMin kMax name jlo jhi : k < nk -> 0 < 2 * j < nt -> Nat.Even nt -> (0 < o)%Q -> (0 < tMin)%Q -> (0 < tMax)%Q ->
  Nearest (inject_Z (Z.of_nat nt) / (tMax * o)) jlo -> Nearest (inject_Z (Z.of_nat nt) / (tMin * o)) jhi ->
  let P := (jlo <= Z.of_nat j <= jhi)%Z /\ Between (place (Z.of_nat nk) kMin) (place (Z.of_nat nk) kMax) (Z.of_nat (nk - 1 - k)) in
  (P -> kf_filter junk (WestWave nk nt k j a phi) o tMin tMax kMin kMax (-9999) (-9999) name = Ok (WestWave nk nt k j a phi)) /\
  (~ P -> kf_filter junk (WestWave nk nt k j a phi) o tMin tMax kMin kMax (-9999) (-9999) name = Ok (Zeros nk nt)).
Proof.
  intros K J EV O T0 T1 N0 N1 P. pose proof (even_half nt EV) as H2. assert (NK : 0 < nk) by lia. assert (NT : 0 < nt) by lia. pose proof (west_shape nk nt k j a phi) as WS.
  set (M := tabulate nk (nt / 2 + 1) (coefs nk nt (fun x t => entry 0%R (WestWave nk nt k j a phi) t x))).
  destruct (open_run junk nk nt M o tMin tMax kMin kMax name NK EV (tabulate_shape _ _ _) O T0 T1) as (out & l & h & E & A & B & MM). rewrite (nearest_unique _ _ _ A N0), (nearest_unique _ _ _ B N1) in MM.
  set (Q := fun row j => (jlo <= Z.of_nat j <= jhi)%Z /\ Between (place (Z.of_nat nk) kMin) (place (Z.of_nat nk) kMax) (Z.of_nat (nk - 1 - row))) in MM.
  assert (D : forall r j, {Q r j} + {~ Q r j}). { intros r j'. unfold Q. destruct (range_dec jlo jhi (Z.of_nat j')); [|right; tauto]. destruct (between_dec (place (Z.of_nat nk) kMin) (place (Z.of_nat nk) kMax) (Z.of_nat (nk - 1 - r))); [left; tauto|right; tauto]. }
  rewrite (masked_filter junk _ nk nt o tMin tMax kMin kMax _ _ name out Q NK NT EV WS E MM D).
  assert (CO : forall r j', r < nk -> j' < nt / 2 + 1 -> coefs nk nt (fun x t => entry 0%R (WestWave nk nt k j a phi) t x) r j' = if (r =? k) && (j' =? j) then (a * INR nk * INR nt / 2 * cos phi, a * INR nk * INR nt / 2 * sin phi)%R else (0, 0)%R).
  { intros r j' I J'. rewrite <- coefs_wave by lia. unfold coefs. f_equal; [|f_equal]; apply s2_ext; intros x t X T; rewrite west_entry by assumption; reflexivity. }
  assert (NZ : INR nk <> 0%R /\ INR nt <> 0%R) by (split; apply INR_nz; lia).
  assert (G : forall t x, t < nt -> x < nk -> S2 nk (nt / 2 + 1) (fun r j' => if D r j' then (share nt j' / (INR nk * INR nt) * (fst (coefs nk nt (fun x t => entry 0%R (WestWave nk nt k j a phi) t x) r j') * cos (Turn nk r x + Turn nt j' t) - snd (coefs nk nt (fun x t => entry 0%R (WestWave nk nt k j a phi) t x) r j') * sin (Turn nk r x + Turn nt j' t)))%R else 0%R) =
     if D k j then (a * cos (Turn nk k x + Turn nt j t + phi))%R else 0%R).
  { intros t x T X. rewrite (s2_ext _ _ _ (fun r j' => if (r =? k) && (j' =? j) then (if D r j' then a * cos (Turn nk r x + Turn nt j' t + phi) else 0)%R else 0%R)).
    - rewrite (s2_one nk (nt / 2 + 1) (fun r j' => if D r j' then a * cos (Turn nk r x + Turn nt j' t + phi) else 0)%R) by lia. reflexivity.
    - intros r j' I J'. rewrite CO by assumption. destruct (Nat.eqb_spec r k) as [->|]; cbn [andb fst snd]; [|destruct (D r j'); ring]. destruct (Nat.eqb_spec j' j) as [->|]; cbn [fst snd]; [|destruct (D k j'); ring]. destruct (D k j); [|reflexivity].
      unfold share. destruct (Nat.eqb_spec j 0); [lia|]. destruct (Nat.eqb_spec (2 * j) nt); [lia|]. cbn [orb]. rewrite (cos_plus (Turn nk k x + Turn nt j t) phi). field. tauto. }
  split; intros H; f_equal.
  - etransitivity; [|symmetry; exact (tabulate_all 0%R nt nk _ WS)]. apply tabulate_ext. intros t x T X. rewrite G, west_entry by assumption. destruct (D k j) as [|p]; [reflexivity|]. exfalso. apply p. exact H.
  - unfold Zeros. change (map (fun _ : nat => map (fun _ : nat => 0%R) (seq 0 nk)) (seq 0 nt)) with (tabulate nt nk (fun _ _ => 0%R)). apply tabulate_ext. intros t x T X. rewrite G by assumption. destruct (D k j) as [p|]; [|reflexivity]. exfalso. apply H. exact p.
Qed.
Lemma nearest_ge n q z : (inject_Z n <= q)%Q -> Nearest q z -> (n <= z)%Z.
Proof.
  intros P [A B]. apply Qabs_Qle_condition in A. destruct (Z_lt_le_dec z n) as [N|]; [|assumption]. exfalso. assert (X : (inject_Z (z + 1) <= inject_Z n)%Q) by (rewrite <- Zle_Qle; lia). rewrite inject_Z_plus in X. change (inject_Z 1) with 1%Q in X. Lqa.lra.
Qed.
Lemma nearest_half q : (0 <= q <= 1 # 2)%Q -> Nearest q 0.
Proof. intros H. change (inject_Z 0) with 0%Q. split; [change (inject_Z 0) with 0%Q; rewrite Qabs_pos by Lqa.lra; Lqa.lra|]. intros _. exists 0%Z. reflexivity. Qed.
Lemma place_up nk k : (0 <= k <= Z.of_nat nk / 2)%Z -> place (Z.of_nat nk) (inject_Z k) = k.
Proof.
  intros K. unfold place. replace (Qlt_bool (inject_Z k) 0) with false by (symmetry; apply qltb_false; change 0%Q with (inject_Z 0); rewrite <- Zle_Qle; lia). rewrite (nearest_eq _ k (nearest_int k)). lia.
Qed.
Lemma place_down nk k : (k < 0)%Z -> (Z.of_nat nk / 2 <= Z.of_nat nk + k)%Z -> place (Z.of_nat nk) (inject_Z k) = (Z.of_nat nk + k)%Z.
Proof.
  intros K L. unfold place. replace (Qlt_bool (inject_Z k) 0) with true by (symmetry; apply qltb; change 0%Q with (inject_Z 0); rewrite <- Zlt_Qlt; lia). rewrite (nearest_eq _ (Z.of_nat nk + k)); [lia|]. apply (nearest_proper (inject_Z (Z.of_nat nk + k))); [rewrite inject_Z_plus; reflexivity|apply nearest_int].
Qed.

(** The statements of PropertiesKf.v. *)
Lemma C96_keep_proof : (forall junk nk nf obsPerDay tMin tMax kMin kMax hMin hMax name, (0 < nk)%nat ->
  (exists keep, forall M, Shape nk nf M -> exists out,
     kf_filter_mask junk M obsPerDay tMin tMax kMin kMax hMin hMax name = Ok out /\ Masked nk nf keep M out) \/
  (exists e, forall M, Shape nk nf M -> kf_filter_mask junk M obsPerDay tMin tMax kMin kMax hMin hMax name = Err e))%Z.
Proof.
  intros junk nk nf o tMin tMax kMin kMax h0 h1 name N.
  set (nt := ((Z.of_nat nf - 1) * 2)%Z).
  destruct (jMin <- step_of nt tMax o ;; jMax <- step_of nt tMin o ;; ls <- mapM (limits junk o h0 h1 name nk nf) (seq 0 nk) ;; Ok (jMin, jMax, ls)) as [[[jMin jMax] ls]|e] eqn:E.
  - left. eexists. intros M S0. pose proof (mask_run junk nk nf M o tMin tMax kMin kMax h0 h1 name N S0) as MR. cbv zeta in MR. fold nt in MR. rewrite E in MR. destruct MR as (_ & out & cols & RUN & -> & RL). exists (rev cols). split; [exact RUN|].
    apply (rel_masked nk nf _ (fun r j => kept nk nf jMin (Z.min jMax (Z.of_nat nf)) (place (Z.of_nat nk) kMin) (place (Z.of_nat nk) kMax) ls (nk - 1 - r) j = true) M cols N S0 RL). intros; reflexivity.
  - right. exists e. intros M S0. pose proof (mask_run junk nk nf M o tMin tMax kMin kMax h0 h1 name N S0) as MR. cbv zeta in MR. fold nt in MR. rewrite E in MR. exact MR.
Qed.

Lemma C96_again_proof : (forall junk nk nf M out obsPerDay tMin tMax kMin kMax hMin hMax name, (0 < nk)%nat -> Shape nk nf M ->
  kf_filter_mask junk M obsPerDay tMin tMax kMin kMax hMin hMax name = Ok out ->
  kf_filter_mask junk out obsPerDay tMin tMax kMin kMax hMin hMax name = Ok out)%Z.
Proof.
  intros junk nk nf M out o tMin tMax kMin kMax h0 h1 name N S0 RUN.
  pose proof (mask_run junk nk nf M o tMin tMax kMin kMax h0 h1 name N S0) as MR. cbv zeta in MR. set (nt := ((Z.of_nat nf - 1) * 2)%Z) in *.
  destruct (jMin <- step_of nt tMax o ;; jMax <- step_of nt tMin o ;; ls <- mapM (limits junk o h0 h1 name nk nf) (seq 0 nk) ;; Ok (jMin, jMax, ls)) as [[[jMin jMax] ls]|e] eqn:E; [|rewrite RUN in MR; discriminate MR].
  destruct MR as (_ & out' & cols & RUN' & E' & RL). assert (out = rev cols) by congruence. subst out. clear E' RUN' out'.
  pose proof (rev_shape _ _ _ (proj1 RL)) as SC. pose proof (mask_run junk nk nf (rev cols) o tMin tMax kMin kMax h0 h1 name N SC) as MR. cbv zeta in MR. fold nt in MR. rewrite E in MR. destruct MR as (_ & out2 & cols2 & RUN2 & -> & RL2). rewrite rev_involutive in RL2.
  rewrite RUN2. f_equal. f_equal. symmetry. exact (rel_idem nk nf _ (rev M) cols cols2 (rev_shape _ _ _ S0) RL RL2).
Qed.

Lemma C96_mask_proof : (forall junk nk nf M obsPerDay tMin tMax kMin kMax hMin hMax name, (0 < nk)%nat -> (0 < nf)%nat -> Shape nk nf M ->
  (0 < obsPerDay)%Q -> (0 < tMin)%Q -> (0 < tMax)%Q -> (0 < hMin)%Q -> (0 < hMax)%Q -> KnownWave name ->
  let nt := (2 * (Z.of_nat nf - 1))%Z in
  let T := (IZR nt * 86400 / (2 * PI * Q2R obsPerDay))%R in
  let speed h := sqrt (9.80665 * Q2R h) in
  exists out jlo jhi lo hi, kf_filter_mask junk M obsPerDay tMin tMax kMin kMax hMin hMax name = Ok out /\
    Nearest (inject_Z nt / (tMax * obsPerDay)) jlo /\ Nearest (inject_Z nt / (tMin * obsPerDay)) jhi /\
    Limit nk kMin lo /\ Limit nk kMax hi /\
    Masked nk nf (fun row j =>
      let i := (nk - 1 - row)%nat in
      jlo <= Z.of_nat j <= jhi /\ Between lo hi (Z.of_nat i) /\
      exists w0 w1 z0 z1,
        WaveFrequency name (PlaceWavenumber nk i) (speed hMin) w0 /\ WaveFrequency name (PlaceWavenumber nk i) (speed hMax) w1 /\
        Floor (w0 * T) z0 /\ Ceiling (w1 * T) z1 /\ z0 <= Z.of_nat j /\ (Z.of_nat j <= z1 \/ j = 0%nat)) M out)%Z.
Proof.
  intros junk nk nf M o tMin tMax kMin kMax h0 h1 name N NF S0 O T0 T1 H0 H1 K nt T speed.
  pose proof (not_mark h0 H0) as M0. pose proof (not_mark h1 H1) as M1.
  assert (SP : speeds junk h0 h1 = (Some (speed h0), Some (speed h1))).
  { unfold speeds, root_depth, speed. rewrite M0, M1. rewrite <- g_is. replace (Qlt_bool h0 0) with false by (symmetry; apply qltb_false; apply Qlt_le_weak; exact H0). replace (Qlt_bool h1 0) with false by (symmetry; apply qltb_false; apply Qlt_le_weak; exact H1). reflexivity. }
  assert (P0 : (0 < speed h0)%R) by (unfold speed; rewrite <- g_is; apply speed_pos; exact H0). assert (P1 : (0 < speed h1)%R) by (unfold speed; rewrite <- g_is; apply speed_pos; exact H1).
  set (fr := fun (i : nat) (c other : R) => match wave_freq name (PlaceWavenumber nk i) other (Some c) with Some w => w | None => 0%R end).
  assert (FR : forall i c other, (0 < c)%R -> wave_freq name (PlaceWavenumber nk i) other (Some c) = Some (fr i c other) /\ WaveFrequency name (PlaceWavenumber nk i) c (fr i c other) /\ forall w', WaveFrequency name (PlaceWavenumber nk i) c w' -> w' = fr i c other).
  { intros i c other C. unfold fr. destruct (freq_known name (PlaceWavenumber nk i) other c K C) as (w & E & A & B). rewrite E. auto. }
  set (spc := (24 * 3600 / (2 * PI * Q2R o))%R). assert (TE : (T = spc * IZR nt)%R) by (unfold T, spc, Rdiv; ring). clearbody T.
  destruct (mask_any junk nk nf M o tMin tMax kMin kMax h0 h1 name (fun i => floor_r (fr i (speed h0) 0%R * T)%R) (fun i => ceil_r (fr i (speed h1) (INR nf / spc)%R * T)%R)) as (out & jlo & jhi & l & h & RUN & A & B & L0 & L1 & _ & _ & MM); try assumption.
  - intros i I. unfold limits. fold spc. rewrite SP, M0, M1, k_is by exact I. rewrite (proj1 (FR i (speed h0) 0%R P0)), (proj1 (FR i (speed h1) (INR nf / spc)%R P1)). cbn [bind]. replace ((Z.of_nat nf - 1) * 2)%Z with nt by (unfold nt; lia). rewrite TE, <- !Rmult_assoc. reflexivity.
  - exists out, jlo, jhi, l, h. split; [exact RUN|]. split; [exact A|]. split; [exact B|]. split; [exact L0|]. split; [exact L1|]. revert MM. apply masked_ext; [exact S0|]. intros r j I J. cbv zeta. set (i := (nk - 1 - r)%nat).
    destruct (FR i (speed h0) 0%R P0) as (_ & W0 & U0). destruct (FR i (speed h1) (INR nf / spc)%R P1) as (_ & W1 & U1). split.
    + intros (X & Y & Z1 & Z2). split; [exact X|]. split; [exact Y|]. do 4 eexists. split; [exact W0|]. split; [exact W1|]. split; [apply floor_spec|]. split; [apply ceil_spec|]. split; [exact Z1|exact Z2].
    + intros (X & Y & w0 & w1 & z0 & z1 & V0 & V1 & F0 & F1 & Z0 & Z1). apply U0 in V0. apply U1 in V1. subst w0 w1. rewrite (floor_unique _ _ _ (floor_spec _) F0), (ceil_unique _ _ _ (ceil_spec _) F1). tauto.
Qed.

Lemma C96_mask_case_proof : (Shape 2 3 [[(1, 2); (3, 4); (5, 6)]; [(7, 8); (9, 0); (1, 1)]]%R /\ KnownWave "Kelvin")%Z.
Proof.
  split; [split; [reflexivity|repeat constructor]|left; reflexivity].
Qed.

Lemma C96_open_proof : (forall junk nk nf M obsPerDay tMin tMax kMin kMax hMin hMax name, (0 < nk)%nat -> (0 < nf)%nat -> Shape nk nf M ->
  (0 < obsPerDay)%Q -> (0 < tMin)%Q -> (0 < tMax)%Q ->
  ((hMin == -9999)%Q /\ (hMax == -9999)%Q) \/ ~ KnownWave name ->
  let nt := (2 * (Z.of_nat nf - 1))%Z in
  exists out jlo jhi lo hi, kf_filter_mask junk M obsPerDay tMin tMax kMin kMax hMin hMax name = Ok out /\
    Nearest (inject_Z nt / (tMax * obsPerDay)) jlo /\ Nearest (inject_Z nt / (tMin * obsPerDay)) jhi /\
    Limit nk kMin lo /\ Limit nk kMax hi /\
    Masked nk nf (fun row j => jlo <= Z.of_nat j <= jhi /\ Between lo hi (Z.of_nat (nk - 1 - row))) M out)%Z.
Proof.
  intros junk nk nf M o tMin tMax kMin kMax h0 h1 name N NF S0 O T0 T1 H nt.
  pose proof (fun i => limits_open junk o h0 h1 name nk nf i NF O H) as LO.
  set (lim := fun i => match limits junk o h0 h1 name nk nf i with Ok l => l | Err _ => (0, 0)%Z end).
  destruct (mask_any junk nk nf M o tMin tMax kMin kMax h0 h1 name (fun i => fst (lim i)) (fun i => snd (lim i))) as (out & jlo & jhi & l & h & RUN & A & B & L0 & L1 & _ & _ & MM); try assumption.
  - intros i I. destruct (LO i) as (a & b & E & _ & _). unfold lim. rewrite E. cbn [fst snd]. f_equal. f_equal; lia.
  - exists out, jlo, jhi, l, h. split; [exact RUN|]. split; [exact A|]. split; [exact B|]. split; [exact L0|]. split; [exact L1|]. revert MM. apply masked_ext; [exact S0|]. intros r j I J. cbv zeta. destruct (LO (nk - 1 - r)%nat) as (a & b & E & A0 & B0). unfold lim. rewrite E. cbn [fst snd].
    split; [tauto|]. intros [X Y]. split; [exact X|]. split; [exact Y|]. split; [lia|left; lia].
Qed.

Lemma C96_single_refuted_proof : (forall hMin hMax, ((hMin == -9999)%Q /\ ~ (hMax == -9999)%Q) \/ (~ (hMin == -9999)%Q /\ (hMax == -9999)%Q) ->
  exists junk junk' M out, kf_filter_mask junk M 1 2 20 1 2 hMin hMax "Kelvin" = Ok out /\ kf_filter_mask junk' M 1 2 20 1 2 hMin hMax "Kelvin" = Err ValueError)%Z.
Proof.
  intros h0 h1 H. exists (Some 1%R), None, [[(0, 0); (0, 0)]]%R.
  assert (S0 : Shape 1 2 [[(0, 0); (0, 0)]]%R) by (split; [reflexivity|repeat constructor]).
  pose proof (fun junk => mask_run junk 1 2 _ 1 2 20 1 2 h0 h1 "Kelvin" Nat.lt_0_1 S0) as MR. cbv zeta in MR.
  assert (LS : forall t, exists z, (0 < t)%Q -> step_of ((Z.of_nat 2 - 1) * 2) t 1 = Ok z). { intros t. eexists. intros P. apply step_ok; [exact P|reflexivity]. }
  destruct (LS 2%Q) as [z2 E2]. destruct (LS 20%Q) as [z20 E20]. specialize (E2 eq_refl). specialize (E20 eq_refl). rewrite E2, E20 in MR. cbn [bind seq mapM] in MR.
  assert (LI : (exists l, limits (Some 1%R) 1 h0 h1 "Kelvin" 1 2 0 = Ok l) /\ limits None 1 h0 h1 "Kelvin" 1 2 0 = Err ValueError).
  { unfold limits, speeds. destruct H as [[A B]|[A B]].
    - apply Qeq_bool_iff in A. rewrite A. assert (B' : Qeq_bool h1 (-9999) = false) by (apply Bool.not_true_iff_false; rewrite Qeq_bool_iff; exact B). rewrite B'. cbn [bind]. unfold wave_freq. cbn [is_name existsb String.eqb Ascii.eqb Bool.eqb orb]. split; [eexists; reflexivity|reflexivity].
    - apply Qeq_bool_iff in B. rewrite B. assert (A' : Qeq_bool h0 (-9999) = false) by (apply Bool.not_true_iff_false; rewrite Qeq_bool_iff; exact A). rewrite A'. unfold wave_freq. cbn [is_name existsb String.eqb Ascii.eqb Bool.eqb orb option_map]. cbn [bind]. split; [eexists; reflexivity|reflexivity]. }
  destruct LI as [[l E1] E3]. pose proof (MR (Some 1%R)) as M1. pose proof (MR None) as M2. rewrite E1 in M1. rewrite E3 in M2. cbn [bind] in M1, M2. destruct M1 as (_ & out & cols & RUN & _). exists out. split; [exact RUN|exact M2].
Qed.

Lemma C96_single_refuted_case_proof : ((-9999 == -9999)%Q /\ ~ (90 == -9999)%Q)%Z.
Proof.
  split; [reflexivity|discriminate].
Qed.

Lemma C96_equal_refuted_proof : (forall junk nk nf M obsPerDay tMin tMax k name, (0 < nk)%nat -> (0 < nf)%nat -> Shape nk nf M ->
  (0 < obsPerDay)%Q -> (0 < tMin)%Q -> (0 < tMax)%Q ->
  let nt := (2 * (Z.of_nat nf - 1))%Z in
  exists out jlo jhi, kf_filter_mask junk M obsPerDay tMin tMax k k (-9999) (-9999) name = Ok out /\
    Nearest (inject_Z nt / (tMax * obsPerDay)) jlo /\ Nearest (inject_Z nt / (tMin * obsPerDay)) jhi /\
    Masked nk nf (fun row j => jlo <= Z.of_nat j <= jhi) M out)%Z.
Proof.
  intros junk nk nf M o tMin tMax k name N NF S0 O T0 T1 nt.
  destruct (mask_any junk nk nf M o tMin tMax k k (-9999) (-9999) name (fun _ => 0%Z) (fun _ => Z.of_nat nf)) as (out & jlo & jhi & l & h & E & A & B & _ & _ & -> & -> & MM); try assumption.
  - intros i I. unfold limits, speeds. replace (Qeq_bool (-9999) (-9999)) with true by reflexivity. reflexivity.
  - exists out, jlo, jhi. split; [exact E|]. split; [exact A|]. split; [exact B|]. revert MM. apply masked_ext; [exact S0|]. intros r j I J. cbv zeta. unfold Between. split; [tauto|]. intros X. split; [exact X|]. split; [split; lia|lia].
Qed.

Lemma C96_exceptions_proof : (forall junk nk nf M obsPerDay tMin tMax kMin kMax hMin hMax name, (0 < nk)%nat -> Shape nk nf M ->
  ((tMax * obsPerDay == 0)%Q \/ (tMin * obsPerDay == 0)%Q ->
     kf_filter_mask junk M obsPerDay tMin tMax kMin kMax hMin hMax name = Err ZeroDivisionError) /\
  (~ (tMax * obsPerDay == 0)%Q -> ~ (tMin * obsPerDay == 0)%Q -> KnownWave name ->
     ~ (hMin == -9999)%Q -> ~ (hMax == -9999)%Q -> (hMin < 0 \/ hMax < 0)%Q ->
     kf_filter_mask junk M obsPerDay tMin tMax kMin kMax hMin hMax name = Err ValueError))%Z.
Proof.
  intros junk nk nf M o tMin tMax kMin kMax h0 h1 name N S0. pose proof (mask_run junk nk nf M o tMin tMax kMin kMax h0 h1 name N S0) as MR. cbv zeta in MR. set (nt := ((Z.of_nat nf - 1) * 2)%Z) in *. split.
  - intros H. unfold step_of in MR. destruct H as [H|H]; apply Qeq_bool_iff in H.
    + rewrite H in MR. exact MR.
    + rewrite H in MR. destruct (Qeq_bool (tMax * o) 0); cbn [bind] in MR; exact MR.
  - intros A B K M0 M1 H. unfold step_of in MR. replace (Qeq_bool (tMax * o) 0) with false in MR by (symmetry; apply Bool.not_true_iff_false; rewrite Qeq_bool_iff; exact A). replace (Qeq_bool (tMin * o) 0) with false in MR by (symmetry; apply Bool.not_true_iff_false; rewrite Qeq_bool_iff; exact B). cbn [bind] in MR.
    assert (LI : limits junk o h0 h1 name nk nf 0 = Err ValueError).
    { destruct (limits junk o h0 h1 name nk nf 0) as [l|e] eqn:E; [|f_equal; exact (limits_exn _ _ _ _ _ _ _ _ _ E)]. exfalso. revert E. unfold limits, speeds.
      replace (Qeq_bool h0 (-9999)) with false by (symmetry; apply Bool.not_true_iff_false; rewrite Qeq_bool_iff; exact M0). replace (Qeq_bool h1 (-9999)) with false by (symmetry; apply Bool.not_true_iff_false; rewrite Qeq_bool_iff; exact M1).
      unfold root_depth. destruct H as [H|H]; apply qltb in H; rewrite H.
      - rewrite (freq_none _ _ _ K). discriminate.
      - destruct (wave_freq name _ _ (if Qlt_bool h0 0 then _ else _)); cbn [bind]; [|discriminate]. rewrite (freq_none _ _ _ K). discriminate. }
    destruct nk as [|nk]; [lia|]. cbn [seq mapM] in MR. rewrite LI in MR. exact MR.
Qed.

Lemma C97_identity_proof : (forall junk data nk nt obsPerDay tMin tMax k name, (0 < nk)%nat -> (0 < nt)%nat -> Nat.Even nt -> Shape nt nk data ->
  (0 < tMin * obsPerDay <= 2)%Q -> (2 * inject_Z (Z.of_nat nt) <= tMax * obsPerDay)%Q -> (0 < obsPerDay)%Q ->
  kf_filter junk data obsPerDay tMin tMax k k (-9999) (-9999) name = Ok data)%Z.
Proof.
  intros junk data nk nt o tMin tMax k name N T EV S0 H0 H1 O.
  assert (T0 : (0 < tMin)%Q). { destruct H0 as [H0 _]. apply (Qmult_lt_r _ _ o O). rewrite Qmult_0_l. exact H0. }
  assert (NT : (0 < inject_Z (Z.of_nat nt))%Q) by (change 0%Q with (inject_Z 0); rewrite <- Zlt_Qlt; lia).
  assert (T1 : (0 < tMax)%Q). { apply (Qmult_lt_r _ _ o O). rewrite Qmult_0_l. Lqa.lra. }
  set (M := tabulate nk (nt / 2 + 1) (coefs nk nt (fun x t => entry 0%R data t x))).
  destruct (open_run junk nk nt M o tMin tMax k k name N EV (tabulate_shape _ _ _) O T0 T1) as (out & jlo & jhi & E & A & B & MM).
  pose proof (even_half nt EV) as H2.
  assert (JL : jlo = 0%Z). { apply (nearest_unique _ _ _ A). apply nearest_half. assert (P : (0 < tMax * o)%Q) by (apply Qmult_lt_0_compat; assumption). split; [apply step_nonneg; [lia|assumption|assumption]|]. apply Qle_shift_div_r; [exact P|]. Lqa.lra. }
  assert (JH : (Z.of_nat (nt / 2) <= jhi)%Z). { refine (nearest_ge _ _ _ _ B). apply Qle_shift_div_l; [apply H0|]. replace (Z.of_nat nt) with (Z.of_nat (nt / 2) * 2)%Z by lia. rewrite inject_Z_mult. change (inject_Z 2) with 2%Q. assert (P : (0 <= inject_Z (Z.of_nat (nt / 2)))%Q) by (change 0%Q with (inject_Z 0); rewrite <- Zle_Qle; lia). rewrite !(Qmult_comm (inject_Z _)). apply Qmult_le_compat_r; [apply H0|exact P]. }
  assert (MT : Masked nk (nt / 2 + 1) (fun _ _ => True) M out). { revert MM. apply masked_ext; [apply tabulate_shape|]. intros r j I J. unfold Between. split; [trivial|]. intros _. split; [lia|split; lia]. }
  rewrite (masked_filter junk data nk nt o tMin tMax k k _ _ name out _ N T EV S0 E MT (fun _ _ => left I)). f_equal. etransitivity; [|symmetry; exact (tabulate_all 0%R nt nk data S0)]. apply tabulate_ext. intros t x J X. exact (back nk nt (fun x t => entry 0%R data t x) x t X J).
Qed.

Lemma C97_identity_case_proof : (Shape 2 3 [[1; 5; 2]; [4; 4; 0]]%R /\ Nat.Even 2 /\ (0 < 2 * 1 <= 2)%Q /\ (2 * inject_Z (Z.of_nat 2) <= 4 * 1)%Q)%Z.
Proof.
  split; [split; [reflexivity|repeat constructor]|]. split; [exists 1%nat; reflexivity|]. split; [split; [reflexivity|discriminate]|discriminate].
Qed.

Lemma C97_east_proof : (forall junk nk nt k j a phi obsPerDay tMin tMax kMin kMax name jlo jhi,
  (0 < k < nk)%nat -> (0 < 2 * j < nt)%nat -> Nat.Even nt -> (0 < obsPerDay)%Q -> (0 < tMin)%Q -> (0 < tMax)%Q ->
  Nearest (inject_Z (Z.of_nat nt) / (tMax * obsPerDay)) jlo -> Nearest (inject_Z (Z.of_nat nt) / (tMin * obsPerDay)) jhi ->
  0 <= kMin < kMax -> kMax <= Z.of_nat nk / 2 ->
  let out := kf_filter junk (EastWave nk nt k j a phi) obsPerDay tMin tMax (inject_Z kMin) (inject_Z kMax) (-9999) (-9999) name in
  (jlo <= Z.of_nat j <= jhi /\ kMin <= Z.of_nat k - 1 <= kMax -> out = Ok (EastWave nk nt k j a phi)) /\
  (~ (jlo <= Z.of_nat j <= jhi /\ kMin <= Z.of_nat k - 1 <= kMax) -> out = Ok (Zeros nk nt)))%Z.
Proof.
  intros junk nk nt k j a phi o tMin tMax kMin kMax name jlo jhi K J EV O T0 T1 N0 N1 K0 K1 out.
  pose proof (filter_wave junk nk nt (nk - k) j a (- phi) o tMin tMax (inject_Z kMin) (inject_Z kMax) name jlo jhi ltac:(lia) J EV O T0 T1 N0 N1) as [A B]. rewrite <- east_west in A, B by exact K. fold out in A, B. rewrite !place_up in A, B by lia. unfold Between in A, B.
  replace (Z.of_nat (nk - 1 - (nk - k))) with (Z.of_nat k - 1)%Z in A, B by lia. split; intros H; [apply A|apply B]; lia.
Qed.

Lemma C97_east_case_proof : ((0 < 3 < 8)%nat /\ (0 < 2 * 2 < 8)%nat /\ Nat.Even 8 /\ Nearest (inject_Z (Z.of_nat 8) / (4 * 1)) 2 /\ Nearest (inject_Z (Z.of_nat 8) / (2 * 1)) 4 /\ 0 <= 1 < 2 /\ 2 <= Z.of_nat 8 / 2)%Z.
Proof.
  split; [lia|]. split; [lia|]. split; [exists 4%nat; reflexivity|]. split; [split; [discriminate|intros _; exists 1%Z; reflexivity]|]. split; [split; [discriminate|intros _; exists 2%Z; reflexivity]|]. split; [lia|]. vm_compute. discriminate.
Qed.

Lemma C97_west_proof : (forall junk nk nt k j a phi obsPerDay tMin tMax kMin kMax name jlo jhi,
  (k < nk)%nat -> (0 < 2 * j < nt)%nat -> Nat.Even nt -> (0 < obsPerDay)%Q -> (0 < tMin)%Q -> (0 < tMax)%Q ->
  Nearest (inject_Z (Z.of_nat nt) / (tMax * obsPerDay)) jlo -> Nearest (inject_Z (Z.of_nat nt) / (tMin * obsPerDay)) jhi ->
  kMin < kMax < 0 -> Z.of_nat nk / 2 <= Z.of_nat nk + kMin ->
  let out := kf_filter junk (WestWave nk nt k j a phi) obsPerDay tMin tMax (inject_Z kMin) (inject_Z kMax) (-9999) (-9999) name in
  (jlo <= Z.of_nat j <= jhi /\ kMin <= - (Z.of_nat k + 1) <= kMax -> out = Ok (WestWave nk nt k j a phi)) /\
  (~ (jlo <= Z.of_nat j <= jhi /\ kMin <= - (Z.of_nat k + 1) <= kMax) -> out = Ok (Zeros nk nt)))%Z.
Proof.
  intros junk nk nt k j a phi o tMin tMax kMin kMax name jlo jhi K J EV O T0 T1 N0 N1 K0 K1 out.
  pose proof (filter_wave junk nk nt k j a phi o tMin tMax (inject_Z kMin) (inject_Z kMax) name jlo jhi K J EV O T0 T1 N0 N1) as [A B]. fold out in A, B. rewrite !place_down in A, B by lia. unfold Between in A, B. split; intros H; [apply A|apply B]; lia.
Qed.

Lemma C97_range_refuted_proof : ((forall junk, kf_filter junk (EastWave 8 8 1 2 1 0) 1 2 8 1 2 (-9999) (-9999) "Kelvin" = Ok (Zeros 8 8)) /\
  (forall junk, kf_filter junk (EastWave 8 8 3 2 1 0) 1 2 8 1 2 (-9999) (-9999) "Kelvin" = Ok (EastWave 8 8 3 2 1 0)) /\
  EastWave 8 8 1 2 1 0 <> Zeros 8 8)%Z.
Proof.
  assert (A : Nearest (inject_Z (Z.of_nat 8) / (8 * 1)) 1) by (split; [discriminate|intros X; discriminate X]). assert (B : Nearest (inject_Z (Z.of_nat 8) / (2 * 1)) 4) by (split; [discriminate|intros X; discriminate X]).
  assert (EV : Nat.Even 8) by (exists 4%nat; reflexivity).
  assert (PL : forall k, (0 <= k <= 4)%Z -> place (Z.of_nat 8) (inject_Z k) = k) by (intros k K; apply place_up; exact K).
  assert (B7 : ~ Between 1 2 (Z.of_nat (8 - 1 - 7))) by (unfold Between; cbn; lia). assert (B5 : Between 1 2 (Z.of_nat (8 - 1 - 5))) by (unfold Between; cbn; lia).
  split; [|split].
  - intros junk. rewrite east_west by lia. pose proof (proj2 (filter_wave junk 8 8 (8 - 1) 2 1 (- 0) 1 2 8 (inject_Z 1) (inject_Z 2) "Kelvin" 1 4 ltac:(lia) ltac:(lia) EV eq_refl eq_refl eq_refl A B)) as Y. rewrite !PL in Y by lia. apply Y. intros [_ X]. exact (B7 X).
  - intros junk. rewrite east_west by lia. pose proof (proj1 (filter_wave junk 8 8 (8 - 3) 2 1 (- 0) 1 2 8 (inject_Z 1) (inject_Z 2) "Kelvin" 1 4 ltac:(lia) ltac:(lia) EV eq_refl eq_refl eq_refl A B)) as Y. rewrite !PL in Y by lia. apply Y. split; [lia|exact B5].
  - intros E. assert (X : entry 0%R (EastWave 8 8 1 2 1 0) 0 0 = entry 0%R (Zeros 8 8) 0 0) by (rewrite E; reflexivity).
    rewrite east_west in X by lia. rewrite west_entry in X by lia. unfold entry, Zeros in X. cbn [map seq nth] in X. unfold Turn in X. change (INR 0) with 0%R in X. replace (2 * PI * INR (8 - 1) * 0 / INR 8 + 2 * PI * INR 2 * 0 / INR 8 + - 0)%R with 0%R in X by (unfold Rdiv; ring). rewrite cos_0 in X. lra.
Qed.

Lemma C97_times_proof : (forall junk data nk nt obsPerDay tMin tMax kMin kMax hMin hMax name out, Shape nt nk data -> (0 < nk)%nat ->
  kf_filter junk data obsPerDay tMin tMax kMin kMax hMin hMax name = Ok out -> Shape (2 * (nt / 2)) nk out)%Z.
Proof.
  intros junk data nk nt o tMin tMax kMin kMax h0 h1 name out S0 N RUN. assert (T : (0 < nt)%nat). { destruct nt; [|lia]. destruct data as [|row data]; [discriminate RUN|]. destruct S0 as [L _]. discriminate L. }
  rewrite (filter_run junk data nk nt) in RUN by assumption. destruct (kf_filter_mask _ _ _ _ _ _ _ _ _ _) as [f|]; cbn [bind] in RUN; [|discriminate RUN]. destruct (irfft2 f) as [d|]; cbn [bind] in RUN; [|discriminate RUN]. injection RUN as RUN. subst out. apply tabulate_shape.
Qed.

Lemma C97_times_refuted_proof : (forall junk data nk nt obsPerDay tMin tMax kMin kMax hMin hMax name out, Shape nt nk data -> (0 < nk)%nat -> Nat.Odd nt ->
  kf_filter junk data obsPerDay tMin tMax kMin kMax hMin hMax name = Ok out -> S (List.length out) = nt)%Z.
Proof.
  intros junk data nk nt o tMin tMax kMin kMax h0 h1 name out S0 N OD RUN. destruct (C97_times_proof junk data nk nt o tMin tMax kMin kMax h0 h1 name out S0 N RUN) as [L _]. destruct OD as [h ->]. replace ((2 * h + 1) / 2)%nat with h in L by (apply (Nat.div_unique _ 2 h 1); lia). lia.
Qed.

Lemma C97_exceptions_proof : (forall junk data obsPerDay tMin tMax kMin kMax hMin hMax name,
  (data = [] \/ (exists row, In row data /\ List.length row <> List.length (hd [] data)) \/ (exists rest, data = [] :: rest) ->
   kf_filter junk data obsPerDay tMin tMax kMin kMax hMin hMax name = Err ValueError))%Z.
Proof.
  intros junk data o tMin tMax kMin kMax h0 h1 name H. unfold kf_filter. destruct data as [|row data]; [reflexivity|]. cbn [hd] in H.
  destruct (forallb (fun r => length r =? length row)%nat (row :: data)) eqn:E; [|reflexivity]. cbn [negb]. destruct H as [H|[(r & I & D)|(rest & H)]].
  - discriminate H.
  - exfalso. rewrite forallb_forall in E. apply D. apply Nat.eqb_eq. apply E. exact I.
  - injection H as -> _. reflexivity.
Qed.

