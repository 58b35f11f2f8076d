(** Proofs about the program of spectra and its files. *)
From Coq Require Import List ZArith QArith String Ascii Bool Lia Permutation Sorting.Sorted.
From Verif Require Import PyBase ColumnModel RocModel RocProofs CrossModel CrossSpec.
Import ListNotations.
Open Scope string_scope.

(** ** Values of variables *)
Lemma nth_pairs {A B} (l : list A) : forall (r : list B) a b,
  (exists j, nth_error l j = Some a /\ nth_error r j = Some b) <-> In (a, b) (combine l r).
Proof.
  induction l as [|x l IH]; intros r a b.
  - split; [intros (j & H & _); destruct j; discriminate|intros []].
  - destruct r as [|y r]; [split; [intros (j & _ & H); destruct j; discriminate|intros []]|]. cbn [combine In]. rewrite <- IH. split.
    + intros ([|j] & H1 & H2); cbn in H1, H2; [left; congruence|right; exists j; tauto].
    + intros [E|(j & H)]; [exists 0%nat; cbn; split; congruence|exists (Datatypes.S j); exact H].
Qed.
Lemma value_pairs {L} (f : field L) t lat v : ValueAt f t lat v <-> exists row, In (t, row) (days f) /\ In (lat, v) (combine (lats f) row).
Proof.
  split.
  - intros (i & j & row & H1 & H2 & H3). exists row. split; [exact (nth_error_In _ _ H1)|]. apply nth_pairs. exists j. tauto.
  - intros (row & H1 & H2). apply In_nth_error in H1. destruct H1 as (i & H1). apply nth_pairs in H2. destruct H2 as (j & H2 & H3).
    exists i, j, row. tauto.
Qed.
Lemma take_pairs {A B} m : forall (l : list A) (r : list B), combine (take m l) (take m r) = take m (combine l r).
Proof.
  induction m as [|b m IH]; intros [|x l] [|y r]; cbn; try reflexivity.
  - destruct b; [reflexivity|]. destruct (take m l); reflexivity.
  - destruct b; cbn; rewrite IH; reflexivity.
Qed.
Lemma take_in {A} (p : Q -> bool) (k : A -> Q) l x : In x (take (map (fun y => p (k y)) l) l) <-> In x l /\ p (k x) = true.
Proof.
  induction l as [|y l IH]; cbn; [tauto|]. destruct (p (k y)) eqn:E; cbn; rewrite IH; intuition (subst; congruence || auto).
Qed.
Lemma take_incl {A} m : forall (l : list A) x, In x (take m l) -> In x l.
Proof. induction m as [|[|] m IH]; intros [|y l] x; cbn; try tauto; intro H; [destruct H; [left; assumption|]|]; right; apply IH; assumption. Qed.
Lemma take_sorted {A} (le : A -> A -> Prop) m : forall l, StronglySorted le l -> StronglySorted le (take m l).
Proof.
  induction m as [|b m IH]; intros [|y l] H; cbn; try constructor. inversion H as [|? ? H1 H2]; subst. destruct b; [|apply IH; exact H1].
  constructor; [apply IH; exact H1|]. rewrite Forall_forall in *. intros z Z. apply H2. apply (take_incl m). exact Z.
Qed.
Lemma ordered_up l : Ascending l -> ordered Qle_bool l = true.
Proof.
  unfold Ascending. induction l as [|a l IH]; [reflexivity|]. intro H. inversion H as [|? ? H1 H2]; subst. destruct l as [|b l]; [reflexivity|].
  change (Qle_bool a b && ordered Qle_bool (b :: l) = true). rewrite (IH H1). inversion H2 as [|? ? H3 _]; subst. apply Qle_bool_iff in H3.
  rewrite H3. reflexivity.
Qed.
Lemma slice_up lo hi l : Ascending l -> slice lo hi l = Ok (map (between lo hi) l).
Proof. intro H. unfold slice. rewrite (ordered_up _ H). reflexivity. Qed.
Lemma between_iff lo hi k : between lo hi k = true <-> (lo <= k <= hi)%Q.
Proof. unfold between. rewrite andb_true_iff, !Qle_bool_iff. reflexivity. Qed.
Lemma select_ok {L} cfg (f : field L) : Full f -> Ascending (lats f) -> Ascending (map fst (days f)) ->
  exists g, select L cfg f = Ok g /\ Chosen cfg f g.
Proof.
  intros HF HL HT. unfold select. rewrite (slice_up _ _ _ HL), (slice_up _ _ _ HT). cbn [bind]. eexists. split; [reflexivity|]. split; cbn [lats days].
  - apply take_sorted. exact HL.
  - intros t lat v. rewrite !value_pairs. cbn [lats days]. rewrite map_map.
    assert (P : forall row, List.length row = List.length (lats f) ->
        (In (lat, v) (combine (take (map (between (latMin cfg) (latMax cfg)) (lats f)) (lats f)) (take (map (between (latMin cfg) (latMax cfg)) (lats f)) row))
         <-> In (lat, v) (combine (lats f) row) /\ (latMin cfg <= lat <= latMax cfg)%Q)).
    { intros row E. rewrite take_pairs. set (c := combine (lats f) row).
      assert (M : map (between (latMin cfg) (latMax cfg)) (lats f) = map (fun y => between (latMin cfg) (latMax cfg) (fst y)) c).
      { rewrite <- (map_map fst (between (latMin cfg) (latMax cfg))). f_equal. unfold c. clear -E. revert row E.
        induction (lats f) as [|a l IH]; intros [|b r] E; cbn in *; try discriminate; [reflexivity|]. f_equal. apply IH. congruence. }
      rewrite M, (take_in (between (latMin cfg) (latMax cfg)) fst c (lat, v)), between_iff. reflexivity. }
    unfold Full in HF. rewrite Forall_forall in HF. split.
    + intros (row & H1 & H2). apply in_map_iff in H1. destruct H1 as ((t' & row') & E & H1). cbn in E. injection E as <- <-.
      apply (take_in (between (datestrt cfg) (datelast cfg)) fst (days f)) in H1. destruct H1 as (H1 & B). apply between_iff in B.
      apply (P row' (HF _ H1)) in H2. split; [exists row'; tauto|tauto].
    + intros ((row & H1 & H2) & B1 & B2). eexists. split; [|apply (P row (HF _ H1)); tauto]. apply in_map_iff. exists (t, row).
      split; [reflexivity|]. apply (take_in (between (datestrt cfg) (datelast cfg)) fst (days f)). rewrite between_iff. tauto.
Qed.
Lemma insert_map {A B} (g : A -> B) (le : A -> A -> bool) (le' : B -> B -> bool) (H : forall a b, le' (g a) (g b) = le a b) x l :
  insert_by le' (g x) (map g l) = map g (insert_by le x l).
Proof. induction l as [|y l IH]; cbn; [reflexivity|]. rewrite H. destruct (le x y); cbn; [reflexivity|]. rewrite IH. reflexivity. Qed.
Lemma sort_map {A B} (g : A -> B) (le : A -> A -> bool) (le' : B -> B -> bool) (H : forall a b, le' (g a) (g b) = le a b) l :
  sort_by le' (map g l) = map g (sort_by le l).
Proof. induction l as [|x l IH]; cbn; [reflexivity|]. rewrite IH. apply insert_map. exact H. Qed.
Lemma combine_split {A B} (l : list (A * B)) : combine (map fst l) (map snd l) = l.
Proof. induction l as [|[a b] l IH]; cbn; [reflexivity|]. rewrite IH. reflexivity. Qed.
Lemma keys_sorted {A} (l : list Q) (r : list A) : List.length r = List.length l ->
  map fst (sort_by by_key (combine l l)) = map fst (sort_by by_key (combine l r)).
Proof.
  intro E. assert (M : combine l l = map (fun p : Q * A => (fst p, fst p)) (combine l r)).
  { revert r E. induction l as [|a l IH]; intros [|b r] E; cbn in *; try discriminate; [reflexivity|]. f_equal. apply IH. congruence. }
  rewrite M, (sort_map _ by_key by_key) by reflexivity. rewrite map_map. reflexivity.
Qed.
Lemma by_key_sorted {A} (l : list (Q * A)) : Ascending (map fst (sort_by by_key l)).
Proof.
  unfold Ascending. apply sorted_map.
  assert (H : StronglySorted (fun a b => by_key a b = true) (sort_by by_key l)).
  { apply (sort_sorted by_key (fun _ => True)); try (apply Forall_forall; intros; exact I).
    - intros a b _ _ E. unfold by_key in *. apply Qle_bool_iff. destruct (Qlt_le_dec (fst b) (fst a)) as [G|G]; [apply Qlt_le_weak; exact G|].
      apply Qle_bool_iff in G. congruence.
    - intros a b c _ _ _ E1 E2. unfold by_key in *. apply Qle_bool_iff in E1, E2. apply Qle_bool_iff. exact (Qle_trans _ _ _ E1 E2). }
  induction H as [|a l' _ IH HF]; constructor; [exact IH|]. rewrite Forall_forall in *. intros b B. apply Qle_bool_iff. exact (HF b B).
Qed.
Lemma sortby_ok {L} (f : field L) : Full f -> Full (sortby L f) /\ Ascending (lats (sortby L f)) /\ map fst (days (sortby L f)) = map fst (days f) /\
  forall t lat v, ValueAt (sortby L f) t lat v <-> ValueAt f t lat v.
Proof.
  unfold Full. rewrite Forall_forall. intro HF. split; [|split; [|split]].
  - rewrite Forall_forall. intros d' H. cbn [sortby days lats] in *. apply in_map_iff in H. destruct H as (d & <- & H). cbn [snd].
    rewrite (keys_sorted _ (snd d) (HF d H)), !map_length. reflexivity.
  - apply by_key_sorted.
  - cbn [sortby days]. rewrite map_map. reflexivity.
  - intros t lat v. rewrite !value_pairs. cbn [sortby days lats]. split.
    + intros (row & H1 & H2). apply in_map_iff in H1. destruct H1 as ((t' & row') & E & H1). cbn in E. injection E as <- <-.
      rewrite (keys_sorted _ row' (HF _ H1)), combine_split in H2. exists row'. split; [exact H1|].
      apply (Permutation_in _ (Permutation_sym (sort_perm by_key _))). exact H2.
    + intros (row & H1 & H2). eexists. split; [apply in_map_iff; exists (t, row); split; [reflexivity|exact H1]|]. cbn [snd].
      rewrite (keys_sorted _ row (HF _ H1)), combine_split. apply (Permutation_in _ (sort_perm by_key _)). exact H2.
Qed.
Lemma sorted_ok {L} cfg (f : field L) : Full f -> Ascending (map fst (days f)) -> exists g, select L cfg (sortby L f) = Ok g /\ Chosen cfg f g.
Proof.
  intros HF HT. destruct (sortby_ok f HF) as (H1 & H2 & H3 & H4). rewrite <- H3 in HT. destruct (select_ok cfg _ H1 H2 HT) as (g & E & G1 & G2).
  exists g. split; [exact E|]. split; [exact G1|]. intros t lat v. rewrite G2, H4. reflexivity.
Qed.

(** ** Paths *)
Lemma length_app a b : String.length (a ++ b) = (String.length a + String.length b)%nat.
Proof. induction a as [|c a IH]; cbn; [reflexivity|]. rewrite IH. reflexivity. Qed.
Lemma app_assoc_text a b c : (a ++ b) ++ c = a ++ (b ++ c).
Proof. induction a as [|x a IH]; cbn; [reflexivity|]. rewrite IH. reflexivity. Qed.
Lemma app_split a : forall b s s', String.length s = String.length s' -> a ++ s = b ++ s' -> a = b /\ s = s'.
Proof.
  induction a as [|c a IH]; intros [|c' b] s s' HL E; cbn in E.
  - tauto.
  - apply (f_equal String.length) in E. cbn in E. rewrite length_app in E. lia.
  - apply (f_equal String.length) in E. cbn in E. rewrite length_app in E. lia.
  - injection E as -> E. destruct (IH b s s' HL E) as (-> & ->). tauto.
Qed.
Lemma app_left a s s' : a ++ s = a ++ s' -> s = s'.
Proof. induction a as [|c a IH]; cbn; [tauto|]. intro E. injection E as E. exact (IH E). Qed.
Lemma ends_iff s : ends_slash s = true <-> EndsWithSlash s.
Proof.
  unfold EndsWithSlash. induction s as [|c s IH]; [split; [discriminate|intros ([|? ?] & E); discriminate]|]. destruct s as [|c' s].
  - cbn. rewrite Ascii.eqb_eq. split; [intros ->; exists ""; reflexivity|]. intros ([|x [|y p]] & E); cbn in E; congruence.
  - change (ends_slash (String c' s) = true <-> (exists p, String c (String c' s) = p ++ "/")). rewrite IH. split.
    + intros (p & E). exists (String c p). cbn. rewrite E. reflexivity.
    + intros ([|x p] & E); cbn in E; [discriminate|]. injection E as _ E. exists p. exact E.
Qed.
Lemma join_inside dir name path : (forall rest, name <> String "/" rest) -> Inside dir name path -> path_join dir name = path.
Proof.
  intros N H. unfold path_join. assert (starts_slash name = false) as ->.
  { destruct name as [|c r]; [reflexivity|]. cbn. destruct (Ascii.eqb c "/") eqn:E; [|reflexivity]. apply Ascii.eqb_eq in E. subst. destruct (N r eq_refl). }
  destruct H as [([->|H] & ->)|(H1 & H2 & ->)].
  - reflexivity.
  - apply ends_iff in H. rewrite H, orb_true_r. reflexivity.
  - apply String.eqb_neq in H1. rewrite H1. destruct (ends_slash dir) eqn:E; [|reflexivity]. apply ends_iff in E. contradiction.
Qed.
Lemma inside_exists dir name : exists path, Inside dir name path.
Proof.
  unfold Inside. destruct (ends_slash dir) eqn:E.
  - exists (dir ++ name). left. split; [right; apply ends_iff; exact E|reflexivity].
  - destruct (String.eqb_spec dir "") as [->|N]; [exists name; left; split; [left; reflexivity|reflexivity]|].
    exists (dir ++ "/" ++ name). right. split; [exact N|]. split; [|reflexivity]. intro H. apply ends_iff in H. congruence.
Qed.
Lemma inside_neq dir n n' p p' : Inside dir n p -> Inside dir n' p' -> n <> n' -> p <> p'.
Proof.
  intros H H' N E. subst p'. apply N. destruct H as [(A & E1)|(A1 & A2 & E1)], H' as [(B & E2)|(B1 & B2 & E2)]; rewrite E1 in E2.
  - exact (app_left _ _ _ E2).
  - destruct A; contradiction.
  - destruct B; contradiction.
  - apply app_left in E2. cbn in E2. congruence.
Qed.
Lemma name_nc a b : a <> b -> a ++ ".nc" <> b ++ ".nc".
Proof. intros N E. apply (app_split a b ".nc" ".nc" eq_refl) in E. tauto. Qed.
Lemma names_low_high show cfg : low_name show cfg <> high_name show cfg.
Proof. unfold low_name, high_name. intro E. apply app_left, app_left in E. cbn in E. congruence. Qed.
Lemma names_rain m u s a b x : String.length u = 5%nat -> String.length x = 2%nat -> x <> "_P" ->
  "SpaceTimeSpectra_" ++ m ++ u ++ x ++ "_" ++ s ++ "_" ++ a ++ "spd.nc" <> "SpaceTimeSpectra_ERAI_" ++ m ++ "_P_" ++ s ++ "_" ++ b ++ "spd.nc".
Proof.
  intros HU HX N E. change ("SpaceTimeSpectra_ERAI_" ++ m ++ "_P_" ++ s ++ "_" ++ b ++ "spd.nc")
    with ("SpaceTimeSpectra_" ++ ("ERAI_" ++ m ++ "_P_" ++ s ++ "_" ++ b ++ "spd.nc")) in E. apply app_left in E.
  assert (HL : String.length a = String.length b).
  { apply (f_equal String.length) in E. repeat (rewrite length_app in E || cbn [String.length append] in E). lia. }
  replace ("ERAI_" ++ m ++ "_P_" ++ s ++ "_" ++ b ++ "spd.nc") with ((("ERAI_" ++ m) ++ "_P") ++ ("_" ++ s ++ "_" ++ b ++ "spd.nc")) in E
    by (rewrite !app_assoc_text; reflexivity).
  replace (m ++ u ++ x ++ "_" ++ s ++ "_" ++ a ++ "spd.nc") with (((m ++ u) ++ x) ++ ("_" ++ s ++ "_" ++ a ++ "spd.nc")) in E
    by (rewrite !app_assoc_text; reflexivity).
  apply app_split in E; [|repeat (rewrite length_app || cbn [String.length append]); lia].
  destruct E as (E & _). apply app_split in E; [|exact HX]. tauto.
Qed.
Lemma names_distinct show cfg : NoDup [low_name show cfg; high_name show cfg; rain_name show cfg].
Proof.
  assert (A : low_name show cfg <> rain_name show cfg).
  { exact (names_rain (model cfg) "_P_D8" (Symmetry cfg) (show (spd cfg)) (show 2%Z) "50" eq_refl eq_refl ltac:(discriminate)). }
  assert (B : high_name show cfg <> rain_name show cfg).
  { exact (names_rain (model cfg) "_P_D2" (Symmetry cfg) (show (spd cfg)) (show 2%Z) "00" eq_refl eq_refl ltac:(discriminate)). }
  pose proof (names_low_high show cfg) as G. constructor; [intros [K|[K|[]]]; congruence|]. constructor; [intros [K|[]]; congruence|]. constructor; [intros []|constructor].
Qed.
Lemma names_equal show cfg : name_850 show cfg ++ ".nc" = low_name show cfg /\ name_200 show cfg ++ ".nc" = high_name show cfg /\
  name_rain show cfg ++ ".nc" = rain_name show cfg.
Proof. unfold name_850, name_200, name_rain, low_name, high_name, rain_name. rewrite !app_assoc_text. repeat split. Qed.

(** ** Saving *)
Lemma to_int_whole k : to_int (inject_Z k) = k.
Proof. unfold to_int. cbn. apply Z.quot_1_r. Qed.
Lemma whole_map l : map to_int (map inject_Z l) = l.
Proof. induction l as [|k l IH]; cbn [map]; [reflexivity|]. rewrite to_int_whole, IH. reflexivity. Qed.
Lemma put_same {V} p c (d : disk V) : put p c d p = Some c.
Proof. unfold put. rewrite String.eqb_refl. reflexivity. Qed.
Lemma put_other {V} p c (d : disk V) q : q <> p -> put p c d q = d q.
Proof. unfold put. intro H. apply String.eqb_neq in H. rewrite H. reflexivity. Qed.
Lemma write_other {V} path (d : disk V) a f w q : q <> path -> fst (write_spectra path d a f w) q = d q.
Proof.
  intro N. unfold write_spectra. destruct (shape a) as [|n1 [|n2 [|n3 [|n4 l]]]]; try (apply put_other; exact N).
  destruct (_ && _); apply put_other; exact N.
Qed.
Lemma write_ok {V} path (d d' : disk V) a f w : write_spectra path d a f w = (d', Ok tt) ->
  exists nvar nfrq nwave, shape a = [nvar; nfrq; nwave] /\ List.length f = nfrq /\ List.length w = nwave /\
    d' path = Some (Spectra nvar nfrq nwave f (map to_int w) (map Z.of_nat (seq 0 nvar)) (values a) varnames).
Proof.
  unfold write_spectra. destruct (shape a) as [|n1 [|n2 [|n3 [|n4 l]]]]; intro E; try discriminate E.
  destruct (_ && _) eqn:B; [|discriminate E]. apply andb_true_iff in B. destruct B as (B1 & B2). apply Nat.eqb_eq in B1, B2.
  injection E as <-. exists n1, n2, n3. rewrite put_same. tauto.
Qed.
Lemma save_path {V} (d : disk V) a f w name dir path : (forall rest, name <> String "/" rest) -> Inside dir (name ++ ".nc") path ->
  save_Spectra d a f w name dir = write_spectra path d a f w.
Proof.
  intros N H. unfold save_Spectra. rewrite (join_inside dir (name ++ ".nc") path); [reflexivity| |exact H].
  intros rest E. destruct name as [|c r]; cbn in E; [discriminate|]. injection E as -> _. exact (N r eq_refl).
Qed.
Lemma cross_other {L V} mjo cfg dir per name (d : disk V) (a b : field L) q path : (forall rest, name <> String "/" rest) ->
  Inside dir (name ++ ".nc") path -> q <> path -> fst (cross_and_save L V mjo cfg dir per name d a b) q = d q.
Proof.
  intros N H Hq. unfold cross_and_save. destruct (mjo _ _ _ _) as [r|e]; [|reflexivity]. rewrite (save_path _ _ _ _ _ _ _ N H). apply write_other. exact Hq.
Qed.
Lemma cross_ok {L V} mjo cfg dir per name (d d' : disk V) (a b : field L) path : (forall rest, name <> String "/" rest) ->
  Inside dir (name ++ ".nc") path -> cross_and_save L V mjo cfg dir per name d a b = (d', Ok tt) ->
  exists r, mjo a b (nperseg cfg * spd cfg)%Z (segOverLap cfg * spd cfg)%Z = Ok r /\ Holds d' path r per.
Proof.
  intros N H E. unfold cross_and_save in E. destruct (mjo _ _ _ _) as [r|e] eqn:M; [|discriminate E]. exists r. split; [reflexivity|].
  rewrite (save_path _ _ _ _ _ _ _ N H) in E. apply write_ok in E. destruct E as (n1 & n2 & n3 & E1 & E2 & E3 & E4).
  exists n1, n2, n3. rewrite map_length in E2, E3. rewrite whole_map in E4. tauto.
Qed.
Lemma holds_same {V} (d d' : disk V) p r k : d' p = d p -> Holds d p r k -> Holds d' p r k.
Proof. intros E (a & b & c & H). exists a, b, c. rewrite E. exact H. Qed.

(** ** The program *)
Lemma no_difference a b : latitudes_differ a b = false.
Proof.
  unfold latitudes_differ. destruct (existsb _ a) eqn:E; [|reflexivity]. apply existsb_exists in E. destruct E as (x & _ & E).
  apply existsb_exists in E. destruct E as (y & _ & E). apply andb_true_iff in E. destruct E as (E1 & E2). apply Qeq_bool_iff in E1.
  apply negb_true_iff in E2. assert (x - y == 0)%Q as G by (rewrite E1; ring). apply Qeq_bool_iff in G. congruence.
Qed.
Lemma directory_iff p dir : first_path p = Ok dir <-> Directory p dir.
Proof.
  unfold Directory. split.
  - destruct p as [[|s l]|[|c s]]; cbn; intro E; try discriminate; injection E as <-; [left; exists l; reflexivity|right; exists c, s; tauto].
  - intros [(rest & ->)|(c & rest & -> & ->)]; reflexivity.
Qed.
Lemma symmetry_iff s : String.eqb s "symm" || String.eqb s "asymm" = true <-> In s ["symm"; "asymm"].
Proof. rewrite orb_true_iff, !String.eqb_eq. cbn. intuition congruence. Qed.
Lemma parts_ok {L} g cfg (x y z w X Y Z W : field L) : parts L g cfg x y z w = Ok (X, Y, Z, W) ->
  Part g (Symmetry cfg) x (lats x) X /\ Part g (Symmetry cfg) y (lats w) Y /\ Part g (Symmetry cfg) z (lats z) Z /\ Part g (Symmetry cfg) w (lats w) W.
Proof.
  unfold parts, Part. destruct (_ || _) eqn:B.
  - apply symmetry_iff in B. destruct (g x _ _) eqn:E1; [|discriminate]. destruct (g y _ _) eqn:E2; [|discriminate].
    destruct (g z _ _) eqn:E3; [|discriminate]. destruct (g w _ _) eqn:E4; [|discriminate]. cbn. intro E. injection E as <- <- <- <-. tauto.
  - intro E. injection E as <- <- <- <-. assert (~ In (Symmetry cfg) ["symm"; "asymm"]) by (rewrite <- symmetry_iff; congruence). tauto.
Qed.
Lemma times_ok {L} (f g : field L) times : sel_times L f times = Ok g -> AtTimes f times g.
Proof.
  unfold sel_times, AtTimes. destruct (mapM _ _) as [l|e] eqn:E; [|discriminate]. cbn. intro G. injection G as <-. cbn [lats days]. split; [reflexivity|].
  revert l E. induction times as [|t ts IH]; intros l E; cbn in E; [injection E as <-; constructor|].
  destruct (at_time L (days f) t) as [d|e] eqn:A; [|discriminate]. cbn in E. destruct (mapM _ ts) as [l'|e] eqn:M; [|discriminate]. cbn in E. injection E as <-.
  constructor; [|apply IH; reflexivity]. clear -A. induction (days f) as [|d' l IH]; cbn in A; [discriminate|].
  destruct (Qeq_bool (fst d') t) eqn:B; [injection A as <-; apply Qeq_bool_iff in B; split; [left; reflexivity|exact B]|].
  destruct (IH A) as (H1 & H2). split; [right; exact H1|exact H2].
Qed.
Lemma start_ok (s rest : string) : "SpaceTimeSpectra_" ++ s <> String "/" rest.
Proof. discriminate. Qed.

(** The statements of PropertiesCross.v. *)
Lemma C151_files_proof : forall L V get_symmasymm mjo_cross show cfg (z x y w : field L) (d d' : disk V) warnings,
  program L V get_symmasymm mjo_cross show cfg z x y w d = (d', warnings, Ok tt) ->
  Forall Full [z; x; y; w] -> Forall (fun f => Ascending (map fst (days f))) [z; x; y; w] -> Ascending (lats z) -> Ascending (lats x) ->
  exists dir p1 p2 p3 z' x' y' w' X Y Z W X' r1 r2 r3,
    Directory (pathout cfg) dir /\ Inside dir (low_name show cfg) p1 /\ Inside dir (high_name show cfg) p2 /\ Inside dir (rain_name show cfg) p3 /\
    Chosen cfg z z' /\ Chosen cfg x x' /\ Chosen cfg y y' /\ Chosen cfg w w' /\
    Part get_symmasymm (Symmetry cfg) x' (lats x') X /\ Part get_symmasymm (Symmetry cfg) y' (lats w') Y /\
    Part get_symmasymm (Symmetry cfg) z' (lats z') Z /\ Part get_symmasymm (Symmetry cfg) w' (lats w') W /\
    AtTimes X (map fst (days Z)) X' /\
    mjo_cross X Y (nperseg cfg * spd cfg)%Z (segOverLap cfg * spd cfg)%Z = Ok r1 /\
    mjo_cross X W (nperseg cfg * spd cfg)%Z (segOverLap cfg * spd cfg)%Z = Ok r2 /\
    mjo_cross X' Z (nperseg cfg * spd cfg)%Z (segOverLap cfg * spd cfg)%Z = Ok r3 /\
    Holds d' p1 r1 (spd cfg) /\ Holds d' p2 r2 (spd cfg) /\ Holds d' p3 r3 2 /\
    forall p, ~ In p [p1; p2; p3] -> d' p = d p.
Proof.
  intros L V g mjo show cfg z x y w d d' warnings E HF HT Hz Hx.
  assert (HF' : Full z /\ Full x /\ Full y /\ Full w) by (repeat match goal with H : Forall Full (_ :: _) |- _ => inversion H; clear H; subst end; tauto).
  assert (HT' : Ascending (map fst (days z)) /\ Ascending (map fst (days x)) /\ Ascending (map fst (days y)) /\ Ascending (map fst (days w)))
    by (clear -HT; repeat match goal with H : Forall _ (_ :: _) |- _ => inversion H; clear H; subst end; tauto).
  clear HF HT. destruct HF' as (F1 & F2 & F3 & F4). destruct HT' as (T1 & T2 & T3 & T4).
  destruct (select_ok cfg z F1 Hz T1) as (z' & Ez & Cz). destruct (select_ok cfg x F2 Hx T2) as (x' & Ex & Cx).
  destruct (sorted_ok cfg y F3 T3) as (y' & Ey & Cy). destruct (sorted_ok cfg w F4 T4) as (w' & Ew & Cw).
  unfold program in E. destruct (first_path (pathout cfg)) as [dir|e] eqn:D; [|discriminate E]. cbn [bind] in E.
  rewrite Ez, Ex, Ey, Ew in E. cbn [bind] in E. apply directory_iff in D.
  destruct (parts L g cfg x' y' z' w') as [[[[X Y] Z] W]|e] eqn:P; [|discriminate E]. apply parts_ok in P. destruct P as (P1 & P2 & P3 & P4).
  destruct (names_equal show cfg) as (N1 & N2 & N3).
  destruct (inside_exists dir (low_name show cfg)) as (p1 & I1). destruct (inside_exists dir (high_name show cfg)) as (p2 & I2).
  destruct (inside_exists dir (rain_name show cfg)) as (p3 & I3).
  assert (J1 := I1). rewrite <- N1 in J1. assert (J2 := I2). rewrite <- N2 in J2. assert (J3 := I3). rewrite <- N3 in J3.
  pose proof (names_distinct show cfg) as ND. inversion ND as [|? ? A1 ND']; subst. inversion ND' as [|? ? A2 _]; subst.
  assert (Q12 : p1 <> p2) by (apply (inside_neq _ _ _ _ _ I1 I2); intro G; apply A1; rewrite G; left; reflexivity).
  assert (Q13 : p1 <> p3) by (apply (inside_neq _ _ _ _ _ I1 I3); intro G; apply A1; rewrite G; right; left; reflexivity).
  assert (Q23 : p2 <> p3) by (apply (inside_neq _ _ _ _ _ I2 I3); intro G; apply A2; rewrite G; left; reflexivity).
  destruct (cross_and_save L V mjo cfg dir (spd cfg) (name_850 show cfg) d X Y) as [d1 [[]|e]] eqn:C1; [|discriminate E].
  destruct (cross_and_save L V mjo cfg dir (spd cfg) (name_200 show cfg) d1 X W) as [d2 [[]|e]] eqn:C2; [|discriminate E].
  destruct (sel_times L X (map fst (days Z))) as [X'|e] eqn:S3; [|discriminate E].
  destruct (cross_and_save L V mjo cfg dir 2 (name_rain show cfg) d2 X' Z) as [d3 [[]|e]] eqn:C3; [|discriminate E].
  injection E as <- _.
  destruct (cross_ok _ _ _ _ _ _ _ _ _ _ (start_ok _) J1 C1) as (r1 & M1 & H1). destruct (cross_ok _ _ _ _ _ _ _ _ _ _ (start_ok _) J2 C2) as (r2 & M2 & H2).
  destruct (cross_ok _ _ _ _ _ _ _ _ _ _ (start_ok _) J3 C3) as (r3 & M3 & H3).
  assert (O1 : forall q, q <> p1 -> d1 q = d q) by (intros q G; pose proof (cross_other mjo cfg dir (spd cfg) (name_850 show cfg) d X Y q p1 (start_ok _) J1 G) as K; rewrite C1 in K; exact K).
  assert (O2 : forall q, q <> p2 -> d2 q = d1 q) by (intros q G; pose proof (cross_other mjo cfg dir (spd cfg) (name_200 show cfg) d1 X W q p2 (start_ok _) J2 G) as K; rewrite C2 in K; exact K).
  assert (O3 : forall q, q <> p3 -> d3 q = d2 q) by (intros q G; pose proof (cross_other mjo cfg dir 2%Z (name_rain show cfg) d2 X' Z q p3 (start_ok _) J3 G) as K; rewrite C3 in K; exact K).
  exists dir, p1, p2, p3, z', x', y', w', X, Y, Z, W, X', r1, r2, r3.
  do 4 (split; [assumption|]). do 4 (split; [assumption|]). do 4 (split; [assumption|]). split; [apply times_ok; exact S3|].
  do 3 (split; [assumption|]).
  split; [apply (holds_same d1); [rewrite O3 by assumption; apply O2; assumption|exact H1]|].
  split; [apply (holds_same d2); [apply O3; assumption|exact H2]|]. split; [exact H3|].
  intros p HP. cbn in HP. rewrite O3, O2, O1 by (intro; subst; tauto). reflexivity.
Qed.

Lemma C151_files_case_proof : exists d',
  program Z Z (fun f _ _ => Ok f) example_cross (fun _ => "4") example_settings example_rain example_rain example_field example_field (fun _ => None)
    = (d', [], Ok tt) /\
  Forall Full [example_rain; example_field] /\ Forall (fun f => Ascending (map fst (days f))) [example_rain; example_field] /\
  Ascending (lats example_rain) /\
  d' "/out/SpaceTimeSpectra_GFS_P_D850_latband_4spd.nc" = Some (Spectra 1 1 1 [4 # 8]%Q [-1]%Z [0]%Z [62]%Z part_names).
Proof.
  eexists. split; [vm_compute; reflexivity|]. split; [repeat constructor|]. split; [repeat constructor; vm_compute; discriminate|].
  split; [repeat constructor; vm_compute; discriminate|]. vm_compute. reflexivity.
Qed.

Lemma C151_distinct_proof : forall show cfg dir p1 p2 p3,
  Inside dir (low_name show cfg) p1 -> Inside dir (high_name show cfg) p2 -> Inside dir (rain_name show cfg) p3 -> NoDup [p1; p2; p3].
Proof.
  intros show cfg dir p1 p2 p3 I1 I2 I3. pose proof (names_distinct show cfg) as ND. inversion ND as [|? ? A1 ND']; subst. inversion ND' as [|? ? A2 _]; subst.
  assert (Q12 : p1 <> p2) by (apply (inside_neq _ _ _ _ _ I1 I2); intro G; apply A1; rewrite G; left; reflexivity).
  assert (Q13 : p1 <> p3) by (apply (inside_neq _ _ _ _ _ I1 I3); intro G; apply A1; rewrite G; right; left; reflexivity).
  assert (Q23 : p2 <> p3) by (apply (inside_neq _ _ _ _ _ I2 I3); intro G; apply A2; rewrite G; left; reflexivity).
  constructor; [intros [K|[K|[]]]; congruence|]. constructor; [intros [K|[]]; congruence|]. constructor; [intros []|constructor].
Qed.

Lemma C151_distinct_case_proof : Inside "/out" (low_name (fun _ => "4") example_settings) "/out/SpaceTimeSpectra_GFS_P_D850_latband_4spd.nc".
Proof.
  right. split; [discriminate|]. split; [|reflexivity]. intro H. apply ends_iff in H. discriminate H.
Qed.

Lemma C151_order_proof : forall L V get_symmasymm mjo_cross show cfg (z x y w : field L) (d d' : disk V) warnings r dir p1 p2 p3,
  program L V get_symmasymm mjo_cross show cfg z x y w d = (d', warnings, r) ->
  Directory (pathout cfg) dir -> Inside dir (low_name show cfg) p1 -> Inside dir (high_name show cfg) p2 -> Inside dir (rain_name show cfg) p3 ->
  (forall p, d' p <> d p -> In p [p1; p2; p3]) /\
  (d' p2 <> d p2 -> Finished d' p1) /\ (d' p3 <> d p3 -> Finished d' p1 /\ Finished d' p2) /\
  (r = Ok tt -> Finished d' p1 /\ Finished d' p2 /\ Finished d' p3).
Proof.
  intros L V g mjo show cfg z x y w d d' warnings r dir p1 p2 p3 E D I1 I2 I3.
  pose proof (C151_distinct_proof show cfg dir p1 p2 p3 I1 I2 I3) as ND.
  assert (Q12 : p1 <> p2) by (inversion ND as [|? ? G _]; subst; intros ->; apply G; left; reflexivity).
  assert (Q13 : p1 <> p3) by (inversion ND as [|? ? G _]; subst; intros ->; apply G; right; left; reflexivity).
  assert (Q23 : p2 <> p3) by (inversion ND as [|? ? _ G']; subst; inversion G' as [|? ? G _]; subst; intros ->; apply G; left; reflexivity).
  destruct (names_equal show cfg) as (N1 & N2 & N3). rewrite <- N1 in I1. rewrite <- N2 in I2. rewrite <- N3 in I3.
  assert (None_ : forall ws rr, (d, ws, rr) = (d', warnings, r) -> rr <> Ok tt ->
    (forall p, d' p <> d p -> In p [p1; p2; p3]) /\ (d' p2 <> d p2 -> Finished d' p1) /\ (d' p3 <> d p3 -> Finished d' p1 /\ Finished d' p2) /\
    (r = Ok tt -> Finished d' p1 /\ Finished d' p2 /\ Finished d' p3)).
  { intros ws rr G NR. injection G as <- _ <-. repeat split; intros; exfalso; (contradiction || congruence). }
  apply directory_iff in D. unfold program in E. rewrite D in E. cbn [bind] in E.
  destruct (select L cfg z) as [z'|e]; [|apply (None_ _ _ E); discriminate]. cbn [bind] in E.
  destruct (select L cfg x) as [x'|e]; [|apply (None_ _ _ E); discriminate]. cbn [bind] in E.
  destruct (select L cfg (sortby L y)) as [y'|e]; [|apply (None_ _ _ E); discriminate]. cbn [bind] in E.
  destruct (select L cfg (sortby L w)) as [w'|e]; [|apply (None_ _ _ E); discriminate]. cbn [bind] in E.
  destruct (parts L g cfg x' y' z' w') as [[[[X Y] Z] W]|e]; [|apply (None_ _ _ E); discriminate]. clear None_.
  pose proof (fun q => cross_other mjo cfg dir (spd cfg) (name_850 show cfg) d X Y q p1 (start_ok _) I1) as O1.
  destruct (cross_and_save L V mjo cfg dir (spd cfg) (name_850 show cfg) d X Y) as [d1 r1] eqn:C1. cbn [fst] in O1.
  destruct r1 as [[]|e].
  2:{ injection E as <- _ <-. split; [|split; [|split]].
      - intros p G. destruct (string_dec p p1) as [->|N]; [left; reflexivity|]. destruct (G (O1 p N)).
      - intro G. destruct (G (O1 p2 (fun K => Q12 (eq_sym K)))).
      - intro G. destruct (G (O1 p3 (fun K => Q13 (eq_sym K)))).
      - discriminate. }
  destruct (cross_ok _ _ _ _ _ _ _ _ _ _ (start_ok _) I1 C1) as (s1 & _ & H1).
  pose proof (fun q => cross_other mjo cfg dir (spd cfg) (name_200 show cfg) d1 X W q p2 (start_ok _) I2) as O2.
  destruct (cross_and_save L V mjo cfg dir (spd cfg) (name_200 show cfg) d1 X W) as [d2 r2] eqn:C2. cbn [fst] in O2.
  assert (K1 : Holds d2 p1 s1 (spd cfg)) by (apply (holds_same d1); [apply O2; exact Q12|exact H1]).
  assert (Two : forall p, d2 p <> d p -> In p [p1; p2; p3]).
  { intros p G. destruct (string_dec p p1) as [->|A]; [left; reflexivity|]. destruct (string_dec p p2) as [->|B]; [right; left; reflexivity|].
    exfalso. apply G. rewrite (O2 p B). exact (O1 p A). }
  assert (Third : d2 p3 = d p3) by (rewrite (O2 p3 (fun K => Q23 (eq_sym K))); exact (O1 p3 (fun K => Q13 (eq_sym K)))).
  destruct r2 as [[]|e].
  2:{ injection E as <- _ <-. split; [exact Two|]. split; [intros _; exists s1, (spd cfg); exact K1|]. split; [intro G; destruct (G Third)|discriminate]. }
  destruct (cross_ok _ _ _ _ _ _ _ _ _ _ (start_ok _) I2 C2) as (s2 & _ & H2).
  destruct (sel_times L X (map fst (days Z))) as [X'|e].
  2:{ injection E as <- _ <-. split; [exact Two|]. split; [intros _; exists s1, (spd cfg); exact K1|]. split; [intro G; destruct (G Third)|discriminate]. }
  pose proof (fun q => cross_other mjo cfg dir 2%Z (name_rain show cfg) d2 X' Z q p3 (start_ok _) I3) as O3.
  destruct (cross_and_save L V mjo cfg dir 2 (name_rain show cfg) d2 X' Z) as [d3 r3] eqn:C3. cbn [fst] in O3. injection E as <- _ <-.
  assert (F1 : Finished d3 p1) by (exists s1, (spd cfg); apply (holds_same d2); [apply O3; exact Q13|exact K1]).
  assert (F2 : Finished d3 p2) by (exists s2, (spd cfg); apply (holds_same d2); [apply O3; exact Q23|exact H2]).
  split; [|split; [|split]].
  - intros p G. destruct (string_dec p p3) as [->|A]; [right; right; left; reflexivity|]. rewrite (O3 p A) in G. exact (Two p G).
  - intros _. exact F1.
  - intros _. split; assumption.
  - intros ->. split; [exact F1|]. split; [exact F2|]. destruct (cross_ok _ _ _ _ _ _ _ _ _ _ (start_ok _) I3 C3) as (s3 & _ & H3). exists s3, 2%Z. exact H3.
Qed.

Lemma C151_order_case_proof : exists d',
  program Z Z (fun f _ _ => Ok f) (fun a b n s => if Nat.eqb (List.length (lats b)) 0 then Err ValueError else example_cross a b n s) (fun _ => "4")
    example_settings example_rain example_rain example_field (Field [40; 30]%Q []) (fun _ => None) = (d', [], Err ValueError) /\
  d' "/out/SpaceTimeSpectra_GFS_P_D850_latband_4spd.nc" <> None /\ d' "/out/SpaceTimeSpectra_GFS_P_D200_latband_4spd.nc" = None.
Proof.
  eexists. split; [vm_compute; reflexivity|]. split; vm_compute; [discriminate|reflexivity].
Qed.

Lemma C151_warning_refuted_proof : forall L V get_symmasymm mjo_cross show cfg (z x y w : field L) (d d' : disk V) warnings r,
  program L V get_symmasymm mjo_cross show cfg z x y w d = (d', warnings, r) -> warnings = [].
Proof.
  intros L V g mjo show cfg z x y w d d' warnings r E. unfold program in E.
  repeat match type of E with
  | context [latitudes_differ ?a ?b] => rewrite (no_difference a b) in E
  | (match ?t with _ => _ end) = _ => destruct t
  | (let (_, _) := ?t in _) = _ => destruct t
  end; injection E; congruence.
Qed.

Lemma C151_warning_case_proof : exists d',
  program Z Z (fun f _ _ => Ok f) example_cross (fun _ => "4") example_settings example_rain example_rain example_field
    (Field [5; -5]%Q (days example_field)) (fun _ => None) = (d', [], Ok tt).
Proof.
  eexists. vm_compute. reflexivity.
Qed.

Lemma C151_descending_refuted_proof : forall L V get_symmasymm mjo_cross show cfg (z x y w : field L) (d : disk V) dir e,
  Directory (pathout cfg) dir -> Forall (fun f => Ascending (map fst (days f))) [z; x; y; w] -> Ascending (lats z) ->
  Descending (lats x) -> (2 <= List.length (lats x))%nat -> (latMin cfg < latMax cfg)%Q -> In (Symmetry cfg) ["symm"; "asymm"] ->
  (forall f s, get_symmasymm f [] s = Err e) ->
  program L V get_symmasymm mjo_cross show cfg z x y w d = (d, [], Err e).
Proof.
  intros L V g mjo show cfg z x y w d dir e D HT Hz Hx HN HL HS HG.
  assert (HT' : Ascending (map fst (days z)) /\ Ascending (map fst (days x)) /\ Ascending (map fst (days y)) /\ Ascending (map fst (days w)))
    by (clear -HT; repeat match goal with H : Forall _ (_ :: _) |- _ => inversion H; clear H; subst end; tauto).
  destruct HT' as (T1 & T2 & T3 & T4). apply directory_iff in D. unfold program. rewrite D. cbn [bind].
  assert (Sx : slice (latMin cfg) (latMax cfg) (lats x) = Ok (map (fun _ => false) (lats x))).
  { unfold slice. assert (ordered Qle_bool (lats x) = false) as ->.
    { destruct (lats x) as [|a [|b l]]; cbn in HN; try lia. inversion Hx as [|? ? _ H]; subst. inversion H as [|? ? H1 _]; subst. cbn.
      destruct (Qle_bool a b) eqn:B; [|reflexivity]. apply Qle_bool_iff in B. destruct (Qlt_not_le _ _ H1 B). }
    assert (ordered (fun a b => Qle_bool b a) (lats x) = true) as ->.
    { clear -Hx. unfold Descending in Hx. induction Hx as [|a l H1 IH H2]; [reflexivity|]. destruct l as [|b l]; [reflexivity|].
      change (Qle_bool b a && ordered (fun a b => Qle_bool b a) (b :: l) = true). rewrite IH. inversion H2 as [|? ? H3 _]; subst.
      apply Qlt_le_weak, Qle_bool_iff in H3. rewrite H3. reflexivity. }
    f_equal. apply map_ext. intro k. destruct (between (latMax cfg) (latMin cfg) k) eqn:B; [|reflexivity]. apply between_iff in B. destruct B as (B1 & B2).
    destruct (Qlt_not_le _ _ HL (Qle_trans _ _ _ B1 B2)). }
  assert (take_none : forall A (l : list Q) (k : list A), take (map (fun _ => false) l) k = []).
  { intros A l. induction l as [|a l IH]; intros [|b k]; cbn; try reflexivity. apply IH. }
  unfold select at 1. rewrite (slice_up _ _ _ Hz), (slice_up _ _ _ T1). cbn [bind].
  unfold select at 1. rewrite Sx, (slice_up _ _ _ T2). cbn [bind].
  assert (Sy : forall f : field L, Ascending (map fst (days f)) -> exists g', select L cfg (sortby L f) = Ok g').
  { intros f Tf. unfold select. rewrite slice_up by apply by_key_sorted. cbn [bind sortby days]. rewrite map_map. cbn [fst].
    rewrite (slice_up _ _ _ Tf). cbn [bind]. eexists. reflexivity. }
  destruct (Sy y T3) as (y' & ->). destruct (Sy w T4) as (w' & ->). cbn [bind]. rewrite no_difference. unfold parts.
  apply symmetry_iff in HS. rewrite HS. cbn [lats]. rewrite take_none, HG. reflexivity.
Qed.

Lemma C151_descending_case_proof : Descending (lats example_field) /\ (2 <= List.length (lats example_field))%nat /\
  Directory (pathout example_settings) "/out".
Proof.
  split; [repeat constructor|]. split; [cbn; lia|]. left. exists []. reflexivity.
Qed.

Lemma C151_path_refuted_proof : forall L V get_symmasymm mjo_cross show cfg cfg' (z x y w : field L) (d : disk V) c rest,
  pathout cfg = Text (String c rest) ->
  cfg' = Settings (Texts [String c ""]) (model cfg) (spd cfg) (nperseg cfg) (segOverLap cfg) (Symmetry cfg) (latMin cfg) (latMax cfg) (datestrt cfg) (datelast cfg) ->
  program L V get_symmasymm mjo_cross show cfg z x y w d = program L V get_symmasymm mjo_cross show cfg' z x y w d.
Proof.
  intros L V g mjo show cfg cfg' z x y w d c rest E ->. destruct cfg as [po mo sp np so sy l1 l2 t1 t2]. cbn in E. subst po. reflexivity.
Qed.

Lemma C151_path_case_proof : exists d',
  program Z Z (fun f _ _ => Ok f) example_cross (fun _ => "4") (Settings (Text "/out") "GFS" 4 15 (-5) "latband" (-15) 15 0 1)
    example_rain example_rain example_field example_field (fun _ => None) = (d', [], Ok tt) /\
  d' "/SpaceTimeSpectra_GFS_P_D850_latband_4spd.nc" <> None /\ d' "/out/SpaceTimeSpectra_GFS_P_D850_latband_4spd.nc" = None.
Proof.
  eexists. split; [vm_compute; reflexivity|]. split; vm_compute; [discriminate|reflexivity].
Qed.

Lemma C152_saved_proof : forall V (d : disk V) nvar nfrq nwave stc freqs waves name dir path,
  List.length freqs = nfrq -> List.length waves = nwave -> (forall rest, name <> String "/" rest) -> Inside dir (name ++ ".nc") path ->
  exists d', save_Spectra d (Array [nvar; nfrq; nwave] stc) freqs (map inject_Z waves) name dir = (d', Ok tt) /\
    d' path = Some (Spectra nvar nfrq nwave freqs waves (map Z.of_nat (seq 0 nvar)) stc part_names) /\ forall p, p <> path -> d' p = d p.
Proof.
  intros V d nvar nfrq nwave stc freqs waves name dir path HF HW N H. rewrite (save_path _ _ _ _ _ _ _ N H). unfold write_spectra. cbn [shape values].
  rewrite map_length, HF, HW, !Nat.eqb_refl. cbn [andb]. eexists. split; [reflexivity|]. rewrite put_same, whole_map. split; [reflexivity|].
  intros p G. apply put_other. exact G.
Qed.

Lemma C152_saved_case_proof : (forall rest, "x" <> String "/" rest) /\ Inside "/out/" ("x" ++ ".nc") "/out/x.nc".
Proof.
  split; [discriminate|]. left. split; [right; exists "/out"; reflexivity|reflexivity].
Qed.

Lemma C152_cut_refuted_proof : forall V (d d' : disk V) nvar nfrq stc freqs q name dir path,
  save_Spectra d (Array [nvar; nfrq; 1%nat] stc) freqs [q] name dir = (d', Ok tt) -> (forall rest, name <> String "/" rest) ->
  Inside dir (name ++ ".nc") path -> exists k, d' path = Some (Spectra nvar nfrq 1 freqs [k] (map Z.of_nat (seq 0 nvar)) stc part_names) /\
    (0 <= q -> inject_Z k <= q < inject_Z k + 1)%Q /\ (q <= 0 -> inject_Z k - 1 < q <= inject_Z k)%Q.
Proof.
  intros V d d' nvar nfrq stc freqs q name dir path E N H. rewrite (save_path _ _ _ _ _ _ _ N H) in E. apply write_ok in E.
  destruct E as (n1 & n2 & n3 & E1 & _ & _ & E4). cbn in E1. injection E1 as <- <- <-. exists (to_int q). split; [exact E4|].
  unfold to_int. destruct q as [n m]. cbn [Qnum Qden]. unfold Qle, Qlt, Qplus, Qminus, Qopp, inject_Z. cbn.
  pose proof (Z.quot_rem' n (Z.pos m)) as QR. split; intro G.
  - assert (0 <= n)%Z by lia. pose proof (Z.rem_bound_pos n (Z.pos m) ltac:(lia) ltac:(lia)). rewrite !Pos.mul_1_r || idtac. lia.
  - assert (n <= 0)%Z by lia. pose proof (Z.rem_bound_pos (- n) (Z.pos m) ltac:(lia) ltac:(lia)) as B. rewrite Z.rem_opp_l' in B. lia.
Qed.

Lemma C152_cut_case_proof : exists d', save_Spectra (fun _ => None) (Array [0; 0; 1]%nat (@nil Z)) [] [-3 # 2]%Q "x" "" = (d', Ok tt) /\
  d' "x.nc" = Some (Spectra 0 0 1 [] [-1]%Z [] [] part_names).
Proof.
  eexists. split; [vm_compute; reflexivity|]. vm_compute. reflexivity.
Qed.

Lemma C152_lost_refuted_proof : forall V (d : disk V) stc freqs waves name dir path,
  List.length (shape stc) <> 3%nat -> (forall rest, name <> String "/" rest) -> Inside dir (name ++ ".nc") path ->
  exists d', save_Spectra d stc freqs waves name dir = (d', Err ValueError) /\ d' path = Some Unfinished.
Proof.
  intros V d stc freqs waves name dir path HL N H. rewrite (save_path _ _ _ _ _ _ _ N H). unfold write_spectra.
  destruct (shape stc) as [|n1 [|n2 [|n3 [|n4 l]]]]; try (destruct (HL eq_refl)); eexists; (split; [reflexivity|apply put_same]).
Qed.

Lemma C152_lost_case_proof : List.length (shape (Array [2; 2]%nat [1; 2; 3; 4]%Z)) <> 3%nat.
Proof.
  discriminate.
Qed.

Lemma C152_places_refuted_proof : forall V (d : disk V) nvar nfrq nwave stc freqs waves name dir path,
  List.length freqs = nfrq -> List.length waves = nwave -> (forall rest, name <> String "/" rest) -> Inside dir (name ++ ".nc") path ->
  let here := save_Spectra d (Array [nvar; nfrq; nwave] stc) freqs waves name dir in
  let there := save_Spectra_diagnostics d (Array [nvar; nfrq; nwave] stc) freqs waves name dir in
  (dir = "" \/ EndsWithSlash dir -> there = here) /\
  (dir <> "" -> ~ EndsWithSlash dir -> snd there = Ok tt /\ fst there path = d path /\ fst there (dir ++ name ++ ".nc") = fst here path).
Proof.
  intros V d nvar nfrq nwave stc freqs waves name dir path HF HW N H here there. subst here there. rewrite (save_path _ _ _ _ _ _ _ N H).
  unfold save_Spectra_diagnostics. split.
  - intro G. destruct H as [(_ & ->)|(H1 & H2 & _)]; [reflexivity|]. destruct G; contradiction.
  - intros G1 G2. destruct H as [([G|G] & _)|(_ & _ & ->)]; [contradiction|contradiction|].
    assert (P : dir ++ "/" ++ name ++ ".nc" <> dir ++ name ++ ".nc").
    { intro E. apply app_left in E. apply (f_equal String.length) in E. rewrite !length_app in E. cbn in E. lia. }
    split; [|split].
    + unfold write_spectra. cbn [shape]. rewrite HF, HW, !Nat.eqb_refl. reflexivity.
    + apply write_other. exact P.
    + unfold write_spectra. cbn [shape]. rewrite HF, HW, !Nat.eqb_refl. cbn [andb fst]. rewrite !put_same. reflexivity.
Qed.

Lemma C152_places_case_proof : "/out" <> "" /\ ~ EndsWithSlash "/out" /\ Inside "/out" ("x" ++ ".nc") "/out/x.nc".
Proof.
  assert (E : ~ EndsWithSlash "/out") by (intro H; apply ends_iff in H; discriminate H).
  split; [discriminate|]. split; [exact E|]. right. split; [discriminate|]. split; [exact E|reflexivity].
Qed.

