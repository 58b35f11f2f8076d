(** Proofs about settings from the environment. *)
From Coq Require Import List ZArith String Ascii Lia Bool.
From Verif Require Import PyBase ColumnModel EventModel EventProofs EqzProofs DriveProofs SumDriveProofs SettingsModel SettingsSpec.
Import ListNotations.
Open Scope string_scope.
Open Scope Z_scope.

(** Digits and spaces. *)
Lemma digit_iff c z : digit c = Some z <-> exists k, nth_error Decimals k = Some c /\ z = Z.of_nat k.
Proof.
  split.
  - destruct c as [b0 b1 b2 b3 b4 b5 b6 b7].
    destruct b0, b1, b2, b3, b4, b5, b6, b7; vm_compute; intros E; try discriminate; injection E as <-;
    (exists 0%nat; split; reflexivity) || (exists 1%nat; split; reflexivity) || (exists 2%nat; split; reflexivity) || (exists 3%nat; split; reflexivity)
    || (exists 4%nat; split; reflexivity) || (exists 5%nat; split; reflexivity) || (exists 6%nat; split; reflexivity)
    || (exists 7%nat; split; reflexivity) || (exists 8%nat; split; reflexivity) || (exists 9%nat; split; reflexivity).
  - intros (k & E & ->). do 10 (destruct k as [|k]; [injection E as <-; reflexivity|]). destruct k; discriminate.
Qed.
Lemma blank_iff c : blank c = true <-> Blank c.
Proof.
  unfold Blank. destruct c as [b0 b1 b2 b3 b4 b5 b6 b7].
  destruct b0, b1, b2, b3, b4, b5, b6, b7; vm_compute; split; intros E; try discriminate; auto 8; try reflexivity;
  exfalso; repeat (destruct E as [E|E]; [discriminate|]); exact E.
Qed.
Lemma blank_not c : blank c = true -> digit c = None /\ Ascii.eqb c "_" = false /\ Ascii.eqb c "+" = false /\ Ascii.eqb c "-" = false.
Proof.
  destruct c as [b0 b1 b2 b3 b4 b5 b6 b7].
  destruct b0, b1, b2, b3, b4, b5, b6, b7; vm_compute; intros E; try discriminate; repeat split; reflexivity.
Qed.
Lemma digit_not c d : digit c = Some d -> blank c = false /\ Ascii.eqb c "_" = false /\ Ascii.eqb c "+" = false /\ Ascii.eqb c "-" = false.
Proof.
  destruct c as [b0 b1 b2 b3 b4 b5 b6 b7].
  destruct b0, b1, b2, b3, b4, b5, b6, b7; vm_compute; intros E; try discriminate; repeat split; reflexivity.
Qed.

(** What the number starts with. *)
Lemma digits_first l v : Digits l v -> exists c d rest, l = c :: rest /\ digit c = Some d.
Proof.
  induction 1 as [c k E|l v c k _ IH E|l v c k _ IH E].
  - exists c, (Z.of_nat k), []. split; [reflexivity|]. apply digit_iff. eauto.
  - destruct IH as (c0 & d & rest & -> & D). exists c0, d, (rest ++ [c])%list. auto.
  - destruct IH as (c0 & d & rest & -> & D). exists c0, d, (rest ++ ["_"%char; c])%list. auto.
Qed.
Lemma number_digits l v : Digits l v -> forall tail, number (l ++ tail) = scan tail v false.
Proof.
  induction 1 as [c k E|l v c k D IH E|l v c k D IH E]; intros tail.
  - cbn [app number]. assert (digit c = Some (Z.of_nat k)) as -> by (apply digit_iff; eauto). reflexivity.
  - rewrite <- app_assoc, IH. cbn [app scan]. assert (digit c = Some (Z.of_nat k)) as -> by (apply digit_iff; eauto). reflexivity.
  - rewrite <- app_assoc, IH. cbn [app scan]. assert (digit "_" = None) as -> by reflexivity. cbn [Ascii.eqb Bool.eqb].
    assert (digit c = Some (Z.of_nat k)) as -> by (apply digit_iff; eauto). reflexivity.
Qed.
Lemma scan_digits l : forall v underscore w rest, scan l v underscore = Some (w, rest) -> forall body, Digits body v ->
  exists body', (body ++ (if underscore then ["_"%char] else []) ++ l = body' ++ rest)%list /\ Digits body' w.
Proof.
  induction l as [|c l IH]; intros v underscore w rest E body D; cbn [scan] in E.
  - destruct underscore; [discriminate|]. injection E as <- <-. exists body. auto.
  - destruct (digit c) as [d|] eqn:G.
    + apply digit_iff in G. destruct G as (k & G & ->). destruct underscore.
      * destruct (IH _ _ _ _ E _ (AfterUnderscore _ _ _ _ D G)) as (body' & Q & D'). exists body'. split; [|exact D'].
        rewrite <- Q. cbn [app]. rewrite <- app_assoc. reflexivity.
      * destruct (IH _ _ _ _ E _ (NextDigit _ _ _ _ D G)) as (body' & Q & D'). exists body'. split; [|exact D'].
        rewrite <- Q. cbn [app]. rewrite <- app_assoc. reflexivity.
    + destruct (Ascii.eqb_spec c "_") as [->|N].
      * destruct underscore; [discriminate|]. exact (IH _ _ _ _ E _ D).
      * destruct underscore; [discriminate|]. injection E as <- <-. exists body. auto.
Qed.
Lemma number_inv l v rest : number l = Some (v, rest) -> exists body, (l = body ++ rest)%list /\ Digits body v.
Proof.
  destruct l as [|c l]; cbn [number]; [discriminate|]. destruct (digit c) as [d|] eqn:G; [|discriminate]. intros E.
  apply digit_iff in G. destruct G as (k & G & ->).
  destruct (scan_digits _ _ _ _ _ E _ (FirstDigit _ _ G)) as (body & Q & D). exists body. split; [exact Q|exact D].
Qed.
Lemma scan_blank after v : Forall Blank after -> scan after v false = Some (v, after).
Proof.
  destruct 1 as [|c l B _]; [reflexivity|]. apply blank_iff in B. destruct (blank_not _ B) as (D & U & _). cbn [scan]. now rewrite D, U.
Qed.
Lemma skip_all l : skip_blanks l = [] <-> Forall Blank l.
Proof.
  induction l as [|c l IH]; cbn [skip_blanks]; [split; auto|]. destruct (blank c) eqn:B.
  - rewrite IH. split; intros F; [constructor; [now apply blank_iff|exact F]|now inversion F].
  - split; [discriminate|]. intros F. inversion F as [|? ? X Y]; subst. apply blank_iff in X. congruence.
Qed.
Lemma skip_split l : exists before, (l = before ++ skip_blanks l)%list /\ Forall Blank before.
Proof.
  induction l as [|c l (b & Q & F)]; [exists []; auto|]. cbn [skip_blanks]. destruct (blank c) eqn:B.
  - exists (c :: b). split; [now rewrite <- app_comm_cons, <- Q|]. constructor; [now apply blank_iff|exact F].
  - exists []. auto.
Qed.
Lemma skip_before before c l : Forall Blank before -> blank c = false -> skip_blanks (before ++ c :: l) = c :: l.
Proof.
  intros F B. induction F as [|x b X _ IH]; cbn [app skip_blanks]; [now rewrite B|]. apply blank_iff in X. now rewrite X.
Qed.

(** [int] reads what is spelled. *)
Lemma int_iff text z : int_of text = Ok z <-> Spells text z.
Proof.
  unfold int_of, Spells. set (l := list_ascii_of_string text). split.
  - destruct (skip_split l) as (before & Q & B). destruct (signed (skip_blanks l)) as [[v rest]|] eqn:E; [|discriminate].
    destruct (skip_blanks rest) as [|x y] eqn:K; [|discriminate]. intros H. injection H as <-. apply skip_all in K.
    destruct (skip_blanks l) as [|c s]; cbn [signed] in E; [discriminate|].
    destruct (Ascii.eqb_spec c "+") as [->|N1].
    + apply number_inv in E. destruct E as (body & -> & D). exists before, ["+"%char], body, rest, v. repeat split; auto.
    + destruct (Ascii.eqb_spec c "-") as [->|N2].
      * destruct (number s) as [[w r]|] eqn:E'; [|discriminate]. injection E as <- <-. apply number_inv in E'. destruct E' as (body & -> & D).
        exists before, ["-"%char], body, r, w. repeat split; auto.
      * apply number_inv in E. destruct E as (body & E & D). exists before, [], body, rest, v. rewrite <- E. repeat split; auto.
  - intros (before & sign & body & after & v & -> & B & A & D & G).
    destruct (digits_first _ _ D) as (c & d & r & Q & C). destruct (digit_not _ _ C) as (C1 & C2 & C3 & C4).
    destruct G as [(-> & ->)|[(-> & ->)|(-> & ->)]].
    + rewrite Q. cbn [app]. rewrite skip_before by assumption. cbn [signed]. rewrite C3, C4.
      change (c :: (r ++ after)%list) with ((c :: r) ++ after)%list. rewrite <- Q, (number_digits _ _ D), (scan_blank _ _ A).
      apply skip_all in A. now rewrite A.
    + cbn [app]. rewrite skip_before by (assumption || reflexivity). cbn [signed]. rewrite Ascii.eqb_refl, (number_digits _ _ D), (scan_blank _ _ A).
      apply skip_all in A. now rewrite A.
    + cbn [app]. rewrite skip_before by (assumption || reflexivity). cbn [signed]. change (Ascii.eqb "-" "+") with false. cbn [Ascii.eqb Bool.eqb].
      rewrite (number_digits _ _ D), (scan_blank _ _ A). apply skip_all in A. now rewrite A.
Qed.
Lemma int_err text e : int_of text = Err e -> e = ValueError.
Proof.
  unfold int_of. destruct (signed _) as [[v r]|]; [destruct (skip_blanks r)|]; congruence.
Qed.
Lemma int_refused text : int_of text = Err ValueError <-> forall z, ~ Spells text z.
Proof.
  split.
  - intros E z S. apply int_iff in S. congruence.
  - intros N. destruct (int_of text) as [z|e] eqn:E; [exfalso; exact (N z (proj1 (int_iff _ _) E))|]. now rewrite (int_err _ _ E).
Qed.

(** Settings. *)
Lemma get_iff environ name default v : get environ name default = v <-> TextSetting environ name default v.
Proof.
  unfold get, TextSetting. destruct (environ name) as [t|].
  - split; [intros ->; auto|]. intros [E|[E _]]; congruence.
  - split; [intros <-; auto|]. intros [E|[_ ->]]; congruence.
Qed.
Lemma get_int_iff environ name default z : get_int environ name default = Ok z <-> NumberSetting environ name default z.
Proof.
  unfold get_int, NumberSetting. destruct (environ name) as [t|].
  - rewrite int_iff. split; [intros H; left; eauto|]. intros [(t' & E & S)|[E _]]; congruence.
  - split; [intros E; injection E as <-; auto|]. intros [(t' & E & _)|[_ ->]]; congruence.
Qed.
Lemma get_int_err environ name default e : get_int environ name default = Err e ->
  e = ValueError /\ exists text, environ name = Some text /\ forall z, ~ Spells text z.
Proof.
  unfold get_int. destruct (environ name) as [t|]; [|discriminate]. intros E. pose proof (int_err _ _ E) as ->. split; [reflexivity|].
  exists t. split; [reflexivity|]. now apply int_refused.
Qed.
Lemma get_int_bad environ name default text : environ name = Some text -> (forall z, ~ Spells text z) -> get_int environ name default = Err ValueError.
Proof. intros E N. unfold get_int. rewrite E. now apply int_refused. Qed.
Lemma parts_iff sep text parts : split_on sep text = parts <-> PartsBy sep text parts.
Proof.
  split.
  - intros <-. split; [apply split_on_ne|]. split; [symmetry; apply concat_split|].
    apply Forall_forall. intros m I. exact (split_free _ _ _ I).
  - intros (N & -> & F). apply split_joined; assumption.
Qed.
Lemma mapM_int texts zs : mapM int_of texts = Ok zs <-> Forall2 Spells texts zs.
Proof.
  revert zs. induction texts as [|t texts IH]; intros zs; cbn [mapM].
  - split; [intros E; injection E as <-; constructor|]. intros F. now inversion F.
  - destruct (int_of t) as [z|e] eqn:E; cbn [bind].
    + destruct (mapM int_of texts) as [ys|e] eqn:M; cbn [bind].
      * split.
        -- intros Q. injection Q as <-. constructor; [now apply int_iff|]. now apply IH.
        -- intros F. inversion F as [|? ? ? ? S F']; subst. apply int_iff in S. apply IH in F'. congruence.
      * split; [discriminate|]. intros F. inversion F as [|? ? ? ? S F']; subst. apply IH in F'. congruence.
    + split; [discriminate|]. intros F. inversion F as [|? ? ? ? S F']; subst. apply int_iff in S. congruence.
Qed.
Lemma mapM_int_err texts e : mapM int_of texts = Err e -> e = ValueError /\ exists t, In t texts /\ forall z, ~ Spells t z.
Proof.
  induction texts as [|t texts IH]; cbn [mapM]; [discriminate|]. destruct (int_of t) as [z|e'] eqn:E; cbn [bind].
  - destruct (mapM int_of texts) as [ys|e''] eqn:M; cbn [bind]; [discriminate|]. intros Q. injection Q as ->. destruct (IH eq_refl) as (-> & t' & I & N).
    split; [reflexivity|]. exists t'. split; [now right|exact N].
  - intros Q. injection Q as ->. pose proof (int_err _ _ E) as ->. split; [reflexivity|]. exists t. split; [now left|]. now apply int_refused.
Qed.
Lemma mapM_int_bad texts t : In t texts -> (forall z, ~ Spells t z) -> mapM int_of texts = Err ValueError.
Proof.
  intros I N. destruct (mapM int_of texts) as [zs|e] eqn:E.
  - exfalso. apply mapM_int in E. revert I. induction E as [|x z xs zs' S _ IH]; intros I; [easy|]. destruct I as [->|I]; [exact (N z S)|auto].
  - now rewrite (proj1 (mapM_int_err _ _ E)).
Qed.
Lemma numbers_iff environ name default zs : mapM int_of (split_on "," (get environ name default)) = Ok zs <-> NumbersSetting environ name default zs.
Proof.
  rewrite mapM_int. unfold NumbersSetting. split.
  - intros F. exists (get environ name default), (split_on "," (get environ name default)).
    split; [now apply get_iff|]. split; [now apply parts_iff|exact F].
  - intros (text & parts & T & P & F). apply get_iff in T. apply parts_iff in P. now rewrite T, P.
Qed.
Lemma even_mod z : (z mod 2 =? 0) = Z.even z.
Proof. rewrite Zeven_mod. unfold Zeq_bool. destruct (Z.eqb_spec (z mod 2) 0) as [->|N]; [reflexivity|]. symmetry. destruct (Z.compare_spec (z mod 2) 0); congruence. Qed.
Lemma odd_iff z : (z mod 2 =? 0) = false <-> Z.Odd z.
Proof. rewrite even_mod, <- Z.odd_spec, <- Z.negb_even. destruct (Z.even z); cbn; split; congruence. Qed.
Lemma even_iff z : (z mod 2 =? 0) = true <-> Z.Even z.
Proof. rewrite even_mod. apply Z.even_spec. Qed.

(** Names of variables: a label and one of the endings. *)
Fixpoint ends (s t : string) : bool := String.eqb s t || match t with String _ t' => ends s t' | EmptyString => false end.
Lemma append_ends a s : ends s (a ++ s) = true.
Proof.
  induction a as [|c a IH]; cbn [append].
  - destruct s; cbn [ends]; now rewrite String.eqb_refl.
  - cbn [ends]. rewrite IH. apply orb_true_r.
Qed.
Lemma append_same a : forall b s s', a ++ s = b ++ s' -> (exists p, s = p ++ s') \/ (exists p, s' = p ++ s).
Proof.
  induction a as [|c a IH]; intros b s s' E.
  - left. exists b. exact E.
  - destruct b as [|c' b]; cbn [append] in E.
    + right. exists (String c a). now rewrite <- E.
    + injection E as _ E. exact (IH _ _ _ E).
Qed.
Lemma append_cancel a : forall b s, a ++ s = b ++ s -> a = b.
Proof.
  intros b s E. assert (L : String.length a = String.length b).
  { apply (f_equal String.length) in E. assert (A : forall x y, String.length (x ++ y) = (String.length x + String.length y)%nat).
    { clear. induction x as [|c x IH]; intros y; cbn; [reflexivity|]. now rewrite IH. }
    rewrite !A in E. lia. }
  revert b L E. induction a as [|c a IH]; intros [|c' b] L E; cbn in *; try discriminate; [reflexivity|].
  injection E as -> E. f_equal. apply IH; [lia|exact E].
Qed.
Lemma endings : forall s s', In s labelled -> In s' labelled -> ends s s' = true -> s = s'.
Proof.
  assert (C : forallb (fun s => forallb (fun s' => implb (ends s s') (String.eqb s s')) labelled) labelled = true) by (vm_compute; reflexivity).
  intros s s' I I' E. rewrite forallb_forall in C. specialize (C s I). rewrite forallb_forall in C. specialize (C s' I').
  rewrite E in C. cbn in C. now apply String.eqb_eq in C.
Qed.
Lemma other_label label other s s' : In s labelled -> In s' labelled -> label ++ s = other ++ s' -> label = other.
Proof.
  intros I I' E. assert (s = s').
  { destruct (append_same _ _ _ _ E) as [[p ->]|[p ->]].
    - symmetry. apply endings; [exact I'|exact I|apply append_ends].
    - apply endings; [exact I|exact I'|apply append_ends]. }
  subst s'. exact (append_cancel _ _ _ E).
Qed.

(** The statements of PropertiesSettings.v. *)
Lemma C150_blocking_proof : forall environ label b, BlockingCalculation environ label = Ok b <->
  TextSetting environ (label ++ "_BLOCKING_ANOMALY_VAR") "Z500_ANA" (blocking_anomaly_var b) /\
  TextSetting environ (label ++ "_BLOCKING_VAR") "Z500" (blocking_var b) /\
  NumberSetting environ (label ++ "_SMOOTHING_PTS") 9 (smoothing_pts b) /\
  NumbersSetting environ (label ++ "_LAT_DELTA") "-5,0,5" (lat_delta b) /\
  NumberSetting environ (label ++ "_NORTH_SOUTH_LIMITS") 30 (n_s_limits b) /\
  NumberSetting environ (label ++ "_IBL_DIST") 7 (ibl_dist b) /\
  NumberSetting environ (label ++ "_IBL_IN_GIBL") 15 (ibl_in_gibl b) /\
  NumberSetting environ (label ++ "_GIBL_OVERLAP") 10 (gibl_overlap b) /\
  NumberSetting environ (label ++ "_BLOCK_TIME") 5 (block_time b) /\
  NumberSetting environ (label ++ "_BLOCK_TRAVEL") 45 (block_travel b) /\
  TextSetting environ (label ++ "_BLOCK_METHOD") "PH" (block_method b) /\
  Z.Odd (smoothing_pts b).
Proof.
  intros environ label b. rewrite <- !get_iff, <- !get_int_iff, <- numbers_iff, <- odd_iff. unfold BlockingCalculation. cbv zeta.
  split.
  - intros E.
    destruct (get_int environ (label ++ "_SMOOTHING_PTS") 9) as [z1|]; cbn [bind] in E; [|discriminate].
    destruct (mapM int_of (split_on "," (get environ (label ++ "_LAT_DELTA") "-5,0,5"))) as [z2|]; cbn [bind] in E; [|discriminate].
    destruct (get_int environ (label ++ "_NORTH_SOUTH_LIMITS") 30) as [z3|]; cbn [bind] in E; [|discriminate].
    destruct (get_int environ (label ++ "_IBL_DIST") 7) as [z4|]; cbn [bind] in E; [|discriminate].
    destruct (get_int environ (label ++ "_IBL_IN_GIBL") 15) as [z5|]; cbn [bind] in E; [|discriminate].
    destruct (get_int environ (label ++ "_GIBL_OVERLAP") 10) as [z6|]; cbn [bind] in E; [|discriminate].
    destruct (get_int environ (label ++ "_BLOCK_TIME") 5) as [z7|]; cbn [bind] in E; [|discriminate].
    destruct (get_int environ (label ++ "_BLOCK_TRAVEL") 45) as [z8|]; cbn [bind] in E; [|discriminate].
    destruct (z1 mod 2 =? 0) eqn:M; [discriminate|]. injection E as <-. repeat (split; [reflexivity|]). exact M.
  - intros (E1 & E2 & E3 & E4 & E5 & E6 & E7 & E8 & E9 & E10 & E11 & M).
    rewrite E1, E2, E3, E4, E5, E6, E7, E8, E9, E10, E11. cbn [bind]. rewrite M. destruct b. reflexivity.
Qed.

Lemma C150_blocking_case_proof :
  BlockingCalculation (fun n => if String.eqb n "OBS_LAT_DELTA" then Some "-8, +4 ,1_0" else if String.eqb n "OBS_BLOCK_TIME" then Some " 007" else None) "OBS"
  = Ok (Blocking "Z500_ANA" "Z500" 9 [-8; 4; 10] 30 7 15 10 7 45 "PH").
Proof.
  vm_compute. reflexivity.
Qed.

Lemma C150_regimes_proof : forall environ label r, WeatherRegimeCalculation environ label = Ok r <->
  NumberSetting environ (label ++ "_WR_NUMBER") 6 (wrnum r) /\
  NumberSetting environ (label ++ "_NUM_CLUSTERS") 20 (numi r) /\
  NumberSetting environ (label ++ "_NUM_PCS") 10 (NUMPCS r) /\
  NumberSetting environ (label ++ "_WR_FREQ") 7 (wr_tstep r) /\
  TextSetting environ (label ++ "_WR_OUTPUT_FILE_TYPE") "text" (wr_outfile_type r) /\
  (exists base, environ "SCRIPT_OUTPUT_BASE" = Some base /\ TextSetting environ "WR_OUTPUT_FILE_DIR" base (wr_outfile_dir r)) /\
  TextSetting environ (label ++ "_WR_OUTPUT_FILE") (label ++ "_WeatherRegime") (wr_outfile r).
Proof.
  intros environ label r. rewrite <- !get_iff, <- !get_int_iff. unfold WeatherRegimeCalculation. cbv zeta. split.
  - intros E.
    destruct (get_int environ (label ++ "_WR_NUMBER") 6) as [z1|]; cbn [bind] in E; [|discriminate].
    destruct (get_int environ (label ++ "_NUM_CLUSTERS") 20) as [z2|]; cbn [bind] in E; [|discriminate].
    destruct (get_int environ (label ++ "_NUM_PCS") 10) as [z3|]; cbn [bind] in E; [|discriminate].
    destruct (get_int environ (label ++ "_WR_FREQ") 7) as [z4|]; cbn [bind] in E; [|discriminate].
    destruct (environ "SCRIPT_OUTPUT_BASE") as [base|]; cbn [bind] in E; [|discriminate]. injection E as <-.
    repeat (split; [reflexivity|]). split; [|reflexivity]. exists base. split; [reflexivity|]. now apply get_iff.
  - intros (E1 & E2 & E3 & E4 & E5 & (base & B & E6) & E7). apply get_iff in E6. rewrite E1, E2, E3, E4, E5, B. cbn [bind]. rewrite E6, E7.
    destruct r. reflexivity.
Qed.

Lemma C150_regimes_case_proof :
  WeatherRegimeCalculation (fun n => if String.eqb n "SCRIPT_OUTPUT_BASE" then Some "/out" else None) "FCST"
  = Ok (Regime 6 20 10 7 "text" "/out" "FCST_WeatherRegime").
Proof.
  vm_compute. reflexivity.
Qed.

Lemma C150_refused_proof : forall environ label,
  (BlockingCalculation environ label = Err ValueError <->
     (exists name default text, In (name, default) blocking_numbers /\ environ (label ++ name) = Some text /\ forall z, ~ Spells text z) \/
     (exists text parts part, environ (label ++ "_LAT_DELTA") = Some text /\ PartsBy "," text parts /\ In part parts /\ forall z, ~ Spells part z)) /\
  (BlockingCalculation environ label = Err SystemExit ->
     exists text z, environ (label ++ "_SMOOTHING_PTS") = Some text /\ Spells text z /\ Z.Even z) /\
  (WeatherRegimeCalculation environ label = Err ValueError <->
     exists name default text, In (name, default) regime_numbers /\ environ (label ++ name) = Some text /\ forall z, ~ Spells text z) /\
  (WeatherRegimeCalculation environ label = Err KeyError -> environ "SCRIPT_OUTPUT_BASE" = None) /\
  (forall e, BlockingCalculation environ label = Err e -> e = ValueError \/ e = SystemExit) /\
  (forall e, WeatherRegimeCalculation environ label = Err e -> e = ValueError \/ e = KeyError).
Proof.
  intros environ label. repeat match goal with |- _ /\ _ => split end.
  - unfold BlockingCalculation. cbv zeta. split.
    + intros E.
      assert (Bad : forall name default, In (name, default) blocking_numbers -> forall e, get_int environ (label ++ name) default = Err e ->
        exists name default text, In (name, default) blocking_numbers /\ environ (label ++ name) = Some text /\ forall z, ~ Spells text z).
      { intros name default I e Q. destruct (get_int_err _ _ _ _ Q) as (_ & text & T & N). exists name, default, text. auto. }
      destruct (get_int environ (label ++ "_SMOOTHING_PTS") 9) as [z1|] eqn:E1; cbn [bind] in E; [|left; refine (Bad _ _ _ _ E1); cbn; tauto].
      destruct (mapM int_of (split_on "," (get environ (label ++ "_LAT_DELTA") "-5,0,5"))) as [z2|] eqn:E2; cbn [bind] in E.
      2:{ right. destruct (mapM_int_err _ _ E2) as (_ & t & I & N). unfold get in *. destruct (environ (label ++ "_LAT_DELTA")) as [text|].
          - exists text, (split_on "," text), t. split; [reflexivity|]. split; [now apply parts_iff|]. auto.
          - vm_compute in E2. discriminate. }
      destruct (get_int environ (label ++ "_NORTH_SOUTH_LIMITS") 30) as [z3|] eqn:E3; cbn [bind] in E; [|left; refine (Bad _ _ _ _ E3); cbn; tauto].
      destruct (get_int environ (label ++ "_IBL_DIST") 7) as [z4|] eqn:E4; cbn [bind] in E; [|left; refine (Bad _ _ _ _ E4); cbn; tauto].
      destruct (get_int environ (label ++ "_IBL_IN_GIBL") 15) as [z5|] eqn:E5; cbn [bind] in E; [|left; refine (Bad _ _ _ _ E5); cbn; tauto].
      destruct (get_int environ (label ++ "_GIBL_OVERLAP") 10) as [z6|] eqn:E6; cbn [bind] in E; [|left; refine (Bad _ _ _ _ E6); cbn; tauto].
      destruct (get_int environ (label ++ "_BLOCK_TIME") 5) as [z7|] eqn:E7; cbn [bind] in E; [|left; refine (Bad _ _ _ _ E7); cbn; tauto].
      destruct (get_int environ (label ++ "_BLOCK_TRAVEL") 45) as [z8|] eqn:E8; cbn [bind] in E; [|left; refine (Bad _ _ _ _ E8); cbn; tauto].
      destruct (z1 mod 2 =? 0); discriminate.
    + intros H.
      destruct (get_int environ (label ++ "_SMOOTHING_PTS") 9) as [z1|] eqn:E1; cbn [bind]; [|f_equal; exact (proj1 (get_int_err _ _ _ _ E1))].
      destruct (mapM int_of (split_on "," (get environ (label ++ "_LAT_DELTA") "-5,0,5"))) as [z2|] eqn:E2; cbn [bind];
        [|f_equal; exact (proj1 (mapM_int_err _ _ E2))].
      destruct (get_int environ (label ++ "_NORTH_SOUTH_LIMITS") 30) as [z3|] eqn:E3; cbn [bind]; [|f_equal; exact (proj1 (get_int_err _ _ _ _ E3))].
      destruct (get_int environ (label ++ "_IBL_DIST") 7) as [z4|] eqn:E4; cbn [bind]; [|f_equal; exact (proj1 (get_int_err _ _ _ _ E4))].
      destruct (get_int environ (label ++ "_IBL_IN_GIBL") 15) as [z5|] eqn:E5; cbn [bind]; [|f_equal; exact (proj1 (get_int_err _ _ _ _ E5))].
      destruct (get_int environ (label ++ "_GIBL_OVERLAP") 10) as [z6|] eqn:E6; cbn [bind]; [|f_equal; exact (proj1 (get_int_err _ _ _ _ E6))].
      destruct (get_int environ (label ++ "_BLOCK_TIME") 5) as [z7|] eqn:E7; cbn [bind]; [|f_equal; exact (proj1 (get_int_err _ _ _ _ E7))].
      destruct (get_int environ (label ++ "_BLOCK_TRAVEL") 45) as [z8|] eqn:E8; cbn [bind]; [|f_equal; exact (proj1 (get_int_err _ _ _ _ E8))].
      exfalso. destruct H as [(name & default & text & I & T & N)|(text & parts & part & T & P & I & N)].
      * pose proof (get_int_bad _ _ default _ T N) as B. cbn in I. repeat (destruct I as [I|I]; [injection I as <- <-; congruence|]). exact I.
      * unfold get in E2. rewrite T in E2. apply parts_iff in P. rewrite P in E2. rewrite (mapM_int_bad _ _ I N) in E2. discriminate.
  - unfold BlockingCalculation. cbv zeta. intros E.
    destruct (get_int environ (label ++ "_SMOOTHING_PTS") 9) as [z1|] eqn:E1; cbn [bind] in E; [|pose proof (proj1 (get_int_err _ _ _ _ E1)); congruence].
    destruct (mapM int_of (split_on "," (get environ (label ++ "_LAT_DELTA") "-5,0,5"))) as [z2|] eqn:E2; cbn [bind] in E;
      [|pose proof (proj1 (mapM_int_err _ _ E2)); congruence].
    destruct (get_int environ (label ++ "_NORTH_SOUTH_LIMITS") 30) as [z3|] eqn:E3; cbn [bind] in E; [|pose proof (proj1 (get_int_err _ _ _ _ E3)); congruence].
    destruct (get_int environ (label ++ "_IBL_DIST") 7) as [z4|] eqn:E4; cbn [bind] in E; [|pose proof (proj1 (get_int_err _ _ _ _ E4)); congruence].
    destruct (get_int environ (label ++ "_IBL_IN_GIBL") 15) as [z5|] eqn:E5; cbn [bind] in E; [|pose proof (proj1 (get_int_err _ _ _ _ E5)); congruence].
    destruct (get_int environ (label ++ "_GIBL_OVERLAP") 10) as [z6|] eqn:E6; cbn [bind] in E; [|pose proof (proj1 (get_int_err _ _ _ _ E6)); congruence].
    destruct (get_int environ (label ++ "_BLOCK_TIME") 5) as [z7|] eqn:E7; cbn [bind] in E; [|pose proof (proj1 (get_int_err _ _ _ _ E7)); congruence].
    destruct (get_int environ (label ++ "_BLOCK_TRAVEL") 45) as [z8|] eqn:E8; cbn [bind] in E; [|pose proof (proj1 (get_int_err _ _ _ _ E8)); congruence].
    destruct (z1 mod 2 =? 0) eqn:M; [|discriminate]. apply even_iff in M. apply get_int_iff in E1.
    destruct E1 as [(text & T & S)|[_ ->]]; [exists text, z1; auto|]. exfalso. destruct M as [k M]. lia.
  - unfold WeatherRegimeCalculation. cbv zeta. split.
    + intros E.
      assert (Bad : forall name default, In (name, default) regime_numbers -> forall e, get_int environ (label ++ name) default = Err e ->
        exists name default text, In (name, default) regime_numbers /\ environ (label ++ name) = Some text /\ forall z, ~ Spells text z).
      { intros name default I e Q. destruct (get_int_err _ _ _ _ Q) as (_ & text & T & N). exists name, default, text. auto. }
      destruct (get_int environ (label ++ "_WR_NUMBER") 6) as [z1|] eqn:E1; cbn [bind] in E; [|refine (Bad _ _ _ _ E1); cbn; tauto].
      destruct (get_int environ (label ++ "_NUM_CLUSTERS") 20) as [z2|] eqn:E2; cbn [bind] in E; [|refine (Bad _ _ _ _ E2); cbn; tauto].
      destruct (get_int environ (label ++ "_NUM_PCS") 10) as [z3|] eqn:E3; cbn [bind] in E; [|refine (Bad _ _ _ _ E3); cbn; tauto].
      destruct (get_int environ (label ++ "_WR_FREQ") 7) as [z4|] eqn:E4; cbn [bind] in E; [|refine (Bad _ _ _ _ E4); cbn; tauto].
      destruct (environ "SCRIPT_OUTPUT_BASE"); discriminate.
    + intros (name & default & text & I & T & N). pose proof (get_int_bad _ _ default _ T N) as B.
      destruct (get_int environ (label ++ "_WR_NUMBER") 6) as [z1|] eqn:E1; cbn [bind]; [|f_equal; exact (proj1 (get_int_err _ _ _ _ E1))].
      destruct (get_int environ (label ++ "_NUM_CLUSTERS") 20) as [z2|] eqn:E2; cbn [bind]; [|f_equal; exact (proj1 (get_int_err _ _ _ _ E2))].
      destruct (get_int environ (label ++ "_NUM_PCS") 10) as [z3|] eqn:E3; cbn [bind]; [|f_equal; exact (proj1 (get_int_err _ _ _ _ E3))].
      destruct (get_int environ (label ++ "_WR_FREQ") 7) as [z4|] eqn:E4; cbn [bind]; [|f_equal; exact (proj1 (get_int_err _ _ _ _ E4))].
      exfalso. cbn in I. repeat (destruct I as [I|I]; [injection I as <- <-; congruence|]). exact I.
  - unfold WeatherRegimeCalculation. cbv zeta. intros E.
    destruct (get_int environ (label ++ "_WR_NUMBER") 6) as [z1|] eqn:E1; cbn [bind] in E; [|pose proof (proj1 (get_int_err _ _ _ _ E1)); congruence].
    destruct (get_int environ (label ++ "_NUM_CLUSTERS") 20) as [z2|] eqn:E2; cbn [bind] in E; [|pose proof (proj1 (get_int_err _ _ _ _ E2)); congruence].
    destruct (get_int environ (label ++ "_NUM_PCS") 10) as [z3|] eqn:E3; cbn [bind] in E; [|pose proof (proj1 (get_int_err _ _ _ _ E3)); congruence].
    destruct (get_int environ (label ++ "_WR_FREQ") 7) as [z4|] eqn:E4; cbn [bind] in E; [|pose proof (proj1 (get_int_err _ _ _ _ E4)); congruence].
    destruct (environ "SCRIPT_OUTPUT_BASE"); [discriminate|reflexivity].
  - unfold BlockingCalculation. cbv zeta. intros e E.
    destruct (get_int environ (label ++ "_SMOOTHING_PTS") 9) as [z1|] eqn:E1; cbn [bind] in E; [|pose proof (proj1 (get_int_err _ _ _ _ E1)); left; congruence].
    destruct (mapM int_of (split_on "," (get environ (label ++ "_LAT_DELTA") "-5,0,5"))) as [z2|] eqn:E2; cbn [bind] in E;
      [|pose proof (proj1 (mapM_int_err _ _ E2)); left; congruence].
    destruct (get_int environ (label ++ "_NORTH_SOUTH_LIMITS") 30) as [z3|] eqn:E3; cbn [bind] in E; [|pose proof (proj1 (get_int_err _ _ _ _ E3)); left; congruence].
    destruct (get_int environ (label ++ "_IBL_DIST") 7) as [z4|] eqn:E4; cbn [bind] in E; [|pose proof (proj1 (get_int_err _ _ _ _ E4)); left; congruence].
    destruct (get_int environ (label ++ "_IBL_IN_GIBL") 15) as [z5|] eqn:E5; cbn [bind] in E; [|pose proof (proj1 (get_int_err _ _ _ _ E5)); left; congruence].
    destruct (get_int environ (label ++ "_GIBL_OVERLAP") 10) as [z6|] eqn:E6; cbn [bind] in E; [|pose proof (proj1 (get_int_err _ _ _ _ E6)); left; congruence].
    destruct (get_int environ (label ++ "_BLOCK_TIME") 5) as [z7|] eqn:E7; cbn [bind] in E; [|pose proof (proj1 (get_int_err _ _ _ _ E7)); left; congruence].
    destruct (get_int environ (label ++ "_BLOCK_TRAVEL") 45) as [z8|] eqn:E8; cbn [bind] in E; [|pose proof (proj1 (get_int_err _ _ _ _ E8)); left; congruence].
    destruct (z1 mod 2 =? 0); [right; congruence|discriminate].
  - unfold WeatherRegimeCalculation. cbv zeta. intros e E.
    destruct (get_int environ (label ++ "_WR_NUMBER") 6) as [z1|] eqn:E1; cbn [bind] in E; [|pose proof (proj1 (get_int_err _ _ _ _ E1)); left; congruence].
    destruct (get_int environ (label ++ "_NUM_CLUSTERS") 20) as [z2|] eqn:E2; cbn [bind] in E; [|pose proof (proj1 (get_int_err _ _ _ _ E2)); left; congruence].
    destruct (get_int environ (label ++ "_NUM_PCS") 10) as [z3|] eqn:E3; cbn [bind] in E; [|pose proof (proj1 (get_int_err _ _ _ _ E3)); left; congruence].
    destruct (get_int environ (label ++ "_WR_FREQ") 7) as [z4|] eqn:E4; cbn [bind] in E; [|pose proof (proj1 (get_int_err _ _ _ _ E4)); left; congruence].
    destruct (environ "SCRIPT_OUTPUT_BASE"); [discriminate|right; cbn in E; congruence].
Qed.

Lemma C150_refused_case_proof :
  (forall z, ~ Spells "" z) /\ (forall z, ~ Spells "5.0" z) /\
  BlockingCalculation (fun n => if String.eqb n "FCST_LAT_DELTA" then Some "-5,,5" else None) "FCST" = Err ValueError /\
  BlockingCalculation (fun n => if String.eqb n "FCST_SMOOTHING_PTS" then Some "10" else None) "FCST" = Err SystemExit.
Proof.
  split; [apply int_refused; vm_compute; reflexivity|]. split; [apply int_refused; vm_compute; reflexivity|]. split; vm_compute; reflexivity.
Qed.

Lemma C150_one_number_proof : forall text z z', Spells text z -> Spells text z' -> z = z'.
Proof.
  intros text z z' A B. apply int_iff in A, B. congruence.
Qed.

Lemma C150_one_number_case_proof : Spells " -1_5" (-15).
Proof.
  apply int_iff. vm_compute. reflexivity.
Qed.

Lemma C150_labels_proof : forall environ environ' label,
  (forall name, environ name <> environ' name -> exists other suffix, other <> label /\ In suffix labelled /\ name = other ++ suffix) ->
  BlockingCalculation environ label = BlockingCalculation environ' label /\
  WeatherRegimeCalculation environ label = WeatherRegimeCalculation environ' label /\
  parse_steps environ = parse_steps environ'.
Proof.
  intros environ environ' label H.
  assert (G : forall s, In s labelled -> environ (label ++ s) = environ' (label ++ s)).
  { intros s I. assert (D : forall a b : option string, {a = b} + {a <> b}) by (decide equality; apply string_dec).
    destruct (D (environ (label ++ s)) (environ' (label ++ s))) as [E|N]; [exact E|]. exfalso.
    destruct (H _ N) as (other & s' & O & I' & Q). apply O. symmetry. exact (other_label _ _ _ _ I I' Q). }
  assert (K : forall name, (forall s, In s labelled -> ends s name = false) -> environ name = environ' name).
  { intros name F. assert (D : forall a b : option string, {a = b} + {a <> b}) by (decide equality; apply string_dec).
    destruct (D (environ name) (environ' name)) as [E|N]; [exact E|]. exfalso. destruct (H _ N) as (other & s' & O & I' & ->).
    pose proof (F s' I') as X. rewrite append_ends in X. discriminate. }
  assert (K1 : environ "SCRIPT_OUTPUT_BASE" = environ' "SCRIPT_OUTPUT_BASE").
  { apply K. intros s I. cbn in I. repeat (destruct I as [<-|I]; [reflexivity|]). destruct I. }
  assert (K2 : environ "WR_OUTPUT_FILE_DIR" = environ' "WR_OUTPUT_FILE_DIR").
  { apply K. intros s I. cbn in I. repeat (destruct I as [<-|I]; [reflexivity|]). destruct I. }
  assert (K3 : environ "FCST_STEPS" = environ' "FCST_STEPS").
  { apply K. intros s I. cbn in I. repeat (destruct I as [<-|I]; [reflexivity|]). destruct I. }
  assert (K4 : environ "OBS_STEPS" = environ' "OBS_STEPS").
  { apply K. intros s I. cbn in I. repeat (destruct I as [<-|I]; [reflexivity|]). destruct I. }
  clear H K. split; [|split].
  - unfold BlockingCalculation, get_int, get. rewrite !G by (cbn; tauto). reflexivity.
  - unfold WeatherRegimeCalculation, get_int, get. rewrite !G by (cbn; tauto). rewrite K1, K2. reflexivity.
  - unfold parse_steps, get. rewrite K3, K4. reflexivity.
Qed.

Lemma C150_labels_case_proof :
  let environ n := if String.eqb n "OBS_SMOOTHING_PTS" then Some "5" else None in
  (forall name, environ name <> None -> exists other suffix, other <> "FCST" /\ In suffix labelled /\ name = other ++ suffix) /\
  BlockingCalculation environ "OBS" <> BlockingCalculation (fun _ => None) "OBS".
Proof.
  cbv zeta beta. split.
  - intros name N. destruct (String.eqb name "OBS_SMOOTHING_PTS") eqn:X; [apply String.eqb_eq in X; subst name|now destruct N].
    exists "OBS", "_SMOOTHING_PTS". split; [discriminate|]. split; [cbn; tauto|reflexivity].
  - vm_compute. discriminate.
Qed.

Lemma C150_directory_refuted_proof : forall environ label label' r r',
  WeatherRegimeCalculation environ label = Ok r -> WeatherRegimeCalculation environ label' = Ok r' -> wr_outfile_dir r = wr_outfile_dir r'.
Proof.
  intros environ label label' r r' A B. apply C150_regimes_proof in A, B.
  destruct A as (_ & _ & _ & _ & _ & (base & E & A) & _). destruct B as (_ & _ & _ & _ & _ & (base' & E' & B) & _).
  apply get_iff in A, B. congruence.
Qed.

Lemma C150_directory_case_proof :
  let environ n := if String.eqb n "SCRIPT_OUTPUT_BASE" then Some "/out" else if String.eqb n "OBS_WR_OUTPUT_FILE_DIR" then Some "/obs" else None in
  exists r, WeatherRegimeCalculation environ "OBS" = Ok r /\ wr_outfile_dir r = "/out".
Proof.
  eexists. split; [vm_compute; reflexivity|reflexivity].
Qed.

Lemma C150_base_refuted_proof : exists environ, environ "WR_OUTPUT_FILE_DIR" = Some "/regimes" /\
  forall label, environ (label ++ "_WR_NUMBER") = None -> environ (label ++ "_NUM_CLUSTERS") = None -> environ (label ++ "_NUM_PCS") = None ->
    environ (label ++ "_WR_FREQ") = None -> WeatherRegimeCalculation environ label = Err KeyError.
Proof.
  exists (fun n => if String.eqb n "WR_OUTPUT_FILE_DIR" then Some "/regimes" else None). split; [reflexivity|]. intros label A B C D.
  unfold WeatherRegimeCalculation, get_int. rewrite A, B, C, D. reflexivity.
Qed.

Lemma C150_steps_proof : forall environ forecast observed,
  (forall text, environ "FCST_STEPS" = Some text -> PartsBy "+" text forecast) ->
  (forall text, environ "OBS_STEPS" = Some text -> PartsBy "+" text observed) ->
  (environ "FCST_STEPS" = None -> forecast = [""]) -> (environ "OBS_STEPS" = None -> observed = [""]) ->
  parse_steps environ = (forecast, observed).
Proof.
  intros environ forecast observed A B C D. unfold parse_steps, get. f_equal.
  - destruct (environ "FCST_STEPS") as [t|]; [apply parts_iff; auto|]. rewrite C by reflexivity. reflexivity.
  - destruct (environ "OBS_STEPS") as [t|]; [apply parts_iff; auto|]. rewrite D by reflexivity. reflexivity.
Qed.

Lemma C150_steps_case_proof : PartsBy "+" "ELBOW+EOF+KMEANS" ["ELBOW"; "EOF"; "KMEANS"].
Proof.
  apply parts_iff. vm_compute. reflexivity.
Qed.

Lemma C150_no_steps_refuted_proof : forall environ, fst (parse_steps environ) <> [] /\ snd (parse_steps environ) <> [] /\
  (environ "FCST_STEPS" = None \/ environ "FCST_STEPS" = Some "" -> fst (parse_steps environ) = [""]).
Proof.
  intros environ. split; [apply split_on_ne|]. split; [apply split_on_ne|]. unfold parse_steps, get. cbn [fst].
  intros [-> | ->]; reflexivity.
Qed.

