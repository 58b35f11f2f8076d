(** Proofs about [ModesModel.v]. *)
From Coq Require Import Reals String ZArith Lia.
From Verif Require Import PyBase ActivityModel CorrModel CorrProofs MatsunoModel MatsunoSpec MatsunoProofs ModesModel ModesSpec.
From Coq Require Import List FinFun Lra.
Import ListNotations.
Open Scope R_scope.

Lemma reqb_same a : real_eqb a a = true. Proof. unfold real_eqb. destruct (Req_EM_T a a); [reflexivity|contradiction]. Qed.
Lemma reqb_other a b : a <> b -> real_eqb a b = false. Proof. intro H. unfold real_eqb. destruct (Req_EM_T a b); [contradiction|reflexivity]. Qed.
(* ---------- wavenumbers ---------- *)
Lemma wn_waves m N : wn_array m N = map (wave m N) (seq 0 N).
Proof.
  unfold wn_array. apply map_ext_in. intros i I. apply in_seq in I. unfold wave. destruct (Nat.eqb_spec N 1) as [->|X].
  - assert (i = 0)%nat as -> by lia. cbn. ring.
  - assert (INR (N - 1) <> 0) by (apply not_0_INR; lia). field. assumption.
Qed.
Lemma map_nodup_in {A B : Type} (f : A -> B) l : (forall x y, In x l -> In y l -> f x = f y -> x = y) -> NoDup l -> NoDup (map f l).
Proof.
  induction l as [|a l IH]; intros H N; [constructor|]. inversion N; subst. cbn. constructor.
  - intro I. apply in_map_iff in I. destruct I as (x & E & I). assert (x = a) by (apply H; [right; exact I|left; reflexivity|exact E]). subst. contradiction.
  - apply IH; [|assumption]. intros x y X Y. apply H; right; assumption.
Qed.
Lemma waves_nodup m N : m <> 0 -> NoDup (wn_array m N).
Proof.
  intro H. rewrite wn_waves. apply map_nodup_in; [|apply seq_NoDup]. intros i j I J E. apply in_seq in I. apply in_seq in J. unfold wave in E. destruct (Nat.eqb_spec N 1) as [->|X]; [lia|].
  assert (INR (N - 1) <> 0) as Z by (apply not_0_INR; lia). apply INR_eq. apply (Rmult_eq_reg_l (2 * m)); [|lra]. apply (Rmult_eq_reg_r (/ INR (N - 1))); [|apply Rinv_neq_0_compat; exact Z]. unfold Rdiv in E. lra.
Qed.
Lemma map_all_same {A B : Type} (f : A -> B) c l : (forall x, f x = c) -> map f l = repeat c (length l).
Proof. intro H. induction l as [|a l IH]; [reflexivity|]. cbn. rewrite H, IH. reflexivity. Qed.
Lemma waves_zero N : wn_array 0 N = repeat 0 N.
Proof.
  rewrite wn_waves. rewrite (map_all_same _ 0); [rewrite seq_length; reflexivity|]. intro i. unfold wave. destruct (Nat.eqb N 1); [ring|]. unfold Rdiv. ring.
Qed.
(* ---------- curves as functions ---------- *)
Definition tab (W : list R) (c : string * (R -> option R)) : string * list (R * option R) := (fst c, map (fun w => (w, snd c w)) W).
Definition Eastward (g : R -> option R) : Prop := forall w, (0 < w -> present (g w) = true) /\ (w <= 0 -> g w = None).
Definition Westward (g : R -> option R) : Prop := forall w, (w < 0 -> present (g w) = true) /\ (0 <= w -> g w = None).
Lemma east_curve he latitude m N (body : R -> R) : 0 < he -> 0 < cosine latitude ->
  exists g, curve he latitude m N (fun k => if Rle_dec k 0 then None else Some (body k)) = Ok (map (fun w => (w, g w)) (wn_array m N)) /\ Eastward g.
Proof.
  intros P H. rewrite curve_ok by assumption. eexists. split; [reflexivity|]. intro w. pose proof (k_pos latitude w H) as K. split; intro X.
  - destruct (Rle_dec (Wavenumber latitude w) 0) as [L|L]; [|reflexivity]. apply K in X. lra.
  - destruct (Rle_dec (Wavenumber latitude w) 0) as [L|L]; [reflexivity|]. assert (0 < w) by (apply K; lra). lra.
Qed.
Lemma west_curve he latitude m N (body : R -> R) : 0 < he -> 0 < cosine latitude ->
  exists g, curve he latitude m N (fun k => if Rge_dec k 0 then None else Some (body k)) = Ok (map (fun w => (w, g w)) (wn_array m N)) /\ Westward g.
Proof.
  intros P H. rewrite curve_ok by assumption. eexists. split; [reflexivity|]. intro w. pose proof (k_neg latitude w H) as K. split; intro X.
  - destruct (Rge_dec (Wavenumber latitude w) 0) as [L|L]; [|reflexivity]. apply K in X. lra.
  - destruct (Rge_dec (Wavenumber latitude w) 0) as [L|L]; [reflexivity|]. assert (w < 0) by (apply K; lra). lra.
Qed.
(* ---------- merging ---------- *)
Lemma has_name_iff s l : has_name s l = true <-> In s l.
Proof. unfold has_name. rewrite existsb_exists. split; [intros (x & I & E); apply String.eqb_eq in E; subst; exact I|]. intro I. exists s. split; [exact I|apply String.eqb_refl]. Qed.
Lemma distinct_iff l : distinct l = true <-> NoDup l.
Proof.
  induction l as [|s l IH]; [split; [constructor|reflexivity]|]. cbn. rewrite Bool.andb_true_iff, Bool.negb_true_iff, IH. split.
  - intros [A B]. constructor; [|exact B]. intro I. apply has_name_iff in I. congruence.
  - intro N. inversion N; subst. split; [|assumption]. destruct (has_name s l) eqn:E; [apply has_name_iff in E; contradiction|reflexivity].
Qed.
Lemma merge_names left c : NoDup (names left ++ [fst c]) -> exists f, merge left c = Ok f /\ names f = names left ++ [fst c].
Proof.
  intro N. destruct c as [name column]. cbn [fst] in N. unfold merge.
  assert (~ In name (names left)) as I. { intro I. apply NoDup_remove_2 in N. apply N. rewrite app_nil_r. exact I. }
  assert (has_name name (names left) = false) as ->. { destruct (has_name name (names left)) eqn:E; [apply has_name_iff in E; contradiction|reflexivity]. }
  assert (map (fun s => if String.eqb s name then (s ++ "_x")%string else s) (names left) = names left) as ->.
  { rewrite <- (map_id (names left)) at 2. apply map_ext_in. intros s S. destruct (String.eqb_spec s name) as [->|]; [contradiction|reflexivity]. }
  rewrite (proj2 (distinct_iff _) N). eexists. split; reflexivity.
Qed.
Lemma nodup_left {A : Type} (l k : list A) : NoDup (l ++ k) -> NoDup l.
Proof. induction l as [|a l IH]; intro N; [constructor|]. inversion N; subst. constructor; [intro I; apply H1; apply in_or_app; left; exact I|apply IH; assumption]. Qed.
Lemma merges_names l : forall left, NoDup (names left ++ map fst l) -> exists f, merges left l = Ok f /\ names f = names left ++ map fst l.
Proof.
  induction l as [|c l IH]; intros left N; [exists left; rewrite app_nil_r; split; reflexivity|]. cbn [map] in N. change (fst c :: map fst l) with ([fst c] ++ map fst l) in N. rewrite app_assoc in N.
  destruct (merge_names left c) as (f & E & M); [apply nodup_left in N; exact N|]. cbn [merges]. rewrite E. cbn [bind]. rewrite <- M in N. destruct (IH f N) as (f' & E' & M'). exists f'. split; [exact E'|]. rewrite M', M, <- app_assoc. reflexivity.
Qed.
Lemma merge_rows left c f : merge left c = Ok f ->
  rows f = flat_map (fun l => map (fun r => (fst l, snd l ++ [snd r])) (filter (fun r => real_eqb (fst l) (fst r)) (snd c))) (rows left).
Proof. destruct c as [name column]. unfold merge. destruct (distinct _); [|discriminate]. intros [= <-]. reflexivity. Qed.
Lemma filter_one (g : R -> option R) W w : NoDup W -> In w W -> filter (fun r => real_eqb w (fst r)) (map (fun w => (w, g w)) W) = [(w, g w)].
Proof.
  induction W as [|a W IH]; intros N I; [destruct I|]. inversion N; subst. cbn. destruct I as [->|I].
  - rewrite reqb_same. f_equal. clear IH N. induction W as [|b W IH]; [reflexivity|]. cbn. rewrite reqb_other by (intros ->; apply H1; left; reflexivity). apply IH; [intro I; apply H1; right; exact I|inversion H2; assumption].
  - rewrite reqb_other by (intros ->; contradiction). apply IH; assumption.
Qed.
Lemma merges_rows W l : NoDup W -> forall left f vs, rows left = map (fun w => (w, vs w)) W -> merges left (map (tab W) l) = Ok f ->
  rows f = map (fun w => (w, vs w ++ map (fun c => snd c w) l)) W.
Proof.
  intro N. induction l as [|c l IH]; intros left f vs HR E.
  - injection E as <-. rewrite HR. apply map_ext. intro w. cbn. rewrite app_nil_r. reflexivity.
  - cbn [map merges] in E. destruct (merge left (tab W c)) as [f'|] eqn:M; [|discriminate]. cbn [bind] in E. apply merge_rows in M. rewrite HR in M.
    assert (rows f' = map (fun w => (w, vs w ++ [snd c w])) W) as R'.
    { rewrite M. clear - N. assert (forall W', incl W' W -> flat_map (fun l => map (fun r => (fst l, snd l ++ [snd r])) (filter (fun r => real_eqb (fst l) (fst r)) (snd (tab W c)))) (map (fun w => (w, vs w)) W') = map (fun w => (w, vs w ++ [snd c w])) W') as A; [|apply A, incl_refl].
      induction W' as [|w W' IH]; intro I; [reflexivity|]. cbn [map flat_map fst snd]. unfold tab at 1. cbn [snd]. rewrite filter_one by (try exact N; apply I; left; reflexivity). cbn [map app fst snd]. f_equal. apply IH. intros x X. apply I. right. exact X. }
    rewrite (IH f' f _ R' E). apply map_ext. intro w. cbn. rewrite <- app_assoc. reflexivity.
Qed.
Lemma flat_same (vs : list (option R)) (v : option R) M N :
  flat_map (fun l : R * list (option R) => map (fun r : R * option R => (fst l, snd l ++ [snd r])) (filter (fun r => real_eqb (fst l) (fst r)) (repeat (0, v) N))) (repeat (0, vs) M) = repeat (0, vs ++ [v]) (M * N).
Proof.
  induction M as [|M IH]; [reflexivity|]. cbn [repeat flat_map Nat.mul fst snd]. rewrite repeat_app, IH. f_equal. clear IH. induction N as [|N IH]; [reflexivity|]. cbn. rewrite reqb_same. cbn. f_equal. exact IH.
Qed.
Lemma tab_zero N c : snd (tab (repeat 0 N) c) = repeat (0, snd c 0) N.
Proof. unfold tab. cbn. induction N as [|N IH]; [reflexivity|]. cbn. rewrite IH. reflexivity. Qed.
Lemma merges_zero N l : forall left f vs M, rows left = repeat (0, vs) M -> merges left (map (tab (repeat 0 N)) l) = Ok f ->
  rows f = repeat (0, vs ++ map (fun c => snd c 0) l) (M * N ^ length l).
Proof.
  induction l as [|c l IH]; intros left f vs M HR E.
  - injection E as <-. rewrite HR. cbn. rewrite app_nil_r, Nat.mul_1_r. reflexivity.
  - cbn [map merges] in E. destruct (merge left (tab (repeat 0 N) c)) as [f'|] eqn:ME; [|discriminate]. cbn [bind] in E. apply merge_rows in ME. rewrite HR, tab_zero, flat_same in ME.
    rewrite (IH f' f _ _ ME E). cbn [map length Nat.pow]. rewrite <- app_assoc, Nat.mul_assoc. reflexivity.
Qed.
(* ---------- tables ---------- *)
Section Table.
Variables (str_he : R -> string) (str_n : Z -> string) (fsolve : (R -> R) -> R -> R) (he latitude m : R) (N : nat).
Hypothesis P : 0 < he.
Hypothesis H : 0 < cosine latitude.
Let W := wn_array m N.
Lemma three_modes n : exists a b c, er_df str_he str_n fsolve he n latitude m N = Ok (tab W ("ER(n=" ++ str_n n ++ ",he=" ++ str_he he ++ "m)", a)%string) /\
  eig_df str_he str_n fsolve he n latitude m N = Ok (tab W ("EIG(n=" ++ str_n n ++ ",he=" ++ str_he he ++ "m)", b)%string) /\
  wig_df str_he str_n fsolve he n latitude m N = Ok (tab W ("WIG(n=" ++ str_n n ++ ",he=" ++ str_he he ++ "m)", c)%string) /\
  er_n fsolve he n latitude m N = Ok (map (fun w => (w, a w)) W) /\ eig_n fsolve he n latitude m N = Ok (map (fun w => (w, b w)) W) /\ wig_n fsolve he n latitude m N = Ok (map (fun w => (w, c w)) W) /\
  Westward a /\ Eastward b /\ Westward c.
Proof.
  unfold er_df, eig_df, wig_df, er_n, eig_n, wig_n. cbv zeta.
  destruct (west_curve he latitude m N (fun k => fsolve (fun w => dispersion w k n he (beta_of latitude)) (- beta_of latitude * k / (k * k + (2 * IZR n + 1) * (beta_of latitude / sqrt (g * he))))) P H) as (a & A & WA).
  destruct (east_curve he latitude m N (fun k => fsolve (fun w => dispersion w k n he (beta_of latitude)) (sqrt ((2 * IZR n + 1) * beta_of latitude * sqrt (g * he) + k ^ 2 * g * he))) P H) as (b & B & EB).
  destruct (west_curve he latitude m N (fun k => fsolve (fun w => dispersion w k n he (beta_of latitude)) (sqrt ((2 * IZR n + 1) * beta_of latitude * sqrt (g * he) + k ^ 2 * g * he))) P H) as (c & D & WC).
  exists a, b, c. rewrite A, B, D. do 6 (split; [reflexivity|]). split; [exact WA|]. split; [exact EB|exact WC].
Qed.
Lemma first_modes : exists a b c, kelvin_df str_he he latitude m N = Ok (tab W ("Kelvin(he=" ++ str_he he ++ "m)", a)%string) /\
  mrg_df str_he he latitude m N = Ok (tab W ("MRG(he=" ++ str_he he ++ "m)", b)%string) /\
  eig_0_df str_he he latitude m N = Ok (tab W ("EIG(n=0,he=" ++ str_he he ++ "m)", c)%string) /\
  kelvin_mode he latitude m N = Ok (map (fun w => (w, a w)) W) /\ mrg_mode he latitude m N = Ok (map (fun w => (w, b w)) W) /\ eig_n_0 he latitude m N = Ok (map (fun w => (w, c w)) W) /\
  Eastward a /\ Westward b /\ Eastward c.
Proof.
  unfold kelvin_df, mrg_df, eig_0_df, kelvin_mode, mrg_mode, eig_n_0.
  destruct (east_curve he latitude m N (fun k => sqrt (g * he) * k) P H) as (a & A & WA).
  destruct (west_curve he latitude m N (fun k => sqrt (g * he) * k * (1 / 2 - 1 / 2 * sqrt (1 + 4 * beta_of latitude / (k * k * sqrt (g * he))))) P H) as (b & B & EB).
  destruct (east_curve he latitude m N (fun k => sqrt (g * he) * k * (1 / 2 + 1 / 2 * sqrt (1 + 4 * beta_of latitude / (k * k * sqrt (g * he))))) P H) as (c & D & WC).
  exists a, b, c. rewrite A, B, D. do 6 (split; [reflexivity|]). split; [exact WA|]. split; [exact EB|exact WC].
Qed.
Definition Sides (gs : list (string * (R -> option R))) (we ea : list bool) : Prop :=
  forall w, let vs := map (fun c => snd c w) gs in (w < 0 -> map present vs = we) /\ (0 < w -> map present vs = ea) /\ (w = 0 -> vs = repeat None (length gs)).
Lemma modes_list ns : exists gs, modes_of str_he str_n fsolve he ns latitude m N = Ok (map (tab W) gs) /\ length gs = (3 * length ns)%nat /\
  map fst gs = flat_map (fun k => ["ER(n=" ++ k ++ ",he=" ++ str_he he ++ "m)"; "EIG(n=" ++ k ++ ",he=" ++ str_he he ++ "m)"; "WIG(n=" ++ k ++ ",he=" ++ str_he he ++ "m)"]%string) (map str_n ns) /\
  Forall2 (fun c r => r = Ok c) (map (fun c => snd (tab W c)) gs) (flat_map (fun n => [er_n fsolve he n latitude m N; eig_n fsolve he n latitude m N; wig_n fsolve he n latitude m N]) ns) /\
  Sides gs (concat (repeat [true; false; true] (length ns))) (concat (repeat [false; true; false] (length ns))).
Proof.
  induction ns as [|n ns IH].
  - exists []. do 3 (split; [reflexivity|]). split; [constructor|]. intro w. cbn. repeat split.
  - destruct IH as (gs & E & L & M & F & S). destruct (three_modes n) as (a & b & c & EA & EB & EC & A & B & D & SA & SB & SC).
    eexists (_ :: _ :: _ :: gs). cbn [modes_of]. rewrite EA. cbn [bind]. rewrite EB. cbn [bind]. rewrite EC. cbn [bind]. rewrite E. cbn [bind]. split; [reflexivity|]. split; [cbn; lia|]. split; [cbn [map fst flat_map app]; rewrite M; reflexivity|].
    split; [cbn [map flat_map app snd tab]; repeat constructor; assumption|]. intros w. cbn [map snd length repeat concat app present]. destruct (S w) as (S1 & S2 & S3). cbv zeta. split; [|split]; intro X.
    + rewrite (S1 X). f_equal; [apply (SA w); exact X|]. f_equal; [rewrite (proj2 (SB w)); [reflexivity|lra]|]. f_equal. apply (SC w). exact X.
    + rewrite (S2 X). f_equal; [rewrite (proj2 (SA w)); [reflexivity|lra]|]. f_equal; [apply (SB w); exact X|]. f_equal. rewrite (proj2 (SC w)); [reflexivity|lra].
    + rewrite (S3 X). rewrite (proj2 (SA w)), (proj2 (SB w)), (proj2 (SC w)) by lra. reflexivity.
Qed.
Lemma all_modes ns : exists k gs, matsuno_dataframe str_he str_n fsolve he ns latitude m N = merges (alone (tab W k)) (map (tab W) gs) /\ length gs = (2 + 3 * length ns)%nat /\
  map fst (k :: gs) = mode_names (str_he he) (map str_n ns) /\
  Forall2 (fun c r => r = Ok c) (map (fun c => snd (tab W c)) (k :: gs)) ([kelvin_mode he latitude m N; mrg_mode he latitude m N; eig_n_0 he latitude m N] ++
    flat_map (fun n => [er_n fsolve he n latitude m N; eig_n fsolve he n latitude m N; wig_n fsolve he n latitude m N]) ns) /\
  Sides (k :: gs) (west (length ns)) (east (length ns)).
Proof.
  destruct (modes_list ns) as (gs & E & L & M & F & S). destruct first_modes as (a & b & c & EA & EB & EC & A & B & D & SA & SB & SC).
  eexists _, (_ :: _ :: gs). unfold matsuno_dataframe. rewrite EA. cbn [bind]. rewrite EB. cbn [bind]. rewrite EC. cbn [bind]. rewrite E. cbn [bind]. split; [reflexivity|]. split; [cbn; lia|].
  split; [cbn [map fst]; rewrite M; reflexivity|]. split; [cbn [map app snd tab]; repeat constructor; assumption|]. intros w. unfold west, east. cbn [map snd length repeat concat app present]. destruct (S w) as (S1 & S2 & S3). cbv zeta. split; [|split]; intro X.
  - rewrite (S1 X). f_equal; [rewrite (proj2 (SA w)); [reflexivity|lra]|]. f_equal; [apply (SB w); exact X|]. f_equal. rewrite (proj2 (SC w)); [reflexivity|lra].
  - rewrite (S2 X). f_equal; [apply (SA w); exact X|]. f_equal; [rewrite (proj2 (SB w)); [reflexivity|lra]|]. f_equal. apply (SC w). exact X.
  - rewrite (S3 X). rewrite (proj2 (SA w)), (proj2 (SB w)), (proj2 (SC w)) by lra. reflexivity.
Qed.
End Table.
Lemma alone_rows W k : rows (alone (tab W k)) = map (fun w => (w, [snd k w])) W.
Proof. unfold alone, tab. cbn. rewrite map_map. reflexivity. Qed.
Lemma cosine_zero : 0 < cosine 0.
Proof. unfold cosine. replace (0 * PI / 180) with 0 by (unfold Rdiv; ring). rewrite cos_0. lra. Qed.
(* ---------- depths ---------- *)
Lemma put_keys h f d : map fst (put h f d) = if in_dec Req_EM_T h (map fst d) then map fst d else map fst d ++ [h].
Proof.
  induction d as [|x d IH]; [reflexivity|]. cbn [put map]. unfold real_eqb. destruct (Req_EM_T (fst x) h) as [E|E].
  - destruct (in_dec Req_EM_T h (fst x :: map fst d)) as [I|I]; [reflexivity|]. exfalso. apply I. left. exact E.
  - cbn [map]. rewrite IH. destruct (in_dec Req_EM_T h (map fst d)) as [I|I]; destruct (in_dec Req_EM_T h (fst x :: map fst d)) as [J|J]; try reflexivity.
    + exfalso. apply J. right. exact I.
    + exfalso. destruct J as [J|J]; [exact (E J)|exact (I J)].
Qed.
Lemma put_in h f d x g : In (x, g) (put h f d) -> In (x, g) d \/ (x = h /\ g = f).
Proof.
  induction d as [|y d IH]; cbn [put]; intro I; [destruct I as [[= <- <-]|[]]; right; split; reflexivity|]. unfold real_eqb in I. destruct (Req_EM_T (fst y) h) as [E|E].
  - destruct I as [[= <- <-]|I]; [right; split; [exact E|reflexivity]|left; right; exact I].
  - destruct I as [->|I]; [left; left; reflexivity|]. destruct (IH I) as [J|J]; [left; right; exact J|right; exact J].
Qed.
Definition keys_of (ks hs : list R) : list R := fold_left (fun ks h => if in_dec Req_EM_T h ks then ks else ks ++ [h]) hs ks.
Lemma keys_rev hs : rev (keys_of [] hs) = nodup Req_EM_T (rev hs).
Proof.
  unfold keys_of. rewrite <- (fold_left_rev_right (fun h ks => if in_dec Req_EM_T h ks then ks else ks ++ [h])). induction (rev hs) as [|h l IH]; [reflexivity|]. cbn [fold_right nodup].
  set (ks := fold_right (fun h ks => if in_dec Req_EM_T h ks then ks else ks ++ [h]) [] l) in *.
  destruct (in_dec Req_EM_T h ks) as [I|I]; destruct (in_dec Req_EM_T h l) as [J|J].
  - exact IH.
  - exfalso. apply J. apply in_rev in I. rewrite IH in I. apply nodup_In in I. exact I.
  - exfalso. apply I. apply in_rev. rewrite IH. apply nodup_In. exact J.
  - rewrite rev_app_distr. cbn. rewrite IH. reflexivity.
Qed.
Section Depths.
Variables (str_he : R -> string) (str_n : Z -> string) (fsolve : (R -> R) -> R -> R) (ns : list Z) (latitude m : R) (N : nat).
Let table h := matsuno_dataframe str_he str_n fsolve h ns latitude m N.
Lemma wk_ok hs : forall d r, modes_wk str_he str_n fsolve d hs ns latitude m N = Ok r -> (forall h f, In (h, f) d -> table h = Ok f) ->
  map fst r = keys_of (map fst d) hs /\ forall h f, In (h, f) r -> table h = Ok f.
Proof.
  induction hs as [|h hs IH]; intros d r E D; [injection E as <-; split; [reflexivity|exact D]|]. cbn [modes_wk] in E. fold (table h) in E. destruct (table h) as [f|] eqn:T; [|discriminate]. cbn [bind] in E.
  destruct (IH _ _ E) as [K F].
  - intros x g I. apply put_in in I. destruct I as [I|[-> ->]]; [apply D; exact I|exact T].
  - split; [|exact F]. rewrite K, put_keys. reflexivity.
Qed.
Lemma wk_err hs e : forall d, modes_wk str_he str_n fsolve d hs ns latitude m N = Err e <->
  exists before h after, hs = before ++ h :: after /\ table h = Err e /\ Forall (fun h => exists f, table h = Ok f) before.
Proof.
  induction hs as [|h hs IH]; intro d; cbn [modes_wk].
  - split; [discriminate|]. intros ([|b before] & x & after & E & _); discriminate.
  - fold (table h). destruct (table h) as [f|e'] eqn:T; cbn [bind].
    + rewrite IH. split; intros (before & x & after & E & X & F).
      * exists (h :: before), x, after. rewrite E. split; [reflexivity|]. split; [exact X|]. constructor; [exists f; exact T|exact F].
      * destruct before as [|b before]; cbn in E; injection E as -> E; [congruence|]. exists before, x, after. split; [exact E|]. split; [exact X|]. inversion F; assumption.
    + split.
      * intros [= <-]. exists [], h, hs. split; [reflexivity|]. split; [exact T|constructor].
      * intros ([|b before] & x & after & E & X & F); cbn in E; injection E as -> E; [congruence|]. inversion F as [|? ? (f & G)]; subst. congruence.
Qed.
End Depths.

(** The statements of PropertiesModes.v. *)
Lemma C145_table_proof : forall str_he str_n fsolve he ns latitude m N, 0 < he -> 0 < cosine latitude -> m <> 0 ->
  NoDup (mode_names (str_he he) (map str_n ns)) ->
  exists curves t,
    Forall2 (fun c r => r = Ok c) curves
      ([kelvin_mode he latitude m N; mrg_mode he latitude m N; eig_n_0 he latitude m N] ++
       flat_map (fun n => [er_n fsolve he n latitude m N; eig_n fsolve he n latitude m N; wig_n fsolve he n latitude m N]) ns) /\
    matsuno_dataframe str_he str_n fsolve he ns latitude m N = Ok t /\ names t = mode_names (str_he he) (map str_n ns) /\
    List.length (rows t) = N /\
    forall i, (i < N)%nat -> exists vs, nth_error (rows t) i = Some (wave m N i, vs) /\
      Forall2 (fun c v => nth_error c i = Some (wave m N i, v)) curves vs.
Proof.
  intros str_he str_n fsolve he ns latitude m N P H M ND. destruct (all_modes str_he str_n fsolve he latitude m N P H ns) as (k & gs & E & L & NM & F & S). set (W := wn_array m N) in *.
  exists (map (fun c => snd (tab W c)) (k :: gs)). rewrite E, <- NM in *. destruct (merges_names (map (tab W) gs) (alone (tab W k))) as (t & T & TN).
  - cbn [alone names tab fst]. rewrite map_map. exact ND.
  - exists t. split; [exact F|]. split; [exact T|]. split; [rewrite TN; cbn [alone names tab fst]; rewrite map_map; reflexivity|].
    pose proof (merges_rows W gs (waves_nodup m N M) _ t _ (alone_rows W k) T) as RR. rewrite RR. split; [rewrite map_length; unfold W, wn_array; rewrite map_length, seq_length; reflexivity|].
    intros i I. assert (nth_error W i = Some (wave m N i)) as NW. { unfold W. rewrite wn_waves. apply map_nth_error. rewrite (nth_error_nth' _ 0%nat) by (rewrite seq_length; exact I). rewrite seq_nth by exact I. reflexivity. }
    eexists. split; [apply (map_nth_error (fun w => (w, [snd k w] ++ map (fun c => snd c w) gs))); exact NW|].
    change ([snd k (wave m N i)] ++ map (fun c => snd c (wave m N i)) gs) with (map (fun c : string * (R -> option R) => snd c (wave m N i)) (k :: gs)). clear - NW; induction (k :: gs) as [|c l IH]; [constructor|]. cbn [map]. constructor; [|exact IH].
    unfold tab. cbn [snd]. apply (map_nth_error (fun w => (w, snd c w))). exact NW.
Qed.

Lemma C145_table_case_proof : 0 < cosine 0 /\ NoDup (mode_names "12" ["1"; "2"; "3"]%string).
Proof.
  split; [exact cosine_zero|]. apply distinct_iff. reflexivity.
Qed.

Lemma C145_sides_proof : forall str_he str_n fsolve he ns latitude m N t wn vs, 0 < he -> 0 < cosine latitude -> m <> 0 ->
  matsuno_dataframe str_he str_n fsolve he ns latitude m N = Ok t -> In (wn, vs) (rows t) ->
  (wn < 0 -> map present vs = west (List.length ns)) /\ (0 < wn -> map present vs = east (List.length ns)) /\
  (wn = 0 -> vs = repeat None (3 + 3 * List.length ns)).
Proof.
  intros str_he str_n fsolve he ns latitude m N t wn vs P H M T I. destruct (all_modes str_he str_n fsolve he latitude m N P H ns) as (k & gs & E & L & NM & F & S). rewrite E in T.
  rewrite (merges_rows _ gs (waves_nodup m N M) _ t _ (alone_rows _ k) T) in I. apply in_map_iff in I. destruct I as (w & X & _). injection X as <- <-. destruct (S w) as (S1 & S2 & S3).
  split; [exact S1|]. split; [exact S2|]. intro Z. specialize (S3 Z). cbn [length] in S3. rewrite L in S3. exact S3.
Qed.

Lemma C145_sides_case_proof : wave 1 3 0 = -1 /\ wave 1 3 1 = 0 /\ wave 1 3 2 = 1 /\
  exists t, matsuno_dataframe (fun _ => "12"%string) (fun _ => "1"%string) (fun _ x => x) 12 [1%Z] 0 1 3 = Ok t.
Proof.
  split; [unfold wave; cbn; lra|]. split; [unfold wave; cbn; lra|]. split; [unfold wave; cbn; lra|].
  destruct (C145_table_proof (fun _ => "12"%string) (fun _ => "1"%string) (fun _ x => x) 12 [1%Z] 0 1 3) as (c & t & _ & T & _); [lra|exact cosine_zero|lra|apply distinct_iff; reflexivity|]. exists t. exact T.
Qed.

Lemma C145_multiplied_proof : forall str_he str_n fsolve he ns latitude N, 0 < he -> 0 < cosine latitude ->
  NoDup (mode_names (str_he he) (map str_n ns)) ->
  exists t, matsuno_dataframe str_he str_n fsolve he ns latitude 0 N = Ok t /\
    rows t = repeat (0, repeat None (3 + 3 * List.length ns)) (N ^ (3 + 3 * List.length ns)).
Proof.
  intros str_he str_n fsolve he ns latitude N P H ND. destruct (all_modes str_he str_n fsolve he latitude 0 N P H ns) as (k & gs & E & L & NM & F & S). set (W := wn_array 0 N) in *.
  rewrite E, <- NM in *. destruct (merges_names (map (tab W) gs) (alone (tab W k))) as (t & T & TN); [cbn [alone names tab fst]; rewrite map_map; exact ND|]. exists t. split; [exact T|].
  unfold W in T. rewrite waves_zero in T. rewrite (merges_zero N gs (alone (tab (repeat 0 N) k)) t [snd k 0] N) in *; [|rewrite alone_rows; clear; induction N as [|N IH]; [reflexivity|cbn; rewrite IH; reflexivity]|exact T].
  destruct (S 0) as (_ & _ & S3). specialize (S3 eq_refl). cbn [map length] in S3. rewrite L in *. cbn [app]. rewrite S3. reflexivity.
Qed.

Lemma C145_multiplied_case_proof : (2 ^ (3 + 3 * List.length [1%Z]) = 64)%nat.
Proof.
  reflexivity.
Qed.

Lemma C145_rows_refuted_proof : ~ (forall str_he str_n fsolve he ns latitude m N t, 0 < he -> 0 < cosine latitude ->
  matsuno_dataframe str_he str_n fsolve he ns latitude m N = Ok t -> List.length (rows t) = N).
Proof.
  intro X. destruct (C145_multiplied_proof (fun _ => "12"%string) (fun _ => "1"%string) (fun _ x => x) 12 [] 0 2) as (t & T & RR); [lra|exact cosine_zero|apply distinct_iff; reflexivity|].
  pose proof (X _ _ _ 12 [] 0 0 2%nat t ltac:(lra) cosine_zero T) as L. rewrite RR, repeat_length in L. discriminate.
Qed.

Lemma C145_name_refuted_proof : ~ (forall str_he str_n fsolve he ns latitude m N t n, 0 < he -> 0 < cosine latitude -> m <> 0 -> In n ns ->
  matsuno_dataframe str_he str_n fsolve he ns latitude m N = Ok t -> In ("ER(n=" ++ str_n n ++ ",he=" ++ str_he he ++ "m)")%string (names t)).
Proof.
  intro X. destruct (all_modes (fun _ => "12"%string) (fun _ => "1"%string) (fun _ x => x) 12 0 1 3 ltac:(lra) cosine_zero [1%Z; 1%Z]) as (k & gs & E & L & NM & F & S). set (W := wn_array 1 3) in *.
  assert (exists t, merges (alone (tab W k)) (map (tab W) gs) = Ok t /\ has_name "ER(n=1,he=12m)" (names t) = false) as (t & T & A).
  { destruct gs as [|g1 [|g2 [|g3 [|g4 [|g5 [|g6 [|g7 [|g8 [|g9 gs]]]]]]]]]; try discriminate L. clear - NM. cbn in NM. injection NM as Nk N1 N2 N3 N4 N5 N6 N7 N8.
    unfold tab, alone. cbn [map fst snd]. rewrite Nk, N1, N2, N3, N4, N5, N6, N7, N8. eexists. split; [reflexivity|]. reflexivity. }
  rewrite <- E in T. specialize (X _ _ _ 12 [1%Z; 1%Z] 0 1 3%nat t 1%Z ltac:(lra) cosine_zero ltac:(lra) (or_introl eq_refl) T). apply has_name_iff in X. cbn in X, A. congruence.
Qed.

Lemma C145_depths_proof : forall str_he str_n fsolve hs ns latitude m N d, matsuno_modes_wk str_he str_n fsolve hs ns latitude m N = Ok d ->
  map fst d = rev (nodup Req_EM_T (rev hs)) /\
  forall h f, In (h, f) d -> matsuno_dataframe str_he str_n fsolve h ns latitude m N = Ok f.
Proof.
  intros str_he str_n fsolve hs ns latitude m N d E. destruct (wk_ok str_he str_n fsolve ns latitude m N hs [] d E) as [K F]; [intros h f []|]. split; [|exact F]. rewrite K, <- keys_rev, rev_involutive. reflexivity.
Qed.

Lemma C145_depths_case_proof : exists d, matsuno_modes_wk (fun _ => "12"%string) (fun _ => "1"%string) (fun _ x => x) [12; 25; 12] [1%Z] 0 1 3 = Ok d /\
  map fst d = [12; 25].
Proof.
  assert (forall h, 0 < h -> exists t, matsuno_dataframe (fun _ => "12"%string) (fun _ => "1"%string) (fun _ x => x) h [1%Z] 0 1 3 = Ok t) as T.
  { intros h Hh. destruct (C145_table_proof (fun _ => "12"%string) (fun _ => "1"%string) (fun _ x => x) h [1%Z] 0 1 3) as (c & t & _ & T & _); [exact Hh|exact cosine_zero|lra|apply distinct_iff; reflexivity|]. exists t. exact T. }
  destruct (T 12 ltac:(lra)) as (t12 & T12). destruct (T 25 ltac:(lra)) as (t25 & T25). unfold matsuno_modes_wk. cbn [modes_wk]. rewrite T12. cbn [bind]. rewrite T25. cbn [bind]. eexists. split; [reflexivity|].
  cbn [put fst]. rewrite reqb_other by lra. cbn [put fst]. rewrite reqb_same. reflexivity.
Qed.

Lemma C145_depth_failed_proof : forall str_he str_n fsolve hs ns latitude m N e,
  matsuno_modes_wk str_he str_n fsolve hs ns latitude m N = Err e <->
  exists before h after, hs = before ++ h :: after /\ matsuno_dataframe str_he str_n fsolve h ns latitude m N = Err e /\
    Forall (fun h => exists f, matsuno_dataframe str_he str_n fsolve h ns latitude m N = Ok f) before.
Proof.
  intros. apply wk_err.
Qed.

Lemma C145_depth_failed_case_proof : matsuno_dataframe (fun _ => "-1"%string) (fun _ => "1"%string) (fun _ x => x) (-1) [1%Z] 0 1 3 = Err NotModelled.
Proof.
  unfold matsuno_dataframe, kelvin_df, named, kelvin_mode, curve. destruct (Rlt_dec 0 (-1)) as [L|L]; [lra|]. reflexivity.
Qed.

