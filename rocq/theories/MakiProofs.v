(** Proofs about the MaKE and MaKI indices. *)
From Coq Require Import Reals ZArith.
From Verif Require Import PyBase ColumnModel TropicsModel WavesModel WavesSpec WavesProofs RmmModel ActivityModel BlockProofs TropicsProofs KfProofs MjoProofs RmmProofs TauProofs TauSpec MakiModel MakiSpec.
From Coq Require Import List Lra.
Import ListNotations.
Open Scope nat_scope.

(** ** Dates *)
Lemma leap_is y : leap y = LeapYear y.
Proof.
  unfold leap, LeapYear. destruct (Z.eqb_spec (y mod 4) 0) as [A|A], (Z.eqb_spec (y mod 100) 0) as [B|B], (Z.eqb_spec (y mod 400) 0) as [D|D]; try reflexivity; exfalso; apply A; apply Z.mod_divide; try lia; apply Z.mod_divide in D; try lia; destruct D as [k ->]; exists (k * 100)%Z; lia.
Qed.
Definition mcases (m : Z) : (1 <= m <= 12)%Z -> m = 1%Z \/ m = 2%Z \/ m = 3%Z \/ m = 4%Z \/ m = 5%Z \/ m = 6%Z \/ m = 7%Z \/ m = 8%Z \/ m = 9%Z \/ m = 10%Z \/ m = 11%Z \/ m = 12%Z.
Proof. lia. Qed.
Lemma month_days_is y m : (1 <= m <= 12)%Z -> month_days y m = MonthLength y m.
Proof. intros H. unfold month_days. rewrite leap_is. destruct (mcases m H) as [->|[->|[->|[->|[->|[->|[->|[->|[->|[->|[->| ->]]]]]]]]]]]; reflexivity. Qed.
Lemma length_bounds y m : (28 <= MonthLength y m <= 31)%Z.
Proof. unfold MonthLength. destruct m as [|[[[p|p|]|[p|p|]|]|[[p|p|]|[p|p|]|]|]|p]; try lia; try (destruct p; lia); try (destruct (LeapYear y); lia). Qed.
Lemma ord_day y m d : ordinal (Date y m d) = (ordinal (Date y m 1) + d - 1)%Z.
Proof. unfold ordinal, dayofyear. cbn [year month day]. lia. Qed.
Lemma ord_month y m : (1 <= m <= 11)%Z -> ordinal (Date y (m + 1) 1) = (ordinal (Date y m 1) + MonthLength y m)%Z.
Proof.
  intros H. unfold ordinal, dayofyear, MonthLength. cbn [year month day]. rewrite leap_is. cbv zeta. generalize (LeapYear y). generalize (365 * (y - 1) + (y - 1) / 4 - (y - 1) / 100 + (y - 1) / 400)%Z. intros Y lp. destruct (mcases m ltac:(lia)) as [->|[->|[->|[->|[->|[->|[->|[->|[->|[->|[->|X]]]]]]]]]]]; try lia; repeat match goal with |- context [days_before ?e] => let v := eval vm_compute in (days_before e) in change (days_before e) with v | |- context [(2 <? ?e)%Z] => let v := eval vm_compute in (2 <? e)%Z in change (2 <? e)%Z with v end; destruct lp; cbn [andb]; lia.
Qed.
Lemma ord_year y : ordinal (Date (y + 1) 1 1) = (ordinal (Date y 12 1) + 31)%Z.
Proof.
  unfold ordinal, dayofyear. cbn [year month day]. rewrite leap_is. cbn [Z.ltb Z.compare Pos.compare Pos.compare_cont]. rewrite !Bool.andb_false_r, !Bool.andb_true_r. change (days_before 12) with 334%Z. change (days_before 1) with 0%Z. replace (y + 1 - 1)%Z with y by lia.
  assert (A : forall k, (0 < k)%Z -> (y / k - (y - 1) / k = if (y mod k =? 0)%Z then 1 else 0)%Z).
  { intros k K. pose proof (Z.div_mod y k ltac:(lia)) as E. pose proof (Z.mod_pos_bound y k K) as B. destruct (Z.eqb_spec (y mod k) 0) as [Z0|N].
    - assert (Q1 : ((y - 1) / k = y / k - 1)%Z) by (symmetry; apply (Z.div_unique _ _ _ (k - 1)); lia). lia.
    - assert (Q1 : ((y - 1) / k = y / k)%Z) by (symmetry; apply (Z.div_unique _ _ _ (y mod k - 1)); lia). lia. }
  pose proof (A 4 ltac:(lia))%Z as A4. pose proof (A 100 ltac:(lia))%Z as A100. pose proof (A 400 ltac:(lia))%Z as A400. unfold leap. clear A.
  assert (M1 : (y mod 400 = 0 -> y mod 100 = 0)%Z) by (intros X; apply Z.mod_divide in X; try lia; destruct X as [k ->]; apply Z.mod_divide; try lia; exists (k * 4)%Z; lia).
  assert (M2 : (y mod 100 = 0 -> y mod 4 = 0)%Z) by (intros X; apply Z.mod_divide in X; try lia; destruct X as [k ->]; apply Z.mod_divide; try lia; exists (k * 25)%Z; lia).
  destruct (Z.eqb_spec (y mod 4) 0), (Z.eqb_spec (y mod 100) 0), (Z.eqb_spec (y mod 400) 0); cbn [andb orb negb]; try tauto; clear M1 M2; lia.
Qed.
Lemma onday_month d k : (1 <= month d <= 12)%Z -> OnDay (MonthOf d) k = Date (year d) (month d) k.
Proof.
  intros H. unfold OnDay, MonthOf. replace (12 * year d + month d - 1)%Z with ((month d - 1) + year d * 12)%Z by lia. rewrite Z.div_add, Z.mod_add by lia. rewrite Z.div_small, Z.mod_small by lia. f_equal; lia.
Qed.
Lemma onday_self d : (1 <= month d <= 12)%Z -> OnDay (MonthOf d) (day d) = d.
Proof. intros H. rewrite onday_month by exact H. destruct d; reflexivity. Qed.
Lemma month_onday i d : MonthOf (OnDay i d) = i.
Proof. unfold OnDay, MonthOf. cbn [year month]. pose proof (Z.div_mod (i - 1) 12). lia. Qed.
Lemma onday_range i d : (1 <= month (OnDay i d) <= 12)%Z.
Proof. unfold OnDay. cbn [month]. pose proof (Z.mod_pos_bound (i - 1) 12). lia. Qed.
Lemma ord_onday i d : ordinal (OnDay i d) = (ordinal (OnDay i 1) + d - 1)%Z.
Proof. unfold OnDay. apply ord_day. Qed.
Definition length_of (i : Z) : Z := MonthLength (year (OnDay i 1)) (month (OnDay i 1)).
Lemma length_of_bounds i : (28 <= length_of i <= 31)%Z.
Proof. apply length_bounds. Qed.
Lemma ord_next i : ordinal (OnDay (i + 1) 1) = (ordinal (OnDay i 1) + length_of i)%Z.
Proof.
  unfold length_of. pose proof (onday_range i 1) as H. rewrite <- (month_onday i 1) at 1. set (d := OnDay i 1) in *. assert (D : d = Date (year d) (month d) 1) by reflexivity. clearbody d. destruct (Z.eq_dec (month d) 12) as [E|N].
  - replace (MonthOf d + 1)%Z with (MonthOf (Date (year d + 1) 1 1)) by (unfold MonthOf; cbn [year month]; lia). rewrite onday_month by (cbn; lia). cbn [year month]. rewrite ord_year. rewrite E. rewrite <- E at 1. rewrite <- D. reflexivity.
  - replace (MonthOf d + 1)%Z with (MonthOf (Date (year d) (month d + 1) 1)) by (unfold MonthOf; cbn [year month]; lia). rewrite onday_month by (cbn; lia). cbn [year month]. rewrite ord_month by lia. rewrite <- D. reflexivity.
Qed.
Lemma ord_later i k : (1 <= k)%Z -> (ordinal (OnDay i 1) + length_of i <= ordinal (OnDay (i + k) 1))%Z.
Proof.
  intros H. rewrite <- ord_next. replace (i + k)%Z with (i + 1 + (k - 1))%Z by lia. assert (G : forall n, (ordinal (OnDay (i + 1) 1) <= ordinal (OnDay (i + 1 + Z.of_nat n) 1))%Z).
  { induction n as [|n IH]; [rewrite Z.add_0_r; lia|]. rewrite Nat2Z.inj_succ. replace (i + 1 + Z.succ (Z.of_nat n))%Z with (i + 1 + Z.of_nat n + 1)%Z by lia. rewrite (ord_next (i + 1 + Z.of_nat n)). pose proof (length_of_bounds (i + 1 + Z.of_nat n)) as L. lia. }
  rewrite <- (Z2Nat.id (k - 1)) by lia. apply G.
Qed.
Lemma date_parts d : IsDate d -> d = OnDay (MonthOf d) (day d) /\ ordinal d = (ordinal (OnDay (MonthOf d) 1) + day d - 1)%Z /\ (1 <= day d <= length_of (MonthOf d))%Z.
Proof.
  intros [M D]. split; [symmetry; apply onday_self; exact M|]. split; [rewrite <- ord_onday, onday_self by exact M; reflexivity|]. unfold length_of. rewrite onday_month by exact M. exact D.
Qed.
Lemma ord_lt a b : IsDate a -> IsDate b -> (MonthOf a < MonthOf b)%Z -> (ordinal a < ordinal b)%Z.
Proof.
  intros A B L. destruct (date_parts a A) as (_ & OA & DA). destruct (date_parts b B) as (_ & OB & DB). pose proof (ord_later (MonthOf a) (MonthOf b - MonthOf a) ltac:(lia)) as H. replace (MonthOf a + (MonthOf b - MonthOf a))%Z with (MonthOf b) in H by lia. lia.
Qed.
Lemma ord_iff a b : IsDate a -> IsDate b -> (ordinal a <= ordinal b)%Z <-> (MonthOf a < MonthOf b)%Z \/ MonthOf a = MonthOf b /\ (day a <= day b)%Z.
Proof.
  intros A B. destruct (Z.lt_trichotomy (MonthOf a) (MonthOf b)) as [L|[E|L]].
  - pose proof (ord_lt a b A B L). lia.
  - destruct (date_parts a A) as (_ & OA & DA). destruct (date_parts b B) as (_ & OB & DB). rewrite E in OA. lia.
  - pose proof (ord_lt b a B A L). lia.
Qed.
Lemma ord_inj a b : IsDate a -> IsDate b -> ordinal a = ordinal b -> a = b.
Proof.
  intros A B E. destruct (proj1 (ord_iff a b A B) ltac:(lia)) as [H|[H1 H2]], (proj1 (ord_iff b a B A) ltac:(lia)) as [K|[K1 K2]]; try lia. destruct (date_parts a A) as (EA & _ & _). destruct (date_parts b B) as (EB & _ & _). rewrite EA, EB. f_equal; lia.
Qed.
Lemma onday_date i d : (1 <= d <= length_of i)%Z -> IsDate (OnDay i d).
Proof. intros H. split; [apply onday_range|]. exact H. Qed.
Lemma onday_28 i d : (1 <= d <= 28)%Z -> IsDate (OnDay i d).
Proof. intros H. apply onday_date. pose proof (length_of_bounds i) as L. lia. Qed.
Lemma tomorrow_is d : IsDate d -> IsDate (Tomorrow d) /\ ordinal (Tomorrow d) = (ordinal d + 1)%Z.
Proof.
  intros V. destruct (date_parts d V) as (E & O & D). unfold Tomorrow. destruct (Z.ltb_spec (day d) (MonthLength (year d) (month d))) as [L|L].
  - split; [destruct V as [M _]; split; [exact M|cbn [day]; cbn [year month]; lia]|]. rewrite ord_day. rewrite O. rewrite onday_month by apply V. lia.
  - split; [apply onday_28; lia|]. rewrite ord_next. destruct V as [M DD]. unfold length_of. rewrite onday_month by exact M. cbn [year month]. rewrite onday_month in O by exact M. lia.
Qed.
Lemma next_is d : IsDate d -> next_month d = OnDay (MonthOf d + 1) (Z.min (day d) (length_of (MonthOf d + 1))) /\ IsDate (next_month d).
Proof.
  intros [M D]. assert (E : next_month d = OnDay (MonthOf d + 1) (Z.min (day d) (length_of (MonthOf d + 1)))).
  { unfold next_month. destruct (Z.eqb_spec (month d) 12) as [X|X].
    - replace (MonthOf d + 1)%Z with (MonthOf (Date (year d + 1) 1 1)) by (unfold MonthOf; cbn [year month]; lia). unfold length_of. rewrite !onday_month by (cbn; lia). cbn [year month]. rewrite month_days_is by lia. reflexivity.
    - replace (MonthOf d + 1)%Z with (MonthOf (Date (year d) (month d + 1) 1)) by (unfold MonthOf; cbn [year month]; lia). unfold length_of. rewrite !onday_month by (cbn; lia). cbn [year month]. rewrite month_days_is by lia. reflexivity. }
  split; [exact E|]. rewrite E. apply onday_date. pose proof (length_of_bounds (MonthOf d + 1)) as L. lia.
Qed.

(** ** The loop over months *)
Lemma visits_day e d : IsDate e -> (1 <= d <= 28)%Z -> forall fuel i,
  let count := Z.to_nat (MonthOf e - i + (if (d <=? day e)%Z then 1 else 0)) in
  count <= fuel -> visits fuel (OnDay i d) e = Some (map (fun k => OnDay (i + Z.of_nat k) d) (seq 0 count)).
Proof.
  intros E D. induction fuel as [|fuel IH]; intros i count F.
  - cbn [visits]. destruct (Z.ltb_spec (ordinal e) (ordinal (OnDay i d))) as [L|L]; [replace count with 0 by lia; reflexivity|]. exfalso. apply (ord_iff _ _ (onday_28 i d D) E) in L. rewrite month_onday in L. cbn [OnDay day] in L. unfold count in F. destruct (Z.leb_spec d (day e)); lia.
  - cbn [visits]. destruct (Z.ltb_spec (ordinal e) (ordinal (OnDay i d))) as [L|L].
    + assert (N : ~ (ordinal (OnDay i d) <= ordinal e)%Z) by lia. rewrite (ord_iff _ _ (onday_28 i d D) E), month_onday in N. cbn [OnDay day] in N. replace count with 0; [reflexivity|]. unfold count. destruct (Z.leb_spec d (day e)); lia.
    + apply (ord_iff _ _ (onday_28 i d D) E) in L. rewrite month_onday in L. cbn [OnDay day] in L. destruct (next_is (OnDay i d) (onday_28 i d D)) as [NX _]. rewrite month_onday in NX. pose proof (length_of_bounds (i + 1)) as LB. replace (Z.min (day (OnDay i d)) (length_of (i + 1))) with d in NX by (cbn [OnDay day]; lia). rewrite NX. specialize (IH (i + 1)%Z). cbv zeta in IH. rewrite IH by (unfold count in F; lia). cbn [option_map]. f_equal.
      replace count with (S (Z.to_nat (MonthOf e - (i + 1) + (if (d <=? day e)%Z then 1 else 0)))) by (unfold count; destruct (Z.leb_spec d (day e)); lia). cbn [seq map]. rewrite Z.add_0_r. f_equal. rewrite <- seq_shift, map_map. apply map_ext. intros k. f_equal. lia.
Qed.
Lemma visits_len e : IsDate e -> forall fuel s, IsDate s -> (day s <= day e)%Z -> Z.to_nat (MonthOf e - MonthOf s + 1) <= fuel ->
  exists l, visits fuel s e = Some l /\ length l = Z.to_nat (MonthOf e - MonthOf s + 1).
Proof.
  intros E. induction fuel as [|fuel IH]; intros s S0 D F.
  - cbn [visits]. destruct (Z.ltb_spec (ordinal e) (ordinal s)) as [L|L]; [exists []; split; [reflexivity|cbn; lia]|]. exfalso. apply (ord_iff _ _ S0 E) in L. lia.
  - cbn [visits]. destruct (Z.ltb_spec (ordinal e) (ordinal s)) as [L|L].
    + assert (N : ~ (ordinal s <= ordinal e)%Z) by lia. rewrite (ord_iff _ _ S0 E) in N. exists []. split; [reflexivity|]. cbn. lia.
    + apply (ord_iff _ _ S0 E) in L. destruct (next_is s S0) as [NX NV]. assert (MN : MonthOf (next_month s) = (MonthOf s + 1)%Z) by (rewrite NX; apply month_onday). assert (DN : (day (next_month s) <= day s)%Z) by (rewrite NX; cbn [OnDay day]; lia). destruct (IH (next_month s) NV ltac:(lia) ltac:(lia)) as (l & V & LL). rewrite V. exists (s :: l). split; [reflexivity|]. cbn [length]. rewrite LL. lia.
Qed.
Lemma months_is s e : months s e = Z.to_nat (MonthOf e - MonthOf s + 1).
Proof. unfold months, MonthOf. f_equal. lia. Qed.

(** ** Series over their standard deviations *)
Lemma nanstd_seq n f : nanstd (map f (seq 0 n)) = Spread n f.
Proof.
  unfold nanstd, Spread, MeanOver. rewrite map_length, seq_length. rewrite map_map. rewrite !rsum_seq. f_equal. f_equal. apply sb_ext. intros i _. ring.
Qed.
Lemma nanstd_of l : nanstd l = SpreadOf l.
Proof. unfold SpreadOf. rewrite (list_seq' 0%R l) at 1. apply nanstd_seq. Qed.
Lemma normal_seq n f : Spread n f <> 0%R -> normal (map f (seq 0 n)) = Ok (map (Unit n f) (seq 0 n)).
Proof. intros H. unfold normal. rewrite nanstd_seq. destruct (Req_EM_T _ _) as [E|_]; [contradiction|]. rewrite map_map. reflexivity. Qed.
Lemma normal_of l : SpreadOf l <> 0%R -> normal l = Ok (map (fun x => x / SpreadOf l)%R l).
Proof. intros H. unfold normal. rewrite nanstd_of. destruct (Req_EM_T _ _) as [E|_]; [contradiction|]. reflexivity. Qed.
Lemma normal_times c l : (0 < c)%R -> normal (map (Rmult c) l) = normal l.
Proof.
  intros P. unfold normal. rewrite nanstd_times, Rabs_pos_eq by lra. destruct (Req_EM_T (c * nanstd l) 0) as [E|N], (Req_EM_T (nanstd l) 0) as [E'|N']; try reflexivity.
  - exfalso. apply Rmult_integral in E. destruct E; [lra|contradiction].
  - exfalso. apply N. rewrite E'. ring.
  - f_equal. rewrite map_map. apply map_ext. intros x. field. split; [exact N'|lra].
Qed.
Lemma normal_opp l l' : normal l = Ok l' -> normal (map Ropp l) = Ok (map Ropp l').
Proof.
  intros H. unfold normal in *. assert (E : nanstd (map Ropp l) = nanstd l). { replace (map Ropp l) with (map (Rmult (-1)) l) by (apply map_ext; intros x; ring). rewrite nanstd_times. replace (-1)%R with (- (1))%R by ring. rewrite Rabs_Ropp, Rabs_R1. ring. }
  rewrite E. destruct (Req_EM_T (nanstd l) 0) as [Z0|N]; [discriminate H|]. injection H as <-. f_equal. rewrite !map_map. apply map_ext. intros x. field. exact N.
Qed.
Lemma rows_normal n data : Forall (fun s => length s = n) data -> (forall l, l < length data -> Spread n (SeriesIn data l) <> 0%R) ->
  mapM normal data = Ok (map (fun l => map (Unit n (SeriesIn data l)) (seq 0 n)) (seq 0 (length data))).
Proof.
  intros F H. rewrite (list_seq' [] data) at 1. rewrite mapM_map. apply mapM_ok_seq. intros l L. rewrite <- normal_seq by exact (H l L). f_equal. rewrite (list_seq' 0%R (nth l data [])) at 1. rewrite Forall_forall in F. rewrite (F (nth l data []) (nth_In _ _ L)). reflexivity.
Qed.
Lemma sb_split a b f : SumBelow (a + b) f = (SumBelow a f + SumBelow b (fun i => f (a + i)%nat))%R.
Proof.
  unfold SumBelow. rewrite seq_app, map_app. cbn [Nat.add]. assert (G : forall l m : list R, fold_right Rplus 0%R (l ++ m) = (fold_right Rplus 0 l + fold_right Rplus 0 m)%R) by (induction l as [|x l IH]; intros m; cbn; [ring|rewrite IH; ring]). rewrite G. f_equal. f_equal.
  replace (seq a b) with (map (Nat.add a) (seq 0 b)); [rewrite map_map; reflexivity|]. assert (H : forall n k, map (Nat.add a) (seq k n) = seq (a + k) n) by (induction n as [|n IH]; intros k; [reflexivity|]; cbn [seq map]; f_equal; rewrite IH; f_equal; lia). rewrite H, Nat.add_0_r. reflexivity.
Qed.
Lemma combine_seq {A B} (da : A) (db : B) l m : length l = length m -> combine l m = map (fun i => (nth i l da, nth i m db)) (seq 0 (length l)).
Proof.
  revert m. induction l as [|a l IH]; intros [|b m] L; try discriminate L; [reflexivity|]. cbn [combine length seq map nth]. f_equal. rewrite IH by (cbn in L; lia). rewrite <- seq_shift, map_map. reflexivity.
Qed.
Lemma project_onto n wind sst e t : length wind = length sst -> length e = 2 * length sst -> t < n ->
  (- rsum (map (fun p => fst p * nth t (snd p) 0)%R (combine e (map (fun l => map (Unit n (SeriesIn wind l)) (seq 0 n)) (seq 0 (length wind)) ++ map (fun l => map (Unit n (SeriesIn sst l)) (seq 0 n)) (seq 0 (length sst))))))%R = Onto n wind sst e t.
Proof.
  intros LW LE T. unfold Onto. f_equal. rewrite (combine_seq 0%R []) by (rewrite app_length, !map_length, !seq_length; lia). rewrite map_map. cbn [fst snd]. rewrite rsum_seq. rewrite LE. replace (2 * length sst) with (length sst + length sst) by lia. rewrite sb_split. rewrite LW. f_equal.
  - apply sb_ext. intros i I. rewrite app_nth1 by (rewrite map_length, seq_length; exact I). rewrite (nth_seq_map [] (fun l => map (Unit n (SeriesIn wind l)) (seq 0 n))) by exact I. rewrite nth_seq_map by exact T. reflexivity.
  - apply sb_ext. intros i I. rewrite app_nth2 by (rewrite map_length, seq_length; lia). rewrite map_length, seq_length. replace (length sst + i - length sst) with i by lia. rewrite (nth_seq_map [] (fun l => map (Unit n (SeriesIn sst l)) (seq 0 n))) by exact I. rewrite nth_seq_map by exact T. reflexivity.
Qed.
Definition finish (time wtime : list date) (pcmake pcmaki : list R) : res (list (date * R) * list (date * R)) :=
  stdt <- get 90 time ;;
  let edt := last time stdt in
  if negb (in_order wtime) then Err NotModelled
  else
    days <- visited stdt edt ;;
    both <- mapM (fun d => a <- window_min wtime pcmake d ;; b <- window_min wtime pcmaki d ;; Ok (a, b)) days ;;
    time_mon <- month_starts stdt edt ;;
    if negb (length both =? length time_mon) then Err ValueError
    else
      make_n <- labelled time_mon (map fst both) ;;
      maki_n <- labelled time_mon (map snd both) ;;
      Ok (make_n, maki_n).
Lemma forallb_len {A} (l : list (list A)) k : forallb (fun e => length e =? k) l = true <-> Forall (fun e => length e = k) l.
Proof. rewrite forallb_forall, Forall_forall. split; intros H x I; apply Nat.eqb_eq; apply H; exact I. Qed.
Lemma combine_maps {A B D E} (h : B * D -> E) (f : A -> B) (g : A -> D) l : map h (combine (map f l) (map g l)) = map (fun x => h (f x, g x)) l.
Proof. induction l as [|a l IH]; [reflexivity|]. cbn [map combine]. rewrite IH. reflexivity. Qed.
Lemma maki_body n time wtime wind sst p q rest : length time = n -> length wtime = n -> Usable n wind sst (p :: q :: rest) ->
  make_maki time wtime sst wind (p :: q :: rest) = finish time wtime (map (DailyMake n wind sst p q) (seq 0 n)) (map (DailyMaki n wind sst p q) (seq 0 n)).
Proof.
  intros LT LW (LL & F & SP & FP & p0 & q0 & rest0 & E & SP1 & SP2). injection E as <- <- <-. apply Forall_app in F. destruct F as [FW FS].
  unfold make_maki. rewrite (rows_normal n sst FS) by (intros l L; apply SP; exact L). cbn [bind]. rewrite (rows_normal n wind FW) by (intros l L; apply SP; rewrite <- LL; exact L). cbn [bind]. rewrite LT, LW, LL, !Nat.eqb_refl. cbn [andb negb]. rewrite (proj2 (forallb_len _ _) FP). cbn [negb].
  cbv zeta. cbn [map]. unfold get at 1 2. cbn [nth_error bind]. rewrite !map_map. pose proof (Forall_inv FP) as LP. pose proof (Forall_inv (Forall_inv_tail FP)) as LQ. cbv beta in LP, LQ.
  assert (G : forall e, length e = 2 * length sst -> map (fun x => (- rsum (map (fun p0 => fst p0 * nth x (snd p0) 0) (combine e (map (fun l => map (Unit n (SeriesIn wind l)) (seq 0 n)) (seq 0 (length wind)) ++ map (fun l => map (Unit n (SeriesIn sst l)) (seq 0 n)) (seq 0 (length sst))))))%R) (seq 0 n) = map (Onto n wind sst e) (seq 0 n)).
  { intros e LE. apply map_ext_in. intros t T. apply in_seq in T. apply project_onto; [exact LL|exact LE|lia]. }
  rewrite LL in G. rewrite (G p LP), (G q LQ). rewrite (normal_seq n _ SP1). cbn [bind]. rewrite (normal_seq n _ SP2). cbn [bind].
  rewrite !combine_maps. reflexivity.
Qed.

(** ** Windows *)
Lemma fold_min : forall l x, let m := fold_left Rmin l x in (m = x \/ In m l) /\ (m <= x)%R /\ forall y, In y l -> (m <= y)%R.
Proof.
  induction l as [|a l IH]; intros x; cbn [fold_left]; [split; [left; reflexivity|split; [lra|intros y []]]|]. destruct (IH (Rmin x a)) as (H1 & H2 & H3). pose proof (Rmin_l x a) as A. pose proof (Rmin_r x a) as B. split.
  - destruct H1 as [H1|H1]; [|right; right; exact H1]. rewrite H1. unfold Rmin. destruct (Rle_dec x a); [left; reflexivity|right; left; reflexivity].
  - split; [lra|]. intros y [<-|Y]; [lra|]. exact (H3 y Y).
Qed.
Lemma least_ok l : l <> [] -> exists m, least_of l = Ok m /\ In m l /\ forall x, In x l -> (m <= x)%R.
Proof.
  destruct l as [|a l]; [intros N; contradiction|]. intros _. destruct (fold_min l a) as (H1 & H2 & H3). exists (fold_left Rmin l a). split; [reflexivity|]. split; [destruct H1 as [H1|H1]; [left; symmetry; exact H1|right; exact H1]|]. intros x [<-|X]; [exact H2|exact (H3 x X)].
Qed.
Lemma daily_tail a l : Daily (a :: l) -> Daily l.
Proof. intros [V N]. split; [exact (Forall_inv_tail V)|]. intros t x y X Y. apply (N (S t)); [exact X|exact Y]. Qed.
Lemma daily_order l : Daily l -> in_order l = true.
Proof.
  induction l as [|a l IH]; intros D; [reflexivity|]. destruct l as [|b l]; [reflexivity|]. change (in_order (a :: b :: l)) with ((ordinal a <=? ordinal b)%Z && in_order (b :: l)). rewrite (IH (daily_tail _ _ D)), Bool.andb_true_r. apply Z.leb_le. destruct D as [V N]. rewrite (N 0 a b eq_refl eq_refl). destruct (tomorrow_is a (Forall_inv V)) as [_ O]. lia.
Qed.
Lemma daily_ord time a0 : Daily time -> nth_error time 0 = Some a0 -> forall t a, nth_error time t = Some a -> IsDate a /\ ordinal a = (ordinal a0 + Z.of_nat t)%Z.
Proof.
  intros [V N] Z0. induction t as [|t IH]; intros a A; (split; [apply nth_error_In in A; rewrite Forall_forall in V; apply V; exact A|]).
  - assert (a0 = a) as -> by congruence. lia.
  - destruct (nth_error time t) as [b|] eqn:B; [|exfalso; apply nth_error_None in B; assert (K : nth_error time (S t) <> None) by congruence; apply nth_error_Some in K; lia]. destruct (IH b eq_refl) as [VB OB]. rewrite (N t b a B) by (rewrite Nat.add_1_r; exact A). rewrite (proj2 (tomorrow_is b VB)). lia.
Qed.
Lemma day_in time a0 e d : Daily time -> nth_error time 0 = Some a0 -> nth_error time (length time - 1) = Some e -> IsDate d -> (ordinal a0 <= ordinal d <= ordinal e)%Z ->
  exists t, t < length time /\ nth_error time t = Some d.
Proof.
  intros D Z0 E V B. assert (L : 0 < length time) by (destruct time; [discriminate Z0|cbn; lia]). destruct (daily_ord time a0 D Z0 _ _ E) as [VE OE]. set (t := Z.to_nat (ordinal d - ordinal a0)). assert (T : t < length time) by (unfold t; lia). exists t. split; [exact T|]. destruct (nth_error time t) as [x|] eqn:X; [|apply nth_error_None in X; lia]. destruct (daily_ord time a0 D Z0 _ _ X) as [VX OX]. f_equal. apply ord_inj; [exact VX|exact V|]. unfold t in OX. lia.
Qed.
Lemma in_combine_nth {A B} (l : list A) (m : list B) p : In p (combine l m) <-> exists i, nth_error l i = Some (fst p) /\ nth_error m i = Some (snd p).
Proof.
  revert m. induction l as [|a l IH]; intros m; [split; [intros []|intros (i & X & _); destruct i; discriminate X]|]. destruct m as [|b m]; [split; [intros []|intros (i & _ & X); destruct i; discriminate X]|]. cbn [combine In]. rewrite IH. split.
  - intros [<-|(i & X & Y)]; [exists 0; split; reflexivity|exists (S i); split; assumption].
  - intros ([|i] & X & Y); [left; destruct p; cbn in *; congruence|right; exists i; split; assumption].
Qed.
Lemma window_is n time f t d : Daily time -> length time = n -> nth_error time t = Some d ->
  exists m, window_min time (map f (seq 0 n)) d = Ok m /\ forall t', nth_error time t' = Some d -> LeastOf91 f t' m.
Proof.
  intros D L T. destruct (nth_error time 0) as [a0|] eqn:Z0; [|destruct time; [destruct t; discriminate T|discriminate Z0]].
  unfold window_min. set (P := fun p : date * R => _). set (l := map snd (filter P _)).
  assert (IN : forall t', nth_error time t' = Some d -> forall x, In x l <-> exists s, t' - 90 <= s <= t' /\ f s = x).
  { intros t' T' x. unfold l. rewrite in_map_iff. destruct (daily_ord time a0 D Z0 _ _ T') as [_ OD]. assert (TL : t' < n) by (rewrite <- L; apply nth_error_Some; congruence). split.
    - intros (p & <- & I). apply filter_In in I. destruct I as [I PP]. apply in_combine_nth in I. destruct I as (s & S1 & S2). destruct (daily_ord time a0 D Z0 _ _ S1) as [_ OS]. unfold P in PP. apply Bool.andb_true_iff in PP. destruct PP as [P1 P2]. apply Z.leb_le in P1, P2. exists s. split; [lia|]. assert (SL : s < n) by (rewrite <- L; apply nth_error_Some; congruence). rewrite nth_map_seq in S2 by exact SL. congruence.
    - intros (s & B & <-). assert (SL : s < n) by lia. destruct (nth_error time s) as [a|] eqn:A; [|apply nth_error_None in A; lia]. destruct (daily_ord time a0 D Z0 _ _ A) as [_ OA]. exists (a, f s). split; [reflexivity|]. apply filter_In. split; [apply in_combine_nth; exists s; split; [exact A|exact (nth_map_seq f n s SL)]|]. unfold P. cbn [fst]. apply Bool.andb_true_iff. split; apply Z.leb_le; lia. }
  destruct (least_ok l) as (m & E & M1 & M2).
  { intros N. assert (K : In (f t) l) by (apply (IN t T); exists t; split; [lia|reflexivity]). rewrite N in K. exact K. }
  exists m. split; [exact E|]. intros t' T'. split; [apply (IN t' T'); exact M1|]. intros s B. apply M2. apply (IN t' T'). exists s. split; [exact B|reflexivity].
Qed.
Lemma windows_are n time f g days : Daily time -> length time = n -> Forall (fun d => exists t, t < n /\ nth_error time t = Some d) days ->
  exists both, mapM (fun d => a <- window_min time (map f (seq 0 n)) d ;; b <- window_min time (map g (seq 0 n)) d ;; Ok (a, b)) days = Ok both /\ length both = length days /\
    forall k t, k < length days -> nth_error time t = nth_error days k -> LeastOf91 f t (nth k (map fst both) 0%R) /\ LeastOf91 g t (nth k (map snd both) 0%R).
Proof.
  intros D L F. rewrite Forall_forall in F. destruct (mapM_all (fun d => a <- window_min time (map f (seq 0 n)) d ;; b <- window_min time (map g (seq 0 n)) d ;; Ok (a, b)) (fun d y => forall t, nth_error time t = Some d -> LeastOf91 f t (fst y) /\ LeastOf91 g t (snd y)) days) as (both & E & FF).
  { intros d I. destruct (F d I) as (t & _ & T). destruct (window_is n time f t d D L T) as (a & EA & HA). destruct (window_is n time g t d D L T) as (b & EB & HB). exists (a, b). rewrite EA. cbn [bind]. rewrite EB. cbn [bind]. split; [reflexivity|]. intros t' T'. split; [exact (HA t' T')|exact (HB t' T')]. }
  exists both. split; [exact E|]. pose proof (mapM_len _ _ _ E) as LB. split; [exact LB|]. intros k t K T. destruct (nth_error days k) as [d|] eqn:DK; [|apply nth_error_None in DK; lia]. destruct (nth_error both k) as [y|] eqn:BK; [|apply nth_error_None in BK; lia]. pose proof (forall2_nth _ _ _ k d y FF DK BK t T) as H.
  assert (A1 : nth k (map fst both) 0%R = fst y) by (apply nth_error_nth; rewrite nth_error_map, BK; reflexivity). assert (A2 : nth k (map snd both) 0%R = snd y) by (apply nth_error_nth; rewrite nth_error_map, BK; reflexivity). rewrite A1, A2. exact H.
Qed.
Lemma last_at (time : list date) s e : nth_error time 90 = Some s -> last time s = e -> nth_error time (length time - 1) = Some e.
Proof.
  intros S0 E. assert (N : time <> []) by (intros ->; discriminate S0). destruct (exists_last N) as (l & x & ->). rewrite last_last in E. subst. rewrite app_length. cbn [length]. replace (length l + 1 - 1) with (length l) by lia. rewrite nth_error_app2 by lia. rewrite Nat.sub_diag. reflexivity.
Qed.
Lemma ends time s e : Daily time -> nth_error time 90 = Some s -> last time s = e -> exists a0, nth_error time 0 = Some a0 /\ IsDate s /\ IsDate e /\ (ordinal a0 <= ordinal s <= ordinal e)%Z /\ nth_error time (length time - 1) = Some e.
Proof.
  intros D S0 E. pose proof (last_at time s e S0 E) as LA. destruct (nth_error time 0) as [a0|] eqn:Z0; [|destruct time; [discriminate S0|discriminate Z0]]. destruct (daily_ord time a0 D Z0 _ _ S0) as [VS OS]. destruct (daily_ord time a0 D Z0 _ _ LA) as [VE OE]. exists a0. assert (L : 90 < length time) by (apply nth_error_Some; congruence). repeat (split; [first [reflexivity|exact VS|exact VE|lia]|]). exact LA.
Qed.
Lemma days_in time s e i d count : Daily time -> nth_error time 90 = Some s -> last time s = e -> (1 <= d <= 28)%Z ->
  (forall k, k < count -> (ordinal s <= ordinal (OnDay (i + Z.of_nat k) d) <= ordinal e)%Z) ->
  Forall (fun x => exists t, t < length time /\ nth_error time t = Some x) (map (fun k => OnDay (i + Z.of_nat k) d) (seq 0 count)).
Proof.
  intros D S0 E B H. destruct (ends time s e D S0 E) as (a0 & Z0 & VS & VE & O & LA). apply Forall_forall. intros x X. apply in_map_iff in X. destruct X as (k & <- & K). apply in_seq in K. specialize (H k ltac:(lia)). apply (day_in time a0 e); [exact D|exact Z0|exact LA|apply onday_28; exact B|lia].
Qed.
Lemma windows_or wtime f g days : (exists both, mapM (fun d => a <- window_min wtime f d ;; b <- window_min wtime g d ;; Ok (a, b)) days = Ok both) \/ mapM (fun d => a <- window_min wtime f d ;; b <- window_min wtime g d ;; Ok (a, b)) days = Err ValueError.
Proof.
  induction days as [|d days IH]; [left; exists []; reflexivity|]. cbn [mapM]. assert (W : forall h, (exists x, window_min wtime h d = Ok x) \/ window_min wtime h d = Err ValueError) by (intros h; unfold window_min; destruct (map snd _); [right; reflexivity|left; eexists; reflexivity]).
  destruct (W f) as [(a & ->)| ->]; [|right; reflexivity]. cbn [bind]. destruct (W g) as [(b & ->)| ->]; [|right; reflexivity]. cbn [bind]. destruct IH as [(r & ->)| ->]; [left; eexists; reflexivity|right; reflexivity].
Qed.
Lemma first_first i d : (1 <= d <= 28)%Z -> Date (year (OnDay i d)) (month (OnDay i d)) 1 = OnDay i 1.
Proof. reflexivity. Qed.
Lemma starts_after s e : IsDate s -> IsDate e -> (1 < day s)%Z -> month_starts s e = Ok (map (fun k => OnDay (MonthOf s + Z.of_nat k + 1) 1) (seq 0 (Z.to_nat (MonthOf e - MonthOf s)))).
Proof.
  intros VS VE D. unfold month_starts. destruct (Z.eqb_spec (day s) 1) as [X|_]; [lia|]. cbv zeta. rewrite (proj1 (next_is s VS)). change (Date (year (OnDay (MonthOf s + 1) (Z.min (day s) (length_of (MonthOf s + 1))))) (month (OnDay (MonthOf s + 1) (Z.min (day s) (length_of (MonthOf s + 1))))) 1) with (OnDay (MonthOf s + 1) 1). unfold visited. rewrite months_is, month_onday. rewrite (visits_day e 1 VE ltac:(lia) _ (MonthOf s + 1)); (destruct VE as [_ VE]; destruct (Z.leb_spec 1 (day e)) as [_|X]; [|lia]); [|lia].
  f_equal. replace (Z.to_nat (MonthOf e - (MonthOf s + 1) + 1)) with (Z.to_nat (MonthOf e - MonthOf s)) by lia. apply map_ext. intros k. f_equal. lia.
Qed.
Lemma labelled_is labels l : SpreadOf l <> 0%R -> labelled labels l = Ok (Entries labels l).
Proof. intros H. unfold labelled. rewrite normal_of by exact H. reflexivity. Qed.
Lemma spread_two n f : 1 < n -> f 0 <> f 1 -> Spread n f <> 0%R.
Proof.
  intros N D E. unfold Spread in E. set (m := MeanOver n f) in E. assert (IN : (0 < INR n)%R) by (apply lt_0_INR; lia).
  assert (NN : forall g : nat -> R, (forall i, (0 <= g i)%R) -> forall k, (0 <= SumBelow k g)%R) by (intros g G k; rewrite <- (rsum_seq g k); induction (seq 0 k) as [|a l IH]; cbn; [lra|]; pose proof (G a); unfold rsum in *; cbn in *; lra).
  assert (G0 : (0 <= SumBelow n (fun t => (f t - m) ^ 2))%R) by (apply NN; intros i; apply pow2_ge_0). apply sqrt_eq_0 in E; [|unfold Rdiv; apply Rmult_le_pos; [exact G0|left; apply Rinv_0_lt_compat; exact IN]].
  assert (E0 : SumBelow n (fun t => (f t - m) ^ 2)%R = 0%R). { unfold Rdiv in E. apply Rmult_integral in E. destruct E as [E|E]; [exact E|]. exfalso. apply (Rinv_neq_0_compat (INR n)); [lra|exact E]. }
  replace n with (2 + (n - 2)) in E0 by lia. rewrite sb_split in E0. pose proof (NN (fun i => (f (2 + i)%nat - m) ^ 2)%R (fun i => pow2_ge_0 _) (n - 2)) as R0. cbn beta in R0. assert (S2 : SumBelow 2 (fun t => (f t - m) ^ 2)%R = ((f 0%nat - m) ^ 2 + (f 1%nat - m) ^ 2)%R) by (unfold SumBelow; cbn [seq map fold_right]; ring). rewrite S2 in E0. pose proof (pow2_ge_0 (f 0%nat - m)) as Q0. pose proof (pow2_ge_0 (f 1%nat - m)) as Q1.
  assert (A0 : ((f 0%nat - m) * (f 0%nat - m) = 0)%R) by nra. assert (A1 : ((f 1%nat - m) * (f 1%nat - m) = 0)%R) by nra. apply Rmult_integral in A0, A1. apply D. destruct A0, A1; lra.
Qed.

(** The statements of PropertiesMaki.v. *)
Lemma C106_calendar_proof : forall d, IsDate d -> IsDate (Tomorrow d) /\ ordinal (Tomorrow d) = (ordinal d + 1)%Z.
Proof.
  exact tomorrow_is.
Qed.

Lemma C106_calendar_case_proof : Tomorrow (Date 2000 2 28) = Date 2000 2 29 /\ Tomorrow (Date 1900 2 28) = Date 1900 3 1 /\
  Tomorrow (Date 1999 12 31) = Date 2000 1 1 /\ IsDate (Date 2000 2 29).
Proof.
  repeat split; vm_compute; congruence.
Qed.

Lemma C106_values_proof : forall time wind sst p q rest n s e, length time = n -> Daily time -> Usable n wind sst (p :: q :: rest) ->
  nth_error time 90 = Some s -> last time s = e -> day s = 1%Z ->
  let count := Z.to_nat (MonthOf e - MonthOf s + 1) in
  let labels := map (fun k => OnDay (MonthOf s + Z.of_nat k) 1) (seq 0 count) in
  exists makes makis, length makes = count /\ length makis = count /\
    (forall k t, k < count -> nth_error time t = nth_error labels k ->
       LeastOf91 (DailyMake n wind sst p q) t (nth k makes 0%R) /\ LeastOf91 (DailyMaki n wind sst p q) t (nth k makis 0%R)) /\
    (forall k, k < count -> exists t, t < n /\ nth_error time t = nth_error labels k) /\
    (SpreadOf makes <> 0%R -> SpreadOf makis <> 0%R ->
     make_maki time time sst wind (p :: q :: rest) = Ok (Entries labels makes, Entries labels makis)).
Proof.
  intros time wind sst p q rest n s e LT D U S0 E D1 count labels. destruct (ends time s e D S0 E) as (a0 & Z0 & VS & VE & O & LA). pose proof (onday_self s (proj1 VS)) as SS. rewrite D1 in SS.
  assert (DE : (1 <=? day e)%Z = true) by (apply Z.leb_le; apply VE).
  assert (VIS : visited s e = Ok labels). { unfold visited. rewrite months_is. rewrite <- SS at 2. rewrite (visits_day e 1 VE ltac:(lia) _ (MonthOf s)); rewrite DE; [reflexivity|lia]. }
  assert (IN : Forall (fun x => exists t, t < n /\ nth_error time t = Some x) labels).
  { rewrite <- LT. apply (days_in time s e (MonthOf s) 1 count D S0 E ltac:(lia)). intros k K. unfold count in K. apply Z.leb_le in DE. split; [apply (ord_iff s _ VS (onday_28 _ 1 ltac:(lia)))|apply (ord_iff _ e (onday_28 _ 1 ltac:(lia)) VE)]; rewrite month_onday; cbn [OnDay day]; lia. }
  destruct (windows_are n time (DailyMake n wind sst p q) (DailyMaki n wind sst p q) labels D LT IN) as (both & EB & LB & HB). assert (LL : length labels = count) by (unfold labels; rewrite map_length, seq_length; reflexivity).
  exists (map fst both), (map snd both). rewrite !map_length. split; [lia|]. split; [lia|]. split; [intros k t K T; apply HB; [lia|exact T]|]. split.
  - intros k K. rewrite Forall_forall in IN. destruct (nth_error labels k) as [x|] eqn:X; [|apply nth_error_None in X; lia]. destruct (IN x (nth_error_In _ _ X)) as (t & T1 & T2). exists t. split; [exact T1|exact T2].
  - intros N1 N2. rewrite (maki_body n) by assumption. unfold finish. rewrite (proj2 (get_ok 90 time s) S0). cbn [bind]. cbv zeta. rewrite E. rewrite (daily_order time D). cbn [negb]. rewrite VIS. cbn [bind]. rewrite EB. cbn [bind]. unfold month_starts. rewrite D1. cbn [Z.eqb Pos.eqb]. cbv zeta. rewrite VIS. cbn [bind]. rewrite LB, Nat.eqb_refl. cbn [negb]. rewrite !labelled_is by assumption. reflexivity.
Qed.

Lemma C106_dates_refuted_proof : forall time wind sst p q rest n s e, length time = n -> Daily time -> Usable n wind sst (p :: q :: rest) ->
  nth_error time 90 = Some s -> last time s = e -> (1 < day s)%Z ->
  ((day s <= day e)%Z -> make_maki time time sst wind (p :: q :: rest) = Err ValueError) /\
  ((day s <= 28)%Z -> (day e < day s)%Z ->
     let count := Z.to_nat (MonthOf e - MonthOf s) in
     let labels := map (fun k => OnDay (MonthOf s + Z.of_nat k + 1) 1) (seq 0 count) in
     let ends := map (fun k => OnDay (MonthOf s + Z.of_nat k) (day s)) (seq 0 count) in
     exists makes makis, length makes = count /\ length makis = count /\
       (forall k t, k < count -> nth_error time t = nth_error ends k ->
          LeastOf91 (DailyMake n wind sst p q) t (nth k makes 0%R) /\ LeastOf91 (DailyMaki n wind sst p q) t (nth k makis 0%R)) /\
       (SpreadOf makes <> 0%R -> SpreadOf makis <> 0%R ->
        make_maki time time sst wind (p :: q :: rest) = Ok (Entries labels makes, Entries labels makis))).
Proof.
  intros time wind sst p q rest n s e LT D U S0 E D1. destruct (ends time s e D S0 E) as (a0 & Z0 & VS & VE & O & LA). pose proof (proj1 (ord_iff s e VS VE) (proj2 O)) as OR. split.
  - intros DE. rewrite (maki_body n) by assumption. unfold finish. rewrite (proj2 (get_ok 90 time s) S0). cbn [bind]. cbv zeta. rewrite E. rewrite (daily_order time D). cbn [negb]. unfold visited at 1. rewrite months_is. destruct (visits_len e VE _ s VS DE (le_n _)) as (days & V & LD). rewrite V. cbn [bind].
    destruct (windows_or time (map (DailyMake n wind sst p q) (seq 0 n)) (map (DailyMaki n wind sst p q) (seq 0 n)) days) as [(both & W)|W]; rewrite W; [|reflexivity]. cbn [bind]. pose proof (mapM_len _ _ _ W) as LB. rewrite (starts_after s e VS VE D1). cbn [bind]. rewrite LB, map_length, seq_length, LD. destruct (Nat.eqb_spec (Z.to_nat (MonthOf e - MonthOf s + 1)) (Z.to_nat (MonthOf e - MonthOf s))) as [X|_]; [exfalso; lia|]. reflexivity.
  - intros D2 DE count labels ends0. pose proof (onday_self s (proj1 VS)) as SS.
    assert (DL : (day s <=? day e)%Z = false) by (apply Z.leb_gt; exact DE).
    assert (VIS : visited s e = Ok ends0). { unfold visited. rewrite months_is. rewrite <- SS at 2. rewrite (visits_day e (day s) VE ltac:(lia) _ (MonthOf s)); rewrite DL, Z.add_0_r; [reflexivity|lia]. }
    assert (IN : Forall (fun x => exists t, t < n /\ nth_error time t = Some x) ends0).
    { rewrite <- LT. apply (days_in time s e (MonthOf s) (day s) count D S0 E ltac:(lia)). intros k K. unfold count in K. split; [apply (ord_iff s _ VS (onday_28 _ (day s) ltac:(lia)))|apply (ord_iff _ e (onday_28 _ (day s) ltac:(lia)) VE)]; rewrite month_onday; cbn [OnDay day]; lia. }
    destruct (windows_are n time (DailyMake n wind sst p q) (DailyMaki n wind sst p q) ends0 D LT IN) as (both & EB & LB & HB). assert (LL : length ends0 = count) by (unfold ends0; rewrite map_length, seq_length; reflexivity).
    exists (map fst both), (map snd both). rewrite !map_length. split; [lia|]. split; [lia|]. split; [intros k t K T; apply HB; [lia|exact T]|].
    intros N1 N2. rewrite (maki_body n) by assumption. unfold finish. rewrite (proj2 (get_ok 90 time s) S0). cbn [bind]. cbv zeta. rewrite E. rewrite (daily_order time D). cbn [negb]. rewrite VIS. cbn [bind]. rewrite EB. cbn [bind]. rewrite (starts_after s e VS VE D1). fold count. fold labels. cbn [bind]. replace (length labels) with count by (unfold labels; rewrite map_length, seq_length; reflexivity). rewrite LB, LL, Nat.eqb_refl. cbn [negb]. rewrite !labelled_is by assumption. reflexivity.
Qed.

Lemma C106_dates_case_proof : ordinal (Date 2001 1 1) = (ordinal (Date 2001 4 1) - 90)%Z /\ ordinal (Date 2000 1 1) = (ordinal (Date 2000 3 31) - 90)%Z.
Proof.
  split; vm_compute; reflexivity.
Qed.

Lemma C106_usable_case_proof : exists wind sst p q, Usable 200 wind sst [p; q] /\ length sst = 1.
Proof.
  set (pulse := map (fun t => if t =? 0 then 1%R else 0%R) (seq 0 200)). exists [pulse], [pulse], [1%R; 0%R], [0%R; 1%R]. split; [|reflexivity].
  assert (P0 : SeriesIn [pulse] 0 0 = 1%R) by reflexivity. assert (P1 : SeriesIn [pulse] 0 1 = 0%R) by reflexivity. assert (L : length pulse = 200) by (unfold pulse; rewrite map_length, seq_length; reflexivity).
  assert (SP : Spread 200 (SeriesIn [pulse] 0) <> 0%R) by (apply spread_two; [lia|rewrite P0, P1; lra]). set (sp := Spread 200 (SeriesIn [pulse] 0)) in *.
  split; [reflexivity|]. split; [repeat constructor; exact L|]. split; [intros l LL; assert (l = 0) as -> by (cbn in LL; lia); split; exact SP|]. split; [repeat constructor|]. exists [1%R; 0%R], [0%R; 1%R], []. split; [reflexivity|].
  assert (I : (1 / sp <> 0)%R) by (unfold Rdiv; rewrite Rmult_1_l; apply Rinv_neq_0_compat; exact SP).
  split; (apply spread_two; [lia|]); unfold Onto; cbn [length]; unfold SumBelow; cbn [seq map fold_right Nat.add nth]; unfold Unit; fold sp; rewrite P0, P1; intros X; apply I; unfold Rdiv in *; rewrite ?Rmult_0_l in *; lra.
Qed.

Lemma C106_factors_proof : forall time wtime sst wind patterns c c', length c = length sst -> length c' = length wind ->
  Forall (fun x => (0 < x)%R) (c ++ c') ->
  make_maki time wtime (TimesEach c sst) (TimesEach c' wind) patterns = make_maki time wtime sst wind patterns.
Proof.
  intros time wtime sst wind patterns c c' LC LC' F. apply Forall_app in F. destruct F as [FC FC'].
  assert (G : forall k data, length k = length data -> Forall (fun x => (0 < x)%R) k -> mapM normal (TimesEach k data) = mapM normal data /\ length (TimesEach k data) = length data).
  { induction k as [|a k IH]; intros [|s data] L FK; try discriminate L; [split; reflexivity|]. destruct (IH data ltac:(cbn in L; lia) (Forall_inv_tail FK)) as [I1 I2]. unfold TimesEach in *. cbn [combine map fst snd mapM length]. rewrite normal_times by exact (Forall_inv FK). rewrite I1, I2. split; reflexivity. }
  destruct (G c sst LC FC) as [A1 A2]. destruct (G c' wind LC' FC') as [B1 B2]. unfold make_maki. rewrite A1, A2, B1, B2. reflexivity.
Qed.

Lemma C106_factors_case_proof : TimesEach [2%R] [[1; 3]%R] = [[2 * 1; 2 * 3]%R].
Proof.
  reflexivity.
Qed.

Lemma C106_sign_proof : forall time wtime sst wind p q rest make maki make' maki',
  make_maki time wtime sst wind (p :: q :: rest) = Ok (make, maki) ->
  make_maki time wtime sst wind (p :: map Ropp q :: rest) = Ok (make', maki') -> make' = make.
Proof.
  intros time wtime sst wind p q rest make maki make' maki' H H'. unfold make_maki in H, H'. destruct (mapM normal sst) as [sn|]; [|discriminate H]. cbn [bind] in H, H'. destruct (mapM normal wind) as [wn|]; [|discriminate H]. cbn [bind] in H, H'. destruct (negb _); [discriminate H|].
  cbn [forallb] in H, H'. rewrite map_length in H'. destruct (negb _); [discriminate H|]. cbv zeta in H, H'. cbn [map] in H, H'. unfold get at 1 2 in H. unfold get at 1 2 in H'. cbn [nth_error bind] in H, H'.
  destruct (normal _) as [PC1|] in H, H'; [|discriminate H]. cbn [bind] in H, H'. destruct (normal _) as [PC2|] eqn:N2 in H; [|discriminate H]. cbn [bind] in H. apply normal_opp in N2.
  match type of H' with context [normal ?l] => match type of N2 with normal ?m = _ => replace l with m in H' end end.
  2: { rewrite !map_map. apply map_ext. intros t. f_equal. rewrite <- Ropp_mult_distr_l_reverse || idtac. assert (G : forall (e : list R) dat, (- rsum (map (fun p0 : R * list R => fst p0 * nth t (snd p0) 0) (combine e dat)))%R = rsum (map (fun p0 : R * list R => (fst p0 * nth t (snd p0) 0)%R) (combine (map Ropp e) dat))) by (induction e as [|a e IH]; intros [|b dat]; cbn; try ring; rewrite <- IH; unfold rsum; cbn; ring). apply G. }
  rewrite N2 in H'. cbn [bind] in H'. assert (PM : map (fun p0 : R * R => (fst p0 + Rabs (snd p0))%R) (combine PC1 (map Ropp PC2)) = map (fun p0 : R * R => (fst p0 + Rabs (snd p0))%R) (combine PC1 PC2)) by (clear; revert PC2; induction PC1 as [|a l IH]; intros [|b m]; cbn; try reflexivity; rewrite IH, Rabs_Ropp; reflexivity). rewrite PM in H'. clear PM.
  destruct (get 90 time) as [s|]; [|discriminate H]. cbn [bind] in H, H'. destruct (negb _); [discriminate H|]. destruct (visited s _) as [days|]; [|discriminate H]. cbn [bind] in H, H'.
  assert (FS : forall f g both, mapM (fun d => a <- window_min wtime f d ;; b <- window_min wtime g d ;; Ok (a, b)) days = Ok both -> mapM (window_min wtime f) days = Ok (map fst both)).
  { clear. intros f g. induction days as [|d days IH]; intros both B; cbn [mapM] in *; [injection B as <-; reflexivity|]. destruct (window_min wtime f d) as [a|]; [|discriminate B]. cbn [bind] in *. destruct (window_min wtime g d) as [b|]; [|discriminate B]. cbn [bind] in *. destruct (mapM _ days) as [r|] in B, IH; [|discriminate B]. cbn [bind] in B. injection B as <-. rewrite (IH r eq_refl). reflexivity. }
  destruct (mapM _ days) as [both|] eqn:B in H; [|discriminate H]. destruct (mapM _ days) as [both'|] eqn:B' in H'; [|discriminate H']. apply FS in B, B'. rewrite B in B'. injection B' as B'. cbn [bind] in H, H'. destruct (month_starts s _) as [mon|]; [|discriminate H]. cbn [bind] in H, H'. destruct (negb _); [discriminate H|]. destruct (negb _); [discriminate H'|]. rewrite <- B' in H'. destruct (labelled mon (map fst both)) as [x|]; [|discriminate H]. cbn [bind] in H, H'. destruct (labelled _ _); [|discriminate H]. destruct (labelled _ _); [|discriminate H']. cbn [bind] in H, H'. congruence.
Qed.

Lemma C106_exceptions_proof : forall time wtime wind sst patterns n, length time = n ->
  Forall (fun s => SpreadOf s <> 0%R) (sst ++ wind) ->
  let run := make_maki time wtime sst wind patterns in
  (length wtime <> n \/ length wind <> length sst -> run = Err ValueError) /\
  (length wtime = n -> length wind = length sst ->
   (~ Forall (fun p => length p = 2 * length sst) patterns -> run = Err ValueError) /\
   (Forall (fun p => length p = 2 * length sst) patterns -> length patterns < 2 -> run = Err IndexError)) /\
  (length wtime = n -> Usable n wind sst patterns -> n <= 90 -> run = Err IndexError).
Proof.
  intros time wtime wind sst patterns n LT F run. apply Forall_app in F. destruct F as [FS FW].
  assert (G : forall data, Forall (fun s => SpreadOf s <> 0%R) data -> exists r, mapM normal data = Ok r) by (induction data as [|s data IH]; intros FD; [eexists; reflexivity|]; cbn [mapM]; rewrite (normal_of s (Forall_inv FD)); destruct (IH (Forall_inv_tail FD)) as (r & ->); eexists; reflexivity).
  destruct (G sst FS) as (sn & ES). destruct (G wind FW) as (wn & EW). split; [|split].
  - intros H. unfold run, make_maki. rewrite ES, EW. cbn [bind]. rewrite LT. destruct (Nat.eqb_spec (length wtime) n), (Nat.eqb_spec (length wind) (length sst)); try reflexivity. destruct H; contradiction.
  - intros LW LL. unfold run, make_maki. rewrite ES, EW. cbn [bind]. rewrite LT, LW, LL, !Nat.eqb_refl. cbn [andb negb]. split.
    + intros NF. destruct (forallb _ patterns) eqn:E; [|reflexivity]. exfalso. apply NF. apply forallb_len. exact E.
    + intros FP L2. rewrite (proj2 (forallb_len _ _) FP). cbn [negb]. destruct patterns as [|p [|q rest]]; [reflexivity|reflexivity|cbn in L2; lia].
  - intros LW U L90. destruct U as (U1 & U2 & U3 & U4 & p & q & rest & -> & U5). assert (U : Usable n wind sst (p :: q :: rest)) by (repeat (split; [assumption|]); exists p, q, rest; split; [reflexivity|exact U5]). unfold run. rewrite (maki_body n) by assumption. unfold finish, get. replace (nth_error time 90) with (@None date) by (symmetry; apply nth_error_None; lia). reflexivity.
Qed.

