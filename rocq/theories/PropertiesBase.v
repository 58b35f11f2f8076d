(** Properties C01-C03: rounding, column totals, row filters. *)
From Coq Require Import Permutation.
From Verif Require Import PyBase ColumnModel BaseSpec BaseProofs FilterProofs.

(** C01: nearest multiple of 10^-d, ties up. *)
Theorem C01_round_nearest : forall (v : Q) (d : nat), Nearest d v (round_half_up v d).
Proof. exact rhu_nearest. Qed.
Print Assumptions C01_round_nearest.

(** C01: the nearest-with-ties-up value is unique, so the previous theorem determines the result. *)
Theorem C01_nearest_unique : forall d v w w', Nearest d v w -> Nearest d v w' -> w == w'.
Proof. exact nearest_unique. Qed.
Print Assumptions C01_nearest_unique.

(** C01: order preservation. *)
Theorem C01_round_monotone : forall v v' d, v <= v' -> round_half_up v d <= round_half_up v' d.
Proof. exact rhu_mono. Qed.
Print Assumptions C01_round_monotone.

(** C01: already rounded numbers are unchanged. *)
Theorem C01_round_fixpoint : forall w d, MultipleOf d w -> round_half_up w d == w.
Proof. exact rhu_fix. Qed.
Print Assumptions C01_round_fixpoint.

Theorem C01_round_idempotent : forall v d, round_half_up (round_half_up v d) d == round_half_up v d.
Proof. exact rhu_idem. Qed.
Print Assumptions C01_round_idempotent.

(** C01: rounding stays inside intervals with representable ends. *)
Theorem C01_round_interval : forall lo hi v d,
  MultipleOf d lo -> MultipleOf d hi -> lo <= v <= hi -> lo <= round_half_up v d <= hi.
Proof. exact rhu_interval. Qed.
Print Assumptions C01_round_interval.

Example C01_tie_up : round_half_up (5 # 100000000) 7 == (1 # 10000000) /\
  round_half_up (- (5 # 100000000)) 7 == 0 /\ MultipleOf 7 (- (1#4)) /\ - (1#4) <= (1#3) <= 1.
Proof.
  split; [vm_compute; reflexivity|]. split; [vm_compute; reflexivity|].
  split; [exists (-2500000)%Z; vm_compute; reflexivity|]. split; lra.
Qed.

(** C02: the computed total is the total of the column. *)
Theorem C02_total : forall data columns name,
  Rectangular data columns -> NumericColumn data columns name ->
  exists s, sum_column_data_by_name data columns name true = Ok s /\
            ColumnTotal data columns name s.
Proof. exact sum_column_is_total. Qed.
Print Assumptions C02_total.

(** C02: that total is unique. *)
Theorem C02_total_unique : forall data columns name o o',
  ColumnTotal data columns name o -> ColumnTotal data columns name o' -> oeq o o'.
Proof. exact ColumnTotal_fun. Qed.
Print Assumptions C02_total_unique.

(** C02: row order is irrelevant. *)
Theorem C02_total_permutation : forall data data' columns name o,
  Permutation data data' -> ColumnTotal data columns name o -> ColumnTotal data' columns name o.
Proof. exact ColumnTotal_perm. Qed.
Print Assumptions C02_total_permutation.

(** C02: splitting rows in two parts splits the total. *)
Theorem C02_total_split : forall d1 d2 columns name a b,
  ColumnTotal d1 columns name a -> ColumnTotal d2 columns name b ->
  ColumnTotal (d1 ++ d2) columns name (ototal a b).
Proof. exact ColumnTotal_app. Qed.
Print Assumptions C02_total_split.

(** C02: with missing-removal switched off, a single missing cell makes it undefined. *)
Theorem C02_total_keep_missing : forall data columns name,
  Rectangular data columns -> NumericColumn data columns name ->
  (exists i r, ColumnAt columns name i /\ In r data /\ nth_error r i = Some CMiss) ->
  sum_column_data_by_name data columns name false = Ok None.
Proof. exact sum_column_keep_missing. Qed.
Print Assumptions C02_total_keep_missing.

Example C02_case :
  let data := [[CNum 3; CMiss]; [CMiss; CStr "x"]; [CNum (1#2); CMiss]] in
  Rectangular data ["a"; "b"]%string /\ NumericColumn data ["a"; "b"]%string "a" /\
  sum_column_data_by_name data ["a"; "b"]%string "a" true = Ok (Some (7#2)) /\
  sum_column_data_by_name data ["a"; "b"]%string "a" false = Ok None.
Proof.
  split; [intros r H; simpl in H; destruct H as [<-|[<-|[<-|[]]]]; reflexivity|].
  split; [|vm_compute; split; reflexivity].
  intros i r s [Hi _] H. destruct i as [|[|i]]; simpl in Hi; try discriminate.
  - simpl in H; destruct H as [<-|[<-|[<-|[]]]]; discriminate.
  - destruct i; discriminate.
Qed.

(** C03: exactly the rows satisfying every condition, in order; and their number. *)
Theorem C03_filter_exact : forall data columns conds,
  Rectangular data columns -> ConditionsTyped data columns conds ->
  (forall k v, In (k, v) conds -> In k columns) ->
  exists p, (forall r, In r data -> (p r = true <-> Satisfies columns conds r)) /\
    column_data_by_name_value data columns conds = Ok (FRows (filter p data)) /\
    nrow_column_data_by_name_value data columns conds
      = Ok (inject_Z (Z.of_nat (length (filter p data)))).
Proof. exact filter_spec. Qed.
Print Assumptions C03_filter_exact.

(** C03: the order of the conditions is irrelevant. *)
Theorem C03_filter_order : forall data columns conds conds',
  Rectangular data columns -> ConditionsTyped data columns conds ->
  (forall k v, In (k, v) conds -> In k columns) -> Permutation conds conds' ->
  column_data_by_name_value data columns conds = column_data_by_name_value data columns conds'.
Proof. exact filter_order. Qed.
Print Assumptions C03_filter_order.

(** C03: an absent column gives the number 0 from the filter, an AttributeError from the counter. *)
Theorem C03_filter_absent_column : forall data columns pre k v post,
  Rectangular data columns -> ConditionsTyped data columns pre ->
  (forall k' v', In (k', v') pre -> In k' columns) -> ~ In k columns ->
  column_data_by_name_value data columns (pre ++ (k, v) :: post) = Ok FZero /\
  nrow_column_data_by_name_value data columns (pre ++ (k, v) :: post) = Err AttributeError.
Proof. exact filter_absent. Qed.
Print Assumptions C03_filter_absent_column.

Example C03_case :
  let data := [[CNum 1; CStr "2d"]; [CNum 0; CStr "2d"]; [CNum 1; CStr "3d"]] in
  let conds := [("f"%string, FInt 1); ("t"%string, FStr "2d")] in
  Rectangular data ["f"; "t"]%string /\ ConditionsTyped data ["f"; "t"]%string conds /\
  column_data_by_name_value data ["f"; "t"]%string conds = Ok (FRows [[CNum 1; CStr "2d"]]).
Proof.
  split; [intros r H; simpl in H; destruct H as [<-|[<-|[<-|[]]]]; reflexivity|].
  split; [|vm_compute; reflexivity].
  intros key q [H|[H|[]]]; [|discriminate]. injection H as <- <-.
  intros i r [Hi _] H. destruct i as [|[|i]]; simpl in Hi; try discriminate.
  - simpl in H; destruct H as [<-|[<-|[<-|[]]]]; [exists 1, 1%Z|exists 0, 0%Z|exists 1, 1%Z];
      split; reflexivity.
  - destruct i; discriminate.
Qed.
