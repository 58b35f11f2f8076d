(** Property C09: economic cost/loss value. *)
From Coq Require Import Permutation.
From Verif Require Import PyBase ColumnModel BaseSpec EclvModel EclvSpec EclvProofs.

(** C09: for genuine counts with events and non-events and ratios inside (0,1) a result
    exists; its points are the requested ones (plus the base rate when asked) in ascending
    order; each value is the realised fraction of the possible saving. *)
Theorem C09_value_meaning : forall a b c d pts add,
  0 <= a -> 0 <= b -> 0 <= c -> 0 <= d -> 0 < a + c -> 0 < b + d ->
  (forall x, In x pts -> 0 < x < 1) ->
  exists r, calculate_economic_value [Some a; Some b; Some c; Some d] pts add = Ok (Some r) /\
    (exists s, s == base_rate a b c d /\ Permutation (e_cl r) (if add then pts ++ [s] else pts)) /\
    Ascending (e_cl r) /\ length (e_V r) = length (e_cl r) /\
    (forall cl v, In (cl, v) (combine (e_cl r) (e_V r)) ->
       EconomicValue (hit_rate a b c d) (false_rate a b c d) (base_rate a b c d) cl v) /\
    Nearest 7 (hit_rate a b c d - false_rate a b c d) (e_vmax r) /\
    Nearest 7 (hit_rate a b c d) (e_H r) /\ Nearest 7 (false_rate a b c d) (e_F r) /\
    Nearest 7 (base_rate a b c d) (e_s r) /\ e_n r == a + b + c + d.
Proof. exact eclv_main. Qed.
Print Assumptions C09_value_meaning.

(** C09: upper bounds, and the maximum H - F is taken at the base rate. *)
Theorem C09_value_bounds : forall a b c d pts add r,
  0 <= a -> 0 <= b -> 0 <= c -> 0 <= d -> 0 < a + c -> 0 < b + d ->
  (forall x, In x pts -> 0 < x < 1) ->
  calculate_economic_value [Some a; Some b; Some c; Some d] pts add = Ok (Some r) ->
  forall cl v, In (cl, v) (combine (e_cl r) (e_V r)) ->
    v <= hit_rate a b c d - false_rate a b c d /\ v <= 1 /\
    v <= hit_rate a b c d /\ v <= 1 - false_rate a b c d /\
    (cl == base_rate a b c d -> v == hit_rate a b c d - false_rate a b c d).
Proof. exact eclv_bounds. Qed.
Print Assumptions C09_value_bounds.

(** C09: increasing up to the base rate, decreasing from it on. *)
Theorem C09_value_monotone : forall a b c d pts add r,
  0 <= a -> 0 <= b -> 0 <= c -> 0 <= d -> 0 < a + c -> 0 < b + d ->
  (forall x, In x pts -> 0 < x < 1) ->
  calculate_economic_value [Some a; Some b; Some c; Some d] pts add = Ok (Some r) ->
  forall x v y w, In (x, v) (combine (e_cl r) (e_V r)) -> In (y, w) (combine (e_cl r) (e_V r)) ->
    x <= y -> (y <= base_rate a b c d -> v <= w) /\ (base_rate a b c d <= x -> w <= v).
Proof. exact eclv_mono. Qed.
Print Assumptions C09_value_monotone.

(** C09: exactly when the value is undefined; nothing is raised. *)
Theorem C09_defined_iff : forall a b c d pts add,
  exists r, calculate_economic_value [Some a; Some b; Some c; Some d] pts add = Ok r /\
  (r = None <-> a + c == 0 \/ b + d == 0 \/ a + b + c + d == 0 \/
                exists x, In x pts /\ (x == 0 \/ x == 1)).
Proof. exact eclv_defined_iff. Qed.
Print Assumptions C09_defined_iff.

(** C09: a missing count makes it undefined. *)
Theorem C09_missing_count : forall values pts add, In None values ->
  calculate_economic_value values pts add = Ok None.
Proof. exact eclv_missing. Qed.
Print Assumptions C09_missing_count.

(** C09: for contingency tables the statistic is the value of the column totals. *)
Theorem C09_table : forall data columns np_float thresh pts addz a b c d,
  sum_column_data_by_name data columns "fy_oy" true = Ok a ->
  sum_column_data_by_name data columns "fy_on" true = Ok b ->
  sum_column_data_by_name data columns "fn_oy" true = Ok c ->
  sum_column_data_by_name data columns "fn_on" true = Ok d ->
  calculate_eclv data columns np_float thresh "ctc" pts addz
  = calculate_economic_value [a; b; c; d] pts (addz =? 1)%Z.
Proof. exact eclv_ctc_table. Qed.
Print Assumptions C09_table.

(** Finding: with the pinned numpy (no [np.float]) every probability-table ECLV raises. *)
Theorem C09_pct_defined_refuted : forall data columns th pts addz,
  calculate_eclv data columns false (Some th) "pct" pts addz = Err AttributeError.
Proof. exact eclv_pct_raises. Qed.
Print Assumptions C09_pct_defined_refuted.

(** Finding: the ECLV statistic of the contingency-table module is None for all data. *)
Theorem C09_ctc_statistics_defined_refuted : forall data columns a b c d,
  sum_column_data_by_name data columns "fy_oy" true = Ok a ->
  sum_column_data_by_name data columns "fy_on" true = Ok b ->
  sum_column_data_by_name data columns "fn_oy" true = Ok c ->
  sum_column_data_by_name data columns "fn_on" true = Ok d ->
  calculate_eclv_ctc_statistics data columns = Ok None.
Proof. exact eclv_ctc_statistics_none. Qed.
Print Assumptions C09_ctc_statistics_defined_refuted.

Example C09_case :
  0 < 10 + 5 /\ 0 < 3 + 82 /\ (forall x, In x [1#2; 1#10] -> 0 < x < 1) /\
  match calculate_economic_value [Some 10; Some 3; Some 5; Some 82] [1#2; 1#10] true with
  | Ok (Some r) => map Qred (e_cl r) = [1#10; 3#20; 1#2] /\
                   map Qred (e_V r) = [37 # 85; 161 # 255; 7 # 15] /\ e_n r == 100
  | _ => False
  end.
Proof.
  split; [reflexivity|]. split; [reflexivity|].
  split; [intros x [<-|[<-|[]]]; split; reflexivity|].
  vm_compute. repeat split; reflexivity.
Qed.
