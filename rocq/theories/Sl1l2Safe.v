From Verif Require Import PyBase ColumnModel BaseSpec BaseProofs RealBase SafeProofs Sl1l2Model.
From Coq Require Import Reals.
Open Scope string_scope.
Open Scope Q_scope.

Lemma safe_sub {A} l l' (m : res A) : forallb (fun e => existsb (exn_eqb e) l') l = true -> Safe l m -> Safe l' m.
Proof.
  intros H S. apply (safe_weaken l); [exact S|]. intros e He. rewrite forallb_forall in H. specialize (H e He).
  apply existsb_exists in H. destruct H as (x & Hx & E). apply exn_eqb_eq in E. congruence.
Qed.

Section S.
Variables (data : tdata) (columns : list string) (agg : bool).

Lemma colsum_any name : Safe [ValueError] (colsum data columns name).
Proof. apply safe_sum. Qed.
Lemma total_any : Safe [ValueError] (get_total data columns agg).
Proof. unfold get_total, get_total_values. destruct agg; [apply safe_sum|apply safe_ok]. Qed.

Definition WV := [ValueError; TypeError; PyWarning].
Ltac leaf := match goal with
  | |- Safe ?l (colsum _ _ _) => apply (safe_sub [ValueError]); [reflexivity|apply colsum_any]
  | |- Safe ?l (get_total _ _ _) => apply (safe_sub [ValueError]); [reflexivity|apply total_any] end.
Ltac go := unfold pyround, pysq, pylit, npdiv, pydiv, pybin, rround, rdiv, toR, np_sqrt, calculate_stddev;
  repeat first [leaf | assumption | safe1 | progress cbv beta].

Lemma mean_stat_ok name : Safe [] (mean_stat data columns agg name).
Proof. apply (safe_catch' WV); [unfold WV; go|reflexivity]. Qed.
Lemma mbias_ok : Safe [] (calculate_mbias data columns agg).
Proof. apply (safe_catch' WV); [unfold WV; go|reflexivity]. Qed.
Lemma fe_ok : Safe [] (calculate_fe data columns agg).
Proof. apply (safe_catch' WV); [unfold WV; go|reflexivity]. Qed.
Lemma me_ok : Safe [] (calculate_me data columns agg).
Proof. apply (safe_catch' WV); [unfold WV; go|reflexivity]. Qed.
Lemma pr_corr_ok : Safe [] (calculate_pr_corr data columns agg).
Proof. apply (safe_catch' WV); [unfold WV; go|reflexivity]. Qed.
Lemma stdev_value_error name sqname : Safe [ValueError] (stdev_stat data columns agg name sqname).
Proof. apply (safe_catch' WV); [unfold WV; go|reflexivity]. Qed.
Lemma mse_value_error : Safe [ValueError] (calculate_mse data columns agg).
Proof. apply (safe_catch' WV); [unfold WV; go|reflexivity]. Qed.
Lemma me2_ok : Safe [] (calculate_me2 data columns agg).
Proof.
  apply (safe_catch' [TypeError; PyWarning]); [|reflexivity].
  apply safe_bind; [apply (safe_sub []); [reflexivity|apply me_ok]|intro]. go.
Qed.
Lemma msess_ok : Safe [] (calculate_msess data columns agg).
Proof.
  apply (safe_catch' (ZeroDivisionError :: WV)); [|reflexivity].
  apply safe_bind; [apply (safe_sub [ValueError]); [reflexivity|apply stdev_value_error]|intro].
  apply safe_bind; [apply (safe_sub [ValueError]); [reflexivity|apply mse_value_error]|intro]. go.
Qed.

(** Tables without text cells. *)
Hypothesis HR : Rectangular data columns.
Hypothesis HN : forall name, NumericColumn data columns name.

Lemma colsum_num name : Safe [] (colsum data columns name).
Proof. apply safe_sum_num; auto. Qed.
Lemma total_num a : Safe [] (get_total data columns a).
Proof. unfold get_total, get_total_values. destruct a; [apply colsum_num|apply safe_ok]. Qed.
Ltac leaf ::= match goal with
  | |- Safe ?l (colsum _ _ _) => apply (safe_sub []); [reflexivity|apply colsum_num]
  | |- Safe ?l (get_total _ _ _) => apply (safe_sub []); [reflexivity|apply total_num] end.
Definition TW := [TypeError; PyWarning].
Lemma stdev_num name sqname : Safe [] (stdev_stat data columns agg name sqname).
Proof. apply (safe_catch' TW); [unfold TW; go|reflexivity]. Qed.
Lemma mse_num a : Safe [] (calculate_mse data columns a).
Proof. apply (safe_catch' TW); [unfold TW; go|reflexivity]. Qed.
Lemma me_num a : Safe [] (calculate_me data columns a).
Proof. apply (safe_catch' TW); [unfold TW; go|reflexivity]. Qed.
Lemma rmse_num : Safe [] (calculate_rmse data columns agg).
Proof.
  apply (safe_catch' TW); [|reflexivity]. unfold rround, np_sqrt.
  apply safe_bind; [|intro; unfold TW; go].
  apply safe_bind; [apply (safe_sub []); [reflexivity|apply mse_num]|intro; unfold TW; go].
Qed.
Lemma bcmse_num : Safe [] (calculate_bcmse data columns agg).
Proof.
  apply (safe_catch' TW); [|reflexivity].
  apply safe_bind; [apply (safe_sub []); [reflexivity|apply mse_num]|intro].
  apply safe_bind; [apply (safe_sub []); [reflexivity|apply me_num]|intro]. unfold TW; go.
Qed.
Lemma bcrmse_num : Safe [] (calculate_bcrmse data columns agg).
Proof.
  apply (safe_catch' TW); [|reflexivity]. unfold rround, np_sqrt.
  apply safe_bind; [|intro; unfold TW; go].
  apply safe_bind; [apply (safe_sub []); [reflexivity|apply bcmse_num]|intro; unfold TW; go].
Qed.
Lemma estdev_num : Safe [] (calculate_estdev data columns agg).
Proof.
  apply (safe_catch' TW); [|reflexivity].
  apply safe_bind; [apply (safe_sub []); [reflexivity|apply colsum_num]|intro].
  apply safe_bind; [apply (safe_sub []); [reflexivity|apply me_num]|intro].
  apply safe_bind; [apply (safe_sub []); [reflexivity|apply mse_num]|intro]. unfold TW; go.
Qed.
Lemma si_num : Safe [ZeroDivisionError] (calculate_si data columns agg).
Proof.
  apply (safe_catch' [TypeError; PyWarning; ZeroDivisionError]); [|reflexivity].
  apply safe_bind; [apply (safe_sub []); [reflexivity|apply rmse_num]|intro].
  apply safe_bind; [apply (safe_sub []); [reflexivity|apply mean_stat_ok]|intro]. go.
Qed.
End S.

Lemma sl1l2_never_raise data columns agg :
  Forall (fun f => exists r, f data columns agg = Ok r)
    [calculate_fbar; calculate_obar; calculate_fobar; calculate_ffbar; calculate_oobar; calculate_mae;
     calculate_mbias; calculate_fe; calculate_me; calculate_me2; calculate_pr_corr; calculate_msess].
Proof.
  repeat apply Forall_cons; try apply Forall_nil; apply safe_nil_ok;
    first [apply mean_stat_ok | apply mbias_ok | apply fe_ok | apply me_ok | apply me2_ok | apply pr_corr_ok | apply msess_ok].
Qed.

Lemma sl1l2_never_raise_numeric data columns agg :
  Rectangular data columns -> (forall name, NumericColumn data columns name) ->
  Forall (fun f => exists r, f data columns agg = Ok r)
    [calculate_fstdev; calculate_ostdev; calculate_mse; calculate_rmse; calculate_estdev; calculate_bcmse; calculate_bcrmse].
Proof.
  intros HR HN. repeat apply Forall_cons; try apply Forall_nil; apply safe_nil_ok;
    first [apply stdev_num | apply mse_num | apply rmse_num | apply estdev_num | apply bcmse_num | apply bcrmse_num]; assumption.
Qed.

Lemma mse_text_raises : exists data columns,
  calculate_mse data columns true = Err ValueError /\ calculate_fbar data columns true = Ok None.
Proof.
  exists [[CNum 3; CStr "NA"; CNum 1; CNum 1; CStr "NA"]], ["total"; "ffbar"; "oobar"; "fobar"; "fbar"].
  split; reflexivity.
Qed.

Lemma C39_case_proof : let columns := ["total"; "fbar"; "obar"] in let data := [[CNum 2; CNum 1; CMiss]; [CMiss; CNum (-3); CNum 4]] in
  Rectangular data columns /\ (forall name, NumericColumn data columns name).
Proof.
  split; [intros r [<-|[<-|[]]]; reflexivity|].
  intros name i r s _ [<-|[<-|[]]]; destruct i as [|[|[|i]]]; cbn; try discriminate; destruct i; discriminate.
Qed.

Lemma si_exact data columns agg :
  Rectangular data columns -> (forall name, NumericColumn data columns name) ->
  (forall e, calculate_si data columns agg = Err e <->
     e = ZeroDivisionError /\ exists m o, calculate_rmse data columns agg = Ok (Some m) /\
       calculate_obar data columns agg = Ok (Some o) /\ o == 0) /\
  (calculate_si data columns agg = Ok None <->
     calculate_rmse data columns agg = Ok None \/ calculate_obar data columns agg = Ok None).
Proof.
  intros HR HN. pose proof (safe_nil_ok _ (rmse_num data columns agg HR HN)) as (m & Em).
  assert (exists o, calculate_obar data columns agg = Ok o) as (o & Eo) by (apply safe_nil_ok, mean_stat_ok).
  unfold calculate_si. rewrite Em, Eo. cbn [bind]. unfold pydiv. cbn [bind].
  destruct m as [m|], o as [o|]; cbn [catch pyround bind].
  - destruct (Qeq_bool o 0) eqn:E; cbn.
    + apply Qeq_bool_iff in E. split; [|split; [discriminate|intros [H|H]; discriminate H]].
      intro e. split; [intros [= <-]|intros [-> _]; reflexivity]. split; [reflexivity|]. exists m, o. auto.
    + apply Qeq_bool_neq in E. split; [|split; [discriminate|intros [H|H]; discriminate H]].
      intro e. split; [discriminate|]. intros (_ & m' & o' & [= <-] & [= <-] & Z). contradiction.
  - split; [|split; [right; reflexivity|reflexivity]]. intro e. split; [discriminate|]. intros (_ & m' & o' & _ & H & _). discriminate H.
  - split; [|split; [left; reflexivity|reflexivity]]. intro e. split; [discriminate|]. intros (_ & m' & o' & H & _). discriminate H.
  - split; [|split; [left; reflexivity|reflexivity]]. intro e. split; [discriminate|]. intros (_ & m' & o' & H & _). discriminate H.
Qed.
