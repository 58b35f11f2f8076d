(** The programs from file to file with the statistics by name: metcalcpy/agg_stat.py and metcalcpy/sum_stat.py.  The drivers
    are those of DriveModel.v and SumDriveModel.v, the files those of FileModel.v, the functions those of PoolModel.v. *)
From Coq Require Import Reals.
From Verif Require Import PyBase ColumnModel AggModel.
From Verif Require EventModel.
From Verif Require Import BootModel PoolModel FileModel.
From Coq Require Import List.
Open Scope string_scope.

(** sum_stat.py 44-54: modules that agg_stat.py imports and sum_stat.py does not, as names of statistics:
    sal1l2_statistics.py, ssvar_statistics.py and mcts_statistics.py. *)
Definition not_imported : list string := [
  "anom_corr"; "anom_corr_raw"; "rmsfa"; "rmsoa"; "sal1l2_total";
  "ssvar_fbar"; "ssvar_fstdev"; "ssvar_obar"; "ssvar_ostdev"; "ssvar_pr_corr"; "ssvar_me"; "ssvar_estdev"; "ssvar_mse";
  "ssvar_bcmse"; "ssvar_bcrmse"; "ssvar_rmse"; "ssvar_anom_corr"; "ssvar_me2"; "ssvar_msess"; "ssvar_spread"; "ssvar_total";
  "mcts_hss_ec" ].
(** sum_stat.py 279-296, [calculate_statistic]: the statistic of one row, not aggregated. *)
Definition calculate_statistic (lambertw : R -> R) (name : string) : option (list string -> tdata -> res pyval) :=
  if EventModel.mem name not_imported then None
  else match assoc name (functions lambertw) with
       | Some f => Some (fun columns rows => f rows columns false)
       | None => if EventModel.mem name not_followed then Some (fun _ _ => Err NotModelled) else None
       end.

(** agg_stat.py 79-104 and 219-281: the program calls the functions of the columns it has read. *)
Definition with_functions (lambertw : R -> R) (gen : Type) (randint : gen -> nat -> nat * gen) (seed_gen : Z -> gen)
  (state : string -> tdata -> gen) (alpha : Q) (iterations threads cpus : Z) (seeds : list Z) (method : ci_method) (is_cbb : bool)
  (equivalence : list Q -> list Q -> res unit) (p : agg_params) : agg_params :=
  AggParams (agg_input p) (agg_output p) (agg_append p) (agg_event_equal p) (agg_fixed p) (agg_var1 p) (agg_var2 p) (agg_rq1 p) (agg_rq2 p)
    (fun columns => PoolModel.agg_engine lambertw gen randint seed_gen state alpha iterations threads cpus seeds method is_cbb
                      (agg_line_type p) columns equivalence)
    (agg_single p) (agg_line_type p).
(** sum_stat.py 245-261: the same for the summary program. *)
Definition with_statistics (lambertw : R -> R) (p : sum_params) : sum_params :=
  SumParams (sum_input p) (sum_output p) (sum_event_equal p) (sum_fixed p) (sum_var1 p) (sum_var2 p) (sum_line_type p) (sum_indy p)
    (sum_indy_vals p) (sum_series1 p) (sum_series2 p) (calculate_statistic lambertw).
