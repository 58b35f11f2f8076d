(** Properties C28, C36, C40: neighbourhood, ensemble, ranked-probability and gradient lines. *)
From Coq Require Import Reals Qreals Qabs Qminmax.
From Verif Require Import PyBase ColumnModel BaseSpec RealSpec AggModel AggSpec EnsModel EnsSpec EnsProofs.
Open Scope string_scope.
Open Scope Q_scope.

(** C36: the aggregated ensemble scores are the means of the lines weighted by their totals. *)
Theorem C36_weighted_means : forall es data columns,
  Table ecnt_fields columns es data ->
  Forall (fun '(name, stat, column) =>
      exists r, aggregated_ecnt name stat data columns = Ok r /\ Published (by_total (field column) es) r)
  [("ecnt_crps", calculate_ecnt_crps, "crps"); ("ecnt_crpscl", calculate_ecnt_crpscl, "crpscl");
   ("ecnt_crps_emp", calculate_ecnt_crps_emp, "crps_emp");
   ("ecnt_crps_emp_fair", calculate_ecnt_crps_emp_fair, "crps_emp_fair");
   ("ecnt_spread_md", calculate_ecnt_spread_md, "spread_md");
   ("ecnt_crpscl_emp", calculate_ecnt_crpscl_emp, "crpscl_emp"); ("ecnt_ign", calculate_ecnt_ign, "ign");
   ("ecnt_me", calculate_ecnt_me, "me"); ("ecnt_mae", calculate_ecnt_mae, "mae");
   ("ecnt_mae_oerr", calculate_ecnt_mae_oerr, "mae_oerr"); ("ecnt_me_oerr", calculate_ecnt_me_oerr, "me_oerr")].
Proof.
  exact C36_weighted_means_proof.
Qed.
Print Assumptions C36_weighted_means.

(** C36: skill is one minus the ratio of the weighted means. *)
Theorem C36_skill : forall es data columns,
  Table ecnt_fields columns es data ->
  (exists r, aggregated_ecnt "ecnt_crpss" calculate_ecnt_crpss data columns = Ok r /\
     Published (osub (Some 1) (oratio (by_total (field "crps") es) (by_total (field "crpscl") es))) r) /\
  (exists r, aggregated_ecnt "ecnt_crpss_emp" calculate_ecnt_crpss_emp data columns = Ok r /\
     Published (osub (Some 1) (oratio (by_total (field "crps_emp") es) (by_total (field "crpscl_emp") es))) r).
Proof.
  exact C36_skill_proof.
Qed.
Print Assumptions C36_skill.

(** C36: root-mean-square quantities are pooled through their squares. *)
Theorem C36_roots : forall es data columns,
  Table ecnt_fields columns es data ->
  Forall (fun '(name, stat, column) =>
      exists r, aggregated_ecnt name stat data columns = Ok r /\ RootPublished (by_total (square_of column) es) r)
  [("ecnt_rmse", calculate_ecnt_rmse, "rmse"); ("ecnt_spread", calculate_ecnt_spread, "spread");
   ("ecnt_rmse_oerr", calculate_ecnt_rmse_oerr, "rmse_oerr");
   ("ecnt_spread_oerr", calculate_ecnt_spread_oerr, "spread_oerr")].
Proof.
  exact C36_roots_proof.
Qed.
Print Assumptions C36_roots.

(** Finding: the spread plus observation error is computed from the spread of the perturbed members. *)
Theorem C36_spread_plus_oerr_actual : forall es data columns,
  Table ecnt_fields columns es data ->
  exists r, aggregated_ecnt "ecnt_spread_plus_oerr" calculate_ecnt_spread_plus_oerr data columns = Ok r /\
    RootPublished (by_total (square_of "spread_oerr") es) r.
Proof.
  exact C36_spread_plus_oerr_actual_proof.
Qed.
Print Assumptions C36_spread_plus_oerr_actual.

Theorem C36_spread_plus_oerr_refuted :
  ~ (forall es data columns r, Table ecnt_fields columns es data ->
       aggregated_ecnt "ecnt_spread_plus_oerr" calculate_ecnt_spread_plus_oerr data columns = Ok r ->
       RootPublished (by_total (square_of "spread_plus_oerr") es) r).
Proof.
  exact C36_spread_plus_oerr_refuted_proof.
Qed.
Print Assumptions C36_spread_plus_oerr_refuted.

(** C36: the conditional mean errors are weighted by the numbers of members they refer to. *)
Theorem C36_conditional : forall es data columns,
  Table ecnt_fields columns es data ->
  (exists r, aggregated_ecnt "ecnt_n_ge_obs" (fun d c _ => calculate_ecnt_n_ge_obs d c) data columns = Ok r /\
     Published (sum_present (map (field "n_ge_obs") es)) r) /\
  (exists r, aggregated_ecnt "ecnt_n_lt_obs" (fun d c _ => calculate_ecnt_n_lt_obs d c) data columns = Ok r /\
     Published (sum_present (map (field "n_lt_obs") es)) r) /\
  (exists r, aggregated_ecnt "ecnt_me_ge_obs" (fun d c _ => calculate_ecnt_me_ge_obs d c) data columns = Ok r /\
     Published (weighted_mean (field "n_ge_obs") (field "me_ge_obs") es) r) /\
  (exists r, aggregated_ecnt "ecnt_me_lt_obs" (fun d c _ => calculate_ecnt_me_lt_obs d c) data columns = Ok r /\
     Published (weighted_mean (field "n_lt_obs") (field "me_lt_obs") es) r) /\
  (exists ge lt r,
     Published (weighted_mean (field "n_ge_obs") (field "me_ge_obs") es) ge /\
     Published (weighted_mean (field "n_lt_obs") (field "me_lt_obs") es) lt /\
     aggregated_ecnt "ecnt_bias_ratio" (fun d c _ => calculate_ecnt_bias_ratio d c) data columns = Ok r /\
     Published (oratio ge (oabs lt)) r).
Proof.
  exact C36_conditional_proof.
Qed.
Print Assumptions C36_conditional.

(** C36: a weighted mean lies between the smallest and the largest value of the lines. *)
Theorem C36_within : forall w v es lo hi,
  (forall e, In e es -> exists n x, w e = Some n /\ v e = Some x /\ 0 <= n /\ lo <= x <= hi) ->
  (exists e n, In e es /\ w e = Some n /\ 0 < n) ->
  exists m, weighted_mean w v es = Some m /\ lo <= m <= hi.
Proof.
  exact C36_within_proof.
Qed.
Print Assumptions C36_within.

(** C36: hence the published score does so too, to its seventh decimal. *)
Theorem C36_published_within : forall es data columns lo hi,
  Table ecnt_fields columns es data ->
  (forall e, In e es -> exists n x, e "total" = Some n /\ e "crps" = Some x /\ 0 <= n /\ lo <= x <= hi) ->
  (exists e n, In e es /\ e "total" = Some n /\ 0 < n) ->
  MultipleOf 7 lo -> MultipleOf 7 hi ->
  exists r, aggregated_ecnt "ecnt_crps" calculate_ecnt_crps data columns = Ok (Some r) /\ lo <= r <= hi.
Proof.
  exact C36_published_within_proof.
Qed.
Print Assumptions C36_published_within.

(** Finding: a line whose score is missing still contributes its total, so the mean is not that of
    the lines which have the score. *)
Theorem C36_missing_ignored_refuted :
  ~ (forall es data columns r, Table ecnt_fields columns es data ->
       aggregated_ecnt "ecnt_crps" calculate_ecnt_crps data columns = Ok r ->
       Published (by_total (field "crps")
         (filter (fun e => match e "crps" with Some _ => true | None => false end) es)) r).
Proof.
  exact C36_missing_ignored_refuted_proof.
Qed.
Print Assumptions C36_missing_ignored_refuted.

(** C36: ranked probability scores. *)
Theorem C36_rps : forall es data columns,
  Table rps_fields columns es data -> ConsistentSkill "rps" "rpss" es ->
  (exists r, aggregated_rps calculate_rps data columns = Ok r /\ Published (by_total (field "rps") es) r) /\
  (exists r, aggregated_rps calculate_rps_comp data columns = Ok r /\ Published (by_total (field "rps_comp") es) r) /\
  (exists r, aggregated_rps calculate_rpss data columns = Ok r /\
     Published (osub (Some 1) (oratio (by_total (field "rps") es) (by_total (reference "rps" "rpss") es))) r).
Proof.
  exact C36_rps_proof.
Qed.
Print Assumptions C36_rps.

(** Two ensemble lines and two ranked-probability lines. *)
Example C36_case :
  Table ecnt_fields ecnt_fields (two_lines 3 5) [map (fun _ => CNum 3) ecnt_fields;
    map (fun n => if String.eqb n "ign" then CMiss else CNum 5) ecnt_fields] /\
  Table rps_fields rps_fields (two_lines 3 5) [map (fun _ => CNum 3) rps_fields; map (fun _ => CNum 5) rps_fields] /\
  ConsistentSkill "rps" "rpss" (two_lines 3 5) /\
  by_total (field "crps") (two_lines 3 5) = Some ((3 * 3 + 5 * 5) / (3 + 5)).
Proof.
  exact C36_case_proof.
Qed.

(** C28: pooling neighbourhoods.  The aggregated FBS and forecast rate are those of all
    neighbourhoods together, and so is the FSS when no single line is perfect. *)
Theorem C28_pooling : forall groups es data columns,
  Table nbr_fields columns es data -> Forall2 NbrLine groups es ->
  (forall b, In b groups -> ~ fbs_of b == 0) ->
  (exists r, aggregated_nbr_cnt calculate_nbr_fbs data columns = Ok r /\
     Published (Some (fbs_of (concat groups))) r) /\
  (exists r, aggregated_nbr_cnt calculate_nbr_f_rate data columns = Ok r /\
     Published (Some (f_rate_of (concat groups))) r) /\
  (exists r, aggregated_nbr_cnt calculate_nbr_fss data columns = Ok r /\ Published (fss_of (concat groups)) r).
Proof.
  exact C28_pooling_proof.
Qed.
Print Assumptions C28_pooling.

(** C28: for fractions the FSS of neighbourhoods lies between 0 and 1. *)
Theorem C28_fss_range : forall l v,
  (forall p, In p l -> 0 <= fst p /\ 0 <= snd p) -> fss_of l = Some v -> 0 <= v <= 1.
Proof.
  exact C28_fss_range_proof.
Qed.
Print Assumptions C28_fss_range.

(** Finding: a perfect line (FBS 0, FSS 1) loses its share of the reference. *)
Theorem C28_perfect_line_refuted :
  ~ (forall groups es data columns r,
       Table nbr_fields columns es data -> Forall2 NbrLine groups es ->
       aggregated_nbr_cnt calculate_nbr_fss data columns = Ok r -> Published (fss_of (concat groups)) r).
Proof.
  exact C28_perfect_line_refuted_proof.
Qed.
Print Assumptions C28_perfect_line_refuted.

(** Finding: the observed rate is not weighted by the totals although it is divided by their sum;
    the observed rate, AFSS and UFSS of several lines are not those of the pooled rates. *)
Theorem C28_o_rate_actual : forall es data columns,
  Table nbr_fields columns es data -> ConsistentSkill "fbs" "fss" es ->
  let o := oratio (sum_present (map (field "o_rate") es)) (sum_present (map (field "total") es)) in
  let f := by_total (field "f_rate") es in
  (exists r, aggregated_nbr_cnt calculate_nbr_o_rate data columns = Ok r /\ Published o r) /\
  (exists r, aggregated_nbr_cnt calculate_nbr_ufss data columns = Ok r /\
     Published (oadd (Some (1 # 2)) (oratio o (Some 2))) r) /\
  (exists r, aggregated_nbr_cnt calculate_nbr_afss data columns = Ok r /\
     Published (oratio (omul (omul (Some 2) f) o) (oadd (omul f f) (omul o o))) r).
Proof.
  exact C28_o_rate_actual_proof.
Qed.
Print Assumptions C28_o_rate_actual.

Theorem C28_o_rate_pooling_refuted :
  ~ (forall groups es data columns r,
       Table nbr_fields columns es data -> Forall2 NbrLine groups es ->
       aggregated_nbr_cnt calculate_nbr_o_rate data columns = Ok r ->
       Published (Some (o_rate_of (concat groups))) r) /\
  ~ (forall groups es data columns r,
       Table nbr_fields columns es data -> Forall2 NbrLine groups es ->
       aggregated_nbr_cnt calculate_nbr_ufss data columns = Ok r ->
       Published (Some ((1 # 2) + o_rate_of (concat groups) / 2)) r) /\
  ~ (forall groups es data columns r,
       Table nbr_fields columns es data -> Forall2 NbrLine groups es ->
       aggregated_nbr_cnt calculate_nbr_afss data columns = Ok r ->
       let f := f_rate_of (concat groups) in let o := o_rate_of (concat groups) in
       Published (oratio (Some (2 * f * o)) (Some (f * f + o * o))) r).
Proof.
  exact C28_o_rate_pooling_refuted_proof.
Qed.
Print Assumptions C28_o_rate_pooling_refuted.

(** C28: ranges of the published scores, for non-negative totals, rates and FBS. *)
Theorem C28_ranges : forall es data columns,
  Table nbr_fields columns es data -> ConsistentSkill "fbs" "fss" es ->
  (forall e name q, In e es -> In name ["total"; "fbs"; "f_rate"; "o_rate"] -> e name = Some q -> 0 <= q) ->
  (forall e q, In e es -> e "fss" = Some q -> q <= 1) ->
  (exists r, aggregated_nbr_cnt calculate_nbr_fss data columns = Ok r /\ forall v, r = Some v -> v <= 1) /\
  (exists r, aggregated_nbr_cnt calculate_nbr_afss data columns = Ok r /\ forall v, r = Some v -> 0 <= v <= 1) /\
  (exists r, aggregated_nbr_cnt calculate_nbr_ufss data columns = Ok r /\ forall v, r = Some v -> 1 # 2 <= v).
Proof.
  exact C28_ranges_proof.
Qed.
Print Assumptions C28_ranges.

(** C28: UFSS is at most one when rates are and every line has at least one point. *)
Theorem C28_ufss_upper : forall es data columns,
  Table nbr_fields columns es data -> ConsistentSkill "fbs" "fss" es ->
  (forall e, In e es -> exists n q, e "total" = Some n /\ e "o_rate" = Some q /\ 1 <= n /\ 0 <= q <= 1) ->
  exists v, aggregated_nbr_cnt calculate_nbr_ufss data columns = Ok (Some v) /\ 1 # 2 <= v <= 1.
Proof.
  exact C28_ufss_upper_proof.
Qed.
Print Assumptions C28_ufss_upper.

(** Two groups of neighbourhoods, none perfect. *)
Example C28_case : let groups := [[(1 # 2, 1 # 4); (0, 1 # 2)]; [(1, 3 # 4)]] in
  Table nbr_fields nbr_fields (map nbr_line groups) (map nbr_row (map nbr_line groups)) /\
  Forall2 NbrLine groups (map nbr_line groups) /\ (forall b, In b groups -> ~ fbs_of b == 0) /\
  ConsistentSkill "fbs" "fss" (map nbr_line groups) /\
  (forall e, In e (map nbr_line groups) ->
     exists n q, e "total" = Some n /\ e "o_rate" = Some q /\ 1 <= n /\ 0 <= q <= 1) /\
  (forall e q, In e (map nbr_line groups) -> e "fss" = Some q -> q <= 1).
Proof.
  exact C28_case_proof.
Qed.

(** C40: gradient scores of several lines are those of all gradients together. *)
Theorem C40_pooling : forall groups data columns,
  Summaries grad_fields columns groups data ->
  let mean g := mean_of g (concat groups) in
  let f := mean (fun p => Qabs (fst p)) in let o := mean (fun p => Qabs (snd p)) in
  let m := mean (fun p => Qmax (Qabs (fst p)) (Qabs (snd p))) in let e := mean (fun p => Qabs (fst p - snd p)) in
  Forall (fun '(name, stat, value) =>
      exists r, aggregated name stat data columns = Ok r /\ Published value r)
  [("fgbar", calculate_fgbar, Some f); ("ogbar", calculate_ogbar, Some o); ("mgbar", calculate_mgbar, Some m);
   ("egbar", calculate_egbar, Some e); ("s1", calculate_s1, oratio (Some (100 * e)) (Some m));
   ("s1_og", calculate_s1_og, oratio (Some (100 * e)) (Some o));
   ("fgog_ratio", calculate_fgog_ratio, oratio (Some (100 * f)) (Some o))].
Proof.
  exact C40_pooling_proof.
Qed.
Print Assumptions C40_pooling.

(** C40: S1 lies between 0 and 200 and is zero exactly for equal gradients. *)
Theorem C40_s1_range : forall groups data columns,
  Summaries grad_fields columns groups data ->
  exists r, aggregated "s1" calculate_s1 data columns = Ok r /\
    (forall v, r = Some v -> 0 <= v <= 200) /\
    (r = None <-> forall p, In p (concat groups) -> fst p == 0 /\ snd p == 0) /\
    ((forall p, In p (concat groups) -> fst p == snd p) -> forall v, r = Some v -> v == 0).
Proof.
  exact C40_s1_range_proof.
Qed.
Print Assumptions C40_s1_range.

Example C40_case : Summaries grad_fields (line_columns grad_fields)
  [[(1, -(2)); (3, 5)]; [(2, 2)]] (map (line_of grad_fields) [[(1, -(2)); (3, 5)]; [(2, 2)]]).
Proof.
  exact C40_case_proof.
Qed.
