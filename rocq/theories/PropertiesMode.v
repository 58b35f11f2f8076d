(** C24 and C25: MODE object statistics. *)
From Verif Require Import PyBase ColumnModel BaseSpec ModeModel ModeSpec ModeProofs ModeProofs2.
Open Scope string_scope.

(** C24: these count ratios are the number of objects of the first class over the number of
    objects of the second class of their name. *)
Theorem C24_ratios_follow_their_names : forall data columns objs,
  FlagTable data columns objs ->
  Forall (fun '(stat, part, whole) =>
            exists r, stat (FRows data) (NpArray columns) = Ok r /\
                      Published (oratio (number part objs) (number whole objs)) r)
    [
        (calculate_ratio_asm_asa, "asm", "asa");
        (calculate_ratio_fsa_asa, "fsa", "asa");
        (calculate_ratio_osa_asa, "osa", "asa");
        (calculate_ratio_asu_asa, "asu", "asa");
        (calculate_ratio_osm_osa, "osm", "osa");
        (calculate_ratio_osu_osa, "osu", "osa");
        (calculate_ratio_fsu_asu, "fsu", "asu");
        (calculate_ratio_osu_asu, "osu", "asu");
        (calculate_ratio_fsa_aaa, "fsa", "aaa");
        (calculate_ratio_osa_aaa, "osa", "aaa");
        (calculate_ratio_fsa_faa, "fsa", "faa");
        (calculate_ratio_fca_faa, "fca", "faa");
        (calculate_ratio_osa_oaa, "osa", "oaa");
        (calculate_ratio_oca_oaa, "oca", "oaa");
        (calculate_ratio_fca_aca, "fca", "aca");
        (calculate_ratio_oca_aca, "oca", "aca");
        (calculate_ratio_fsa_osa, "fsa", "osa");
        (calculate_ratio_osa_fsa, "osa", "fsa");
        (calculate_ratio_aca_asa, "aca", "asa");
        (calculate_ratio_asa_aca, "asa", "aca");
        (calculate_ratio_fca_fsa, "fca", "fsa");
        (calculate_ratio_fsa_fca, "fsa", "fca");
        (calculate_ratio_oca_osa, "oca", "osa");
        (calculate_ratio_osa_oca, "osa", "oca")].
Proof.
  exact C24_ratios_follow_their_names_proof.
Qed.
Print Assumptions C24_ratios_follow_their_names.

(** C24: the same on the 2-D objects for the 2-D variants. *)
Theorem C24_2d_ratios_follow_their_names : forall data columns objs,
  FlagTable data columns objs -> KindTable data columns objs ->
  Forall (fun '(stat, part, whole) =>
            exists r, stat (FRows data) (NpArray columns) = Ok r /\
                      Published (oratio (number part (of_kind "2d" objs)) (number whole (of_kind "2d" objs))) r)
    [
        (calculate_2d_ratio_asm_asa, "asm", "asa");
        (calculate_2d_ratio_fsa_asa, "fsa", "asa");
        (calculate_2d_ratio_osa_asa, "osa", "asa");
        (calculate_2d_ratio_asu_asa, "asu", "asa");
        (calculate_2d_ratio_osm_osa, "osm", "osa");
        (calculate_2d_ratio_osu_osa, "osu", "osa");
        (calculate_2d_ratio_fsu_asu, "fsu", "asu");
        (calculate_2d_ratio_osu_asu, "osu", "asu");
        (calculate_2d_ratio_fsa_aaa, "fsa", "aaa");
        (calculate_2d_ratio_osa_aaa, "osa", "aaa");
        (calculate_2d_ratio_fsa_faa, "fsa", "faa");
        (calculate_2d_ratio_fca_faa, "fca", "faa");
        (calculate_2d_ratio_osa_oaa, "osa", "oaa");
        (calculate_2d_ratio_oca_oaa, "oca", "oaa");
        (calculate_2d_ratio_fca_aca, "fca", "aca");
        (calculate_2d_ratio_oca_aca, "oca", "aca");
        (calculate_2d_ratio_fsa_osa, "fsa", "osa");
        (calculate_2d_ratio_osa_fsa, "osa", "fsa");
        (calculate_2d_ratio_aca_asa, "aca", "asa");
        (calculate_2d_ratio_asa_aca, "asa", "aca");
        (calculate_2d_ratio_fca_fsa, "fca", "fsa");
        (calculate_2d_ratio_fsa_fca, "fsa", "fca");
        (calculate_2d_ratio_oca_osa, "oca", "osa");
        (calculate_2d_ratio_osa_oca, "osa", "oca")].
Proof.
  exact C24_2d_ratios_follow_their_names_proof.
Qed.
Print Assumptions C24_2d_ratios_follow_their_names.

(** C24: and on the 3-D objects for the 3-D variants. *)
Theorem C24_3d_ratios_follow_their_names : forall data columns objs,
  FlagTable data columns objs -> KindTable data columns objs ->
  Forall (fun '(stat, part, whole) =>
            exists r, stat (FRows data) (NpArray columns) = Ok r /\
                      Published (oratio (number part (of_kind "3d" objs)) (number whole (of_kind "3d" objs))) r)
    [
        (calculate_3d_ratio_asm_asa, "asm", "asa");
        (calculate_3d_ratio_fsa_asa, "fsa", "asa");
        (calculate_3d_ratio_osa_asa, "osa", "asa");
        (calculate_3d_ratio_asu_asa, "asu", "asa");
        (calculate_3d_ratio_osm_osa, "osm", "osa");
        (calculate_3d_ratio_osu_osa, "osu", "osa");
        (calculate_3d_ratio_fsu_asu, "fsu", "asu");
        (calculate_3d_ratio_osu_asu, "osu", "asu");
        (calculate_3d_ratio_fsa_aaa, "fsa", "aaa");
        (calculate_3d_ratio_osa_aaa, "osa", "aaa");
        (calculate_3d_ratio_fsa_faa, "fsa", "faa");
        (calculate_3d_ratio_fca_faa, "fca", "faa");
        (calculate_3d_ratio_osa_oaa, "osa", "oaa");
        (calculate_3d_ratio_oca_oaa, "oca", "oaa");
        (calculate_3d_ratio_fca_aca, "fca", "aca");
        (calculate_3d_ratio_fsa_osa, "fsa", "osa");
        (calculate_3d_ratio_osa_fsa, "osa", "fsa");
        (calculate_3d_ratio_asa_aca, "asa", "aca");
        (calculate_3d_ratio_fca_fsa, "fca", "fsa");
        (calculate_3d_ratio_fsa_fca, "fsa", "fca");
        (calculate_3d_ratio_oca_osa, "oca", "osa");
        (calculate_3d_ratio_osa_oca, "osa", "oca")].
Proof.
  exact C24_3d_ratios_follow_their_names_proof.
Qed.
Print Assumptions C24_3d_ratios_follow_their_names.

(** C24: a part of a whole is between 0 and 1. *)
Theorem C24_parts_in_unit_interval : forall data columns objs,
  FlagTable data columns objs ->
  Forall (fun stat => forall q, stat (FRows data) (NpArray columns) = Ok (Some q) -> 0 <= q <= 1)
    [
        calculate_ratio_asm_asa;
        calculate_ratio_fsa_asa;
        calculate_ratio_osa_asa;
        calculate_ratio_asu_asa;
        calculate_ratio_osm_osa;
        calculate_ratio_osu_osa;
        calculate_ratio_fsu_asu;
        calculate_ratio_osu_asu;
        calculate_ratio_fsa_aaa;
        calculate_ratio_osa_aaa;
        calculate_ratio_fsa_faa;
        calculate_ratio_fca_faa;
        calculate_ratio_osa_oaa;
        calculate_ratio_oca_oaa;
        calculate_ratio_fca_aca;
        calculate_ratio_oca_aca].
Proof.
  exact C24_parts_in_unit_interval_proof.
Qed.
Print Assumptions C24_parts_in_unit_interval.

(** C24: complementary parts are defined together and add up to one within the rounding. *)
Theorem C24_complements : forall data columns objs,
  FlagTable data columns objs ->
  Forall (fun '(stat, stat') =>
            (stat (FRows data) (NpArray columns) = Ok None /\ stat' (FRows data) (NpArray columns) = Ok None) \/
            exists a b, stat (FRows data) (NpArray columns) = Ok (Some a) /\
                        stat' (FRows data) (NpArray columns) = Ok (Some b) /\
                        1 - (1 # 10000000) <= a + b <= 1 + (1 # 10000000))
    [
        (calculate_ratio_asm_asa, calculate_ratio_asu_asa);
        (calculate_ratio_fsa_asa, calculate_ratio_osa_asa);
        (calculate_ratio_osm_osa, calculate_ratio_osu_osa);
        (calculate_ratio_fsu_asu, calculate_ratio_osu_asu);
        (calculate_ratio_fsa_faa, calculate_ratio_fca_faa);
        (calculate_ratio_osa_oaa, calculate_ratio_oca_oaa);
        (calculate_ratio_fca_aca, calculate_ratio_oca_aca)].
Proof.
  exact C24_complements_proof.
Qed.
Print Assumptions C24_complements.

(** C24: inverse ratios multiply to one up to the rounding of both. *)
Theorem C24_inverses : forall data columns objs,
  FlagTable data columns objs ->
  Forall (fun '(stat, stat') =>
            forall a b, stat (FRows data) (NpArray columns) = Ok (Some a) ->
                        stat' (FRows data) (NpArray columns) = Ok (Some b) ->
                        - ((a + b + 1) * (1 # 10000000)) <= a * b - 1 <= (a + b + 1) * (1 # 10000000))
    [(calculate_ratio_fsa_osa, calculate_ratio_osa_fsa);
     (calculate_ratio_aca_asa, calculate_ratio_asa_aca);
     (calculate_ratio_fca_fsa, calculate_ratio_fsa_fca);
     (calculate_ratio_oca_osa, calculate_ratio_osa_oca)].
Proof.
  exact C24_inverses_proof.
Qed.
Print Assumptions C24_inverses.

(** C24: hits are half the simple matched objects, misses the simple unmatched observations,
    false alarms the simple unmatched forecasts, FAR the false alarms over false alarms and hits. *)
Theorem C24_hits_misses_false_alarms : forall data columns objs,
  FlagTable data columns objs ->
  Forall (fun '(stat, value) =>
            exists r, stat (FRows data) (NpArray columns) = Ok r /\ Published value r)
    [(calculate_objhits, oratio (number "asm" objs) (Some 2));
     (calculate_objmisses, number "osu" objs);
     (calculate_objfas, number "fsu" objs);
     (calculate_objfar, oratio (number "fsu" objs) (oadd (number "fsu" objs) (oratio (number "asm" objs) (Some 2))))].
Proof.
  exact C24_hits_misses_false_alarms_proof.
Qed.
Print Assumptions C24_hits_misses_false_alarms.

(** C24: twice the hits, the misses and the false alarms account for every simple object. *)
Theorem C24_accounts_for_simple_objects : forall data columns objs,
  FlagTable data columns objs ->
  exists h m f, calculate_objhits (FRows data) (NpArray columns) = Ok (Some h) /\
    calculate_objmisses (FRows data) (NpArray columns) = Ok (Some m) /\
    calculate_objfas (FRows data) (NpArray columns) = Ok (Some f) /\
    oeq (Some (2 * h + m + f)) (number "asa" objs).
Proof.
  exact C24_accounts_for_simple_objects_proof.
Qed.
Print Assumptions C24_accounts_for_simple_objects.

(** What the statistics whose code deviates from their documentation compute. *)
Theorem C24_deviating_ratios_actual : forall data columns objs,
  FlagTable data columns objs ->
  Forall (fun '(stat, value) =>
            exists r, stat (FRows data) (NpArray columns) = Ok r /\ Published value r)
    [(calculate_ratio_fsm_fsa, oratio (number "fam" objs) (number "fsa" objs));
     (calculate_ratio_fsu_fsa, oratio (number "fsm" objs) (number "fsa" objs));
     (calculate_ratio_fsm_asm, oratio (number "fsu" objs) (number "asm" objs));
     (calculate_ratio_osm_asm, oratio (number "osu" objs) (number "asm" objs));
     (calculate_objcsi, oratio (number "fau" objs) (oadd (number "asm" objs) (omul (Some 2) (number "asu" objs))));
     (calculate_objpody, oratio (number "asm" objs) (oadd (number "asm" objs) (omul (Some 2) (number "fsu" objs))))].
Proof.
  exact C24_deviating_ratios_actual_proof.
Qed.
Print Assumptions C24_deviating_ratios_actual.

(** Finding: none of the six computes the documented quantity on every table. *)
Theorem C24_documented_ratios_refuted :
  Forall (fun '(stat, documented) =>
            ~ (forall data columns objs, FlagTable data columns objs ->
                 exists r, stat (FRows data) (NpArray columns) = Ok r /\ Published (documented objs) r))
    [(calculate_ratio_fsm_fsa, fun objs => oratio (number "fsm" objs) (number "fsa" objs));
     (calculate_ratio_fsu_fsa, fun objs => oratio (number "fsu" objs) (number "fsa" objs));
     (calculate_ratio_fsm_asm, fun objs => oratio (number "fsm" objs) (number "asm" objs));
     (calculate_ratio_osm_asm, fun objs => oratio (number "osm" objs) (number "asm" objs));
     (calculate_objcsi, fun objs => oratio (number "asm" objs) (oadd (number "asm" objs) (omul (Some 2) (number "asu" objs))));
     (calculate_objpody, fun objs => oratio (number "asm" objs) (oadd (number "asm" objs) (omul (Some 2) (number "osu" objs))))].
Proof.
  exact C24_documented_ratios_refuted_proof.
Qed.
Print Assumptions C24_documented_ratios_refuted.

(** Finding: "% of simple forecast objects that are matched" can be 2, that is 200 %. *)
Theorem C24_fsm_fsa_range_refuted :
  ~ (forall data columns objs q, FlagTable data columns objs ->
       calculate_ratio_fsm_fsa (FRows data) (NpArray columns) = Ok (Some q) -> q <= 1).
Proof.
  exact C24_fsm_fsa_range_refuted_proof.
Qed.
Print Assumptions C24_fsm_fsa_range_refuted.

(** Finding: without the flag columns the count statistics fail with an AttributeError that
    they do not catch, instead of returning None. *)
Theorem C24_missing_flags_raise : forall data columns,
  ~ In "fcst_flag" columns -> ~ In "simple_flag" columns -> ~ In "matched_flag" columns ->
  Forall (fun stat => stat (FRows data) (NpArray columns) = Err AttributeError)
    [
        calculate_ratio_asm_asa;
        calculate_ratio_fsa_asa;
        calculate_ratio_osa_asa;
        calculate_ratio_asu_asa;
        calculate_ratio_fsm_fsa;
        calculate_ratio_fsu_fsa;
        calculate_ratio_osm_osa;
        calculate_ratio_osu_osa;
        calculate_ratio_fsm_asm;
        calculate_ratio_osm_asm;
        calculate_ratio_fsu_asu;
        calculate_ratio_osu_asu;
        calculate_ratio_fsa_aaa;
        calculate_ratio_osa_aaa;
        calculate_ratio_fsa_faa;
        calculate_ratio_fca_faa;
        calculate_ratio_osa_oaa;
        calculate_ratio_oca_oaa;
        calculate_ratio_fca_aca;
        calculate_ratio_oca_aca;
        calculate_ratio_fsa_osa;
        calculate_ratio_osa_fsa;
        calculate_ratio_aca_asa;
        calculate_ratio_asa_aca;
        calculate_ratio_fca_fsa;
        calculate_ratio_fsa_fca;
        calculate_ratio_oca_osa;
        calculate_ratio_osa_oca;
        calculate_objhits;
        calculate_objmisses;
        calculate_objfas;
        calculate_objcsi;
        calculate_objpody;
        calculate_objfar].
Proof.
  exact C24_missing_flags_raise_proof.
Qed.
Print Assumptions C24_missing_flags_raise.

(** A table with all eight combinations of the flags. *)
Example C24_case :
  exists data columns objs, FlagTable data columns objs /\ AreaTable data columns objs /\ KindTable data columns objs /\
    length objs = 8%nat /\
    calculate_ratio_osm_osa (FRows data) (NpArray columns) = Ok (Some (5000000 # 10000000)) /\
    calculate_ratio_osu_osa (FRows data) (NpArray columns) = Ok (Some (5000000 # 10000000)).
Proof. exact C24_case_proof. Qed.

(** C25: these area ratios are the total area of the first class over that of the second. *)
Theorem C25_area_ratios_follow_their_names : forall data columns objs,
  FlagTable data columns objs -> AreaTable data columns objs ->
  Forall (fun '(stat, part, whole) =>
            exists r, stat (FRows data) (NpArray columns) = Ok r /\
                      Published (oratio (total_area part objs) (total_area whole objs)) r)
    [
        (calculate_arearat_fsa_asa, "fsa", "asa");
        (calculate_arearat_osa_asa, "osa", "asa");
        (calculate_arearat_asm_asa, "asm", "asa");
        (calculate_arearat_asu_asa, "asu", "asa");
        (calculate_arearat_fsm_fsa, "fsm", "fsa");
        (calculate_arearat_fsu_fsa, "fsu", "fsa");
        (calculate_arearat_osm_osa, "osm", "osa");
        (calculate_arearat_osu_osa, "osu", "osa");
        (calculate_arearat_osm_asm, "osm", "asm");
        (calculate_arearat_osu_asu, "osu", "asu");
        (calculate_arearat_fsa_aaa, "fsa", "aaa");
        (calculate_arearat_osa_aaa, "osa", "aaa");
        (calculate_arearat_fsa_faa, "fsa", "faa");
        (calculate_arearat_fca_faa, "fca", "faa");
        (calculate_arearat_osa_oaa, "osa", "oaa");
        (calculate_arearat_oca_oaa, "oca", "oaa");
        (calculate_arearat_fca_aca, "fca", "aca");
        (calculate_arearat_oca_aca, "oca", "aca");
        (calculate_arearat_fsa_osa, "fsa", "osa");
        (calculate_arearat_aca_asa, "aca", "asa");
        (calculate_arearat_asa_aca, "asa", "aca");
        (calculate_arearat_fca_fsa, "fca", "fsa");
        (calculate_arearat_fsa_fca, "fsa", "fca");
        (calculate_arearat_oca_osa, "oca", "osa");
        (calculate_arearat_osa_oca, "osa", "oca")].
Proof.
  exact C25_area_ratios_follow_their_names_proof.
Qed.
Print Assumptions C25_area_ratios_follow_their_names.

(** C25: the same on the 2-D objects for the 2-D variants. *)
Theorem C25_2d_area_ratios_follow_their_names : forall data columns objs,
  FlagTable data columns objs -> AreaTable data columns objs -> KindTable data columns objs ->
  Forall (fun '(stat, part, whole) =>
            exists r, stat (FRows data) (NpArray columns) = Ok r /\
                      Published (oratio (total_area part (of_kind "2d" objs)) (total_area whole (of_kind "2d" objs))) r)
    [
        (calculate_2d_arearat_fsa_asa, "fsa", "asa");
        (calculate_2d_arearat_osa_asa, "osa", "asa");
        (calculate_2d_arearat_asm_asa, "asm", "asa");
        (calculate_2d_arearat_asu_asa, "asu", "asa");
        (calculate_2d_arearat_fsm_fsa, "fsm", "fsa");
        (calculate_2d_arearat_fsu_fsa, "fsu", "fsa");
        (calculate_2d_arearat_osm_osa, "osm", "osa");
        (calculate_2d_arearat_osu_osa, "osu", "osa");
        (calculate_2d_arearat_osm_asm, "osm", "asm");
        (calculate_2d_arearat_osu_asu, "osu", "asu");
        (calculate_2d_arearat_fsa_aaa, "fsa", "aaa");
        (calculate_2d_arearat_osa_aaa, "osa", "aaa");
        (calculate_2d_arearat_fsa_faa, "fsa", "faa");
        (calculate_2d_arearat_fca_faa, "fca", "faa");
        (calculate_2d_arearat_osa_oaa, "osa", "oaa");
        (calculate_2d_arearat_oca_oaa, "oca", "oaa");
        (calculate_2d_arearat_fca_aca, "fca", "aca");
        (calculate_2d_arearat_oca_aca, "oca", "aca");
        (calculate_2d_arearat_fsa_osa, "fsa", "osa");
        (calculate_2d_arearat_aca_asa, "aca", "asa");
        (calculate_2d_arearat_asa_aca, "asa", "aca");
        (calculate_2d_arearat_fca_fsa, "fca", "fsa");
        (calculate_2d_arearat_fsa_fca, "fsa", "fca");
        (calculate_2d_arearat_oca_osa, "oca", "osa");
        (calculate_2d_arearat_osa_oca, "osa", "oca")].
Proof.
  exact C25_2d_area_ratios_follow_their_names_proof.
Qed.
Print Assumptions C25_2d_area_ratios_follow_their_names.

(** C25: area hits, misses, false alarms, CSI and PODY. *)
Theorem C25_area_hits_misses : forall data columns objs,
  FlagTable data columns objs -> AreaTable data columns objs ->
  Forall (fun '(stat, value) =>
            exists r, stat (FRows data) (NpArray columns) = Ok r /\ Published value r)
    [(calculate_objahits, oratio (total_area "asm" objs) (Some 2));
     (calculate_objamisses, total_area "osu" objs);
     (calculate_objafas, total_area "fsu" objs);
     (calculate_objacsi, oratio (total_area "asm" objs) (oadd (total_area "asm" objs) (omul (Some 2) (total_area "asu" objs))));
     (calculate_objapody, oratio (total_area "asm" objs) (oadd (total_area "asm" objs) (omul (Some 2) (total_area "osu" objs))))].
Proof.
  exact C25_area_hits_misses_proof.
Qed.
Print Assumptions C25_area_hits_misses.

(** C25: with non-negative areas a part of a whole is between 0 and 1. *)
Theorem C25_parts_in_unit_interval : forall data columns objs,
  FlagTable data columns objs -> AreaTable data columns objs ->
  (forall o a, In o objs -> area o = Some a -> 0 <= a) ->
  Forall (fun stat => forall q, stat (FRows data) (NpArray columns) = Ok (Some q) -> 0 <= q <= 1)
    [
        calculate_arearat_fsa_asa;
        calculate_arearat_osa_asa;
        calculate_arearat_asm_asa;
        calculate_arearat_asu_asa;
        calculate_arearat_fsm_fsa;
        calculate_arearat_fsu_fsa;
        calculate_arearat_osm_osa;
        calculate_arearat_osu_osa;
        calculate_arearat_osm_asm;
        calculate_arearat_osu_asu;
        calculate_arearat_fsa_aaa;
        calculate_arearat_osa_aaa;
        calculate_arearat_fsa_faa;
        calculate_arearat_fca_faa;
        calculate_arearat_osa_oaa;
        calculate_arearat_oca_oaa;
        calculate_arearat_fca_aca;
        calculate_arearat_oca_aca;
        calculate_objacsi;
        calculate_objapody].
Proof.
  exact C25_parts_in_unit_interval_proof.
Qed.
Print Assumptions C25_parts_in_unit_interval.

(** C25: complementary parts that are both defined add up to one within the rounding. *)
Theorem C25_complements : forall data columns objs,
  FlagTable data columns objs -> AreaTable data columns objs ->
  Forall (fun '(stat, stat') =>
            forall a b, stat (FRows data) (NpArray columns) = Ok (Some a) ->
                        stat' (FRows data) (NpArray columns) = Ok (Some b) ->
                        1 - (1 # 10000000) <= a + b <= 1 + (1 # 10000000))
    [
        (calculate_arearat_asm_asa, calculate_arearat_asu_asa);
        (calculate_arearat_fsa_asa, calculate_arearat_osa_asa);
        (calculate_arearat_fsm_fsa, calculate_arearat_fsu_fsa);
        (calculate_arearat_osm_osa, calculate_arearat_osu_osa);
        (calculate_arearat_fsa_faa, calculate_arearat_fca_faa);
        (calculate_arearat_osa_oaa, calculate_arearat_oca_oaa);
        (calculate_arearat_fca_aca, calculate_arearat_oca_aca)].
Proof.
  exact C25_complements_proof.
Qed.
Print Assumptions C25_complements.

(** What the deviating area statistics compute. *)
Theorem C25_deviating_areas_actual : forall data columns objs,
  FlagTable data columns objs -> AreaTable data columns objs ->
  Forall (fun '(stat, value) =>
            exists r, stat (FRows data) (NpArray columns) = Ok r /\ Published value r)
    [(calculate_arearat_fsm_asm, oratio (total_area "fsu" objs) (total_area "fsa" objs));
     (calculate_arearat_osa_fsa, oratio (total_area "osa" objs) (total_area "osa" objs));
     (calculate_objafar, oratio (total_area "fsu" objs) (oadd (total_area "fsu" objs) (omul (Some 2) (total_area "asm" objs))))].
Proof.
  exact C25_deviating_areas_actual_proof.
Qed.
Print Assumptions C25_deviating_areas_actual.

(** Finding: the area ratio of simple observations to simple forecasts never differs from 1. *)
Theorem C25_osa_fsa_constant : forall data columns objs q,
  FlagTable data columns objs -> AreaTable data columns objs ->
  calculate_arearat_osa_fsa (FRows data) (NpArray columns) = Ok (Some q) -> q == 1.
Proof.
  exact C25_osa_fsa_constant_proof.
Qed.
Print Assumptions C25_osa_fsa_constant.

(** Finding: none of the three computes the documented quantity. *)
Theorem C25_documented_areas_refuted :
  Forall (fun '(stat, documented) =>
            ~ (forall data columns objs, FlagTable data columns objs -> AreaTable data columns objs ->
                 exists r, stat (FRows data) (NpArray columns) = Ok r /\ Published (documented objs) r))
    [(calculate_arearat_fsm_asm, fun objs => oratio (total_area "fsm" objs) (total_area "asm" objs));
     (calculate_arearat_osa_fsa, fun objs => oratio (total_area "osa" objs) (total_area "fsa" objs));
     (calculate_objafar, fun objs => oratio (total_area "fsu" objs)
                           (oadd (total_area "fsu" objs) (oratio (total_area "asm" objs) (Some 2))))].
Proof.
  exact C25_documented_areas_refuted_proof.
Qed.
Print Assumptions C25_documented_areas_refuted.

(** Finding: a perfect forecast - every simple object matched - has no area CSI and no area PODY,
    because the area of the empty class of unmatched objects is undefined instead of 0. *)
Theorem C25_perfect_forecast_undefined : forall data columns objs,
  FlagTable data columns objs -> AreaTable data columns objs ->
  (forall o, In o objs -> simple o = true -> matched o = true) ->
  calculate_objacsi (FRows data) (NpArray columns) = Ok None /\
  calculate_objapody (FRows data) (NpArray columns) = Ok None.
Proof.
  exact C25_perfect_forecast_undefined_proof.
Qed.
Print Assumptions C25_perfect_forecast_undefined.

(** Finding: every 3-D volume statistic is None on every table. *)
Theorem C25_volume_statistics_undefined : forall data columns,
  Forall (fun stat => stat (FRows data) (NpArray columns) = Ok None)
    [
        calculate_3d_volrat_fsa_asa;
        calculate_3d_volrat_osa_asa;
        calculate_3d_volrat_asm_asa;
        calculate_3d_volrat_asu_asa;
        calculate_3d_volrat_fsm_fsa;
        calculate_3d_volrat_fsu_fsa;
        calculate_3d_volrat_osm_osa;
        calculate_3d_volrat_osu_osa;
        calculate_3d_volrat_fsm_asm;
        calculate_3d_volrat_osm_asm;
        calculate_3d_volrat_osu_asu;
        calculate_3d_volrat_fsa_aaa;
        calculate_3d_volrat_osa_aaa;
        calculate_3d_volrat_fsa_faa;
        calculate_3d_volrat_fca_faa;
        calculate_3d_volrat_osa_oaa;
        calculate_3d_volrat_oca_oaa;
        calculate_3d_volrat_fca_aca;
        calculate_3d_volrat_oca_aca;
        calculate_3d_volrat_fsa_osa;
        calculate_3d_volrat_osa_fsa;
        calculate_3d_volrat_aca_asa;
        calculate_3d_volrat_asa_aca;
        calculate_3d_volrat_fca_fsa;
        calculate_3d_volrat_fsa_fca;
        calculate_3d_volrat_oca_osa;
        calculate_3d_volrat_osa_oca;
        calculate_3d_objvhits;
        calculate_3d_objvmisses;
        calculate_3d_objvfas;
        calculate_3d_objvcsi;
        calculate_3d_objvpody;
        calculate_3d_objvfar].
Proof.
  exact C25_volume_statistics_undefined_proof.
Qed.
Print Assumptions C25_volume_statistics_undefined.

(** C25: a perfect forecast with known areas. *)
Example C25_case : exists data columns objs, FlagTable data columns objs /\ AreaTable data columns objs /\
    (forall o a, In o objs -> area o = Some a -> 0 <= a) /\
    (forall o, In o objs -> simple o = true -> matched o = true) /\
    total_area "fsm" objs = Some 12 /\ calculate_arearat_osm_osa (FRows data) (NpArray columns) = Ok (Some (10000000 # 10000000)) /\
    calculate_objacsi (FRows data) (NpArray columns) = Ok None.
Proof. exact C25_case_proof. Qed.
