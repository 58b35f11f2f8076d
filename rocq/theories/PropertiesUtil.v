(** Properties C15 to C18 and C20: permutations, derived curves, perfect scores, longitudes. *)
From Coq Require Import Permutation Qabs.
From Verif Require Import PyBase ColumnModel BaseSpec EclvSpec EventSpec UtilModel UtilSpec UtilProofs.
Open Scope string_scope.

(** C15, METviewer order: for two or more non-empty fields the result has one entry for every
    choice of values, at the rank of the choice with the first field varying fastest, and
    nothing else. *)
Theorem C15_metviewer_permutations : forall (A : Type) (fields : list (list A)),
  (2 <= length fields)%nat -> (forall l, In l fields -> l <> []) ->
  exists r, create_permutations_mv_list fields 0 = Ok r /\
    length r = count_choices fields /\
    (forall is_ vs, Chosen fields is_ vs -> nth_error r (rank_first fields is_) = Some (Many vs)) /\
    (forall n p, nth_error r n = Some p ->
       exists is_ vs, Choice fields is_ /\ Chosen fields is_ vs /\ rank_first fields is_ = n /\ p = Many vs).
Proof. exact @permutations_mv_list. Qed.
Print Assumptions C15_metviewer_permutations.
(** C15: distinct values give distinct permutations. *)
Theorem C15_metviewer_distinct : forall (A : Type) (fields : list (list A)) r,
  (2 <= length fields)%nat -> (forall l, In l fields -> l <> []) -> (forall l, In l fields -> NoDup l) ->
  create_permutations_mv_list fields 0 = Ok r -> NoDup r.
Proof. exact @permutations_mv_nodup. Qed.
Print Assumptions C15_metviewer_distinct.
(** C15: a single field gives its bare values, not one-element lists. *)
Theorem C15_metviewer_single : forall (A : Type) (values : list A),
  create_permutations_mv_list [values] 0 = Ok (map Bare values).
Proof. exact @permutations_mv_single. Qed.
Print Assumptions C15_metviewer_single.
(** C15: the dictionary form is the list form on the fields that have values. *)
Theorem C15_dictionary_skips_empty : forall (A : Type) (fields : list (string * list A)) present,
  Selection (fun l => l <> []) (map snd fields) present ->
  create_permutations_mv_dict fields 0 = create_permutations_mv_list present 0 /\
  (forall l, In l present -> l <> []).
Proof. exact @permutations_mv_dict. Qed.
Print Assumptions C15_dictionary_skips_empty.
(** C15, finding: the list form does not skip fields without values: an empty last field
    makes the result empty. *)
Theorem C15_list_form_skips_empty_refuted :
  ~ (forall fields : list (list string),
       create_permutations_mv_list fields 0 =
       create_permutations_mv_list (filter (fun l => match l with [] => false | _ => true end) fields) 0).
Proof. exact list_form_skips_refuted. Qed.
Print Assumptions C15_list_form_skips_empty_refuted.
(** C15, plain product: every choice once, the last field varying fastest. *)
Theorem C15_plain_product : forall (A : Type) (fields : list (list A)),
  length (create_permutations fields) = count_choices fields /\
  (forall is_ vs, Chosen fields is_ vs ->
     nth_error (create_permutations fields) (rank_last fields is_) = Some vs) /\
  (forall n p, nth_error (create_permutations fields) n = Some p ->
     exists is_, Choice fields is_ /\ Chosen fields is_ p /\ rank_last fields is_ = n).
Proof. exact @create_permutations_all. Qed.
Print Assumptions C15_plain_product.
Example C15_case :
  create_permutations_mv_list [["a"; "b"]; ["x"; "y"]] 0 =
    Ok [Many ["a"; "x"]; Many ["b"; "x"]; Many ["a"; "y"]; Many ["b"; "y"]] /\
  create_permutations [["a"; "b"]; ["x"; "y"]] = [["a"; "x"]; ["a"; "y"]; ["b"; "x"]; ["b"; "y"]] /\
  Chosen [["a"; "b"]; ["x"; "y"]] [1%nat; 0%nat] ["b"; "x"] /\
  Selection (fun l : list string => l <> []) (map snd [("u", ["a"]); ("v", []); ("w", ["b"])]) [["a"]; ["b"]].
Proof.
  split; [reflexivity|]. split; [reflexivity|]. split.
  - split; [|reflexivity]. repeat constructor.
  - cbn. constructor; [discriminate|]. apply sel_drop; [intro H; now apply H|].
    constructor; [discriminate|]. constructor.
Qed.

(** C16: exactly when the derived value is undefined. *)
Theorem C16_undefined_iff : forall (D : Type) (etb : list Q -> list Q -> res D) v1 v2 op,
  op <> "ETB" ->
  (calc_derived_curve_value etb v1 v2 op = Ok Undefined <-> NoDerivedValue v1 v2 op).
Proof. exact @derived_undefined_iff. Qed.
Print Assumptions C16_undefined_iff.
(** C16: the defined values are element-wise. *)
Theorem C16_difference : forall (D : Type) (etb : list Q -> list Q -> res D) op a b,
  op = "DIFF" \/ op = "DIFF_SIG" -> length a = length b ->
  exists r, calc_derived_curve_value etb (Some (map Some a)) (Some (map Some b)) op = Ok (Values r) /\
            Elementwise Qminus a b r.
Proof. exact @derived_diff. Qed.
Print Assumptions C16_difference.
Theorem C16_ratio : forall (D : Type) (etb : list Q -> list Q -> res D) a b,
  length a = length b -> (forall q, In q b -> ~ q == 0) ->
  exists r, calc_derived_curve_value etb (Some (map Some a)) (Some (map Some b)) "RATIO" = Ok (Values r) /\
            Elementwise Qdiv a b r.
Proof. exact @derived_ratio. Qed.
Print Assumptions C16_ratio.
Theorem C16_skill_score : forall (D : Type) (etb : list Q -> list Q -> res D) a b,
  length a = length b -> (forall q, In q a -> ~ q == 0) ->
  exists r, calc_derived_curve_value etb (Some (map Some a)) (Some (map Some b)) "SS" = Ok (Values r) /\
            Elementwise (fun x y => (x - y) / x) a b r.
Proof. exact @derived_ss. Qed.
Print Assumptions C16_skill_score.
Theorem C16_single : forall (D : Type) (etb : list Q -> list Q -> res D) a b,
  length a = length b ->
  calc_derived_curve_value etb (Some (map Some a)) (Some (map Some b)) "SINGLE" = Ok (Values a).
Proof. exact @derived_single. Qed.
Print Assumptions C16_single.
(** C16: antisymmetry, and a series against itself. *)
Theorem C16_difference_antisymmetric : forall (D : Type) (etb : list Q -> list Q -> res D) a b r s,
  length a = length b ->
  calc_derived_curve_value etb (Some (map Some a)) (Some (map Some b)) "DIFF" = Ok (Values r) ->
  calc_derived_curve_value etb (Some (map Some b)) (Some (map Some a)) "DIFF" = Ok (Values s) ->
  Forall2 (fun x y => x == - y) r s.
Proof. exact @derived_antisymmetric. Qed.
Print Assumptions C16_difference_antisymmetric.
Theorem C16_self_ratio : forall (D : Type) (etb : list Q -> list Q -> res D) a r,
  (forall q, In q a -> ~ q == 0) ->
  calc_derived_curve_value etb (Some (map Some a)) (Some (map Some a)) "RATIO" = Ok (Values r) ->
  length r = length a /\ Forall (fun x => x == 1) r.
Proof. exact @derived_self_ratio. Qed.
Print Assumptions C16_self_ratio.
Theorem C16_self_skill : forall (D : Type) (etb : list Q -> list Q -> res D) a r,
  (forall q, In q a -> ~ q == 0) ->
  calc_derived_curve_value etb (Some (map Some a)) (Some (map Some a)) "SS" = Ok (Values r) ->
  length r = length a /\ Forall (fun x => x == 0) r.
Proof. exact @derived_self_ss. Qed.
Print Assumptions C16_self_skill.
Example C16_case : forall etb : list Q -> list Q -> res unit,
  calc_derived_curve_value etb (Some [Some 4; Some 6]) (Some [Some 1; Some 3]) "DIFF" = Ok (Values [4 - 1; 6 - 3]) /\
  calc_derived_curve_value etb (Some [Some 4; Some 6]) (Some [Some 1; Some 0]) "RATIO" = Ok Undefined /\
  calc_derived_curve_value etb (Some [Some 4; None]) (Some [Some 1; Some 3]) "DIFF" = Ok Undefined /\
  calc_derived_curve_value etb (Some [Some 4; Some 6]) (Some [Some 1; Some 3]) "SS" =
    Ok (Values [(4 - 1) / 4; (6 - 3) / 6]).
Proof. intros etb. repeat split; reflexivity. Qed.

(** C17: every generated name is recognised, at any place of a point. *)
Theorem C17_generated_names_recognised : forall a b op before after,
  In op operations ->
  exists name, get_derived_curve_name [a; b; op] = Ok name /\
    is_derived_point (Some (before ++ name :: after)%list) = true.
Proof. exact derived_name_recognised. Qed.
Print Assumptions C17_generated_names_recognised.
Theorem C17_default_name_recognised : forall a b before after,
  exists name, get_derived_curve_name [a; b] = Ok name /\
    is_derived_point (Some (before ++ name :: after)%list) = true.
Proof. exact derived_name_default. Qed.
Print Assumptions C17_default_name_recognised.
(** C17: a point is derived exactly if one of its components starts with an operation and a
    bracket. *)
Theorem C17_derived_iff : forall point,
  is_derived_point (Some point) = true <-> exists c, In c point /\ DerivedName c.
Proof. exact derived_point_iff. Qed.
Print Assumptions C17_derived_iff.
(** C17: an unknown operation is a KeyError. *)
Theorem C17_unknown_operation : forall a b op,
  ~ In op operations -> get_derived_curve_name [a; b; op] = Err KeyError.
Proof. exact derived_name_unknown. Qed.
Print Assumptions C17_unknown_operation.
Example C17_case :
  get_derived_curve_name ["A"; "B"; "SS"] = Ok "SS(A and B)" /\
  get_derived_curve_name ["A"; "B"] = Ok "DIFF(A-B)" /\
  get_derived_curve_name ["A"; "B"; "SUM"] = Err KeyError /\
  is_derived_point (Some ["x"; "RATIO(A/B)"]) = true /\ is_derived_point (Some ["DIFF"; "XDIFF(A-B)"]) = false.
Proof. repeat split; reflexivity. Qed.

(** C18: statistics without perfect score. *)
Theorem C18_no_perfect_score : forall stat name m1 m2 pval,
  Capitals stat name -> In name without_perfect_score ->
  perfect_score_adjustment m1 m2 stat pval = None.
Proof. exact adjust_na. Qed.
Print Assumptions C18_no_perfect_score.
(** C18: negated exactly when the first mean is farther from the perfect score. *)
Theorem C18_sign : forall stat name m1 m2 pval,
  Capitals stat name -> forall p,
  (p = 0 /\ In name perfect_score_zero \/ p = 1 /\ In name perfect_score_one) ->
  (farther p m1 m2 -> perfect_score_adjustment m1 m2 stat pval = Some (pval * -1)) /\
  (~ farther p m1 m2 -> perfect_score_adjustment m1 m2 stat pval = Some pval).
Proof. exact adjust_perfect. Qed.
Print Assumptions C18_sign.
(** C18: exchanging two means that are not equally far flips exactly one sign. *)
Theorem C18_swap : forall stat name p m1 m2 pval,
  Capitals stat name ->
  (p = 0 /\ In name perfect_score_zero \/ p = 1 /\ In name perfect_score_one) ->
  ~ Qabs (m1 - p) == Qabs (m2 - p) ->
  (perfect_score_adjustment m1 m2 stat pval = Some (pval * -1) /\
   perfect_score_adjustment m2 m1 stat pval = Some pval) \/
  (perfect_score_adjustment m1 m2 stat pval = Some pval /\
   perfect_score_adjustment m2 m1 stat pval = Some (pval * -1)).
Proof. exact adjust_swap. Qed.
Print Assumptions C18_swap.
(** C18: any other statistic leaves the value as it is. *)
Theorem C18_unknown_statistic : forall stat name m1 m2 pval,
  Capitals stat name ->
  ~ In name without_perfect_score -> ~ In name perfect_score_zero -> ~ In name perfect_score_one ->
  perfect_score_adjustment m1 m2 stat pval = Some pval.
Proof. exact adjust_unknown. Qed.
Print Assumptions C18_unknown_statistic.
Example C18_case :
  perfect_score_adjustment 3 2 "Rmse" (95 # 100) = Some ((95 # 100) * -1) /\
  perfect_score_adjustment 2 3 "Rmse" (95 # 100) = Some (95 # 100) /\
  perfect_score_adjustment (1 # 2) (9 # 10) "acc" (95 # 100) = Some ((95 # 100) * -1) /\
  perfect_score_adjustment 1 2 "FBAR" (95 # 100) = None /\ Capitals "Rm" "RM".
Proof. repeat split; try reflexivity. exact case_capitals. Qed.

(** C20: conversion of longitudes to [-180, 180). *)
Theorem C20_to_180 : forall lons,
  exists conv, Permutation (convert_lon_360_to_180 lons) conv /\
    Forall2 (fun x y => Congruent 360 x y) lons conv /\
    Ascending (convert_lon_360_to_180 lons) /\
    (forall y, In y (convert_lon_360_to_180 lons) -> -(180) <= y /\ y < 180).
Proof. exact lon_spec. Qed.
Print Assumptions C20_to_180.
Theorem C20_to_180_idempotent : forall lons,
  Forall2 Qeq (convert_lon_360_to_180 (convert_lon_360_to_180 lons)) (convert_lon_360_to_180 lons).
Proof. exact lon_idempotent. Qed.
Print Assumptions C20_to_180_idempotent.
(** C20: conversion with indices: the indices are a permutation that sorts the converted
    longitudes. *)
Theorem C20_with_indices : forall lons minlon range,
  0 < range ->
  exists conv sorted locs,
    convert_lons_indices lons minlon range = Some (sorted, locs) /\
    Forall2 (fun x y => Congruent range x y) lons conv /\
    (forall y, In y conv -> - Qabs minlon <= y /\ y < range - Qabs minlon) /\
    Permutation locs (seq 0 (length lons)) /\
    Ascending sorted /\
    length sorted = length lons /\
    (forall k i, nth_error locs k = Some i -> nth_error sorted k = nth_error conv i).
Proof. exact lons_indices_spec. Qed.
Print Assumptions C20_with_indices.
Theorem C20_zero_range : forall lons minlon range,
  range == 0 -> convert_lons_indices lons minlon range = None.
Proof. exact lons_indices_zero. Qed.
Print Assumptions C20_zero_range.
Example C20_case :
  map Qred (convert_lon_360_to_180 [10; 190; 350; 180; 0]) = [-(180); -(170); -(10); 0; 10] /\
  (match convert_lons_indices [10; 190; 350] (-(180)) 360 with
   | Some (s, l) => (map Qred s, l) | None => ([], []) end) = ([-(170); -(10); 10], [1; 2; 0]%nat).
Proof. split; reflexivity. Qed.
