(** General helpers of metcalcpy/util/utils.py: permutations, derived curves, perfect-score
    adjustment, longitudes, list operations. *)
From Coq Require Import Ascii Qabs.
From Verif Require Import PyBase ColumnModel EclvModel EventModel.
Open Scope string_scope.

(** ** Permutations *)
Section Permutations.
Variable A : Type.
(** An element of the result of [create_permutations_mv]: a bare value when there is one
    field only, otherwise a list. *)
Inductive perm : Type :=
| Bare (x : A)
| Many (l : list A).

(** utils.py 1085-1097: prepend one value. *)
Definition prepend (v : A) (p : perm) : perm :=
  match p with Many l => Many (v :: l) | Bare x => Many [v; x] end.

(** utils.py 1066-1098 for the fields from the current index on: the loop over the rest is
    the outer one, the loop over the values the inner one. *)
Fixpoint perms_from (fields : list (list A)) : list perm :=
  match fields with
  | [] => []
  | values :: rest =>
      match rest with
      | [] => map Bare values
      | _ => match values with
             | [] => perms_from rest
             | _ => flat_map (fun p => map (fun v => prepend v p) values) (perms_from rest)
             end
      end
  end.

(** utils.py 1041-1098 for a list of lists; the recursion index only selects where to start.
    A negative index is not modelled. *)
Definition create_permutations_mv_list (fields : list (list A)) (index : nat) : res (list perm) :=
  match fields with
  | [] => Ok []
  | _ => if Nat.ltb index (length fields) then Ok (perms_from (skipn index fields)) else Err IndexError
  end.

(** utils.py 1051-1070 for a dictionary: fields without values are removed first. *)
Definition create_permutations_mv_dict (fields : list (string * list A)) (index : nat)
  : res (list perm) :=
  create_permutations_mv_list
    (filter (fun l => match l with [] => false | _ => true end) (map snd fields)) index.

(** utils.py 809-853 *)
Definition create_permutations (input_list : list (list A)) : list (list A) := product input_list.
End Permutations.
Arguments Bare {A}. Arguments Many {A}. Arguments prepend {A}. Arguments perms_from {A}.
Arguments create_permutations_mv_list {A}. Arguments create_permutations_mv_dict {A}.
Arguments create_permutations {A}.

(** ** Derived curves *)
(** utils.py 35-42 *)
Definition OPERATION_TO_SIGN : list (string * string) :=
  [("DIFF", "-"); ("RATIO", "/"); ("SS", " and "); ("DIFF_SIG", "-"); ("SINGLE", "-"); ("ETB", " and ")].

Fixpoint lookup {A : Type} (k : string) (l : list (string * A)) : res A :=
  match l with
  | [] => Err KeyError
  | (k', v) :: rest => if String.eqb k' k then Ok v else lookup k rest
  end.

(** utils.py 116-134 *)
Definition get_derived_curve_name (list_of_names : list string) : res string :=
  match list_of_names with
  | [] | [_] => Ok ""
  | a :: b :: rest =>
      let operation := match rest with [op] => op | _ => "DIFF" end in
      sign <- lookup operation OPERATION_TO_SIGN ;;
      Ok (operation ++ "(" ++ a ++ sign ++ b ++ ")")
  end.

(** utils.py 216-232 *)
Definition starts_with (p s : string) : bool := String.prefix p s.
Definition is_derived_point (point : option (list string)) : bool :=
  match point with
  | None => false
  | Some comps =>
      existsb (fun op => existsb (fun c => starts_with (op ++ "(") c || starts_with (op ++ " (") c) comps)
        (map fst OPERATION_TO_SIGN)
  end.

(** The result of [calc_derived_curve_value]: a list, the TOST dictionary, or None. *)
Inductive derived (D : Type) : Type :=
| Undefined
| Values (l : list Q)
| Equivalence (d : D).
Arguments Undefined {D}. Arguments Values {D}. Arguments Equivalence {D}.

(** All elements present: [None not in l]. *)
Fixpoint all_present (l : list (option Q)) : option (list Q) :=
  match l with
  | [] => Some []
  | Some q :: t => match all_present t with Some r => Some (q :: r) | None => None end
  | None :: _ => None
  end.
Definition zip_with {A B C : Type} (f : A -> B -> C) (l : list A) (m : list B) : list C :=
  map (fun p => f (fst p) (snd p)) (combine l m).
Definition has_zero (l : list Q) : bool := existsb (fun q => Qeq_bool q 0) l.

(** utils.py 137-182; [etb] stands for the equivalence test of lines 172-181, modelled in
    TostModel.v. *)
Definition calc_derived_curve_value {D : Type} (etb : list Q -> list Q -> res D)
  (val1 val2 : option (list (option Q))) (operation : string) : res (derived D) :=
  match val1, val2 with
  | Some v1, Some v2 =>
      match all_present v1, all_present v2 with
      | Some a, Some b =>
          if Nat.eqb (length a) (length b) then
            if String.eqb operation "DIFF" || String.eqb operation "DIFF_SIG" then
              Ok (Values (zip_with Qminus a b))
            else if String.eqb operation "RATIO" then
              if has_zero b then Ok Undefined else Ok (Values (zip_with Qdiv a b))
            else if String.eqb operation "SS" then
              if has_zero a then Ok Undefined else Ok (Values (zip_with (fun x y => (x - y) / x) a b))
            else if String.eqb operation "SINGLE" then Ok (Values a)
            else if String.eqb operation "ETB" then d <- etb a b ;; Ok (Equivalence d)
            else Ok Undefined
          else Ok Undefined
      | _, _ => Ok Undefined
      end
  | _, _ => Ok Undefined
  end.

(** ** List operations *)
(** utils.py 201-213 *)
Definition intersection (l_1 l_2 : option (list string)) : option (list string) :=
  match l_1, l_2 with
  | Some a, Some b => Some (filter (fun x => mem x b) a)
  | _, _ => None
  end.
(** utils.py 185-198; the order of a Python set is unspecified, the model keeps the order of
    first occurrence. *)
Fixpoint dedup (l : list string) : list string :=
  match l with [] => [] | x :: t => x :: filter (fun y => negb (String.eqb y x)) (dedup t) end.
Definition unique (in_list : list string) : option (list string) :=
  match in_list with [] => None | _ => Some (dedup in_list) end.

(** ** Perfect-score adjustment, utils.py 378-434 *)
(** [str.upper()] on ASCII letters. *)
Definition upper_char (c : ascii) : ascii :=
  let n := nat_of_ascii c in
  if Nat.leb 97 n && Nat.leb n 122 then ascii_of_nat (n - 32) else c.
Fixpoint upper (s : string) : string :=
  match s with EmptyString => "" | String c t => String (upper_char c) (upper t) end.

(** utils.py 391-399 *)
Definition na_perf_score_stats : list string :=
  ["BASER"; "FMEAN"; "FBAR"; "FSTDEV"; "OBAR"; "OSTDEV"; "FRANK_TIES"; "ORANK_TIES";
   "FBAR"; "FSTDEV"; "OBAR"; "OSTDEV"; "RANKS"; "FRANK_TIES"; "ORANK_TIES"; "VL1L2_FBAR"; "VL1L2_OBAR";
   "VL1L2_FSTDEV"; "VL1L2_OSTDEV"; "VL1L2_FOSTDEV"; "PSTD_BASER"; "PSTD_RESOLUTION"; "PSTD_UNCERTAINTY";
   "NBR_UFSS"; "NBR_F_RATE"; "NBR_O_RATE"; "NBR_BASER"; "NBR_FMEAN"].
(** utils.py 401-408 *)
Definition zero_perf_score_stats : list string :=
  ["POFD"; "FAR"; "ESTDEV"; "MAE"; "MSE"; "BCMSE"; "RMSE"; "E10"; "E25"; "E50"; "E75"; "E90"; "EIQR"; "MAD";
   "ME2"; "ME"; "ESTDEV"; "ODDS"; "LODDS"; "VL1L2_MSE"; "VL1L2_RMSE"; "VL1L2_RMSVE"; "PSTD_BRIER";
   "PSTD_RELIABILITY"; "NBR_FBS"; "VL1L2_SPEED_ERR"; "NBR_POFD"; "NBR_FAR"; "NBR_ODDS"; "BCRMSE"; "ECNT_ME";
   "ECNT_RMSE"; "CRPS"; "ECNT_CRPS"; "ECNT_MAE"; "ECNT_MAE_OERR"; "ECNT_ME_GE_OBS"; "ECNT_ME_LT_OBS"].
(** utils.py 410-419 *)
Definition one_perf_score_stats : list string :=
  ["ACC"; "FBIAS"; "PODY"; "PODN"; "CSI"; "GSS"; "HK"; "HSS"; "ORSS"; "EDS"; "SEDS"; "EDI"; "SEDI"; "BAGSS";
   "PR_CORR"; "SP_CORR"; "KT_CORR"; "MBIAS"; "ANOM_CORR"; "ANOM_CORR_RAW"; "VL1L2_BIAS"; "VL1L2_CORR";
   "PSTD_BSS"; "PSTD_BSS_SMPL"; "NBR_FSS"; "NBR_AFSS"; "VAL1L2_ANOM_CORR"; "NBR_ACC"; "NBR_FBIAS"; "NBR_PODY";
   "PSTD_ROC_AUC"; "NBR_PODN"; "NBR_CSI"; "NBR_GSS"; "NBR_HK"; "NBR_HSS"; "ECNT_BIAS_RATIO"].

Definition Qgt_abs (x y : Q) : bool := negb (Qle_bool (Qabs x) (Qabs y)).
(** utils.py 421-434 *)
Definition perfect_score_adjustment (mean_stats_1 mean_stats_2 : Q) (statistic : string) (pval : Q)
  : option Q :=
  let s := upper statistic in
  if mem s na_perf_score_stats then None
  else if mem s zero_perf_score_stats && Qgt_abs mean_stats_1 mean_stats_2 then Some (pval * -1)
  else if mem s one_perf_score_stats && Qgt_abs (mean_stats_1 - 1) (mean_stats_2 - 1) then Some (pval * -1)
  else Some pval.

(** ** Longitudes *)
(** [np.mod] for a non-zero divisor. *)
Definition qmod (x m : Q) : Q := x - m * inject_Z (Qfloor (x / m)).

(** utils.py 986-1010 *)
Definition convert_lon_360_to_180 (longitude : list Q) : list Q :=
  sortQ (map (fun l => qmod (l + 180) 360 - 180) longitude).

(** [np.argsort]: indices sorted by value.  numpy's default sort leaves the order of equal
    values open; the model keeps their original order. *)
Fixpoint insert_idx (x : Q * nat) (l : list (Q * nat)) : list (Q * nat) :=
  match l with
  | [] => [x]
  | y :: t => if Qle_bool (fst x) (fst y) then x :: y :: t else y :: insert_idx x t
  end.
Fixpoint sort_idx (l : list (Q * nat)) : list (Q * nat) :=
  match l with [] => [] | x :: t => insert_idx x (sort_idx t) end.
Definition argsort (l : list Q) : list nat :=
  map snd (sort_idx (combine l (seq 0 (length l)))).
(** Fancy indexing [a[locs]]. *)
Definition take_at (l : list Q) (locs : list nat) : list Q := map (fun i => nth i l 0) locs.

(** utils.py 1013-1038.  [None]: a zero range makes every value NaN. *)
Definition convert_lons_indices (lons_in : list Q) (minlon_in range_in : Q)
  : option (list Q * list nat) :=
  if Qeq_bool range_in 0 then None
  else
    let minlon := Qabs minlon_in in
    let newlons := map (fun l => qmod (l + minlon) range_in - minlon) lons_in in
    let lonsortlocs := argsort newlons in
    Some (take_at newlons lonsortlocs, lonsortlocs).
