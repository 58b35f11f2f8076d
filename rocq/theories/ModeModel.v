(** Model of the MODE object statistics.  The object flags are compared with whole numbers;
    see ColumnModel for the filters.  Every function runs with [warnings.filterwarnings('error')]
    and restores the filter at the end, which has no other effect on the result. *)
From Verif Require Import PyBase ColumnModel.
Open Scope string_scope.

(** The column names: a numpy array, or the Python list made by [rename_column]. *)
Inductive colnames : Type :=
| NpArray (l : list string)
| PyList (l : list string).

(** metcalcpy/util/utils.py 329-357, [column_data_by_name_value], for the results of an earlier
    filter.  [np.copy(0)] has no second dimension, so its column is an IndexError (caught: the
    empty list); a list of names is never equal to one name, and [np.where(False)] warns:
    an exception when warnings are errors, otherwise the column is not found (the integer 0). *)
Definition filter_any (warnings_are_errors : bool) (input_data : filtered) (columns : colnames)
  (filters : list (string * fvalue)) : res filtered :=
  match columns with
  | PyList _ =>
      match filters with
      | [] => Ok input_data
      | _ => if warnings_are_errors then Err PyWarning else Ok FZero
      end
  | NpArray l =>
      match input_data with
      | FRows d => column_data_by_name_value d l filters
      | FZero | FNil =>
          match filters with
          | [] => Ok input_data
          | (k, _) :: _ => match index_of k l with None => Ok FZero | Some _ => Ok FNil end
          end
      end
  end.

(** metcalcpy/util/utils.py 360-375, [nrow_column_data_by_name_value].  Without any filter the
    copy of 0 has the empty shape (IndexError) and the copy of an empty list has no rows. *)
Definition nrow_any (input_data : filtered) (columns : colnames) (filters : list (string * fvalue))
  : res pyval :=
  f <- filter_any true input_data columns filters ;;
  match f, filters with
  | FRows d, _ => Ok (Some (inject_Z (Z.of_nat (length d))))
  | FZero, [] => Err IndexError
  | FNil, [] => Ok (Some 0)
  | _, _ => Err AttributeError
  end.

(** metcalcpy/util/utils.py 262-326, [sum_column_data_by_name] on a filter result: the integer 0
    and a list cannot be indexed by [[:, i]] (TypeError). *)
Definition sum_any (input_data : filtered) (columns : colnames) (name : string) : res pyval :=
  match columns with
  | PyList _ => Err PyWarning
  | NpArray l =>
      match input_data with
      | FRows d => sum_column_data_by_name d l name true
      | FZero | FNil => match index_of name l with None => Ok None | Some _ => Err TypeError end
      end
  end.

Section Mode.
Variable input_data : filtered.
Variable columns_names : colnames.

Notation NROW f := (nrow_any input_data columns_names f).
Notation FILTER f := (filter_any true input_data columns_names f).
Notation AREA d := (sum_any d columns_names "area").

(** metcalcpy/util/mode_ratio_statistics.py 21-44. *)
Definition calculate_ratio_asm_asa : res pyval :=
  catch std_exns
    (nominator <- NROW [("simple_flag", FInt 1); ("matched_flag", FInt 1)] ;;
     denominator <- NROW [("simple_flag", FInt 1)] ;;
     pyround (Ok nominator [/] Ok denominator)) None.

(** metcalcpy/util/mode_ratio_statistics.py 47-70. *)
Definition calculate_ratio_fsa_asa : res pyval :=
  catch std_exns
    (nominator <- NROW [("fcst_flag", FInt 1); ("simple_flag", FInt 1)] ;;
     denominator <- NROW [("simple_flag", FInt 1)] ;;
     pyround (Ok nominator [/] Ok denominator)) None.

(** metcalcpy/util/mode_ratio_statistics.py 73-96. *)
Definition calculate_ratio_osa_asa : res pyval :=
  catch std_exns
    (nominator <- NROW [("fcst_flag", FInt 0); ("simple_flag", FInt 1)] ;;
     denominator <- NROW [("simple_flag", FInt 1)] ;;
     pyround (Ok nominator [/] Ok denominator)) None.

(** metcalcpy/util/mode_ratio_statistics.py 99-122. *)
Definition calculate_ratio_asu_asa : res pyval :=
  catch std_exns
    (nominator <- NROW [("simple_flag", FInt 1); ("matched_flag", FInt 0)] ;;
     denominator <- NROW [("simple_flag", FInt 1)] ;;
     pyround (Ok nominator [/] Ok denominator)) None.

(** metcalcpy/util/mode_ratio_statistics.py 125-148. *)
Definition calculate_ratio_fsm_fsa : res pyval :=
  catch std_exns
    (nominator <- NROW [("fcst_flag", FInt 1); ("matched_flag", FInt 1)] ;;
     denominator <- NROW [("fcst_flag", FInt 1); ("simple_flag", FInt 1)] ;;
     pyround (Ok nominator [/] Ok denominator)) None.

(** metcalcpy/util/mode_ratio_statistics.py 151-174. *)
Definition calculate_ratio_fsu_fsa : res pyval :=
  catch std_exns
    (nominator <- NROW [("fcst_flag", FInt 1); ("simple_flag", FInt 1); ("matched_flag", FInt 1)] ;;
     denominator <- NROW [("fcst_flag", FInt 1); ("simple_flag", FInt 1)] ;;
     pyround (Ok nominator [/] Ok denominator)) None.

(** metcalcpy/util/mode_ratio_statistics.py 177-200. *)
Definition calculate_ratio_osm_osa : res pyval :=
  catch std_exns
    (nominator <- NROW [("fcst_flag", FInt 0); ("simple_flag", FInt 1); ("matched_flag", FInt 1)] ;;
     denominator <- NROW [("fcst_flag", FInt 0); ("simple_flag", FInt 1)] ;;
     pyround (Ok nominator [/] Ok denominator)) None.

(** metcalcpy/util/mode_ratio_statistics.py 203-226. *)
Definition calculate_ratio_osu_osa : res pyval :=
  catch std_exns
    (nominator <- NROW [("fcst_flag", FInt 0); ("simple_flag", FInt 1); ("matched_flag", FInt 0)] ;;
     denominator <- NROW [("fcst_flag", FInt 0); ("simple_flag", FInt 1)] ;;
     pyround (Ok nominator [/] Ok denominator)) None.

(** metcalcpy/util/mode_ratio_statistics.py 229-252. *)
Definition calculate_ratio_fsm_asm : res pyval :=
  catch std_exns
    (nominator <- NROW [("fcst_flag", FInt 1); ("simple_flag", FInt 1); ("matched_flag", FInt 0)] ;;
     denominator <- NROW [("matched_flag", FInt 1); ("simple_flag", FInt 1)] ;;
     pyround (Ok nominator [/] Ok denominator)) None.

(** metcalcpy/util/mode_ratio_statistics.py 255-278. *)
Definition calculate_ratio_osm_asm : res pyval :=
  catch std_exns
    (nominator <- NROW [("fcst_flag", FInt 0); ("simple_flag", FInt 1); ("matched_flag", FInt 0)] ;;
     denominator <- NROW [("matched_flag", FInt 1); ("simple_flag", FInt 1)] ;;
     pyround (Ok nominator [/] Ok denominator)) None.

(** metcalcpy/util/mode_ratio_statistics.py 281-304. *)
Definition calculate_ratio_fsu_asu : res pyval :=
  catch std_exns
    (nominator <- NROW [("fcst_flag", FInt 1); ("simple_flag", FInt 1); ("matched_flag", FInt 0)] ;;
     denominator <- NROW [("matched_flag", FInt 0); ("simple_flag", FInt 1)] ;;
     pyround (Ok nominator [/] Ok denominator)) None.

(** metcalcpy/util/mode_ratio_statistics.py 307-330. *)
Definition calculate_ratio_osu_asu : res pyval :=
  catch std_exns
    (nominator <- NROW [("fcst_flag", FInt 0); ("simple_flag", FInt 1); ("matched_flag", FInt 0)] ;;
     denominator <- NROW [("matched_flag", FInt 0); ("simple_flag", FInt 1)] ;;
     pyround (Ok nominator [/] Ok denominator)) None.

(** metcalcpy/util/mode_ratio_statistics.py 333-357. *)
Definition calculate_ratio_fsa_aaa : res pyval :=
  catch std_exns
    (nominator <- NROW [("fcst_flag", FInt 1); ("simple_flag", FInt 1)] ;;
     denominator <- NROW [] ;;
     pyround (Ok nominator [/] Ok denominator)) None.

(** metcalcpy/util/mode_ratio_statistics.py 360-384. *)
Definition calculate_ratio_osa_aaa : res pyval :=
  catch std_exns
    (nominator <- NROW [("fcst_flag", FInt 0); ("simple_flag", FInt 1)] ;;
     denominator <- NROW [] ;;
     pyround (Ok nominator [/] Ok denominator)) None.

(** metcalcpy/util/mode_ratio_statistics.py 387-410. *)
Definition calculate_ratio_fsa_faa : res pyval :=
  catch std_exns
    (nominator <- NROW [("fcst_flag", FInt 1); ("simple_flag", FInt 1)] ;;
     denominator <- NROW [("fcst_flag", FInt 1)] ;;
     pyround (Ok nominator [/] Ok denominator)) None.

(** metcalcpy/util/mode_ratio_statistics.py 413-436. *)
Definition calculate_ratio_fca_faa : res pyval :=
  catch std_exns
    (nominator <- NROW [("fcst_flag", FInt 1); ("simple_flag", FInt 0)] ;;
     denominator <- NROW [("fcst_flag", FInt 1)] ;;
     pyround (Ok nominator [/] Ok denominator)) None.

(** metcalcpy/util/mode_ratio_statistics.py 439-462. *)
Definition calculate_ratio_osa_oaa : res pyval :=
  catch std_exns
    (nominator <- NROW [("fcst_flag", FInt 0); ("simple_flag", FInt 1)] ;;
     denominator <- NROW [("fcst_flag", FInt 0)] ;;
     pyround (Ok nominator [/] Ok denominator)) None.

(** metcalcpy/util/mode_ratio_statistics.py 465-488. *)
Definition calculate_ratio_oca_oaa : res pyval :=
  catch std_exns
    (nominator <- NROW [("fcst_flag", FInt 0); ("simple_flag", FInt 0)] ;;
     denominator <- NROW [("fcst_flag", FInt 0)] ;;
     pyround (Ok nominator [/] Ok denominator)) None.

(** metcalcpy/util/mode_ratio_statistics.py 491-514. *)
Definition calculate_ratio_fca_aca : res pyval :=
  catch std_exns
    (nominator <- NROW [("fcst_flag", FInt 1); ("simple_flag", FInt 0)] ;;
     denominator <- NROW [("simple_flag", FInt 0)] ;;
     pyround (Ok nominator [/] Ok denominator)) None.

(** metcalcpy/util/mode_ratio_statistics.py 517-540. *)
Definition calculate_ratio_oca_aca : res pyval :=
  catch std_exns
    (nominator <- NROW [("fcst_flag", FInt 0); ("simple_flag", FInt 0)] ;;
     denominator <- NROW [("simple_flag", FInt 0)] ;;
     pyround (Ok nominator [/] Ok denominator)) None.

(** metcalcpy/util/mode_ratio_statistics.py 543-566. *)
Definition calculate_ratio_fsa_osa : res pyval :=
  catch std_exns
    (nominator <- NROW [("fcst_flag", FInt 1); ("simple_flag", FInt 1)] ;;
     denominator <- NROW [("fcst_flag", FInt 0); ("simple_flag", FInt 1)] ;;
     pyround (Ok nominator [/] Ok denominator)) None.

(** metcalcpy/util/mode_ratio_statistics.py 569-592. *)
Definition calculate_ratio_osa_fsa : res pyval :=
  catch std_exns
    (nominator <- NROW [("fcst_flag", FInt 0); ("simple_flag", FInt 1)] ;;
     denominator <- NROW [("fcst_flag", FInt 1); ("simple_flag", FInt 1)] ;;
     pyround (Ok nominator [/] Ok denominator)) None.

(** metcalcpy/util/mode_ratio_statistics.py 595-618. *)
Definition calculate_ratio_aca_asa : res pyval :=
  catch std_exns
    (nominator <- NROW [("simple_flag", FInt 0)] ;;
     denominator <- NROW [("simple_flag", FInt 1)] ;;
     pyround (Ok nominator [/] Ok denominator)) None.

(** metcalcpy/util/mode_ratio_statistics.py 621-644. *)
Definition calculate_ratio_asa_aca : res pyval :=
  catch std_exns
    (nominator <- NROW [("simple_flag", FInt 1)] ;;
     denominator <- NROW [("simple_flag", FInt 0)] ;;
     pyround (Ok nominator [/] Ok denominator)) None.

(** metcalcpy/util/mode_ratio_statistics.py 647-670. *)
Definition calculate_ratio_fca_fsa : res pyval :=
  catch std_exns
    (nominator <- NROW [("fcst_flag", FInt 1); ("simple_flag", FInt 0)] ;;
     denominator <- NROW [("fcst_flag", FInt 1); ("simple_flag", FInt 1)] ;;
     pyround (Ok nominator [/] Ok denominator)) None.

(** metcalcpy/util/mode_ratio_statistics.py 673-696. *)
Definition calculate_ratio_fsa_fca : res pyval :=
  catch std_exns
    (nominator <- NROW [("fcst_flag", FInt 1); ("simple_flag", FInt 1)] ;;
     denominator <- NROW [("fcst_flag", FInt 1); ("simple_flag", FInt 0)] ;;
     pyround (Ok nominator [/] Ok denominator)) None.

(** metcalcpy/util/mode_ratio_statistics.py 699-722. *)
Definition calculate_ratio_oca_osa : res pyval :=
  catch std_exns
    (nominator <- NROW [("fcst_flag", FInt 0); ("simple_flag", FInt 0)] ;;
     denominator <- NROW [("fcst_flag", FInt 0); ("simple_flag", FInt 1)] ;;
     pyround (Ok nominator [/] Ok denominator)) None.

(** metcalcpy/util/mode_ratio_statistics.py 725-748. *)
Definition calculate_ratio_osa_oca : res pyval :=
  catch std_exns
    (nominator <- NROW [("fcst_flag", FInt 0); ("simple_flag", FInt 1)] ;;
     denominator <- NROW [("fcst_flag", FInt 0); ("simple_flag", FInt 0)] ;;
     pyround (Ok nominator [/] Ok denominator)) None.

(** metcalcpy/util/mode_ratio_statistics.py 751-774. *)
Definition calculate_objhits : res pyval :=
  catch std_exns
    (nominator <- NROW [("simple_flag", FInt 1); ("matched_flag", FInt 1)] ;;
     let denominator := Some 2 in
     pyround (Ok nominator [/] Ok denominator)) None.

(** metcalcpy/util/mode_ratio_statistics.py 777-799. *)
Definition calculate_objmisses : res pyval :=
  catch std_exns
    (nominator <- NROW [("fcst_flag", FInt 0); ("simple_flag", FInt 1); ("matched_flag", FInt 0)] ;;
     pyround (Ok nominator)) None.

(** metcalcpy/util/mode_ratio_statistics.py 802-824. *)
Definition calculate_objfas : res pyval :=
  catch std_exns
    (nominator <- NROW [("fcst_flag", FInt 1); ("simple_flag", FInt 1); ("matched_flag", FInt 0)] ;;
     pyround (Ok nominator)) None.

(** metcalcpy/util/mode_ratio_statistics.py 827-855. *)
Definition calculate_objcsi : res pyval :=
  catch std_exns
    (nominator <- NROW [("fcst_flag", FInt 1); ("matched_flag", FInt 0)] ;;
     denominator_1 <- NROW [("simple_flag", FInt 1); ("matched_flag", FInt 1)] ;;
     denominator_2 <- NROW [("simple_flag", FInt 1); ("matched_flag", FInt 0)] ;;
     pyround (Ok nominator [/] (Ok denominator_1 [+] (pylit 2 [*] Ok denominator_2)))) None.

(** metcalcpy/util/mode_ratio_statistics.py 858-886. *)
Definition calculate_objpody : res pyval :=
  catch std_exns
    (nominator <- NROW [("simple_flag", FInt 1); ("matched_flag", FInt 1)] ;;
     denominator_1 <- NROW [("simple_flag", FInt 1); ("matched_flag", FInt 1)] ;;
     denominator_2 <- NROW [("fcst_flag", FInt 1); ("simple_flag", FInt 1); ("matched_flag", FInt 0)] ;;
     pyround (Ok nominator [/] (Ok denominator_1 [+] (pylit 2 [*] Ok denominator_2)))) None.

(** metcalcpy/util/mode_ratio_statistics.py 889-917. *)
Definition calculate_objfar : res pyval :=
  catch std_exns
    (nominator <- NROW [("fcst_flag", FInt 1); ("simple_flag", FInt 1); ("matched_flag", FInt 0)] ;;
     denominator_1 <- NROW [("fcst_flag", FInt 1); ("simple_flag", FInt 1); ("matched_flag", FInt 0)] ;;
     denominator_2 <- NROW [("simple_flag", FInt 1); ("matched_flag", FInt 1)] ;;
     pyround (Ok nominator [/] (Ok denominator_1 [+] (Ok denominator_2 [/] pylit 2)))) None.

(** metcalcpy/util/mode_arearat_statistics.py 22-48. *)
Definition calculate_arearat_fsa_asa : res pyval :=
  catch std_exns
    (nominator_data <- FILTER [("fcst_flag", FInt 1); ("simple_flag", FInt 1)] ;;
     denominator_data <- FILTER [("simple_flag", FInt 1)] ;;
     nominator <- AREA nominator_data ;;
     denominator <- AREA denominator_data ;;
     pyround (Ok nominator [//] Ok denominator)) None.

(** metcalcpy/util/mode_arearat_statistics.py 51-77. *)
Definition calculate_arearat_osa_asa : res pyval :=
  catch std_exns
    (nominator_data <- FILTER [("fcst_flag", FInt 0); ("simple_flag", FInt 1)] ;;
     denominator_data <- FILTER [("simple_flag", FInt 1)] ;;
     nominator <- AREA nominator_data ;;
     denominator <- AREA denominator_data ;;
     pyround (Ok nominator [//] Ok denominator)) None.

(** metcalcpy/util/mode_arearat_statistics.py 80-106. *)
Definition calculate_arearat_asm_asa : res pyval :=
  catch std_exns
    (nominator_data <- FILTER [("simple_flag", FInt 1); ("matched_flag", FInt 1)] ;;
     denominator_data <- FILTER [("simple_flag", FInt 1)] ;;
     nominator <- AREA nominator_data ;;
     denominator <- AREA denominator_data ;;
     pyround (Ok nominator [//] Ok denominator)) None.

(** metcalcpy/util/mode_arearat_statistics.py 109-135. *)
Definition calculate_arearat_asu_asa : res pyval :=
  catch std_exns
    (nominator_data <- FILTER [("simple_flag", FInt 1); ("matched_flag", FInt 0)] ;;
     denominator_data <- FILTER [("simple_flag", FInt 1)] ;;
     nominator <- AREA nominator_data ;;
     denominator <- AREA denominator_data ;;
     pyround (Ok nominator [//] Ok denominator)) None.

(** metcalcpy/util/mode_arearat_statistics.py 138-164. *)
Definition calculate_arearat_fsm_fsa : res pyval :=
  catch std_exns
    (nominator_data <- FILTER [("fcst_flag", FInt 1); ("simple_flag", FInt 1); ("matched_flag", FInt 1)] ;;
     denominator_data <- FILTER [("fcst_flag", FInt 1); ("simple_flag", FInt 1)] ;;
     nominator <- AREA nominator_data ;;
     denominator <- AREA denominator_data ;;
     pyround (Ok nominator [//] Ok denominator)) None.

(** metcalcpy/util/mode_arearat_statistics.py 167-193. *)
Definition calculate_arearat_fsu_fsa : res pyval :=
  catch std_exns
    (nominator_data <- FILTER [("fcst_flag", FInt 1); ("simple_flag", FInt 1); ("matched_flag", FInt 0)] ;;
     denominator_data <- FILTER [("fcst_flag", FInt 1); ("simple_flag", FInt 1)] ;;
     nominator <- AREA nominator_data ;;
     denominator <- AREA denominator_data ;;
     pyround (Ok nominator [//] Ok denominator)) None.

(** metcalcpy/util/mode_arearat_statistics.py 196-222. *)
Definition calculate_arearat_osm_osa : res pyval :=
  catch std_exns
    (nominator_data <- FILTER [("fcst_flag", FInt 0); ("simple_flag", FInt 1); ("matched_flag", FInt 1)] ;;
     denominator_data <- FILTER [("fcst_flag", FInt 0); ("simple_flag", FInt 1)] ;;
     nominator <- AREA nominator_data ;;
     denominator <- AREA denominator_data ;;
     pyround (Ok nominator [//] Ok denominator)) None.

(** metcalcpy/util/mode_arearat_statistics.py 225-252. *)
Definition calculate_arearat_osu_osa : res pyval :=
  catch std_exns
    (nominator_data <- FILTER [("fcst_flag", FInt 0); ("simple_flag", FInt 1); ("matched_flag", FInt 0)] ;;
     denominator_data <- FILTER [("fcst_flag", FInt 0); ("simple_flag", FInt 1)] ;;
     nominator <- AREA nominator_data ;;
     denominator <- AREA denominator_data ;;
     pyround (Ok nominator [//] Ok denominator)) None.

(** metcalcpy/util/mode_arearat_statistics.py 255-281. *)
Definition calculate_arearat_fsm_asm : res pyval :=
  catch std_exns
    (nominator_data <- FILTER [("fcst_flag", FInt 1); ("simple_flag", FInt 1); ("matched_flag", FInt 0)] ;;
     denominator_data <- FILTER [("fcst_flag", FInt 1); ("simple_flag", FInt 1)] ;;
     nominator <- AREA nominator_data ;;
     denominator <- AREA denominator_data ;;
     pyround (Ok nominator [//] Ok denominator)) None.

(** metcalcpy/util/mode_arearat_statistics.py 284-310. *)
Definition calculate_arearat_osm_asm : res pyval :=
  catch std_exns
    (nominator_data <- FILTER [("fcst_flag", FInt 0); ("simple_flag", FInt 1); ("matched_flag", FInt 1)] ;;
     denominator_data <- FILTER [("simple_flag", FInt 1); ("matched_flag", FInt 1)] ;;
     nominator <- AREA nominator_data ;;
     denominator <- AREA denominator_data ;;
     pyround (Ok nominator [//] Ok denominator)) None.

(** metcalcpy/util/mode_arearat_statistics.py 313-339. *)
Definition calculate_arearat_osu_asu : res pyval :=
  catch std_exns
    (nominator_data <- FILTER [("fcst_flag", FInt 0); ("simple_flag", FInt 1); ("matched_flag", FInt 0)] ;;
     denominator_data <- FILTER [("simple_flag", FInt 1); ("matched_flag", FInt 0)] ;;
     nominator <- AREA nominator_data ;;
     denominator <- AREA denominator_data ;;
     pyround (Ok nominator [//] Ok denominator)) None.

(** metcalcpy/util/mode_arearat_statistics.py 342-366. *)
Definition calculate_arearat_fsa_aaa : res pyval :=
  catch std_exns
    (nominator_data <- FILTER [("fcst_flag", FInt 1); ("simple_flag", FInt 1)] ;;
     nominator <- AREA nominator_data ;;
     denominator <- AREA input_data ;;
     pyround (Ok nominator [//] Ok denominator)) None.

(** metcalcpy/util/mode_arearat_statistics.py 369-393. *)
Definition calculate_arearat_osa_aaa : res pyval :=
  catch std_exns
    (nominator_data <- FILTER [("fcst_flag", FInt 0); ("simple_flag", FInt 1)] ;;
     nominator <- AREA nominator_data ;;
     denominator <- AREA input_data ;;
     pyround (Ok nominator [//] Ok denominator)) None.

(** metcalcpy/util/mode_arearat_statistics.py 396-422. *)
Definition calculate_arearat_fsa_faa : res pyval :=
  catch std_exns
    (nominator_data <- FILTER [("fcst_flag", FInt 1); ("simple_flag", FInt 1)] ;;
     nominator <- AREA nominator_data ;;
     denominator_data <- FILTER [("fcst_flag", FInt 1)] ;;
     denominator <- AREA denominator_data ;;
     pyround (Ok nominator [//] Ok denominator)) None.

(** metcalcpy/util/mode_arearat_statistics.py 425-451. *)
Definition calculate_arearat_fca_faa : res pyval :=
  catch std_exns
    (nominator_data <- FILTER [("fcst_flag", FInt 1); ("simple_flag", FInt 0)] ;;
     nominator <- AREA nominator_data ;;
     denominator_data <- FILTER [("fcst_flag", FInt 1)] ;;
     denominator <- AREA denominator_data ;;
     pyround (Ok nominator [//] Ok denominator)) None.

(** metcalcpy/util/mode_arearat_statistics.py 454-480. *)
Definition calculate_arearat_osa_oaa : res pyval :=
  catch std_exns
    (nominator_data <- FILTER [("fcst_flag", FInt 0); ("simple_flag", FInt 1)] ;;
     nominator <- AREA nominator_data ;;
     denominator_data <- FILTER [("fcst_flag", FInt 0)] ;;
     denominator <- AREA denominator_data ;;
     pyround (Ok nominator [//] Ok denominator)) None.

(** metcalcpy/util/mode_arearat_statistics.py 483-509. *)
Definition calculate_arearat_oca_oaa : res pyval :=
  catch std_exns
    (nominator_data <- FILTER [("fcst_flag", FInt 0); ("simple_flag", FInt 0)] ;;
     nominator <- AREA nominator_data ;;
     denominator_data <- FILTER [("fcst_flag", FInt 0)] ;;
     denominator <- AREA denominator_data ;;
     pyround (Ok nominator [//] Ok denominator)) None.

(** metcalcpy/util/mode_arearat_statistics.py 512-538. *)
Definition calculate_arearat_fca_aca : res pyval :=
  catch std_exns
    (nominator_data <- FILTER [("fcst_flag", FInt 1); ("simple_flag", FInt 0)] ;;
     nominator <- AREA nominator_data ;;
     denominator_data <- FILTER [("simple_flag", FInt 0)] ;;
     denominator <- AREA denominator_data ;;
     pyround (Ok nominator [//] Ok denominator)) None.

(** metcalcpy/util/mode_arearat_statistics.py 541-567. *)
Definition calculate_arearat_oca_aca : res pyval :=
  catch std_exns
    (nominator_data <- FILTER [("fcst_flag", FInt 0); ("simple_flag", FInt 0)] ;;
     nominator <- AREA nominator_data ;;
     denominator_data <- FILTER [("simple_flag", FInt 0)] ;;
     denominator <- AREA denominator_data ;;
     pyround (Ok nominator [//] Ok denominator)) None.

(** metcalcpy/util/mode_arearat_statistics.py 570-597. *)
Definition calculate_arearat_fsa_osa : res pyval :=
  catch std_exns
    (nominator_data <- FILTER [("fcst_flag", FInt 1); ("simple_flag", FInt 1)] ;;
     nominator <- AREA nominator_data ;;
     denominator_data <- FILTER [("fcst_flag", FInt 0); ("simple_flag", FInt 1)] ;;
     denominator <- AREA denominator_data ;;
     pyround (Ok nominator [//] Ok denominator)) None.

(** metcalcpy/util/mode_arearat_statistics.py 600-627. *)
Definition calculate_arearat_osa_fsa : res pyval :=
  catch std_exns
    (nominator_data <- FILTER [("fcst_flag", FInt 0); ("simple_flag", FInt 1)] ;;
     nominator <- AREA nominator_data ;;
     denominator_data <- FILTER [("fcst_flag", FInt 0); ("simple_flag", FInt 1)] ;;
     denominator <- AREA denominator_data ;;
     pyround (Ok nominator [//] Ok denominator)) None.

(** metcalcpy/util/mode_arearat_statistics.py 630-656. *)
Definition calculate_arearat_aca_asa : res pyval :=
  catch std_exns
    (nominator_data <- FILTER [("simple_flag", FInt 0)] ;;
     nominator <- AREA nominator_data ;;
     denominator_data <- FILTER [("simple_flag", FInt 1)] ;;
     denominator <- AREA denominator_data ;;
     pyround (Ok nominator [//] Ok denominator)) None.

(** metcalcpy/util/mode_arearat_statistics.py 659-685. *)
Definition calculate_arearat_asa_aca : res pyval :=
  catch std_exns
    (nominator_data <- FILTER [("simple_flag", FInt 1)] ;;
     nominator <- AREA nominator_data ;;
     denominator_data <- FILTER [("simple_flag", FInt 0)] ;;
     denominator <- AREA denominator_data ;;
     pyround (Ok nominator [//] Ok denominator)) None.

(** metcalcpy/util/mode_arearat_statistics.py 688-714. *)
Definition calculate_arearat_fca_fsa : res pyval :=
  catch std_exns
    (nominator_data <- FILTER [("fcst_flag", FInt 1); ("simple_flag", FInt 0)] ;;
     nominator <- AREA nominator_data ;;
     denominator_data <- FILTER [("fcst_flag", FInt 1); ("simple_flag", FInt 1)] ;;
     denominator <- AREA denominator_data ;;
     pyround (Ok nominator [//] Ok denominator)) None.

(** metcalcpy/util/mode_arearat_statistics.py 717-743. *)
Definition calculate_arearat_fsa_fca : res pyval :=
  catch std_exns
    (nominator_data <- FILTER [("fcst_flag", FInt 1); ("simple_flag", FInt 1)] ;;
     nominator <- AREA nominator_data ;;
     denominator_data <- FILTER [("fcst_flag", FInt 1); ("simple_flag", FInt 0)] ;;
     denominator <- AREA denominator_data ;;
     pyround (Ok nominator [//] Ok denominator)) None.

(** metcalcpy/util/mode_arearat_statistics.py 746-773. *)
Definition calculate_arearat_oca_osa : res pyval :=
  catch std_exns
    (nominator_data <- FILTER [("fcst_flag", FInt 0); ("simple_flag", FInt 0)] ;;
     nominator <- AREA nominator_data ;;
     denominator_data <- FILTER [("fcst_flag", FInt 0); ("simple_flag", FInt 1)] ;;
     denominator <- AREA denominator_data ;;
     pyround (Ok nominator [//] Ok denominator)) None.

(** metcalcpy/util/mode_arearat_statistics.py 776-803. *)
Definition calculate_arearat_osa_oca : res pyval :=
  catch std_exns
    (nominator_data <- FILTER [("fcst_flag", FInt 0); ("simple_flag", FInt 1)] ;;
     nominator <- AREA nominator_data ;;
     denominator_data <- FILTER [("fcst_flag", FInt 0); ("simple_flag", FInt 0)] ;;
     denominator <- AREA denominator_data ;;
     pyround (Ok nominator [//] Ok denominator)) None.

(** metcalcpy/util/mode_arearat_statistics.py 806-830. *)
Definition calculate_objahits : res pyval :=
  catch std_exns
    (nominator_data <- FILTER [("simple_flag", FInt 1); ("matched_flag", FInt 1)] ;;
     nominator <- AREA nominator_data ;;
     let denominator := Some 2 in
     pyround (Ok nominator [//] Ok denominator)) None.

(** metcalcpy/util/mode_arearat_statistics.py 833-856. *)
Definition calculate_objamisses : res pyval :=
  catch std_exns
    (nominator_data <- FILTER [("fcst_flag", FInt 0); ("simple_flag", FInt 1); ("matched_flag", FInt 0)] ;;
     nominator <- AREA nominator_data ;;
     pyround (Ok nominator)) None.

(** metcalcpy/util/mode_arearat_statistics.py 859-882. *)
Definition calculate_objafas : res pyval :=
  catch std_exns
    (nominator_data <- FILTER [("fcst_flag", FInt 1); ("simple_flag", FInt 1); ("matched_flag", FInt 0)] ;;
     nominator <- AREA nominator_data ;;
     pyround (Ok nominator)) None.

(** metcalcpy/util/mode_arearat_statistics.py 885-918. *)
Definition calculate_objacsi : res pyval :=
  catch std_exns
    (nominator_data <- FILTER [("simple_flag", FInt 1); ("matched_flag", FInt 1)] ;;
     nominator <- AREA nominator_data ;;
     denominator_1_data <- FILTER [("simple_flag", FInt 1); ("matched_flag", FInt 1)] ;;
     denominator_1 <- AREA denominator_1_data ;;
     denominator_2_data <- FILTER [("simple_flag", FInt 1); ("matched_flag", FInt 0)] ;;
     denominator_2 <- AREA denominator_2_data ;;
     pyround (Ok nominator [//] (Ok denominator_1 [+] (pylit 2 [*] Ok denominator_2)))) None.

(** metcalcpy/util/mode_arearat_statistics.py 921-954. *)
Definition calculate_objapody : res pyval :=
  catch std_exns
    (nominator_data <- FILTER [("simple_flag", FInt 1); ("matched_flag", FInt 1)] ;;
     nominator <- AREA nominator_data ;;
     denominator_1_data <- FILTER [("simple_flag", FInt 1); ("matched_flag", FInt 1)] ;;
     denominator_1 <- AREA denominator_1_data ;;
     denominator_2_data <- FILTER [("fcst_flag", FInt 0); ("simple_flag", FInt 1); ("matched_flag", FInt 0)] ;;
     denominator_2 <- AREA denominator_2_data ;;
     pyround (Ok nominator [//] (Ok denominator_1 [+] (pylit 2 [*] Ok denominator_2)))) None.

(** metcalcpy/util/mode_arearat_statistics.py 957-990. *)
Definition calculate_objafar : res pyval :=
  catch std_exns
    (nominator_data <- FILTER [("fcst_flag", FInt 1); ("simple_flag", FInt 1); ("matched_flag", FInt 0)] ;;
     nominator <- AREA nominator_data ;;
     denominator_1_data <- FILTER [("fcst_flag", FInt 1); ("simple_flag", FInt 1); ("matched_flag", FInt 0)] ;;
     denominator_1 <- AREA denominator_1_data ;;
     denominator_2_data <- FILTER [("simple_flag", FInt 1); ("matched_flag", FInt 1)] ;;
     denominator_2 <- AREA denominator_2_data ;;
     pyround (Ok nominator [//] (Ok denominator_1 [+] (pylit 2 [*] Ok denominator_2)))) None.

End Mode.

(** metcalcpy/util/utils.py 48-49. *)
Definition TWO_D_DATA_FILTER : list (string * fvalue) := [("object_type", FStr "2d")].
Definition THREE_D_DATA_FILTER : list (string * fvalue) := [("object_type", FStr "3d")].

(** metcalcpy/util/mode_3d_volrat_statistics.py 627-642: a Python list with "volume" renamed. *)
Definition rename_column (columns_names : colnames) : colnames :=
  let l := match columns_names with NpArray l | PyList l => l end in
  PyList (map (fun name => if String.eqb name "volume" then "area" else name) l).

(** The 2-D and 3-D variants.  Simplification: they filter with the warning filter left by the
    previous call, which is assumed not to be 'error'. *)
Section Variants.
Variable input_data : filtered.
Variable columns_names : colnames.

(** metcalcpy/util/mode_2d_ratio_statistics.py 21-36. *)
Definition calculate_2d_ratio_fsa_asa : res pyval :=
  filtered_data <- filter_any false input_data columns_names TWO_D_DATA_FILTER ;;
  calculate_ratio_fsa_asa filtered_data columns_names.

(** metcalcpy/util/mode_2d_ratio_statistics.py 39-53. *)
Definition calculate_2d_ratio_osa_asa : res pyval :=
  filtered_data <- filter_any false input_data columns_names TWO_D_DATA_FILTER ;;
  calculate_ratio_osa_asa filtered_data columns_names.

(** metcalcpy/util/mode_2d_ratio_statistics.py 56-70. *)
Definition calculate_2d_ratio_asm_asa : res pyval :=
  filtered_data <- filter_any false input_data columns_names TWO_D_DATA_FILTER ;;
  calculate_ratio_asm_asa filtered_data columns_names.

(** metcalcpy/util/mode_2d_ratio_statistics.py 73-87. *)
Definition calculate_2d_ratio_asu_asa : res pyval :=
  filtered_data <- filter_any false input_data columns_names TWO_D_DATA_FILTER ;;
  calculate_ratio_asu_asa filtered_data columns_names.

(** metcalcpy/util/mode_2d_ratio_statistics.py 90-104. *)
Definition calculate_2d_ratio_fsm_fsa : res pyval :=
  filtered_data <- filter_any false input_data columns_names TWO_D_DATA_FILTER ;;
  calculate_ratio_fsm_fsa filtered_data columns_names.

(** metcalcpy/util/mode_2d_ratio_statistics.py 107-121. *)
Definition calculate_2d_ratio_fsu_fsa : res pyval :=
  filtered_data <- filter_any false input_data columns_names TWO_D_DATA_FILTER ;;
  calculate_ratio_fsu_fsa filtered_data columns_names.

(** metcalcpy/util/mode_2d_ratio_statistics.py 124-138. *)
Definition calculate_2d_ratio_osm_osa : res pyval :=
  filtered_data <- filter_any false input_data columns_names TWO_D_DATA_FILTER ;;
  calculate_ratio_osm_osa filtered_data columns_names.

(** metcalcpy/util/mode_2d_ratio_statistics.py 141-155. *)
Definition calculate_2d_ratio_osu_osa : res pyval :=
  filtered_data <- filter_any false input_data columns_names TWO_D_DATA_FILTER ;;
  calculate_ratio_osu_osa filtered_data columns_names.

(** metcalcpy/util/mode_2d_ratio_statistics.py 158-172. *)
Definition calculate_2d_ratio_fsm_asm : res pyval :=
  filtered_data <- filter_any false input_data columns_names TWO_D_DATA_FILTER ;;
  calculate_ratio_fsm_asm filtered_data columns_names.

(** metcalcpy/util/mode_2d_ratio_statistics.py 175-189. *)
Definition calculate_2d_ratio_osm_asm : res pyval :=
  filtered_data <- filter_any false input_data columns_names TWO_D_DATA_FILTER ;;
  calculate_ratio_osm_asm filtered_data columns_names.

(** metcalcpy/util/mode_2d_ratio_statistics.py 192-206. *)
Definition calculate_2d_ratio_fsu_asu : res pyval :=
  filtered_data <- filter_any false input_data columns_names TWO_D_DATA_FILTER ;;
  calculate_ratio_fsu_asu filtered_data columns_names.

(** metcalcpy/util/mode_2d_ratio_statistics.py 209-223. *)
Definition calculate_2d_ratio_osu_asu : res pyval :=
  filtered_data <- filter_any false input_data columns_names TWO_D_DATA_FILTER ;;
  calculate_ratio_osu_asu filtered_data columns_names.

(** metcalcpy/util/mode_2d_ratio_statistics.py 226-240. *)
Definition calculate_2d_ratio_fsa_aaa : res pyval :=
  filtered_data <- filter_any false input_data columns_names TWO_D_DATA_FILTER ;;
  calculate_ratio_fsa_aaa filtered_data columns_names.

(** metcalcpy/util/mode_2d_ratio_statistics.py 243-257. *)
Definition calculate_2d_ratio_osa_aaa : res pyval :=
  filtered_data <- filter_any false input_data columns_names TWO_D_DATA_FILTER ;;
  calculate_ratio_osa_aaa filtered_data columns_names.

(** metcalcpy/util/mode_2d_ratio_statistics.py 260-274. *)
Definition calculate_2d_ratio_fsa_faa : res pyval :=
  filtered_data <- filter_any false input_data columns_names TWO_D_DATA_FILTER ;;
  calculate_ratio_fsa_faa filtered_data columns_names.

(** metcalcpy/util/mode_2d_ratio_statistics.py 277-291. *)
Definition calculate_2d_ratio_fca_faa : res pyval :=
  filtered_data <- filter_any false input_data columns_names TWO_D_DATA_FILTER ;;
  calculate_ratio_fca_faa filtered_data columns_names.

(** metcalcpy/util/mode_2d_ratio_statistics.py 294-308. *)
Definition calculate_2d_ratio_osa_oaa : res pyval :=
  filtered_data <- filter_any false input_data columns_names TWO_D_DATA_FILTER ;;
  calculate_ratio_osa_oaa filtered_data columns_names.

(** metcalcpy/util/mode_2d_ratio_statistics.py 311-325. *)
Definition calculate_2d_ratio_oca_oaa : res pyval :=
  filtered_data <- filter_any false input_data columns_names TWO_D_DATA_FILTER ;;
  calculate_ratio_oca_oaa filtered_data columns_names.

(** metcalcpy/util/mode_2d_ratio_statistics.py 328-342. *)
Definition calculate_2d_ratio_fca_aca : res pyval :=
  filtered_data <- filter_any false input_data columns_names TWO_D_DATA_FILTER ;;
  calculate_ratio_fca_aca filtered_data columns_names.

(** metcalcpy/util/mode_2d_ratio_statistics.py 345-359. *)
Definition calculate_2d_ratio_oca_aca : res pyval :=
  filtered_data <- filter_any false input_data columns_names TWO_D_DATA_FILTER ;;
  calculate_ratio_oca_aca filtered_data columns_names.

(** metcalcpy/util/mode_2d_ratio_statistics.py 362-377. *)
Definition calculate_2d_ratio_fsa_osa : res pyval :=
  filtered_data <- filter_any false input_data columns_names TWO_D_DATA_FILTER ;;
  calculate_ratio_fsa_osa filtered_data columns_names.

(** metcalcpy/util/mode_2d_ratio_statistics.py 380-395. *)
Definition calculate_2d_ratio_osa_fsa : res pyval :=
  filtered_data <- filter_any false input_data columns_names TWO_D_DATA_FILTER ;;
  calculate_ratio_osa_fsa filtered_data columns_names.

(** metcalcpy/util/mode_2d_ratio_statistics.py 398-412. *)
Definition calculate_2d_ratio_aca_asa : res pyval :=
  filtered_data <- filter_any false input_data columns_names TWO_D_DATA_FILTER ;;
  calculate_ratio_aca_asa filtered_data columns_names.

(** metcalcpy/util/mode_2d_ratio_statistics.py 415-429. *)
Definition calculate_2d_ratio_asa_aca : res pyval :=
  filtered_data <- filter_any false input_data columns_names TWO_D_DATA_FILTER ;;
  calculate_ratio_asa_aca filtered_data columns_names.

(** metcalcpy/util/mode_2d_ratio_statistics.py 432-446. *)
Definition calculate_2d_ratio_fca_fsa : res pyval :=
  filtered_data <- filter_any false input_data columns_names TWO_D_DATA_FILTER ;;
  calculate_ratio_fca_fsa filtered_data columns_names.

(** metcalcpy/util/mode_2d_ratio_statistics.py 449-463. *)
Definition calculate_2d_ratio_fsa_fca : res pyval :=
  filtered_data <- filter_any false input_data columns_names TWO_D_DATA_FILTER ;;
  calculate_ratio_fsa_fca filtered_data columns_names.

(** metcalcpy/util/mode_2d_ratio_statistics.py 466-481. *)
Definition calculate_2d_ratio_oca_osa : res pyval :=
  filtered_data <- filter_any false input_data columns_names TWO_D_DATA_FILTER ;;
  calculate_ratio_oca_osa filtered_data columns_names.

(** metcalcpy/util/mode_2d_ratio_statistics.py 484-499. *)
Definition calculate_2d_ratio_osa_oca : res pyval :=
  filtered_data <- filter_any false input_data columns_names TWO_D_DATA_FILTER ;;
  calculate_ratio_osa_oca filtered_data columns_names.

(** metcalcpy/util/mode_2d_ratio_statistics.py 502-516. *)
Definition calculate_2d_objhits : res pyval :=
  filtered_data <- filter_any false input_data columns_names TWO_D_DATA_FILTER ;;
  calculate_objhits filtered_data columns_names.

(** metcalcpy/util/mode_2d_ratio_statistics.py 519-533. *)
Definition calculate_2d_objmisses : res pyval :=
  filtered_data <- filter_any false input_data columns_names TWO_D_DATA_FILTER ;;
  calculate_objmisses filtered_data columns_names.

(** metcalcpy/util/mode_2d_ratio_statistics.py 536-550. *)
Definition calculate_2d_objfas : res pyval :=
  filtered_data <- filter_any false input_data columns_names TWO_D_DATA_FILTER ;;
  calculate_objfas filtered_data columns_names.

(** metcalcpy/util/mode_2d_ratio_statistics.py 553-567. *)
Definition calculate_2d_objcsi : res pyval :=
  filtered_data <- filter_any false input_data columns_names TWO_D_DATA_FILTER ;;
  calculate_objcsi filtered_data columns_names.

(** metcalcpy/util/mode_2d_ratio_statistics.py 570-584. *)
Definition calculate_2d_objpody : res pyval :=
  filtered_data <- filter_any false input_data columns_names TWO_D_DATA_FILTER ;;
  calculate_objpody filtered_data columns_names.

(** metcalcpy/util/mode_2d_ratio_statistics.py 587-601. *)
Definition calculate_2d_objfar : res pyval :=
  filtered_data <- filter_any false input_data columns_names TWO_D_DATA_FILTER ;;
  calculate_objfar filtered_data columns_names.

(** metcalcpy/util/mode_2d_arearat_statistics.py 21-35. *)
Definition calculate_2d_arearat_fsa_asa : res pyval :=
  filtered_data <- filter_any false input_data columns_names TWO_D_DATA_FILTER ;;
  calculate_arearat_fsa_asa filtered_data columns_names.

(** metcalcpy/util/mode_2d_arearat_statistics.py 38-52. *)
Definition calculate_2d_arearat_osa_asa : res pyval :=
  filtered_data <- filter_any false input_data columns_names TWO_D_DATA_FILTER ;;
  calculate_arearat_osa_asa filtered_data columns_names.

(** metcalcpy/util/mode_2d_arearat_statistics.py 55-69. *)
Definition calculate_2d_arearat_asm_asa : res pyval :=
  filtered_data <- filter_any false input_data columns_names TWO_D_DATA_FILTER ;;
  calculate_arearat_asm_asa filtered_data columns_names.

(** metcalcpy/util/mode_2d_arearat_statistics.py 72-86. *)
Definition calculate_2d_arearat_asu_asa : res pyval :=
  filtered_data <- filter_any false input_data columns_names TWO_D_DATA_FILTER ;;
  calculate_arearat_asu_asa filtered_data columns_names.

(** metcalcpy/util/mode_2d_arearat_statistics.py 89-103. *)
Definition calculate_2d_arearat_fsm_fsa : res pyval :=
  filtered_data <- filter_any false input_data columns_names TWO_D_DATA_FILTER ;;
  calculate_arearat_fsm_fsa filtered_data columns_names.

(** metcalcpy/util/mode_2d_arearat_statistics.py 106-120. *)
Definition calculate_2d_arearat_fsu_fsa : res pyval :=
  filtered_data <- filter_any false input_data columns_names TWO_D_DATA_FILTER ;;
  calculate_arearat_fsu_fsa filtered_data columns_names.

(** metcalcpy/util/mode_2d_arearat_statistics.py 123-137. *)
Definition calculate_2d_arearat_osm_osa : res pyval :=
  filtered_data <- filter_any false input_data columns_names TWO_D_DATA_FILTER ;;
  calculate_arearat_osm_osa filtered_data columns_names.

(** metcalcpy/util/mode_2d_arearat_statistics.py 140-154. *)
Definition calculate_2d_arearat_osu_osa : res pyval :=
  filtered_data <- filter_any false input_data columns_names TWO_D_DATA_FILTER ;;
  calculate_arearat_osu_osa filtered_data columns_names.

(** metcalcpy/util/mode_2d_arearat_statistics.py 157-171. *)
Definition calculate_2d_arearat_fsm_asm : res pyval :=
  filtered_data <- filter_any false input_data columns_names TWO_D_DATA_FILTER ;;
  calculate_arearat_fsm_asm filtered_data columns_names.

(** metcalcpy/util/mode_2d_arearat_statistics.py 174-188. *)
Definition calculate_2d_arearat_osm_asm : res pyval :=
  filtered_data <- filter_any false input_data columns_names TWO_D_DATA_FILTER ;;
  calculate_arearat_osm_asm filtered_data columns_names.

(** metcalcpy/util/mode_2d_arearat_statistics.py 191-204. *)
Definition calculate_2d_arearat_osu_asu : res pyval :=
  filtered_data <- filter_any false input_data columns_names TWO_D_DATA_FILTER ;;
  calculate_arearat_osu_asu filtered_data columns_names.

(** metcalcpy/util/mode_2d_arearat_statistics.py 207-221. *)
Definition calculate_2d_arearat_fsa_aaa : res pyval :=
  filtered_data <- filter_any false input_data columns_names TWO_D_DATA_FILTER ;;
  calculate_arearat_fsa_aaa filtered_data columns_names.

(** metcalcpy/util/mode_2d_arearat_statistics.py 224-238. *)
Definition calculate_2d_arearat_osa_aaa : res pyval :=
  filtered_data <- filter_any false input_data columns_names TWO_D_DATA_FILTER ;;
  calculate_arearat_osa_aaa filtered_data columns_names.

(** metcalcpy/util/mode_2d_arearat_statistics.py 241-255. *)
Definition calculate_2d_arearat_fsa_faa : res pyval :=
  filtered_data <- filter_any false input_data columns_names TWO_D_DATA_FILTER ;;
  calculate_arearat_fsa_faa filtered_data columns_names.

(** metcalcpy/util/mode_2d_arearat_statistics.py 258-272. *)
Definition calculate_2d_arearat_fca_faa : res pyval :=
  filtered_data <- filter_any false input_data columns_names TWO_D_DATA_FILTER ;;
  calculate_arearat_fca_faa filtered_data columns_names.

(** metcalcpy/util/mode_2d_arearat_statistics.py 275-289. *)
Definition calculate_2d_arearat_osa_oaa : res pyval :=
  filtered_data <- filter_any false input_data columns_names TWO_D_DATA_FILTER ;;
  calculate_arearat_osa_oaa filtered_data columns_names.

(** metcalcpy/util/mode_2d_arearat_statistics.py 292-306. *)
Definition calculate_2d_arearat_oca_oaa : res pyval :=
  filtered_data <- filter_any false input_data columns_names TWO_D_DATA_FILTER ;;
  calculate_arearat_oca_oaa filtered_data columns_names.

(** metcalcpy/util/mode_2d_arearat_statistics.py 309-323. *)
Definition calculate_2d_arearat_fca_aca : res pyval :=
  filtered_data <- filter_any false input_data columns_names TWO_D_DATA_FILTER ;;
  calculate_arearat_fca_aca filtered_data columns_names.

(** metcalcpy/util/mode_2d_arearat_statistics.py 326-340. *)
Definition calculate_2d_arearat_oca_aca : res pyval :=
  filtered_data <- filter_any false input_data columns_names TWO_D_DATA_FILTER ;;
  calculate_arearat_oca_aca filtered_data columns_names.

(** metcalcpy/util/mode_2d_arearat_statistics.py 343-358. *)
Definition calculate_2d_arearat_fsa_osa : res pyval :=
  filtered_data <- filter_any false input_data columns_names TWO_D_DATA_FILTER ;;
  calculate_arearat_fsa_osa filtered_data columns_names.

(** metcalcpy/util/mode_2d_arearat_statistics.py 361-376. *)
Definition calculate_2d_arearat_osa_fsa : res pyval :=
  filtered_data <- filter_any false input_data columns_names TWO_D_DATA_FILTER ;;
  calculate_arearat_osa_fsa filtered_data columns_names.

(** metcalcpy/util/mode_2d_arearat_statistics.py 379-393. *)
Definition calculate_2d_arearat_aca_asa : res pyval :=
  filtered_data <- filter_any false input_data columns_names TWO_D_DATA_FILTER ;;
  calculate_arearat_aca_asa filtered_data columns_names.

(** metcalcpy/util/mode_2d_arearat_statistics.py 396-410. *)
Definition calculate_2d_arearat_asa_aca : res pyval :=
  filtered_data <- filter_any false input_data columns_names TWO_D_DATA_FILTER ;;
  calculate_arearat_asa_aca filtered_data columns_names.

(** metcalcpy/util/mode_2d_arearat_statistics.py 413-428. *)
Definition calculate_2d_arearat_fca_fsa : res pyval :=
  filtered_data <- filter_any false input_data columns_names TWO_D_DATA_FILTER ;;
  calculate_arearat_fca_fsa filtered_data columns_names.

(** metcalcpy/util/mode_2d_arearat_statistics.py 431-446. *)
Definition calculate_2d_arearat_fsa_fca : res pyval :=
  filtered_data <- filter_any false input_data columns_names TWO_D_DATA_FILTER ;;
  calculate_arearat_fsa_fca filtered_data columns_names.

(** metcalcpy/util/mode_2d_arearat_statistics.py 449-464. *)
Definition calculate_2d_arearat_oca_osa : res pyval :=
  filtered_data <- filter_any false input_data columns_names TWO_D_DATA_FILTER ;;
  calculate_arearat_oca_osa filtered_data columns_names.

(** metcalcpy/util/mode_2d_arearat_statistics.py 467-482. *)
Definition calculate_2d_arearat_osa_oca : res pyval :=
  filtered_data <- filter_any false input_data columns_names TWO_D_DATA_FILTER ;;
  calculate_arearat_osa_oca filtered_data columns_names.

(** metcalcpy/util/mode_2d_arearat_statistics.py 485-499. *)
Definition calculate_2d_objahits : res pyval :=
  filtered_data <- filter_any false input_data columns_names TWO_D_DATA_FILTER ;;
  calculate_objahits filtered_data columns_names.

(** metcalcpy/util/mode_2d_arearat_statistics.py 502-516. *)
Definition calculate_2d_objamisses : res pyval :=
  filtered_data <- filter_any false input_data columns_names TWO_D_DATA_FILTER ;;
  calculate_objamisses filtered_data columns_names.

(** metcalcpy/util/mode_2d_arearat_statistics.py 519-533. *)
Definition calculate_2d_objafas : res pyval :=
  filtered_data <- filter_any false input_data columns_names TWO_D_DATA_FILTER ;;
  calculate_objafas filtered_data columns_names.

(** metcalcpy/util/mode_2d_arearat_statistics.py 536-550. *)
Definition calculate_2d_objacsi : res pyval :=
  filtered_data <- filter_any false input_data columns_names TWO_D_DATA_FILTER ;;
  calculate_objacsi filtered_data columns_names.

(** metcalcpy/util/mode_2d_arearat_statistics.py 553-567. *)
Definition calculate_2d_objapody : res pyval :=
  filtered_data <- filter_any false input_data columns_names TWO_D_DATA_FILTER ;;
  calculate_objapody filtered_data columns_names.

(** metcalcpy/util/mode_2d_arearat_statistics.py 570-584. *)
Definition calculate_2d_objafar : res pyval :=
  filtered_data <- filter_any false input_data columns_names TWO_D_DATA_FILTER ;;
  calculate_objafar filtered_data columns_names.

(** metcalcpy/util/mode_3d_ratio_statistics.py 15-28. *)
Definition calculate_3d_ratio_fsa_asa : res pyval :=
  filtered_data <- filter_any false input_data columns_names THREE_D_DATA_FILTER ;;
  calculate_ratio_fsa_asa filtered_data columns_names.

(** metcalcpy/util/mode_3d_ratio_statistics.py 31-45. *)
Definition calculate_3d_ratio_osa_asa : res pyval :=
  filtered_data <- filter_any false input_data columns_names THREE_D_DATA_FILTER ;;
  calculate_ratio_osa_asa filtered_data columns_names.

(** metcalcpy/util/mode_3d_ratio_statistics.py 48-62. *)
Definition calculate_3d_ratio_asm_asa : res pyval :=
  filtered_data <- filter_any false input_data columns_names THREE_D_DATA_FILTER ;;
  calculate_ratio_asm_asa filtered_data columns_names.

(** metcalcpy/util/mode_3d_ratio_statistics.py 65-79. *)
Definition calculate_3d_ratio_asu_asa : res pyval :=
  filtered_data <- filter_any false input_data columns_names THREE_D_DATA_FILTER ;;
  calculate_ratio_asu_asa filtered_data columns_names.

(** metcalcpy/util/mode_3d_ratio_statistics.py 82-96. *)
Definition calculate_3d_ratio_fsm_fsa : res pyval :=
  filtered_data <- filter_any false input_data columns_names THREE_D_DATA_FILTER ;;
  calculate_ratio_fsm_fsa filtered_data columns_names.

(** metcalcpy/util/mode_3d_ratio_statistics.py 99-113. *)
Definition calculate_3d_ratio_fsu_fsa : res pyval :=
  filtered_data <- filter_any false input_data columns_names THREE_D_DATA_FILTER ;;
  calculate_ratio_fsu_fsa filtered_data columns_names.

(** metcalcpy/util/mode_3d_ratio_statistics.py 116-130. *)
Definition calculate_3d_ratio_osm_osa : res pyval :=
  filtered_data <- filter_any false input_data columns_names THREE_D_DATA_FILTER ;;
  calculate_ratio_osm_osa filtered_data columns_names.

(** metcalcpy/util/mode_3d_ratio_statistics.py 133-147. *)
Definition calculate_3d_ratio_osu_osa : res pyval :=
  filtered_data <- filter_any false input_data columns_names THREE_D_DATA_FILTER ;;
  calculate_ratio_osu_osa filtered_data columns_names.

(** metcalcpy/util/mode_3d_ratio_statistics.py 150-164. *)
Definition calculate_3d_ratio_fsm_asm : res pyval :=
  filtered_data <- filter_any false input_data columns_names THREE_D_DATA_FILTER ;;
  calculate_ratio_fsm_asm filtered_data columns_names.

(** metcalcpy/util/mode_3d_ratio_statistics.py 167-181. *)
Definition calculate_3d_ratio_osm_asm : res pyval :=
  filtered_data <- filter_any false input_data columns_names THREE_D_DATA_FILTER ;;
  calculate_ratio_osm_asm filtered_data columns_names.

(** metcalcpy/util/mode_3d_ratio_statistics.py 184-198. *)
Definition calculate_3d_ratio_fsu_asu : res pyval :=
  filtered_data <- filter_any false input_data columns_names THREE_D_DATA_FILTER ;;
  calculate_ratio_fsu_asu filtered_data columns_names.

(** metcalcpy/util/mode_3d_ratio_statistics.py 201-215. *)
Definition calculate_3d_ratio_osu_asu : res pyval :=
  filtered_data <- filter_any false input_data columns_names THREE_D_DATA_FILTER ;;
  calculate_ratio_osu_asu filtered_data columns_names.

(** metcalcpy/util/mode_3d_ratio_statistics.py 218-232. *)
Definition calculate_3d_ratio_fsa_aaa : res pyval :=
  filtered_data <- filter_any false input_data columns_names THREE_D_DATA_FILTER ;;
  calculate_ratio_fsa_aaa filtered_data columns_names.

(** metcalcpy/util/mode_3d_ratio_statistics.py 235-249. *)
Definition calculate_3d_ratio_osa_aaa : res pyval :=
  filtered_data <- filter_any false input_data columns_names THREE_D_DATA_FILTER ;;
  calculate_ratio_osa_aaa filtered_data columns_names.

(** metcalcpy/util/mode_3d_ratio_statistics.py 252-266. *)
Definition calculate_3d_ratio_fsa_faa : res pyval :=
  filtered_data <- filter_any false input_data columns_names THREE_D_DATA_FILTER ;;
  calculate_ratio_fsa_faa filtered_data columns_names.

(** metcalcpy/util/mode_3d_ratio_statistics.py 269-283. *)
Definition calculate_3d_ratio_fca_faa : res pyval :=
  filtered_data <- filter_any false input_data columns_names THREE_D_DATA_FILTER ;;
  calculate_ratio_fca_faa filtered_data columns_names.

(** metcalcpy/util/mode_3d_ratio_statistics.py 286-300. *)
Definition calculate_3d_ratio_osa_oaa : res pyval :=
  filtered_data <- filter_any false input_data columns_names THREE_D_DATA_FILTER ;;
  calculate_ratio_osa_oaa filtered_data columns_names.

(** metcalcpy/util/mode_3d_ratio_statistics.py 303-317. *)
Definition calculate_3d_ratio_oca_oaa : res pyval :=
  filtered_data <- filter_any false input_data columns_names THREE_D_DATA_FILTER ;;
  calculate_ratio_oca_oaa filtered_data columns_names.

(** metcalcpy/util/mode_3d_ratio_statistics.py 320-334. *)
Definition calculate_3d_ratio_fca_aca : res pyval :=
  filtered_data <- filter_any false input_data columns_names THREE_D_DATA_FILTER ;;
  calculate_ratio_fca_aca filtered_data columns_names.

(** metcalcpy/util/mode_3d_ratio_statistics.py 337-351. *)
Definition calculate_3d_ratio_fsa_osa : res pyval :=
  filtered_data <- filter_any false input_data columns_names THREE_D_DATA_FILTER ;;
  calculate_ratio_fsa_osa filtered_data columns_names.

(** metcalcpy/util/mode_3d_ratio_statistics.py 354-368. *)
Definition calculate_3d_ratio_osa_fsa : res pyval :=
  filtered_data <- filter_any false input_data columns_names THREE_D_DATA_FILTER ;;
  calculate_ratio_osa_fsa filtered_data columns_names.

(** metcalcpy/util/mode_3d_ratio_statistics.py 371-385. *)
Definition calculate_3d_ratio_asa_aca : res pyval :=
  filtered_data <- filter_any false input_data columns_names THREE_D_DATA_FILTER ;;
  calculate_ratio_asa_aca filtered_data columns_names.

(** metcalcpy/util/mode_3d_ratio_statistics.py 388-402. *)
Definition calculate_3d_ratio_fca_fsa : res pyval :=
  filtered_data <- filter_any false input_data columns_names THREE_D_DATA_FILTER ;;
  calculate_ratio_fca_fsa filtered_data columns_names.

(** metcalcpy/util/mode_3d_ratio_statistics.py 405-419. *)
Definition calculate_3d_ratio_fsa_fca : res pyval :=
  filtered_data <- filter_any false input_data columns_names THREE_D_DATA_FILTER ;;
  calculate_ratio_fsa_fca filtered_data columns_names.

(** metcalcpy/util/mode_3d_ratio_statistics.py 422-436. *)
Definition calculate_3d_ratio_oca_osa : res pyval :=
  filtered_data <- filter_any false input_data columns_names THREE_D_DATA_FILTER ;;
  calculate_ratio_oca_osa filtered_data columns_names.

(** metcalcpy/util/mode_3d_ratio_statistics.py 439-453. *)
Definition calculate_3d_ratio_osa_oca : res pyval :=
  filtered_data <- filter_any false input_data columns_names THREE_D_DATA_FILTER ;;
  calculate_ratio_osa_oca filtered_data columns_names.

(** metcalcpy/util/mode_3d_ratio_statistics.py 456-470. *)
Definition calculate_3d_objhits : res pyval :=
  filtered_data <- filter_any false input_data columns_names THREE_D_DATA_FILTER ;;
  calculate_objhits filtered_data columns_names.

(** metcalcpy/util/mode_3d_ratio_statistics.py 473-487. *)
Definition calculate_3d_objmisses : res pyval :=
  filtered_data <- filter_any false input_data columns_names THREE_D_DATA_FILTER ;;
  calculate_objmisses filtered_data columns_names.

(** metcalcpy/util/mode_3d_ratio_statistics.py 490-504. *)
Definition calculate_3d_objfas : res pyval :=
  filtered_data <- filter_any false input_data columns_names THREE_D_DATA_FILTER ;;
  calculate_objfas filtered_data columns_names.

(** metcalcpy/util/mode_3d_ratio_statistics.py 507-521. *)
Definition calculate_3d_objcsi : res pyval :=
  filtered_data <- filter_any false input_data columns_names THREE_D_DATA_FILTER ;;
  calculate_objcsi filtered_data columns_names.

(** metcalcpy/util/mode_3d_ratio_statistics.py 524-538. *)
Definition calculate_3d_objpody : res pyval :=
  filtered_data <- filter_any false input_data columns_names THREE_D_DATA_FILTER ;;
  calculate_objpody filtered_data columns_names.

(** metcalcpy/util/mode_3d_ratio_statistics.py 541-555. *)
Definition calculate_3d_objfar : res pyval :=
  filtered_data <- filter_any false input_data columns_names THREE_D_DATA_FILTER ;;
  calculate_objfar filtered_data columns_names.

(** metcalcpy/util/mode_3d_volrat_statistics.py 21-36. *)
Definition calculate_3d_volrat_fsa_asa : res pyval :=
  let columns_names_new := rename_column columns_names in
  filtered_data <- filter_any false input_data columns_names_new THREE_D_DATA_FILTER ;;
  calculate_arearat_fsa_asa filtered_data columns_names_new.

(** metcalcpy/util/mode_3d_volrat_statistics.py 39-54. *)
Definition calculate_3d_volrat_osa_asa : res pyval :=
  let columns_names_new := rename_column columns_names in
  filtered_data <- filter_any false input_data columns_names_new THREE_D_DATA_FILTER ;;
  calculate_arearat_osa_asa filtered_data columns_names_new.

(** metcalcpy/util/mode_3d_volrat_statistics.py 57-73. *)
Definition calculate_3d_volrat_asm_asa : res pyval :=
  let columns_names_new := rename_column columns_names in
  filtered_data <- filter_any false input_data columns_names_new THREE_D_DATA_FILTER ;;
  calculate_arearat_asm_asa filtered_data columns_names_new.

(** metcalcpy/util/mode_3d_volrat_statistics.py 76-91. *)
Definition calculate_3d_volrat_asu_asa : res pyval :=
  let columns_names_new := rename_column columns_names in
  filtered_data <- filter_any false input_data columns_names_new THREE_D_DATA_FILTER ;;
  calculate_arearat_asu_asa filtered_data columns_names_new.

(** metcalcpy/util/mode_3d_volrat_statistics.py 94-109. *)
Definition calculate_3d_volrat_fsm_fsa : res pyval :=
  let columns_names_new := rename_column columns_names in
  filtered_data <- filter_any false input_data columns_names_new THREE_D_DATA_FILTER ;;
  calculate_arearat_fsm_fsa filtered_data columns_names_new.

(** metcalcpy/util/mode_3d_volrat_statistics.py 112-127. *)
Definition calculate_3d_volrat_fsu_fsa : res pyval :=
  let columns_names_new := rename_column columns_names in
  filtered_data <- filter_any false input_data columns_names_new THREE_D_DATA_FILTER ;;
  calculate_arearat_fsu_fsa filtered_data columns_names_new.

(** metcalcpy/util/mode_3d_volrat_statistics.py 130-145. *)
Definition calculate_3d_volrat_osm_osa : res pyval :=
  let columns_names_new := rename_column columns_names in
  filtered_data <- filter_any false input_data columns_names_new THREE_D_DATA_FILTER ;;
  calculate_arearat_osm_osa filtered_data columns_names_new.

(** metcalcpy/util/mode_3d_volrat_statistics.py 148-163. *)
Definition calculate_3d_volrat_osu_osa : res pyval :=
  let columns_names_new := rename_column columns_names in
  filtered_data <- filter_any false input_data columns_names_new THREE_D_DATA_FILTER ;;
  calculate_arearat_osu_osa filtered_data columns_names_new.

(** metcalcpy/util/mode_3d_volrat_statistics.py 166-182. *)
Definition calculate_3d_volrat_fsm_asm : res pyval :=
  let columns_names_new := rename_column columns_names in
  filtered_data <- filter_any false input_data columns_names_new THREE_D_DATA_FILTER ;;
  calculate_arearat_fsm_asm filtered_data columns_names_new.

(** metcalcpy/util/mode_3d_volrat_statistics.py 185-200. *)
Definition calculate_3d_volrat_osm_asm : res pyval :=
  let columns_names_new := rename_column columns_names in
  filtered_data <- filter_any false input_data columns_names_new THREE_D_DATA_FILTER ;;
  calculate_arearat_osm_asm filtered_data columns_names_new.

(** metcalcpy/util/mode_3d_volrat_statistics.py 203-218. *)
Definition calculate_3d_volrat_osu_asu : res pyval :=
  let columns_names_new := rename_column columns_names in
  filtered_data <- filter_any false input_data columns_names_new THREE_D_DATA_FILTER ;;
  calculate_arearat_osu_asu filtered_data columns_names_new.

(** metcalcpy/util/mode_3d_volrat_statistics.py 221-236. *)
Definition calculate_3d_volrat_fsa_aaa : res pyval :=
  let columns_names_new := rename_column columns_names in
  filtered_data <- filter_any false input_data columns_names_new THREE_D_DATA_FILTER ;;
  calculate_arearat_fsa_aaa filtered_data columns_names_new.

(** metcalcpy/util/mode_3d_volrat_statistics.py 239-254. *)
Definition calculate_3d_volrat_osa_aaa : res pyval :=
  let columns_names_new := rename_column columns_names in
  filtered_data <- filter_any false input_data columns_names_new THREE_D_DATA_FILTER ;;
  calculate_arearat_osa_aaa filtered_data columns_names_new.

(** metcalcpy/util/mode_3d_volrat_statistics.py 257-273. *)
Definition calculate_3d_volrat_fsa_faa : res pyval :=
  let columns_names_new := rename_column columns_names in
  filtered_data <- filter_any false input_data columns_names_new THREE_D_DATA_FILTER ;;
  calculate_arearat_fsa_faa filtered_data columns_names_new.

(** metcalcpy/util/mode_3d_volrat_statistics.py 276-291. *)
Definition calculate_3d_volrat_fca_faa : res pyval :=
  let columns_names_new := rename_column columns_names in
  filtered_data <- filter_any false input_data columns_names_new THREE_D_DATA_FILTER ;;
  calculate_arearat_fca_faa filtered_data columns_names_new.

(** metcalcpy/util/mode_3d_volrat_statistics.py 294-309. *)
Definition calculate_3d_volrat_osa_oaa : res pyval :=
  let columns_names_new := rename_column columns_names in
  filtered_data <- filter_any false input_data columns_names_new THREE_D_DATA_FILTER ;;
  calculate_arearat_osa_oaa filtered_data columns_names_new.

(** metcalcpy/util/mode_3d_volrat_statistics.py 312-327. *)
Definition calculate_3d_volrat_oca_oaa : res pyval :=
  let columns_names_new := rename_column columns_names in
  filtered_data <- filter_any false input_data columns_names_new THREE_D_DATA_FILTER ;;
  calculate_arearat_oca_oaa filtered_data columns_names_new.

(** metcalcpy/util/mode_3d_volrat_statistics.py 330-345. *)
Definition calculate_3d_volrat_fca_aca : res pyval :=
  let columns_names_new := rename_column columns_names in
  filtered_data <- filter_any false input_data columns_names_new THREE_D_DATA_FILTER ;;
  calculate_arearat_fca_aca filtered_data columns_names_new.

(** metcalcpy/util/mode_3d_volrat_statistics.py 348-363. *)
Definition calculate_3d_volrat_oca_aca : res pyval :=
  let columns_names_new := rename_column columns_names in
  filtered_data <- filter_any false input_data columns_names_new THREE_D_DATA_FILTER ;;
  calculate_arearat_oca_aca filtered_data columns_names_new.

(** metcalcpy/util/mode_3d_volrat_statistics.py 366-383. *)
Definition calculate_3d_volrat_fsa_osa : res pyval :=
  let columns_names_new := rename_column columns_names in
  filtered_data <- filter_any false input_data columns_names_new THREE_D_DATA_FILTER ;;
  calculate_arearat_fsa_osa filtered_data columns_names_new.

(** metcalcpy/util/mode_3d_volrat_statistics.py 386-402. *)
Definition calculate_3d_volrat_osa_fsa : res pyval :=
  let columns_names_new := rename_column columns_names in
  filtered_data <- filter_any false input_data columns_names_new THREE_D_DATA_FILTER ;;
  calculate_arearat_osa_fsa filtered_data columns_names_new.

(** metcalcpy/util/mode_3d_volrat_statistics.py 405-420. *)
Definition calculate_3d_volrat_aca_asa : res pyval :=
  let columns_names_new := rename_column columns_names in
  filtered_data <- filter_any false input_data columns_names_new THREE_D_DATA_FILTER ;;
  calculate_arearat_aca_asa filtered_data columns_names_new.

(** metcalcpy/util/mode_3d_volrat_statistics.py 423-438. *)
Definition calculate_3d_volrat_asa_aca : res pyval :=
  let columns_names_new := rename_column columns_names in
  filtered_data <- filter_any false input_data columns_names_new THREE_D_DATA_FILTER ;;
  calculate_arearat_asa_aca filtered_data columns_names_new.

(** metcalcpy/util/mode_3d_volrat_statistics.py 441-457. *)
Definition calculate_3d_volrat_fca_fsa : res pyval :=
  let columns_names_new := rename_column columns_names in
  filtered_data <- filter_any false input_data columns_names_new THREE_D_DATA_FILTER ;;
  calculate_arearat_fca_fsa filtered_data columns_names_new.

(** metcalcpy/util/mode_3d_volrat_statistics.py 460-477. *)
Definition calculate_3d_volrat_fsa_fca : res pyval :=
  let columns_names_new := rename_column columns_names in
  filtered_data <- filter_any false input_data columns_names_new THREE_D_DATA_FILTER ;;
  calculate_arearat_fsa_fca filtered_data columns_names_new.

(** metcalcpy/util/mode_3d_volrat_statistics.py 480-496. *)
Definition calculate_3d_volrat_oca_osa : res pyval :=
  let columns_names_new := rename_column columns_names in
  filtered_data <- filter_any false input_data columns_names_new THREE_D_DATA_FILTER ;;
  calculate_arearat_oca_osa filtered_data columns_names_new.

(** metcalcpy/util/mode_3d_volrat_statistics.py 499-515. *)
Definition calculate_3d_volrat_osa_oca : res pyval :=
  let columns_names_new := rename_column columns_names in
  filtered_data <- filter_any false input_data columns_names_new THREE_D_DATA_FILTER ;;
  calculate_arearat_osa_oca filtered_data columns_names_new.

(** metcalcpy/util/mode_3d_volrat_statistics.py 518-534. *)
Definition calculate_3d_objvhits : res pyval :=
  let columns_names_new := rename_column columns_names in
  filtered_data <- filter_any false input_data columns_names_new THREE_D_DATA_FILTER ;;
  calculate_objahits filtered_data columns_names_new.

(** metcalcpy/util/mode_3d_volrat_statistics.py 537-552. *)
Definition calculate_3d_objvmisses : res pyval :=
  let columns_names_new := rename_column columns_names in
  filtered_data <- filter_any false input_data columns_names_new THREE_D_DATA_FILTER ;;
  calculate_objamisses filtered_data columns_names_new.

(** metcalcpy/util/mode_3d_volrat_statistics.py 555-570. *)
Definition calculate_3d_objvfas : res pyval :=
  let columns_names_new := rename_column columns_names in
  filtered_data <- filter_any false input_data columns_names_new THREE_D_DATA_FILTER ;;
  calculate_objafas filtered_data columns_names_new.

(** metcalcpy/util/mode_3d_volrat_statistics.py 573-588. *)
Definition calculate_3d_objvcsi : res pyval :=
  let columns_names_new := rename_column columns_names in
  filtered_data <- filter_any false input_data columns_names_new THREE_D_DATA_FILTER ;;
  calculate_objacsi filtered_data columns_names_new.

(** metcalcpy/util/mode_3d_volrat_statistics.py 591-606. *)
Definition calculate_3d_objvpody : res pyval :=
  let columns_names_new := rename_column columns_names in
  filtered_data <- filter_any false input_data columns_names_new THREE_D_DATA_FILTER ;;
  calculate_objapody filtered_data columns_names_new.

(** metcalcpy/util/mode_3d_volrat_statistics.py 609-624. *)
Definition calculate_3d_objvfar : res pyval :=
  let columns_names_new := rename_column columns_names in
  filtered_data <- filter_any false input_data columns_names_new THREE_D_DATA_FILTER ;;
  calculate_objafar filtered_data columns_names_new.

End Variants.
