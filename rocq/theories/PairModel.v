(** The bootstrap of derived curves: metcalcpy/agg_stat.py 283-404 and 735-758, metcalcpy/bootstrap.py 102-169. *)
From Verif Require Import PyBase ColumnModel UtilModel BootModel DriveModel.
From Coq Require Import String List.
Import ListNotations.
Open Scope nat_scope.
Open Scope list_scope.

Section Statistics.
(** The functions [calculate_…] of agg_stat.py by the names of the statistics; each is called with the rows, the names of
    the columns and, if it has a third parameter, True. *)
Variable calculate : string -> option (tdata -> res pyval).
(** The equivalence test of utils.py 172-181. *)
Variable equivalence : list Q -> list Q -> res unit.
Variable columns : list string.

(** [values[0, stat_column_index].lower()]; numbers and missing values have no [lower]. *)
Definition name_in (values : tdata) (i : nat) : res string :=
  match values with
  | [] => Err IndexError
  | r :: _ =>
      match nth_error r i with
      | None => Err IndexError
      | Some (CStr s) => Ok (lower s)
      | Some _ => Err AttributeError
      end
  end.
(** [globals()[func_name]]. *)
Definition function (name : string) : res (tdata -> res pyval) :=
  match calculate name with Some f => Ok f | None => Err KeyError end.
(** agg_stat.py 298-342 and 348-391: the statistic of one array.  [np.where(…)[0][0]] raises IndexError if there is no column
    stat_name, and the handler of ValueError is never used. *)
Definition derived_stat (values : tdata) : res pyval :=
  let num_of_columns := match values with r :: _ => length r - 1 | [] => 0 end in
  let half := num_of_columns / 2 in
  let values_1 := map (firstn half) values in
  let values_2 := map (fun r => firstn (num_of_columns - half) (skipn half r)) values in
  i <- match index_of "stat_name" columns with Some i => Ok i | None => Err IndexError end ;;
  stat_1 <- name_in values_1 i ;;
  stat_2 <- name_in values_2 i ;;
  f1 <- function stat_1 ;;
  f2 <- function stat_2 ;;
  s1 <- f1 values_1 ;;
  s2 <- f2 values_2 ;;
  let operation := match values with r :: _ => match last r CMiss with CStr op => op | _ => ""%string end | [] => ""%string end in
  d <- calc_derived_curve_value equivalence (Some [s1]) (Some [s2]) operation ;;
  match d with
  | Undefined => Ok None
  | Values (x :: _) => Ok (Some x)
  | Values [] | Equivalence _ => Err NotModelled
  end.
(** agg_stat.py 283-404, [_calc_stats_derived].  A list with one value stands for each resample; here it is the value.
    Arrays of other dimensions raise KeyError and do not occur. *)
Definition calc_stats_derived (a : array (list cell)) : res (list pyval) :=
  match a with
  | Data rows => x <- derived_stat rows ;; Ok [x]
  | Samples l => map_res derived_stat l
  end.
End Statistics.

(** agg_stat.py 739-741: the two arrays side by side, and the operation in the last column. *)
Definition join (v1 v2 : tdata) (operation : string) : res tdata :=
  if length v1 =? length v2 then Ok (map (fun p => fst p ++ snd p ++ [CStr operation]) (combine v1 v2)) else Err ValueError.

Section Bootstrap.
Variable gen : Type.
Variable randint : gen -> nat -> nat * gen.
Variable seed_gen : Z -> gen.
(** bootstrap.py 102-169, [bootstrap_and_value], with the distribution; the batch size is not given (line 147 divides by
    the block length). *)
Definition bootstrap_and_value {A : Type} (values : list A) (stat_func : array A -> res (list pyval)) (alpha : Q)
  (g : gen) (num_iterations num_threads cpu_count : Z) (seeds : list Z) (method : ci_method) (block_length : Z)
  : res (results * list pyval) :=
  s <- stat_func (Data values) ;;
  stat_val <- match s with x :: _ => Ok x | [] => Err IndexError end ;;
  if (block_length =? 0)%Z then Err ZeroDivisionError
  else
    dist <- bootstrap_distribution_cbb gen randint seed_gen A pyval values stat_func g num_iterations None num_threads cpu_count seeds block_length ;;
    r <- get_confidence_interval_and_value dist stat_val alpha method ;;
    Ok (r, dist).
(** agg_stat.py 735-764: the bootstrap of a derived curve; [is_cbb] is the parameter circular_block_bootstrap. *)
Definition derived_bootstrap (calculate : string -> option (tdata -> res pyval)) (equivalence : list Q -> list Q -> res unit)
  (columns : list string) (alpha : Q) (g : gen) (num_iterations num_threads cpu_count : Z) (seeds : list Z) (method : ci_method)
  (is_cbb : bool) (operation : string) (v1 v2 : tdata) : res (results * list pyval) :=
  values <- join v1 v2 operation ;;
  let block_length := if is_cbb then Z.sqrt (Z.of_nat (length values)) else 1%Z in
  bootstrap_and_value values (calc_stats_derived calculate equivalence columns) alpha g num_iterations num_threads cpu_count seeds
    method block_length.
(** The calls of the driver, with this bootstrap. *)
Definition with_bootstrap (e : engine) (calculate : string -> option (tdata -> res pyval)) (columns : list string) (alpha : Q)
  (g : gen) (num_iterations num_threads cpu_count : Z) (seeds : list Z) (method : ci_method) (is_cbb : bool) : engine :=
  Engine (prep e) (calc e) (boot e) (calc_row e)
    (fun _ operation v1 v2 => derived_bootstrap calculate (DriveModel.equivalence e) columns alpha g num_iterations num_threads cpu_count seeds
       method is_cbb operation v1 v2)
    (DriveModel.equivalence e).
End Bootstrap.
