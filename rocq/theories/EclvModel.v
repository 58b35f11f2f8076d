(** Economic cost/loss value: metcalcpy/util/ctc_statistics.py 496-590 and
    metcalcpy/util/eclv_statistics.py 24-85. *)
From Verif Require Import PyBase ColumnModel.

(** [ndarray.sort()] on floats: any correct ascending sort gives the same array; the model
    uses insertion sort. *)
Fixpoint insertQ (x : Q) (l : list Q) : list Q :=
  match l with
  | [] => [x]
  | y :: t => if Qle_bool x y then x :: y :: t else y :: insertQ x t
  end.
Fixpoint sortQ (l : list Q) : list Q :=
  match l with [] => [] | x :: t => insertQ x (sortQ t) end.

(** The dictionary returned at ctc_statistics.py 578-584. *)
Record eclv : Type := {
  e_vmax : Q; e_V : list Q; e_F : Q; e_H : Q; e_cl : list Q; e_s : Q; e_n : Q
}.

(** Division of numpy floats under [filterwarnings('error')]: zero divisor raises. *)
Definition qdiv (a b : Q) : res Q := if Qeq_bool b 0 then Err PyWarning else Ok (a / b).

(** ctc_statistics.py 569: [(1 - f) - s / (1 - s) * (1 - cl) / cl * (1 - h)], one element. *)
Definition value_below (f h s cl : Q) : res Q :=
  o <- qdiv s (1 - s) ;; x <- qdiv (o * (1 - cl)) cl ;; Ok ((1 - f) - x * (1 - h)).

(** ctc_statistics.py 570: [h - (1 - s) / s * cl / (1 - cl) * f], one element. *)
Definition value_above (f h s cl : Q) : res Q :=
  o <- qdiv (1 - s) s ;; x <- qdiv (o * cl) (1 - cl) ;; Ok (h - x * f).

(** ctc_statistics.py 571-576: selection by [cl < s]; the two index masks are complementary. *)
Fixpoint select_values (s : Q) (cl v1 v2 : list Q) : list Q :=
  match cl, v1, v2 with
  | c :: cl', a :: v1', b :: v2' => (if Qle_bool s c then b else a) :: select_values s cl' v1' v2'
  | _, _, _ => []
  end.

(** ctc_statistics.py 530-590, [calculate_economic_value]. *)
Definition calculate_economic_value (values : list pyval) (cost_lost_ratio : list Q)
  (add_base_rate : bool) : res (option eclv) :=
  catch std_exns
    match values with
    | [v0; v1; v2; v3] =>
        n <- (pylit 0 [+] Ok v0 [+] Ok v1 [+] Ok v2 [+] Ok v3) ;;
        f <- (Ok v1 [/] (Ok v1 [+] Ok v3)) ;;
        h <- (Ok v0 [/] (Ok v0 [+] Ok v2)) ;;
        s <- ((Ok v0 [+] Ok v2) [/] Ok n) ;;
        match n, f, h, s with
        | Some n, Some f, Some h, Some s =>
            let cl_local := sortQ (if add_base_rate then cost_lost_ratio ++ [s] else cost_lost_ratio) in
            v_1 <- mapM (value_below f h s) cl_local ;;
            v_2 <- mapM (value_above f h s) cl_local ;;
            Ok (Some {| e_vmax := round_half_up (h - f) PRECISION;
                        e_V := select_values s cl_local v_1 v_2;
                        e_F := round_half_up f PRECISION;
                        e_H := round_half_up h PRECISION;
                        e_cl := cl_local;
                        e_s := round_half_up s PRECISION;
                        e_n := n |})
        | _, _, _, _ => Err TypeError
        end
    | _ => Ok None
    end None.

Section Eclv.
Variables (data : tdata) (columns : list string).
Let SUM (c : string) : res pyval := sum_column_data_by_name data columns c true.

(** ctc_statistics.py 496-527: [round_half_up] is applied to the array of values;
    [math.floor] of an array that has not exactly one element is a TypeError, caught.
    [np.arange(0.05, 1, 0.05)] has more than one element, all of them kept by [isin]. *)
Definition cl_pts : list Q := map (fun k => inject_Z (Z.of_nat k) / 20) (seq 1 19).
Definition calculate_eclv_ctc_statistics : res (option Q) :=
  catch [TypeError; PyWarning]
    (fy_oy <- SUM "fy_oy" ;; fy_on <- SUM "fy_on" ;; fn_oy <- SUM "fn_oy" ;; fn_on <- SUM "fn_on" ;;
     e <- calculate_economic_value [fy_oy; fy_on; fn_oy; fn_on] cl_pts false ;;
     match e with
     | None => Err TypeError                     (* None['cl'] *)
     | Some e => match e_V e with
                 | [v] => Ok (Some (round_half_up v PRECISION))
                 | _ => Err TypeError            (* math.floor of an array *)
                 end
     end) None.

(** [np.nansum(input_data[:, col][mask])] of eclv_statistics.py 71-74 for a threshold
    comparison [keep]; a missing or textual threshold compares False (NaN) in the model. *)
Fixpoint masked_sum (keep : Q -> bool) (ths xs : list cell) : res Q :=
  match ths, xs with
  | t :: ths', x :: xs' =>
      rest <- masked_sum keep ths' xs' ;;
      match t with
      | CNum q => if keep q then v <- to_float x ;; Ok (match v with Some p => p + rest | None => rest end)
                  else Ok rest
      | _ => Ok rest
      end
  | _, _ => Ok 0
  end.

(** eclv_statistics.py 24-85, [calculate_eclv].  [np_float] says whether the numpy in use
    still has the alias [np.float]; the pinned numpy 1.24.2 does not, and looking it up
    raises AttributeError, which is not in the except list.  Simplification: for the pct
    branch the three columns are assumed present (their cells are passed). *)
Definition calculate_eclv (np_float : bool) (thresh : option Q) (line_type : string)
  (pts : list Q) (add_base_rate : Z) : res (option eclv) :=
  if negb (String.eqb line_type "ctc") && negb (String.eqb line_type "pct") then Ok None
  else if String.eqb line_type "pct" && is_nan thresh then Ok None
  else
    catch std_exns
      (match thresh with
       | Some th =>
         if String.eqb line_type "pct" then
           if np_float then
             match index_of "thresh_i" columns, index_of "oy_i" columns, index_of "on_i" columns with
             | Some it, Some iy, Some io =>
                 ts <- column_at data it ;; ys <- column_at data iy ;; os <- column_at data io ;;
                 n11 <- masked_sum (fun q => negb (Qle_bool q th)) ts ys ;;
                 n10 <- masked_sum (fun q => negb (Qle_bool q th)) ts os ;;
                 n01 <- masked_sum (fun q => Qle_bool q th) ts ys ;;
                 n00 <- masked_sum (fun q => Qle_bool q th) ts os ;;
                 calculate_economic_value [Some n11; Some n10; Some n01; Some n00] pts (add_base_rate =? 1)%Z
             | _, _, _ => Err IndexError
             end
           else Err AttributeError
         else
           n11 <- SUM "fy_oy" ;; n10 <- SUM "fy_on" ;; n01 <- SUM "fn_oy" ;; n00 <- SUM "fn_on" ;;
           calculate_economic_value [n11; n10; n01; n00] pts (add_base_rate =? 1)%Z
       | None =>
           n11 <- SUM "fy_oy" ;; n10 <- SUM "fy_on" ;; n01 <- SUM "fn_oy" ;; n00 <- SUM "fn_on" ;;
           calculate_economic_value [n11; n10; n01; n00] pts (add_base_rate =? 1)%Z
       end) None.
End Eclv.
