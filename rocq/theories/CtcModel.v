(** metcalcpy/util/ctc_statistics.py: contingency-table statistics. *)
From Verif Require Import PyBase ColumnModel.

Section Ctc.
Variables (data : tdata) (columns : list string).

Let SUM (c : string) : res pyval := sum_column_data_by_name data columns c true.

(** [sum(input_data[:, np.where(columns_names == c)[0][0]])] as used by
    ctc_statistics.py 44-46: IndexError when the column is absent (not caught); a missing
    or string cell ends in TypeError (None, str) or in a NaN that [math.floor] rejects
    with ValueError; both are caught, the model uses TypeError. *)
Fixpoint raw_sum_cells (cs : list cell) : res pyval :=
  match cs with
  | [] => Ok (Some 0)
  | CNum q :: t => pybin Qplus (Ok (Some q)) (raw_sum_cells t)
  | _ :: t => Err TypeError
  end.

Definition raw_sum (c : string) : res pyval :=
  match index_of c columns with
  | None => Err IndexError
  | Some i => cs <- column_at data i ;; raw_sum_cells cs
  end.

(** ctc_statistics.py 28-51 *)
Definition calculate_baser : res pyval :=
  catch std_exns
    (pyround ((raw_sum "fy_oy" [+] raw_sum "fn_oy") [/] raw_sum "total")) None.

(** ctc_statistics.py 54-76 *)
Definition calculate_acc : res pyval :=
  catch std_exns
    (pyround ((SUM "fy_oy" [+] SUM "fn_on") [/] SUM "total")) None.

(** ctc_statistics.py 79-105 *)
Definition calculate_fbias : res pyval :=
  catch std_exns
    (oy <- SUM "fy_oy" [+] SUM "fn_oy" ;;
     if py_eq0 oy then Ok None
     else pyround ((SUM "fy_oy" [+] SUM "fy_on") [/] Ok oy)) None.

(** ctc_statistics.py 108-133 *)
Definition calculate_fmean : res pyval :=
  catch std_exns
    (total <- SUM "total" ;;
     if py_eq0 total then Ok None
     else pyround ((SUM "fy_oy" [+] SUM "fy_on") [/] Ok total)) None.

(** ctc_statistics.py 136-160 *)
Definition calculate_pody : res pyval :=
  catch std_exns
    (pyround (SUM "fy_oy" [/] (SUM "fy_oy" [+] SUM "fn_oy"))) None.

(** ctc_statistics.py 163-185 *)
Definition calculate_pofd : res pyval :=
  catch std_exns
    (pyround (SUM "fy_on" [/] (SUM "fy_on" [+] SUM "fn_on"))) None.

(** ctc_statistics.py 236-258 *)
Definition calculate_podn : res pyval :=
  catch std_exns
    (pyround (SUM "fn_on" [/] (SUM "fy_on" [+] SUM "fn_on"))) None.

(** ctc_statistics.py 261-283 *)
Definition calculate_far : res pyval :=
  catch std_exns
    (pyround (SUM "fy_on" [/] (SUM "fy_oy" [+] SUM "fy_on"))) None.

(** ctc_statistics.py 286-310 *)
Definition calculate_csi : res pyval :=
  catch std_exns
    (pyround (SUM "fy_oy" [/] (SUM "fy_oy" [+] SUM "fy_on" [+] SUM "fn_oy"))) None.

(** ctc_statistics.py 313-340 *)
Definition calculate_gss : res pyval :=
  catch std_exns
    (total <- SUM "total" ;;
     if py_eq0 total then Ok None
     else
       fy_oy <- SUM "fy_oy" ;; fy_on <- SUM "fy_on" ;; fn_oy <- SUM "fn_oy" ;;
       let FYOY := Ok fy_oy in let FYON := Ok fy_on in let FNOY := Ok fn_oy in
       dbl_c <- ((FYOY [+] FYON) [/] Ok total) [*] (FYOY [+] FNOY) ;;
       pyround ((FYOY [-] Ok dbl_c) [/] (FYOY [+] FYON [+] FNOY [-] Ok dbl_c))) None.

(** ctc_statistics.py 343-368: catches only TypeError and Warning. *)
Definition calculate_hk : res pyval :=
  catch [TypeError; PyWarning]
    (pody <- calculate_pody ;; pofd <- calculate_pofd ;;
     match pody, pofd with
     | Some _, Some _ => pyround (Ok pody [-] Ok pofd)
     | _, _ => Ok None
     end) None.

(** ctc_statistics.py 371-399 *)
Definition calculate_hss : res pyval :=
  catch std_exns
    (total <- SUM "total" ;;
     if py_eq0 total then Ok None
     else
       fy_oy <- SUM "fy_oy" ;; fy_on <- SUM "fy_on" ;;
       fn_oy <- SUM "fn_oy" ;; fn_on <- SUM "fn_on" ;;
       let FYOY := Ok fy_oy in let FYON := Ok fy_on in
       let FNOY := Ok fn_oy in let FNON := Ok fn_on in
       dbl_c <- ((FYOY [+] FYON) [/] Ok total) [*] (FYOY [+] FNOY)
                [+] ((FNOY [+] FNON) [/] Ok total) [*] (FYON [+] FNON) ;;
       pyround ((FYOY [+] FNON [-] Ok dbl_c) [/] (Ok total [-] Ok dbl_c))) None.

(** ctc_statistics.py 402-429 *)
Definition calculate_odds : res pyval :=
  catch std_exns
    (pody <- calculate_pody ;; pofd <- calculate_pofd ;;
     match pody, pofd with
     | Some _, Some _ =>
         pyround ((Ok pody [*] (pylit 1 [-] Ok pofd)) [/] (Ok pofd [*] (pylit 1 [-] Ok pody)))
     | _, _ => Ok None
     end) None.

(** ctc_statistics.py 593-607, 610-624, 627-692: [calculate_ctc_total] and friends;
    no try block, so [None] gives a TypeError that escapes. *)
Definition calculate_ctc_total : res pyval := pyround (SUM "total").
Definition calculate_cts_total : res pyval := pyround (SUM "total").
Definition calculate_ctc_fn_on : res pyval := pyround (SUM "fn_on").
Definition calculate_ctc_fn_oy : res pyval := pyround (SUM "fn_oy").
Definition calculate_ctc_fy_on : res pyval := pyround (SUM "fy_on").
Definition calculate_ctc_fy_oy : res pyval := pyround (SUM "fy_oy").

(** ctc_statistics.py 695-768 *)
Definition calculate_ctc_oy : res pyval := pyround (SUM "fy_oy" [+] SUM "fn_oy").
Definition calculate_ctc_on : res pyval := pyround (SUM "fy_on" [+] SUM "fn_on").
Definition calculate_ctc_fy : res pyval := pyround (SUM "fy_on" [+] SUM "fy_oy").
Definition calculate_ctc_fn : res pyval := pyround (SUM "fn_on" [+] SUM "fn_oy").

(** ctc_statistics.py 771-782 *)
Definition pod_yes : res pyval :=
  catch std_exns
    (pyround (SUM "fy_oy" [/] (SUM "fy_oy" [+] SUM "fn_oy"))) None.

(** ctc_statistics.py 785-796 *)
Definition pod_no : res pyval :=
  catch std_exns
    (pyround (SUM "fn_on" [/] (SUM "fn_on" [+] SUM "fy_on"))) None.

(** ctc_statistics.py 799-824 *)
Definition calculate_odds1 : res pyval :=
  catch std_exns
    (py <- pod_yes ;; pn <- calculate_pofd ;;
     pyround ((Ok py [/] (pylit 1 [-] Ok py)) [/] (Ok pn [/] (pylit 1 [-] Ok pn)))) None.

(** ctc_statistics.py 827-854 *)
Definition calculate_orss : res pyval :=
  catch std_exns
    (pyround ((SUM "fy_oy" [*] SUM "fn_on" [-] SUM "fy_on" [*] SUM "fn_oy")
              [/] (SUM "fy_oy" [*] SUM "fn_on" [+] SUM "fy_on" [*] SUM "fn_oy"))) None.

End Ctc.
