(** Atmospheric blocking: metcalcpy/contributed/blocking_weather_regime/Blocking.py.  Reading of files is not
    modelled.  An array is a list of lists of equal lengths; NaN is [None]. *)
From Verif Require Import PyBase ColumnModel.
From Coq Require Import List.
Open Scope Z_scope.

(** ** Groups of blocked longitudes *)
(** [np.where(a == 1)[0]] from position [k] on. *)
Fixpoint ones (k : Z) (a : list Q) : list Z :=
  match a with
  | [] => []
  | v :: t => if Qeq_bool v 1 then k :: ones (k + 1) t else ones (k + 1) t
  end.
(** [np.arange(a, b + 1, 1)] for whole numbers. *)
Definition arange (a b : Z) : list Z := map (fun i => a + Z.of_nat i) (seq 0 (Z.to_nat (b - a + 1))).
(** Blocking.py 157-172: the loop over the doubled list of blocked longitudes; [prev] is [block[ll-1]].
    [thresh] is [crit/2.0]. *)
Fixpoint gather (crit prev : Z) (rest btlon : list Z) (ct : Z) (btfin : list Z) : list Z :=
  match rest with
  | [] => btfin
  | cur :: rest' =>
      let diff := Z.abs (cur - prev) in
      let '(btlon1, ct1) := if diff =? 1 then ((btlon ++ [cur])%list, ct + diff) else (btlon, ct) in
      let '(btlon2, ct2) := if (2 * diff <=? crit) && negb (diff =? 1) then ((btlon1 ++ arange (prev + 1) cur)%list, ct1 + diff) else (btlon1, ct1) in
      if (crit <? 2 * diff) || match rest' with [] => true | _ => false end
      then gather crit cur rest' [cur] 1 (if crit <=? ct2 then (btfin ++ btlon2)%list else btfin)
      else gather crit cur rest' btlon2 ct2 btfin
  end.
(** Blocking.py 142-181: one day.  [ibl_dist] is read (147) and not used.  Assignment outside the array is an
    IndexError. *)
Definition gibl_day (ibl_dist crit : Z) (a : list Q) : res (list Q) :=
  match ones 0 a with
  | [] => Ok (map (fun _ => 0%Q) a)
  | first :: more =>
      let block := ((first :: more) ++ map (fun x => x + 360) (first :: more))%list in
      let btfin := gather crit first (tl block) [first] 1 [] in
      if Z.of_nat (length btfin) <? 2 * crit then Ok (map (fun _ => 0%Q) a)
      else match btfin with
           | [] => Ok (map (fun _ => 0%Q) a)
           | _ =>
               let gibl1 := map (fun x => if 360 <=? x then x - 360 else x) btfin in
               if forallb (fun x => x <? Z.of_nat (length a)) gibl1
               then Ok (map (fun i => if existsb (Z.eqb (Z.of_nat i)) gibl1 then 1%Q else 0%Q) (seq 0 (length a)))
               else Err IndexError
           end
  end.
(** Blocking.py 132-183, [run_Calc_GIBL]: all years and days. *)
Definition run_Calc_GIBL (ibl_dist crit : Z) (ibl : list (list (list Q))) : res (list (list (list Q))) :=
  mapM (mapM (gibl_day ibl_dist crit)) ibl.

(** ** Instantaneous blocks *)
(** [l[i]] for a position of an array; negative positions count from the end. *)
Definition item {A : Type} (i : Z) (l : list A) : res A :=
  let n := Z.of_nat (length l) in
  let k := if i <? 0 then i + n else i in
  if k <? 0 then Err IndexError
  else match nth_error l (Z.to_nat k) with Some x => Ok x | None => Err IndexError end.
(** [l[start:stop]]. *)
Definition slice {A : Type} (start stop : Z) (l : list A) : list A :=
  let n := Z.of_nat (length l) in
  let bound i := if i <? 0 then Z.max 0 (i + n) else Z.min i n in
  firstn (Z.to_nat (bound stop - bound start)) (skipn (Z.to_nat (bound start)) l).
Fixpoint all_numbers (l : list (option Q)) : option (list Q) :=
  match l with
  | [] => Some []
  | Some q :: t => match all_numbers t with Some qs => Some (q :: qs) | None => None end
  | None :: _ => None
  end.
Definition plus_all (l : list Q) : Q := fold_right Qplus 0%Q l.
(** [np.mean]: NaN for no values, and if there is a NaN. *)
Definition np_mean (l : list (option Q)) : option Q :=
  match all_numbers l with
  | Some [] | None => None
  | Some qs => Some (plus_all qs / inject_Z (Z.of_nat (length qs)))%Q
  end.
(** [np.nanmean] of numbers: NaN if there is none. *)
Definition some_numbers (l : list (option Q)) : list Q := flat_map (fun x => match x with Some q => [q] | None => [] end) l.
Definition nanmean (l : list (option Q)) : option Q :=
  match some_numbers l with [] => None | qs => Some (plus_all qs / inject_Z (Z.of_nat (length qs)))%Q end.
Definition column {A : Type} (j : nat) (rows : list (list A)) : res (list A) := mapM (item (Z.of_nat j)) rows.

(** Blocking.py 93-101: the difference of heights for one longitude and one shift of the latitude.  [heights]
    are the heights of the longitude, by latitude. *)
Definition gradient (db dc l : Z) (heights : list (option Q)) : option Q :=
  let d0 := dc - l in
  let dn := Z.quot (2 * dc - db - 2 * l) 2 in
  let ds := Z.quot (2 * dc + db - 2 * l) 2 in
  match np_mean (slice dn (d0 + 1) heights), np_mean (slice d0 (ds + 1) heights) with
  | Some north, Some south => Some (north - south)%Q
  | _, _ => None
  end.
(** [np.max]: NaN if there is a NaN; no value is a ValueError. *)
Definition np_max (l : list (option Q)) : res (option Q) :=
  match l with
  | [] => Err ValueError
  | _ => Ok (match all_numbers l with
             | Some (q :: qs) => Some (fold_left (fun a b => if Qle_bool a b then b else a) qs q)
             | _ => None
             end)
  end.
(** Blocking.py 103-107: one longitude of a day. *)
Definition blocked_day (lat_delta : list Z) (db : Z) (cbl : Q) (heights : list (option Q)) : res (Q * option Q) :=
  b <- np_max (map (fun l => gradient db (trunc (90 - cbl)) l heights) lat_delta) ;;
  Ok (match b with Some q => if Qle_bool q 0 then 0%Q else 1%Q | None => 0%Q end, b).
(** Blocking.py 79-110, [run_mod_blocking1d]: days of heights (latitude, longitude).  The central latitudes are
    those of the longitudes of the array.  With another method nothing is done. *)
Definition run_mod_blocking1d (lat_delta : list Z) (db : Z) (method : string) (days : list (list (list (option Q)))) (cbl : list Q)
  : res (list (list (Q * option Q))) :=
  if String.eqb method "PH" then
    mapM (fun day => mapM (fun jc => heights <- column (fst jc) day ;; blocked_day lat_delta db (snd jc) heights) (combine (seq 0 (length cbl)) cbl)) days
  else Ok (map (fun _ => map (fun _ => (0%Q, Some 0%Q)) cbl) days).
(** Blocking.py 113-129, [run_Calc_IBL], after reading: the central latitude is the mean over the years. *)
Definition run_Calc_IBL (lat_delta : list Z) (db : Z) (method : string) (cbl : list (list Q)) (nlon : nat) (years : list (list (list (list (option Q)))))
  : res (list (list (list Q))) :=
  means <- mapM (fun j => c <- column j (map (map Some) cbl) ;; match nanmean c with Some q => Ok q | None => Err NotModelled end) (seq 0 nlon) ;;
  mapM (fun days => out <- run_mod_blocking1d lat_delta db method days means ;; Ok (map (map fst) out)) years.
