(** Blocks that last: metcalcpy/contributed/blocking_weather_regime/Blocking.py 186-426.  The groups of blocked longitudes are
    the arrays of BlockModel.v (years, days, longitudes).  The longitudes are whole numbers. *)
From Verif Require Import PyBase ColumnModel BlockModel.
From Coq Require Import List.
Import ListNotations.
Open Scope Z_scope.
Open Scope list_scope.

(** [l[i] = v] for a position of an array; negative positions count from the end. *)
Definition assign {A : Type} (i : Z) (v : A) (l : list A) : res (list A) :=
  let n := Z.of_nat (length l) in
  let k := if i <? 0 then i + n else i in
  if (k <? 0) || (n <=? k) then Err IndexError
  else Ok (firstn (Z.to_nat k) l ++ v :: skipn (S (Z.to_nat k)) l).

(** ** Counting *)
Section Circle.
(** The number 360 of lines 210-214 and 408. *)
Variable circle : Z.

(** Blocking.py 216-223: the loop over the doubled list of longitudes; the last one is not visited.  [sz] is not used. *)
Fixpoint counts (ai : list Z) (ct : Z) (c : list Z) : res (list Z) :=
  match ai with
  | [] => Ok c
  | cur :: rest =>
      match rest with
      | [] => Ok c
      | next :: _ =>
          c' <- assign (if circle <=? cur then cur - circle else cur) ct c ;;
          counts rest (if next - cur =? 1 then ct + 1 else 1) c'
      end
  end.
(** Blocking.py 207-223: one day. *)
Definition count_day (a : list Q) : res (list Z) :=
  let ai := ones 0 a in
  counts (ai ++ map (fun x => x + circle) ai) 1 (map (fun _ => 0) a).

(** ** Limits *)
(** Positions from [k] on where the test holds. *)
Fixpoint where_ {A : Type} (test : A -> bool) (k : Z) (l : list A) : list Z :=
  match l with
  | [] => []
  | x :: t => if test x then k :: where_ test (k + 1) t else where_ test (k + 1) t
  end.
(** [argrelextrema(c, np.greater, mode='wrap')[0]]: greater than both neighbours on the circle. *)
Definition maxima (c : list Z) : list Z :=
  let n := length c in
  map Z.of_nat (filter (fun i => let right := ((i + 1) mod n)%nat in
                                 let left := ((i + n - 1) mod n)%nat in
                                 (nth right c 0 <? nth i c 0) && (nth left c 0 <? nth i c 0))
                       (seq 0 n)).
(** Blocking.py 228-233: the right and the left ends of a day. *)
Definition ends_day (lonlen : Z) (c : list Z) : res (list Z * list Z) :=
  let maxi := maxima c in
  let mini := where_ (Z.eqb 1) 0 c in
  last_c <- item (lonlen - 1) c ;;
  first_c <- item 0 c ;;
  if negb (last_c =? 0) && negb (first_c =? 0) then
    mm1 <- item (-1) mini ;;
    Ok (maxi, mm1 :: removelast mini)
  else Ok (maxi, mini).

(** ** One array for each group *)
(** A group: the year, the day and the longitudes.  The arrays of zeros and ones of the code are lists of truth values. *)
Record entry : Type := Entry { year : Z; day : Z; mask : list bool }.
(** Blocking.py 250-268: the longitudes of a group.  [bl] is what the variable held before; the variable lons is not used in the
    second and the third case, but [lon[mm]] is read. *)
Definition group (lon : list Z) (a : list Q) (c : list Z) (mm mn : Z) (bl : option (list Z)) : res (list Z) :=
  let lonlen := Z.of_nat (length lon) in
  cm <- item mm c ;;
  bl1 <- (if mm <? mn then
            lons <- item (mm - cm + 1) lon ;;
            Ok (Some (arange 0 mm ++ arange lons (lonlen - 1)))
          else Ok bl) ;;
  at_end <- item (lonlen - 1) a ;;
  bl2 <- (if Qeq_bool at_end 1 && (200 <? mm) then
            _ <- item mm lon ;;
            Ok (Some (arange (mm - cm + 1) mm))
          else Ok bl1) ;;
  bl3 <- (if mn <? mm then
            _ <- item mm lon ;;
            Ok (Some (arange (mm - cm + 1) mm))
          else Ok bl2) ;;
  match bl3 with Some l => Ok l | None => Err UnboundLocalError end.
(** [temp2[bl] = 1]. *)
Fixpoint mark (bl : list Z) (l : list bool) : res (list bool) :=
  match bl with
  | [] => Ok l
  | i :: t => l' <- assign i true l ;; mark t l'
  end.
(** Blocking.py 244-271: the loop over the places where the count is the size wanted; the numbers of the two ends are those
    of the places. *)
Fixpoint split (lon : list Z) (places : list (Z * Z * (list Q * list Z))) (mx mn : list Z) (bl : option (list Z)) : res (list entry) :=
  match places with
  | [] => Ok []
  | (m, n, (a, c)) :: rest =>
      match mx, mn with
      | mm :: mx', mi :: mn' =>
          b <- group lon a c mm mi bl ;;
          row <- mark b (map (fun _ => false) lon) ;;
          more <- split lon rest mx' mn' (Some b) ;;
          Ok (Entry m n row :: more)
      | _, _ => Err IndexError
      end
  end.
(** Blocking.py 237: [np.where(c == crit)], with the rows of the day. *)
Definition places_day (crit y d : Z) (ac : list Q * list Z) : list (Z * Z * (list Q * list Z)) :=
  map (fun _ => (y, d, ac)) (where_ (Z.eqb crit) 0 (snd ac)).
(** The days with their numbers. *)
Definition numbered {A : Type} (l : list A) : list (Z * A) := combine (map Z.of_nat (seq 0 (length l))) l.
Definition days_of {A : Type} (g : list (list A)) : list (Z * Z * A) :=
  flat_map (fun yr => map (fun dr => (fst yr, fst dr, snd dr)) (numbered (snd yr))) (numbered g).
(** Blocking.py 196-273: all groups of all days. *)
Definition groups (crit : Z) (lon : list Z) (gibl : list (list (list Q))) : res (list entry) :=
  let days := days_of gibl in
  cs <- mapM (fun yda => count_day (snd yda)) days ;;
  ends <- mapM (ends_day (Z.of_nat (length lon))) cs ;;
  let places := flat_map (fun ydac => places_day crit (fst (fst (fst ydac))) (snd (fst (fst ydac))) (snd (fst ydac), snd ydac)) (combine days cs) in
  split lon places (flat_map fst ends) (flat_map snd ends) None.

(** ** Groups with others close in time *)
(** Blocking.py 276-297: [prev] is entry [i-1]. *)
Fixpoint close (prev : entry) (ct : Z) (rest : list entry) : list entry :=
  match rest with
  | [] => []
  | cur :: rest' =>
      if 2 <? day cur - day prev then close cur 0 rest'
      else (if ct =? 0 then [prev] else []) ++ cur :: close cur 1 rest'
  end.
(** Blocking.py 276-299.  Without groups [A[0]] is an IndexError; if none is kept, [dd] is a list and [dd*1.0] (315) a TypeError. *)
Definition consecutive (entries : list entry) : res (list entry) :=
  match entries with
  | [] => Err IndexError
  | e :: rest => match close e 0 rest with [] => Err TypeError | kept => Ok kept end
  end.
(** Blocking.py 302-307: the center; the median of an odd number of ascending numbers is the one in the middle. *)
Definition center (row : list bool) : res Z :=
  let temp := where_ (fun b => b) 0 row in
  let temp' := if Nat.even (length temp) then 0 :: temp else temp in
  item (Z.of_nat (length temp' / 2)) temp'.

(** ** Tracks *)
Definition mem (j : nat) (l : list nat) : bool := existsb (Nat.eqb j) l.
(** Blocking.py 186-191, [Remove]. *)
Definition remove_duplicates (l : list Z) : list Z :=
  fold_left (fun final num => if existsb (Z.eqb num) final then final else final ++ [num]) l [].
(** Blocking.py 327-337: days up to the first gap; the day after the gap is taken too.  [prev] is the day before. *)
Fixpoint near_days (last prev : Z) (ddil : list Z) : res (list Z) :=
  match ddil with
  | [] => Err IndexError
  | x :: t =>
      if x =? last then Ok [x]
      else if 2 <? x - prev then Ok [x]
      else more <- near_days last x t ;; Ok (x :: more)
  end.
(** Longitudes in both groups: [np.where(add == 2)[0]]. *)
Definition common (a b : list bool) : Z := Z.of_nat (length (filter (fun p => fst p && snd p) (combine a b))).
(** Blocking.py 357-367: the loop over the candidates; [last] is [locb[ll1]], and [k] is the number of common longitudes in [add].
    Places beyond the entries do not occur. *)
Fixpoint chain (entries : list entry) (overlap : Z) (last : nat) (k : Z) (locb : list nat) : res (list nat) :=
  match locb with
  | [] => Ok []
  | j :: t =>
      match nth_error entries last, nth_error entries j with
      | Some e, Some f =>
          let gap := day f - day e in
          let k' := if (1 <=? gap) && (gap <=? 2) then common (mask e) (mask f) else k in
          if overlap <? k' then more <- chain entries overlap j 0 t ;; Ok (j :: more)
          else chain entries overlap last (if k' <? overlap then 0 else k') t
      | _, _ => Err IndexError
      end
  end.
(** Entries that satisfy a test, by number. *)
Definition places (entries : list entry) (test : entry -> bool) : list nat :=
  map fst (filter (fun p => test (snd p)) (combine (seq 0 (length entries)) entries)).
(** Blocking.py 325-380: one turn of the loop over the days of a year; [noloc] are the entries used and [fin] the blocks. *)
Definition turn (entries : list entry) (overlap btime i : Z) (state : list nat * list (list nat) * list nat)
  : res (list nat * list (list nat) * list nat) :=
  let '(noloc, fin, rem) := state in
  let ddil := flat_map (fun j => match nth_error entries j with Some e => [day e] | None => [] end)
                (filter (fun j => negb (mem j rem)) (places entries (fun e => year e =? i))) in
  if Z.of_nat (length ddil) <? btime then Ok state
  else match ddil with
       | [] => Err IndexError
       | d0 :: _ =>
           days <- near_days (last ddil 0) (d0 - 1) ddil ;;
           let locb := filter (fun j => negb (mem j noloc))
                         (flat_map (fun ll => places entries (fun e => (year e =? i) && (day e =? ll))) (remove_duplicates days)) in
           match locb with
           | [] => Err IndexError
           | j0 :: t =>
               more <- chain entries overlap j0 0 t ;;
               let locbi := j0 :: more in
               Ok (noloc ++ locbi, if (4 <? length locbi)%nat then fin ++ [locbi] else fin, rem ++ locbi)
           end
       end.
(** The loop turns once for each entry of the year. *)
Fixpoint turns (entries : list entry) (overlap btime i : Z) (times : nat) (state : list nat * list (list nat) * list nat)
  : res (list nat * list (list nat) * list nat) :=
  match times with
  | O => Ok state
  | S k => s <- turn entries overlap btime i state ;; turns entries overlap btime i k s
  end.
(** Blocking.py 310-382: all years.  [failloc] is not used in the result. *)
Fixpoint track (entries : list entry) (overlap btime : Z) (years : list Z) (noloc : list nat) (fin : list (list nat)) : res (list (list nat)) :=
  match years with
  | [] => Ok fin
  | i :: rest =>
      s <- turns entries overlap btime i (length (places entries (fun e => year e =? i))) (noloc, fin, []) ;;
      let '(noloc', fin', _) := s in
      track entries overlap btime rest noloc' fin'
  end.

(** ** Blocks that travel, and the result *)
(** Blocking.py 391-405: a block ends before its center is too far from the first one. *)
Fixpoint near (start thresh : Z) (mids : list (nat * Z)) : list nat :=
  match mids with
  | [] => []
  | (j, m) :: t => if thresh <? Z.abs (start - m) then [] else j :: near start thresh t
  end.
Definition travel (middle : list Z) (thresh : Z) (bb : list nat) : res (list (list nat)) :=
  mids <- mapM (fun j => m <- item (Z.of_nat j) middle ;; Ok (j, m)) bb ;;
  match mids with
  | [] => Err IndexError
  | (_, start) :: _ =>
      let kept := near start thresh mids in
      Ok (if (length kept =? length bb)%nat then [bb] else if (4 <? length kept)%nat then [kept] else [])
  end.
(** [blockfreq[y, d] = blockfreq[y, d] + row]; another number of longitudes than that of the array is a ValueError (a single one is
    not modelled). *)
Definition add_row (y d : Z) (row : list bool) (freq : list (list (list Z))) : res (list (list (list Z))) :=
  rows <- item y freq ;;
  old <- item d rows ;;
  if (length old =? length row)%nat then
    rows' <- assign d (map (fun p => fst p + (if snd p : bool then 1 else 0)) (combine old row)) rows ;;
    assign y rows' freq
  else Err ValueError.
(** Blocking.py 413-424. *)
Fixpoint add_all (entries : list entry) (js : list nat) (freq : list (list (list Z))) : res (list (list (list Z))) :=
  match js with
  | [] => Ok freq
  | j :: t =>
      match nth_error entries j with
      | Some e => freq' <- add_row (year e) (day e) (mask e) freq ;; add_all entries t freq'
      | None => Err IndexError
      end
  end.
(** Blocking.py 194-426, [run_Calc_Blocks]; [nyears] and [ndays] are the sizes of the array of instantaneous blocks. *)
Definition blocks_on (crit overlap btime travel_limit : Z) (nyears ndays : nat) (gibl : list (list (list Q))) (lon : list Z)
  : res (list (list (list Z))) :=
  entries0 <- groups crit lon gibl ;;
  entries <- consecutive entries0 ;;
  middle <- mapM (fun e => center (mask e)) entries ;;
  blocks <- track entries overlap btime (map Z.of_nat (seq 0 (length gibl))) [] [] ;;
  kept <- mapM (travel middle travel_limit) blocks ;;
  add_all entries (concat (concat kept)) (repeat (repeat (repeat 0 (Z.to_nat circle)) ndays) nyears).
End Circle.
Definition run_Calc_Blocks : Z -> Z -> Z -> Z -> nat -> nat -> list (list (list Q)) -> list Z -> res (list (list (list Z))) := blocks_on 360.
