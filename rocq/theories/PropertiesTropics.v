(** Tropical diagnostics: longitudes, smoothing, symmetric and antisymmetric parts. *)
From Verif Require Import PyBase TropicsModel TropicsSpec TropicsProofs.
From Coq Require Import QArith String List.
Import ListNotations.
Open Scope nat_scope.

(** ** C72: longitudes from -180:180 to 0:360 and back *)

(** From -180:180 to 0:360: the longitudes of the result are right. *)
Theorem C72_to_360 : forall (A : Type) (data : list (list (list A))) (west east : list Q),
  west <> [] -> Forall (fun x => x < 0)%Q west -> Forall (fun x => 0 <= x)%Q east ->
  Wide (length west + length east) data ->
  exists data', lonFlip false data (west ++ east) = Ok (data', (east ++ map (fun x => x + 360)%Q west)%list) /\
    (length west = length east \/ east = [] ->
     data' = map (map (fun row => (skipn (length west) row ++ firstn (length west) row)%list)) data).
Proof. exact C72_to_360_proof. Qed.
Print Assumptions C72_to_360.

Example C72_to_360_case :
  lonFlip false [[["a"; "b"; "c"; "d"]%string]] [(-180)%Q; (-90)%Q; 0%Q; 90%Q] =
  Ok ([[["c"; "d"; "a"; "b"]%string]], [0%Q; 90%Q; 180%Q; 270%Q]) /\
  Forall (fun x => x < 0)%Q [(-180)%Q; (-90)%Q] /\ Forall (fun x => 0 <= x)%Q [0%Q; 90%Q] /\
  Wide 4 [[["a"; "b"; "c"; "d"]%string]].
Proof. repeat split; repeat constructor; try discriminate. Qed.

(** From 0:360 to -180:180. *)
Theorem C72_to_180 : forall (A : Type) (data : list (list (list A))) (east west : list Q),
  (east ++ west)%list <> [] -> Forall (fun x => 0 <= x /\ x < 180)%Q east -> Forall (fun x => 180 <= x)%Q west ->
  Wide (length east + length west) data ->
  exists data', lonFlip false data (east ++ west) = Ok (data', (map (fun x => x - 360)%Q west ++ east)%list) /\
    (length west = length east \/ east = [] \/ west = [] ->
     data' = map (map (fun row => (skipn (length east) row ++ firstn (length east) row)%list)) data).
Proof. exact C72_to_180_proof. Qed.
Print Assumptions C72_to_180.

Example C72_to_180_case :
  lonFlip false [[["a"; "b"; "c"; "d"]%string]] [0%Q; 90%Q; 180%Q; 270%Q] =
  Ok ([[["c"; "d"; "a"; "b"]%string]], [(-180)%Q; (-90)%Q; 0%Q; 90%Q]) /\
  Forall (fun x => 0 <= x /\ x < 180)%Q [0%Q; 90%Q] /\ Forall (fun x => 180 <= x)%Q [180%Q; 270%Q].
Proof. repeat split; repeat constructor; try discriminate. Qed.

(** Every value stays at its meridian, for all data, exactly if both halves have the same number of longitudes or
    one of them is empty. *)
Theorem C72_places : forall west east : list Q,
  west <> [] -> Forall (fun x => x < 0)%Q west -> Forall (fun x => 0 <= x)%Q east -> Meridians (west ++ east) ->
  (forall (A : Type) (row : list A) data' lon', length row = length west + length east ->
     lonFlip false [[row]] (west ++ east) = Ok (data', lon') ->
     exists row', data' = [[row']] /\ AtPlace (west ++ east) row lon' row') <->
  length west = length east \/ east = [].
Proof. exact C72_places_proof. Qed.
Print Assumptions C72_places.

Example C72_places_case :
  Meridians ([(-90)%Q] ++ [0%Q; 90%Q])%list /\
  lonFlip false [[["a"; "b"; "c"]%string]] ([(-90)%Q] ++ [0%Q; 90%Q])%list =
  Ok ([[["c"; "a"; "b"]%string]], [0%Q; 90%Q; 270%Q]).
Proof. split; [exact meridians_case|reflexivity]. Qed.

(** The same in the other direction. *)
Theorem C72_places_back : forall east west : list Q,
  (east ++ west)%list <> [] -> Forall (fun x => 0 <= x /\ x < 180)%Q east -> Forall (fun x => 180 <= x)%Q west ->
  Meridians (east ++ west) ->
  (forall (A : Type) (row : list A) data' lon', length row = length east + length west ->
     lonFlip false [[row]] (east ++ west) = Ok (data', lon') ->
     exists row', data' = [[row']] /\ AtPlace (east ++ west) row lon' row') <->
  length west = length east \/ east = [] \/ west = [].
Proof. exact C72_places_back_proof. Qed.
Print Assumptions C72_places_back.

Example C72_places_back_case :
  lonFlip false [[["a"; "b"; "c"]%string]] ([0%Q] ++ [180%Q; 270%Q])%list =
  Ok ([[["c"; "a"; "b"]%string]], [(-180)%Q; (-90)%Q; 0%Q]).
Proof. reflexivity. Qed.

(** The claim that every value stays at its meridian fails: with one longitude in the west and two in the east the
    value of 90 degrees is given for 0 degrees. *)
Theorem C72_places_refuted :
  ~ (forall (A : Type) (lon : list Q) (row : list A) data' lon',
       Meridians lon -> length row = length lon -> lonFlip false [[row]] lon = Ok (data', lon') ->
       exists row', data' = [[row']] /\ AtPlace lon row lon' row').
Proof. exact C72_places_refuted_proof. Qed.
Print Assumptions C72_places_refuted.

(** If the longitudes are stored as an array of their own type, the first half overwrites the second before it is
    read: a grid with equal halves gets the eastern longitudes twice, the second time plus 360. *)
Theorem C72_shared_refuted : forall (A : Type) (data : list (list (list A))) (west east : list Q),
  west <> [] -> Forall (fun x => x < 0)%Q west -> Forall (fun x => 0 <= x)%Q east -> length west = length east ->
  Wide (length west + length east) data ->
  exists data', lonFlip true data (west ++ east) = Ok (data', (east ++ map (fun x => x + 360)%Q east)%list).
Proof. exact C72_shared_refuted_proof. Qed.
Print Assumptions C72_shared_refuted.

Example C72_shared_refuted_case :
  lonFlip true [[["a"; "b"; "c"; "d"]%string]] [(-180)%Q; (-90)%Q; 0%Q; 90%Q] =
  Ok ([[["c"; "d"; "a"; "b"]%string]], [0%Q; 90%Q; 360%Q; 450%Q]).
Proof. reflexivity. Qed.

(** The only exception is ValueError: no longitudes, or data that do not fit to them. *)
Theorem C72_exceptions : forall (A : Type) shared (data : list (list (list A))) (lon : list Q),
  (forall e, lonFlip shared data lon = Err e -> e = ValueError) /\
  (lonFlip shared data lon = Err ValueError <-> lon = [] \/ ~ Wide (length lon) data).
Proof. exact C72_exceptions_proof. Qed.
Print Assumptions C72_exceptions.

Example C72_exceptions_case :
  lonFlip false [[["a"; "b"]%string]] [0%Q] = Err ValueError /\ lonFlip true ([] : list (list (list nat))) [] = Err ValueError.
Proof. split; reflexivity. Qed.

(** ** C73: smoothing with the weights 1-2-1 *)

(** Without missing values: the weights 1-2-1, and 3-1 at both ends. *)
Theorem C73_weights : forall t : list Q, 2 <= length t ->
  exists out, smooth121_1D (map Some t) = Ok (map Some out) /\ length out = length t /\
    (forall x r y, nth_error t 0 = Some x -> nth_error t 1 = Some r -> nth_error out 0 = Some y ->
       y == (3 * x + r) / 4)%Q /\
    (forall n l x y, length t = S (S n) -> nth_error t n = Some l -> nth_error t (S n) = Some x ->
       nth_error out (S n) = Some y -> y == (3 * x + l) / 4)%Q /\
    (forall i l x r y, nth_error t i = Some l -> nth_error t (S i) = Some x -> nth_error t (S (S i)) = Some r ->
       nth_error out (S i) = Some y -> y == (l + 2 * x + r) / 4)%Q.
Proof. exact C73_weights_proof. Qed.
Print Assumptions C73_weights.

Example C73_weights_case :
  exists out, smooth121_1D (map Some [4%Q; 8%Q; 0%Q]) = Ok (map Some out) /\ Forall2 Qeq out [5%Q; 5%Q; 2%Q].
Proof. exists [(20 # 4)%Q; (20 # 4)%Q; (8 # 4)%Q]. split; [reflexivity|]. repeat constructor. Qed.

(** The total sum is conserved. *)
Theorem C73_total : forall t out : list Q, 2 <= length t ->
  smooth121_1D (map Some t) = Ok (map Some out) -> (Total out == Total t)%Q.
Proof. exact C73_total_proof. Qed.
Print Assumptions C73_total.

Example C73_total_case : exists out,
  smooth121_1D (map Some [4%Q; 8%Q; 0%Q]) = Ok (map Some out) /\ (Total out == 12)%Q.
Proof. exists [(20 # 4)%Q; (20 # 4)%Q; (8 # 4)%Q]. split; reflexivity. Qed.

(** The result stays within the bounds of the data. *)
Theorem C73_bounds : forall (t out : list Q) (low high : Q), 2 <= length t ->
  smooth121_1D (map Some t) = Ok (map Some out) ->
  Forall (fun x => low <= x /\ x <= high)%Q t -> Forall (fun y => low <= y /\ y <= high)%Q out.
Proof. exact C73_bounds_proof. Qed.
Print Assumptions C73_bounds.

Example C73_bounds_case :
  Forall (fun x => 0 <= x /\ x <= 8)%Q [4%Q; 8%Q; 0%Q] /\ 2 <= length [4%Q; 8%Q; 0%Q].
Proof. split; [repeat constructor; discriminate|simpl; auto]. Qed.

(** With missing values, after the first place: a missing value stays missing; a neighbour without value is left out
    and the weights are 3-1; a value between two missing ones is missing. *)
Theorem C73_missing : forall t out : list (option Q), smooth121_1D t = Ok out ->
  length out = length t /\
  forall i, 0 < i ->
    (Missing t i -> Missing out i) /\
    (forall x l r, Present t i x -> Present t (i - 1) l -> Present t (i + 1) r ->
       exists y, Present out i y /\ (y == (l + 2 * x + r) / 4)%Q) /\
    (forall x l, Present t i x -> Present t (i - 1) l -> Without t (i + 1) ->
       exists y, Present out i y /\ (y == (3 * x + l) / 4)%Q) /\
    (forall x r, Present t i x -> Missing t (i - 1) -> Present t (i + 1) r ->
       exists y, Present out i y /\ (y == (3 * x + r) / 4)%Q) /\
    (forall x, Present t i x -> Missing t (i - 1) -> Missing t (i + 1) -> Missing out i).
Proof. exact C73_missing_proof. Qed.
Print Assumptions C73_missing.

Example C73_missing_case :
  exists a b, smooth121_1D [Some 4%Q; Some 8%Q; None; Some 4%Q; Some 12%Q] =
    Ok [None; Some a; None; Some b; Some ((3 * 12 + 4) / 4)%Q] /\ (a == 7)%Q /\ (b == 6)%Q.
Proof. eexists; eexists; split; [vm_compute; reflexivity|]. split; reflexivity. Qed.

(** At the first place the same should hold; but any missing value makes the first one missing. *)
Theorem C73_first : forall t out : list (option Q), smooth121_1D t = Ok out ->
  (Missing out 0 <-> exists i, Missing t i) /\
  (forall x r, (forall i, ~ Missing t i) -> Present t 0 x -> Present t 1 r ->
     exists y, Present out 0 y /\ (y == (3 * x + r) / 4)%Q).
Proof. exact C73_first_proof. Qed.
Print Assumptions C73_first.

Example C73_first_case :
  exists a b, smooth121_1D [Some 4%Q; Some 8%Q; Some 8%Q; None] = Ok [None; Some a; Some b; None] /\ (a == 7)%Q /\ (b == 8)%Q.
Proof. eexists; eexists; split; [vm_compute; reflexivity|]. split; reflexivity. Qed.

Theorem C73_first_refuted :
  ~ (forall t out : list (option Q), smooth121_1D t = Ok out ->
       forall x r, Present t 0 x -> Present t 1 r -> exists y, Present out 0 y /\ (y == (3 * x + r) / 4)%Q).
Proof. exact C73_first_refuted_proof. Qed.
Print Assumptions C73_first_refuted.

(** The only exception is IndexError, for a last value whose predecessor has none. *)
Theorem C73_exceptions : forall t : list (option Q),
  (forall e, smooth121_1D t = Err e -> e = IndexError) /\
  (smooth121_1D t = Err IndexError <->
   exists n x, length t = S n /\ Present t n x /\ (n = 0 \/ Missing t (n - 1))).
Proof. exact C73_exceptions_proof. Qed.
Print Assumptions C73_exceptions.

Example C73_exceptions_case :
  smooth121_1D [Some 1%Q] = Err IndexError /\ smooth121_1D [Some 1%Q; None; Some 2%Q] = Err IndexError.
Proof. split; reflexivity. Qed.

(** ** C74: symmetric and antisymmetric parts *)

(** The symmetric part: row [k] is half the sum of the rows [k] from both ends; if there are more latitudes from the
    equator on than half of all, the others follow unchanged. *)
Theorem C74_symmetric : forall (X : list (list (option Q))) (lat : list Q) (half : nat),
  length lat = length X -> half = (length X + 1) / 2 -> half <= length (filter (fun x => Qle_bool 0 x) lat) ->
  exists x, get_symmasymm X lat (Some "symm"%string) = Ok x /\
    length x = length (filter (fun x => Qle_bool 0 x) lat) /\
    (forall k a b c, k < half -> nth_error X k = Some a -> nth_error X (length X - 1 - k) = Some b ->
      length a = length b -> nth_error x k = Some c -> Cellwise (fun u v => (u + v) / 2)%Q a b c) /\
    (forall k, half <= k ->
       nth_error x k = nth_error (map snd (filter (fun p => Qle_bool 0 (fst p)) (combine lat X))) k).
Proof. exact C74_symmetric_proof. Qed.
Print Assumptions C74_symmetric.

Example C74_symmetric_case :
  exists c d, get_symmasymm [[Some 1%Q]; [Some 5%Q]; [Some 3%Q]] [(-10)%Q; 0%Q; 10%Q] (Some "symm"%string) =
    Ok [[Some c]; [Some d]] /\ (c == 2)%Q /\ (d == 5)%Q /\
  (3 + 1) / 2 <= length (filter (fun x => Qle_bool 0 x) [(-10)%Q; 0%Q; 10%Q]).
Proof. eexists; eexists; split; [vm_compute; reflexivity|]. repeat split; cbv; auto. Qed.

(** The antisymmetric part: half the difference. *)
Theorem C74_antisymmetric : forall (X : list (list (option Q))) (lat : list Q) (half : nat) (word : string),
  In word ["asymm"; "anti-symm"]%string ->
  length lat = length X -> half = length X / 2 -> half <= length (filter (fun x => negb (Qle_bool x 0)) lat) ->
  exists x, get_symmasymm X lat (Some word) = Ok x /\
    length x = length (filter (fun x => negb (Qle_bool x 0)) lat) /\
    (forall k a b c, k < half -> nth_error X k = Some a -> nth_error X (length X - 1 - k) = Some b ->
      length a = length b -> nth_error x k = Some c -> Cellwise (fun u v => (u - v) / 2)%Q a b c) /\
    (forall k, half <= k ->
       nth_error x k = nth_error (map snd (filter (fun p => negb (Qle_bool (fst p) 0)) (combine lat X))) k).
Proof. exact C74_antisymmetric_proof. Qed.
Print Assumptions C74_antisymmetric.

Example C74_antisymmetric_case :
  exists c, get_symmasymm [[Some 1%Q]; [Some 5%Q]; [Some 3%Q]] [(-10)%Q; 0%Q; 10%Q] (Some "asymm"%string) =
    Ok [[Some c]] /\ (c == -1)%Q.
Proof. eexists; split; [vm_compute; reflexivity|]. reflexivity. Qed.

(** On a grid that mirrors itself at the equator both parts exist and their sum and difference give back the data
    of both hemispheres. *)
Theorem C74_restores : forall (X : list (list (option Q))) (lat : list Q),
  length lat = length X -> Mirrored lat -> SouthToNorth lat \/ NorthToSouth lat ->
  (forall a b, In a X -> In b X -> length a = length b) ->
  exists s d, get_symmasymm X lat (Some "symm"%string) = Ok s /\ get_symmasymm X lat (Some "asymm"%string) = Ok d /\
    length s = (length X + 1) / 2 /\ length d = length X / 2 /\
    forall k a b u v i x y, nth_error X k = Some a -> nth_error X (length X - 1 - k) = Some b ->
      nth_error s k = Some u -> nth_error d k = Some v -> Present a i x -> Present b i y ->
      exists p q, Present u i p /\ Present v i q /\ (p + q == x)%Q /\ (p - q == y)%Q.
Proof. exact C74_restores_proof. Qed.
Print Assumptions C74_restores.

Example C74_restores_case :
  Mirrored [(-10)%Q; 0%Q; 10%Q] /\ SouthToNorth [(-10)%Q; 0%Q; 10%Q].
Proof. exact mirrored_case. Qed.

(** From north to south row [k] of the symmetric part belongs to the [k]-th latitude that was selected: its values
    are half the sums of the data at this latitude and at the opposite one. *)
Theorem C74_rows : forall (X : list (list (option Q))) (lat : list Q) s k l u,
  length lat = length X -> Mirrored lat -> NorthToSouth lat ->
  get_symmasymm X lat (Some "symm"%string) = Ok s ->
  nth_error (filter (fun x => Qle_bool 0 x) lat) k = Some l -> nth_error s k = Some u ->
  exists i j a b l', nth_error lat i = Some l /\ nth_error X i = Some a /\
    nth_error lat j = Some l' /\ (l' == - l)%Q /\ nth_error X j = Some b /\
    (length a = length b -> Cellwise (fun p q => (p + q) / 2)%Q a b u).
Proof. exact C74_rows_proof. Qed.
Print Assumptions C74_rows.

Example C74_rows_case :
  Mirrored [10%Q; 0%Q; (-10)%Q] /\ NorthToSouth [10%Q; 0%Q; (-10)%Q] /\
  exists c d, get_symmasymm [[Some 1%Q]; [Some 5%Q]; [Some 3%Q]] [10%Q; 0%Q; (-10)%Q] (Some "symm"%string) =
    Ok [[Some c]; [Some d]] /\ filter (fun x => Qle_bool 0 x) [10%Q; 0%Q; (-10)%Q] = [10%Q; 0%Q].
Proof. destruct mirrored_case2 as [A B]. split; [exact A|]. split; [exact B|]. eexists; eexists; split; reflexivity. Qed.

(** From south to north this fails: the rows of the result are in the opposite order of the selected latitudes. *)
Theorem C74_rows_refuted :
  ~ (forall (X : list (list (option Q))) (lat : list Q) s k l u,
       length lat = length X -> Mirrored lat -> SouthToNorth lat ->
       get_symmasymm X lat (Some "symm"%string) = Ok s ->
       nth_error (filter (fun x => Qle_bool 0 x) lat) k = Some l -> nth_error s k = Some u ->
       exists i j a b l', nth_error lat i = Some l /\ nth_error X i = Some a /\
         nth_error lat j = Some l' /\ (l' == - l)%Q /\ nth_error X j = Some b /\
         (length a = length b -> Cellwise (fun p q => (p + q) / 2)%Q a b u)).
Proof. exact C74_rows_refuted_proof. Qed.
Print Assumptions C74_rows_refuted.

(** Exceptions: another word raises UnboundLocalError; latitudes that do not fit to the data, or too few of them in
    the northern hemisphere, IndexError. *)
Theorem C74_exceptions : forall (X : list (list (option Q))) (lat : list Q) (opt : option string),
  (get_symmasymm X lat opt = Err UnboundLocalError <->
   forall word, In word ["symm"; "asymm"; "anti-symm"]%string -> opt <> Some word) /\
  (get_symmasymm X lat opt = Err IndexError <->
   (exists word, opt = Some word /\ In word ["symm"; "asymm"; "anti-symm"]%string) /\
   (length lat <> length X \/
    opt = Some "symm"%string /\ length (filter (fun x => Qle_bool 0 x) lat) < (length X + 1) / 2 \/
    opt <> Some "symm"%string /\ length (filter (fun x => negb (Qle_bool x 0)) lat) < length X / 2)) /\
  (forall e, get_symmasymm X lat opt = Err e -> e = UnboundLocalError \/ e = IndexError).
Proof. exact C74_exceptions_proof. Qed.
Print Assumptions C74_exceptions.

Example C74_exceptions_case :
  get_symmasymm [[Some 1%Q]; [Some 2%Q]] [(-3)%Q; (-1)%Q] (Some "symm"%string) = Err IndexError /\
  get_symmasymm [[Some 1%Q]; [Some 2%Q]] [(-3)%Q; 3%Q] None = Err UnboundLocalError.
Proof. split; reflexivity. Qed.
