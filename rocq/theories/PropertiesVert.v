(** Properties C32 and C46: vertical interpolation and heights of pressure levels. *)
From Coq Require Import Reals List.
From Verif Require Import PyBase VertModel VertSpec VertProofs.
From Coq Require Import List.
Open Scope R_scope.

(** C32: between two neighbouring levels below the top layer the field is interpolated linearly; only
    these two levels matter, and a missing value of either gives a missing one. *)
Theorem C32_between : forall z c f eta i h0 h1,
  Rising z -> 0 < c -> length f = length z -> (S (S i) < length z)%nat ->
  At z i h0 -> At z (S i) h1 -> c * h0 < eta < c * h1 ->
  (forall a b, At f i a -> At f (S i) b ->
     interp_level z c eta f = Ok (Some (line_through (c * h0) (c * h1) a b eta)) /\
     Rmin a b <= line_through (c * h0) (c * h1) a b eta <= Rmax a b) /\
  (Gap f i \/ Gap f (S i) -> interp_level z c eta f = Ok None).
Proof. exact C32_between_proof. Qed.
Print Assumptions C32_between.

Example C32_between_case :
  let z := [None; Some 1; Some 2; Some 4] in
  Rising z /\ 0 < 1000 /\ At z 1 1 /\ At z 2 2 /\ 1000 * 1 < 1500 < 1000 * 2 /\
  line_through (1000 * 1) (1000 * 2) 10 20 1500 = 15.
Proof. exact C32_between_case_proof. Qed.

(** C32: fields linear in height are reproduced. *)
Theorem C32_linear : forall z c f eta i h0 h1 alpha beta,
  Rising z -> 0 < c -> length f = length z -> (S (S i) < length z)%nat ->
  At z i h0 -> At z (S i) h1 -> c * h0 < eta < c * h1 ->
  (forall j h, At z j h -> At f j (alpha + beta * (c * h))) ->
  interp_level z c eta f = Ok (Some (alpha + beta * eta)).
Proof. exact C32_linear_proof. Qed.
Print Assumptions C32_linear.

(** C32: in the top layer the upper level is left out: the value is the weighted lower one alone. *)
Theorem C32_top_layer : forall z c f eta i h0 h1 a,
  Rising z -> 0 < c -> length f = length z -> (S (S i) = length z)%nat ->
  At z i h0 -> At z (S i) h1 -> c * h0 < eta < c * h1 -> At f i a ->
  interp_level z c eta f = Ok (Some ((c * h1 - eta) / (c * h1 - c * h0) * a)).
Proof. exact C32_top_layer_proof. Qed.
Print Assumptions C32_top_layer.

(** C32: so linear interpolation fails there, even for a constant field. *)
Theorem C32_top_layer_refuted :
  exists z f eta v, Rising z /\ At z 0 1 /\ At z 1 2 /\ 1 < eta < 2 /\
    (forall j, (j < 2)%nat -> At f j 1) /\ length f = length z /\
    interp_level z 1 eta f = Ok (Some v) /\ v <> 1.
Proof. exact C32_top_layer_refuted_proof. Qed.
Print Assumptions C32_top_layer_refuted.

(** C32: exactly on a level there is no value at all. *)
Theorem C32_on_level : forall z c f i h,
  Rising z -> 0 < c -> length f = length z -> At z i h ->
  interp_level z c (c * h) f = Ok None.
Proof. exact C32_on_level_proof. Qed.
Print Assumptions C32_on_level.

(** C32: outside the column the nearest level is used, if there are two or more. *)
Theorem C32_outside : forall z c f eta h,
  Rising z -> 0 < c -> length f = length z -> (2 <= length z)%nat ->
  (At z 0 h -> eta < c * h -> interp_level z c eta f = Ok (nth 0 f None)) /\
  (At z (length z - 1) h -> c * h < eta -> interp_level z c eta f = Ok (nth (length z - 1) f None)).
Proof. exact C32_outside_proof. Qed.
Print Assumptions C32_outside.

Example C32_outside_case : Rising [Some 1; Some 2] /\ At [Some 1; Some 2] 0 1 /\ At [Some 1; Some 2] 1 2.
Proof. exact C32_outside_case_proof. Qed.

(** C32: a column of a single level has values above it only. *)
Theorem C32_single : forall h c f eta,
  interp_level [Some h] c eta [f] = Ok (if Rlt_dec (c * h) eta then f else None).
Proof. exact C32_single_proof. Qed.
Print Assumptions C32_single.

(** C32: a target that is neither between two neighbouring levels nor beyond the first or the last
    one (all of them present) has no value. *)
Theorem C32_nowhere : forall z c f eta,
  0 < c -> length f = length z -> z <> [] ->
  (forall i h0 h1, At z i h0 -> At z (S i) h1 -> ~ (c * h0 < eta < c * h1)) ->
  (forall h, At z 0 h -> c * h <= eta) -> (forall h, At z (length z - 1) h -> eta <= c * h) ->
  interp_level z c eta f = Ok None.
Proof. exact C32_nowhere_proof. Qed.
Print Assumptions C32_nowhere.

(** The levels next to the ground can be missing. *)
Example C32_nowhere_case :
  let z := [None; Some 2; Some 3] in
  (forall i h0 h1, At z i h0 -> At z (S i) h1 -> ~ (1 * h0 < 1 < 1 * h1)) /\
  (forall h, At z 0 h -> 1 * h <= 1) /\ (forall h, At z 2 h -> 1 <= 1 * h).
Proof. exact C32_nowhere_case_proof. Qed.

(** C32: if the levels are listed from the top to the bottom, every target inside the column gets the
    sum of the values at both ends. *)
Theorem C32_falling : forall z c f eta top bottom a b,
  Falling z -> (forall i, (i < length z)%nat -> exists h, At z i h) -> 0 < c -> length f = length z ->
  At z 0 top -> At z (length z - 1) bottom -> (2 <= length z)%nat ->
  c * bottom < eta < c * top ->
  At f 0 a -> At f (length z - 1) b ->
  interp_level z c eta f = Ok (Some (a + b)).
Proof. exact C32_falling_proof. Qed.
Print Assumptions C32_falling.

Example C32_falling_case :
  let z := [Some 3; Some 2; Some 1] in
  Falling z /\ (forall i, (i < 3)%nat -> exists h, At z i h).
Proof. exact C32_falling_case_proof. Qed.

(** C32: the unit factor acts on the heights; every target is treated on its own; no levels, no
    result. *)
Theorem C32_units_and_targets : forall z c f targets,
  (forall eta, interp_level z c eta f = interp_level (map (option_map (Rmult c)) z) 1 eta f) /\
  (z <> [] -> exists values, vertical_interp z c f targets = Ok values /\
     Forall2 (fun eta v => interp_level z c eta f = Ok v) targets values) /\
  (targets <> [] -> vertical_interp [] c f targets = Err IndexError).
Proof. exact C32_units_and_targets_proof. Qed.
Print Assumptions C32_units_and_targets.

(** C46: with the ground below the lowest level every height follows from the hypsometric equation,
    and heights rise. *)
Theorem C46_all_above : forall ratio g geopotential c ps p t levels,
  0 < ratio -> Atmosphere ((p, t) :: levels) -> p < c * ps ->
  exists heights,
    height_from_pressure ratio g geopotential c ps (map (fun l => (fst l, Some (snd l))) ((p, t) :: levels)) = Ok heights /\
    length heights = S (length levels) /\
    (forall k, (k <= length levels)%nat ->
       At heights k (geopotential / g + column_thickness ratio (c * ps) (firstn (S k) ((p, t) :: levels)))) /\
    Rising heights.
Proof. exact C46_all_above_proof. Qed.
Print Assumptions C46_all_above.

Example C46_all_above_case : Atmosphere [(1000, 280); (500, 250)] /\ 1000 < 1 / 100 * 101000.
Proof. exact C46_all_above_case_proof. Qed.

(** C46: with the ground between two levels the lower ones have no height; the upper ones start at the
    ground but with the thickness of the whole layer, wherever the ground lies in it. *)
Theorem C46_partly_below_ground : forall ratio g geopotential c ps low lower p t upper,
  0 < ratio -> Atmosphere (low ++ lower :: (p, t) :: upper) -> p < c * ps < fst lower ->
  exists heights,
    height_from_pressure ratio g geopotential c ps
      (map (fun l => (fst l, Some (snd l))) (low ++ lower :: (p, t) :: upper)) = Ok heights /\
    length heights = length (low ++ lower :: (p, t) :: upper) /\
    (forall k, (k <= length low)%nat -> Gap heights k) /\
    (forall k, (k <= length upper)%nat ->
       At heights (S (length low) + k)
         (geopotential / g + column_thickness ratio (fst lower) (firstn (S k) ((p, t) :: upper)))) /\
    Rising heights.
Proof. exact C46_partly_below_ground_proof. Qed.
Print Assumptions C46_partly_below_ground.

Example C46_partly_below_ground_case :
  Atmosphere ([(1000, 280)] ++ (850, 270) :: (700, 260) :: [(500, 250)]) /\ 700 < 1 * 720 < 850.
Proof. exact C46_partly_below_ground_case_proof. Qed.

(** C46: so the heights do not follow the hypsometric equation from the ground: a layer of which
    almost all is below the ground is as thick as a whole one. *)
Theorem C46_thickness_refuted :
  exists ratio levels ps ps' h h' k, ps <> ps' /\ 0 < ratio /\ Atmosphere levels /\
    height_from_pressure ratio 1 0 1 ps (map (fun l => (fst l, Some (snd l))) levels) = Ok h /\
    height_from_pressure ratio 1 0 1 ps' (map (fun l => (fst l, Some (snd l))) levels) = Ok h' /\
    (k < length levels)%nat /\ h = h' /\ exists v, At h k v.
Proof. exact C46_thickness_refuted_proof. Qed.
Print Assumptions C46_thickness_refuted.

(** C46: if the surface pressure is that of a level, or less than all of them, the column is lost. *)
Theorem C46_on_level : forall ratio g geopotential c ps levels,
  Atmosphere levels -> levels <> [] ->
  (exists t, In (c * ps, t) levels) \/ (forall p t, In (p, t) levels -> c * ps <= p) ->
  exists heights,
    height_from_pressure ratio g geopotential c ps (map (fun l => (fst l, Some (snd l))) levels) = Ok heights /\
    length heights = length levels /\ forall k, (k < length levels)%nat -> Gap heights k.
Proof. exact C46_on_level_proof. Qed.
Print Assumptions C46_on_level.

Example C46_on_level_case :
  Atmosphere [(1000, 280); (850, 270); (500, 250)] /\ In (1 / 100 * 85000, 270) [(1000, 280); (850, 270); (500, 250)].
Proof. exact C46_on_level_case_proof. Qed.
