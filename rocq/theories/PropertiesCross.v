(** C151, C152: the program of spectra, and their files (metcalcpy/contributed/spacetime). *)
From Coq Require Import List ZArith QArith String Ascii.
From Verif Require Import PyBase CrossModel CrossSpec CrossProofs.
Import ListNotations.
Open Scope string_scope.

(** C151: a run that ends well has written three files, which hold the spectra of the rain of the model with the lower wind, the upper wind and the
    rain to verify, each within the latitudes and times asked for; all other files are as they were.  The winds may have any order of latitudes. *)
Theorem C151_files : forall L V get_symmasymm mjo_cross show cfg (z x y w : field L) (d d' : disk V) warnings,
  program L V get_symmasymm mjo_cross show cfg z x y w d = (d', warnings, Ok tt) ->
  Forall Full [z; x; y; w] -> Forall (fun f => Ascending (map fst (days f))) [z; x; y; w] -> Ascending (lats z) -> Ascending (lats x) ->
  exists dir p1 p2 p3 z' x' y' w' X Y Z W X' r1 r2 r3,
    Directory (pathout cfg) dir /\ Inside dir (low_name show cfg) p1 /\ Inside dir (high_name show cfg) p2 /\ Inside dir (rain_name show cfg) p3 /\
    Chosen cfg z z' /\ Chosen cfg x x' /\ Chosen cfg y y' /\ Chosen cfg w w' /\
    Part get_symmasymm (Symmetry cfg) x' (lats x') X /\ Part get_symmasymm (Symmetry cfg) y' (lats w') Y /\
    Part get_symmasymm (Symmetry cfg) z' (lats z') Z /\ Part get_symmasymm (Symmetry cfg) w' (lats w') W /\
    AtTimes X (map fst (days Z)) X' /\
    mjo_cross X Y (nperseg cfg * spd cfg)%Z (segOverLap cfg * spd cfg)%Z = Ok r1 /\
    mjo_cross X W (nperseg cfg * spd cfg)%Z (segOverLap cfg * spd cfg)%Z = Ok r2 /\
    mjo_cross X' Z (nperseg cfg * spd cfg)%Z (segOverLap cfg * spd cfg)%Z = Ok r3 /\
    Holds d' p1 r1 (spd cfg) /\ Holds d' p2 r2 (spd cfg) /\ Holds d' p3 r3 2 /\
    forall p, ~ In p [p1; p2; p3] -> d' p = d p.
Proof. exact C151_files_proof. Qed.
Print Assumptions C151_files.

(** Winds from north to south, rain from south to north. *)
Example C151_files_case : exists d',
  program Z Z (fun f _ _ => Ok f) example_cross (fun _ => "4") example_settings example_rain example_rain example_field example_field (fun _ => None)
    = (d', [], Ok tt) /\
  Forall Full [example_rain; example_field] /\ Forall (fun f => Ascending (map fst (days f))) [example_rain; example_field] /\
  Ascending (lats example_rain) /\
  d' "/out/SpaceTimeSpectra_GFS_P_D850_latband_4spd.nc" = Some (Spectra 1 1 1 [4 # 8]%Q [-1]%Z [0]%Z [62]%Z part_names).
Proof. exact C151_files_case_proof. Qed.

(** C151: no file of a run replaces another one. *)
Theorem C151_distinct : forall show cfg dir p1 p2 p3,
  Inside dir (low_name show cfg) p1 -> Inside dir (high_name show cfg) p2 -> Inside dir (rain_name show cfg) p3 -> NoDup [p1; p2; p3].
Proof. exact C151_distinct_proof. Qed.
Print Assumptions C151_distinct.
Example C151_distinct_case : Inside "/out" (low_name (fun _ => "4") example_settings) "/out/SpaceTimeSpectra_GFS_P_D850_latband_4spd.nc".
Proof. exact C151_distinct_case_proof. Qed.

(** C151: however a run ends, it has touched no other file, and a file is begun only when those before it are finished. *)
Theorem C151_order : forall L V get_symmasymm mjo_cross show cfg (z x y w : field L) (d d' : disk V) warnings r dir p1 p2 p3,
  program L V get_symmasymm mjo_cross show cfg z x y w d = (d', warnings, r) ->
  Directory (pathout cfg) dir -> Inside dir (low_name show cfg) p1 -> Inside dir (high_name show cfg) p2 -> Inside dir (rain_name show cfg) p3 ->
  (forall p, d' p <> d p -> In p [p1; p2; p3]) /\
  (d' p2 <> d p2 -> Finished d' p1) /\ (d' p3 <> d p3 -> Finished d' p1 /\ Finished d' p2) /\
  (r = Ok tt -> Finished d' p1 /\ Finished d' p2 /\ Finished d' p3).
Proof. exact C151_order_proof. Qed.
Print Assumptions C151_order.

(** The upper wind cannot be used: the spectrum with the lower one is there. *)
Example C151_order_case : exists d',
  program Z Z (fun f _ _ => Ok f) (fun a b n s => if Nat.eqb (List.length (lats b)) 0 then Err ValueError else example_cross a b n s) (fun _ => "4")
    example_settings example_rain example_rain example_field (Field [40; 30]%Q []) (fun _ => None) = (d', [], Err ValueError) /\
  d' "/out/SpaceTimeSpectra_GFS_P_D850_latband_4spd.nc" <> None /\ d' "/out/SpaceTimeSpectra_GFS_P_D200_latband_4spd.nc" = None.
Proof. exact C151_order_case_proof. Qed.

(** C151 fails for the check of latitudes: the warning is never printed, even if the variables have no latitude in common. *)
Theorem C151_warning_refuted : forall L V get_symmasymm mjo_cross show cfg (z x y w : field L) (d d' : disk V) warnings r,
  program L V get_symmasymm mjo_cross show cfg z x y w d = (d', warnings, r) -> warnings = [].
Proof. exact C151_warning_refuted_proof. Qed.
Print Assumptions C151_warning_refuted.
Example C151_warning_case : exists d',
  program Z Z (fun f _ _ => Ok f) example_cross (fun _ => "4") example_settings example_rain example_rain example_field
    (Field [5; -5]%Q (days example_field)) (fun _ => None) = (d', [], Ok tt).
Proof. exact C151_warning_case_proof. Qed.

(** C151 fails for rain from north to south, which is not sorted: no latitude is left. *)
Theorem C151_descending_refuted : forall L V get_symmasymm mjo_cross show cfg (z x y w : field L) (d : disk V) dir e,
  Directory (pathout cfg) dir -> Forall (fun f => Ascending (map fst (days f))) [z; x; y; w] -> Ascending (lats z) ->
  Descending (lats x) -> (2 <= List.length (lats x))%nat -> (latMin cfg < latMax cfg)%Q -> In (Symmetry cfg) ["symm"; "asymm"] ->
  (forall f s, get_symmasymm f [] s = Err e) ->
  program L V get_symmasymm mjo_cross show cfg z x y w d = (d, [], Err e).
Proof. exact C151_descending_refuted_proof. Qed.
Print Assumptions C151_descending_refuted.
Example C151_descending_case : Descending (lats example_field) /\ (2 <= List.length (lats example_field))%nat /\
  Directory (pathout example_settings) "/out".
Proof. exact C151_descending_case_proof. Qed.

(** C151 fails for an output path that is a text and not a list: only its first character is used. *)
Theorem C151_path_refuted : forall L V get_symmasymm mjo_cross show cfg cfg' (z x y w : field L) (d : disk V) c rest,
  pathout cfg = Text (String c rest) ->
  cfg' = Settings (Texts [String c ""]) (model cfg) (spd cfg) (nperseg cfg) (segOverLap cfg) (Symmetry cfg) (latMin cfg) (latMax cfg) (datestrt cfg) (datelast cfg) ->
  program L V get_symmasymm mjo_cross show cfg z x y w d = program L V get_symmasymm mjo_cross show cfg' z x y w d.
Proof. exact C151_path_refuted_proof. Qed.
Print Assumptions C151_path_refuted.
Example C151_path_case : exists d',
  program Z Z (fun f _ _ => Ok f) example_cross (fun _ => "4") (Settings (Text "/out") "GFS" 4 15 (-5) "latband" (-15) 15 0 1)
    example_rain example_rain example_field example_field (fun _ => None) = (d', [], Ok tt) /\
  d' "/SpaceTimeSpectra_GFS_P_D850_latband_4spd.nc" <> None /\ d' "/out/SpaceTimeSpectra_GFS_P_D850_latband_4spd.nc" = None.
Proof. exact C151_path_case_proof. Qed.

(** C152: spectra are saved with all values, frequencies and numbers of parts; whole wavenumbers are kept. *)
Theorem C152_saved : forall V (d : disk V) nvar nfrq nwave stc freqs waves name dir path,
  List.length freqs = nfrq -> List.length waves = nwave -> (forall rest, name <> String "/" rest) -> Inside dir (name ++ ".nc") path ->
  exists d', save_Spectra d (Array [nvar; nfrq; nwave] stc) freqs (map inject_Z waves) name dir = (d', Ok tt) /\
    d' path = Some (Spectra nvar nfrq nwave freqs waves (map Z.of_nat (seq 0 nvar)) stc part_names) /\ forall p, p <> path -> d' p = d p.
Proof. exact C152_saved_proof. Qed.
Print Assumptions C152_saved.
Example C152_saved_case : (forall rest, "x" <> String "/" rest) /\ Inside "/out/" ("x" ++ ".nc") "/out/x.nc".
Proof. exact C152_saved_case_proof. Qed.

(** C152 fails for other wavenumbers: they are cut off. *)
Theorem C152_cut_refuted : forall V (d d' : disk V) nvar nfrq stc freqs q name dir path,
  save_Spectra d (Array [nvar; nfrq; 1%nat] stc) freqs [q] name dir = (d', Ok tt) -> (forall rest, name <> String "/" rest) ->
  Inside dir (name ++ ".nc") path -> exists k, d' path = Some (Spectra nvar nfrq 1 freqs [k] (map Z.of_nat (seq 0 nvar)) stc part_names) /\
    (0 <= q -> inject_Z k <= q < inject_Z k + 1)%Q /\ (q <= 0 -> inject_Z k - 1 < q <= inject_Z k)%Q.
Proof. exact C152_cut_refuted_proof. Qed.
Print Assumptions C152_cut_refuted.
Example C152_cut_case : exists d', save_Spectra (fun _ => None) (Array [0; 0; 1]%nat (@nil Z)) [] [-3 # 2]%Q "x" "" = (d', Ok tt) /\
  d' "x.nc" = Some (Spectra 0 0 1 [] [-1]%Z [] [] part_names).
Proof. exact C152_cut_case_proof. Qed.

(** C152 fails for arrays without three axes: they are refused, but a file that was there is lost. *)
Theorem C152_lost_refuted : forall V (d : disk V) stc freqs waves name dir path,
  List.length (shape stc) <> 3%nat -> (forall rest, name <> String "/" rest) -> Inside dir (name ++ ".nc") path ->
  exists d', save_Spectra d stc freqs waves name dir = (d', Err ValueError) /\ d' path = Some Unfinished.
Proof. exact C152_lost_refuted_proof. Qed.
Print Assumptions C152_lost_refuted.
Example C152_lost_case : List.length (shape (Array [2; 2]%nat [1; 2; 3; 4]%Z)) <> 3%nat.
Proof. exact C152_lost_case_proof. Qed.

(** C152 fails for the function of the same name in the tropical diagnostics, which does not add a slash: it does the same if the directory is empty or
    ends with a slash, and writes another file otherwise. *)
Theorem C152_places_refuted : forall V (d : disk V) nvar nfrq nwave stc freqs waves name dir path,
  List.length freqs = nfrq -> List.length waves = nwave -> (forall rest, name <> String "/" rest) -> Inside dir (name ++ ".nc") path ->
  let here := save_Spectra d (Array [nvar; nfrq; nwave] stc) freqs waves name dir in
  let there := save_Spectra_diagnostics d (Array [nvar; nfrq; nwave] stc) freqs waves name dir in
  (dir = "" \/ EndsWithSlash dir -> there = here) /\
  (dir <> "" -> ~ EndsWithSlash dir -> snd there = Ok tt /\ fst there path = d path /\ fst there (dir ++ name ++ ".nc") = fst here path).
Proof. exact C152_places_refuted_proof. Qed.
Print Assumptions C152_places_refuted.
Example C152_places_case : "/out" <> "" /\ ~ EndsWithSlash "/out" /\ Inside "/out" ("x" ++ ".nc") "/out/x.nc".
Proof. exact C152_places_case_proof. Qed.
