(** C145: tables of Matsuno modes. *)
From Coq Require Import Reals String ZArith List.
From Verif Require Import PyBase MatsunoModel MatsunoSpec ModesModel ModesSpec ModesProofs.
Import ListNotations.
Open Scope R_scope.

(** C145: each row holds a wavenumber and the value of every curve there. *)
Theorem C145_table : forall str_he str_n fsolve he ns latitude m N, 0 < he -> 0 < cosine latitude -> m <> 0 ->
  NoDup (mode_names (str_he he) (map str_n ns)) ->
  exists curves t,
    Forall2 (fun c r => r = Ok c) curves
      ([kelvin_mode he latitude m N; mrg_mode he latitude m N; eig_n_0 he latitude m N] ++
       flat_map (fun n => [er_n fsolve he n latitude m N; eig_n fsolve he n latitude m N; wig_n fsolve he n latitude m N]) ns) /\
    matsuno_dataframe str_he str_n fsolve he ns latitude m N = Ok t /\ names t = mode_names (str_he he) (map str_n ns) /\
    List.length (rows t) = N /\
    forall i, (i < N)%nat -> exists vs, nth_error (rows t) i = Some (wave m N i, vs) /\
      Forall2 (fun c v => nth_error c i = Some (wave m N i, v)) curves vs.
Proof. exact C145_table_proof. Qed.
Print Assumptions C145_table.
Example C145_table_case : 0 < cosine 0 /\ NoDup (mode_names "12" ["1"; "2"; "3"]%string).
Proof. exact C145_table_case_proof. Qed.

(** C145: to the west there are mixed, Rossby and westward gravity waves, to the east the others, at wavenumber 0 none. *)
Theorem C145_sides : forall str_he str_n fsolve he ns latitude m N t wn vs, 0 < he -> 0 < cosine latitude -> m <> 0 ->
  matsuno_dataframe str_he str_n fsolve he ns latitude m N = Ok t -> In (wn, vs) (rows t) ->
  (wn < 0 -> map present vs = west (List.length ns)) /\ (0 < wn -> map present vs = east (List.length ns)) /\
  (wn = 0 -> vs = repeat None (3 + 3 * List.length ns)).
Proof. exact C145_sides_proof. Qed.
Print Assumptions C145_sides.
Example C145_sides_case : wave 1 3 0 = -1 /\ wave 1 3 1 = 0 /\ wave 1 3 2 = 1 /\
  exists t, matsuno_dataframe (fun _ => "12"%string) (fun _ => "1"%string) (fun _ x => x) 12 [1%Z] 0 1 3 = Ok t.
Proof. exact C145_sides_case_proof. Qed.

(** C145: full statement (as many rows as wavenumbers, for any range): false if the range is empty, each merge multiplies the rows. *)
Theorem C145_multiplied : forall str_he str_n fsolve he ns latitude N, 0 < he -> 0 < cosine latitude ->
  NoDup (mode_names (str_he he) (map str_n ns)) ->
  exists t, matsuno_dataframe str_he str_n fsolve he ns latitude 0 N = Ok t /\
    rows t = repeat (0, repeat None (3 + 3 * List.length ns)) (N ^ (3 + 3 * List.length ns)).
Proof. exact C145_multiplied_proof. Qed.
Print Assumptions C145_multiplied.
Example C145_multiplied_case : (2 ^ (3 + 3 * List.length [1%Z]) = 64)%nat.
Proof. exact C145_multiplied_case_proof. Qed.
Theorem C145_rows_refuted : ~ (forall str_he str_n fsolve he ns latitude m N t, 0 < he -> 0 < cosine latitude ->
  matsuno_dataframe str_he str_n fsolve he ns latitude m N = Ok t -> List.length (rows t) = N).
Proof. exact C145_rows_refuted_proof. Qed.
Print Assumptions C145_rows_refuted.

(** C145: a column is found by its name if no mode is given twice; otherwise not. *)
Theorem C145_name_refuted : ~ (forall str_he str_n fsolve he ns latitude m N t n, 0 < he -> 0 < cosine latitude -> m <> 0 -> In n ns ->
  matsuno_dataframe str_he str_n fsolve he ns latitude m N = Ok t -> In ("ER(n=" ++ str_n n ++ ",he=" ++ str_he he ++ "m)")%string (names t)).
Proof. exact C145_name_refuted_proof. Qed.
Print Assumptions C145_name_refuted.

(** C145: for several depths there is one table for each, once, in the order in which they are first named. *)
Theorem C145_depths : forall str_he str_n fsolve hs ns latitude m N d, matsuno_modes_wk str_he str_n fsolve hs ns latitude m N = Ok d ->
  map fst d = rev (nodup Req_EM_T (rev hs)) /\
  forall h f, In (h, f) d -> matsuno_dataframe str_he str_n fsolve h ns latitude m N = Ok f.
Proof. exact C145_depths_proof. Qed.
Print Assumptions C145_depths.
Example C145_depths_case : exists d, matsuno_modes_wk (fun _ => "12"%string) (fun _ => "1"%string) (fun _ x => x) [12; 25; 12] [1%Z] 0 1 3 = Ok d /\
  map fst d = [12; 25].
Proof. exact C145_depths_case_proof. Qed.
Theorem C145_depth_failed : forall str_he str_n fsolve hs ns latitude m N e,
  matsuno_modes_wk str_he str_n fsolve hs ns latitude m N = Err e <->
  exists before h after, hs = before ++ h :: after /\ matsuno_dataframe str_he str_n fsolve h ns latitude m N = Err e /\
    Forall (fun h => exists f, matsuno_dataframe str_he str_n fsolve h ns latitude m N = Ok f) before.
Proof. exact C145_depth_failed_proof. Qed.
Print Assumptions C145_depth_failed.
Example C145_depth_failed_case : matsuno_dataframe (fun _ => "-1"%string) (fun _ => "1"%string) (fun _ x => x) (-1) [1%Z] 0 1 3 = Err NotModelled.
Proof. exact C145_depth_failed_case_proof. Qed.
