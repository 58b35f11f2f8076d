(** Dispersion curves of equatorial waves. *)
From Coq Require Import Reals ZArith List.
From Verif Require Import PyBase MatsunoModel MatsunoSpec MatsunoProofs.
From Coq Require Import List.
Import ListNotations.
Open Scope R_scope.

(** ** C94: Kelvin waves, mixed Rossby-gravity waves and mode 0 *)

(** The wavenumbers of every curve run from minus the largest to the largest in equal steps. *)
Theorem C94_axis : forall fsolve he n latitude m N, 0 < he -> 0 < cosine latitude ->
  Forall (fun mode => exists t, mode = Ok t /\ List.length t = N /\
      (forall i, (i < N)%nat -> (2 <= N)%nat -> nth_error (map fst t) i = Some (- m + 2 * m * INR i / INR (N - 1))) /\
      (N = 1%nat -> map fst t = [- m]) /\ ((2 <= N)%nat -> nth_error (map fst t) (N - 1) = Some m))
    [kelvin_mode he latitude m N; mrg_mode he latitude m N; eig_n_0 he latitude m N;
     er_n fsolve he n latitude m N; eig_n fsolve he n latitude m N; wig_n fsolve he n latitude m N].
Proof. exact C94_axis_proof. Qed.
Print Assumptions C94_axis.

Example C94_axis_case : 0 < 25 /\ 0 < cosine 10.
Proof. exact C94_axis_case_proof. Qed.

(** Kelvin waves go east, all with the speed of gravity waves. *)
Theorem C94_kelvin : forall he latitude m N t wn f, 0 < cosine latitude -> kelvin_mode he latitude m N = Ok t -> In (wn, f) t ->
  (wn <= 0 -> f = None) /\
  (0 < wn -> exists w, f = Some (Cycles w) /\ w = Speed he * Wavenumber latitude wn /\ 0 < w /\ Matsuno he latitude (-1) (Wavenumber latitude wn) w).
Proof. exact C94_kelvin_proof. Qed.
Print Assumptions C94_kelvin.

(** Mixed Rossby-gravity waves go west; their frequency is the only positive one of the relation. *)
Theorem C94_mrg : forall he latitude m N t wn f, 0 < cosine latitude -> mrg_mode he latitude m N = Ok t -> In (wn, f) t ->
  (0 <= wn -> f = None) /\
  (wn < 0 -> exists w, f = Some (Cycles w) /\ 0 < w /\ Mixed he latitude (Wavenumber latitude wn) w /\
      (forall w', 0 < w' -> Mixed he latitude (Wavenumber latitude wn) w' -> w' = w) /\ Matsuno he latitude 0 (Wavenumber latitude wn) w).
Proof. exact C94_mrg_proof. Qed.
Print Assumptions C94_mrg.

(** Inertio-gravity waves of mode 0 go east; their frequency is the only positive one of the same relation. *)
Theorem C94_eig0 : forall he latitude m N t wn f, 0 < cosine latitude -> eig_n_0 he latitude m N = Ok t -> In (wn, f) t ->
  (wn <= 0 -> f = None) /\
  (0 < wn -> exists w, f = Some (Cycles w) /\ 0 < w /\ Mixed he latitude (Wavenumber latitude wn) w /\
      (forall w', 0 < w' -> Mixed he latitude (Wavenumber latitude wn) w' -> w' = w) /\ Matsuno he latitude 0 (Wavenumber latitude wn) w).
Proof. exact C94_eig0_proof. Qed.
Print Assumptions C94_eig0.

(** Along each curve the frequency increases with the wavenumber. *)
Theorem C94_increasing : forall he latitude m N, 0 < cosine latitude ->
  Forall (fun mode => forall t wn f wn' f', mode = Ok t -> In (wn, Some f) t -> In (wn', Some f') t -> wn < wn' -> f < f')
    [kelvin_mode he latitude m N; mrg_mode he latitude m N; eig_n_0 he latitude m N].
Proof. exact C94_increasing_proof. Qed.
Print Assumptions C94_increasing.

(** Waves of mode 0 are faster than Kelvin waves, by the frequency of the mixed wave that goes the other way. *)
Theorem C94_order : forall he latitude m N tk tm te wn fk fm fe, 0 < cosine latitude ->
  kelvin_mode he latitude m N = Ok tk -> mrg_mode he latitude m N = Ok tm -> eig_n_0 he latitude m N = Ok te ->
  In (wn, Some fk) tk -> In (- wn, Some fm) tm -> In (wn, Some fe) te -> fe = fk + fm /\ 0 < fk < fe.
Proof. exact C94_order_proof. Qed.
Print Assumptions C94_order.

(** Deeper layers have higher frequencies. *)
Theorem C94_deeper : forall he he' latitude m N, 0 < cosine latitude -> 0 < he < he' ->
  Forall (fun mode => forall t t' wn f f', mode he latitude m N = Ok t -> mode he' latitude m N = Ok t' -> In (wn, Some f) t -> In (wn, Some f') t' -> f < f')
    [kelvin_mode; mrg_mode; eig_n_0].
Proof. exact C94_deeper_proof. Qed.
Print Assumptions C94_deeper.

(** ** C95: higher modes *)

(** For waves that go west the relation has two positive frequencies, one below that of a gravity wave of the same length
    and one above it; for waves that go east it has one, above it. *)
Theorem C95_roots : forall he latitude n k, 0 < he -> 0 < cosine latitude -> (1 <= n)%Z ->
  (k < 0 -> (exists! w, 0 < w < Speed he * - k /\ Matsuno he latitude n k w) /\
            (exists! w, Speed he * - k < w /\ Matsuno he latitude n k w) /\ ~ Matsuno he latitude n k (Speed he * - k)) /\
  (0 < k -> exists! w, 0 < w /\ Matsuno he latitude n k w).
Proof. exact C95_roots_proof. Qed.
Print Assumptions C95_roots.

(** The curves have values west, east and west of wavenumber 0; the values are what the solver finds for Matsuno's
    relation.  From the seeds, a root is reached without a turn: Rossby waves lie between the seed and the gravity wave,
    gravity waves that go west between the gravity wave and the seed, and those that go east above the seed. *)
Theorem C95_curves : forall fsolve he latitude n m N, 0 < he -> 0 < cosine latitude -> (1 <= n)%Z ->
  let k wn := Wavenumber latitude wn in
  (exists t, er_n fsolve he n latitude m N = Ok t /\ forall wn f, In (wn, f) t ->
     (0 <= wn -> f = None) /\
     (wn < 0 -> exists F seed, f = Some (Cycles (fsolve F seed)) /\ (forall w, F w = 0 <-> Matsuno he latitude n (k wn) w) /\
        (forall w, 0 < w < Speed he * - k wn -> F w = 0 -> 0 < seed < w))) /\
  (exists t, wig_n fsolve he n latitude m N = Ok t /\ forall wn f, In (wn, f) t ->
     (0 <= wn -> f = None) /\
     (wn < 0 -> exists F seed, f = Some (Cycles (fsolve F seed)) /\ (forall w, F w = 0 <-> Matsuno he latitude n (k wn) w) /\
        (forall w, Speed he * - k wn < w -> F w = 0 -> w < seed))) /\
  (exists t, eig_n fsolve he n latitude m N = Ok t /\ forall wn f, In (wn, f) t ->
     (wn <= 0 -> f = None) /\
     (0 < wn -> exists F seed, f = Some (Cycles (fsolve F seed)) /\ (forall w, F w = 0 <-> Matsuno he latitude n (k wn) w) /\
        (forall w, 0 < w -> F w = 0 -> Speed he * k wn < seed < w))).
Proof. exact C95_curves_proof. Qed.
Print Assumptions C95_curves.

(** The order of the curves: Rossby waves, slower the higher the mode, then mixed waves, then gravity waves, faster the
    higher the mode. *)
Theorem C95_order : forall he latitude n k, 0 < he -> 0 < cosine latitude -> (1 <= n)%Z ->
  (forall er er' mrg wig wig', k < 0 ->
     0 < er < Speed he * - k -> Matsuno he latitude n k er -> 0 < er' < Speed he * - k -> Matsuno he latitude (n + 1) k er' ->
     0 < mrg -> Mixed he latitude k mrg ->
     Speed he * - k < wig -> Matsuno he latitude n k wig -> Speed he * - k < wig' -> Matsuno he latitude (n + 1) k wig' ->
     er' < er < mrg /\ mrg < wig < wig') /\
  (forall eig0 eig eig', 0 < k -> 0 < eig0 -> Mixed he latitude k eig0 -> 0 < eig -> Matsuno he latitude n k eig ->
     0 < eig' -> Matsuno he latitude (n + 1) k eig' -> eig0 < eig < eig').
Proof. exact C95_order_proof. Qed.
Print Assumptions C95_order.

(** Waves that go west three times around latitude 10, with an equivalent depth of 25 metres. *)
Example C95_case : let k := Wavenumber 10 (-3) in 0 < 25 /\ 0 < cosine 10 /\ (1 <= 1)%Z /\ k < 0 /\
  exists er mrg wig, 0 < er < Speed 25 * - k /\ Matsuno 25 10 1 k er /\ 0 < mrg /\ Mixed 25 10 k mrg /\
    Speed 25 * - k < wig /\ Matsuno 25 10 1 k wig.
Proof. exact C95_case_proof. Qed.
