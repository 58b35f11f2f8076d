(** Dispersion curves of equatorial waves: metcalcpy/contributed/spacetime/matsuno_plot.py.  Numbers are reals; NaN is
    [None]. *)
From Coq Require Import Reals.
From Verif Require Import PyBase.
From Coq Require Import List.
Import ListNotations.
Open Scope R_scope.

(** matsuno_plot.py 48-52: radius of the earth, gravity, rotation and the length of a day. *)
Definition re : R := 6371008.
Definition g : R := 980665 / 100000.
Definition omega : R := 7292 / 100000000.
Definition deg2rad : R := PI / 180.
Definition sec2day : R := 1 / (24 * 60 * 60).
(** matsuno_plot.py 55-68, [beta_parameters]. *)
Definition beta_of (latitude : R) : R := 2 * omega * cos (Rabs latitude * deg2rad) / re.
Definition perimeter_of (latitude : R) : R := 2 * PI * re * cos (Rabs latitude * deg2rad).
(** matsuno_plot.py 71-86, [wn_array], with [np.linspace]; [n_wn] is the absolute value of the number given.  The limits
    are not cut to integers: [maxwn] is not used. *)
Definition wn_array (max_wn : R) (n_wn : nat) : list R :=
  map (fun i => - max_wn + INR i * (2 * max_wn / INR (n_wn - 1))) (seq 0 n_wn).
(** matsuno_plot.py 89-102, [wn2k]: wavenumber 0 has an infinite wavelength. *)
Definition wn2k (wn perimeter : R) : R := if Req_EM_T wn 0 then 0 else 2 * PI / (perimeter / wn).
(** matsuno_plot.py 105-118, [afreq2freq]: frequency 0 has an infinite period. *)
Definition afreq2freq (w : R) : R := if Req_EM_T w 0 then 0 else 1 / (2 * PI / w * sec2day).
(** A curve: wavenumbers and frequencies.  Depths that are not positive, which give NaN or infinities, and latitudes
    where the cosine is 0 are not modelled. *)
Definition curve (he latitude max_wn : R) (n_wn : nat) (at_k : R -> option R) : res (list (R * option R)) :=
  if Rlt_dec 0 he then
    if Req_EM_T (cos (Rabs latitude * deg2rad)) 0 then Err NotModelled
    else Ok (map (fun wn => (wn, option_map afreq2freq (at_k (wn2k wn (perimeter_of latitude))))) (wn_array max_wn n_wn))
  else Err NotModelled.
(** matsuno_plot.py 121-151, [kelvin_mode]. *)
Definition kelvin_mode (he latitude max_wn : R) (n_wn : nat) : res (list (R * option R)) :=
  curve he latitude max_wn n_wn (fun k => if Rle_dec k 0 then None else Some (sqrt (g * he) * k)).
(** matsuno_plot.py 154-185, [mrg_mode]. *)
Definition mrg_mode (he latitude max_wn : R) (n_wn : nat) : res (list (R * option R)) :=
  curve he latitude max_wn n_wn (fun k => if Rge_dec k 0 then None
    else Some (sqrt (g * he) * k * (1 / 2 - 1 / 2 * sqrt (1 + 4 * beta_of latitude / (k * k * sqrt (g * he)))))).
(** matsuno_plot.py 188-219, [eig_n_0]. *)
Definition eig_n_0 (he latitude max_wn : R) (n_wn : nat) : res (list (R * option R)) :=
  curve he latitude max_wn n_wn (fun k => if Rle_dec k 0 then None
    else Some (sqrt (g * he) * k * (1 / 2 + 1 / 2 * sqrt (1 + 4 * beta_of latitude / (k * k * sqrt (g * he)))))).
(** matsuno_plot.py 342-367, [dispersion]. *)
Definition dispersion (w k : R) (n : Z) (he beta : R) : R :=
  w ^ 3 - g * he * (k ^ 2 + beta * (2 * IZR n + 1) / sqrt (g * he)) * w - k * beta * g * he.
(** matsuno_plot.py 222-258, [er_n].  [fsolve] stands for scipy's solver, from a seed; it is called for all wavenumbers
    at once, but no equation depends on the unknown of another. *)
Definition er_n (fsolve : (R -> R) -> R -> R) (he : R) (n : Z) (latitude max_wn : R) (n_wn : nat) : res (list (R * option R)) :=
  let beta := beta_of latitude in
  curve he latitude max_wn n_wn (fun k => if Rge_dec k 0 then None
    else Some (fsolve (fun w => dispersion w k n he beta) (- beta * k / (k * k + (2 * IZR n + 1) * (beta / sqrt (g * he)))))).
(** matsuno_plot.py 262-299, [eig_n]. *)
Definition eig_n (fsolve : (R -> R) -> R -> R) (he : R) (n : Z) (latitude max_wn : R) (n_wn : nat) : res (list (R * option R)) :=
  let beta := beta_of latitude in
  curve he latitude max_wn n_wn (fun k => if Rle_dec k 0 then None
    else Some (fsolve (fun w => dispersion w k n he beta) (sqrt ((2 * IZR n + 1) * beta * sqrt (g * he) + k ^ 2 * g * he)))).
(** matsuno_plot.py 302-339, [wig_n]. *)
Definition wig_n (fsolve : (R -> R) -> R -> R) (he : R) (n : Z) (latitude max_wn : R) (n_wn : nat) : res (list (R * option R)) :=
  let beta := beta_of latitude in
  curve he latitude max_wn n_wn (fun k => if Rge_dec k 0 then None
    else Some (fsolve (fun w => dispersion w k n he beta) (sqrt ((2 * IZR n + 1) * beta * sqrt (g * he) + k ^ 2 * g * he)))).
