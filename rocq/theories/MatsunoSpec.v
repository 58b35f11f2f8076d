(** Words for the statements about equatorial waves. *)
From Coq Require Import Reals ZArith.
Open Scope R_scope.

(** The earth: radius in metres, gravity, rotation per second. *)
Definition earth_radius : R := 6371008.
Definition gravity : R := 9.80665.
Definition rotation : R := 0.00007292.
(** The cosine of a latitude in degrees. *)
Definition cosine (latitude : R) : R := cos (latitude * PI / 180).
(** The speed of gravity waves of an equivalent depth. *)
Definition Speed (he : R) : R := sqrt (gravity * he).
(** The change of the Coriolis parameter with latitude. *)
Definition Beta (latitude : R) : R := 2 * rotation * cosine latitude / earth_radius.
(** The wavenumber per metre of [wn] waves around a circle of latitude. *)
Definition Wavenumber (latitude wn : R) : R := wn / (earth_radius * cosine latitude).
(** Cycles per day of an angular frequency per second. *)
Definition Cycles (w : R) : R := w * 86400 / (2 * PI).
(** Matsuno's relation between angular frequency and wavenumber for the meridional mode [n]. *)
Definition Matsuno (he latitude : R) (n : Z) (k w : R) : Prop :=
  let c := Speed he in let b := Beta latitude in
  w ^ 3 - c ^ 2 * k ^ 2 * w - (2 * IZR n + 1) * b * c * w - k * b * c ^ 2 = 0.
(** The relation of mixed Rossby-gravity waves and of inertio-gravity waves of mode 0. *)
Definition Mixed (he latitude k w : R) : Prop := w ^ 2 - Speed he * k * w - Beta latitude * Speed he = 0.
