(** C127 to C129: the spectra of one time segment. *)
From Coq Require Import Reals.
From Verif Require Import PyBase WavesSpec KfSpec SpectraModel SegModel SegSpec SegProofs.
From Coq Require Import List.
Open Scope R_scope.

(** C127: the result has an odd number of rows and columns, with frequency and wavenumber zero in the middle; the entry for each
    frequency and wavenumber is the power of the first field, that of the second, their co-spectrum and their quadrature spectrum,
    averaged over the latitudes; the other four arrays are zero.  If both numbers are even, the last row holds the power of the first
    field, and zeros for the other three spectra. *)
Theorem C127_spectra : forall XX YY NT NM NL, (0 < NT)%nat -> (0 < NM)%nat -> (0 < NL)%nat -> Grid3 NT NM NL XX -> Grid3 NT NM NL YY ->
  exists STC, mjo_cross_segment XX YY = Ok STC /\ length STC = 8%nat /\ Forall (Shape (OddSize NT) (OddSize NL)) STC /\
    (forall f k, InRange NT f -> InRange NL k ->
       let i := PlaceOf NT f in let c := PlaceOf NL k in
       let last := Nat.Even NT /\ Nat.Even NL /\ (2 * f = Z.of_nat NT)%Z in
       At STC 0 i c (PowerOf NT NM NL XX f k) /\
       (~ last -> At STC 1 i c (PowerOf NT NM NL YY f k) /\ At STC 2 i c (CoOf NT NM NL XX YY f k) /\ At STC 3 i c (QuadOf NT NM NL XX YY f k)) /\
       (last -> At STC 1 i c 0 /\ At STC 2 i c 0 /\ At STC 3 i c 0)) /\
    (forall v i c y, (4 <= v)%nat -> At STC v i c y -> y = 0).
Proof. exact C127_spectra_proof. Qed.
Print Assumptions C127_spectra.
Example C127_spectra_case : Grid3 2 1 3 [[[1; 2; 3]]; [[4; 5; 6]]] /\ InRange 2 1 /\ InRange 3 (-1) /\
  ~ (Nat.Even 2 /\ Nat.Even 3 /\ (2 * 1 = Z.of_nat 2)%Z) /\ Nat.Even 2 /\ Nat.Even 4 /\ (2 * 1 = Z.of_nat 2)%Z.
Proof. exact C127_spectra_case_proof. Qed.

(** C127: the highest frequency stands in the first and the last row; but for even numbers the last row of the second power is zero. *)
Theorem C127_last_refuted : ~ (forall XX YY NT NM NL STC f k, (0 < NT)%nat -> (0 < NM)%nat -> (0 < NL)%nat -> Grid3 NT NM NL XX ->
  Grid3 NT NM NL YY -> mjo_cross_segment XX YY = Ok STC -> InRange NT f -> InRange NL k ->
  At STC 1 (PlaceOf NT f) (PlaceOf NL k) (PowerOf NT NM NL YY f k)).
Proof. exact C127_last_refuted_proof. Qed.
Print Assumptions C127_last_refuted.

(** C127: fields of different shapes (no axis of length one) and fields without times or longitudes are refused. *)
Theorem C127_refused : forall XX YY NT NM NL NT' NM' NL', Grid3 NT NM NL XX -> Grid3 NT' NM' NL' YY ->
  (0 < NM)%nat -> (0 < NM')%nat ->
  ((1 < NT)%nat -> (1 < NM)%nat -> (1 < NL)%nat -> (1 < NT')%nat -> (1 < NM')%nat -> (1 < NL')%nat -> (NT, NM, NL) <> (NT', NM', NL') ->
   mjo_cross_segment XX YY = Err ValueError) /\
  ((0 < NT)%nat -> NL = 0%nat -> mjo_cross_segment XX YY = Err ValueError) /\ (NT = 0%nat -> mjo_cross_segment XX YY = Err ValueError).
Proof. exact C127_refused_proof. Qed.
Print Assumptions C127_refused.
Example C127_refused_case : Grid3 2 2 2 [[[1; 2]; [2; 3]]; [[4; 5]; [5; 6]]] /\ Grid3 2 2 3 [[[1; 2; 3]; [1; 2; 3]]; [[4; 5; 6]; [4; 5; 6]]] /\
  (2, 2, 2)%nat <> (2, 2, 3)%nat /\ Grid3 1 1 0 [[[]]] /\ Grid3 0 1 1 [].
Proof. exact C127_refused_case_proof. Qed.

(** C128: powers are not negative, and the squares of both cross spectra together are at most the product of the powers, at every place. *)
Theorem C128_bounds : forall XX YY NT NM NL STC i c px py co qu, (0 < NT)%nat -> (0 < NM)%nat -> (0 < NL)%nat -> Grid3 NT NM NL XX ->
  Grid3 NT NM NL YY -> mjo_cross_segment XX YY = Ok STC -> At STC 0 i c px -> At STC 1 i c py -> At STC 2 i c co -> At STC 3 i c qu ->
  0 <= px /\ 0 <= py /\ co * co + qu * qu <= px * py.
Proof. exact C128_bounds_proof. Qed.
Print Assumptions C128_bounds.
Example C128_bounds_case : exists STC px py co qu, Grid3 1 1 1 [[[2]]] /\ Grid3 1 1 1 [[[3]]] /\ mjo_cross_segment [[[2]]] [[[3]]] = Ok STC /\
  At STC 0 0 0 px /\ At STC 1 0 0 py /\ At STC 2 0 0 co /\ At STC 3 0 0 qu.
Proof. exact C128_bounds_case_proof. Qed.

(** C128: a field with itself has its power as co-spectrum and no quadrature spectrum (before the last row); exchanging the fields
    exchanges the powers, and changes the sign of the quadrature spectrum; the opposite frequency and wavenumber have the same power and
    co-spectrum and the opposite quadrature spectrum. *)
Theorem C128_symmetry : forall XX YY NT NM NL STC, (0 < NT)%nat -> (0 < NM)%nat -> (0 < NL)%nat -> Grid3 NT NM NL XX -> Grid3 NT NM NL YY ->
  mjo_cross_segment XX YY = Ok STC ->
  (XX = YY -> forall i c p, (i < NT)%nat -> At STC 0 i c p -> At STC 1 i c p /\ At STC 2 i c p /\ At STC 3 i c 0) /\
  (exists STC', mjo_cross_segment YY XX = Ok STC' /\ forall i c px py co qu, (i < NT)%nat ->
     At STC 0 i c px -> At STC 1 i c py -> At STC 2 i c co -> At STC 3 i c qu ->
     At STC' 0 i c py /\ At STC' 1 i c px /\ At STC' 2 i c co /\ At STC' 3 i c (- qu)) /\
  (forall f k px py co qu, (- Z.of_nat NT < 2 * f < Z.of_nat NT)%Z -> InRange NL k ->
     At STC 0 (PlaceOf NT f) (PlaceOf NL k) px -> At STC 1 (PlaceOf NT f) (PlaceOf NL k) py ->
     At STC 2 (PlaceOf NT f) (PlaceOf NL k) co -> At STC 3 (PlaceOf NT f) (PlaceOf NL k) qu ->
     At STC 0 (PlaceOf NT (- f)) (PlaceOf NL (- k)) px /\ At STC 1 (PlaceOf NT (- f)) (PlaceOf NL (- k)) py /\
     At STC 2 (PlaceOf NT (- f)) (PlaceOf NL (- k)) co /\ At STC 3 (PlaceOf NT (- f)) (PlaceOf NL (- k)) (- qu)).
Proof. exact C128_symmetry_proof. Qed.
Print Assumptions C128_symmetry.
Example C128_symmetry_case : exists STC, Grid3 3 1 3 (repeat [[1; 2; 3]] 3) /\ mjo_cross_segment (repeat [[1; 2; 3]] 3) (repeat [[1; 2; 3]] 3) = Ok STC /\
  (- Z.of_nat 3 < 2 * 1 < Z.of_nat 3)%Z /\ InRange 3 1 /\ exists p, At STC 0 1 1 p.
Proof. exact C128_symmetry_case_proof. Qed.

(** C128: [mjo_cross_segment_realfft], with the same description, averages the same products with the opposite sign of the quadrature
    spectrum: from the same coefficients of the two fields the two functions make opposite spectra. *)
Theorem C128_sign_refuted : forall XX YY NT NM NL STC f k qu, (0 < NT)%nat -> (0 < NM)%nat -> (0 < NL)%nat -> Grid3 NT NM NL XX ->
  Grid3 NT NM NL YY -> mjo_cross_segment XX YY = Ok STC -> (- Z.of_nat NT < 2 * f < Z.of_nat NT)%Z -> InRange NL k ->
  At STC 3 (PlaceOf NT f) (PlaceOf NL k) qu ->
  let coefficients := map (fun m => ((CosPart NT NL XX f k m, - SinPart NT NL XX f k m), (CosPart NT NL YY f k m, - SinPart NT NL YY f k m))) (seq 0 NM) in
  exists px py co, cross coefficients = (px, py, co, - qu) /\
    At STC 0 (PlaceOf NT f) (PlaceOf NL k) px /\ At STC 1 (PlaceOf NT f) (PlaceOf NL k) py /\ At STC 2 (PlaceOf NT f) (PlaceOf NL k) co.
Proof. exact C128_sign_refuted_proof. Qed.
Print Assumptions C128_sign_refuted.
Example C128_sign_refuted_case : exists STC qu, Grid3 3 1 3 (repeat [[1; 2; 3]] 3) /\ mjo_cross_segment (repeat [[1; 2; 3]] 3) (repeat [[1; 2; 3]] 3) = Ok STC /\
  (- Z.of_nat 3 < 2 * 1 < Z.of_nat 3)%Z /\ InRange 3 1 /\ At STC 3 (PlaceOf 3 1) (PlaceOf 3 1) qu.
Proof. exact C128_sign_refuted_case_proof. Qed.

(** C129: over every frequency and wavenumber once, the powers add up to the mean of the squares, the co-spectra to the mean of the
    products, and the quadrature spectra to zero. *)
Theorem C129_sums : forall XX YY NT NM NL STC px py co qu, (0 < NT)%nat -> (0 < NM)%nat -> (0 < NL)%nat -> Grid3 NT NM NL XX ->
  Grid3 NT NM NL YY -> mjo_cross_segment XX YY = Ok STC ->
  nth_error STC 0 = Some px -> nth_error STC 1 = Some py -> nth_error STC 2 = Some co -> nth_error STC 3 = Some qu ->
  let once (M : list (list R)) := Sum2 NT NL (fun i c => nth (c + (OddSize NL - NL)) (nth i M []) 0) in
  let mean (g : nat -> nat -> nat -> R) := LatMean NM (fun m => Sum2 NT NL (fun t x => g t m x) / (INR NT * INR NL)) in
  once px = mean (fun t m x => Value XX t m x * Value XX t m x) /\
  once py = mean (fun t m x => Value YY t m x * Value YY t m x) /\
  once co = mean (fun t m x => Value XX t m x * Value YY t m x) /\
  once qu = 0.
Proof. exact C129_sums_proof. Qed.
Print Assumptions C129_sums.
Example C129_sums_case : exists STC, Grid3 2 1 2 [[[1; 2]]; [[3; 4]]] /\ mjo_cross_segment [[[1; 2]]; [[3; 4]]] [[[1; 2]]; [[3; 4]]] = Ok STC.
Proof. exact C129_sums_case_proof. Qed.

(** C129: a wave that goes eastward has its power at its own frequency and wavenumber and at the opposite place, a quarter of the square
    of its amplitude each, and none anywhere else; the same holds for a westward wave, whose wavenumber is negative. *)
Theorem C129_wave : forall XX YY NT NM NL a f0 k0 phi STC f k p, (0 < NM)%nat -> EastwardWave NT NM NL a f0 k0 phi XX -> Grid3 NT NM NL YY ->
  (0 < 2 * f0 < Z.of_nat NT)%Z -> (- Z.of_nat NL < 2 * k0 < Z.of_nat NL)%Z ->
  mjo_cross_segment XX YY = Ok STC -> InRange NT f -> InRange NL k -> At STC 0 (PlaceOf NT f) (PlaceOf NL k) p ->
  ((f = f0 /\ k = k0) \/ (f = - f0 /\ k = - k0)%Z -> p = a * a / 4) /\
  (~ ((f = f0 /\ k = k0) \/ (f = - f0 /\ k = - k0)%Z) -> p = 0).
Proof. exact C129_wave_proof. Qed.
Print Assumptions C129_wave.
Example C129_wave_case : exists XX STC p, EastwardWave 4 1 5 2 1 2 0 XX /\ Grid3 4 1 5 XX /\ mjo_cross_segment XX XX = Ok STC /\ InRange 4 1 /\ InRange 5 2 /\
  At STC 0 (PlaceOf 4 1) (PlaceOf 5 2) p.
Proof. exact C129_wave_case_proof. Qed.
