(** Spectra of one time segment: metcalcpy/contributed/spacetime/spacetime.py, [mjo_cross_segment].  The transform of numpy is
    modelled by its defining sums; numbers are reals. *)
From Coq Require Import Reals.
From Verif Require Import PyBase WavesModel KfModel.
From Coq Require Import List.
Open Scope nat_scope.

(** The entry of an array (time, latitude, longitude); used for places it has. *)
Definition at3 (M : list (list (list R))) (t m x : nat) : R := nth x (nth m (nth t M []) []) 0%R.
(** [XX.shape]. *)
Definition shape3 (M : list (list (list R))) : nat * nat * nat :=
  match M with
  | [] => (0, 0, 0)
  | p :: _ => (length M, length p, match p with [] => 0 | r :: _ => length r end)
  end.
Definition regular (NT NM NL : nat) (M : list (list (list R))) : bool :=
  (length M =? NT) && forallb (fun p => (length p =? NM) && forallb (fun r => length r =? NL) p) M.
(** spacetime.py 64-68: [np.fft.fft2(XX, axes=(0, 2)) / (NT * NL)] for latitude [m], frequency [j] and wavenumber [r] in the order of
    the transform. *)
Definition fft2 (NT NL : nat) (M : list (list (list R))) (m j r : nat) : cplx :=
  ((rsum (map (fun t => rsum (map (fun x => at3 M t m x * cos (turn NT j t + turn NL r x)) (seq 0 NL))) (seq 0 NT)) / (INR NT * INR NL))%R,
   (- rsum (map (fun t => rsum (map (fun x => at3 M t m x * sin (turn NT j t + turn NL r x)) (seq 0 NL))) (seq 0 NT)) / (INR NT * INR NL))%R).
(** [np.average(…, axis=1)]. *)
Definition average (NM : nat) (f : nat -> R) : R := (rsum (map f (seq 0 NM)) / INR NM)%R.
(** spacetime.py 70-71 [np.fft.fftshift]: the place in the transform of place [i] of the result. *)
Definition shifted (n i : nat) : nat := (i + (n - n / 2)) mod n.
(** spacetime.py 70-85: a quantity of the transform by place, shifted, with the wavenumbers reversed. *)
Definition spectrum (NT NL : nat) (F : nat -> nat -> R) : list (list R) :=
  tabulate NT NL (fun i c => F (shifted NT i) (shifted NL (NL - 1 - c))).
(** spacetime.py 90-127: the place of spectrum [which] in the result.  If both numbers are even, line 124 copies the first row to the
    last for spectrum 0 only. *)
Definition framed (which NT NL : nat) (P : list (list R)) : list (list R) :=
  let rows := if Nat.odd NL then P else map (cons 0%R) P in
  let tall := if Nat.odd NT then rows
              else (rows ++ [if Nat.odd NL || (which =? 0) then nth 0 rows [] else repeat 0%R (NL + 1)])%list in
  if Nat.odd NL then tall else map (fun r => last r 0%R :: tl r) tall.
(** spacetime.py 52-127, [mjo_cross_segment].  [np.square(np.abs(z))] is the sum of the squares of both parts.  Arrays are nested
    lists; ragged ones do not exist in numpy.  No latitude gives NaN; arrays of different shapes of which an axis has length 1 are
    repeated by numpy: both are not modelled. *)
Definition mjo_cross_segment (XX YY : list (list (list R))) : res (list (list (list R))) :=
  let '(NT, NM, NL) := shape3 XX in
  let '(NT', NM', NL') := shape3 YY in
  if negb (regular NT NM NL XX) || negb (regular NT' NM' NL' YY) then Err NotModelled
  else if (NT =? 0) || (NT' =? 0) then Err ValueError
  else if (NM =? 0) || (NM' =? 0) then Err NotModelled
  else if (NL =? 0) || (NL' =? 0) then Err ValueError
  else if negb ((NT =? NT') && (NM =? NM') && (NL =? NL')) then
    Err (if existsb (Nat.eqb 1) [NT; NM; NL; NT'; NM'; NL'] then NotModelled else ValueError)
  else
    let X := fft2 NT NL XX in
    let Y := fft2 NT NL YY in
    let PX j r := average NM (fun m => let '(a, b) := X m j r in (a * a + b * b)%R) in
    let PY j r := average NM (fun m => let '(a, b) := Y m j r in (a * a + b * b)%R) in
    let CXY j r := average NM (fun m => let '(a, b) := X m j r in let '(c, d) := Y m j r in (c * a + d * b)%R) in
    let QXY j r := average NM (fun m => let '(a, b) := X m j r in let '(c, d) := Y m j r in (c * b - d * a)%R) in
    let nfreq := if Nat.odd NT then NT else NT + 1 in
    let nwave := if Nat.odd NL then NL else NL + 1 in
    Ok ([framed 0 NT NL (spectrum NT NL PX); framed 1 NT NL (spectrum NT NL PY);
         framed 2 NT NL (spectrum NT NL CXY); framed 3 NT NL (spectrum NT NL QXY)]
        ++ repeat (repeat (repeat 0%R nwave) nfreq) 4)%list.
