(** Correlations. *)
From Coq Require Import Reals String List Sorting.Sorted Sorting.Permutation.
From Verif Require Import PyBase ActivitySpec CorrModel CorrSpec CorrProofs.
Import ListNotations.
Open Scope nat_scope.

(** ** C87: the correlation of two series *)

(** The number of pairs and their correlation, between -1 and 1; missing exactly if one of the series does not vary. *)
Theorem C87_pearson : forall ppf x y tail t, corr ppf x y tail "pearson" = Ok t ->
  let a := map fst (Pairs x y) in let b := map snd (Pairs x y) in
  t_n t = Z.of_nat (List.length (Pairs x y)) /\
  (t_r t = None <-> AllSame a \/ AllSame b) /\
  (forall r, t_r t = Some r -> Correlation a b r /\ (-1 <= r <= 1)%R).
Proof. exact C87_pearson_proof. Qed.
Print Assumptions C87_pearson.

Example C87_pearson_case : exists t, corr (fun _ => (-2)%R) [Some 1; Some 2; None; Some 4]%R [Some 3; Some 5; Some 7; Some 1]%R "two-sided" "pearson" = Ok t.
Proof. exact C87_pearson_case_proof. Qed.

(** The order of the series does not matter. *)
Theorem C87_symmetric : forall ppf x y tail method, corr ppf x y tail method = corr ppf y x tail method.
Proof. exact C87_symmetric_proof. Qed.
Print Assumptions C87_symmetric.

(** Neither do units: zero and length of a degree. *)
Theorem C87_units : forall ppf x y tail method a b, (0 < a)%R ->
  corr ppf (map (option_map (fun v => a * v + b)%R) x) y tail method = corr ppf x y tail method.
Proof. exact C87_units_proof. Qed.
Print Assumptions C87_units.

(** The other sign of a series turns the sign of the correlation and the interval. *)
Theorem C87_sign : forall ppf x y tail method,
  match corr ppf x y tail method, corr ppf (map (option_map Ropp) x) y tail method with
  | Ok t, Ok t' => t_n t' = t_n t /\ Opposite (t_r t) (t_r t') /\ t_r2 t' = t_r2 t /\ t_adj t' = t_adj t /\
      Opposite (fst (t_ci t)) (snd (t_ci t')) /\ Opposite (snd (t_ci t)) (fst (t_ci t'))
  | Err e, Err e' => e' = e
  | _, _ => False
  end.
Proof. exact C87_sign_proof. Qed.
Print Assumptions C87_sign.

(** A series has the correlation 1 with itself. *)
Theorem C87_self : forall ppf x tail method t r, corr ppf x x tail method = Ok t -> t_r t = Some r -> r = 1%R.
Proof. exact C87_self_proof. Qed.
Print Assumptions C87_self.

Example C87_self_case : exists t r, corr (fun _ => (-2)%R) [Some 1; Some 2; Some 4]%R [Some 1; Some 2; Some 4]%R "two-sided" "pearson" = Ok t /\ t_r t = Some r.
Proof. exact C87_self_case_proof. Qed.

(** A pair with a missing value changes nothing. *)
Theorem C87_missing : forall ppf x1 x2 y1 y2 a b tail method, a = None \/ b = None ->
  List.length x1 = List.length y1 -> 2 <= List.length (x1 ++ x2) ->
  corr ppf (x1 ++ a :: x2) (y1 ++ b :: y2) tail method = corr ppf (x1 ++ x2) (y1 ++ y2) tail method.
Proof. exact C87_missing_proof. Qed.
Print Assumptions C87_missing.

(** The square of the correlation, and the adjusted square below it. *)
Theorem C87_squares : forall ppf x y tail method t, corr ppf x y tail method = Ok t ->
  match t_r t with
  | None => t_r2 t = None /\ t_adj t = None
  | Some r => t_r2 t = Some (r ^ 2)%R /\ (-1 <= r <= 1)%R /\ (t_adj t = None <-> t_n t = 3%Z) /\
      ((3 < t_n t)%Z -> exists adj, t_adj t = Some adj /\ (adj <= r ^ 2)%R /\ (adj = r ^ 2 <-> r ^ 2 = 1)%R)
  end.
Proof. exact C87_squares_proof. Qed.
Print Assumptions C87_squares.

(** Series of different or too short length and unknown tails raise AssertionError, unknown methods ValueError; so do fewer
    than two complete pairs for Pearson; no complete pair raises IndexError for the percentage bend. *)
Theorem C87_exceptions : forall ppf x y tail method, let n := List.length (Pairs x y) in
  (corr ppf x y tail method = Err AssertionError <->
     List.length x <> List.length y \/ ~ In tail ["two-sided"; "one-sided"]%string \/ List.length x <= 1) /\
  (List.length x = List.length y -> In tail ["two-sided"; "one-sided"]%string -> 2 <= List.length x ->
     (corr ppf x y tail method = Err ValueError <->
        (method = "pearson"%string /\ n < 2) \/ ~ In method ["pearson"; "spearman"; "kendall"; "bicor"; "percbend"; "shepherd"]%string) /\
     (corr ppf x y tail method = Err IndexError <-> method = "percbend"%string /\ n = 0) /\
     (In method ["pearson"; "bicor"; "percbend"]%string -> 2 <= n -> exists t, corr ppf x y tail method = Ok t)) /\
  (forall e, corr ppf x y tail method = Err e ->
     In e [AssertionError; ValueError; IndexError] \/ (e = NotModelled /\ In method ["spearman"; "kendall"; "shepherd"]%string)).
Proof. exact C87_exceptions_proof. Qed.
Print Assumptions C87_exceptions.

(** ** C88: biweight midcorrelation *)

(** It is the correlation of the weighted deviations, between -1 and 1, and defined exactly if in both series the median
    distance from the median is not 0. *)
Theorem C88_bicor : forall x y, List.length x = List.length y -> exists c, bicor x y = Ok c /\
  (forall r, c = Some r -> exists xn yn, Biweighted x xn /\ Biweighted y yn /\ Cosine xn yn r /\ (-1 <= r <= 1)%R) /\
  (c <> None <-> (exists m d, Center x m d /\ (0 < d)%R) /\ (exists m d, Center y m d /\ (0 < d)%R)).
Proof. exact C88_bicor_proof. Qed.
Print Assumptions C88_bicor.

Example C88_bicor_case : Center [1; 2; 4]%R 2 1 /\ (0 < 1)%R.
Proof. exact C88_bicor_case_proof. Qed.

(** How far out an outlier is does not matter: values nine median distances or more above the median may lie anywhere
    there, and those below likewise. *)
Theorem C88_outliers : forall x x' y m d, Center x m d -> (0 < d)%R ->
  Forall2 (fun v v' => v' = v \/ (m + 9 * d <= v /\ m + 9 * d <= v')%R \/ (v <= m - 9 * d /\ v' <= m - 9 * d)%R) x x' ->
  bicor x' y = bicor x y.
Proof. exact C88_outliers_proof. Qed.
Print Assumptions C88_outliers.

Example C88_outliers_case : Center [1; 2; 4; 3; 50]%R 3 1 /\
  Forall2 (fun v v' => v' = v \/ (3 + 9 * 1 <= v /\ 3 + 9 * 1 <= v')%R \/ (v <= 3 - 9 * 1 /\ v' <= 3 - 9 * 1)%R) [1; 2; 4; 3; 50]%R [1; 2; 4; 3; 5000]%R.
Proof. exact C88_outliers_case_proof. Qed.

(** ** C89: percentage bend correlation *)

(** If a value in four fifths is away from the median it is the correlation of the bent deviations, between -1 and 1. *)
Theorem C89_percbend : forall x y r, 2 <= List.length x -> percbend x y = Ok (Some r) ->
  (-1 <= r <= 1)%R /\
  forall m w m' w', Reach x m w -> Reach y m' w' -> (0 < w)%R -> (0 < w')%R ->
    exists a b, Bent x a /\ Bent y b /\ Cosine a b r.
Proof. exact C89_percbend_proof. Qed.
Print Assumptions C89_percbend.

Example C89_percbend_case : Reach [1; 2; 4; 8; 16]%R 4 4 /\ exists r, percbend [1; 2; 4; 8; 16]%R [1; 2; 4; 8; 16]%R = Ok (Some r).
Proof. exact C89_percbend_case_proof. Qed.

(** Otherwise it should be missing; it is not. *)
Theorem C89_equal_refuted : ~ forall x y r m w, List.length x = List.length y -> 2 <= List.length x -> Reach x m w ->
  percbend x y = Ok (Some r) -> (0 < w)%R.
Proof. exact C89_equal_refuted_proof. Qed.
Print Assumptions C89_equal_refuted.

(** ** C90: confidence intervals *)

(** The interval of a correlation lies between -1 and 1, has the correlation inside, gets narrower with more pairs, and
    turns with the sign. *)
Theorem C90_correlation : forall ppf tppf r n ny paired eftype conf, In eftype ["r"; "pearson"; "spearman"]%string ->
  (0 < conf < 1)%R -> (forall q, 0 < q < 1 / 2 -> ppf q < 0)%R -> (-1 < r < 1)%R -> (3 < n)%Z ->
  exists lo hi, compute_esci ppf tppf r n ny paired eftype conf = Ok (Some lo, Some hi) /\
    (-1 < lo < r)%R /\ (r < hi < 1)%R /\
    compute_esci ppf tppf (- r) n ny paired eftype conf = Ok (Some (- hi), Some (- lo))%R /\
    (forall n', (n < n')%Z -> exists lo' hi', compute_esci ppf tppf r n' ny paired eftype conf = Ok (Some lo', Some hi') /\ (lo < lo')%R /\ (hi' < hi)%R).
Proof. exact C90_correlation_proof. Qed.
Print Assumptions C90_correlation.

Example C90_correlation_case : (forall q, 0 < q < 1 / 2 -> (fun q => q - 1 / 2)%R q < 0)%R.
Proof. exact C90_correlation_case_proof. Qed.

(** On the scale of Fisher's transform the interval reaches the quantile over the root of n - 3 to both sides. *)
Theorem C90_fisher : forall ppf tppf r n ny paired conf, (0 < conf < 1)%R -> (-1 < r < 1)%R -> (3 < n)%Z ->
  exists lo hi, compute_esci ppf tppf r n ny paired "r" conf = Ok (Some lo, Some hi) /\
    let half := (Rabs (ppf ((1 - conf) / 2)) / sqrt (IZR (n - 3)))%R in
    exists z, r = tanh z /\ lo = tanh (z - half) /\ hi = tanh (z + half).
Proof. exact C90_fisher_proof. Qed.
Print Assumptions C90_fisher.

(** The interval of a difference has the difference in its middle. *)
Theorem C90_cohen : forall ppf tppf d n ny paired eftype conf ci, In eftype ["cohen"; "d"; "g"; "hedges"]%string ->
  (0 < conf < 1)%R -> compute_esci ppf tppf d n ny paired eftype conf = Ok ci ->
  exists half, ci = (Some (d - half), Some (d + half))%R /\ (0 <= half)%R /\
    (ny = Some 1%Z \/ paired = true -> (half ^ 2 = (tppf ((1 - conf) / 2) (n - 1)%Z) ^ 2 * (1 / IZR n + d ^ 2 / (2 * IZR n)))%R) /\
    (forall m, ny = Some m -> m <> 1%Z -> paired = false ->
       (half ^ 2 = (tppf ((1 - conf) / 2) (n + m - 2)%Z) ^ 2 * (1 / IZR n + 1 / IZR m + d ^ 2 / (2 * IZR (n + m))))%R).
Proof. exact C90_cohen_proof. Qed.
Print Assumptions C90_cohen.

Example C90_cohen_case : exists ci, compute_esci (fun _ => 0%R) (fun _ _ => 2%R) 1 20 (Some 20%Z) false "cohen" (1 / 2) = Ok ci.
Proof. exact C90_cohen_case_proof. Qed.

(** Unknown kinds of effect and confidences outside of 0 to 1 raise AssertionError, a missing second size TypeError. *)
Theorem C90_exceptions : forall ppf tppf d n ny paired eftype conf,
  (compute_esci ppf tppf d n ny paired eftype conf = Err AssertionError <->
     ~ In eftype ["r"; "pearson"; "spearman"; "cohen"; "d"; "g"; "hedges"]%string \/ ~ (0 < conf < 1)%R) /\
  (In eftype ["cohen"; "d"; "g"; "hedges"]%string -> (0 < conf < 1)%R -> (0 < n)%Z ->
     (compute_esci ppf tppf d n ny paired eftype conf = Err TypeError <-> ny = None /\ paired = false)).
Proof. exact C90_exceptions_proof. Qed.
Print Assumptions C90_exceptions.
