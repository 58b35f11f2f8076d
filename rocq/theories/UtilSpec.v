(** Specification of the general helpers. *)
From Coq Require Import Permutation Qabs Ascii.
From Verif Require Import PyBase BaseSpec EclvSpec.
Open Scope string_scope.

(** ** Combinations of fields *)
(** A choice of one position in every field. *)
Definition Choice {A : Type} (fields : list (list A)) (is_ : list nat) : Prop :=
  Forall2 (fun l i => (i < length l)%nat) fields is_.
(** The values at the chosen positions. *)
Definition Chosen {A : Type} (fields : list (list A)) (is_ : list nat) (vs : list A) : Prop :=
  Forall2 (fun li v => nth_error (fst li) (snd li) = Some v) (combine fields is_) vs /\
  length fields = length is_.
(** Rank of a choice when the first field varies fastest / when the last one does. *)
Fixpoint rank_first {A : Type} (fields : list (list A)) (is_ : list nat) : nat :=
  match fields, is_ with
  | l :: fs, i :: js => i + length l * rank_first fs js
  | _, _ => 0
  end.
Fixpoint count_choices {A : Type} (fields : list (list A)) : nat :=
  match fields with [] => 1 | l :: fs => length l * count_choices fs end.
Fixpoint rank_last {A : Type} (fields : list (list A)) (is_ : list nat) : nat :=
  match fields, is_ with
  | l :: fs, i :: js => i * count_choices fs + rank_last fs js
  | _, _ => 0
  end.

(** ** Distance from the perfect score *)
Definition farther (p a b : Q) : Prop := Qabs (b - p) < Qabs (a - p).
(** Statistics without a perfect score, with perfect score 0 and with perfect score 1. *)
Definition without_perfect_score : list string :=
  ["BASER"; "FMEAN"; "FBAR"; "FSTDEV"; "OBAR"; "OSTDEV"; "FRANK_TIES"; "ORANK_TIES"; "RANKS"; "VL1L2_FBAR";
   "VL1L2_OBAR"; "VL1L2_FSTDEV"; "VL1L2_OSTDEV"; "VL1L2_FOSTDEV"; "PSTD_BASER"; "PSTD_RESOLUTION";
   "PSTD_UNCERTAINTY"; "NBR_UFSS"; "NBR_F_RATE"; "NBR_O_RATE"; "NBR_BASER"; "NBR_FMEAN"].
Definition perfect_score_zero : list string :=
  ["POFD"; "FAR"; "MAE"; "MSE"; "BCMSE"; "RMSE"; "E10"; "E25"; "E50"; "E75"; "E90"; "EIQR"; "MAD"; "ME2"; "ME";
   "ESTDEV"; "ODDS"; "LODDS"; "VL1L2_MSE"; "VL1L2_RMSE"; "VL1L2_RMSVE"; "PSTD_BRIER"; "PSTD_RELIABILITY";
   "NBR_FBS"; "VL1L2_SPEED_ERR"; "NBR_POFD"; "NBR_FAR"; "NBR_ODDS"; "BCRMSE"; "ECNT_ME"; "ECNT_RMSE"; "CRPS";
   "ECNT_CRPS"; "ECNT_MAE"; "ECNT_MAE_OERR"; "ECNT_ME_GE_OBS"; "ECNT_ME_LT_OBS"].
Definition perfect_score_one : list string :=
  ["ACC"; "FBIAS"; "PODY"; "PODN"; "CSI"; "GSS"; "HK"; "HSS"; "ORSS"; "EDS"; "SEDS"; "EDI"; "SEDI"; "BAGSS";
   "PR_CORR"; "SP_CORR"; "KT_CORR"; "MBIAS"; "ANOM_CORR"; "ANOM_CORR_RAW"; "VL1L2_BIAS"; "VL1L2_CORR";
   "PSTD_BSS"; "PSTD_BSS_SMPL"; "NBR_FSS"; "NBR_AFSS"; "VAL1L2_ANOM_CORR"; "NBR_ACC"; "NBR_FBIAS"; "NBR_PODY";
   "PSTD_ROC_AUC"; "NBR_PODN"; "NBR_CSI"; "NBR_GSS"; "NBR_HK"; "NBR_HSS"; "ECNT_BIAS_RATIO"].
(** The name in capital letters. *)
Definition Capital (c d : ascii) : Prop :=
  let n := nat_of_ascii c in
  ((97 <= n <= 122)%nat -> nat_of_ascii d = (n - 32)%nat) /\ (~ (97 <= n <= 122)%nat -> d = c).
Definition Capitals (s t : string) : Prop :=
  Forall2 Capital (list_ascii_of_string s) (list_ascii_of_string t).

(** ** Derived curves *)
Definition operations : list string := ["DIFF"; "RATIO"; "SS"; "DIFF_SIG"; "SINGLE"; "ETB"].
(** A component of a point that names a derived series. *)
Definition DerivedName (c : string) : Prop :=
  exists op rest, In op operations /\ (c = op ++ "(" ++ rest \/ c = op ++ " (" ++ rest).
(** Element-wise combination of two series of the same length. *)
Definition Elementwise (f : Q -> Q -> Q) (a b r : list Q) : Prop :=
  length a = length r /\ length b = length r /\
  forall i x y, nth_error a i = Some x -> nth_error b i = Some y -> nth_error r i = Some (f x y).

(** ** Longitudes *)
(** [x] and [y] differ by a whole number of periods. *)
Definition Congruent (m x y : Q) : Prop := exists k : Z, y == x + inject_Z k * m.

(** When a derived value is undefined (other than for equivalence testing). *)
Definition NoDerivedValue (v1 v2 : option (list (option Q))) (op : string) : Prop :=
  v1 = None \/ v2 = None \/ (exists l, v1 = Some l /\ In None l) \/ (exists l, v2 = Some l /\ In None l) \/
  (exists l m, v1 = Some l /\ v2 = Some m /\ length l <> length m) \/
  (op = "RATIO" /\ exists l q, v2 = Some l /\ In (Some q) l /\ q == 0) \/
  (op = "SS" /\ exists l q, v1 = Some l /\ In (Some q) l /\ q == 0) \/
  ~ In op operations.
