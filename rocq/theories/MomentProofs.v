(** Algebra of totals, means and co-deviations; Cauchy-Schwarz. *)
From Verif Require Import PyBase ColumnModel BaseSpec BaseProofs AggModel AggSpec AggProofs RealProofs Sl1l2Spec.
From Coq Require Import Qabs.

Section Tot.
Context {A : Type}.
Implicit Types (g h : A -> Q) (l : list A).

Lemma total_ext g h l : (forall x, In x l -> g x == h x) -> total_of g l == total_of h l.
Proof.
  intro H. unfold total_of. induction l as [|x t IH]; simpl; [reflexivity|].
  rewrite (H x (or_introl eq_refl)), IH; [reflexivity|]. intros; apply H; right; assumption.
Qed.
Lemma total_plus g h l : total_of (fun x => g x + h x) l == total_of g l + total_of h l.
Proof. unfold total_of. induction l as [|x t IH]; simpl; [ring|]. rewrite IH. ring. Qed.
Lemma total_minus g h l : total_of (fun x => g x - h x) l == total_of g l - total_of h l.
Proof. unfold total_of. induction l as [|x t IH]; simpl; [ring|]. rewrite IH. ring. Qed.
Lemma total_scale c g l : total_of (fun x => c * g x) l == c * total_of g l.
Proof. unfold total_of. induction l as [|x t IH]; simpl; [ring|]. rewrite IH. ring. Qed.
Lemma count_cons (x : A) l : count (x :: l) == 1 + count l.
Proof. unfold count. simpl length. rewrite Nat2Z.inj_succ, <- Z.add_1_l, inject_Z_plus. reflexivity. Qed.
Lemma total_const c l : total_of (fun _ => c) l == c * count l.
Proof.
  induction l as [|x t IH]; [unfold total_of, count; simpl; ring|].
  rewrite count_cons. unfold total_of in *. simpl. rewrite IH. ring.
Qed.
Lemma total_nonneg g l : (forall x, In x l -> 0 <= g x) -> 0 <= total_of g l.
Proof.
  intro H. apply qsum_nonneg. intros y Hy. apply in_map_iff in Hy. destruct Hy as [x [<- Hx]]. auto.
Qed.
Lemma total_le g h l : (forall x, In x l -> g x <= h x) -> total_of g l <= total_of h l.
Proof.
  intro H. enough (0 <= total_of (fun x => h x - g x) l) by (rewrite total_minus in *; lra).
  apply total_nonneg. intros x Hx. specialize (H x Hx). lra.
Qed.
Lemma mean_nonneg g l : l <> [] -> (forall x, In x l -> 0 <= g x) -> 0 <= mean_of g l.
Proof.
  intros Hl H. unfold mean_of. apply Qle_shift_div_l; [apply count_pos; exact Hl|].
  rewrite Qmult_0_l. apply total_nonneg. exact H.
Qed.

Lemma codev_alg g h l : l <> [] ->
  codev g h l == total_of (fun x => g x * h x) l - total_of g l * total_of h l / count l.
Proof.
  intro Hl. pose proof (count_pos l Hl) as P. unfold codev.
  set (a := mean_of g l). set (b := mean_of h l).
  assert (E : total_of (fun p => (g p - a) * (h p - b)) l ==
     total_of (fun x => g x * h x) l - a * total_of h l - b * total_of g l + a * b * count l).
  { rewrite <- (total_const (a * b)), <- !total_scale.
    rewrite <- !total_minus, <- total_plus. apply total_ext. intros; ring. }
  rewrite E. unfold a, b, mean_of. field. lra.
Qed.

Lemma codev_self_nonneg g l : 0 <= codev g g l.
Proof. unfold codev. apply total_nonneg. intros. apply Qsq_nonneg. Qed.

(** Cauchy-Schwarz. *)
Lemma cauchy_schwarz g h l :
  total_of (fun x => g x * h x) l * total_of (fun x => g x * h x) l
    <= total_of (fun x => g x * g x) l * total_of (fun x => h x * h x) l.
Proof.
  set (a := total_of (fun x => g x * g x) l). set (b := total_of (fun x => h x * h x) l).
  set (c := total_of (fun x => g x * h x) l).
  assert (Ha : 0 <= a) by (apply total_nonneg; intros; apply Qsq_nonneg).
  assert (Hb : 0 <= b) by (apply total_nonneg; intros; apply Qsq_nonneg).
  assert (E : total_of (fun x => (a * h x - c * g x) * (a * h x - c * g x)) l == a * (a * b - c * c)).
  { assert (E1 : total_of (fun x => (a * h x - c * g x) * (a * h x - c * g x)) l ==
       (a * a) * b - (2 * a * c) * c + (c * c) * a).
    { transitivity ((a * a) * total_of (fun x => h x * h x) l - (2 * a * c) * total_of (fun x => g x * h x) l
        + (c * c) * total_of (fun x => g x * g x) l); [|reflexivity].
      rewrite <- !total_scale. rewrite <- total_minus, <- total_plus. apply total_ext. intros; ring. }
    rewrite E1. ring. }
  assert (N : 0 <= total_of (fun x => (a * h x - c * g x) * (a * h x - c * g x)) l)
    by (apply total_nonneg; intros; apply Qsq_nonneg).
  rewrite E in N.
  destruct (Qlt_le_dec 0 a) as [Pa|Za].
  - destruct (Qlt_le_dec (a * b) (c * c)) as [K|K]; [|exact K].
    exfalso. assert (0 < a * (c * c - a * b)) by (apply Qmult_lt_0_compat; lra). lra.
  - assert (Z : a == 0) by lra.
    (* all g vanish *)
    assert (G : forall x, In x l -> g x * g x == 0).
    { intros x Hx. clear - Z Hx. unfold a in Z. clear a.
      assert (S : forall l', 0 <= total_of (fun x => g x * g x) l') by (intro; apply total_nonneg; intros; apply Qsq_nonneg).
      induction l as [|y t IH]; [contradiction|].
      unfold total_of in Z, S. simpl in Z. pose proof (S t) as St. pose proof (Qsq_nonneg (g y)).
      destruct Hx as [->|Hx]; [lra|]. apply IH; [unfold total_of; lra|exact Hx]. }
    assert (C : c == 0).
    { unfold c. rewrite (total_ext _ (fun _ => 0)); [rewrite total_const; ring|].
      intros x Hx. specialize (G x Hx). apply Qmult_integral in G. destruct G as [G|G]; rewrite G; ring. }
    rewrite C, Z. lra.
Qed.

Lemma codev_cs g h l : codev g h l * codev g h l <= codev g g l * codev h h l.
Proof. unfold codev. apply (cauchy_schwarz (fun p => g p - mean_of g l) (fun p => h p - mean_of h l) l). Qed.

(** Square of the mean is at most the mean of the square. *)
Lemma mean_sq g l : l <> [] -> mean_of g l * mean_of g l <= mean_of (fun x => g x * g x) l.
Proof.
  intro Hl. pose proof (count_pos l Hl) as P. pose proof (codev_self_nonneg g l) as N.
  rewrite (codev_alg g g l Hl) in N. unfold mean_of.
  apply (mult_le_reg _ _ (count l)); [exact P|].
  setoid_replace (total_of g l / count l * (total_of g l / count l) * count l)
    with (total_of g l * total_of g l / count l) by (field; lra).
  setoid_replace (total_of (fun x => g x * g x) l / count l * count l)
    with (total_of (fun x => g x * g x) l) by (field; lra).
  lra.
Qed.
End Tot.
