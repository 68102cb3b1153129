(** Facts about the extended rationals. *)
From Verif Require Import Base Num.
From Coq Require Import Lqa.

Lemma Qle_bool_false x y : Qle_bool x y = false <-> (y < x)%Q.
Proof.
  split; intros H.
  - apply Qnot_le_lt. intros Hc. apply Qle_bool_iff in Hc. congruence.
  - destruct (Qle_bool x y) eqn:E; [|reflexivity].
    apply Qle_bool_iff in E. apply Qle_not_lt in E. tauto.
Qed.

Lemma nlt_fin x y : nlt (Fin x) (Fin y) = true <-> (x < y)%Q.
Proof. cbn. rewrite negb_true_iff. apply Qle_bool_false. Qed.

Lemma nlt_fin_false x y : nlt (Fin x) (Fin y) = false <-> (y <= x)%Q.
Proof. cbn. rewrite negb_false_iff. apply Qle_bool_iff. Qed.

Lemma nle_fin x y : nle (Fin x) (Fin y) = true <-> (x <= y)%Q.
Proof. cbn. apply Qle_bool_iff. Qed.

Lemma nle_fin_false x y : nle (Fin x) (Fin y) = false <-> (y < x)%Q.
Proof. cbn. apply Qle_bool_false. Qed.

Ltac num_case := 
  repeat match goal with
  | a : num |- _ => destruct a
  end.

Ltac qb :=
  repeat match goal with
  | H : Qle_bool _ _ = true |- _ => apply Qle_bool_iff in H
  | H : Qle_bool _ _ = false |- _ => apply Qle_bool_false in H
  | H : negb _ = true |- _ => apply negb_true_iff in H
  | H : negb _ = false |- _ => apply negb_false_iff in H
  | |- Qle_bool _ _ = true => apply Qle_bool_iff
  | |- Qle_bool _ _ = false => apply Qle_bool_false
  | |- negb _ = true => apply negb_true_iff
  | |- negb _ = false => apply negb_false_iff
  end.

Lemma nle_refl a : a <> NaN -> nle a a = true.
Proof. destruct a; cbn; intros; try congruence. apply Qle_bool_iff; lra. Qed.

Lemma nle_trans a b c : nle a b = true -> nle b c = true -> nle a c = true.
Proof. destruct a, b, c; cbn; intros; try discriminate; qb; try reflexivity; lra. Qed.

Lemma nlt_le a b : nlt a b = true -> nle a b = true.
Proof. destruct a, b; cbn; intros; try discriminate; qb; try reflexivity; lra. Qed.

Lemma nlt_nle_trans a b c : nlt a b = true -> nle b c = true -> nlt a c = true.
Proof. destruct a, b, c; cbn; intros; try discriminate; qb; try reflexivity; lra. Qed.

Lemma nle_nlt_trans a b c : nle a b = true -> nlt b c = true -> nlt a c = true.
Proof. destruct a, b, c; cbn; intros; try discriminate; qb; try reflexivity; lra. Qed.

Lemma nlt_irrefl a : nlt a a = false.
Proof. destruct a; cbn; try reflexivity. qb; lra. Qed.

Lemma nlt_asym a b : nlt a b = true -> nlt b a = false.
Proof. destruct a, b; cbn; intros; try discriminate; qb; try reflexivity; lra. Qed.

Lemma nlt_false_nle a b : a <> NaN -> b <> NaN -> nlt a b = false -> nle b a = true.
Proof. destruct a, b; cbn; intros; try congruence; qb; try reflexivity; lra. Qed.

Lemma nle_not_nan a b : nle a b = true -> a <> NaN /\ b <> NaN.
Proof. destruct a, b; cbn; intros; split; congruence. Qed.

Lemma nlt_not_nan a b : nlt a b = true -> a <> NaN /\ b <> NaN.
Proof. destruct a, b; cbn; intros; split; congruence. Qed.

Lemma nle_antisym_eq a b : nle a b = true -> nle b a = true -> neqb a b = true.
Proof.
  destruct a, b; cbn; intros; try discriminate; try reflexivity; qb.
  apply Qeq_bool_iff; lra.
Qed.
