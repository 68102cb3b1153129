(** Finite sums of reals over indices 0 .. n-1 (numpy sums of arrays of length n),
    and facts about them. *)
From Verif Require Import Base.
From Coq Require Import Reals Lra Permutation.
From Coquelicot Require Import Coquelicot.
Open Scope R_scope.

Fixpoint sumn (n : nat) (f : nat -> R) : R :=
  match n with O => 0 | S m => sumn m f + f m end.

(** [f] with entry [k] replaced by [v] *)
Definition upd (f : nat -> R) (k : nat) (v : R) : nat -> R :=
  fun i => if Nat.eqb i k then v else f i.

Lemma upd_same f k v : upd f k v k = v.
Proof. unfold upd. rewrite Nat.eqb_refl. reflexivity. Qed.
Lemma upd_other f k v i : i <> k -> upd f k v i = f i.
Proof. unfold upd. intros H. destruct (Nat.eqb_spec i k); [contradiction|reflexivity]. Qed.

Lemma sumn_ext n f g : (forall i, (i < n)%nat -> f i = g i) -> sumn n f = sumn n g.
Proof.
  induction n as [|n IH]; intros H; [reflexivity|]. cbn. rewrite IH by (intros i Hi; apply H; lia).
  rewrite (H n) by lia. reflexivity.
Qed.
Lemma sumn_plus n f g : sumn n (fun i => f i + g i) = sumn n f + sumn n g.
Proof. induction n as [|n IH]; cbn; [lra|]. rewrite IH. lra. Qed.
Lemma sumn_minus n f g : sumn n (fun i => f i - g i) = sumn n f - sumn n g.
Proof. induction n as [|n IH]; cbn; [lra|]. rewrite IH. lra. Qed.
Lemma sumn_scal n c f : sumn n (fun i => c * f i) = c * sumn n f.
Proof. induction n as [|n IH]; cbn; [lra|]. rewrite IH. lra. Qed.
Lemma sumn_scal_r n c f : sumn n (fun i => f i * c) = sumn n f * c.
Proof. induction n as [|n IH]; cbn; [lra|]. rewrite IH. lra. Qed.
Lemma sumn_zero n f : (forall i, (i < n)%nat -> f i = 0) -> sumn n f = 0.
Proof.
  induction n as [|n IH]; intros H; [reflexivity|]. cbn. rewrite IH by (intros i Hi; apply H; lia).
  rewrite (H n) by lia. lra.
Qed.
Lemma sumn_nonneg n f : (forall i, (i < n)%nat -> 0 <= f i) -> 0 <= sumn n f.
Proof.
  induction n as [|n IH]; intros H; cbn; [lra|]. pose proof (H n ltac:(lia)).
  pose proof (IH ltac:(intros i Hi; apply H; lia)). lra.
Qed.
Lemma sumn_le n f g : (forall i, (i < n)%nat -> f i <= g i) -> sumn n f <= sumn n g.
Proof.
  induction n as [|n IH]; intros H; cbn; [lra|]. pose proof (H n ltac:(lia)).
  pose proof (IH ltac:(intros i Hi; apply H; lia)). lra.
Qed.
Lemma sumn_term_le n f k : (forall i, (i < n)%nat -> 0 <= f i) -> (k < n)%nat -> f k <= sumn n f.
Proof.
  induction n as [|n IH]; intros H Hk; [lia|]. cbn.
  assert (0 <= sumn n f) by (apply sumn_nonneg; intros i Hi; apply H; lia).
  destruct (Nat.eq_dec k n) as [->|N]; [lra|].
  pose proof (IH ltac:(intros i Hi; apply H; lia) ltac:(lia)). pose proof (H n ltac:(lia)). lra.
Qed.
Lemma sumn_pos n f k : (forall i, (i < n)%nat -> 0 <= f i) -> (k < n)%nat -> 0 < f k -> 0 < sumn n f.
Proof. intros H Hk P. pose proof (sumn_term_le n f k H Hk). lra. Qed.
Lemma sumn_swap n m f : sumn n (fun i => sumn m (fun j => f i j)) = sumn m (fun j => sumn n (fun i => f i j)).
Proof.
  induction n as [|n IH]; cbn.
  - symmetry. apply sumn_zero. reflexivity.
  - rewrite IH. rewrite <- sumn_plus. reflexivity.
Qed.
Lemma sumn_prod n m f g : sumn n f * sumn m g = sumn n (fun i => sumn m (fun j => f i * g j)).
Proof.
  rewrite <- sumn_scal_r. apply sumn_ext. intros i _. rewrite sumn_scal. reflexivity.
Qed.
Lemma sumn_abs n f : Rabs (sumn n f) <= sumn n (fun i => Rabs (f i)).
Proof.
  induction n as [|n IH]; cbn; [rewrite Rabs_R0; lra|].
  eapply Rle_trans; [apply Rabs_triang|]. lra.
Qed.
Lemma sumn_upd n f k v g : (k < n)%nat ->
  sumn n (fun i => upd f k v i * g i) = sumn n (fun i => f i * g i) + (v - f k) * g k.
Proof.
  induction n as [|n IH]; intros Hk; [lia|]. cbn. destruct (Nat.eq_dec k n) as [->|N].
  - rewrite upd_same. rewrite (sumn_ext n _ (fun i => f i * g i)); [lra|].
    intros i Hi. rewrite upd_other by lia. reflexivity.
  - rewrite IH by lia. rewrite (upd_other f k v n) by lia. lra.
Qed.
Lemma sumn_delta n k c : (k < n)%nat -> sumn n (fun i => if Nat.eqb i k then c else 0) = c.
Proof.
  induction n as [|n IH]; intros Hk; [lia|]. cbn. destruct (Nat.eqb_spec n k) as [->|N].
  - rewrite sumn_zero; [lra|]. intros i Hi. destruct (Nat.eqb_spec i k); [lia|reflexivity].
  - rewrite IH by lia. lra.
Qed.

Lemma sumn_list n f : sumn n f = fold_right Rplus 0 (map f (seq 0 n)).
Proof.
  induction n as [|n IH]; [reflexivity|]. rewrite seq_S, map_app, fold_right_app. cbn. rewrite IH.
  generalize (map f (seq 0 n)). intros l. generalize (f n). intros c.
  induction l as [|x l IHl]; cbn; [lra|]. rewrite <- IHl. lra.
Qed.
Lemma rsum_perm l l' : Permutation l l' -> fold_right Rplus 0 l = fold_right Rplus 0 l'.
Proof. induction 1; cbn; lra. Qed.

(** A relabelling of the indices below [n] *)
Definition relabelling (n : nat) (s : nat -> nat) : Prop :=
  (forall i, (i < n)%nat -> (s i < n)%nat) /\
  (forall i j, (i < n)%nat -> (j < n)%nat -> s i = s j -> i = j).

Lemma relabelling_perm n s : relabelling n s -> Permutation (map s (seq 0 n)) (seq 0 n).
Proof.
  intros [B I]. apply NoDup_Permutation_bis.
  - apply NoDup_nth_error. intros i j Hi E. rewrite map_length, seq_length in Hi.
    assert (N : forall k, (k < n)%nat -> nth_error (map s (seq 0 n)) k = Some (s k)).
    { intros k Hk. rewrite nth_error_map. rewrite (nth_error_nth' _ O) by (rewrite seq_length; exact Hk).
      rewrite seq_nth by exact Hk. reflexivity. }
    rewrite (N i Hi) in E. destruct (lt_dec j n) as [L|L].
    + rewrite (N j L) in E. injection E as E. apply I; assumption.
    + assert (nth_error (map s (seq 0 n)) j = None) as X.
      { apply nth_error_None. rewrite map_length, seq_length. lia. } rewrite X in E. discriminate.
  - rewrite map_length. apply Nat.le_refl.
  - intros x Hx. apply in_map_iff in Hx. destruct Hx as [y [<- Hy]]. apply in_seq in Hy. apply in_seq.
    pose proof (B y ltac:(lia)). lia.
Qed.
Lemma relabelling_onto n s j : relabelling n s -> (j < n)%nat -> exists i, (i < n)%nat /\ s i = j.
Proof.
  intros H Hj. assert (X : In j (map s (seq 0 n))).
  { apply (Permutation_in (l := seq 0 n)); [symmetry; apply relabelling_perm; exact H|apply in_seq; lia]. }
  apply in_map_iff in X. destruct X as [i [E Hi]]. apply in_seq in Hi. exists i. split; [lia|exact E].
Qed.

Lemma sumn_perm n s f : relabelling n s -> sumn n (fun i => f (s i)) = sumn n f.
Proof.
  intros H. rewrite !sumn_list. rewrite <- (map_map s f). apply rsum_perm. apply Permutation_map.
  apply relabelling_perm; exact H.
Qed.

Lemma is_derive_sumn n (f : nat -> R -> R) (d : nat -> R) x :
  (forall i, (i < n)%nat -> is_derive (f i) x (d i)) ->
  is_derive (fun t => sumn n (fun i => f i t)) x (sumn n d).
Proof.
  induction n as [|n IH]; intros H; cbn.
  - apply is_derive_ext with (fun _ => 0); [reflexivity|]. apply (is_derive_const 0 x).
  - apply (is_derive_plus (fun t => sumn n (fun i => f i t)) (f n)).
    + apply IH. intros i Hi. apply H; lia.
    + apply H; lia.
Qed.
