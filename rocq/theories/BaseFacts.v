(** Facts about the shared vocabulary. *)
From Verif Require Import Base.

Lemma dget_dset_same {A} (d : dict A) k v : dget (dset d k v) k = Some v.
Proof.
  induction d as [|[k' v'] d IH]; cbn.
  - rewrite String.eqb_refl; reflexivity.
  - destruct (String.eqb k k') eqn:E; cbn; rewrite E; [reflexivity|exact IH].
Qed.

Lemma dget_dset_other {A} (d : dict A) k k' v :
  k <> k' -> dget (dset d k v) k' = dget d k'.
Proof.
  intros Hn. induction d as [|[a b] d IH]; cbn.
  - destruct (String.eqb_spec k' k); [congruence|reflexivity].
  - destruct (String.eqb_spec k a); cbn.
    + subst. destruct (String.eqb_spec k' a); [congruence|reflexivity].
    + destruct (String.eqb_spec k' a); [reflexivity|exact IH].
Qed.

Lemma dget_ddel_same {A} (d : dict A) k : dget (ddel d k) k = None.
Proof.
  induction d as [|[a b] d IH]; cbn; [reflexivity|].
  destruct (String.eqb k a) eqn:E; cbn; [exact IH|rewrite E; exact IH].
Qed.

Lemma dget_ddel_other {A} (d : dict A) k k' :
  k <> k' -> dget (ddel d k) k' = dget d k'.
Proof.
  intros Hn. induction d as [|[a b] d IH]; cbn; [reflexivity|].
  destruct (String.eqb_spec k a); cbn.
  - subst. rewrite IH. destruct (String.eqb_spec k' a); [congruence|reflexivity].
  - destruct (String.eqb_spec k' a); [reflexivity|exact IH].
Qed.

Lemma smem_In x l : smem x l = true <-> In x l.
Proof.
  unfold smem. rewrite existsb_exists. split.
  - intros [y [Hy E]]. apply String.eqb_eq in E. subst; exact Hy.
  - intros H; exists x; split; [exact H|apply String.eqb_refl].
Qed.

Lemma smem_nIn x l : smem x l = false <-> ~ In x l.
Proof.
  rewrite <- smem_In. destruct (smem x l); split; intros; congruence.
Qed.

Lemma dmem_dget {A} (d : dict A) k : dmem d k = true <-> exists v, dget d k = Some v.
Proof.
  unfold dmem. destruct (dget d k) as [v|]; split; intros H.
  - exists v; reflexivity.
  - reflexivity.
  - discriminate.
  - destruct H; discriminate.
Qed.

Lemma dget_In {A} (d : dict A) k v : dget d k = Some v -> In (k, v) d.
Proof.
  induction d as [|[a b] d IH]; cbn; [discriminate|].
  destruct (String.eqb_spec k a); intros H.
  - injection H as <-. subst; left; reflexivity.
  - right; apply IH, H.
Qed.

Lemma dget_None {A} (d : dict A) k : dget d k = None <-> ~ In k (dkeys d).
Proof.
  induction d as [|[a b] d IH]; cbn.
  - split; [tauto|reflexivity].
  - destruct (String.eqb_spec k a) as [->|Hn]; split; intros H.
    + discriminate.
    + exfalso; apply H; left; reflexivity.
    + intros [E|Hi]; [congruence|]. apply IH in H; tauto.
    + apply IH; tauto.
Qed.

Lemma In_dget {A} (d : dict A) k v :
  NoDup (dkeys d) -> In (k, v) d -> dget d k = Some v.
Proof.
  induction d as [|[a b] d IH]; cbn; [tauto|].
  intros Hnd [E|Hi]; inversion Hnd as [|? ? Hna Hnd']; subst.
  - injection E as -> ->. rewrite String.eqb_refl; reflexivity.
  - destruct (String.eqb_spec k a) as [->|Hn].
    + exfalso; apply Hna. change a with (fst (a, v)). apply in_map, Hi.
    + apply IH; assumption.
Qed.

Lemma dkeys_dset {A} (d : dict A) k v x :
  In x (dkeys (dset d k v)) <-> x = k \/ In x (dkeys d).
Proof.
  induction d as [|[a b] d IH]; cbn.
  - intuition congruence.
  - destruct (String.eqb_spec k a) as [->|Hn]; cbn.
    + intuition congruence.
    + rewrite IH. intuition congruence.
Qed.

Lemma NoDup_dset {A} (d : dict A) k v : NoDup (dkeys d) -> NoDup (dkeys (dset d k v)).
Proof.
  induction d as [|[a b] d IH]; cbn; intros H.
  - constructor; [intros []|constructor].
  - inversion H as [|? ? Hna Hnd]; subst.
    destruct (String.eqb_spec k a) as [->|Hn]; cbn.
    + constructor; assumption.
    + constructor; [|apply IH; exact Hnd].
      intros Hi; apply dkeys_dset in Hi. destruct Hi as [E|Hi]; [congruence|tauto].
Qed.

Lemma mapM_length {A B} (f : A -> result B) l ys :
  mapM f l = Ok ys -> length ys = length l.
Proof.
  revert ys; induction l as [|x xs IH]; cbn; intros ys H.
  - injection H as <-; reflexivity.
  - destruct (f x) as [y|e]; cbn in H; [|discriminate].
    destruct (mapM f xs) as [zs|e]; cbn in H; [|discriminate].
    injection H as <-. cbn. f_equal. apply IH; reflexivity.
Qed.

Lemma mapM_Forall2 {A B} (f : A -> result B) l ys :
  mapM f l = Ok ys <-> Forall2 (fun x y => f x = Ok y) l ys.
Proof.
  revert ys; induction l as [|x xs IH]; cbn; intros ys; split; intros H.
  - injection H as <-; constructor.
  - inversion H; reflexivity.
  - destruct (f x) as [y|e] eqn:Ef; cbn in H; [|discriminate].
    destruct (mapM f xs) as [zs|e] eqn:Em; cbn in H; [|discriminate].
    injection H as <-. constructor; [exact Ef|]. apply IH; reflexivity.
  - inversion H as [|? y ? zs Hy Hz]; subst. rewrite Hy; cbn.
    apply IH in Hz. rewrite Hz; reflexivity.
Qed.

Lemma mapM_ext {A B} (f g : A -> result B) l : (forall x, In x l -> f x = g x) -> mapM f l = mapM g l.
Proof.
  induction l as [|x xs IH]; intros H; [reflexivity|]. cbn. rewrite (H x) by (left; reflexivity).
  rewrite IH by (intros y Hy; apply H; right; exact Hy). reflexivity.
Qed.
