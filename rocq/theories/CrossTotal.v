(** When the matrices of pair parameters can be built: proofs. *)
From Coq Require Import Lia.
From Verif Require Import Base BaseFacts EosToolboxModel EosToolboxSpec EosToolboxProofs.
Open Scope string_scope.

Lemma foldM_total {A B} (f : B -> A -> result B) l acc :
  (forall acc x, In x l -> exists acc', f acc x = Ok acc') -> exists out, foldM f acc l = Ok out.
Proof.
  revert acc. induction l as [|x l IH]; intros acc H; cbn; [eauto|].
  destruct (H acc x (or_introl eq_refl)) as [acc' ->]. cbn [rbind]. apply IH. intros a y Hy. apply H. right; exact Hy.
Qed.
Lemma foldM_error {A B} (f : B -> A -> result B) l acc e : foldM f acc l = Err e -> exists acc' x, In x l /\ f acc' x = Err e.
Proof.
  revert acc. induction l as [|x l IH]; intros acc; cbn; [discriminate|]. destruct (f acc x) as [acc'|e'] eqn:E; cbn [rbind]; intros H.
  - destruct (IH _ H) as [a [y [Y1 Y2]]]. eauto.
  - injection H as ->. eauto.
Qed.
Lemma foldM_each {A B} (f : B -> A -> result B) l acc out : foldM f acc l = Ok out -> forall x, In x l -> exists a a', f a x = Ok a'.
Proof.
  revert acc. induction l as [|y l IH]; intros acc H x Hx; [destruct Hx|]. cbn in H. destruct (f acc y) as [acc'|] eqn:E; cbn [rbind] in H; [|discriminate].
  destruct Hx as [->|Hx]; [eauto|exact (IH _ H x Hx)].
Qed.

Section Cross.
  Context {V : Type} (zero : V) (rule : string -> dict V -> dict V -> result (dict V)).
  Hypothesis single : forall key a b out, rule key a b = Ok out -> out = [] \/ exists v, out = [(key, v)].
  Variables (beads : list string) (lib : dict (dict V)) (keys : list string) (cl : dict (dict (dict (option V)))).

  (** every bead has every parameter *)
  Definition all_known : Prop := forall key b, In key keys -> In b beads -> bead_value lib b key <> None.
  (** the pair has a value of its own, or one can be combined *)
  Definition obtainable (key bi bj : string) : Prop :=
    (exists v, given cl bi bj key v) \/ exists d1 d2 out, dget lib bi = Some d1 /\ dget lib bj = Some d2 /\ rule key d1 d2 = Ok out.
  Definition all_obtainable : Prop :=
    forall key i j bi bj, In key keys -> i < j -> nth_error beads i = Some bi -> nth_error beads j = Some bj -> obtainable key bi bj.

  Lemma pair_entry_ok key i j bi bj m : In key keys -> nth_error beads i = Some bi -> nth_error beads j = Some bj ->
    ((exists m', pair_entry V rule beads lib keys cl i j m key = Ok m') <-> obtainable key bi bj) /\
    (forall e, pair_entry V rule beads lib keys cl i j m key = Err e -> e = ValueError).
  Proof.
    intros Hk Bi Bj. unfold pair_entry. rewrite Bi, Bj.
    destruct (cross_get cl bi bj key) as [v|] eqn:E1; cbn [rbind].
    { split; [|discriminate]. split; [|eauto]. intros _. left. exists v. left. apply cross_get_entry. exact E1. }
    destruct (cross_get cl bj bi key) as [v|] eqn:E2; cbn [rbind].
    { split; [|discriminate]. split; [|eauto]. intros _. left. exists v. right. split; [apply cross_get_none; exact E1|apply cross_get_entry; exact E2]. }
    assert (NG : ~ exists v, given cl bi bj key v).
    { intros [v [G|[_ G]]]; apply cross_get_entry in G; congruence. }
    unfold dfetch. destruct (dget lib bi) as [d1|] eqn:D1; cbn [rbind].
    2: { split; [|congruence]. split; [intros [m' H]; discriminate|]. intros [G|[d1 [d2 [out [H _]]]]]; [contradiction|congruence]. }
    destruct (dget lib bj) as [d2|] eqn:D2; cbn [rbind].
    2: { split; [|congruence]. split; [intros [m' H]; discriminate|]. intros [G|[d1' [d2 [out [_ [H _]]]]]]; [contradiction|congruence]. }
    destruct (rule key d1 d2) as [out|e] eqn:Ru; cbn [rbind].
    2: { split; [|congruence]. split; [intros [m' H]; discriminate|]. intros [G|[d1' [d2' [out [H1 [H2 H3]]]]]]; [contradiction|].
         replace d1' with d1 in H3 by congruence. replace d2' with d2 in H3 by congruence. congruence. }
    assert (W : exists m1, foldM (write_rule V keys i j) m out = Ok m1).
    { destruct (single _ _ _ _ Ru) as [->|[v ->]]; cbn; [eauto|]. unfold write_rule. cbn [fst snd].
      replace (smem key keys) with true by (symmetry; apply smem_In; exact Hk). cbn [rbind]. eauto. }
    destruct W as [m1 ->]. cbn [rbind]. split; [|discriminate]. split; [|eauto]. intros _. right. exists d1, d2, out. auto.
  Qed.

  Lemma diagonals_total : all_known -> exists m, set_diagonals V zero beads lib keys = Ok m.
  Proof.
    intros H. unfold set_diagonals. apply foldM_total. intros m key Hk. apply foldM_total. intros m' k Hi. apply in_seq in Hi.
    unfold diag_entry. destruct (nth_error beads k) as [b|] eqn:B; [|apply nth_error_None in B; lia].
    pose proof (H key b Hk (nth_error_In _ _ B)) as N. unfold bead_value, dfetch in *. destruct (dget lib b) as [d|]; [|congruence].
    cbn [rbind]. destruct (dget d key) as [v|]; [|congruence]. cbn [rbind]. eauto.
  Qed.
  Lemma diagonals_error e : set_diagonals V zero beads lib keys = Err e ->
    e = KeyError /\ exists key b, In key keys /\ In b beads /\ bead_value lib b key = None.
  Proof.
    unfold set_diagonals. intros H. destruct (foldM_error _ _ _ _ H) as [m [key [Hk H1]]]. destruct (foldM_error _ _ _ _ H1) as [m' [k [Hi H2]]].
    apply in_seq in Hi. unfold diag_entry in H2. destruct (nth_error beads k) as [b|] eqn:B; [|apply nth_error_None in B; lia].
    unfold dfetch in H2. pose proof (nth_error_In _ _ B) as Hb. unfold bead_value.
    destruct (dget lib b) as [d|] eqn:D; cbn [rbind] in H2.
    - destruct (dget d key) as [v|] eqn:F; cbn [rbind] in H2; [discriminate|]. split; [congruence|]. exists key, b. rewrite D. auto.
    - split; [congruence|]. exists key, b. rewrite D. auto.
  Qed.

  Lemma cross_outcome :
    match cross_interaction_from_dict V zero rule beads lib keys cl with
    | Ok _ => all_known /\ all_obtainable
    | Err e => (e = KeyError /\ exists key b, In key keys /\ In b beads /\ bead_value lib b key = None) \/
               (e = ValueError /\ all_known /\ exists key i j bi bj, In key keys /\ i < j /\ nth_error beads i = Some bi /\
                  nth_error beads j = Some bj /\ ~ obtainable key bi bj)
    end.
  Proof.
    unfold cross_interaction_from_dict. destruct (set_diagonals V zero beads lib keys) as [m0|e] eqn:D; cbn [rbind].
    2: { left. apply diagonals_error. exact D. }
    assert (AK : all_known).
    { intros key b Hk Hb. destruct (In_nth_error _ _ Hb) as [k Hk']. destruct (diagonals_spec V zero rule beads lib keys m0 D) as [_ Dg].
      destruct (Dg k b key Hk Hk') as [bd [E1 E2]]. unfold bead_value. rewrite E1, E2. discriminate. }
    destruct (foldM _ m0 _) as [m|e] eqn:F.
    - split; [exact AK|]. intros key i j bi bj Hk L Bi Bj.
      assert (Hin : In (i, j) (upper_pairs (length beads))).
      { apply upper_pairs_In. split; [exact L|]. apply nth_error_Some. congruence. }
      destruct (foldM_each _ _ _ _ F _ Hin) as [a [a' H]]. cbn [fst snd] in H.
      destruct (foldM_each _ _ _ _ H _ Hk) as [c [c' H']]. apply (proj1 (pair_entry_ok key i j bi bj c Hk Bi Bj)). eauto.
    - right. destruct (foldM_error _ _ _ _ F) as [a [[i j] [Hin H]]]. cbn [fst snd] in H. apply upper_pairs_In in Hin.
      destruct (foldM_error _ _ _ _ H) as [c [key [Hk H']]].
      destruct (nth_error beads i) as [bi|] eqn:Bi; [|apply nth_error_None in Bi; lia].
      destruct (nth_error beads j) as [bj|] eqn:Bj; [|apply nth_error_None in Bj; lia].
      destruct (pair_entry_ok key i j bi bj c Hk Bi Bj) as [I Er]. split; [exact (Er _ H')|]. split; [exact AK|].
      exists key, i, j, bi, bj. repeat split; try assumption; try lia. intros Ob. apply I in Ob. destruct Ob as [m' Ob]. congruence.
  Qed.
End Cross.
