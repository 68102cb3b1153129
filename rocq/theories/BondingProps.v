(** C77: bonding volumes after a parameter change. *)
From Verif Require Import Base BondingModel.

(** ** Specification *)
Section Spec.
  Variables (P T : Type).
  (** the parameters in force after a history *)
  Definition current (p : P) (h : list (vop P T)) : P :=
    fold_left (fun p o => match o with Evaluate _ => p | Refresh q => q end) h p.
  Definition only_at (t : T) (h : list (vop P T)) : Prop := forall t', In (Evaluate P T t') h -> t' = t.
  (** the parameters were refreshed while the temperature of the evaluations stayed [t] *)
  Definition refreshed_at (h : list (vop P T)) (t : T) : Prop :=
    exists h1 h2 q h3, h = (h1 ++ Evaluate P T t :: h2 ++ Refresh P T q :: h3)%list /\ only_at t h2 /\ only_at t h3.
End Spec.

(** An evaluation uses the current parameters unless the parameters were refreshed
    between evaluations at its own temperature. *)
Theorem C77_bonding_volume_partial : forall P T K (T_eqb : T -> T -> bool) (calc : T -> P -> K) p h t,
  (forall a b, T_eqb a b = true <-> a = b) ->
  ~ refreshed_at P T h t ->
  snd (volume P T K T_eqb calc (vrun P T K T_eqb calc p h) t) = calc t (current P T p h).
Proof.
  intros P T K T_eqb calc p h t HT.
  assert (I : let s := vrun P T K T_eqb calc p h in v_par P T K s = current P T p h /\
    match v_cache P T K s, v_T P T K s with
    | Some k, Some t0 => (refreshed_at P T h t0 \/ k = calc t0 (current P T p h)) /\
                         exists h1 h2, h = (h1 ++ Evaluate P T t0 :: h2)%list /\ only_at P T t0 h2
    | _, _ => True end).
  { unfold vrun, current. cbv zeta. induction h as [|o h IH] using rev_ind; [split; [reflexivity|exact I]|].
    rewrite !fold_left_app. cbn [fold_left]. set (s := fold_left (vstep P T K T_eqb calc) h (Vol P T K p None None)) in *.
    destruct IH as [I1 I2].
    assert (N : forall t1, exists h1 h2, (h ++ [Evaluate P T t1])%list = (h1 ++ Evaluate P T t1 :: h2)%list /\ only_at P T t1 h2)
      by (intros t1; exists h, []; split; [reflexivity|intros t' []]).
    destruct o as [t1|q]; cbn [vstep].
    - unfold volume. destruct (v_cache P T K s) as [k|] eqn:Ec, (v_T P T K s) as [t0|] eqn:Et; cbn [fst v_par v_cache v_T];
        try (split; [exact I1|]; rewrite I1; split; [right; reflexivity|apply N]).
      destruct (T_eqb t1 t0) eqn:Eq; cbn [fst v_par v_cache v_T]; [|split; [exact I1|]; rewrite I1; split; [right; reflexivity|apply N]].
      apply HT in Eq. subst t1. rewrite Ec, Et. split; [exact I1|]. destruct I2 as [I2 _]. split; [|apply N].
      destruct I2 as [[h1 [h2 [q [h3 [E [O2 O3]]]]]]|I2]; [left|right; exact I2].
      exists h1, h2, q, (h3 ++ [Evaluate P T t0])%list. split; [rewrite E, <- app_assoc; cbn; rewrite <- app_assoc; reflexivity|]. split; [exact O2|].
      intros t' Ht. apply in_app_iff in Ht. destruct Ht as [Ht|[Ht|[]]]; [exact (O3 t' Ht)|congruence].
    - cbn [v_par v_cache v_T]. split; [reflexivity|]. destruct (v_cache P T K s) as [k|], (v_T P T K s) as [t0|]; try exact I.
      destruct I2 as [_ [h1 [h2 [E O]]]]. split.
      + left. exists h1, h2, q, []. split; [rewrite E, <- app_assoc; reflexivity|]. split; [exact O|intros t' []].
      + exists h1, (h2 ++ [Refresh P T q])%list. split; [rewrite E, <- app_assoc; reflexivity|].
        intros t' Ht. apply in_app_iff in Ht. destruct Ht as [Ht|[Ht|[]]]; [exact (O t' Ht)|discriminate]. }
  cbv zeta in I. set (s := vrun P T K T_eqb calc p h) in *. destruct I as [I1 I2]. intros NR. unfold volume.
  destruct (v_cache P T K s) as [k|], (v_T P T K s) as [t0|]; cbn [snd]; try (rewrite I1; reflexivity).
  destruct (T_eqb t t0) eqn:Eq; cbn [snd]; [|rewrite I1; reflexivity]. apply HT in Eq. subst t0. destruct I2 as [[I2|I2] _]; [contradiction|exact I2].
Qed.
Print Assumptions C77_bonding_volume_partial.
(** the general claim fails: evaluate, change the parameters, evaluate again *)
Theorem C77_bonding_volume_refuted : exists (calc : nat -> nat -> nat) p h t,
  snd (volume nat nat nat Nat.eqb calc (vrun nat nat nat Nat.eqb calc p h) t) <> calc t (current nat nat p h).
Proof. exists (fun t p => t + p), 1, [Evaluate nat nat 300; Refresh nat nat 2], 300. vm_compute. discriminate. Qed.
Print Assumptions C77_bonding_volume_refuted.
Example C77_nonvacuous : ~ refreshed_at nat nat [Evaluate nat nat 1; Refresh nat nat 2; Evaluate nat nat 3] 1.
Proof.
  intros [h1 [h2 [q [h3 [E [O2 O3]]]]]]. destruct h1 as [|x [|y [|z h1]]]; cbn in E; injection E; intros; try discriminate; subst.
  - destruct h2 as [|x h2]; cbn in *; injection H; intros; subst.
    + assert (3 = 1) by (apply O3; left; reflexivity). lia.
    + destruct h2 as [|y h2]; cbn in *; [injection H0; intros; discriminate|]. injection H0; intros. destruct h2; discriminate.
  - destruct h1; discriminate.
Qed.
