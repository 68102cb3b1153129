(** Proofs about the eos toolbox model. *)
From Verif Require Import Base BaseFacts Num NumFacts IOModel EosToolboxModel EosToolboxSpec.
From Coq Require Import Lqa.
Open Scope string_scope.

(** * C15 *)
Lemma remove_spec eps xi massi :
  length massi = length xi ->
  let keep := filter (fun xm : num * num => negb (nlt (fst xm) eps)) (combine xi massi) in
  remove_insignificant_components eps xi massi = Ok (map fst keep, map snd keep).
Proof.
  revert massi. induction xi as [|x xs IH]; intros massi HL keep; destruct massi as [|m ms]; try discriminate.
  - reflexivity.
  - injection HL as HL. specialize (IH ms HL). unfold remove_insignificant_components in *. cbn [remove_loop tl].
    unfold keep. cbn [combine filter fst]. destruct (nlt x eps); cbn [negb].
    + exact IH.
    + rewrite IH. reflexivity.
Qed.

(** * C14 *)
Section Lib.
  Variable V : Type.

  Lemma fill_spec (defaults : dict (option V)) bd bd' ok :
    NoDup (dkeys defaults) ->
    fill_defaults V defaults bd = (bd', ok) ->
    (ok = true ->
       (forall p, dget bd' p = match dget bd p with
                               | Some v => Some v
                               | None => match dget defaults p with Some o => o | None => None end
                               end) /\
       (forall p, dget defaults p = Some None -> dget bd p <> None)) /\
    (ok = false -> exists p, dget defaults p = Some None /\ dget bd p = None) /\
    ((forall p o, dget defaults p = Some o -> dget bd p <> None) -> bd' = bd).
  Proof.
    revert bd. induction defaults as [|[q o] ds IH]; intros bd ND H; cbn in H.
    - injection H as <- <-. split; [|split].
      + intros _. split; [|discriminate]. intros p. cbn. destruct (dget bd p); reflexivity.
      + discriminate.
      + reflexivity.
    - inversion ND as [|? ? Hq ND']; subst.
      assert (Hqd : dget ds q = None) by (apply dget_None; exact Hq).
      destruct (dmem bd q) eqn:Hm.
      + apply dmem_dget in Hm. destruct Hm as [w Hw].
        destruct (IH bd ND' H) as [I1 [I2 I3]]. split; [|split].
        * intros Hok. destruct (I1 Hok) as [J1 J2]. split.
          -- intros p. rewrite J1. cbn. destruct (String.eqb_spec p q) as [->|Hpq]; [|reflexivity].
             rewrite Hw. reflexivity.
          -- intros p. cbn. destruct (String.eqb_spec p q) as [->|Hpq]; [congruence|apply J2].
        * intros Hok. destruct (I2 Hok) as [p [A B]]. exists p. split; [|exact B]. cbn.
          destruct (String.eqb_spec p q) as [->|Hpq]; [congruence|exact A].
        * intros Hall. apply I3. intros p o' Hp. apply (Hall p o'). cbn.
          destruct (String.eqb_spec p q) as [->|Hpq]; [congruence|exact Hp].
      + assert (Hn : dget bd q = None) by (unfold dmem in Hm; destruct (dget bd q); congruence).
        destruct o as [v|].
        * destruct (IH (dset bd q v) ND' H) as [I1 [I2 I3]]. split; [|split].
          -- intros Hok. destruct (I1 Hok) as [J1 J2]. split.
             ++ intros p. rewrite J1. cbn. destruct (String.eqb_spec p q) as [->|Hpq].
                ** rewrite dget_dset_same, Hn. reflexivity.
                ** rewrite dget_dset_other by congruence. reflexivity.
             ++ intros p. cbn. destruct (String.eqb_spec p q) as [->|Hpq]; [congruence|].
                intros Hp. specialize (J2 p Hp). rewrite dget_dset_other in J2 by congruence. exact J2.
          -- intros Hok. destruct (I2 Hok) as [p [A B]]. exists p. cbn.
             destruct (String.eqb_spec p q) as [->|Hpq]; [congruence|].
             rewrite dget_dset_other in B by congruence. split; assumption.
          -- intros Hall. exfalso. apply (Hall q (Some v)); [|exact Hn]. cbn. rewrite String.eqb_refl. reflexivity.
        * injection H as <- <-. split; [discriminate|split].
          -- intros _. exists q. cbn. rewrite String.eqb_refl. split; [reflexivity|exact Hn].
          -- reflexivity.
  Qed.

  Lemma check_beads_spec (lib : library V) defaults lib' ok :
    NoDup (dkeys defaults) ->
    check_beads V lib defaults = (lib', ok) ->
    dkeys lib' = dkeys lib /\
    (ok = true -> forall b,
       match dget lib b with
       | None => dget lib' b = None
       | Some bd => exists bd', dget lib' b = Some bd' /\
           (forall p, dget bd' p = match dget bd p with
                               | Some v => Some v
                               | None => match dget defaults p with Some o => o | None => None end
                               end) /\
           (forall p, dget defaults p = Some None -> dget bd p <> None)
       end) /\
    (ok = false -> exists b bd p, In (b, bd) lib /\ dget defaults p = Some None /\ dget bd p = None) /\
    ((forall b bd p o, In (b, bd) lib -> dget defaults p = Some o -> dget bd p <> None) -> lib' = lib).
  Proof.
    intros ND. revert lib' ok. induction lib as [|[b bd] rest IH]; intros lib' ok H; cbn in H.
    - injection H as <- <-. split; [reflexivity|]. split; [intros _ b; reflexivity|].
      split; [discriminate|reflexivity].
    - destruct (fill_defaults V defaults bd) as [bd' ok1] eqn:F.
      destruct (fill_spec _ _ _ _ ND F) as [F1 [F2 F3]].
      destruct ok1.
      + destruct (check_beads V rest defaults) as [rest' ok2] eqn:R. injection H as <- <-.
        destruct (IH _ _ eq_refl) as [K [I1 [I2 I3]]].
        split; [change (b :: dkeys rest' = b :: dkeys rest); rewrite K; reflexivity|].
        split; [|split].
        * intros Hok b'. cbn. destruct (String.eqb b' b) eqn:E.
          -- exists bd'. split; [reflexivity|]. apply F1; reflexivity.
          -- apply I1; exact Hok.
        * intros Hok. destruct (I2 Hok) as [b' [d' [p [A B]]]]. exists b', d', p. split; [right; exact A|exact B].
        * intros Hall. rewrite F3, I3; [reflexivity| |].
          -- intros. eapply Hall; [right; eassumption|eassumption].
          -- intros. eapply Hall; [left; reflexivity|eassumption].
      + injection H as <- <-. split; [reflexivity|]. split; [discriminate|]. split.
        * intros _. destruct (F2 eq_refl) as [p [A B]]. exists b, bd, p. split; [left; reflexivity|split; assumption].
        * intros Hall. rewrite F3; [reflexivity|]. intros. eapply Hall; [left; reflexivity|eassumption].
  Qed.
End Lib.

(** * C13 *)
Section Cross.
  Variable V : Type.
  Variable zero : V.
  Variable rule : string -> dict V -> dict V -> result (dict V).

  Definition sym (m : matrices V) : Prop := forall k i j, m k i j = m k j i.

  Lemma mset_same m k i j v : mset V m k i j v k i j = v.
  Proof. clear zero rule. unfold mset. rewrite String.eqb_refl, !Nat.eqb_refl. reflexivity. Qed.
  Lemma mset_other m k i j v k' i' j' :
    ~ (k = k' /\ i = i' /\ j = j') -> mset V m k i j v k' i' j' = m k' i' j'.
  Proof.
    clear zero rule. intros H. unfold mset. destruct (String.eqb_spec k k'), (Nat.eqb_spec i i'), (Nat.eqb_spec j j');
      cbn; try reflexivity. tauto.
  Qed.

  Lemma mset_both_sym m k i j v : sym m -> sym (mset V (mset V m k i j v) k j i v).
  Proof.
    intros S k' a b. unfold mset.
    destruct (String.eqb k k'); cbn; [|apply S].
    destruct (Nat.eqb_spec j a), (Nat.eqb_spec i b), (Nat.eqb_spec i a), (Nat.eqb_spec j b);
      cbn; try reflexivity; try congruence; apply S.
  Qed.

  Lemma foldM_inv {A B} (P : B -> Prop) (f : B -> A -> result B) l acc out :
    P acc -> (forall acc x acc', In x l -> P acc -> f acc x = Ok acc' -> P acc') ->
    foldM f acc l = Ok out -> P out.
  Proof.
    revert acc. induction l as [|x xs IH]; intros acc H0 Hs H; cbn in H.
    - injection H as <-; exact H0.
    - destruct (f acc x) as [acc'|] eqn:E; [|discriminate]. cbn in H.
      apply (IH acc'); [|intros; eapply Hs; eauto; right; assumption|exact H].
      eapply Hs; eauto; left; reflexivity.
  Qed.

  Lemma diagonals_spec beads lib keys m :
    set_diagonals V zero beads lib keys = Ok m ->
    (forall k i j, i <> j -> m k i j = zero) /\
    (forall k b key, In key keys -> nth_error beads k = Some b ->
       exists bd, dget lib b = Some bd /\ dget bd key = Some (m key k k)).
  Proof.
    unfold set_diagonals.
    set (Q := fun (done : list string) (m : matrices V) =>
      (forall k i j, i <> j -> m k i j = zero) /\
      (forall k b key, In key done -> nth_error beads k = Some b ->
         exists bd, dget lib b = Some bd /\ dget bd key = Some (m key k k))).
    assert (Inner : forall key done idx m m',
      Q done m -> foldM (diag_entry V beads lib key) m idx = Ok m' ->
      Q done m' /\ (forall k b, In k idx -> nth_error beads k = Some b ->
         exists bd, dget lib b = Some bd /\ dget bd key = Some (m' key k k))).
    { intros key done idx. induction idx as [|i idx IH]; intros m0 m' HQ H; cbn in H.
      - injection H as <-. split; [exact HQ|intros ? ? []].
      - unfold diag_entry in H at 1. destruct (nth_error beads i) as [b|] eqn:Hb; [|discriminate].
        unfold dfetch in H. destruct (dget lib b) as [bd|] eqn:Hl; [|discriminate]. cbn [rbind] in H.
        destruct (dget bd key) as [v|] eqn:Hv; [|discriminate]. cbn [rbind] in H.
        assert (HQ' : Q done (mset V m0 key i i v)).
        { destruct HQ as [Z D]. split.
          - intros k a c Hac. rewrite mset_other by (intros [_ [? ?]]; congruence). apply Z; exact Hac.
          - intros k b' key' Hin Hn. destruct (D k b' key' Hin Hn) as [bd' [L E]].
            destruct (String.eqb_spec key key') as [<-|Hk].
            + destruct (Nat.eq_dec i k) as [<-|Hik].
              * rewrite mset_same. rewrite Hb in Hn. injection Hn as <-. exists bd. split; assumption.
              * rewrite mset_other by tauto. exists bd'. split; assumption.
            + rewrite mset_other by tauto. exists bd'. split; assumption. }
        destruct (IH _ _ HQ' H) as [I1 I2]. split; [exact I1|].
        intros k b' [<-|Hin] Hn; [|apply (I2 k b' Hin Hn)].
        destruct (in_dec Nat.eq_dec i idx) as [Hin|Hnin]; [apply (I2 i b' Hin Hn)|].
        rewrite Hb in Hn. injection Hn as <-. exists bd. split; [exact Hl|]. rewrite Hv. f_equal. symmetry.
        clear IH I2 HQ' I1. revert H. generalize (mset_same m0 key i i v).
        generalize (mset V m0 key i i v). revert Hnin. clear - V.
        induction idx as [|a idx IH]; intros Hnin m1 E1 H; cbn in H.
        + injection H as <-; exact E1.
        + destruct (diag_entry V beads lib key m1 a) as [m2|] eqn:D; [|discriminate]. cbn in H.
          apply (IH (fun x => Hnin (or_intror x)) m2); [|exact H].
          unfold diag_entry in D. destruct (nth_error beads a); [|discriminate].
          destruct (dfetch lib s); [|discriminate]. cbn in D. destruct (dfetch a0 key); [|discriminate].
          cbn in D. injection D as <-. rewrite mset_other; [exact E1|].
          intros [_ [-> _]]. apply Hnin; left; reflexivity. }
    assert (Outer : forall keys done m0 m', Q done m0 ->
      foldM (fun m key => foldM (diag_entry V beads lib key) m (seq 0 (length beads))) m0 keys = Ok m' ->
      Q (done ++ keys)%list m').
    { intros ks. induction ks as [|key ks IH]; intros done m0 m' HQ H; cbn in H.
      - injection H as <-. rewrite app_nil_r; exact HQ.
      - destruct (foldM (diag_entry V beads lib key) m0 (seq 0 (length beads))) as [m1|] eqn:F; [|discriminate].
        cbn in H. destruct (Inner _ _ _ _ _ HQ F) as [[Z D] I2].
        replace (done ++ key :: ks)%list with ((done ++ [key]) ++ ks)%list by (rewrite <- app_assoc; reflexivity).
        apply (IH (done ++ [key])%list m1); [|exact H]. split; [exact Z|].
        intros k b key' Hin Hn. apply in_app_or in Hin. destruct Hin as [Hin|[<-|[]]].
        + apply D; assumption.
        + apply (I2 k b); [|exact Hn]. apply in_seq. split; [lia|]. cbn.
          apply nth_error_Some. congruence. }
    intros H. apply (Outer keys [] _ m) in H.
    - exact H.
    - split; [reflexivity|intros ? ? ? []].
  Qed.

  Lemma write_rule_sym keys i j l m m' :
    sym m -> foldM (write_rule V keys i j) m l = Ok m' -> sym m'.
  Proof.
    intros S. apply foldM_inv; [exact S|]. intros acc [k v] acc' _ Sa. unfold write_rule. cbn [fst snd].
    destruct (smem k keys); [|discriminate]. intros H; injection H as <-. apply mset_both_sym; exact Sa.
  Qed.

  Lemma mset_noop_sym m k i j : sym m -> sym (mset V m k j i (m k i j)).
  Proof.
    intros S k' a b. unfold mset. destruct (String.eqb_spec k k') as [<-|]; cbn; [|apply S].
    destruct (Nat.eqb_spec j a), (Nat.eqb_spec i b), (Nat.eqb_spec j b), (Nat.eqb_spec i a);
      cbn; subst; try reflexivity; try apply S; try congruence.
  Qed.

  Lemma pair_entry_sym beads lib keys cl i j m key m' :
    sym m -> pair_entry V rule beads lib keys cl i j m key = Ok m' -> sym m'.
  Proof.
    intros S. unfold pair_entry. destruct (nth_error beads i) as [bi|]; [|discriminate].
    destruct (nth_error beads j) as [bj|]; [|discriminate].
    assert (User : forall v, (let* m1 := Ok (mset V m key i j v) in Ok (mset V m1 key j i (m1 key i j))) = Ok m' -> sym m').
    { intros v H. cbn [rbind] in H. injection H as <-. rewrite mset_same. apply mset_both_sym; exact S. }
    destruct (cross_get cl bi bj key) as [v|]; [apply User|].
    destruct (cross_get cl bj bi key) as [v|]; [apply User|].
    destruct (let* bd1 := dfetch lib bi in let* bd2 := dfetch lib bj in rule key bd1 bd2) as [tmp|]; [|discriminate].
    destruct (foldM (write_rule V keys i j) m tmp) as [m1|] eqn:F; [|discriminate]. cbn [rbind].
    intros H; injection H as <-. apply mset_noop_sym. eapply write_rule_sym; eassumption.
  Qed.

  Lemma cross_sym beads lib keys cl m :
    cross_interaction_from_dict V zero rule beads lib keys cl = Ok m -> sym m.
  Proof.
    unfold cross_interaction_from_dict. destruct (set_diagonals V zero beads lib keys) as [m0|] eqn:D; [|discriminate].
    cbn [rbind]. apply foldM_inv.
    - destruct (diagonals_spec _ _ _ _ D) as [Z _]. intros k i j. destruct (Nat.eq_dec i j) as [->|H]; [reflexivity|].
      rewrite !Z by congruence. reflexivity.
    - intros acc [i j] acc' _ S. cbn [fst snd]. apply foldM_inv; [exact S|].
      intros a key a' _ Sa. apply pair_entry_sym; exact Sa.
  Qed.

  (** values, for rules that only produce the parameter asked for *)
  Hypothesis single : forall key a b out, rule key a b = Ok out -> out = [] \/ exists v, out = [(key, v)].

  (** value the pair (i, j) must get *)
  Definition wanted (lib : library V) (cl : cross_library V) (bi bj key : string) (v : V) : Prop :=
    given cl bi bj key v \/
    (not_given cl bi bj key /\ exists d1 d2, dget lib bi = Some d1 /\ dget lib bj = Some d2 /\
       (rule key d1 d2 = Ok [(key, v)] \/ (rule key d1 d2 = Ok [] /\ v = zero))).

  Lemma cross_get_entry (cl : cross_library V) a b k v :
    cross_get cl a b k = Some v <-> entry cl a b k = Some (Some v).
  Proof.
    unfold cross_get, entry. destruct (dget cl a) as [d|]; [|split; discriminate].
    destruct (dget d b) as [e|]; [|split; discriminate].
    destruct (dget e k) as [[o|]|]; split; intros H; try discriminate; congruence.
  Qed.
  Lemma cross_get_none (cl : cross_library V) a b k :
    cross_get cl a b k = None <-> forall w, entry cl a b k <> Some (Some w).
  Proof.
    destruct (cross_get cl a b k) as [v|] eqn:E.
    - apply cross_get_entry in E. split; [discriminate|]. intros H. exfalso. apply (H v); exact E.
    - split; [|reflexivity]. intros _ w Hw. apply cross_get_entry in Hw. congruence.
  Qed.

  Lemma pair_entry_value beads lib keys cl i j m key m' bi bj :
    i <> j -> nth_error beads i = Some bi -> nth_error beads j = Some bj ->
    m key i j = zero ->
    pair_entry V rule beads lib keys cl i j m key = Ok m' ->
    wanted lib cl bi bj key (m' key i j) /\
    (forall k a b, ~ (k = key /\ ((a = i /\ b = j) \/ (a = j /\ b = i))) -> m' k a b = m k a b).
  Proof.
    intros Hij Hi Hj Z. unfold pair_entry. rewrite Hi, Hj.
    assert (User : forall v, (given cl bi bj key v) ->
      (let* m1 := Ok (mset V m key i j v) in Ok (mset V m1 key j i (m1 key i j))) = Ok m' ->
      wanted lib cl bi bj key (m' key i j) /\
      (forall k a b, ~ (k = key /\ ((a = i /\ b = j) \/ (a = j /\ b = i))) -> m' k a b = m k a b)).
    { intros v G H. cbn [rbind] in H. injection H as <-. rewrite mset_same. split.
      - rewrite mset_other by (intros [_ [? _]]; congruence). rewrite mset_same. left; exact G.
      - intros k a b N. rewrite !mset_other; [reflexivity| |]; intros [<- [<- <-]]; apply N; tauto. }
    destruct (cross_get cl bi bj key) as [v|] eqn:E1.
    { apply User. left. apply cross_get_entry; exact E1. }
    destruct (cross_get cl bj bi key) as [v|] eqn:E2.
    { apply User. right. split; [apply cross_get_none; exact E1|apply cross_get_entry; exact E2]. }
    clear User. unfold dfetch. destruct (dget lib bi) as [d1|] eqn:L1; [|discriminate].
    destruct (dget lib bj) as [d2|] eqn:L2; [|discriminate]. cbn [rbind].
    destruct (rule key d1 d2) as [out|] eqn:R; [|discriminate].
    assert (NG : not_given cl bi bj key) by (split; apply cross_get_none; assumption).
    destruct (single _ _ _ _ R) as [->|[v ->]]; cbn [foldM rbind].
    - intros H; injection H as <-. split.
      + rewrite mset_other by (intros [_ [? _]]; congruence). right. split; [exact NG|].
        exists d1, d2. repeat split; try assumption. right. split; assumption.
      + intros k a b N. rewrite mset_other; [reflexivity|]. intros [<- [<- <-]]. apply N; tauto.
    - unfold write_rule at 1. cbn [fst snd]. destruct (smem key keys); [|discriminate]. cbn [rbind].
      intros H; injection H as <-.
      assert (W : mset V (mset V m key i j v) key j i v key i j = v).
      { rewrite mset_other by (intros [_ [? _]]; congruence). apply mset_same. }
      split.
      + rewrite mset_other by (intros [_ [? _]]; congruence). rewrite W. right. split; [exact NG|].
        exists d1, d2. repeat split; try assumption. left; exact R.
      + intros k a b N. rewrite !mset_other; [reflexivity| | |]; intros [<- [<- <-]]; apply N; tauto.
  Qed.

  Lemma keys_value beads lib keys0 cl i j bi bj keys m m' :
    i <> j -> nth_error beads i = Some bi -> nth_error beads j = Some bj ->
    NoDup keys -> (forall key, In key keys -> m key i j = zero) ->
    foldM (pair_entry V rule beads lib keys0 cl i j) m keys = Ok m' ->
    (forall key, In key keys -> wanted lib cl bi bj key (m' key i j)) /\
    (forall k a b, ~ ((a = i /\ b = j) \/ (a = j /\ b = i)) -> m' k a b = m k a b) /\
    (forall k a b, ~ In k keys -> m' k a b = m k a b).
  Proof.
    intros Hij Hi Hj ND. revert m. induction ND as [|key ks Hn ND IH]; intros m Z H; cbn in H.
    - injection H as <-. split; [intros ? []|]. split; reflexivity.
    - destruct (pair_entry V rule beads lib keys0 cl i j m key) as [m1|] eqn:E; [|discriminate]. cbn in H.
      destruct (pair_entry_value _ _ _ _ _ _ _ _ _ _ _ Hij Hi Hj (Z key (or_introl eq_refl)) E) as [W O].
      destruct (IH m1) as [I1 [I2 I3]]; [|exact H|].
      { intros k Hk. rewrite O; [apply Z; right; exact Hk|]. intros [-> _]. contradiction. }
      split; [|split].
      + intros k [<-|Hk]; [|apply I1; exact Hk]. rewrite I3 by exact Hn. exact W.
      + intros k a b N. rewrite I2 by exact N. apply O. intros [_ X]. apply N; exact X.
      + intros k a b N. rewrite I3 by (intros X; apply N; right; exact X). apply O.
        intros [-> _]. apply N; left; reflexivity.
  Qed.

  Lemma pairs_value beads lib keys cl pairs m m' :
    NoDup keys -> NoDup pairs -> (forall i j, In (i, j) pairs -> i < j < length beads) ->
    (forall key i j, In (i, j) pairs -> In key keys -> m key i j = zero) ->
    foldM (fun m ij => foldM (pair_entry V rule beads lib keys cl (fst ij) (snd ij)) m keys) m pairs = Ok m' ->
    (forall key i j bi bj, In key keys -> In (i, j) pairs ->
       nth_error beads i = Some bi -> nth_error beads j = Some bj -> wanted lib cl bi bj key (m' key i j)) /\
    (forall k a b, ~ In (a, b) pairs -> ~ In (b, a) pairs -> m' k a b = m k a b).
  Proof.
    intros NDk NDp. revert m. induction NDp as [|[i j] ps Hn NDp IH]; intros m U Z H; cbn in H.
    - injection H as <-. split; [intros ? ? ? ? ? _ []|reflexivity].
    - destruct (foldM (pair_entry V rule beads lib keys cl i j) m keys) as [m1|] eqn:F; [|discriminate]. cbn in H.
      destruct (U i j (or_introl eq_refl)) as [Hij Hj].
      destruct (nth_error beads i) as [bi|] eqn:Ei; [|apply nth_error_None in Ei; lia].
      destruct (nth_error beads j) as [bj|] eqn:Ej; [|apply nth_error_None in Ej; lia].
      assert (Hne : i <> j) by lia.
      destruct (keys_value _ _ _ _ _ _ _ _ _ _ _ Hne Ei Ej NDk
                  (fun key Hk => Z key i j (or_introl eq_refl) Hk) F) as [K1 [K2 _]].
      destruct (IH m1) as [I1 I2]; [|  |exact H|].
      { intros a b Hin. apply U; right; exact Hin. }
      { intros key a b Hin Hk. rewrite K2; [apply Z; [right; exact Hin|exact Hk]|].
        intros [[-> ->]|[-> ->]]; [contradiction|]. destruct (U j i (or_intror Hin)); lia. }
      split.
      + intros key a b ba bb Hk [E|Hin] Ha Hb.
        * injection E as <- <-. rewrite I2.
          -- rewrite Ei in Ha. rewrite Ej in Hb. injection Ha as <-. injection Hb as <-. apply K1; exact Hk.
          -- exact Hn.
          -- intros X. destruct (U j i (or_intror X)); lia.
        * apply I1; assumption.
      + intros k a b N1 N2. rewrite I2; [|intros X; apply N1; right; exact X|intros X; apply N2; right; exact X].
        apply K2. intros [[-> ->]|[-> ->]]; [apply N1|apply N2]; left; reflexivity.
  Qed.

  Lemma upper_pairs_In n i j : In (i, j) (upper_pairs n) <-> i < j < n.
  Proof.
    unfold upper_pairs. rewrite filter_In, in_prod_iff, !in_seq. cbn [fst snd]. rewrite Nat.ltb_lt. lia.
  Qed.

  Lemma NoDup_list_prod {A B} (l : list A) (l' : list B) : NoDup l -> NoDup l' -> NoDup (list_prod l l').
  Proof.
    intros H H'. induction H as [|x l Hx H IH]; cbn; [constructor|].
    assert (G : forall l1 l2 : list (A * B), NoDup l1 -> NoDup l2 -> (forall z, In z l1 -> ~ In z l2) -> NoDup (l1 ++ l2)%list).
    { clear. intros l1 l2 H1 H2 D. induction H1 as [|z l1 Hz H1 IH]; cbn; [exact H2|]. constructor.
      - intros X. apply in_app_or in X. destruct X as [X|X]; [contradiction|].
        apply (D z); [left; reflexivity|exact X].
      - apply IH. intros w Hw. apply D. right; exact Hw. }
    apply G; [|exact IH|].
    - clear - H'. induction H' as [|y l' Hy H' IH]; cbn; [constructor|]. constructor; [|exact IH].
      intros X. apply in_map_iff in X. destruct X as [z [E Hz]]. injection E as <-. contradiction.
    - intros [a b] X Y. apply in_map_iff in X. destruct X as [z [E Hz]]. injection E as <- <-.
      apply in_prod_iff in Y. tauto.
  Qed.

  Lemma upper_pairs_NoDup n : NoDup (upper_pairs n).
  Proof. apply NoDup_filter. apply NoDup_list_prod; apply seq_NoDup. Qed.

  Lemma cross_values beads lib keys cl m :
    NoDup keys ->
    cross_interaction_from_dict V zero rule beads lib keys cl = Ok m ->
    (forall key k b, In key keys -> nth_error beads k = Some b ->
       exists bd, dget lib b = Some bd /\ dget bd key = Some (m key k k)) /\
    (forall key i j bi bj, In key keys -> i < j -> nth_error beads i = Some bi -> nth_error beads j = Some bj ->
       wanted lib cl bi bj key (m key i j) /\ m key j i = m key i j).
  Proof.
    intros ND H. assert (S := cross_sym _ _ _ _ _ H). revert H. unfold cross_interaction_from_dict.
    destruct (set_diagonals V zero beads lib keys) as [m0|] eqn:D; [|discriminate]. cbn [rbind]. intros H.
    destruct (diagonals_spec _ _ _ _ D) as [Z Dg].
    destruct (pairs_value _ _ _ _ _ _ _ ND (upper_pairs_NoDup _)
                (fun i j Hin => proj1 (upper_pairs_In _ _ _) Hin)
                (fun key i j Hin _ => Z key i j ltac:(apply upper_pairs_In in Hin; lia)) H) as [P1 P2].
    split.
    - intros key k b Hk Hb. destruct (Dg k b key Hk Hb) as [bd [L E]]. exists bd. split; [exact L|].
      rewrite P2; [exact E| |]; rewrite upper_pairs_In; lia.
    - intros key i j bi bj Hk Hij Hi Hj. split; [|apply S].
      apply (P1 key i j bi bj Hk); try assumption. apply upper_pairs_In. split; [exact Hij|].
      apply nth_error_Some. congruence.
  Qed.
End Cross.

(** * C18 *)
Lemma split_us_type name t rest : split_us name = t :: rest -> starts_with_type underscore name t.
Proof.
  revert t rest. induction name as [|c s IH]; intros t rest H; cbn in H.
  - injection H as <- <-. split; [exact I|]. left; reflexivity.
  - destruct (Ascii.eqb_spec c underscore) as [->|Hc].
    + injection H as <- <-. split; [exact I|]. right. exists s. reflexivity.
    + destruct (split_us s) as [|w ws] eqn:E.
      * injection H as <- <-. exfalso. clear - E. destruct s as [|c' s']; cbn in E; [discriminate|].
        destruct (Ascii.eqb c' underscore); [discriminate|]. destruct (split_us s'); discriminate.
      * injection H as <- <-. destruct (IH _ _ eq_refl) as [L [->|[r ->]]].
        -- split; [split; assumption|]. left; reflexivity.
        -- split; [split; assumption|]. right. exists r. reflexivity.
Qed.
Lemma split_us_cons s : exists t rest, split_us s = t :: rest.
Proof.
  destruct s as [|c s]; cbn; [eauto|]. destruct (Ascii.eqb c underscore); [eauto|].
  destruct (split_us s); eauto.
Qed.
Lemma parameter_type_spec name : starts_with_type underscore name (parameter_type name).
Proof.
  unfold parameter_type. destruct (split_us_cons name) as [t [rest E]]. rewrite E. cbn.
  eapply split_us_type; exact E.
Qed.
Lemma split_dash_cons s : exists t rest, split_dash s = t :: rest.
Proof.
  destruct s as [|c s]; [exists "", []; reflexivity|].
  change (split_dash (String c s)) with
    (if Ascii.eqb c dash then "" :: split_dash s
     else match split_dash s with w :: ws => String c w :: ws | [] => [String c ""] end).
  destruct (Ascii.eqb c dash); [eauto|]. destruct (split_dash s); eauto.
Qed.
Lemma split_dash_length s : length (split_dash s) = S (occurrences dash s).
Proof.
  induction s as [|c s IH]; [reflexivity|].
  change (split_dash (String c s)) with
    (if Ascii.eqb c dash then "" :: split_dash s
     else match split_dash s with w :: ws => String c w :: ws | [] => [String c ""] end).
  change (occurrences dash (String c s)) with ((if Ascii.eqb c dash then 1 else 0) + occurrences dash s)%nat.
  destruct (Ascii.eqb c dash); [cbn [length]; rewrite IH; reflexivity|].
  destruct (split_dash s); [discriminate IH|exact IH].
Qed.
Lemma split_dash_type name : starts_with_type dash name (hd "" (split_dash name)).
Proof.
  induction name as [|c s IH].
  - split; [exact I|left; reflexivity].
  - change (split_dash (String c s)) with
      (if Ascii.eqb c dash then "" :: split_dash s
       else match split_dash s with w :: ws => String c w :: ws | [] => [String c ""] end).
    destruct (Ascii.eqb_spec c dash) as [->|Hc]; cbn.
    + split; [exact I|]. right. exists s; reflexivity.
    + destruct (split_dash_cons s) as [t [rest E]]. rewrite E in *. cbn [hd] in *.
      destruct IH as [L [->|[r ->]]]; (split; [split; assumption|]); [left; reflexivity|right; exists r; reflexivity].
Qed.

Lemma type_unique c name t1 t2 : starts_with_type c name t1 -> starts_with_type c name t2 -> t1 = t2.
Proof.
  intros [L1 H1] [L2 H2]. revert name t2 L2 H1 H2. induction t1 as [|a t1 IH]; intros name t2 L2 H1 H2.
  - destruct t2 as [|b t2]; [reflexivity|]. exfalso.
    destruct H1 as [->|[r1 ->]], H2 as [H2|[r2 H2]]; cbn in H2; try discriminate;
      injection H2 as -> _; destruct L2; congruence.
  - destruct t2 as [|b t2].
    + exfalso. destruct H1 as [->|[r1 ->]], H2 as [H2|[r2 H2]]; cbn in H2; try discriminate;
        injection H2 as -> _; destruct L1; congruence.
    + destruct L1 as [La L1], L2 as [Lb L2].
      assert (E : exists n, name = String a n /\ (n = t1 \/ exists r, n = t1 ++ String c r)).
      { destruct H1 as [->|[r ->]]; eexists; (split; [reflexivity|]); [left|right; exists r]; reflexivity. }
      destruct E as [n [-> H1']].
      assert (E : a = b /\ (n = t2 \/ exists r, n = t2 ++ String c r)).
      { destruct H2 as [H2|[r H2]]; injection H2 as -> H2; (split; [reflexivity|]); [left|right; exists r]; assumption. }
      destruct E as [<- H2']. f_equal. apply (IH L1 n t2 L2 H1' H2').
Qed.

Lemma check_bounds_spec extreme name t bounds :
  starts_with_type underscore name t ->
  match dget extreme t with
  | None => check_bounds extreme name bounds = Err ValueError
  | Some lim =>
      fst bounds <> NaN -> snd bounds <> NaN -> nle (fst lim) (snd lim) = true ->
      exists b, check_bounds extreme name bounds = Ok b /\
        within lim (fst b) /\ within lim (snd b) /\
        (within lim (fst bounds) -> fst b = fst bounds) /\
        (within lim (snd bounds) -> snd b = snd bounds) /\
        (~ within lim (fst bounds) -> fst b = fst lim) /\
        (~ within lim (snd bounds) -> snd b = snd lim) /\
        (nle (fst bounds) (snd bounds) = true -> nle (fst b) (snd b) = true)
  end.
Proof.
  intros Ht. pose proof (type_unique _ _ _ _ Ht (parameter_type_spec name)) as ->.
  unfold check_bounds. destruct (dget extreme (parameter_type name)) as [[lo hi]|]; [|reflexivity].
  destruct bounds as [b0 b1]. cbn [fst snd]. intros N0 N1 Hlim. eexists. split; [reflexivity|]. cbn [fst snd].
  unfold within. cbn [fst snd].
  assert (C : forall x y, x <> NaN -> y <> NaN -> nlt x y = negb (nle y x)).
  { intros [x| | |] [y| | |] ? ?; try congruence; reflexivity. }
  assert (L : lo <> NaN /\ hi <> NaN).
  { destruct lo, hi; cbn in Hlim; try discriminate; split; discriminate. }
  destruct L as [L0 L1].
  assert (D : forall x y, x <> NaN -> y <> NaN -> nle x y = false -> nle y x = true).
  { intros [x| | |] [y| | |] ? ?; try congruence; cbn; try reflexivity; try discriminate.
    intros H'. apply Qle_bool_iff. apply Qle_bool_false in H'. lra. }
  rewrite (C b0 lo), (C hi b0), (C hi b1), (C b1 lo) by assumption.
  destruct (nle lo b0) eqn:E0, (nle b0 hi) eqn:E1, (nle lo b1) eqn:E2, (nle b1 hi) eqn:E3; cbn [negb];
    repeat split; intros; try assumption; try reflexivity; try (apply nle_refl; assumption);
    try solve [intuition congruence]; try tauto;
    try match goal with
    | H : nle lo ?x = false, K : nle ?x hi = false |- _ =>
        pose proof (nle_trans _ _ _ Hlim (D _ _ ltac:(assumption) ltac:(assumption) K)); congruence
    end.
Qed.

(** * C19 *)
Section Upd.
  Variable V : Type.
  Implicit Types (cl : dict (dict (dict V))) (e : eos_params V).

  Lemma dget_dset {A} (d : dict A) k v k' :
    dget (dset d k v) k' = if String.eqb k k' then Some v else dget d k'.
  Proof.
    destruct (String.eqb_spec k k') as [<-|H]; [apply dget_dset_same|apply dget_dset_other; exact H].
  Qed.

  (** what writing parameter [p] of the ordered pair [a][b] does to the library *)
  Definition put_pair cl a b p (v : V) : dict (dict (dict V)) :=
    match dget cl a with
    | Some d => match dget d b with
                | Some x => dset cl a (dset d b (dset x p v))
                | None => dset cl a (dset d b [(p, v)])
                end
    | None => dset cl a [(b, [(p, v)])]
    end.

  Lemma eqb_refl' s : String.eqb s s = true.
  Proof. apply String.eqb_refl. Qed.

  Lemma entry_put cl a b p v a' b' p' :
    entry (put_pair cl a b p v) a' b' p' =
    if String.eqb a a' && String.eqb b b' && String.eqb p p' then Some v else entry cl a' b' p'.
  Proof.
    unfold entry, put_pair.
    destruct (dget cl a) as [d|] eqn:Ha; [destruct (dget d b) as [x|] eqn:Hb|];
      rewrite dget_dset; destruct (String.eqb_spec a a') as [<-|Na]; cbn [andb]; try reflexivity;
      rewrite ?dget_dset, ?Ha, ?Hb; cbn [dget];
      destruct (String.eqb_spec b b') as [<-|Nb]; cbn [andb]; rewrite ?Hb, ?eqb_refl'; try reflexivity;
      rewrite ?dget_dset; cbn [dget].
    - reflexivity.
    - rewrite (String.eqb_sym p' p). destruct (String.eqb p p'); reflexivity.
    - rewrite (String.eqb_sym p' p). destruct (String.eqb p p'); reflexivity.
    - destruct (String.eqb_spec b' b); [congruence|reflexivity].
  Qed.

  Lemma has_put cl a b p v a' b' :
    has_pair (put_pair cl a b p v) a' b' <-> (a = a' /\ b = b') \/ has_pair cl a' b'.
  Proof.
    unfold has_pair, put_pair.
    destruct (dget cl a) as [d|] eqn:Ha; [destruct (dget d b) as [x|] eqn:Hb|];
      rewrite dget_dset; destruct (String.eqb_spec a a') as [<-|Na].
    - split.
      + intros [d' [z [E F]]]. injection E as <-. rewrite dget_dset in F.
        destruct (String.eqb_spec b b') as [<-|Nb]; [left; split; reflexivity|]. right. eauto.
      + intros [[_ <-]|[d' [z [E F]]]].
        * do 2 eexists. split; [reflexivity|]. rewrite dget_dset, eqb_refl'. reflexivity.
        * rewrite Ha in E. injection E as <-. eexists. destruct (String.eqb b b') eqn:EB; eexists;
            (split; [reflexivity|]); rewrite dget_dset, EB; [reflexivity|exact F].
    - split; [intros H; right; exact H|intros [[? _]|H]; [congruence|exact H]].
    - split.
      + intros [d' [z [E F]]]. injection E as <-. rewrite dget_dset in F.
        destruct (String.eqb_spec b b') as [<-|Nb]; [left; split; reflexivity|]. right. eauto.
      + intros [[_ <-]|[d' [z [E F]]]].
        * do 2 eexists. split; [reflexivity|]. rewrite dget_dset, eqb_refl'. reflexivity.
        * rewrite Ha in E. injection E as <-. eexists. destruct (String.eqb b b') eqn:EB; eexists;
            (split; [reflexivity|]); rewrite dget_dset, EB; [reflexivity|exact F].
    - split; [intros H; right; exact H|intros [[? _]|H]; [congruence|exact H]].
    - split.
      + intros [d' [z [E F]]]. injection E as <-. cbn in F. left.
        destruct (String.eqb_spec b' b) as [->|Nb]; [split; reflexivity|discriminate].
      + intros [[_ <-]|[d' [z [E F]]]]; [|congruence].
        do 2 eexists; (split; [reflexivity|]). cbn. rewrite eqb_refl'. reflexivity.
    - split; [intros H; right; exact H|intros [[? _]|H]; [congruence|exact H]].
  Qed.

  Lemma has_dec cl a b : {has_pair cl a b} + {~ has_pair cl a b}.
  Proof.
    destruct (dget cl a) as [d|] eqn:Ha.
    - destruct (dget d b) as [x|] eqn:Hb.
      + left. exists d, x. split; assumption.
      + right. intros [d' [x [E F]]]. congruence.
    - right. intros [d' [x [E F]]]. congruence.
  Qed.
  Lemma entry_has cl a b p v : entry cl a b p = Some v -> has_pair cl a b.
  Proof.
    unfold entry, has_pair. destruct (dget cl a) as [d|]; [|discriminate].
    destruct (dget d b) as [x|] eqn:E; [|discriminate]. intros _. exists d, x. split; [reflexivity|exact E].
  Qed.
  Lemma no_entry cl a b p : ~ has_pair cl a b -> entry cl a b p = None.
  Proof. intros H. destruct (entry cl a b p) eqn:E; [|reflexivity]. apply entry_has in E. contradiction. Qed.

  (** the guard of update_parameter *)
  Definition guard (beads types : list string) (p : string) (names : list string) : bool :=
    negb (Nat.ltb 2 (length names)) && forallb (fun b => smem b beads) names &&
    existsb (fun x => substring_in x p) types.

  (** which ordered pair the code writes to *)
  Definition target cl a b : string * string := if has_dec cl b a then (b, a) else (a, b).

  Lemma update_unfold e p names v :
    update_parameter e p names v =
    if guard (ep_beads e) (ep_types e) p names then
      match names with
      | [b] => Ok (set_bead_lib V e (dset (ep_bead_library e) b
                     (match dget (ep_bead_library e) b with Some d => dset d p v | None => [(p, v)] end)))
      | [a; b] => let t := target (ep_cross_library e) a b in
                  Ok (set_cross_lib V e (put_pair (ep_cross_library e) (fst t) (snd t) p v))
      | _ => Ok e
      end
    else Err ValueError.
  Proof.
    unfold update_parameter, guard.
    destruct (Nat.ltb 2 (length names)) eqn:L; cbn [negb andb]; [reflexivity|].
    destruct (forallb (fun b => smem b (ep_beads e)) names); cbn [negb andb]; [|reflexivity].
    destruct (existsb (fun x => substring_in x p) (ep_types e)); cbn [negb]; [|reflexivity].
    destruct names as [|a [|b [|c names]]]; try reflexivity.
    - destruct (dget (ep_bead_library e) a); reflexivity.
    - unfold target, put_pair. set (cl := ep_cross_library e).
      destruct (has_dec cl b a) as [[d [x [E F]]]|N]; cbn [fst snd].
      + rewrite E, F. reflexivity.
      + assert (Hn : match dget cl b with Some d => dget d a = None | None => True end).
        { destruct (dget cl b) as [d|] eqn:E; [|exact I]. destruct (dget d a) as [x|] eqn:F; [|reflexivity].
          exfalso. apply N. exists d, x. split; assumption. }
        destruct (dget cl b) as [d|] eqn:E; [rewrite Hn|];
          (destruct (dget cl a) as [d0|]; [destruct (dget d0 b)|]); reflexivity.
  Qed.

  Lemma one_order_put cl a b p v : one_order cl ->
    let t := target cl a b in one_order (put_pair cl (fst t) (snd t) p v).
  Proof.
    intros O. unfold target. destruct (has_dec cl b a) as [H|H]; cbn [fst snd]; intros x y Nxy Hx Hy;
      rewrite has_put in Hx, Hy; destruct Hx as [[<- <-]|Hx], Hy as [[E1 E2]|Hy].
    - congruence.
    - apply (O b a); assumption.
    - subst x y. apply (O b a); [congruence|assumption|assumption].
    - apply (O x y); assumption.
    - congruence.
    - contradiction.
    - subst x y. contradiction.
    - apply (O x y); assumption.
  Qed.

  Lemma pair_value_put cl a b p v x y q : one_order cl ->
    let t := target cl a b in
    let cl' := put_pair cl (fst t) (snd t) p v in
    (same_pair a b x y -> p = q -> pair_value cl' x y q = Some v) /\
    (~ (same_pair a b x y /\ p = q) -> pair_value cl' x y q = pair_value cl x y q).
  Proof.
    intros O t cl'. unfold pair_value, cl'. rewrite !entry_put. split.
    - intros SP <-. rewrite !eqb_refl', !andb_true_r.
      assert (T : fst t = a /\ snd t = b /\ entry cl b a p = None \/ fst t = b /\ snd t = a /\ (a <> b -> entry cl a b p = None)).
      { unfold t, target. destruct (has_dec cl b a) as [H|H]; cbn [fst snd].
        - right. split; [reflexivity|]. split; [reflexivity|]. intros N. apply no_entry. intros H'.
          apply (O a b); assumption.
        - left. split; [reflexivity|]. split; [reflexivity|]. apply no_entry; exact H. }
      destruct T as [[-> [-> T]]|[-> [-> T]]]; destruct SP as [[<- <-]|[<- <-]]; rewrite ?eqb_refl'; cbn [andb].
      + reflexivity.
      + destruct (String.eqb a b && String.eqb b a); [reflexivity|]. rewrite T. reflexivity.
      + destruct (String.eqb_spec b a) as [<-|N]; rewrite ?eqb_refl'; cbn [andb]; [reflexivity|].
        rewrite T by congruence. reflexivity.
      + reflexivity.
    - intros N.
      assert (T : (fst t = a /\ snd t = b) \/ (fst t = b /\ snd t = a)).
      { unfold t, target. destruct (has_dec cl b a); cbn; tauto. }
      assert (Z : forall c d, (c = x /\ d = y \/ c = y /\ d = x) ->
                 String.eqb (fst t) c && String.eqb (snd t) d && String.eqb p q = false).
      { intros c d Hcd. destruct (String.eqb_spec (fst t) c) as [E1|]; cbn [andb]; [|reflexivity].
        destruct (String.eqb_spec (snd t) d) as [E2|]; cbn [andb]; [|reflexivity].
        destruct (String.eqb_spec p q) as [E3|]; [|reflexivity].
        exfalso. apply N. split; [|exact E3]. unfold same_pair.
        destruct T as [[T1 T2]|[T1 T2]], Hcd as [[-> ->]|[-> ->]]; rewrite T1 in E1; rewrite T2 in E2; tauto. }
      rewrite !Z by tauto. reflexivity.
  Qed.

  (** histories *)
  Definition step e (u : string * list string * V) : eos_params V :=
    match update_parameter e (fst (fst u)) (snd (fst u)) (snd u) with Ok e' => e' | Err _ => e end.
  Definition run e us := fold_left step us e.

  Lemma step_const e u : ep_beads (step e u) = ep_beads e /\ ep_types (step e u) = ep_types e.
  Proof.
    unfold step. rewrite update_unfold. destruct (guard _ _ _ _); [|split; reflexivity].
    destruct (snd (fst u)) as [|a [|b [|c l]]]; split; reflexivity.
  Qed.

  Definition view_of e : view V :=
    {| vw_bead := bead_value (ep_bead_library e); vw_pair := pair_value (ep_cross_library e) |}.

  Lemma pairb_spec a b c d : pairb a b c d = true <-> same_pair a b c d.
  Proof.
    unfold pairb, same_pair. rewrite orb_true_iff, !andb_true_iff, !String.eqb_eq. reflexivity.
  Qed.

  Lemma same_view_apply (w1 w2 : view V) p names v : same_view w1 w2 -> same_view (apply w1 p names v) (apply w2 p names v).
  Proof.
    intros [A B]. destruct names as [|a [|b [|c l]]]; cbn; (split; cbn; [intros b' p'|intros x y q]);
      rewrite ?A, ?B; reflexivity.
  Qed.

  Lemma step_view e u : one_order (ep_cross_library e) ->
    one_order (ep_cross_library (step e u)) /\
    same_view (view_of (step e u))
      (if guard (ep_beads e) (ep_types e) (fst (fst u)) (snd (fst u))
       then apply (view_of e) (fst (fst u)) (snd (fst u)) (snd u) else view_of e).
  Proof.
    intros O. destruct u as [[p names] v]. unfold step. cbn [fst snd]. rewrite update_unfold.
    destruct (guard (ep_beads e) (ep_types e) p names).
    2:{ split; [exact O|split; reflexivity]. }
    destruct names as [|a [|b [|c l]]].
    - split; [exact O|split; reflexivity].
    - split; [exact O|]. split; [|reflexivity]. intros b' p'. cbn. unfold bead_value.
      rewrite dget_dset. destruct (String.eqb_spec a b') as [<-|N]; cbn [andb]; [|reflexivity].
      destruct (dget (ep_bead_library e) a) as [d|] eqn:E.
      + rewrite dget_dset. reflexivity.
      + cbn. rewrite (String.eqb_sym p' p). reflexivity.
    - split; [apply one_order_put; exact O|]. split; [reflexivity|]. intros x y q.
      cbn [view_of vw_pair ep_cross_library set_cross_lib apply].
      destruct (pair_value_put (ep_cross_library e) a b p v x y q O) as [P1 P2].
      destruct (pairb a b x y && String.eqb p q) eqn:E.
      + apply andb_true_iff in E. destruct E as [E1 E2]. apply P1; [apply pairb_spec; exact E1|apply String.eqb_eq; exact E2].
      + apply P2. intros [S1 S2]. apply pairb_spec in S1. apply String.eqb_eq in S2. rewrite S1, S2 in E. discriminate.
    - split; [exact O|split; reflexivity].
  Qed.

  Lemma run_view us e (w : view V) : one_order (ep_cross_library e) -> same_view (view_of e) w ->
    one_order (ep_cross_library (run e us)) /\
    same_view (view_of (run e us))
      (fold_left (fun w u => if guard (ep_beads e) (ep_types e) (fst (fst u)) (snd (fst u))
                             then apply w (fst (fst u)) (snd (fst u)) (snd u) else w) us w).
  Proof.
    revert e w. induction us as [|u us IH]; intros e w O S; cbn; [split; assumption|].
    destruct (step_view e u O) as [O' S']. destruct (step_const e u) as [C1 C2].
    specialize (IH (step e u)). rewrite C1, C2 in IH.
    change (run e (u :: us)) with (run (step e u) us). apply IH; [exact O'|].
    destruct S as [SA SB], S' as [SA' SB']. split; intros; rewrite ?SA', ?SB';
      destruct (guard _ _ _ _); try apply SA; try apply SB;
      apply (same_view_apply _ _ _ _ _ (conj SA SB)).
  Qed.
End Upd.

Section Guard.
  Lemma append_assoc a b c : (a ++ b) ++ c = a ++ (b ++ c).
  Proof. induction a as [|x a IH]; cbn; [reflexivity|]. rewrite IH. reflexivity. Qed.
  Lemma substring_decomp m n s t : substring m n s = t -> exists pre post, s = pre ++ t ++ post.
  Proof.
    revert m n t. induction s as [|c s IH]; intros m n t H.
    - destruct m, n; cbn in H; subst t; exists "", ""; reflexivity.
    - destruct m as [|m].
      + destruct n as [|n]; cbn in H.
        * subst t. exists "", (String c s). reflexivity.
        * destruct t as [|d t]; [discriminate|]. injection H as <- H.
          assert (E : exists post, s = t ++ post).
          { clear IH. revert n t H. induction s as [|c' s IH]; intros n t H.
            - destruct n; cbn in H; subst t; exists ""; reflexivity.
            - destruct n as [|n]; cbn in H; [subst t; exists (String c' s); reflexivity|].
              destruct t as [|d t]; [discriminate|]. injection H as <- H.
              destruct (IH n t H) as [post ->]. exists post. reflexivity. }
          destruct E as [post ->]. exists "", post. reflexivity.
      + cbn in H. destruct (IH m n t H) as [pre [post ->]]. exists (String c pre), post. reflexivity.
  Qed.
  Lemma substring_app pre t post : substring (String.length pre) (String.length t) (pre ++ t ++ post) = t.
  Proof.
    induction pre as [|c pre IH]; cbn; [|exact IH].
    induction t as [|c t IH]; cbn; [destruct post; reflexivity|]. rewrite IH. reflexivity.
  Qed.
  Lemma substring_in_spec t s : substring_in t s = true <-> occurs_in t s.
  Proof.
    unfold substring_in, occurs_in. destruct (index 0 t s) as [m|] eqn:E.
    - split; [intros _|reflexivity]. apply index_correct1 in E. eapply substring_decomp; exact E.
    - split; [discriminate|]. intros [pre [post ->]]. exfalso.
      destruct t as [|c t]; [destruct (pre ++ "" ++ post); cbn in E; discriminate|].
      refine (index_correct3 0 (String.length pre) (String c t) (pre ++ String c t ++ post) E _ _ _);
        [discriminate|lia|apply substring_app].
  Qed.
  Lemma guard_spec beads types p names :
    guard beads types p names = true <-> acceptable beads types p names.
  Proof.
    unfold guard, acceptable. rewrite !andb_true_iff, negb_true_iff, Nat.ltb_ge, forallb_forall, existsb_exists.
    split.
    - intros [[A B] [t [C D]]]. split; [exact A|]. split.
      + intros b Hb. apply smem_In. apply B; exact Hb.
      + exists t. split; [exact C|]. apply substring_in_spec; exact D.
    - intros [A [B [t [C D]]]]. split; [split; [exact A|]|].
      + intros b Hb. apply smem_In. apply B; exact Hb.
      + exists t. split; [exact C|]. apply substring_in_spec; exact D.
  Qed.
End Guard.

Lemma updates_fold V beads types us (w : view V) :
  updates beads types w us
    (fold_left (fun w u => if guard beads types (fst (fst u)) (snd (fst u))
                           then apply w (fst (fst u)) (snd (fst u)) (snd u) else w) us w).
Proof.
  revert w. induction us as [|[[p names] v] us IH]; intros w; cbn; [constructor|].
  destruct (guard beads types p names) eqn:G.
  - apply upd_accept; [apply guard_spec; exact G|apply IH].
  - apply upd_refuse; [|apply IH]. intros A. apply guard_spec in A. congruence.
Qed.

Lemma run_spec V (e : eos_params V) us : one_order (ep_cross_library e) ->
  exists w, updates (ep_beads e) (ep_types e) (view_of V e) us w /\ same_view (view_of V (run V e us)) w /\
            one_order (ep_cross_library (run V e us)).
Proof.
  intros O. destruct (run_view V us e (view_of V e) O) as [O' S]; [split; reflexivity|].
  eexists. split; [apply updates_fold|]. split; [exact S|exact O'].
Qed.

Lemma update_refused V (e : eos_params V) p names v :
  (exists e', update_parameter e p names v = Ok e') <-> acceptable (ep_beads e) (ep_types e) p names.
Proof.
  rewrite <- guard_spec, update_unfold. destruct (guard _ _ _ _); split; intros H; try reflexivity; try discriminate.
  - destruct names as [|a [|b [|c l]]]; eexists; reflexivity.
  - destruct H as [e' H]; discriminate.
Qed.
