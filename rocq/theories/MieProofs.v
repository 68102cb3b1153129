(** Proofs about the SAFT-gamma-Mie object: caches and refresh. *)
From Coq Require Import Reals Lra Lia.
From Verif Require Import Base BaseFacts RSum IOModel EosToolboxModel EosToolboxSpec EosToolboxProofs CombiningModel
  SaftToolboxModel SwModel SwProofs SwProofs2 MieExtModel MieExtProps MieModel.
From Verif Require EosToolboxProps.
Open Scope string_scope.

Lemma mie_defaults_nodup : NoDup (dkeys mie_defaults).
Proof. repeat constructor; cbn; intuition discriminate. Qed.

Section Mie.
  Variable mapsci : option (bead -> bead -> option R -> result (dict R)).
  Notation mie_init := (mie_init mapsci). Notation mie_refresh := (mie_refresh mapsci).
  Notation mie_matrices := (mie_matrices mapsci).
  Notation mie_step := (mie_step mapsci). Notation mie_run := (mie_run mapsci).

  Definition mpre (s : mie) : Prop :=
    ep_types (mi_par s) = mie_types /\ complete mie_defaults (mlib s) /\
    extract_property R "Vks" (mlib s) (mbeads s) (Some 1%R) = Ok (mi_Vks s).
  (** no update is waiting for a refresh; nothing is said about the tables *)
  Definition msettled (s : mie) : Prop :=
    extract_property R "Sk" (mlib s) (mbeads s) (Some 1%R) = Ok (mi_Sk s) /\
    mie_matrices (mi_rules s) (mbeads s) (mlib s) (mcross s) = Ok (mi_mats s) /\
    prefactor_matrix (mm s) (mi_mats s) = Ok (mi_Ckl s) /\
    mi_avg s = mie_averages (mm s) (mi_nu s) (arr (mi_Vks s)) (arr (mi_Sk s)) (mi_mats s) /\
    mi_alpha s = mie_alpha (mi_mats s) (mi_Ckl s) /\
    match mi_comp s with Some (x, c) => mie_composition s x = Ok c | None => True end.
  (** the tables are those of the stored temperature *)
  Definition tab_ok (s : mie) : Prop :=
    match mi_T s with None => True | Some T => exists t, mi_tab s = Some t /\ mie_tables_at s T = Ok t end.
  Definition tab_weak (T0 : R) (s : mie) : Prop := mi_T s = Some T0 \/ tab_ok s.

  Lemma mie_init_ok rules beads lib cl n nu rings s : mie_init rules beads lib cl n nu rings = Ok s ->
    mpre s /\ msettled s /\ tab_ok s.
  Proof.
    unfold MieModel.mie_init. destruct (snd (check_bead_parameters R lib mie_defaults)) as [lib'|] eqn:E1; cbn [rbind]; [|discriminate].
    destruct (extract_property R "Vks" lib' beads (Some 1%R)) as [V|] eqn:E2; cbn [rbind]; [|discriminate].
    destruct (extract_property R "Sk" lib' beads (Some 1%R)) as [Sk|] eqn:E3; cbn [rbind]; [|discriminate].
    destruct (mie_matrices rules beads lib' cl) as [mats|] eqn:E4; cbn [rbind]; [|discriminate].
    destruct (prefactor_matrix (length beads) mats) as [Ckl|] eqn:E5; cbn [rbind]; [|discriminate].
    intros H. injection H as <-. split; [|split].
    - split; [reflexivity|]. split; [exact (checked_complete _ _ _ mie_defaults_nodup E1)|exact E2].
    - split; [exact E3|]. split; [exact E4|]. split; [exact E5|]. split; [reflexivity|]. split; [reflexivity|exact I].
    - exact I.
  Qed.

  Definition cold (s : mie) : mie := with_mcomp (with_T s None None) None.
  Lemma mie_rebuild s : mpre s -> msettled s ->
    mie_init (mi_rules s) (mbeads s) (mlib s) (mcross s) (mi_n s) (mi_nu s) (mi_rings s) = Ok (cold s).
  Proof.
    intros [P1 [P2 P3]] [S1 [S2 [S3 [S4 [S5 _]]]]]. unfold MieModel.mie_init.
    rewrite (EosToolboxProps.C14_complete_library_kept R (mlib s) mie_defaults mie_defaults_nodup P2). cbn [snd rbind].
    rewrite P3, S1. cbn [rbind]. rewrite S2. cbn [rbind]. unfold mm in S3. rewrite S3. cbn [rbind].
    fold (mm s). rewrite <- S4, <- S5, <- P1. unfold cold, with_mcomp, with_T, mlib, mbeads, mcross.
    destruct s as [[? ? ? ?] ? ? ? ? ? ? ? ? ? ? ? ? ?]. reflexivity.
  Qed.

  (** after a refresh the tables can be computed at every temperature *)
  Lemma tables_total s T : mpre s -> msettled s -> exists t, mie_tables_at s T = Ok t.
  Proof.
    intros [P1 [P2 P3]] [S1 [S2 [S3 _]]].
    assert (G : exists dkk, mapM (bead_diameter (mlib s) T) (mbeads s) = Ok dkk).
    { assert (F : forall b, In b (mbeads s) -> exists d, bead_diameter (mlib s) T b = Ok d).
      { intros b Hb. destruct (extract_beads _ _ _ _ P3 b Hb) as [d Hd].
        destruct (In_nth_error _ _ Hb) as [k Hk].
        destruct (cross_diag _ _ _ _ _ _ _ _ S2 "lambdar" k b ltac:(cbn; tauto) Hk) as [d' [Hd' Hlr]].
        rewrite Hd in Hd'. injection Hd' as <-.
        assert (Hnz : mi_mats s "lambdar" k k <> 0%R).
        { intros Z. unfold prefactor_matrix in S3. destruct (existsb _ _) eqn:X in S3; [discriminate|].
          assert (Hlt : (k < mm s)%nat) by (apply nth_error_Some; unfold mbeads in Hk; unfold mbeads; congruence).
          assert (Hin : In (k, k) (list_prod (seq 0 (mm s)) (seq 0 (mm s)))) by (apply in_prod; apply in_seq; lia).
          assert (Y := proj2 (existsb_exists (fun kl => if Req_EM_T (mi_mats s "lambdar" (fst kl) (snd kl)) 0 then true else false)
               (list_prod (seq 0 (mm s)) (seq 0 (mm s))))).
          rewrite X in Y. discriminate Y. exists (k, k). split; [exact Hin|]. cbn. destruct (Req_EM_T _ 0); congruence. }
        assert (K : forall p o, dget mie_defaults p = Some o -> exists v, dget d p = Some v).
        { intros p o Hp. apply dget_In in Hd. pose proof (P2 b d p o Hd Hp) as N. destruct (dget d p); [eauto|congruence]. }
        destruct (K "lambdaa" _ eq_refl) as [la Ela]. destruct (K "epsilon" _ eq_refl) as [e Ee]. destruct (K "sigma" _ eq_refl) as [sg Es].
        unfold bead_diameter, dfetch. rewrite Hd. cbn [rbind]. rewrite Hlr. cbn [rbind]. rewrite Ela. cbn [rbind].
        rewrite (prefactor_ok _ la Hnz). cbn [rbind]. rewrite Ee. cbn [rbind]. rewrite Es. cbn [rbind]. eauto. }
      clear - F. induction (mbeads s) as [|b l IH]; [eexists; reflexivity|].
      destruct (F b (or_introl eq_refl)) as [d Hd]. destruct IH as [ds Hds]; [intros; apply F; right; assumption|].
      cbn. rewrite Hd. cbn [rbind]. rewrite Hds. cbn [rbind]. eauto. }
    destruct G as [dkk G]. unfold mie_tables_at. rewrite G. cbn [rbind]. eauto.
  Qed.

  (** what an evaluation does when the tables are right or will be recomputed *)
  Lemma refreshed_spec {A} s T xi (f : mie -> mie_tables -> R -> (nat -> nat -> R) -> result A) :
    mpre s -> msettled s -> (tab_ok s \/ mi_T s <> Some T) ->
    exists t, mie_tables_at s T = Ok t /\
    refreshed s T xi f =
      match mie_composition s xi with
      | Ok (C, X) => let s' := with_mcomp (with_T s (Some T) (Some t)) (Some (xi, (C, X))) in (s', f s' t C X)
      | Err e => (with_T s (Some T) (Some t), Err e)
      end.
  Proof.
    intros P S H. destruct (tables_total s T P S) as [t Ht]. exists t. split; [exact Ht|].
    assert (CT : check_temperature s T = (with_T s (Some T) (Some t), Ok tt)).
    { unfold check_temperature. destruct (mi_T s) as [T'|] eqn:E; [destruct (Req_EM_T T' T) as [->|N]|].
      - destruct H as [H|H]; [|congruence]. unfold tab_ok in H. rewrite E in H. destruct H as [t' [H1 H2]].
        assert (t' = t) by congruence. subst t'. rewrite <- E, <- H1. destruct s; reflexivity.
      - rewrite Ht. reflexivity.
      - rewrite Ht. reflexivity. }
    unfold refreshed. rewrite CT. destruct S as [_ [_ [_ [_ [_ S6]]]]].
    unfold check_mie_composition. cbn [mi_comp with_T].
    change (mie_composition (with_T s (Some T) (Some t)) xi) with (mie_composition s xi).
    destruct (mi_comp s) as [[x c]|] eqn:E.
    - destruct (list_eq_dec Req_EM_T x xi) as [->|N].
      + rewrite S6. destruct c as [C X]. cbn [mi_tab mi_comp with_T]. rewrite E. cbv zeta.
        unfold with_mcomp, with_T. cbn. rewrite <- E. reflexivity.
      + destruct (mie_composition s xi) as [[C X]|e]; reflexivity.
    - destruct (mie_composition s xi) as [[C X]|e]; reflexivity.
  Qed.

  (** in any case only caches change *)
  Lemma refreshed_state {A} s T xi (f : mie -> mie_tables -> R -> (nat -> nat -> R) -> result A) T0 :
    mpre s -> msettled s -> tab_weak T0 s ->
    exists T' tab c, fst (refreshed s T xi f) = with_mcomp (with_T s T' tab) c /\
      msettled (fst (refreshed s T xi f)) /\ tab_weak T0 (fst (refreshed s T xi f)) /\
      (tab_ok s -> tab_ok (fst (refreshed s T xi f))).
  Proof.
    intros P S W. pose proof S as [S1 [S2 [S3 [S4 [S5 S6]]]]].
    assert (D : (tab_ok s \/ mi_T s <> Some T) \/ (mi_T s = Some T /\ T0 = T)).
    { destruct W as [W|W]; [|auto]. destruct (Req_EM_T T0 T) as [->|N]; [auto|]. left; right. congruence. }
    destruct D as [D|[ET ->]].
    - destruct (refreshed_spec s T xi f P S D) as [t [Ht ->]].
      destruct (mie_composition s xi) as [[C X]|e] eqn:EC; cbv zeta; cbn [fst].
      + exists (Some T), (Some t), (Some (xi, (C, X))). split; [reflexivity|]. split; [|split].
        * repeat split; assumption.
        * right. unfold tab_ok. cbn. exists t. split; [reflexivity|exact Ht].
        * intros _. unfold tab_ok. cbn. exists t. split; [reflexivity|exact Ht].
      + exists (Some T), (Some t), (mi_comp s). split; [destruct s; reflexivity|]. split; [|split].
        * repeat split; assumption.
        * right. unfold tab_ok. cbn. exists t. split; [reflexivity|exact Ht].
        * intros _. unfold tab_ok. cbn. exists t. split; [reflexivity|exact Ht].
    - assert (CT : check_temperature s T = (s, Ok tt)).
      { unfold check_temperature. rewrite ET. destruct (Req_EM_T T T); [reflexivity|congruence]. }
      unfold refreshed. rewrite CT.
      assert (K : forall x c, mie_composition s x = Ok c -> msettled (with_mcomp s (Some (x, c))) /\ tab_weak T (with_mcomp s (Some (x, c)))).
      { intros x c Hc. split; [repeat split; assumption|]. left. exact ET. }
      assert (Sm : exists T' tab c, s = with_mcomp (with_T s T' tab) c /\ msettled s /\ tab_weak T s /\ (tab_ok s -> tab_ok s)).
      { exists (mi_T s), (mi_tab s), (mi_comp s). split; [destruct s; reflexivity|]. repeat split; auto. }
      assert (Nw : forall c, mie_composition s xi = Ok c -> exists T' tab c', with_mcomp s (Some (xi, c)) = with_mcomp (with_T s T' tab) c' /\
          msettled (with_mcomp s (Some (xi, c))) /\ tab_weak T (with_mcomp s (Some (xi, c))) /\ (tab_ok s -> tab_ok (with_mcomp s (Some (xi, c))))).
      { intros c Hc. exists (mi_T s), (mi_tab s), (Some (xi, c)). split; [destruct s; reflexivity|].
        destruct (K xi c Hc). split; [assumption|]. split; [assumption|]. intros Ht. exact Ht. }
      unfold check_mie_composition. destruct (mi_comp s) as [[x c]|] eqn:E.
      + destruct (list_eq_dec Req_EM_T x xi) as [->|N].
        * rewrite E. destruct (mi_tab s); [destruct c as [C X]|]; exact Sm.
        * destruct (mie_composition s xi) as [[C X]|e] eqn:EC; cbn [rbind]; [|exact Sm].
          cbn [mi_tab mi_comp with_mcomp]. destruct (mi_tab s); exact (Nw _ eq_refl).
      + destruct (mie_composition s xi) as [[C X]|e] eqn:EC; cbn [rbind]; [|exact Sm].
        cbn [mi_tab mi_comp with_mcomp]. destruct (mi_tab s); exact (Nw _ eq_refl).
  Qed.

  Lemma residual_refreshed s rho T xi : (exists r, mie_residual s rho T xi = (s, Err r)) \/
    exists f, mie_residual s rho T xi = refreshed s T xi f.
  Proof.
    unfold mie_residual. destruct (negb _); [left; eauto|]. destruct (match rho with [] => true | _ => false end); [left; eauto|].
    destruct (existsb _ rho); [left; eauto|]. destruct (existsb _ xi); [left; eauto|]. right. eauto.
  Qed.

  Definition mis_eval (o : mie_op) : Prop := match o with MEval _ _ _ | MMax _ _ _ => True | _ => False end.
  Lemma with_self s : s = with_mcomp (with_T s (mi_T s) (mi_tab s)) (mi_comp s).
  Proof. destruct s; reflexivity. Qed.
  Lemma eval_state T0 o s : mis_eval o -> mpre s -> msettled s -> tab_weak T0 s ->
    exists s', mie_step s o = Ok s' /\ (exists T' tab c, s' = with_mcomp (with_T s T' tab) c) /\ mpre s' /\ msettled s' /\ tab_weak T0 s' /\
      (tab_ok s -> tab_ok s').
  Proof.
    intros He P S W. pose proof P as [P1 [P2 P3]].
    assert (Done : forall s' T' tab c, s' = with_mcomp (with_T s T' tab) c -> mpre s') by (intros ? ? ? ? ->; repeat split; assumption).
    destruct o as [rho T xi|xi T mp| |]; try contradiction; cbn [MieModel.mie_step].
    - eexists. split; [reflexivity|]. destruct (residual_refreshed s rho T xi) as [[r ->]|[f ->]]; cbn [fst].
      + split; [exists (mi_T s), (mi_tab s), (mi_comp s); apply with_self|]. auto.
      + destruct (refreshed_state s T xi f T0 P S W) as [T' [tab [c [E [A [B D]]]]]]. split; [eauto|]. split; [eapply Done; exact E|]. auto.
    - eexists. split; [reflexivity|]. unfold mie_density_max. destruct (negb _); cbn [fst].
      + split; [exists (mi_T s), (mi_tab s), (mi_comp s); apply with_self|]. auto.
      + match goal with |- context [refreshed s T xi ?f] => destruct (refreshed_state s T xi f T0 P S W) as [T' [tab [c [E [A [B D]]]]]] end.
        split; [eauto|]. split; [eapply Done; exact E|]. auto.
  Qed.
  Lemma evals_state T0 l s s' : Forall mis_eval l -> mpre s -> msettled s -> tab_weak T0 s -> mie_run s l = Ok s' ->
    (exists T' tab c, s' = with_mcomp (with_T s T' tab) c) /\ mpre s' /\ msettled s' /\ tab_weak T0 s' /\ (tab_ok s -> tab_ok s').
  Proof.
    revert s. induction l as [|o l IH]; intros s F P S W H.
    - cbn in H. injection H as <-. split; [exists (mi_T s), (mi_tab s), (mi_comp s); apply with_self|]. auto.
    - inversion F as [|? ? Fo Fl]; subst.
      destruct (eval_state T0 o s Fo P S W) as [s1 [E [[T1 [t1 [c1 X1]]] [P' [S' [W' K']]]]]]. cbn in H. rewrite E in H. cbn [rbind] in H.
      destruct (IH s1 Fl P' S' W' H) as [[T2 [t2 [c2 X2]]] [P'' [S'' [W'' K'']]]].
      split; [|split; [exact P''|split; [exact S''|split; [exact W''|auto]]]].
      exists T2, t2, c2. rewrite X2, X1. reflexivity.
  Qed.

  (** an object whose tables are right, or will be recomputed, answers like a fresh one *)
  Lemma refreshed_cold {A} s T xi (f : mie -> mie_tables -> R -> (nat -> nat -> R) -> result A) :
    mpre s -> msettled s -> (tab_ok s \/ mi_T s <> Some T) ->
    snd (refreshed s T xi f) = snd (refreshed (cold s) T xi f).
  Proof.
    intros P S H. destruct (refreshed_spec s T xi f P S H) as [t [Ht ->]].
    assert (P' : mpre (cold s)) by (destruct P as [P1 [P2 P3]]; repeat split; assumption).
    assert (S' : msettled (cold s)) by (destruct S as [S1 [S2 [S3 [S4 [S5 _]]]]]; repeat split; assumption).
    destruct (refreshed_spec (cold s) T xi f P' S' (or_introl I)) as [t' [Ht' ->]].
    change (mie_tables_at (cold s) T) with (mie_tables_at s T) in Ht'. rewrite Ht in Ht'. injection Ht' as <-.
    change (mie_composition (cold s) xi) with (mie_composition s xi).
    destruct (mie_composition s xi) as [[C X]|e]; reflexivity.
  Qed.
  Lemma mie_residual_cold s rho T xi : mpre s -> msettled s -> (tab_ok s \/ mi_T s <> Some T) ->
    snd (mie_residual s rho T xi) = snd (mie_residual (cold s) rho T xi).
  Proof.
    intros P S H. unfold mie_residual. change (mi_n (cold s)) with (mi_n s).
    destruct (negb _); [reflexivity|]. destruct (match rho with [] => true | _ => false end); [reflexivity|].
    destruct (existsb _ rho); [reflexivity|]. destruct (existsb _ xi); [reflexivity|]. apply refreshed_cold; assumption.
  Qed.
  Lemma mie_density_max_cold s xi T mp : mpre s -> msettled s -> (tab_ok s \/ mi_T s <> Some T) ->
    snd (mie_density_max s xi T mp) = snd (mie_density_max (cold s) xi T mp).
  Proof.
    intros P S H. unfold mie_density_max. change (mi_n (cold s)) with (mi_n s).
    destruct (negb _); [reflexivity|]. apply refreshed_cold; assumption.
  Qed.

  Lemma check_temperature_state s T : exists T' tab, fst (check_temperature s T) = with_T s T' tab.
  Proof.
    unfold check_temperature. destruct (match mi_T s with Some T' => _ | None => false end).
    - exists (mi_T s), (mi_tab s). destruct s; reflexivity.
    - destruct (mie_tables_at s T); eexists; eexists; reflexivity.
  Qed.
  Lemma refreshed_any {A} s T xi (f : mie -> mie_tables -> R -> (nat -> nat -> R) -> result A) :
    exists T' tab c, fst (refreshed s T xi f) = with_mcomp (with_T s T' tab) c.
  Proof.
    unfold refreshed. destruct (check_temperature_state s T) as [T' [tab E]]. destruct (check_temperature s T) as [s1 r]; cbn in E. subst s1.
    destruct r; [|exists T', tab, (mi_comp s); destruct s; reflexivity].
    unfold check_mie_composition. cbn [mi_comp with_T].
    assert (Sm : forall (r : result A), exists T'0 tab0 c, fst (with_T s T' tab, r) = with_mcomp (with_T s T'0 tab0) c)
      by (intros; exists T', tab, (mi_comp s); destruct s; reflexivity).
    destruct (mi_comp s) as [[x c]|] eqn:EC; [destruct (list_eq_dec Req_EM_T x xi)|].
    - cbn [mi_tab mi_comp with_T]. rewrite EC. destruct tab; [destruct c|]; apply Sm.
    - destruct (mie_composition _ xi) as [[C X]|]; cbn [rbind]; [|apply Sm]. cbn [mi_tab mi_comp with_T with_mcomp].
      destruct tab; eexists; eexists; eexists; reflexivity.
    - destruct (mie_composition _ xi) as [[C X]|]; cbn [rbind]; [|apply Sm]. cbn [mi_tab mi_comp with_T with_mcomp].
      destruct tab; eexists; eexists; eexists; reflexivity.
  Qed.
  Lemma eval_any o s : mis_eval o -> exists s', mie_step s o = Ok s' /\ exists T' tab c, s' = with_mcomp (with_T s T' tab) c.
  Proof.
    intros He. destruct o as [rho T xi|xi T mp| |]; try contradiction; cbn [MieModel.mie_step]; (eexists; split; [reflexivity|]).
    - destruct (residual_refreshed s rho T xi) as [[r ->]|[f ->]]; [|apply refreshed_any].
      exists (mi_T s), (mi_tab s), (mi_comp s). apply with_self.
    - unfold mie_density_max. destruct (negb _); [|apply refreshed_any].
      exists (mi_T s), (mi_tab s), (mi_comp s). apply with_self.
  Qed.

  Lemma mie_update_pre s p names v s' : mpre s -> mie_update s p names v = Ok s' -> mpre s'.
  Proof.
    intros [P1 [P2 P3]] H. unfold mie_update, saft_update_parameter in H.
    destruct (Nat.ltb 1 (length (split_dash p)) && negb (Nat.eqb (length (tl (split_dash p))) 2)); [discriminate|].
    rewrite update_unfold in H. destruct (guard (ep_beads (mi_par s)) (ep_types (mi_par s)) p names) eqn:G; [|discriminate].
    assert (NV : p <> "Vks").
    { intros ->. unfold guard in G. rewrite P1 in G. apply andb_true_iff in G. destruct G as [_ G]. vm_compute in G. discriminate. }
    destruct names as [|a [|b [|c l]]]; cbn [rbind] in H; injection H as <-.
    - split; [exact P1|split; [exact P2|exact P3]].
    - assert (Ha : In a (mbeads s)).
      { unfold guard in G. apply andb_true_iff in G. destruct G as [G _]. apply andb_true_iff in G. destruct G as [_ G].
        cbn in G. rewrite andb_true_r in G. apply smem_In. exact G. }
      destruct (extract_beads _ _ _ _ P3 a Ha) as [d Hd]. unfold mlib in Hd.
      unfold mpre, mlib, mbeads. cbn. rewrite Hd.
      split; [exact P1|]. split.
      + intros x xd q o Hin D. apply In_dset in Hin. destruct Hin as [Hin|Hin].
        * injection Hin as -> ->. rewrite dget_dset. destruct (String.eqb p q); [discriminate|].
          apply dget_In in Hd. exact (P2 a d q o Hd D).
        * exact (P2 x xd q o Hin D).
      + rewrite <- P3. apply extract_ext. intros x Hx. unfold mlib. rewrite dget_dset.
        destruct (String.eqb_spec a x) as [<-|N].
        * rewrite Hd. apply dget_dset_other. congruence.
        * destruct (dget (ep_bead_library (mi_par s)) x); auto.
    - split; [exact P1|split; [exact P2|exact P3]].
    - split; [exact P1|split; [exact P2|exact P3]].
  Qed.

  Lemma mie_refresh_ok s s' : mpre s -> mie_refresh s = Ok s' -> mpre s' /\ msettled s' /\ (exists T, mi_T s' = Some T) /\
    mi_par s' = mi_par s /\ mi_rules s' = mi_rules s /\ mi_n s' = mi_n s /\ mi_nu s' = mi_nu s /\ mi_rings s' = mi_rings s.
  Proof.
    intros [P1 [P2 P3]] H. unfold MieModel.mie_refresh in H.
    destruct (extract_property R "Sk" (mlib s) (mbeads s) (Some 1%R)) as [Sk|] eqn:E1; cbn [rbind] in H; [|discriminate].
    destruct (mie_matrices (mi_rules s) (mbeads s) (mlib s) (mcross s)) as [mats|] eqn:E2; cbn [rbind] in H; [|discriminate].
    set (s1 := {| mi_par := mi_par s |}) in H.
    set (T := match mi_T s1 with Some T => T | None => 298%R end) in H.
    assert (CT : exists T' tab, fst (check_temperature s1 T) = with_T s1 (Some T') tab).
    { unfold check_temperature. destruct (mi_T s1) as [T1|] eqn:ET1.
      - destruct (Req_EM_T T1 T).
        + exists T1, (mi_tab s1). cbn [fst]. rewrite <- ET1. destruct s1; reflexivity.
        + destruct (mie_tables_at s1 T); eexists; eexists; reflexivity.
      - destruct (mie_tables_at s1 T); eexists; eexists; reflexivity. }
    destruct CT as [T' [tab CT]]. destruct (check_temperature s1 T) as [s2 ok]. cbn in CT. subst s2.
    destruct ok; cbn [rbind] in H; [|discriminate].
    cbn [mi_comp with_T s1] in H. change (mm (with_T s1 (Some T') tab)) with (mm s) in H.
    change (mie_composition (with_T s1 (Some T') tab)) with (mie_composition s) in H.
    destruct (match mi_comp s with Some (x, _) => let* c := mie_composition s x in Ok (Some (x, c)) | None => Ok None end)
      as [comp|] eqn:E4; cbn [rbind] in H; [|discriminate].
    destruct (prefactor_matrix (mm s) mats) as [Ckl|] eqn:E5; cbn [rbind] in H; [|discriminate].
    injection H as <-. split; [|split; [|split; [eexists; reflexivity|repeat split; reflexivity]]].
    - split; [exact P1|split; [exact P2|exact P3]].
    - split; [exact E1|]. split; [exact E2|]. split; [exact E5|]. split; [reflexivity|]. split; [reflexivity|]. cbn [mi_comp].
      destruct (mi_comp s) as [[x c0]|] eqn:E6.
      + destruct (mie_composition s x) as [c|] eqn:E7; cbn in E4; [|discriminate]. injection E4 as <-. exact E7.
      + injection E4 as <-. exact I.
  Qed.

  (** the parameters after a history: the accepted updates, in order *)
  Definition mie_updated (par : eos_params R) (h : list mie_op) : eos_params R :=
    fold_left (fun par o => match o with
                            | MUpdate p names v => match saft_update_parameter par p names v with Ok par' => par' | Err _ => par end
                            | _ => par
                            end) h par.
  Lemma mie_run_inv h s s' : mpre s -> mie_run s h = Ok s' ->
    mpre s' /\ mi_par s' = mie_updated (mi_par s) h /\ mi_rules s' = mi_rules s /\ mi_n s' = mi_n s /\ mi_nu s' = mi_nu s /\ mi_rings s' = mi_rings s.
  Proof.
    revert s. induction h as [|o h IH]; intros s P H; cbn in H; [injection H as <-; repeat split; apply P|].
    destruct (mie_step s o) as [s1|] eqn:E; cbn in H; [|discriminate].
    assert (G : mpre s1 /\ mi_par s1 = (match o with
                          | MUpdate p names v => match saft_update_parameter (mi_par s) p names v with Ok par' => par' | Err _ => mi_par s end
                          | _ => mi_par s end) /\ mi_rules s1 = mi_rules s /\ mi_n s1 = mi_n s /\ mi_nu s1 = mi_nu s /\ mi_rings s1 = mi_rings s).
    { clear H IH. destruct o as [rho T xi|xi T mp|p names v|].
      - destruct (eval_any (MEval rho T xi) s I) as [s2 [E2 [T' [tab [c ->]]]]]. rewrite E2 in E. injection E as <-.
        destruct P as [P1 [P2 P3]]. repeat split; assumption.
      - destruct (eval_any (MMax xi T mp) s I) as [s2 [E2 [T' [tab [c ->]]]]]. rewrite E2 in E. injection E as <-.
        destruct P as [P1 [P2 P3]]. repeat split; assumption.
      - cbn in E. destruct (mie_update s p names v) as [s2|] eqn:U; injection E as <-.
        + split; [exact (mie_update_pre _ _ _ _ _ P U)|]. unfold mie_update in U.
          destruct (saft_update_parameter (mi_par s) p names v); cbn in U; [injection U as <-; repeat split|discriminate].
        + unfold mie_update in U. destruct (saft_update_parameter (mi_par s) p names v); cbn in U; [discriminate|]. repeat split; apply P.
      - destruct (mie_refresh_ok s s1 P E) as [A [B [D [F1 [F2 [F3 [F4 F5]]]]]]]. repeat split; auto; apply A. }
    destruct G as [P1 [G1 [G2 [G3 [G4 G5]]]]]. destruct (IH s1 P1 H) as [I0 [I1 [I2 [I3 [I4 I5]]]]].
    split; [exact I0|]. unfold mie_updated. cbn [fold_left]. fold (mie_updated (mi_par s1) h) in I1.
    rewrite I1, I2, I3, I4, I5, G1, G2, G3, G4, G5. repeat split.
  Qed.
  Lemma mie_run_app l1 l2 s : mie_run s (l1 ++ l2) = match mie_run s l1 with Ok s1 => mie_run s1 l2 | Err e => Err e end.
  Proof.
    revert s. induction l1 as [|o l1 IH]; intros s; cbn; [reflexivity|].
    destruct (mie_step s o) as [s1|]; cbn; [apply IH|reflexivity].
  Qed.
End Mie.
