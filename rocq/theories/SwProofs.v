(** Proofs about the SAFT-gamma-SW object: caches and refresh. *)
From Coq Require Import Reals.
From Verif Require Import Base BaseFacts RSum IOModel EosToolboxModel EosToolboxSpec EosToolboxProofs CombiningModel
  SaftToolboxModel SwModel.
From Verif Require EosToolboxProps.
Open Scope string_scope.

Definition complete (defaults : dict (option R)) (lib : dict (dict R)) : Prop :=
  forall b bd p o, In (b, bd) lib -> dget defaults p = Some o -> dget bd p <> None.

Lemma fill_complete defaults bd bd' : NoDup (dkeys defaults) ->
  fill_defaults R defaults bd = (bd', true) -> forall p o, dget defaults p = Some o -> dget bd' p <> None.
Proof.
  intros ND H p o E. destruct (fill_spec R defaults bd bd' true ND H) as [A _]. destruct (A eq_refl) as [A1 A2].
  rewrite A1, E. destruct (dget bd p) eqn:F; [discriminate|]. destruct o; [discriminate|]. exfalso. exact (A2 p E F).
Qed.
Lemma check_beads_complete defaults lib lib' : NoDup (dkeys defaults) ->
  check_beads R lib defaults = (lib', true) -> complete defaults lib'.
Proof.
  intros ND. revert lib'. induction lib as [|[b bd] lib IH]; intros lib' H; cbn in H.
  - injection H as <-. intros ? ? ? ? [].
  - destruct (fill_defaults R defaults bd) as [bd1 ok] eqn:F. destruct ok; [|discriminate].
    destruct (check_beads R lib defaults) as [rest ok'] eqn:G. injection H as <- ->.
    intros x xd p o [E|Hin] D.
    + injection E as <- <-. exact (fill_complete _ _ _ ND F p o D).
    + exact (IH rest eq_refl x xd p o Hin D).
Qed.
Lemma checked_complete defaults lib lib' : NoDup (dkeys defaults) ->
  snd (check_bead_parameters R lib defaults) = Ok lib' -> complete defaults lib'.
Proof.
  intros ND H. unfold check_bead_parameters in H. destruct (check_beads R lib defaults) as [l ok] eqn:E.
  cbn [snd] in H. destruct ok; [|discriminate]. injection H as <-. exact (check_beads_complete _ _ _ ND E).
Qed.
Lemma In_dset {A} (d : dict A) k v k' v' : In (k', v') (dset d k v) -> (k', v') = (k, v) \/ In (k', v') d.
Proof.
  induction d as [|[a x] d IH]; cbn; [intuition|]. destruct (String.eqb_spec k a) as [->|N]; cbn; intuition.
Qed.

Lemma sw_defaults_nodup : NoDup (dkeys sw_defaults).
Proof. repeat constructor; cbn; intuition discriminate. Qed.

Section SW.
  Variable mapsci : option (bead -> bead -> option R -> result (dict R)).
  Notation sw_init := (sw_init mapsci). Notation sw_refresh := (sw_refresh mapsci).
  Notation group_matrices := (group_matrices mapsci). Notation averaged := (averaged mapsci).
  Notation sw_step := (sw_step mapsci). Notation sw_run := (sw_run mapsci).

  (** what every object satisfies, whatever was done to it *)
  Definition pre (s : sw) : Prop :=
    ep_types (sw_par s) = sw_types /\ complete sw_defaults (slib s) /\
    extract_property R "Vks" (slib s) (sbeads s) (Some 1%R) = Ok (sw_Vks s).
  (** what holds when no update is waiting for a refresh *)
  Definition settled (s : sw) : Prop :=
    extract_property R "Sk" (slib s) (sbeads s) (Some 1%R) = Ok (sw_Sk s) /\
    group_matrices (sw_rules s) (sbeads s) (slib s) (scross s) = Ok (sw_mats s) /\
    averaged (sw_rules s) (sw_n s) (sm s) (sw_nu s) (arr (sw_Vks s)) (arr (sw_Sk s)) (sw_mats s) = Ok (sw_avg s) /\
    sw_alpha s = alpha_kl (sw_mats s) /\
    match sw_comp s with Some (x, c) => composition s x = Ok c | None => True end.

  Lemma init_ok rules beads lib cl n nu rings s : sw_init rules beads lib cl n nu rings = Ok s -> pre s /\ settled s.
  Proof.
    unfold SwModel.sw_init. destruct (snd (check_bead_parameters R lib sw_defaults)) as [lib'|] eqn:E1; cbn [rbind]; [|discriminate].
    destruct (extract_property R "Vks" lib' beads (Some 1%R)) as [V|] eqn:E2; cbn [rbind]; [|discriminate].
    destruct (extract_property R "Sk" lib' beads (Some 1%R)) as [Sk|] eqn:E3; cbn [rbind]; [|discriminate].
    destruct (group_matrices rules beads lib' cl) as [mats|] eqn:E4; cbn [rbind]; [|discriminate].
    destruct (averaged rules n (length beads) nu (arr V) (arr Sk) mats) as [avg|] eqn:E5; cbn [rbind]; [|discriminate].
    intros H. injection H as <-. split.
    - split; [reflexivity|]. split; [exact (checked_complete _ _ _ sw_defaults_nodup E1)|exact E2].
    - split; [exact E3|]. split; [exact E4|]. split; [exact E5|]. split; [reflexivity|exact I].
  Qed.

  (** an object in order can be built anew from its own libraries *)
  Lemma rebuild s : pre s -> settled s ->
    sw_init (sw_rules s) (sbeads s) (slib s) (scross s) (sw_n s) (sw_nu s) (sw_rings s) = Ok (with_comp s None).
  Proof.
    intros [P1 [P2 P3]] [S1 [S2 [S3 [S4 _]]]]. unfold SwModel.sw_init.
    rewrite (EosToolboxProps.C14_complete_library_kept R (slib s) sw_defaults sw_defaults_nodup P2). cbn [snd rbind].
    rewrite P3, S1. cbn [rbind]. rewrite S2. cbn [rbind]. unfold sm in S3. rewrite S3. cbn [rbind].
    unfold with_comp. rewrite <- S4. rewrite <- P1. unfold slib, sbeads, scross. destruct s as [[? ? ? ?] ? ? ? ? ? ? ? ? ? ?]. reflexivity.
  Qed.

  Lemma check_comp_spec s xi :
    match check_composition s xi with
    | Ok s1 => exists c, s1 = with_comp s (Some (xi, c)) /\
                 (composition s xi = Ok c \/ sw_comp s = Some (xi, c))
    | Err e => composition s xi = Err e
    end.
  Proof.
    unfold check_composition. destruct (sw_comp s) as [[x c]|] eqn:E.
    - destruct (list_eq_dec Req_EM_T x xi) as [->|N].
      + exists c. split; [|right; reflexivity]. unfold with_comp. rewrite <- E. destruct s; reflexivity.
      + destruct (composition s xi) as [c'|e]; cbn; [eexists; split; [reflexivity|left; reflexivity]|reflexivity].
    - destruct (composition s xi) as [c'|e]; cbn; [eexists; split; [reflexivity|left; reflexivity]|reflexivity].
  Qed.

  (** the result of a composition check does not depend on what was cached *)
  Lemma check_comp_settled s xi : settled s ->
    check_composition s xi = match composition s xi with Ok c => Ok (with_comp s (Some (xi, c))) | Err e => Err e end.
  Proof.
    intros [_ [_ [_ [_ S5]]]]. pose proof (check_comp_spec s xi) as H.
    unfold check_composition in *. destruct (sw_comp s) as [[x c]|] eqn:E.
    - destruct (list_eq_dec Req_EM_T x xi) as [->|N].
      + rewrite S5. unfold with_comp. rewrite <- E. destruct s; reflexivity.
      + destruct (composition s xi); reflexivity.
    - destruct (composition s xi); reflexivity.
  Qed.

  Lemma settled_with_comp s x c : settled s -> composition s x = Ok c -> settled (with_comp s (Some (x, c))).
  Proof. intros [S1 [S2 [S3 [S4 _]]]] H. repeat split; assumption. Qed.
  Lemma pre_with_comp s c : pre s -> pre (with_comp s c).
  Proof. intros [P1 [P2 P3]]. repeat split; assumption. Qed.
  Lemma residual_state s rho T xi : exists c, fst (residual s rho T xi) = with_comp s c /\
    (settled s -> settled (fst (residual s rho T xi))).
  Proof.
    assert (Same : exists c, s = with_comp s c /\ (settled s -> settled s)) by (exists (sw_comp s); destruct s; split; auto).
    unfold residual. destruct (negb _); [exact Same|]. destruct (match rho with [] => true | _ => false end); [exact Same|].
    destruct (existsb _ rho); [exact Same|]. destruct (existsb _ xi); [exact Same|].
    pose proof (check_comp_spec s xi) as H. destruct (check_composition s xi) as [s1|e]; [|exact Same].
    destruct H as [c [-> Hc]]. destruct c as [C X].
    assert (G : exists c0, with_comp s (Some (xi, (C, X))) = with_comp s c0 /\
              (settled s -> settled (with_comp s (Some (xi, (C, X)))))).
    { exists (Some (xi, (C, X))). split; [reflexivity|]. intros S. apply settled_with_comp; [exact S|].
      destruct Hc as [Hc|Hc]; [exact Hc|]. destruct S as [_ [_ [_ [_ S5]]]]. rewrite Hc in S5. exact S5. }
    cbn [sw_comp with_comp]. destruct (forallb _ rho); exact G.
  Qed.
  Lemma density_max_state s xi mp : exists c, fst (sw_density_max s xi mp) = with_comp s c /\
    (settled s -> settled (fst (sw_density_max s xi mp))).
  Proof.
    assert (Same : exists c, s = with_comp s c /\ (settled s -> settled s)) by (exists (sw_comp s); destruct s; split; auto).
    unfold sw_density_max. destruct (negb _); [exact Same|].
    pose proof (check_comp_spec s xi) as H. destruct (check_composition s xi) as [s1|e]; [|exact Same].
    destruct H as [c [-> Hc]]. destruct c as [C X].
    exists (Some (xi, (C, X))). split; [reflexivity|]. intros S. apply settled_with_comp; [exact S|].
    destruct Hc as [Hc|Hc]; [exact Hc|]. destruct S as [_ [_ [_ [_ S5]]]]. rewrite Hc in S5. exact S5.
  Qed.

  (** an object in order answers like one whose caches are empty *)
  Lemma residual_cold s rho T xi : settled s -> snd (residual s rho T xi) = snd (residual (with_comp s None) rho T xi).
  Proof.
    intros S. unfold residual. change (sw_n (with_comp s None)) with (sw_n s).
    destruct (negb _); [reflexivity|]. destruct (match rho with [] => true | _ => false end); [reflexivity|].
    destruct (existsb _ rho); [reflexivity|]. destruct (existsb _ xi); [reflexivity|].
    rewrite (check_comp_settled s xi S). unfold check_composition. cbn [sw_comp with_comp].
    change (composition (with_comp s None) xi) with (composition s xi).
    destruct (composition s xi) as [[C X]|e]; cbn [rbind]; [|reflexivity].
    change (with_comp (with_comp s None) (Some (xi, (C, X)))) with (with_comp s (Some (xi, (C, X)))). reflexivity.
  Qed.
  Lemma density_max_cold s xi mp : settled s -> snd (sw_density_max s xi mp) = snd (sw_density_max (with_comp s None) xi mp).
  Proof.
    intros S. unfold sw_density_max. change (sw_n (with_comp s None)) with (sw_n s). destruct (negb _); [reflexivity|].
    rewrite (check_comp_settled s xi S). unfold check_composition. cbn [sw_comp with_comp].
    change (composition (with_comp s None) xi) with (composition s xi).
    destruct (composition s xi) as [[C X]|e]; cbn [rbind]; [|reflexivity].
    change (with_comp (with_comp s None) (Some (xi, (C, X)))) with (with_comp s (Some (xi, (C, X)))). reflexivity.
  Qed.

  Lemma extract_beads prop lib beads l : extract_property R prop lib beads (Some 1%R) = Ok l ->
    forall b, In b beads -> exists d, dget lib b = Some d.
  Proof.
    revert l. induction beads as [|b0 bs IH]; intros l H b Hb; [destruct Hb|]. cbn in H. unfold dfetch in H at 1.
    destruct (dget lib b0) as [d|] eqn:E; cbn [rbind] in H; [|discriminate].
    destruct (match dget d prop with Some v => Ok v | None => Ok 1%R end); cbn [rbind] in H; [|discriminate].
    destruct (mapM _ bs) as [l'|] eqn:F; cbn [rbind] in H; [|discriminate].
    destruct Hb as [->|Hb]; [exists d; exact E|]. exact (IH l' F b Hb).
  Qed.
  Lemma extract_ext prop lib lib' beads :
    (forall b, In b beads -> match dget lib b, dget lib' b with
                | Some d, Some d' => dget d prop = dget d' prop
                | None, None => True
                | _, _ => False end) ->
    extract_property R prop lib beads (Some 1%R) = extract_property R prop lib' beads (Some 1%R).
  Proof.
    induction beads as [|b bs IH]; intros H; [reflexivity|]. cbn. unfold dfetch at 1 3.
    pose proof (H b (or_introl eq_refl)) as Hb. destruct (dget lib b), (dget lib' b); try contradiction; cbn [rbind].
    - rewrite Hb. destruct (match dget d0 prop with Some v => Ok v | None => Ok 1%R end); cbn [rbind]; [|reflexivity].
      f_equal. rewrite <- (IH (fun b Hb => H b (or_intror Hb))) at 1. reflexivity.
    - reflexivity.
  Qed.

  Lemma update_pre s p names v s' : pre s -> sw_update s p names v = Ok s' -> pre s' /\ sbeads s' = sbeads s /\ sw_rules s' = sw_rules s.
  Proof.
    intros [P1 [P2 P3]] H. unfold sw_update, saft_update_parameter in H.
    destruct (Nat.ltb 1 (length (split_dash p)) && negb (Nat.eqb (length (tl (split_dash p))) 2)); [discriminate|].
    rewrite update_unfold in H. destruct (guard (ep_beads (sw_par s)) (ep_types (sw_par s)) p names) eqn:G; [|discriminate].
    assert (NV : p <> "Vks").
    { intros ->. unfold guard in G. rewrite P1 in G. apply andb_true_iff in G. destruct G as [_ G]. vm_compute in G. discriminate. }
    destruct names as [|a [|b [|c l]]]; cbn [rbind] in H; injection H as <-.
    - split; [split; [exact P1|split; [exact P2|exact P3]]|split; reflexivity].
    - assert (Ha : In a (sbeads s)).
      { unfold guard in G. apply andb_true_iff in G. destruct G as [G _]. apply andb_true_iff in G. destruct G as [_ G].
        cbn in G. rewrite andb_true_r in G. apply smem_In. exact G. }
      destruct (extract_beads _ _ _ _ P3 a Ha) as [d Hd]. unfold slib in Hd.
      split; [|split; reflexivity]. unfold pre, slib, sbeads. cbn. rewrite Hd.
      split; [exact P1|]. split.
      + intros x xd q o Hin D. apply In_dset in Hin. destruct Hin as [Hin|Hin].
        * injection Hin as -> ->. rewrite dget_dset. destruct (String.eqb p q); [discriminate|].
          apply dget_In in Hd. exact (P2 a d q o Hd D).
        * exact (P2 x xd q o Hin D).
      + rewrite <- P3. apply extract_ext. intros x Hx. unfold slib. rewrite dget_dset.
        destruct (String.eqb_spec a x) as [<-|N].
        * rewrite Hd. apply dget_dset_other. congruence.
        * destruct (dget (ep_bead_library (sw_par s)) x); auto.
    - split; [split; [exact P1|split; [exact P2|exact P3]]|split; reflexivity].
    - split; [split; [exact P1|split; [exact P2|exact P3]]|split; reflexivity].
  Qed.

  Lemma refresh_ok s s' : pre s -> sw_refresh s = Ok s' -> pre s' /\ settled s'.
  Proof.
    intros [P1 [P2 P3]] H. unfold SwModel.sw_refresh in H.
    destruct (extract_property R "Sk" (slib s) (sbeads s) (Some 1%R)) as [Sk|] eqn:E1; cbn [rbind] in H; [|discriminate].
    destruct (group_matrices (sw_rules s) (sbeads s) (slib s) (scross s)) as [mats|] eqn:E2; cbn [rbind] in H; [|discriminate].
    destruct (averaged (sw_rules s) (sw_n s) (sm s) (sw_nu s) (arr (sw_Vks s)) (arr Sk) mats) as [avg|] eqn:E3; cbn [rbind] in H; [|discriminate].
    destruct (match sw_comp s with Some (x, _) => let* c := composition s x in Ok (Some (x, c)) | None => Ok None end)
      as [comp|] eqn:E4; cbn [rbind] in H; [|discriminate].
    injection H as <-. split.
    - split; [exact P1|split; [exact P2|exact P3]].
    - split; [exact E1|]. split; [exact E2|]. split; [exact E3|]. split; [reflexivity|]. cbn [sw_comp].
      destruct (sw_comp s) as [[x c0]|] eqn:E5.
      + destruct (composition s x) as [c|] eqn:E6; cbn in E4; [|discriminate]. injection E4 as <-. exact E6.
      + injection E4 as <-. exact I.
  Qed.

  Lemma step_pre s o s' : pre s -> sw_step s o = Ok s' -> pre s'.
  Proof.
    intros P H. destruct o as [rho T xi|xi mp|p names v|]; cbn in H.
    - injection H as <-. destruct (residual_state s rho T xi) as [c [-> _]]. apply pre_with_comp; exact P.
    - injection H as <-. destruct (density_max_state s xi mp) as [c [-> _]]. apply pre_with_comp; exact P.
    - destruct (sw_update s p names v) as [s1|] eqn:E; injection H as <-; [|exact P]. exact (proj1 (update_pre _ _ _ _ _ P E)).
    - exact (proj1 (refresh_ok _ _ P H)).
  Qed.
  Lemma run_pre l s s' : pre s -> sw_run s l = Ok s' -> pre s'.
  Proof.
    revert s. induction l as [|o l IH]; intros s P H; cbn in H; [injection H as <-; exact P|].
    destruct (sw_step s o) as [s1|] eqn:E; cbn in H; [|discriminate]. exact (IH s1 (step_pre _ _ _ P E) H).
  Qed.

  Definition is_eval (o : sw_op) : Prop := match o with SEval _ _ _ | SMax _ _ => True | _ => False end.
  Lemma run_evals l s s' : Forall is_eval l -> settled s -> sw_run s l = Ok s' ->
    settled s' /\ exists c, s' = with_comp s c.
  Proof.
    revert s. induction l as [|o l IH]; intros s F S H; cbn in H; inversion F as [|? ? Fo Fl]; subst.
    - injection H as <-. split; [exact S|]. exists (sw_comp s). destruct s; reflexivity.
    - destruct o as [rho T xi|xi mp| |]; try contradiction; cbn in H.
      + destruct (residual_state s rho T xi) as [c [Ec Sc]]. specialize (Sc S). rewrite Ec in *.
        destruct (IH _ Fl Sc H) as [S' [c' ->]]. split; [exact S'|]. exists c'. reflexivity.
      + destruct (density_max_state s xi mp) as [c [Ec Sc]]. specialize (Sc S). rewrite Ec in *.
        destruct (IH _ Fl Sc H) as [S' [c' ->]]. split; [exact S'|]. exists c'. reflexivity.
  Qed.
  Lemma run_app l1 l2 s : sw_run s (l1 ++ l2) = match sw_run s l1 with Ok s1 => sw_run s1 l2 | Err e => Err e end.
  Proof.
    revert s. induction l1 as [|o l1 IH]; intros s; cbn; [reflexivity|].
    destruct (sw_step s o) as [s1|]; cbn; [apply IH|reflexivity].
  Qed.
End SW.
