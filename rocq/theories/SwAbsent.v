(** An absent component does not change the SAFT-gamma-SW energy: proofs. *)
From Coq Require Import Reals Lra Lia.
From Verif Require Import Base BaseFacts RSum IOModel EosToolboxModel EosToolboxSpec EosToolboxProofs CombiningModel
  SaftToolboxModel SwModel SwProofs SwProofs2.
From Verif Require EosToolboxProps CombiningProps.
Open Scope R_scope.

(** ** Formulas *)
Section Pad.
  Variables (n n' m m' : nat) (nu nu' : nat -> nat -> R) (V V' Sk Sk' xi xi' rings rings' : nat -> R).
  Variables (mats mats' avg avg' : matrices R).
  Hypothesis Hn : (n <= n')%nat.
  Hypothesis Hm : (m <= m')%nat.
  Hypothesis Hnu : forall i k, (i < n)%nat -> (k < m)%nat -> nu' i k = nu i k.
  Hypothesis Hnu0 : forall i k, (i < n)%nat -> (m <= k)%nat -> (k < m')%nat -> nu' i k = 0.
  Hypothesis HV : forall k, (k < m)%nat -> V' k = V k /\ Sk' k = Sk k.
  Hypothesis Hxi : forall i, (i < n)%nat -> xi' i = xi i.
  Hypothesis Hxi0 : forall i, (n <= i)%nat -> (i < n')%nat -> xi' i = 0.
  Hypothesis Hmats : forall key k l, In key sw_keys -> (k < m)%nat -> (l < m)%nat -> mats' key k l = mats key k l.

  Lemma pad_C : Cmol2seg n' m' xi' nu' V' Sk' = Cmol2seg n m xi nu V Sk.
  Proof.
    unfold Cmol2seg. rewrite (sumn_pad n n') by (exact Hn || (intros i H1 H2; apply sumn_zero; intros; rewrite Hxi0 by assumption; ring)).
    apply sumn_ext. intros i Hi. rewrite (sumn_pad m m') by (exact Hm || (intros; rewrite Hnu0 by assumption; ring)).
    apply sumn_ext. intros j Hj. destruct (HV j Hj) as [-> ->]. rewrite Hxi, Hnu by assumption. reflexivity.
  Qed.
  Lemma pad_seg k : (k < m')%nat ->
    sumn n' (fun i => xi' i * nu' i k) = if Nat.ltb k m then sumn n (fun i => xi i * nu i k) else 0.
  Proof.
    intros Hk. rewrite (sumn_pad n n') by (exact Hn || (intros; rewrite Hxi0 by assumption; ring)).
    destruct (Nat.ltb_spec k m) as [L|L].
    - apply sumn_ext. intros i Hi. rewrite Hxi, Hnu by assumption. reflexivity.
    - apply sumn_zero. intros i Hi. rewrite Hnu0 by assumption. ring.
  Qed.
  Lemma pad_xsk k : (k < m')%nat ->
    xsk n' m' xi' nu' V' Sk' k = if Nat.ltb k m then xsk n m xi nu V Sk k else 0.
  Proof.
    intros Hk. unfold xsk. rewrite pad_C, pad_seg by exact Hk. destruct (Nat.ltb_spec k m) as [L|L].
    - destruct (HV k L) as [-> ->]. reflexivity.
    - unfold Rdiv. ring.
  Qed.
  Notation X := (xskl n m xi nu V Sk). Notation X' := (xskl n' m' xi' nu' V' Sk').
  Notation C := (Cmol2seg n m xi nu V Sk). Notation C' := (Cmol2seg n' m' xi' nu' V' Sk').
  Lemma pad_X k l : (k < m')%nat -> (l < m')%nat ->
    X' k l = if (Nat.ltb k m && Nat.ltb l m)%bool then X k l else 0.
  Proof.
    intros Hk Hl. unfold xskl. rewrite (pad_xsk k Hk), (pad_xsk l Hl).
    destruct (Nat.ltb k m), (Nat.ltb l m); cbn [andb]; try reflexivity; ring.
  Qed.
  Lemma pad_double (f f' : nat -> nat -> R) :
    (forall k l, (k < m)%nat -> (l < m)%nat -> f' k l = f k l) ->
    (forall k l, (k < m')%nat -> (l < m')%nat -> X' k l = 0 -> f' k l = 0) ->
    sumn m' (fun k => sumn m' (fun l => f' k l)) = sumn m (fun k => sumn m (fun l => f k l)).
  Proof.
    intros H H0. rewrite (sumn_pad m m') by (exact Hm ||
      (intros k H1 H2; apply sumn_zero; intros l Hl; apply H0; [lia|exact Hl|rewrite pad_X by lia;
       replace (Nat.ltb k m) with false by (symmetry; apply Nat.ltb_ge; lia); reflexivity])).
    apply sumn_ext. intros k Hk. rewrite (sumn_pad m m').
    - apply sumn_ext. intros l Hl. apply H; assumption.
    - exact Hm.
    - intros l H1 H2. apply H0; [lia|exact H2|]. rewrite pad_X by lia.
      replace (Nat.ltb l m) with false by (symmetry; apply Nat.ltb_ge; lia). rewrite andb_false_r. reflexivity.
  Qed.
  Lemma pad_Xin k l : (k < m)%nat -> (l < m)%nat -> X' k l = X k l.
  Proof.
    intros Hk Hl. rewrite pad_X by lia. apply Nat.ltb_lt in Hk, Hl. rewrite Hk, Hl. reflexivity.
  Qed.
  Lemma in_sigma : In "sigma"%string sw_keys. Proof. cbn; tauto. Qed.
  Lemma in_lambda : In "lambda"%string sw_keys. Proof. cbn; tauto. Qed.
  Lemma in_epsilon : In "epsilon"%string sw_keys. Proof. cbn; tauto. Qed.

  Lemma pad_zeta rho p : zeta m' mats' C' X' rho p = zeta m mats C X rho p.
  Proof.
    unfold zeta. rewrite pad_C. f_equal. f_equal.
    rewrite (sumn_pad m m').
    - apply sumn_ext. intros k Hk. rewrite pad_Xin by assumption. unfold sigma_kl.
      rewrite (Hmats _ k k in_sigma Hk Hk). reflexivity.
    - exact Hm.
    - intros k H1 H2. rewrite pad_X by lia. replace (Nat.ltb k m) with false by (symmetry; apply Nat.ltb_ge; lia).
      cbn [andb]. rewrite sqrt_0. ring.
  Qed.
  Lemma pad_alpha k l : (k < m)%nat -> (l < m)%nat -> alpha_kl mats' k l = alpha_kl mats k l.
  Proof.
    intros Hk Hl. unfold alpha_kl. rewrite (Hmats _ k l in_sigma), (Hmats _ k l in_lambda), (Hmats _ k l in_epsilon) by assumption.
    reflexivity.
  Qed.
  Lemma pad_hs rho : Ahard_sphere m' mats' C' X' rho = Ahard_sphere m mats C X rho.
  Proof. unfold Ahard_sphere. cbv zeta. rewrite !pad_zeta. reflexivity. Qed.
  Lemma pad_first rho T : Afirst_order m' mats' (alpha_kl mats') C' X' rho T = Afirst_order m mats (alpha_kl mats) C X rho T.
  Proof.
    unfold Afirst_order. rewrite pad_zeta, pad_C. f_equal. apply pad_double.
    - intros k l Hk Hl. rewrite pad_Xin, pad_alpha by assumption. unfold lambda_kl.
      rewrite (Hmats _ k l in_lambda) by assumption. reflexivity.
    - intros k l _ _ E. rewrite E. ring.
  Qed.
  Lemma pad_second rho T : Asecond_order m' mats' (alpha_kl mats') C' X' rho T = Asecond_order m mats (alpha_kl mats) C X rho T.
  Proof.
    unfold Asecond_order. cbv zeta. rewrite pad_zeta, pad_C. f_equal. apply pad_double.
    - intros k l Hk Hl. rewrite pad_Xin, pad_alpha by assumption. unfold lambda_kl, epsilon_kl.
      rewrite (Hmats _ k l in_lambda), (Hmats _ k l in_epsilon) by assumption. reflexivity.
    - intros k l _ _ E. rewrite E. ring.
  Qed.
  Lemma pad_max mp : rho_max m' mats' C' X' mp = rho_max m mats C X mp.
  Proof.
    unfold rho_max. rewrite pad_C. do 3 f_equal. apply pad_double.
    - intros k l Hk Hl. rewrite pad_Xin by assumption. unfold sigma_kl. rewrite (Hmats _ k l in_sigma) by assumption. reflexivity.
    - intros k l _ _ E. rewrite E. ring.
  Qed.

  Lemma pad_weight i : (i < n)%nat ->
    sumn m' (fun k => nu' i k * V' k * Sk' k) = sumn m (fun k => nu i k * V k * Sk k).
  Proof.
    intros Hi. rewrite (sumn_pad m m') by (exact Hm || (intros; rewrite Hnu0 by assumption; ring)).
    apply sumn_ext. intros k Hk. destruct (HV k Hk) as [-> ->]. rewrite Hnu by assumption. reflexivity.
  Qed.
  Lemma pad_zki i k : (i < n)%nat -> (k < m')%nat ->
    zki m' nu' V' Sk' i k = if Nat.ltb k m then zki m nu V Sk i k else 0.
  Proof.
    intros Hi Hk. unfold zki. rewrite pad_weight by exact Hi. destruct (Nat.ltb_spec k m) as [L|L].
    - destruct (HV k L) as [-> ->]. rewrite Hnu by assumption. reflexivity.
    - rewrite Hnu0 by assumption. unfold Rdiv. ring.
  Qed.
  Lemma pad_zin i k : (i < n)%nat -> (k < m)%nat -> zki m' nu' V' Sk' i k = zki m nu V Sk i k.
  Proof. intros Hi Hk. rewrite pad_zki by lia. apply Nat.ltb_lt in Hk. rewrite Hk. reflexivity. Qed.
  Lemma pad_zout i k : (i < n)%nat -> (m <= k)%nat -> (k < m')%nat -> zki m' nu' V' Sk' i k = 0.
  Proof.
    intros Hi H1 H2. rewrite pad_zki by lia. replace (Nat.ltb k m) with false by (symmetry; apply Nat.ltb_ge; lia). reflexivity.
  Qed.
  Lemma pad_sigma_ii i : (i < n)%nat ->
    sigma_ii m' nu' V' Sk' (mats' "sigma"%string) i = sigma_ii m nu V Sk (mats "sigma"%string) i.
  Proof.
    intros Hi. unfold sigma_ii. f_equal. rewrite (sumn_pad m m') by (exact Hm || (intros; rewrite pad_zout by assumption; ring)).
    apply sumn_ext. intros k Hk. rewrite pad_zin, (Hmats _ k k in_sigma) by assumption. reflexivity.
  Qed.
  Lemma pad_mean_ii key i : In key sw_keys -> (i < n)%nat ->
    mean_ii m' nu' V' Sk' (mats' key) i = mean_ii m nu V Sk (mats key) i.
  Proof.
    intros Hkey Hi. unfold mean_ii.
    rewrite (sumn_pad m m') by (exact Hm || (intros; apply sumn_zero; intros; rewrite (pad_zout i _ Hi) by assumption; ring)).
    apply sumn_ext. intros k Hk.
    rewrite (sumn_pad m m').
    - apply sumn_ext. intros l Hl. rewrite !pad_zin, (Hmats _ k l Hkey) by assumption. reflexivity.
    - exact Hm.
    - intros l H1 H2. rewrite (pad_zout i l) by assumption. ring.
  Qed.

  Hypothesis Havg : forall key i, In key sw_keys -> (i < n)%nat -> avg' key i i = avg key i i.
  Hypothesis Hrings : forall i, (i < n)%nat -> rings' i = rings i.
  Lemma pad_gSW rho T i : (i < n)%nat -> gSW m' mats' avg' C' X' rho T i i = gSW m mats avg C X rho T i i.
  Proof.
    intros Hi. unfold gSW, gHS, lambda_ij, epsilon_ij, sigma_ij. cbv zeta. rewrite !pad_zeta.
    rewrite (Havg _ i in_sigma), (Havg _ i in_lambda), (Havg _ i in_epsilon) by assumption. reflexivity.
  Qed.
  Lemma pad_chain rho T :
    Achain n' m' mats' avg' C' X' nu' V' Sk' rings' xi' rho T = Achain n m mats avg C X nu V Sk rings xi rho T.
  Proof.
    unfold Achain. f_equal. rewrite (sumn_pad n n').
    - apply sumn_ext. intros i Hi. rewrite pad_weight, pad_gSW, Hxi, Hrings by assumption. reflexivity.
    - exact Hn.
    - intros i H1 H2. rewrite Hxi0 by assumption. ring.
  Qed.
End Pad.

(** ** Objects *)
Lemma mapM_app_inv {A B} (f : A -> result B) l1 l2 ys : mapM f (l1 ++ l2) = Ok ys ->
  exists y1 y2, mapM f l1 = Ok y1 /\ mapM f l2 = Ok y2 /\ ys = (y1 ++ y2)%list.
Proof.
  revert ys. induction l1 as [|a l1 IH]; intros ys H; cbn in H.
  - exists [], ys. split; [reflexivity|]. split; [exact H|reflexivity].
  - destruct (f a) as [y|] eqn:E; cbn [rbind] in H; [|discriminate].
    destruct (mapM f (l1 ++ l2)) as [ys'|] eqn:F; cbn [rbind] in H; [|discriminate]. injection H as <-.
    destruct (IH ys' eq_refl) as [y1 [y2 [F1 [F2 ->]]]]. exists (y :: y1), y2. cbn. rewrite E, F1. cbn. auto.
Qed.
Lemma arr_app_l l1 l2 k : (k < length l1)%nat -> arr (l1 ++ l2) k = arr l1 k.
Proof. intros H. unfold arr. apply app_nth1; exact H. Qed.
Lemma arr_zeros l e k : arr (l ++ repeat 0 e) k = arr l k.
Proof.
  unfold arr. destruct (Nat.lt_ge_cases k (length l)) as [H|H]; [apply app_nth1; exact H|].
  rewrite app_nth2 by exact H. rewrite (nth_overflow l) by exact H. apply nth_repeat.
Qed.

Section Obj.
  Variable mapsci : option (bead -> bead -> option R -> result (dict R)).

  Lemma rule_single rules : (forall key, ro_function (rules key) <> "multipole"%string) ->
    forall key a b out, rule_of mapsci rules key a b = Ok out -> out = [] \/ exists v, out = [(key, v)].
  Proof.
    intros H key a b out E. destruct (CombiningProps.C12_single_output _ _ _ _ _ _ (H key) E) as [[_ ->]|X]; auto.
  Qed.
  Lemma sw_keys_nodup : NoDup sw_keys.
  Proof. repeat constructor; cbn; intuition discriminate. Qed.

  (** a matrix entry is determined by the two beads *)
  Lemma mats_determined rules lib cl beads beads' mats mats' :
    (forall key, ro_function (rules key) <> "multipole"%string) ->
    group_matrices mapsci rules beads lib cl = Ok mats ->
    group_matrices mapsci rules beads' lib cl = Ok mats' ->
    forall key k l a b, In key sw_keys -> nth_error beads k = Some a -> nth_error beads l = Some b ->
      nth_error beads' k = Some a -> nth_error beads' l = Some b -> mats' key k l = mats key k l.
  Proof.
    intros M H H'.
    destruct (EosToolboxProps.C13_values_partial _ _ _ _ _ _ _ _ (rule_single rules M) sw_keys_nodup H) as [D U].
    destruct (EosToolboxProps.C13_values_partial _ _ _ _ _ _ _ _ (rule_single rules M) sw_keys_nodup H') as [D' U'].
    pose proof (EosToolboxProps.C13_symmetric _ _ _ _ _ _ _ _ H) as Sy. pose proof (EosToolboxProps.C13_symmetric _ _ _ _ _ _ _ _ H') as Sy'.
    assert (Up : forall key k l a b, In key sw_keys -> (k < l)%nat -> nth_error beads k = Some a -> nth_error beads l = Some b ->
      nth_error beads' k = Some a -> nth_error beads' l = Some b -> mats' key k l = mats key k l).
    { intros key k l a b Hk L A B A' B'. destruct (U key k l a b Hk L A B) as [W _]. destruct (U' key k l a b Hk L A' B') as [W' _].
      destruct W as [G|[[N1 N2] [d1 [d2 [L1 [L2 W]]]]]], W' as [G'|[[N1' N2'] [d1' [d2' [L1' [L2' W']]]]]].
      - destruct G as [G|[G0 G]], G' as [G'|[G0' G']]; first [congruence | (exfalso; exact (G0' _ G)) | (exfalso; exact (G0 _ G'))].
      - exfalso. destruct G as [G|[_ G]]; [exact (N1' _ G)|exact (N2' _ G)].
      - exfalso. destruct G' as [G'|[_ G']]; [exact (N1 _ G')|exact (N2 _ G')].
      - rewrite L1 in L1'. rewrite L2 in L2'. injection L1' as <-. injection L2' as <-.
        destruct W as [W|[W E]], W' as [W'|[W' E']]; rewrite W in W'; try discriminate; congruence. }
    intros key k l a b Hk A B A' B'. destruct (lt_eq_lt_dec k l) as [[L|<-]|L].
    - eapply Up; eassumption.
    - destruct (D key k a Hk A) as [bd [E1 E2]]. destruct (D' key k a Hk A') as [bd' [E1' E2']]. congruence.
    - rewrite Sy, Sy'. eapply Up; eassumption.
  Qed.

  Lemma fetch_extract prop lib beads l : complete sw_defaults lib -> In prop ["Vks"; "Sk"]%string ->
    extract_property R prop lib beads (Some 1) = Ok l ->
    mapM (fun b => let* d := dfetch lib b in dfetch d prop) beads = Ok l.
  Proof.
    intros Cp Hp H. rewrite <- H. unfold extract_property. apply mapM_ext. intros b Hb. unfold dfetch.
    destruct (dget lib b) as [d|] eqn:E; cbn [rbind]; [|reflexivity].
    destruct (dget d prop) eqn:F; [reflexivity|]. exfalso. apply dget_In in E.
    destruct Hp as [<-|[<-|[]]]; (eapply Cp; [exact E| |exact F]); reflexivity.
  Qed.

  Lemma existsb_repeat0 e : existsb (fun x => if Rlt_dec x 0 then true else false) (repeat 0 e) = false.
  Proof. induction e as [|e IH]; cbn; [reflexivity|]. destruct (Rlt_dec 0 0); [lra|exact IH]. Qed.

  Lemma residual_settled s rho T xi C X : settled mapsci s -> composition s xi = Ok (C, X) ->
    snd (residual s rho T xi) =
    if negb (Nat.eqb (length xi) (sw_n s)) then Err ValueError
    else if match rho with [] => true | _ => false end then Err ValueError
    else if existsb (fun r => if Rlt_dec r 0 then true else false) rho then Err ValueError
    else if existsb (fun x => if Rlt_dec x 0 then true else false) xi then Err ValueError
    else if forallb (fun r => if Rgt_dec r (rho_max (sm s) (sw_mats s) C X (65 / 100)) then true else false) rho then Err ValueError
    else Ok (map (fun r => monomer s C X r T + chain s C X xi r T) rho).
  Proof.
    intros St E. unfold residual. rewrite (check_comp_settled mapsci s xi St), E. cbn [sw_comp with_comp].
    destruct (negb _); [reflexivity|]. destruct (match rho with [] => true | _ => false end); [reflexivity|].
    destruct (existsb _ rho); [reflexivity|]. destruct (existsb _ xi); [reflexivity|].
    change (sm (with_comp s (Some (xi, (C, X))))) with (sm s). cbv zeta.
    match goal with |- snd (if ?b then _ else _) = (if ?b' then _ else _) => change b with b'; destruct b'; reflexivity end.
  Qed.
  Lemma density_max_settled s xi mp C X : settled mapsci s -> composition s xi = Ok (C, X) ->
    snd (sw_density_max s xi mp) =
    if negb (Nat.eqb (length xi) (sw_n s)) then Err ValueError else Ok (rho_max (sm s) (sw_mats s) C X mp).
  Proof.
    intros St E. unfold sw_density_max. rewrite (check_comp_settled mapsci s xi St), E. cbn [sw_comp with_comp].
    destruct (negb _); reflexivity.
  Qed.

  Lemma absent rules beads extra lib cl n e nu nu' rings rings' s s' :
    (forall key, ro_function (rules key) <> "multipole"%string) ->
    sw_init mapsci rules beads lib cl n nu rings = Ok s ->
    sw_init mapsci rules (beads ++ extra) lib cl (n + e) nu' rings' = Ok s' ->
    (forall i k, (i < n)%nat -> (k < length beads)%nat -> nu' i k = nu i k) ->
    (forall i k, (i < n)%nat -> (length beads <= k)%nat -> (k < length beads + length extra)%nat -> nu' i k = 0) ->
    (forall i, (i < n)%nat -> rings' i = rings i) ->
    forall xi, length xi = n ->
    (forall rho T, snd (residual s' rho T (xi ++ repeat 0 e)) = snd (residual s rho T xi)) /\
    (forall mp, snd (sw_density_max s' (xi ++ repeat 0 e) mp) = snd (sw_density_max s xi mp)).
  Proof.
    intros M I I' Hnu Hnu0 Hr xi Hxi.
    destruct (init_ok mapsci _ _ _ _ _ _ _ _ I) as [Pr St]. destruct (init_ok mapsci _ _ _ _ _ _ _ _ I') as [Pr' St'].
    unfold sw_init in I, I'.
    destruct (snd (check_bead_parameters R lib sw_defaults)) as [L|]; cbn [rbind] in I, I'; [|discriminate].
    destruct (extract_property R "Vks" L beads (Some 1)) as [V|] eqn:EV; cbn [rbind] in I; [|discriminate].
    destruct (extract_property R "Sk" L beads (Some 1)) as [Sk|] eqn:ES; cbn [rbind] in I; [|discriminate].
    destruct (group_matrices mapsci rules beads L cl) as [mats|] eqn:EM; cbn [rbind] in I; [|discriminate].
    destruct (averaged mapsci rules n (length beads) nu (arr V) (arr Sk) mats) as [avg|] eqn:EA; cbn [rbind] in I; [|discriminate].
    destruct (extract_property R "Vks" L (beads ++ extra) (Some 1)) as [V'|] eqn:EV'; cbn [rbind] in I'; [|discriminate].
    destruct (extract_property R "Sk" L (beads ++ extra) (Some 1)) as [Sk'|] eqn:ES'; cbn [rbind] in I'; [|discriminate].
    destruct (group_matrices mapsci rules (beads ++ extra) L cl) as [mats'|] eqn:EM'; cbn [rbind] in I'; [|discriminate].
    destruct (averaged mapsci rules (n + e) (length (beads ++ extra)) nu' (arr V') (arr Sk') mats') as [avg'|] eqn:EA'; cbn [rbind] in I'; [|discriminate].
    pose proof EV as EV0. pose proof ES as ES0. pose proof EV' as EV0'. pose proof ES' as ES0'.
    unfold extract_property in EV', ES'. destruct (mapM_app_inv _ _ _ _ EV') as [V1 [V2 [E1 [_ ->]]]].
    fold (extract_property R "Vks" L beads (Some 1)) in E1. rewrite EV in E1. injection E1 as <-.
    destruct (mapM_app_inv _ _ _ _ ES') as [S1 [S2 [E1 [_ ->]]]].
    fold (extract_property R "Sk" L beads (Some 1)) in E1. rewrite ES in E1. injection E1 as <-.
    assert (LV : length V = length beads) by (eapply mapM_length; exact EV).
    assert (LS : length Sk = length beads) by (eapply mapM_length; exact ES).
    assert (HVS : forall k, (k < length beads)%nat -> arr (V ++ V2) k = arr V k /\ arr (Sk ++ S2) k = arr Sk k).
    { intros k Hk. split; apply arr_app_l; lia. }
    assert (Hm : (length beads <= length (beads ++ extra))%nat) by (rewrite app_length; lia).
    assert (Hnu0' : forall i k, (i < n)%nat -> (length beads <= k)%nat -> (k < length (beads ++ extra))%nat -> nu' i k = 0).
    { intros i k Hi H1 H2. rewrite app_length in H2. apply Hnu0; assumption. }
    assert (Hmats : forall key k l, In key sw_keys -> (k < length beads)%nat -> (l < length beads)%nat -> mats' key k l = mats key k l).
    { intros key k l Hkey Hk Hl. apply nth_error_Some in Hk as Hk'. apply nth_error_Some in Hl as Hl'.
      destruct (nth_error beads k) as [a|] eqn:A; [|congruence]. destruct (nth_error beads l) as [b|] eqn:B; [|congruence].
      apply (mats_determined rules L cl beads (beads ++ extra) mats mats' M EM EM' key k l a b Hkey A B);
        rewrite nth_error_app1 by assumption; assumption. }
    assert (Hxi0 : forall i, (n <= i)%nat -> (i < n + e)%nat -> arr (xi ++ repeat 0 e) i = 0).
    { intros i H1 _. rewrite arr_zeros. unfold arr. apply nth_overflow. lia. }
    assert (Hxi1 : forall i, (i < n)%nat -> arr (xi ++ repeat 0 e) i = arr xi i) by (intros; apply arr_zeros).
    assert (Hn : (n <= n + e)%nat) by lia.
    assert (Havg : forall key i, In key sw_keys -> (i < n)%nat -> avg' key i i = avg key i i).
    { intros key i Hkey Hi. destruct (averaged_diag _ _ _ _ _ _ _ _ _ EA i Hi) as [A1 [A2 A3]].
      destruct (averaged_diag _ _ _ _ _ _ _ _ _ EA' i ltac:(lia)) as [A1' [A2' A3']].
      destruct Hkey as [<-|[<-|[<-|[]]]]; [rewrite A1, A1'; eapply (pad_sigma_ii n (n + e)); eauto; auto
        |rewrite A2, A2'; eapply (pad_mean_ii n (n + e)); eauto; auto; cbn; tauto|rewrite A3, A3'; eapply (pad_mean_ii n (n + e)); eauto; auto; cbn; tauto]. }
    assert (LX : length (xi ++ repeat 0 e) = (n + e)%nat) by (rewrite app_length, repeat_length, Hxi; reflexivity).
    injection I as <-. injection I' as <-.
    assert (Cp : complete sw_defaults L) by (exact (proj1 (proj2 Pr))).
    set (s := {| sw_par := _; sw_rules := _; sw_n := n |}) in *.
    set (s' := {| sw_par := _; sw_rules := _; sw_n := (n + e)%nat |}) in *.
    assert (CO : composition s xi = Ok (Cmol2seg n (length beads) (arr xi) nu (arr V) (arr Sk),
        xskl n (length beads) (arr xi) nu (arr V) (arr Sk))).
    { unfold composition. change (slib s) with L. change (sbeads s) with beads.
      rewrite (fetch_extract "Vks" L beads V Cp) by (cbn; tauto || exact EV0). cbn [rbind].
      rewrite (fetch_extract "Sk" L beads Sk Cp) by (cbn; tauto || exact ES0). reflexivity. }
    assert (CO' : composition s' (xi ++ repeat 0 e) =
       Ok (Cmol2seg (n + e) (length (beads ++ extra)) (arr (xi ++ repeat 0 e)) nu' (arr (V ++ V2)) (arr (Sk ++ S2)),
           xskl (n + e) (length (beads ++ extra)) (arr (xi ++ repeat 0 e)) nu' (arr (V ++ V2)) (arr (Sk ++ S2)))).
    { unfold composition. change (slib s') with L. change (sbeads s') with (beads ++ extra)%list.
      rewrite (fetch_extract "Vks" L (beads ++ extra) (V ++ V2) Cp) by (cbn; tauto || exact EV0'). cbn [rbind].
      rewrite (fetch_extract "Sk" L (beads ++ extra) (Sk ++ S2) Cp) by (cbn; tauto || exact ES0'). reflexivity. }
    split.
    - intros rho T. rewrite (residual_settled s' rho T _ _ _ St' CO'), (residual_settled s rho T xi _ _ St CO).
      change (sw_n s') with (n + e)%nat. change (sw_n s) with n. rewrite LX, Hxi, !Nat.eqb_refl. cbn [negb].
      destruct (match rho with [] => true | _ => false end); [reflexivity|].
      destruct (existsb (fun r => if Rlt_dec r 0 then true else false) rho); [reflexivity|].
      rewrite existsb_app, existsb_repeat0, orb_false_r.
      destruct (existsb (fun x => if Rlt_dec x 0 then true else false) xi); [reflexivity|].
      change (sm s') with (length (beads ++ extra)). change (sm s) with (length beads).
      change (sw_mats s') with mats'. change (sw_mats s) with mats.
      rewrite (pad_max n (n + e) (length beads) (length (beads ++ extra)) nu nu' (arr V) (arr (V ++ V2)) (arr Sk) (arr (Sk ++ S2))
         (arr xi) (arr (xi ++ repeat 0 e)) rings rings' mats mats') by assumption.
      match goal with |- context [forallb ?f rho] => destruct (forallb f rho) end; cbn [snd]; [reflexivity|].
      f_equal. apply map_ext. intros r. unfold monomer, chain. f_equal; [f_equal; [f_equal|]|].
      + exact (pad_hs n (n + e) (length beads) (length (beads ++ extra)) nu nu' (arr V) (arr (V ++ V2)) (arr Sk) (arr (Sk ++ S2))
         (arr xi) (arr (xi ++ repeat 0 e)) rings rings' mats mats' Hn Hm Hnu Hnu0' HVS Hxi1 Hxi0 Hmats r).
      + exact (pad_first n (n + e) (length beads) (length (beads ++ extra)) nu nu' (arr V) (arr (V ++ V2)) (arr Sk) (arr (Sk ++ S2))
         (arr xi) (arr (xi ++ repeat 0 e)) rings rings' mats mats' Hn Hm Hnu Hnu0' HVS Hxi1 Hxi0 Hmats r T).
      + exact (pad_second n (n + e) (length beads) (length (beads ++ extra)) nu nu' (arr V) (arr (V ++ V2)) (arr Sk) (arr (Sk ++ S2))
         (arr xi) (arr (xi ++ repeat 0 e)) rings rings' mats mats' Hn Hm Hnu Hnu0' HVS Hxi1 Hxi0 Hmats r T).
      + exact (pad_chain n (n + e) (length beads) (length (beads ++ extra)) nu nu' (arr V) (arr (V ++ V2)) (arr Sk) (arr (Sk ++ S2))
         (arr xi) (arr (xi ++ repeat 0 e)) rings rings' mats mats' avg avg' Hn Hm Hnu Hnu0' HVS Hxi1 Hxi0 Hmats Havg Hr r T).
    - intros mp. rewrite (density_max_settled s' _ mp _ _ St' CO'), (density_max_settled s xi mp _ _ St CO).
      change (sw_n s') with (n + e)%nat. change (sw_n s) with n. rewrite LX, Hxi, !Nat.eqb_refl. cbn [negb]. f_equal.
      exact (pad_max n (n + e) (length beads) (length (beads ++ extra)) nu nu' (arr V) (arr (V ++ V2)) (arr Sk) (arr (Sk ++ S2))
         (arr xi) (arr (xi ++ repeat 0 e)) rings rings' mats mats' Hn Hm Hnu Hnu0' HVS Hxi1 Hxi0 Hmats mp).
  Qed.
End Obj.
