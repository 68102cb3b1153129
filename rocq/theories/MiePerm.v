(** Listing groups and components in another order leaves the SAFT-gamma-Mie results
    unchanged: proofs. *)
From Coq Require Import Reals Lra Lia.
From Verif Require Import Base BaseFacts RSum OrderSpec IOModel EosToolboxModel EosToolboxSpec EosToolboxProofs CombiningModel
  SaftToolboxModel SwModel SwProofs SwProofs2 SwAbsent SwPerm MieExtModel MieExtProps MieModel MieProofs.
From Verif Require EosToolboxProps CombiningProps.
Open Scope R_scope.

(** the order in which a list is gone through matters only for which error comes first *)
Lemma mapM_seq_perm (f f' : nat -> result R) n tau : relabelling n tau ->
  (forall i, (i < n)%nat -> f' i = f (tau i)) -> (forall i e, f i = Err e -> e = ValueError) ->
  (exists g g', mapM f (seq 0 n) = Ok g /\ mapM f' (seq 0 n) = Ok g' /\ forall i, (i < n)%nat -> arr g' i = arr g (tau i)) \/
  (mapM f (seq 0 n) = Err ValueError /\ mapM f' (seq 0 n) = Err ValueError).
Proof.
  intros RL H HE.
  assert (Sq : forall i, (i < n)%nat -> nth_error (seq 0 n) i = Some i).
  { intros i Hi. rewrite (nth_error_nth' (seq 0 n) 0%nat) by (rewrite seq_length; exact Hi). rewrite seq_nth by exact Hi. reflexivity. }
  assert (Err1 : forall (h : nat -> result R) l e, mapM h l = Err e -> exists i, In i l /\ h i = Err e).
  { intros h l. induction l as [|i l IH]; cbn; intros e E; [discriminate|]. destruct (h i) as [y|e'] eqn:Y; cbn [rbind] in E.
    - destruct (mapM h l) as [ys|e'] eqn:Z; cbn [rbind] in E; [discriminate|]. injection E as ->.
      destruct (IH e eq_refl) as [j [J1 J2]]. eauto.
    - injection E as ->. eauto. }
  assert (At : forall (h : nat -> result R) g, mapM h (seq 0 n) = Ok g -> forall i, (i < n)%nat -> h i = Ok (arr g i)).
  { intros h g E i Hi. apply mapM_Forall2 in E. exact (PRProofs.Forall2_nth_error _ _ _ _ _ 0 E (Sq i Hi)). }
  destruct (mapM f (seq 0 n)) as [g|e] eqn:E, (mapM f' (seq 0 n)) as [g'|e'] eqn:E'.
  - left. exists g, g'. split; [reflexivity|]. split; [reflexivity|]. intros i Hi.
    pose proof (At _ _ E' i Hi) as A. pose proof (At _ _ E (tau i) (proj1 RL i Hi)) as B. rewrite H in A by exact Hi. congruence.
  - exfalso. destruct (Err1 _ _ _ E') as [i [Hi X]]. apply in_seq in Hi. rewrite H in X by lia.
    rewrite (At _ _ E (tau i)) in X by (apply RL; lia). discriminate.
  - exfalso. destruct (Err1 _ _ _ E) as [j [Hj X]]. apply in_seq in Hj.
    destruct (relabelling_onto n tau j RL) as [i [Hi <-]]; [lia|]. rewrite <- H in X by exact Hi. rewrite (At _ _ E' i Hi) in X. discriminate.
  - right. destruct (Err1 _ _ _ E) as [j [_ X]]. destruct (Err1 _ _ _ E') as [i [Hi X']]. apply in_seq in Hi. rewrite H in X' by lia.
    rewrite (HE _ _ X), (HE _ _ X'). auto.
Qed.

(** ** Formulas *)
Section Perm.
  Variables (n m : nat) (sg tau : nat -> nat) (nu nu' : nat -> nat -> R) (V V' Sk Sk' xi xi' rings rings' : nat -> R).
  Variables (mats mats' : matrices R) (t t' : mie_tables).
  Hypothesis Hsg : relabelling m sg.
  Hypothesis Htau : relabelling n tau.
  Hypothesis Hnu : forall i k, (i < n)%nat -> (k < m)%nat -> nu' i k = nu (tau i) (sg k).
  Hypothesis HV : forall k, (k < m)%nat -> V' k = V (sg k) /\ Sk' k = Sk (sg k).
  Hypothesis Hxi : forall i, (i < n)%nat -> xi' i = xi (tau i).
  Hypothesis Hmats : forall key k l, In key mie_keys -> (k < m)%nat -> (l < m)%nat -> mats' key k l = mats key (sg k) (sg l).
  Notation X := (xskl n m xi nu V Sk). Notation X' := (xskl n m xi' nu' V' Sk').
  Notation C := (Cmol2seg n m xi nu V Sk). Notation C' := (Cmol2seg n m xi' nu' V' Sk').

  Lemma mk_sigma : In "sigma"%string mie_keys. Proof. left; reflexivity. Qed.
  Lemma mk_lr : In "lambdar"%string mie_keys. Proof. right; left; reflexivity. Qed.
  Lemma mk_la : In "lambdaa"%string mie_keys. Proof. do 2 right; left; reflexivity. Qed.
  Lemma mk_eps : In "epsilon"%string mie_keys. Proof. do 3 right; left; reflexivity. Qed.

  Lemma mperm_C : C' = C.
  Proof. eapply perm_C; eassumption. Qed.
  Lemma mperm_X k l : (k < m)%nat -> (l < m)%nat -> X' k l = X (sg k) (sg l).
  Proof. eapply perm_X; eassumption. Qed.
  Lemma mperm_z i k : (i < n)%nat -> (k < m)%nat -> zki m nu' V' Sk' i k = zki m nu V Sk (tau i) (sg k).
  Proof. eapply perm_zki; eassumption. Qed.
  Lemma mperm_cube (d d' : nat -> nat -> R) i : (forall k l, (k < m)%nat -> (l < m)%nat -> d' k l = d (sg k) (sg l)) -> (i < n)%nat ->
    cube_mean m nu' V' Sk' d' i = cube_mean m nu V Sk d (tau i).
  Proof.
    intros H Hi. unfold cube_mean. f_equal. apply (perm_mm m sg Hsg). intros k l Hk Hl.
    rewrite !mperm_z, H by assumption. reflexivity.
  Qed.
  Lemma mperm_avg key i : In key mie_keys -> (i < n)%nat ->
    mie_averages m nu' V' Sk' mats' key i = mie_averages m nu V Sk mats key (tau i).
  Proof.
    intros Hk Hi. unfold mie_averages. destruct (String.eqb key "sigma").
    - apply mperm_cube; [|exact Hi]. intros k l H1 H2. apply Hmats; assumption.
    - unfold mean_ii. apply (perm_mm m sg Hsg). intros k l H1 H2. rewrite !mperm_z, Hmats by assumption. reflexivity.
  Qed.

  (** the tables of the reordered object *)
  Hypothesis Hd : forall k l, (k < m)%nat -> (l < m)%nat -> t_dkl t' k l = t_dkl t (sg k) (sg l).
  Hypothesis Hx0 : forall k l, (k < m)%nat -> (l < m)%nat -> t_x0kl t' k l = t_x0kl t (sg k) (sg l).
  Hypothesis Hdii : forall i, (i < n)%nat -> t_dii t' i = t_dii t (tau i).
  Hypothesis Hx0ii : forall i, (i < n)%nat -> t_x0ii t' i = t_x0ii t (tau i).

  Lemma mperm_packing rho (d d' : nat -> nat -> R) : (forall k l, (k < m)%nat -> (l < m)%nat -> d' k l = d (sg k) (sg l)) ->
    packing m rho C' X' d' = packing m rho C X d.
  Proof.
    intros H. unfold packing. rewrite mperm_C. f_equal. f_equal. apply (perm_mm m sg Hsg). intros k l Hk Hl.
    rewrite mperm_X, H by assumption. reflexivity.
  Qed.
  Lemma mperm_zetax rho : zetax m t' C' X' rho = zetax m t C X rho.
  Proof. apply mperm_packing. exact Hd. Qed.
  Lemma mperm_zetaxstar rho : zetaxstar m mats' C' X' rho = zetaxstar m mats C X rho.
  Proof. apply mperm_packing. intros k l Hk Hl. apply Hmats; [exact mk_sigma|exact Hk|exact Hl]. Qed.
  Lemma mperm_eta rho p : eta_m m t' C' X' rho p = eta_m m t C X rho p.
  Proof.
    unfold eta_m. rewrite mperm_C. f_equal. f_equal. apply (perm_m m sg Hsg). intros k Hk. rewrite mperm_X, Hd by assumption. reflexivity.
  Qed.
  Lemma mperm_hs rho : mie_hard_sphere n m t' C' X' rho = mie_hard_sphere n m t C X rho.
  Proof. unfold mie_hard_sphere. cbv zeta. rewrite !mperm_eta. reflexivity. Qed.
  Lemma mperm_first rho T : mie_first_order m mats' t' C' X' rho T = mie_first_order m mats t C X rho T.
  Proof.
    unfold mie_first_order. rewrite mperm_zetax, mperm_C. f_equal. apply (perm_mm m sg Hsg). intros k l Hk Hl.
    unfold m_la, m_lr, m_eps. rewrite mperm_X, Hd, Hx0, (Hmats _ k l mk_la), (Hmats _ k l mk_lr), (Hmats _ k l mk_eps) by assumption. reflexivity.
  Qed.
  Variables (Ckl Ckl' : nat -> nat -> R).
  Hypothesis HC : forall k l, (k < m)%nat -> (l < m)%nat -> Ckl' k l = Ckl (sg k) (sg l).
  Lemma mperm_alpha k l : (k < m)%nat -> (l < m)%nat -> mie_alpha mats' Ckl' k l = mie_alpha mats Ckl (sg k) (sg l).
  Proof. intros Hk Hl. unfold mie_alpha. rewrite HC, (Hmats _ k l mk_la), (Hmats _ k l mk_lr) by assumption. reflexivity. Qed.
  Lemma mperm_second rho T :
    mie_second_order m mats' Ckl' (mie_alpha mats' Ckl') t' C' X' rho T = mie_second_order m mats Ckl (mie_alpha mats Ckl) t C X rho T.
  Proof.
    unfold mie_second_order. f_equal; [rewrite mperm_C; reflexivity|]. apply (perm_mm m sg Hsg). intros k l Hk Hl.
    unfold a2kl, chi, m_la, m_lr, m_eps. cbv zeta. rewrite mperm_zetax, mperm_zetaxstar, mperm_X, Hd, Hx0, HC, mperm_alpha, mperm_C,
      (Hmats _ k l mk_la), (Hmats _ k l mk_lr), (Hmats _ k l mk_eps) by assumption. reflexivity.
  Qed.
  Lemma mperm_third rho T :
    mie_third_order m mats' (mie_alpha mats' Ckl') C' X' rho T = mie_third_order m mats (mie_alpha mats Ckl) C X rho T.
  Proof.
    unfold mie_third_order. cbv zeta. rewrite mperm_zetaxstar, mperm_C. f_equal. apply (perm_mm m sg Hsg). intros k l Hk Hl.
    unfold m_eps. rewrite mperm_X, mperm_alpha, (Hmats _ k l mk_eps) by assumption. reflexivity.
  Qed.
  Lemma mperm_max mp : mie_rho_max m t' C' X' mp = mie_rho_max m t C X mp.
  Proof.
    unfold mie_rho_max. rewrite mperm_C. do 3 f_equal. apply (perm_mm m sg Hsg). intros k l Hk Hl. rewrite mperm_X, Hd by assumption. reflexivity.
  Qed.

  Variables (avg avg' : string -> nat -> R).
  Hypothesis Havg : forall key i, In key mie_keys -> (i < n)%nat -> avg' key i = avg key (tau i).
  Lemma mperm_gii rho T i : (i < n)%nat -> mie_gii m mats' avg' t' C' X' rho T i = mie_gii m mats avg t C X rho T (tau i).
  Proof.
    intros Hi. unfold mie_gii, mie_g1, mie_g2, mie_gdHS, gammac, v_la, v_lr, v_eps. cbv zeta.
    rewrite mperm_zetax, mperm_zetaxstar, mperm_C, (Hdii i Hi), (Hx0ii i Hi), (Havg _ i mk_la Hi), (Havg _ i mk_lr Hi), (Havg _ i mk_eps Hi).
    reflexivity.
  Qed.
  Lemma gii_error rho T i e : mie_gii m mats avg t C X rho T i = Err e -> e = ValueError.
  Proof.
    unfold mie_gii, mie_g1, mie_g2, da1ii_drhos, da2_1pchi_drhos, prefactor. cbv zeta.
    destruct (Req_EM_T (v_lr avg i) 0); cbn [rbind]; congruence.
  Qed.
  Hypothesis Hrings : forall i, (i < n)%nat -> rings' i = rings (tau i).
  Lemma mperm_chain rho T :
    mie_chain n m mats' avg' t' C' X' nu' V' Sk' rings' xi' rho T = mie_chain n m mats avg t C X nu V Sk rings xi rho T.
  Proof.
    unfold mie_chain.
    destruct (mapM_seq_perm (mie_gii m mats avg t C X rho T) (mie_gii m mats' avg' t' C' X' rho T) n tau Htau
      (fun i Hi => mperm_gii rho T i Hi) (fun i e => gii_error rho T i e)) as [[g [g' [-> [-> G]]]]|[-> ->]]; cbn [rbind]; [|reflexivity].
    f_equal. f_equal. apply (perm_n n tau Htau). intros i Hi.
    rewrite (perm_weight n m sg tau nu nu' V V' Sk Sk' Hsg Hnu HV i Hi), Hxi, Hrings, G by assumption. reflexivity.
  Qed.
End Perm.

(** ** Objects *)
Section Obj.
  Variable mapsci : option (bead -> bead -> option R -> result (dict R)).
  Lemma mie_keys_nodup : NoDup mie_keys.
  Proof. repeat constructor; cbn; intuition discriminate. Qed.
  Lemma fetch_extract_mie prop lib beads l : complete mie_defaults lib -> In prop ["Vks"; "Sk"]%string ->
    extract_property R prop lib beads (Some 1) = Ok l ->
    mapM (fun b => let* d := dfetch lib b in dfetch d prop) beads = Ok l.
  Proof.
    intros Cp Hp H. rewrite <- H. unfold extract_property. apply mapM_ext. intros b Hb. unfold dfetch.
    destruct (dget lib b) as [d|] eqn:E; cbn [rbind]; [|reflexivity].
    destruct (dget d prop) eqn:F; [reflexivity|]. exfalso. apply dget_In in E.
    destruct Hp as [<-|[<-|[]]]; (eapply Cp; [exact E| |exact F]); reflexivity.
  Qed.

  Lemma mie_reordering rules sg tau beads beads' lib cl n nu nu' rings rings' s s' :
    (forall key, ro_function (rules key) <> "multipole"%string) -> orders_agree cl ->
    same_in_order sg beads beads' -> relabelling n tau ->
    (forall i k, (i < n)%nat -> (k < length beads)%nat -> nu' i k = nu (tau i) (sg k)) ->
    (forall i, (i < n)%nat -> rings' i = rings (tau i)) ->
    mie_init mapsci rules beads lib cl n nu rings = Ok s ->
    mie_init mapsci rules beads' lib cl n nu' rings' = Ok s' ->
    forall xi xi', length xi = n -> same_in_order tau xi xi' ->
    (forall rho T, snd (mie_residual s' rho T xi') = snd (mie_residual s rho T xi)) /\
    (forall T mp, snd (mie_density_max s' xi' T mp) = snd (mie_density_max s xi T mp)).
  Proof.
    intros M O RO Htau Hnu Hr I I' xi xi' Hxi RX.
    destruct (mie_init_ok mapsci _ _ _ _ _ _ _ _ I) as [Pr [St Tb]]. destruct (mie_init_ok mapsci _ _ _ _ _ _ _ _ I') as [Pr' [St' Tb']].
    unfold mie_init in I, I'.
    destruct (snd (check_bead_parameters R lib mie_defaults)) as [L|]; cbn [rbind] in I, I'; [|discriminate].
    destruct (extract_property R "Vks" L beads (Some 1)) as [V|] eqn:EV; cbn [rbind] in I; [|discriminate].
    destruct (extract_property R "Sk" L beads (Some 1)) as [Sk|] eqn:ES; cbn [rbind] in I; [|discriminate].
    destruct (mie_matrices mapsci rules beads L cl) as [mats|] eqn:EM; cbn [rbind] in I; [|discriminate].
    destruct (prefactor_matrix (length beads) mats) as [Ckl|] eqn:EC; cbn [rbind] in I; [|discriminate].
    destruct (extract_property R "Vks" L beads' (Some 1)) as [V'|] eqn:EV'; cbn [rbind] in I'; [|discriminate].
    destruct (extract_property R "Sk" L beads' (Some 1)) as [Sk'|] eqn:ES'; cbn [rbind] in I'; [|discriminate].
    destruct (mie_matrices mapsci rules beads' L cl) as [mats'|] eqn:EM'; cbn [rbind] in I'; [|discriminate].
    destruct (prefactor_matrix (length beads') mats') as [Ckl'|] eqn:EC'; cbn [rbind] in I'; [|discriminate].
    assert (HVS : forall k, (k < length beads)%nat -> arr V' k = arr V (sg k) /\ arr Sk' k = arr Sk (sg k)).
    { intros k Hk. split; [eapply (mapM_in_order _ sg beads beads' V V'); [exact RO|exact EV|exact EV'|exact Hk]
                          |eapply (mapM_in_order _ sg beads beads' Sk Sk'); [exact RO|exact ES|exact ES'|exact Hk]]. }
    pose proof RO as [Lb [Hsg Nb]].
    assert (Hmats : forall key k l, In key mie_keys -> (k < length beads)%nat -> (l < length beads)%nat -> mats' key k l = mats key (sg k) (sg l)).
    { intros key k l Hkey Hk Hl. pose proof (proj1 Hsg k Hk) as Hk'. pose proof (proj1 Hsg l Hl) as Hl'.
      destruct (nth_error beads (sg k)) as [a|] eqn:A; [|apply nth_error_None in A; lia].
      destruct (nth_error beads (sg l)) as [b|] eqn:B; [|apply nth_error_None in B; lia].
      refine (cross_positions (rule_of mapsci rules) mie_keys (rule_single mapsci rules M) _ mie_keys_nodup L cl beads beads' mats mats' O EM EM'
        key (sg k) (sg l) k l a b Hkey (relabelling_eq _ _ k l Hsg Hk Hl) A B _ _).
      - intros q x y. unfold rule_of. apply CombiningProps.C12_symmetric. apply M.
      - rewrite Nb by exact Hk. exact A.
      - rewrite Nb by exact Hl. exact B. }
    assert (Hxi1 : forall i, (i < n)%nat -> arr xi' i = arr xi (tau i)) by (intros i Hi; apply (arr_in_order tau xi xi' RX); lia).
    assert (LX : length xi' = n) by (destruct RX as [-> _]; exact Hxi).
    assert (HC : forall k l, (k < length beads)%nat -> (l < length beads)%nat -> Ckl' k l = Ckl (sg k) (sg l)).
    { intros k l Hk Hl. unfold prefactor_matrix in EC, EC'. destruct (existsb _ _) in EC; [discriminate|]. destruct (existsb _ _) in EC'; [discriminate|].
      injection EC as <-. injection EC' as <-. cbv beta. rewrite (Hmats _ k l mk_lr), (Hmats _ k l mk_la) by assumption. reflexivity. }
    injection I as <-. injection I' as <-.
    assert (Cp : complete mie_defaults L) by (exact (proj1 (proj2 Pr))).
    set (s := {| mi_par := _; mi_rules := _; mi_n := n; mi_nu := nu |}) in *.
    set (s' := {| mi_par := _; mi_rules := _; mi_n := n; mi_nu := nu' |}) in *.
    assert (CO : mie_composition s xi = Ok (Cmol2seg n (length beads) (arr xi) nu (arr V) (arr Sk),
        xskl n (length beads) (arr xi) nu (arr V) (arr Sk))).
    { unfold mie_composition. change (mlib s) with L. change (mbeads s) with beads.
      rewrite (fetch_extract_mie "Vks" L beads V Cp) by (cbn; tauto || exact EV). cbn [rbind].
      rewrite (fetch_extract_mie "Sk" L beads Sk Cp) by (cbn; tauto || exact ES). reflexivity. }
    assert (CO' : mie_composition s' xi' = Ok (Cmol2seg n (length beads) (arr xi') nu' (arr V') (arr Sk'),
        xskl n (length beads) (arr xi') nu' (arr V') (arr Sk'))).
    { unfold mie_composition. change (mlib s') with L. change (mbeads s') with beads'.
      rewrite (fetch_extract_mie "Vks" L beads' V' Cp) by (cbn; tauto || exact EV'). cbn [rbind].
      rewrite (fetch_extract_mie "Sk" L beads' Sk' Cp) by (cbn; tauto || exact ES'). cbn [rbind].
      unfold mm. change (mbeads s') with beads'. rewrite Lb. reflexivity. }
    assert (Sm' : mm s' = length beads) by (exact Lb).
    (* the two sets of tables *)
    assert (TAB : forall T t t', mie_tables_at s T = Ok t -> mie_tables_at s' T = Ok t' ->
      (forall k l, (k < length beads)%nat -> (l < length beads)%nat -> t_dkl t' k l = t_dkl t (sg k) (sg l)) /\
      (forall k l, (k < length beads)%nat -> (l < length beads)%nat -> t_x0kl t' k l = t_x0kl t (sg k) (sg l)) /\
      (forall i, (i < n)%nat -> t_dii t' i = t_dii t (tau i)) /\ (forall i, (i < n)%nat -> t_x0ii t' i = t_x0ii t (tau i))).
    { intros T t t' Et Et'. unfold mie_tables_at in Et, Et'. change (mlib s) with L in Et. change (mlib s') with L in Et'.
      change (mbeads s) with beads in Et. change (mbeads s') with beads' in Et'.
      destruct (mapM (bead_diameter L T) beads) as [dkk|] eqn:D; cbn [rbind] in Et; [|discriminate].
      destruct (mapM (bead_diameter L T) beads') as [dkk'|] eqn:D'; cbn [rbind] in Et'; [|discriminate].
      injection Et as <-. injection Et' as <-.
      assert (Dk : forall k, (k < length beads)%nat -> arr dkk' k = arr dkk (sg k)).
      { intros k Hk. exact (mapM_in_order _ sg beads beads' dkk dkk' RO D D' k Hk). }
      assert (Dkl : forall k l, (k < length beads)%nat -> (l < length beads)%nat -> dkl_of (arr dkk') k l = dkl_of (arr dkk) (sg k) (sg l)).
      { intros k l Hk Hl. unfold dkl_of. rewrite !Dk by assumption. reflexivity. }
      assert (Di : forall i, (i < n)%nat -> cube_mean (mm s') nu' (arr V') (arr Sk') (dkl_of (arr dkk')) i =
        cube_mean (length beads) nu (arr V) (arr Sk) (dkl_of (arr dkk)) (tau i)).
      { intros i Hi. rewrite Sm'. eapply mperm_cube; eassumption. }
      cbn [t_dkl t_x0kl t_dii t_x0ii]. split; [exact Dkl|]. split; [|split].
      - intros k l Hk Hl. rewrite Dkl by assumption. change (mi_mats s') with mats'. change (mi_mats s) with mats.
        rewrite (Hmats _ k l mk_sigma) by assumption. reflexivity.
      - exact Di.
      - intros i Hi. pose proof (Di i Hi) as Z. change (mm s) with (length beads). unfold s', s in *. cbn [mi_nu mi_Vks mi_Sk mi_avg] in *. rewrite Z. f_equal.
        rewrite Lb. eapply mperm_avg; try eassumption. exact mk_sigma. }
    assert (Havg : forall key i, In key mie_keys -> (i < n)%nat -> mi_avg s' key i = mi_avg s key (tau i)).
    { intros key i Hkey Hi. unfold s', s. cbn [mi_avg]. rewrite Lb. eapply mperm_avg; eassumption. }
    assert (REF : forall (A : Type) T (f f' : mie -> mie_tables -> R -> (nat -> nat -> R) -> result A),
      (forall t t' s1 s1', mie_tables_at s T = Ok t -> mie_tables_at s' T = Ok t' ->
         s1 = with_mcomp (with_T s (Some T) (Some t)) (Some (xi, (Cmol2seg n (length beads) (arr xi) nu (arr V) (arr Sk), xskl n (length beads) (arr xi) nu (arr V) (arr Sk)))) ->
         s1' = with_mcomp (with_T s' (Some T) (Some t')) (Some (xi', (Cmol2seg n (length beads) (arr xi') nu' (arr V') (arr Sk'), xskl n (length beads) (arr xi') nu' (arr V') (arr Sk')))) ->
         f' s1' t' (Cmol2seg n (length beads) (arr xi') nu' (arr V') (arr Sk')) (xskl n (length beads) (arr xi') nu' (arr V') (arr Sk')) =
         f s1 t (Cmol2seg n (length beads) (arr xi) nu (arr V) (arr Sk)) (xskl n (length beads) (arr xi) nu (arr V) (arr Sk))) ->
      snd (refreshed s' T xi' f') = snd (refreshed s T xi f)).
    { intros A T f f' H. destruct (refreshed_spec mapsci s T xi f Pr St (or_introl Tb)) as [t [Ht ->]].
      destruct (refreshed_spec mapsci s' T xi' f' Pr' St' (or_introl Tb')) as [t' [Ht' ->]]. rewrite CO, CO'. cbn [snd].
      apply (H t t' _ _ Ht Ht' eq_refl eq_refl). }
    split.
    - intros rho T. unfold mie_residual. change (mi_n s') with n. change (mi_n s) with n. rewrite LX, Hxi, !Nat.eqb_refl. cbn [negb].
      destruct (match rho with [] => true | _ => false end); [reflexivity|].
      destruct (existsb (fun r => if Rlt_dec r 0 then true else false) rho); [reflexivity|].
      rewrite (existsb_in_order _ tau xi xi' RX).
      destruct (existsb (fun x => if Rlt_dec x 0 then true else false) xi); [reflexivity|].
      apply REF. intros t t' s1 s1' Ht Ht' -> ->. destruct (TAB T t t' Ht Ht') as [Hd [Hx0 [Hdi Hx0i]]].
      unfold mie_monomer, mie_chain_of, with_mcomp, with_T. cbn [mi_par mi_n mi_mats mi_Ckl mi_alpha mi_avg mi_nu mi_Vks mi_Sk mi_rings].
      unfold mm, mbeads. cbn [mi_par]. change (ep_beads (mi_par s')) with beads'. change (ep_beads (mi_par s)) with beads. rewrite Lb.
      change (mi_mats s') with mats'. change (mi_mats s) with mats. change (mi_n s') with n. change (mi_n s) with n.
      change (mi_Ckl s') with Ckl'. change (mi_Ckl s) with Ckl. change (mi_alpha s') with (mie_alpha mats' Ckl'). change (mi_alpha s) with (mie_alpha mats Ckl).
      change (mi_nu s') with nu'. change (mi_nu s) with nu. change (mi_Vks s') with V'. change (mi_Vks s) with V. change (mi_Sk s') with Sk'. change (mi_Sk s) with Sk.
      change (mi_rings s') with rings'. change (mi_rings s) with rings.
      rewrite (mperm_max n (length beads) sg tau nu nu' (arr V) (arr V') (arr Sk) (arr Sk') (arr xi) (arr xi') t t' Hsg Htau Hnu HVS Hxi1 Hd).
      match goal with |- context [forallb ?f rho] => destruct (forallb f rho) end; [reflexivity|].
      apply mapM_ext. intros r _.
      rewrite (mperm_chain n (length beads) sg tau nu nu' (arr V) (arr V') (arr Sk) (arr Sk') (arr xi) (arr xi') rings rings' mats mats' t t'
        Hsg Htau Hnu HVS Hxi1 Hmats Hd Hdi Hx0i (mi_avg s) (mi_avg s') Havg Hr r T).
      match goal with |- rbind ?z _ = _ => destruct z as [c|]; cbn [rbind]; [|reflexivity] end. f_equal. f_equal.
      rewrite (mperm_hs n (length beads) sg tau nu nu' (arr V) (arr V') (arr Sk) (arr Sk') (arr xi) (arr xi') t t' Hsg Htau Hnu HVS Hxi1 Hd).
      rewrite (mperm_first n (length beads) sg tau nu nu' (arr V) (arr V') (arr Sk) (arr Sk') (arr xi) (arr xi') mats mats' t t' Hsg Htau Hnu HVS Hxi1 Hmats Hd Hx0).
      rewrite (mperm_second n (length beads) sg tau nu nu' (arr V) (arr V') (arr Sk) (arr Sk') (arr xi) (arr xi') mats mats' t t' Hsg Htau Hnu HVS Hxi1 Hmats Hd Hx0 Ckl Ckl' HC).
      rewrite (mperm_third n (length beads) sg tau nu nu' (arr V) (arr V') (arr Sk) (arr Sk') (arr xi) (arr xi') mats mats' Hsg Htau Hnu HVS Hxi1 Hmats Ckl Ckl' HC).
      reflexivity.
    - intros T mp. unfold mie_density_max. change (mi_n s') with n. change (mi_n s) with n. rewrite LX, Hxi, !Nat.eqb_refl. cbn [negb].
      apply REF. intros t t' s1 s1' Ht Ht' -> ->. destruct (TAB T t t' Ht Ht') as [Hd _]. f_equal.
      unfold mm, mbeads, with_mcomp, with_T. cbn [mi_par]. change (ep_beads (mi_par s')) with beads'. change (ep_beads (mi_par s)) with beads. rewrite Lb.
      exact (mperm_max n (length beads) sg tau nu nu' (arr V) (arr V') (arr Sk) (arr Sk') (arr xi) (arr xi') t t' Hsg Htau Hnu HVS Hxi1 Hd mp).
  Qed.
End Obj.

Lemma mie_init_reordered mapsci rules sg tau beads beads' lib cl n nu nu' rings rings' s :
  (forall key, ro_function (rules key) <> "multipole"%string) -> orders_agree cl ->
  same_in_order sg beads beads' -> relabelling n tau ->
  mie_init mapsci rules beads lib cl n nu rings = Ok s ->
  exists s', mie_init mapsci rules beads' lib cl n nu' rings' = Ok s'.
Proof.
  intros M O RO Htau I. unfold mie_init in *.
  destruct (snd (check_bead_parameters R lib mie_defaults)) as [L|]; cbn [rbind] in *; [|discriminate].
  destruct (extract_property R "Vks" L beads (Some 1)) as [V|] eqn:EV; cbn [rbind] in I; [|discriminate].
  destruct (extract_property R "Sk" L beads (Some 1)) as [Sk|] eqn:ES; cbn [rbind] in I; [|discriminate].
  destruct (mie_matrices mapsci rules beads L cl) as [mats|] eqn:EM; cbn [rbind] in I; [|discriminate].
  destruct (prefactor_matrix (length beads) mats) as [Ckl|] eqn:EC; cbn [rbind] in I; [|discriminate].
  destruct (mapM_in_order_ok _ sg beads beads' V RO EV) as [V' EV']. destruct (mapM_in_order_ok _ sg beads beads' Sk RO ES) as [Sk' ES'].
  fold (extract_property R "Vks" L beads' (Some 1)) in EV'. fold (extract_property R "Sk" L beads' (Some 1)) in ES'.
  rewrite EV'. cbn [rbind]. rewrite ES'. cbn [rbind].
  destruct (cross_reordered (rule_of mapsci rules) mie_keys sg beads beads' L (opt_cross cl) mats (rule_single mapsci rules M)
    (fun key a b => CombiningProps.C12_symmetric mapsci a b key (rules key) (M key)) RO EM) as [mats' EM'].
  unfold mie_matrices. rewrite EM'. cbn [rbind]. pose proof RO as [Lb [Hsg Nb]]. rewrite Lb.
  unfold prefactor_matrix in *. destruct (existsb _ _) eqn:X in EC; [discriminate|].
  match goal with |- context [if ?b then _ else _] => destruct b eqn:Y end; cbn [rbind]; [|eauto]. exfalso.
  apply existsb_exists in Y. destruct Y as [[k l] [Hkl Z]]. apply in_prod_iff in Hkl. destruct Hkl as [Hk Hl]. apply in_seq in Hk, Hl. cbn [fst snd] in Z.
  assert (Hk' : (k < length beads)%nat) by lia. assert (Hl' : (l < length beads)%nat) by lia.
  pose proof (proj1 Hsg k Hk') as Ks. pose proof (proj1 Hsg l Hl') as Ls.
  destruct (nth_error beads (sg k)) as [a|] eqn:A; [|apply nth_error_None in A; lia].
  destruct (nth_error beads (sg l)) as [b|] eqn:B; [|apply nth_error_None in B; lia].
  assert (E : mats' "lambdar"%string k l = mats "lambdar"%string (sg k) (sg l)).
  { refine (cross_positions (rule_of mapsci rules) mie_keys (rule_single mapsci rules M) _ mie_keys_nodup L cl beads beads' mats mats' O EM EM'
        _ (sg k) (sg l) k l a b mk_lr (relabelling_eq _ _ k l Hsg Hk' Hl') A B _ _).
    - intros q x y. unfold rule_of. apply CombiningProps.C12_symmetric. apply M.
    - rewrite Nb by exact Hk'. exact A.
    - rewrite Nb by exact Hl'. exact B. }
  assert (F : existsb (fun kl => if Req_EM_T (mats "lambdar"%string (fst kl) (snd kl)) 0 then true else false)
      (list_prod (seq 0 (length beads)) (seq 0 (length beads))) = true).
  { apply existsb_exists. exists (sg k, sg l). split; [apply in_prod; apply in_seq; lia|]. cbn [fst snd]. rewrite <- E. exact Z. }
  congruence.
Qed.
