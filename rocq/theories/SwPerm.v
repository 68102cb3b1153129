(** Listing groups and components in another order leaves the SAFT-gamma-SW results
    unchanged: proofs. *)
From Coq Require Import Reals Lra Lia.
From Verif Require Import Base BaseFacts RSum OrderSpec IOModel EosToolboxModel EosToolboxSpec EosToolboxProofs CombiningModel
  SaftToolboxModel SwModel SwProofs SwProofs2 SwAbsent CrossTotal.
From Verif Require EosToolboxProps CombiningProps PRProofs.
Open Scope R_scope.

Lemma key_sigma : In "sigma"%string sw_keys. Proof. left; reflexivity. Qed.
Lemma key_lambda : In "lambda"%string sw_keys. Proof. right; left; reflexivity. Qed.
Lemma key_epsilon : In "epsilon"%string sw_keys. Proof. right; right; left; reflexivity. Qed.

(** ** Formulas *)
Section Perm.
  Variables (n m : nat) (sg tau : nat -> nat) (nu nu' : nat -> nat -> R) (V V' Sk Sk' xi xi' rings rings' : nat -> R).
  Variables (mats mats' avg avg' : matrices R).
  Hypothesis Hsg : relabelling m sg.
  Hypothesis Htau : relabelling n tau.
  Hypothesis Hnu : forall i k, (i < n)%nat -> (k < m)%nat -> nu' i k = nu (tau i) (sg k).
  Hypothesis HV : forall k, (k < m)%nat -> V' k = V (sg k) /\ Sk' k = Sk (sg k).
  Hypothesis Hxi : forall i, (i < n)%nat -> xi' i = xi (tau i).
  Hypothesis Hmats : forall key k l, In key sw_keys -> (k < m)%nat -> (l < m)%nat -> mats' key k l = mats key (sg k) (sg l).

  Lemma perm_m (f f' : nat -> R) : (forall k, (k < m)%nat -> f' k = f (sg k)) -> sumn m f' = sumn m f.
  Proof. intros H. rewrite <- (sumn_perm m sg f) by exact Hsg. apply sumn_ext. exact H. Qed.
  Lemma perm_n (f f' : nat -> R) : (forall i, (i < n)%nat -> f' i = f (tau i)) -> sumn n f' = sumn n f.
  Proof. intros H. rewrite <- (sumn_perm n tau f) by exact Htau. apply sumn_ext. exact H. Qed.
  Lemma perm_mm (f f' : nat -> nat -> R) : (forall k l, (k < m)%nat -> (l < m)%nat -> f' k l = f (sg k) (sg l)) ->
    sumn m (fun k => sumn m (fun l => f' k l)) = sumn m (fun k => sumn m (fun l => f k l)).
  Proof. intros H. apply (perm_m (fun k => sumn m (fun l => f k l))). intros k Hk. apply perm_m. intros l Hl. apply H; assumption. Qed.

  Notation X := (xskl n m xi nu V Sk). Notation X' := (xskl n m xi' nu' V' Sk').
  Notation C := (Cmol2seg n m xi nu V Sk). Notation C' := (Cmol2seg n m xi' nu' V' Sk').

  Lemma perm_C : C' = C.
  Proof.
    unfold Cmol2seg. apply perm_n. intros i Hi. apply perm_m. intros k Hk. destruct (HV k Hk) as [-> ->].
    rewrite Hxi, Hnu by assumption. reflexivity.
  Qed.
  Lemma perm_xsk k : (k < m)%nat -> xsk n m xi' nu' V' Sk' k = xsk n m xi nu V Sk (sg k).
  Proof.
    intros Hk. unfold xsk. rewrite perm_C. destruct (HV k Hk) as [-> ->].
    rewrite (perm_n (fun i => xi i * nu i (sg k)) (fun i => xi' i * nu' i k)); [reflexivity|].
    intros i Hi. rewrite Hxi, Hnu by assumption. reflexivity.
  Qed.
  Lemma perm_X k l : (k < m)%nat -> (l < m)%nat -> X' k l = X (sg k) (sg l).
  Proof. intros Hk Hl. unfold xskl. rewrite (perm_xsk k Hk), (perm_xsk l Hl). reflexivity. Qed.
  Lemma perm_zeta rho p : zeta m mats' C' X' rho p = zeta m mats C X rho p.
  Proof.
    unfold zeta. rewrite perm_C. f_equal. f_equal. apply perm_m. intros k Hk. unfold sigma_kl.
    rewrite perm_X, (Hmats _ k k key_sigma) by assumption. reflexivity.
  Qed.
  Lemma perm_alpha k l : (k < m)%nat -> (l < m)%nat -> alpha_kl mats' k l = alpha_kl mats (sg k) (sg l).
  Proof.
    intros Hk Hl. unfold alpha_kl. rewrite (Hmats _ k l key_sigma), (Hmats _ k l key_lambda), (Hmats _ k l key_epsilon) by assumption.
    reflexivity.
  Qed.
  Lemma perm_hs rho : Ahard_sphere m mats' C' X' rho = Ahard_sphere m mats C X rho.
  Proof. unfold Ahard_sphere. cbv zeta. rewrite !perm_zeta. reflexivity. Qed.
  Lemma perm_first rho T : Afirst_order m mats' (alpha_kl mats') C' X' rho T = Afirst_order m mats (alpha_kl mats) C X rho T.
  Proof.
    unfold Afirst_order. rewrite perm_zeta, perm_C. f_equal. apply perm_mm. intros k l Hk Hl.
    rewrite perm_X, perm_alpha by assumption. unfold lambda_kl. rewrite (Hmats _ k l key_lambda) by assumption. reflexivity.
  Qed.
  Lemma perm_second rho T : Asecond_order m mats' (alpha_kl mats') C' X' rho T = Asecond_order m mats (alpha_kl mats) C X rho T.
  Proof.
    unfold Asecond_order. cbv zeta. rewrite perm_zeta, perm_C. f_equal. apply perm_mm. intros k l Hk Hl.
    rewrite perm_X, perm_alpha by assumption. unfold lambda_kl, epsilon_kl.
    rewrite (Hmats _ k l key_lambda), (Hmats _ k l key_epsilon) by assumption. reflexivity.
  Qed.
  Lemma perm_max mp : rho_max m mats' C' X' mp = rho_max m mats C X mp.
  Proof.
    unfold rho_max. rewrite perm_C. do 3 f_equal. apply perm_mm. intros k l Hk Hl. rewrite perm_X by assumption.
    unfold sigma_kl. rewrite (Hmats _ k l key_sigma) by assumption. reflexivity.
  Qed.
  Lemma perm_weight i : (i < n)%nat ->
    sumn m (fun k => nu' i k * V' k * Sk' k) = sumn m (fun k => nu (tau i) k * V k * Sk k).
  Proof.
    intros Hi. apply perm_m. intros k Hk. destruct (HV k Hk) as [-> ->]. rewrite Hnu by assumption. reflexivity.
  Qed.
  Lemma perm_zki i k : (i < n)%nat -> (k < m)%nat -> zki m nu' V' Sk' i k = zki m nu V Sk (tau i) (sg k).
  Proof.
    intros Hi Hk. unfold zki. rewrite perm_weight by exact Hi. destruct (HV k Hk) as [-> ->]. rewrite Hnu by assumption. reflexivity.
  Qed.
  Lemma perm_sigma_ii i : (i < n)%nat ->
    sigma_ii m nu' V' Sk' (mats' "sigma"%string) i = sigma_ii m nu V Sk (mats "sigma"%string) (tau i).
  Proof.
    intros Hi. unfold sigma_ii. f_equal. apply perm_m. intros k Hk. rewrite perm_zki, (Hmats _ k k key_sigma) by assumption. reflexivity.
  Qed.
  Lemma perm_mean_ii key i : In key sw_keys -> (i < n)%nat ->
    mean_ii m nu' V' Sk' (mats' key) i = mean_ii m nu V Sk (mats key) (tau i).
  Proof.
    intros Hkey Hi. unfold mean_ii. apply perm_mm. intros k l Hk Hl. rewrite !perm_zki, (Hmats _ k l Hkey) by assumption. reflexivity.
  Qed.

  Hypothesis Havg : forall key i, In key sw_keys -> (i < n)%nat -> avg' key i i = avg key (tau i) (tau i).
  Hypothesis Hrings : forall i, (i < n)%nat -> rings' i = rings (tau i).
  Lemma perm_gSW rho T i : (i < n)%nat -> gSW m mats' avg' C' X' rho T i i = gSW m mats avg C X rho T (tau i) (tau i).
  Proof.
    intros Hi. unfold gSW, gHS, lambda_ij, epsilon_ij, sigma_ij. cbv zeta. rewrite !perm_zeta.
    rewrite (Havg _ i key_sigma), (Havg _ i key_lambda), (Havg _ i key_epsilon) by assumption. reflexivity.
  Qed.
  Lemma perm_chain rho T :
    Achain n m mats' avg' C' X' nu' V' Sk' rings' xi' rho T = Achain n m mats avg C X nu V Sk rings xi rho T.
  Proof.
    unfold Achain. f_equal. apply perm_n. intros i Hi.
    rewrite perm_weight, perm_gSW, Hxi, Hrings by assumption. reflexivity.
  Qed.
End Perm.

(** ** Objects *)
Lemma entry_opt cl a b p : entry (opt_cross cl) a b p = option_map Some (entry cl a b p).
Proof.
  unfold entry, opt_cross.
  assert (M : forall (A B : Type) (f : A -> B) (d : dict A) k, dget (map (fun x => (fst x, f (snd x))) d) k = option_map f (dget d k)).
  { intros A B f d k. induction d as [|[q v] d IH]; [reflexivity|]. cbn. destruct (String.eqb k q); [reflexivity|exact IH]. }
  pose proof (M _ _ (fun d => map (fun be : string * dict R => (fst be, map (fun pv => (fst pv, Some (snd pv))) (snd be))) d) cl a) as E.
  cbv beta in E. unfold dict in *. rewrite E. clear E.
  destruct (dget cl a) as [d|]; cbn [option_map]; [|reflexivity].
  pose proof (M _ _ (fun e => map (fun pv : string * R => (fst pv, Some (snd pv))) e) d b) as E. cbv beta in E. unfold dict in *. rewrite E. clear E.
  destruct (dget d b) as [e|]; cbn [option_map]; [|reflexivity]. apply (M _ _ Some).
Qed.
Lemma given_comm cl a b p v : orders_agree cl -> given (opt_cross cl) a b p v -> given (opt_cross cl) b a p v.
Proof.
  intros O [G|[G0 G]]; unfold given.
  - destruct (entry (opt_cross cl) b a p) as [w|] eqn:E.
    + rewrite entry_opt in E, G. destruct (entry cl b a p) as [w'|] eqn:E'; [|discriminate]. cbn in E. injection E as <-.
      destruct (entry cl a b p) as [v'|] eqn:G'; [|discriminate]. cbn in G. injection G as ->. left. rewrite (O _ _ _ _ _ G' E'). reflexivity.
    + right. split; [intros; discriminate|exact G].
  - left. exact G.
Qed.
Lemma given_unique {V} (cl : dict (dict (dict (option V)))) a b p v w : given cl a b p v -> given cl a b p w -> v = w.
Proof.
  intros [G|[G0 G]] [G'|[G0' G']]; first [congruence | (exfalso; exact (G0' _ G)) | (exfalso; exact (G0 _ G'))].
Qed.
Lemma given_not {V} (cl : dict (dict (dict (option V)))) a b p v : given cl a b p v -> not_given cl a b p -> False.
Proof. intros [G|[_ G]] [N1 N2]; [exact (N1 _ G)|exact (N2 _ G)]. Qed.
Lemma not_given_comm {V} (cl : dict (dict (dict (option V)))) a b p : not_given cl a b p -> not_given cl b a p.
Proof. intros [H1 H2]. split; assumption. Qed.

Section CrossPerm.
  Variables (rule : string -> dict R -> dict R -> result (dict R)) (keys : list string).
  Hypothesis single : forall key a b out, rule key a b = Ok out -> out = [] \/ exists v, out = [(key, v)].
  Hypothesis symmetric : forall key a b, rule key a b = rule key b a.
  Hypothesis nodup : NoDup keys.

  (** a matrix entry is determined by the two beads, whatever their positions *)
  Lemma cross_positions lib cl beads beads' mats mats' : orders_agree cl ->
    cross_interaction_from_dict R 0 rule beads lib keys (opt_cross cl) = Ok mats ->
    cross_interaction_from_dict R 0 rule beads' lib keys (opt_cross cl) = Ok mats' ->
    forall key k l k' l' a b, In key keys -> (k = l <-> k' = l') ->
      nth_error beads k = Some a -> nth_error beads l = Some b ->
      nth_error beads' k' = Some a -> nth_error beads' l' = Some b -> mats' key k' l' = mats key k l.
  Proof.
    intros O H H'.
    destruct (EosToolboxProps.C13_values_partial _ _ _ _ _ _ _ _ single nodup H) as [D U].
    destruct (EosToolboxProps.C13_values_partial _ _ _ _ _ _ _ _ single nodup H') as [D' U'].
    pose proof (EosToolboxProps.C13_symmetric _ _ _ _ _ _ _ _ H) as Sy. pose proof (EosToolboxProps.C13_symmetric _ _ _ _ _ _ _ _ H') as Sy'.
    (* what an off-diagonal entry is, for positions in either order *)
    assert (Val : forall bs (mt : matrices R), (forall key i j, mt key i j = mt key j i) ->
      (forall key i j bi bj, In key keys -> (i < j)%nat -> nth_error bs i = Some bi -> nth_error bs j = Some bj ->
        (given (opt_cross cl) bi bj key (mt key i j) \/
         (not_given (opt_cross cl) bi bj key /\ exists d1 d2, dget lib bi = Some d1 /\ dget lib bj = Some d2 /\
          (rule key d1 d2 = Ok [(key, mt key i j)] \/ (rule key d1 d2 = Ok [] /\ mt key i j = 0)))) /\ mt key j i = mt key i j) ->
      forall key i j bi bj, In key keys -> i <> j -> nth_error bs i = Some bi -> nth_error bs j = Some bj ->
        given (opt_cross cl) bi bj key (mt key i j) \/
        (not_given (opt_cross cl) bi bj key /\ exists d1 d2, dget lib bi = Some d1 /\ dget lib bj = Some d2 /\
          (rule key d1 d2 = Ok [(key, mt key i j)] \/ (rule key d1 d2 = Ok [] /\ mt key i j = 0)))).
    { intros bs mt Symm Upper key i j bi bj Hk N Bi Bj. destruct (Nat.lt_total i j) as [L|[L|L]]; [|contradiction|].
      - exact (proj1 (Upper key i j bi bj Hk L Bi Bj)).
      - rewrite (Symm key i j). destruct (proj1 (Upper key j i bj bi Hk L Bj Bi)) as [G|[G [d1 [d2 [L1 [L2 W]]]]]].
        + left. apply given_comm; assumption.
        + right. split; [apply not_given_comm; exact G|]. exists d2, d1. rewrite (symmetric key d2 d1). auto. }
    intros key k l k' l' a b Hk Eq A B A' B'. destruct (Nat.eq_dec k l) as [E|N].
    - pose proof (proj1 Eq E) as E'. subst l l'. destruct (D key k a Hk A) as [bd [E1 E2]]. destruct (D' key k' a Hk A') as [bd' [E1' E2']]. congruence.
    - assert (N' : k' <> l') by (intros E'; apply N; apply (proj2 Eq); exact E').
      destruct (Val beads mats Sy U key k l a b Hk N A B) as [G|[G [d1 [d2 [L1 [L2 W]]]]]];
      destruct (Val beads' mats' Sy' U' key k' l' a b Hk N' A' B') as [G'|[G' [d1' [d2' [L1' [L2' W']]]]]].
      + eapply given_unique; eassumption.
      + exfalso. eapply given_not; eassumption.
      + exfalso. eapply given_not; eassumption.
      + rewrite L1 in L1'. rewrite L2 in L2'. injection L1' as <-. injection L2' as <-.
        destruct W as [W|[W E]], W' as [W'|[W' E']]; rewrite W in W'; try discriminate; congruence.
  Qed.
End CrossPerm.

Lemma mapM_in_order {A} (f : A -> result R) sg l l' y y' : same_in_order sg l l' ->
  mapM f l = Ok y -> mapM f l' = Ok y' -> forall i, (i < length l)%nat -> arr y' i = arr y (sg i).
Proof.
  intros [L [RL N]] H H' i Hi. destruct (nth_error l (sg i)) as [a|] eqn:E.
  2: { apply nth_error_None in E. pose proof (proj1 RL i Hi). lia. }
  assert (E' : nth_error l' i = Some a) by (rewrite N; assumption).
  apply mapM_Forall2 in H, H'. pose proof (PRProofs.Forall2_nth_error _ _ _ _ _ 0 H E) as X. pose proof (PRProofs.Forall2_nth_error _ _ _ _ _ 0 H' E') as X'.
  cbn in X, X'. unfold arr. congruence.
Qed.
Lemma existsb_in_order {A} (f : A -> bool) sg l l' : same_in_order sg l l' -> existsb f l' = existsb f l.
Proof.
  intros [L [RL N]]. apply Bool.eq_true_iff_eq. rewrite !existsb_exists. split; intros [x [Hx F]]; exists x; (split; [|exact F]);
  apply In_nth_error in Hx; destruct Hx as [i Hi].
  - assert (Li : (i < length l)%nat) by (rewrite <- L; apply nth_error_Some; congruence).
    rewrite N in Hi by exact Li. eapply nth_error_In; exact Hi.
  - assert (Li : (i < length l)%nat) by (apply nth_error_Some; congruence).
    destruct (relabelling_onto _ _ i RL Li) as [j [Hj E]]. apply (nth_error_In _ j). rewrite N by exact Hj. rewrite E. exact Hi.
Qed.
Lemma arr_in_order sg l l' : same_in_order sg l l' -> forall i, (i < length l)%nat -> arr l' i = arr l (sg i).
Proof.
  intros [L [RL N]] i Hi. unfold arr. pose proof (proj1 RL i Hi) as Hs.
  specialize (N i Hi).
  rewrite (nth_error_nth' l' 0) in N by lia. rewrite (nth_error_nth' l 0 Hs) in N. congruence.
Qed.
Lemma relabelling_eq n sg i j : relabelling n sg -> (i < n)%nat -> (j < n)%nat -> (sg i = sg j <-> i = j).
Proof. intros [_ I] Hi Hj. split; [apply I; assumption|intros ->; reflexivity]. Qed.

Section Obj.
  Variable mapsci : option (bead -> bead -> option R -> result (dict R)).

  Lemma reordering rules sg tau beads beads' lib cl n nu nu' rings rings' s s' :
    (forall key, ro_function (rules key) <> "multipole"%string) -> orders_agree cl ->
    same_in_order sg beads beads' -> relabelling n tau ->
    (forall i k, (i < n)%nat -> (k < length beads)%nat -> nu' i k = nu (tau i) (sg k)) ->
    (forall i, (i < n)%nat -> rings' i = rings (tau i)) ->
    sw_init mapsci rules beads lib cl n nu rings = Ok s ->
    sw_init mapsci rules beads' lib cl n nu' rings' = Ok s' ->
    forall xi xi', length xi = n -> same_in_order tau xi xi' ->
    (forall rho T, snd (residual s' rho T xi') = snd (residual s rho T xi)) /\
    (forall mp, snd (sw_density_max s' xi' mp) = snd (sw_density_max s xi mp)).
  Proof.
    intros M O RO Htau Hnu Hr I I' xi xi' Hxi RX.
    destruct (init_ok mapsci _ _ _ _ _ _ _ _ I) as [Pr St]. destruct (init_ok mapsci _ _ _ _ _ _ _ _ I') as [Pr' St'].
    unfold sw_init in I, I'.
    destruct (snd (check_bead_parameters R lib sw_defaults)) as [L|]; cbn [rbind] in I, I'; [|discriminate].
    destruct (extract_property R "Vks" L beads (Some 1)) as [V|] eqn:EV; cbn [rbind] in I; [|discriminate].
    destruct (extract_property R "Sk" L beads (Some 1)) as [Sk|] eqn:ES; cbn [rbind] in I; [|discriminate].
    destruct (group_matrices mapsci rules beads L cl) as [mats|] eqn:EM; cbn [rbind] in I; [|discriminate].
    destruct (averaged mapsci rules n (length beads) nu (arr V) (arr Sk) mats) as [avg|] eqn:EA; cbn [rbind] in I; [|discriminate].
    destruct (extract_property R "Vks" L beads' (Some 1)) as [V'|] eqn:EV'; cbn [rbind] in I'; [|discriminate].
    destruct (extract_property R "Sk" L beads' (Some 1)) as [Sk'|] eqn:ES'; cbn [rbind] in I'; [|discriminate].
    destruct (group_matrices mapsci rules beads' L cl) as [mats'|] eqn:EM'; cbn [rbind] in I'; [|discriminate].
    destruct (averaged mapsci rules n (length beads') nu' (arr V') (arr Sk') mats') as [avg'|] eqn:EA'; cbn [rbind] in I'; [|discriminate].
    assert (HVS : forall k, (k < length beads)%nat -> arr V' k = arr V (sg k) /\ arr Sk' k = arr Sk (sg k)).
    { intros k Hk. split; [eapply (mapM_in_order _ sg beads beads' V V'); [exact RO|exact EV|exact EV'|exact Hk]
                          |eapply (mapM_in_order _ sg beads beads' Sk Sk'); [exact RO|exact ES|exact ES'|exact Hk]]. }
    pose proof RO as [Lb [Hsg Nb]]. rewrite Lb in EA'.
    assert (Hmats : forall key k l, In key sw_keys -> (k < length beads)%nat -> (l < length beads)%nat -> mats' key k l = mats key (sg k) (sg l)).
    { intros key k l Hkey Hk Hl. pose proof (proj1 Hsg k Hk) as Hk'. pose proof (proj1 Hsg l Hl) as Hl'.
      destruct (nth_error beads (sg k)) as [a|] eqn:A; [|apply nth_error_None in A; lia].
      destruct (nth_error beads (sg l)) as [b|] eqn:B; [|apply nth_error_None in B; lia].
      refine (cross_positions (rule_of mapsci rules) sw_keys (rule_single mapsci rules M) _ sw_keys_nodup L cl beads beads' mats mats' O EM EM'
        key (sg k) (sg l) k l a b Hkey (relabelling_eq _ _ k l Hsg Hk Hl) A B _ _).
      - intros q x y. unfold rule_of. apply CombiningProps.C12_symmetric. apply M.
      - rewrite Nb by exact Hk. exact A.
      - rewrite Nb by exact Hl. exact B. }
    assert (Hxi1 : forall i, (i < n)%nat -> arr xi' i = arr xi (tau i)) by (intros i Hi; apply (arr_in_order tau xi xi' RX); lia).
    assert (Havg : forall key i, In key sw_keys -> (i < n)%nat -> avg' key i i = avg key (tau i) (tau i)).
    { intros key i Hkey Hi. destruct (averaged_diag _ _ _ _ _ _ _ _ _ EA (tau i) (proj1 Htau i Hi)) as [A1 [A2 A3]].
      destruct (averaged_diag _ _ _ _ _ _ _ _ _ EA' i Hi) as [A1' [A2' A3']].
      destruct Hkey as [<-|[<-|[<-|[]]]].
      - rewrite A1, A1'. eapply perm_sigma_ii; eassumption.
      - rewrite A2, A2'. eapply perm_mean_ii; try eassumption. exact key_lambda.
      - rewrite A3, A3'. eapply perm_mean_ii; try eassumption. exact key_epsilon. }
    assert (LX : length xi' = n) by (destruct RX as [-> _]; exact Hxi).
    injection I as <-. injection I' as <-.
    assert (Cp : complete sw_defaults L) by (exact (proj1 (proj2 Pr))).
    set (s := {| sw_par := _; sw_rules := _; sw_n := n; sw_nu := nu |}) in *.
    set (s' := {| sw_par := _; sw_rules := _; sw_n := n; sw_nu := nu' |}) in *.
    assert (CO : composition s xi = Ok (Cmol2seg n (length beads) (arr xi) nu (arr V) (arr Sk),
        xskl n (length beads) (arr xi) nu (arr V) (arr Sk))).
    { unfold composition. change (slib s) with L. change (sbeads s) with beads.
      rewrite (fetch_extract "Vks" L beads V Cp) by (cbn; tauto || exact EV). cbn [rbind].
      rewrite (fetch_extract "Sk" L beads Sk Cp) by (cbn; tauto || exact ES). reflexivity. }
    assert (CO' : composition s' xi' = Ok (Cmol2seg n (length beads) (arr xi') nu' (arr V') (arr Sk'),
        xskl n (length beads) (arr xi') nu' (arr V') (arr Sk'))).
    { unfold composition. change (slib s') with L. change (sbeads s') with beads'.
      rewrite (fetch_extract "Vks" L beads' V' Cp) by (cbn; tauto || exact EV'). cbn [rbind].
      rewrite (fetch_extract "Sk" L beads' Sk' Cp) by (cbn; tauto || exact ES'). cbn [rbind].
      unfold sm. change (sbeads s') with beads'. rewrite Lb. reflexivity. }
    pose proof (perm_max n (length beads) sg tau nu nu' (arr V) (arr V') (arr Sk) (arr Sk') (arr xi) (arr xi') mats mats'
      Hsg Htau Hnu HVS Hxi1 Hmats) as PM.
    assert (Sm' : sm s' = length beads) by (exact Lb).
    split.
    - intros rho T. rewrite (residual_settled mapsci s' rho T _ _ _ St' CO'), (residual_settled mapsci s rho T xi _ _ St CO).
      change (sw_n s') with n. change (sw_n s) with n. rewrite LX, Hxi, !Nat.eqb_refl. cbn [negb].
      destruct (match rho with [] => true | _ => false end); [reflexivity|].
      destruct (existsb (fun r => if Rlt_dec r 0 then true else false) rho); [reflexivity|].
      rewrite (existsb_in_order _ tau xi xi' RX).
      destruct (existsb (fun x => if Rlt_dec x 0 then true else false) xi); [reflexivity|].
      rewrite Sm'. change (sm s) with (length beads).
      change (sw_mats s') with mats'. change (sw_mats s) with mats. rewrite PM.
      match goal with |- context [forallb ?f rho] => destruct (forallb f rho) end; cbn [snd]; [reflexivity|].
      f_equal. apply map_ext. intros r. unfold monomer, chain. rewrite Sm'. f_equal; [f_equal; [f_equal|]|].
      + exact (perm_hs n (length beads) sg tau nu nu' (arr V) (arr V') (arr Sk) (arr Sk') (arr xi) (arr xi') mats mats'
          Hsg Htau Hnu HVS Hxi1 Hmats r).
      + exact (perm_first n (length beads) sg tau nu nu' (arr V) (arr V') (arr Sk) (arr Sk') (arr xi) (arr xi') mats mats'
          Hsg Htau Hnu HVS Hxi1 Hmats r T).
      + exact (perm_second n (length beads) sg tau nu nu' (arr V) (arr V') (arr Sk) (arr Sk') (arr xi) (arr xi') mats mats'
          Hsg Htau Hnu HVS Hxi1 Hmats r T).
      + exact (perm_chain n (length beads) sg tau nu nu' (arr V) (arr V') (arr Sk) (arr Sk') (arr xi) (arr xi') rings rings' mats mats' avg avg'
          Hsg Htau Hnu HVS Hxi1 Hmats Havg Hr r T).
    - intros mp. rewrite (density_max_settled mapsci s' _ mp _ _ St' CO'), (density_max_settled mapsci s xi mp _ _ St CO).
      change (sw_n s') with n. change (sw_n s) with n. rewrite LX, Hxi, !Nat.eqb_refl. cbn [negb]. f_equal.
      rewrite Sm'. exact (PM mp).
  Qed.
End Obj.

(** ** The reordered object can be built whenever the first one can *)
Lemma rule_same_names mapsci A B A' B' p o out : ro_function o <> "multipole"%string ->
  (forall k, dget A k <> None -> dget A' k <> None) -> (forall k, dget B k <> None -> dget B' k <> None) ->
  combining_rules mapsci A B p o = Ok out -> exists out', combining_rules mapsci A' B' p o = Ok out'.
Proof.
  intros M HA HB.
  assert (FA : forall k v, dfetch A k = Ok v -> exists v', dfetch A' k = Ok v').
  { intros k v. unfold dfetch. pose proof (HA k) as N. destruct (dget A k); [|discriminate]. destruct (dget A' k); [eauto|]. exfalso. apply N; [discriminate|reflexivity]. }
  assert (FB : forall k v, dfetch B k = Ok v -> exists v', dfetch B' k = Ok v').
  { intros k v. unfold dfetch. pose proof (HB k) as N. destruct (dget B k); [|discriminate]. destruct (dget B' k); [eauto|]. exfalso. apply N; [discriminate|reflexivity]. }
  unfold combining_rules, mean, geometric_mean, volumetric_geometric_mean, mie_exponent, square_well_berthelot, weighted_mean. cbv zeta.
  destruct (String.eqb (ro_function o) "None"); [eauto|].
  destruct (String.eqb (ro_function o) "mean"); [|destruct (String.eqb (ro_function o) "geometric_mean"); [|
  destruct (String.eqb (ro_function o) "volumetric_geometric_mean"); [|destruct (String.eqb (ro_function o) "weighted_mean"); [|
  destruct (String.eqb (ro_function o) "mie_exponent"); [|destruct (String.eqb (ro_function o) "square_well_berthelot"); [|
  destruct (String.eqb_spec (ro_function o) "multipole"); [contradiction|discriminate]]]]]]]; intros H;
  repeat (match type of H with
      | context [weight_name [?a] 0%nat] => change (weight_name [a] 0%nat) with (@Ok string a) in *; cbn [rbind] in *
      | context [weight_name (ro_weights o) ?k] => destruct (weight_name (ro_weights o) k) eqn:?; cbn [rbind] in *; [|discriminate]
      | context [dfetch A ?k] => let E := fresh in let E' := fresh in
           destruct (dfetch A k) eqn:E; cbn [rbind] in H; [|discriminate]; destruct (FA _ _ E) as [? E']; rewrite ?E'; cbn [rbind]
      | context [dfetch B ?k] => let E := fresh in let E' := fresh in
           destruct (dfetch B k) eqn:E; cbn [rbind] in H; [|discriminate]; destruct (FB _ _ E) as [? E']; rewrite ?E'; cbn [rbind]
      end); eexists; reflexivity.
Qed.

Lemma in_order_In {A} sg (l l' : list A) x : same_in_order sg l l' -> In x l' -> In x l.
Proof.
  intros [L [RL N]] H. apply In_nth_error in H. destruct H as [i Hi].
  assert (Li : (i < length l)%nat) by (rewrite <- L; apply nth_error_Some; congruence). rewrite N in Hi by exact Li. eapply nth_error_In; exact Hi.
Qed.
Lemma mapM_in_order_ok {A B} (f : A -> result B) sg l l' y : same_in_order sg l l' -> mapM f l = Ok y -> exists y', mapM f l' = Ok y'.
Proof.
  intros RO H. assert (F : forall x, In x l' -> exists b, f x = Ok b).
  { intros x Hx. apply (in_order_In _ _ _ _ RO) in Hx. clear - H Hx. revert y H. induction l as [|a l IH]; intros y H; [destruct Hx|]. cbn in H.
    destruct (f a) as [b|] eqn:E; cbn [rbind] in H; [|discriminate]. destruct (mapM f l) as [ys|]; cbn [rbind] in H; [|discriminate].
    destruct Hx as [<-|Hx]; [eauto|exact (IH Hx ys eq_refl)]. }
  clear - F. induction l' as [|a l' IH]; [exists []; reflexivity|]. destruct (F a (or_introl eq_refl)) as [b E].
  destruct IH as [ys E']; [intros z Hz; apply F; right; exact Hz|]. exists (b :: ys). cbn. rewrite E. cbn [rbind]. rewrite E'. reflexivity.
Qed.

(** the matrices of the reordered beads can be built as well *)
Lemma cross_reordered (rule : string -> dict R -> dict R -> result (dict R)) keys sg beads beads' lib cl m :
  (forall key a b out, rule key a b = Ok out -> out = [] \/ exists v, out = [(key, v)]) ->
  (forall key a b, rule key a b = rule key b a) -> same_in_order sg beads beads' ->
  cross_interaction_from_dict R 0 rule beads lib keys cl = Ok m ->
  exists m', cross_interaction_from_dict R 0 rule beads' lib keys cl = Ok m'.
Proof.
  intros S Sy RO H. pose proof RO as [Lb [Hsg Nb]].
  pose proof (cross_outcome 0 rule S beads lib keys cl) as O. rewrite H in O. destruct O as [AK AO].
  pose proof (cross_outcome 0 rule S beads' lib keys cl) as O'.
  destruct (cross_interaction_from_dict R 0 rule beads' lib keys cl) as [m'|e]; [eauto|]. exfalso.
  destruct O' as [[_ [key [b [Hk [Hb N]]]]]|[_ [_ [key [i [j [bi [bj [Hk [L [Bi [Bj N]]]]]]]]]]]].
  - exact (AK key b Hk (in_order_In _ _ _ _ RO Hb) N).
  - assert (Li : (i < length beads)%nat) by (rewrite <- Lb; apply nth_error_Some; congruence).
    assert (Lj : (j < length beads)%nat) by (rewrite <- Lb; apply nth_error_Some; congruence).
    rewrite Nb in Bi by exact Li. rewrite Nb in Bj by exact Lj.
    destruct (Nat.lt_total (sg i) (sg j)) as [X|[X|X]].
    + exact (N (AO key _ _ bi bj Hk X Bi Bj)).
    + apply (relabelling_eq _ _ i j Hsg Li Lj) in X. lia.
    + apply N. destruct (AO key _ _ bj bi Hk X Bj Bi) as [[v G]|[d1 [d2 [out [D1 [D2 E]]]]]].
      * left. destruct G as [G|[G0 G]].
        -- destruct (cross_get cl bi bj key) as [w|] eqn:W.
           ++ exists w. left. apply cross_get_entry. exact W.
           ++ exists v. right. split; [apply cross_get_none; exact W|exact G].
        -- exists v. left. exact G.
      * right. exists d2, d1, out. rewrite Sy. auto.
Qed.

(** the molecular averages can be combined for other values as well *)
Lemma averaged_again mapsci rules n m nu nu' V V' Sk Sk' mats mats' avg :
  (forall key, ro_function (rules key) <> "multipole"%string) ->
  averaged mapsci rules n m nu V Sk mats = Ok avg -> exists avg', averaged mapsci rules n m nu' V' Sk' mats' = Ok avg'.
Proof.
  intros M. unfold averaged. cbv zeta.
  set (ps := [("sigma"%string, _); ("lambda"%string, _); ("epsilon"%string, _)]).
  set (ps' := [("sigma"%string, sigma_ii m nu' V' Sk' _); ("lambda"%string, _); ("epsilon"%string, _)]).
  intros H. pose proof (cross_outcome 0 _ (rule_single mapsci rules M) (dummy_labels n) (dummy_library n ps) sw_keys []) as O. rewrite H in O.
  destruct O as [_ AO].
  pose proof (cross_outcome 0 _ (rule_single mapsci rules M) (dummy_labels n) (dummy_library n ps') sw_keys []) as O'.
  destruct (cross_interaction_from_dict R 0 (rule_of mapsci rules) (dummy_labels n) (dummy_library n ps') sw_keys []) as [avg'|e]; [eauto|]. exfalso.
  assert (Lab : forall i b, nth_error (dummy_labels n) i = Some b -> (i < n)%nat /\ b = nat_str i).
  { intros i b Hb. assert (Li : (i < n)%nat) by (rewrite <- (seq_length n 0), <- (map_length nat_str); apply nth_error_Some; unfold dummy_labels in Hb; congruence).
    split; [exact Li|]. unfold dummy_labels in Hb. erewrite map_nth_error in Hb; [injection Hb as <-; reflexivity|].
    rewrite (nth_error_nth' (seq 0 n) 0%nat) by (rewrite seq_length; exact Li). rewrite seq_nth by exact Li. reflexivity. }
  assert (Keys : forall i k, dget (map (fun pf : string * (nat -> R) => (fst pf, snd pf i)) ps) k <> None ->
                             dget (map (fun pf : string * (nat -> R) => (fst pf, snd pf i)) ps') k <> None).
  { intros i k. unfold ps, ps'. cbn [map fst snd dget]. destruct (String.eqb k "sigma"), (String.eqb k "lambda"), (String.eqb k "epsilon"); congruence. }
  destruct O' as [[_ [key [b [Hk [Hb N]]]]]|[_ [_ [key [i [j [bi [bj [Hk [L [Bi [Bj N]]]]]]]]]]]].
  - apply In_nth_error in Hb. destruct Hb as [i Hi]. destruct (Lab i b Hi) as [Li ->]. unfold bead_value in N. rewrite dget_dummy in N by exact Li.
    unfold ps' in N. destruct Hk as [<-|[<-|[<-|[]]]]; discriminate.
  - apply N. destruct (Lab i bi Bi) as [Li ->]. destruct (Lab j bj Bj) as [Lj ->].
    destruct (AO key i j _ _ Hk L Bi Bj) as [[v G]|[d1 [d2 [out [D1 [D2 E]]]]]].
    + exfalso. destruct G as [G|[_ G]]; discriminate.
    + right. rewrite dget_dummy in D1, D2 by assumption. injection D1 as <-. injection D2 as <-.
      unfold rule_of in E. destruct (rule_same_names mapsci _ _ _ _ key (rules key) out (M key) (Keys i) (Keys j) E) as [out' E'].
      do 2 eexists. exists out'. rewrite !dget_dummy by assumption. split; [reflexivity|]. split; [reflexivity|exact E'].
Qed.

Lemma sw_init_reordered mapsci rules sg tau beads beads' lib cl n nu nu' rings rings' s :
  (forall key, ro_function (rules key) <> "multipole"%string) ->
  same_in_order sg beads beads' -> relabelling n tau ->
  sw_init mapsci rules beads lib cl n nu rings = Ok s ->
  exists s', sw_init mapsci rules beads' lib cl n nu' rings' = Ok s'.
Proof.
  intros M RO Htau I. unfold sw_init in *.
  destruct (snd (check_bead_parameters R lib sw_defaults)) as [L|]; cbn [rbind] in *; [|discriminate].
  destruct (extract_property R "Vks" L beads (Some 1)) as [V|] eqn:EV; cbn [rbind] in I; [|discriminate].
  destruct (extract_property R "Sk" L beads (Some 1)) as [Sk|] eqn:ES; cbn [rbind] in I; [|discriminate].
  destruct (group_matrices mapsci rules beads L cl) as [mats|] eqn:EM; cbn [rbind] in I; [|discriminate].
  destruct (averaged mapsci rules n (length beads) nu (arr V) (arr Sk) mats) as [avg|] eqn:EA; cbn [rbind] in I; [|discriminate].
  destruct (mapM_in_order_ok _ sg beads beads' V RO EV) as [V' EV']. destruct (mapM_in_order_ok _ sg beads beads' Sk RO ES) as [Sk' ES'].
  fold (extract_property R "Vks" L beads' (Some 1)) in EV'. fold (extract_property R "Sk" L beads' (Some 1)) in ES'.
  rewrite EV'. cbn [rbind]. rewrite ES'. cbn [rbind].
  destruct (cross_reordered (rule_of mapsci rules) sw_keys sg beads beads' L (opt_cross cl) mats (rule_single mapsci rules M)
    (fun key a b => CombiningProps.C12_symmetric mapsci a b key (rules key) (M key)) RO EM) as [mats' EM'].
  unfold group_matrices. rewrite EM'. cbn [rbind]. rewrite (proj1 RO : length beads' = length beads).
  destruct (averaged_again mapsci rules n (length beads) nu nu' (arr V) (arr V') (arr Sk) (arr Sk') mats mats' avg M EA) as [avg' ->].
  cbn [rbind]. eauto.
Qed.
