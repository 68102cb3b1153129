(** C25, C26, C28, C29, C31, C33, C72 for the SAFT-gamma-SW equation of state. *)
From Coq Require Import Reals Lra Lia.
From Coquelicot Require Import Coquelicot.
From Verif Require Import Base BaseFacts RSum IOModel EosToolboxModel EosToolboxSpec CombiningModel
  SaftToolboxModel SwModel SwProofs SwProofs2 SwAbsent SaftToolboxProps.
Open Scope R_scope.

(** the parameters after a history: the accepted updates, in order *)
Definition updated (par : eos_params R) (h : list sw_op) : eos_params R :=
  fold_left (fun par o => match o with
                          | SUpdate p names v => match saft_update_parameter par p names v with Ok par' => par' | Err _ => par end
                          | _ => par
                          end) h par.

Lemma run_updated mapsci h s s' : sw_run mapsci s h = Ok s' ->
  sw_par s' = updated (sw_par s) h /\ sw_rules s' = sw_rules s /\ sw_n s' = sw_n s /\ sw_nu s' = sw_nu s /\ sw_rings s' = sw_rings s.
Proof.
  revert s. induction h as [|o h IH]; intros s H; cbn in H; [injection H as <-; repeat split|].
  destruct (sw_step mapsci s o) as [s1|] eqn:E; cbn in H; [|discriminate].
  destruct (IH s1 H) as [I1 [I2 [I3 [I4 I5]]]]. unfold updated. cbn [fold_left]. fold (updated (sw_par s1) h) in I1.
  assert (G : sw_par s1 = (match o with
                          | SUpdate p names v => match saft_update_parameter (sw_par s) p names v with Ok par' => par' | Err _ => sw_par s end
                          | _ => sw_par s end) /\ sw_rules s1 = sw_rules s /\ sw_n s1 = sw_n s /\ sw_nu s1 = sw_nu s /\ sw_rings s1 = sw_rings s).
  { clear H IH I1 I2 I3 I4 I5. destruct o as [rho T xi|xi mp|p names v|]; cbn in E.
    - injection E as <-. destruct (residual_state mapsci s rho T xi) as [c [-> _]]. repeat split.
    - injection E as <-. destruct (density_max_state mapsci s xi mp) as [c [-> _]]. repeat split.
    - unfold sw_update in E. destruct (saft_update_parameter (sw_par s) p names v); cbn in E; injection E as <-; repeat split.
    - unfold sw_refresh in E.
      repeat match type of E with rbind ?X _ = _ => destruct X; cbn [rbind] in E; [|discriminate] end.
      injection E as <-. repeat split. }
  destruct G as [G1 [G2 [G3 [G4 G5]]]]. rewrite I1, I2, I3, I4, I5, <- G1. repeat split; congruence.
Qed.

(** C25 for the square-well variant: whatever the history of evaluations, updates and
    refreshes, once a refresh has followed the last update the object answers like one
    built from the current parameters.  Missing: the other variant, see the Mie files. *)
Theorem C25_square_well_partial : forall mapsci rules beads lib cl n nu rings s0 h evals s,
  sw_init mapsci rules beads lib cl n nu rings = Ok s0 ->
  sw_run mapsci s0 (h ++ SRefresh :: evals) = Ok s -> Forall is_eval evals ->
  let par := updated (sw_par s0) h in
  exists f, sw_init mapsci rules beads (ep_bead_library par) (ep_cross_library par) n nu rings = Ok f /\
    (forall rho T xi, snd (residual s rho T xi) = snd (residual f rho T xi)) /\
    (forall xi maxpack, snd (sw_density_max s xi maxpack) = snd (sw_density_max f xi maxpack)).
Proof.
  intros mapsci rules beads lib cl n nu rings s0 h evals s I H F.
  destruct (init_ok mapsci _ _ _ _ _ _ _ _ I) as [P0 S0].
  assert (Id : sw_rules s0 = rules /\ sbeads s0 = beads /\ sw_n s0 = n /\ sw_nu s0 = nu /\ sw_rings s0 = rings).
  { unfold sw_init in I. repeat match type of I with rbind ?X _ = _ => destruct X; cbn [rbind] in I; [|discriminate] end.
    injection I as <-. repeat split. }
  destruct Id as [Id1 [Id2 [Id3 [Id4 Id5]]]].
  pose proof (run_updated mapsci _ _ _ H) as [U1 [U2 [U3 [U4 U5]]]].
  rewrite run_app in H. destruct (sw_run mapsci s0 h) as [s1|] eqn:E1; [|discriminate].
  pose proof (run_pre mapsci _ _ _ P0 E1) as P1.
  cbn in H. destruct (sw_refresh mapsci s1) as [s2|] eqn:E2; cbn in H; [|discriminate].
  destruct (refresh_ok mapsci _ _ P1 E2) as [P2 S2]. fold (sw_run mapsci s2 evals) in H.
  destruct (run_evals mapsci evals s2 s F S2 H) as [Ss [c Es]].
  assert (Ps : pre s) by (rewrite Es; apply pre_with_comp; exact P2).
  pose proof (rebuild mapsci s Ps Ss) as B.
  assert (UP : updated (sw_par s0) (h ++ SRefresh :: evals) = updated (sw_par s0) h).
  { unfold updated. rewrite fold_left_app. cbn [fold_left]. generalize (fold_left (fun par o => match o with
       | SUpdate p names v => match saft_update_parameter par p names v with Ok par' => par' | Err _ => par end
       | _ => par end) h (sw_par s0)). clear - F. induction F as [|o l Fo Fl IH]; intros par; [reflexivity|].
    destruct o; try contradiction; cbn [fold_left]; apply IH. }
  rewrite UP in U1.
  assert (BB : sbeads s = beads).
  { unfold sbeads. rewrite U1. rewrite <- Id2. unfold sbeads. clear. unfold updated.
    generalize (sw_par s0). induction h as [|o h IH]; intros par; [reflexivity|]. cbn [fold_left]. rewrite IH.
    destruct o; try reflexivity. destruct (saft_update_parameter par p names v) as [par'|] eqn:E; [|reflexivity].
    unfold saft_update_parameter in E. destruct (Nat.ltb 1 (length (split_dash p)) && negb (Nat.eqb (length (tl (split_dash p))) 2))%bool; [discriminate|].
    rewrite EosToolboxProofs.update_unfold in E. destruct (EosToolboxProofs.guard _ _ _ _); [|discriminate].
    destruct names as [|? [|? [|? ?]]]; injection E as <-; reflexivity. }
  exists (with_comp s None). intros. split.
  - unfold slib, scross in B. rewrite BB, U1, U2, U3, U4, U5, Id1, Id3, Id4, Id5 in B. exact B.
  - split; [intros; apply residual_cold with (mapsci := mapsci); exact Ss|intros; apply density_max_cold with (mapsci := mapsci); exact Ss].
Qed.
Print Assumptions C25_square_well_partial.

(** a pure fluid of one kind of bead: evaluated, its diameter updated, refreshed *)
Definition one_bead (e l s : R) : dict (dict R) :=
  [("A", [("epsilon", e); ("lambda", l); ("sigma", s)])]%string.
Example C25_square_well_case : forall e l s v, exists s0 s1,
  sw_init None sw_default_rules ["A"%string] (one_bead e l s) [] 1 (fun _ _ => 1) (fun _ => 0) = Ok s0 /\
  sw_run None s0 [SMax [1] (65 / 100); SUpdate "sigma" ["A"%string] v; SRefresh; SMax [1] (65 / 100)] = Ok s1 /\
  bead_value (slib s1) "A" "sigma" = Some v /\ v * 1 = sw_mats s1 "sigma"%string 0%nat 0%nat.
Proof.
  intros e l s v. eexists. eexists. split; [reflexivity|]. split.
  - unfold sw_run. cbn -[sumn Rpower PI pow IZR list_eq_dec]. destruct (list_eq_dec Req_EM_T [1] [1]) as [E|E]; reflexivity.
  - split; [reflexivity|]. cbn. ring.
Qed.

(** C26 for the square-well variant *)
Theorem C26_square_well : forall mapsci rules beads lib cl n nu rings s0 evals,
  sw_init mapsci rules beads lib cl n nu rings = Ok s0 -> Forall is_eval evals ->
  exists s, sw_run mapsci s0 evals = Ok s /\
    (forall rho T xi, snd (residual s rho T xi) = snd (residual s0 rho T xi)) /\
    (forall xi maxpack, snd (sw_density_max s xi maxpack) = snd (sw_density_max s0 xi maxpack)).
Proof.
  intros mapsci rules beads lib cl n nu rings s0 evals I F.
  destruct (init_ok mapsci _ _ _ _ _ _ _ _ I) as [P0 S0].
  assert (R : exists s, sw_run mapsci s0 evals = Ok s).
  { clear - F. revert s0. induction F as [|o l Fo Fl IH]; intros s0; [exists s0; reflexivity|].
    destruct o; try contradiction; cbn; apply IH. }
  destruct R as [s R]. exists s. split; [exact R|].
  destruct (run_evals mapsci evals s0 s F S0 R) as [Ss [c ->]]. split; intros.
  - rewrite (residual_cold mapsci _ _ _ _ Ss), (residual_cold mapsci s0 _ _ _ S0). reflexivity.
  - rewrite (density_max_cold mapsci _ _ _ Ss), (density_max_cold mapsci s0 _ _ S0). reflexivity.
Qed.
Print Assumptions C26_square_well.
Example C26_square_well_case : forall e l s, exists s0,
  sw_init None sw_default_rules ["A"%string] (one_bead e l s) [] 1 (fun _ _ => 1) (fun _ => 0) = Ok s0 /\
  Forall is_eval [SEval [1] 300 [1]; SMax [1] (1 / 2); SEval [2; 3] 400 [1]].
Proof. intros e l s. eexists. split; [reflexivity|]. repeat constructor. Qed.

(** C28 for the square-well variant.  [lo] and [hi] bound the values of the groups
    (pairs of groups) the molecule contains; for a molecule of one kind of group both
    can be that group's value. *)
Theorem C28_square_well : forall mapsci rules beads lib cl n nu rings s i,
  sw_init mapsci rules beads lib cl n nu rings = Ok s -> (i < n)%nat ->
  (forall k, (k < length beads)%nat -> 0 <= nu i k /\ 0 < arr (sw_Vks s) k /\ 0 < arr (sw_Sk s) k) ->
  (exists k, (k < length beads)%nat /\ 0 < nu i k) ->
  let pair k l := (k < length beads)%nat /\ (l < length beads)%nat /\ nu i k <> 0 /\ nu i l <> 0 in
  (forall lo hi, 0 < lo -> (forall k, pair k k -> lo <= sw_mats s "sigma"%string k k <= hi) ->
     lo <= sw_avg s "sigma"%string i i <= hi) /\
  (forall p, (p = "lambda" \/ p = "epsilon")%string ->
     forall lo hi, (forall k l, pair k l -> lo <= sw_mats s p k l <= hi) -> lo <= sw_avg s p i i <= hi).
Proof.
  intros mapsci rules beads lib cl n nu rings s i I Hi Hk Hex pair.
  unfold sw_init in I. repeat match type of I with rbind ?X _ = _ => destruct X eqn:?; cbn [rbind] in I; [|discriminate] end.
  injection I as <-. cbn [sw_Vks sw_Sk sw_mats sw_avg] in *.
  match goal with H : averaged _ _ _ _ _ _ _ _ = Ok _ |- _ => destruct (averaged_diag _ _ _ _ _ _ _ _ _ H i Hi) as [A1 [A2 A3]] end.
  split.
  - intros lo hi Hlo H. rewrite A1. apply sigma_between.
    + intros k Hkk. apply Hk; exact Hkk.
    + intros k Hkk. split; apply Hk; exact Hkk.
    + exact Hex.
    + exact Hlo.
    + intros k Hkk N. apply H. repeat split; assumption.
  - intros p Hp lo hi H. destruct Hp as [->| ->]; [rewrite A2|rewrite A3]; (apply mean_between;
      [intros k Hkk; apply Hk; exact Hkk|intros k Hkk; split; apply Hk; exact Hkk|exact Hex|
       intros k l Hkk Hll N1 N2; apply H; repeat split; assumption]).
Qed.
Print Assumptions C28_square_well.
Example C28_square_well_case : forall e l s, exists s0,
  sw_init None sw_default_rules ["A"%string] (one_bead e l s) [] 1 (fun _ _ => 1) (fun _ => 0) = Ok s0 /\
  arr (sw_Vks s0) 0 = 1 /\ arr (sw_Sk s0) 0 = 1 /\ sw_mats s0 "sigma"%string 0%nat 0%nat = s.
Proof. intros e l s. eexists. split; [reflexivity|]. repeat split; reflexivity. Qed.

(** C29 for the square-well variant, and more: components of mole fraction zero appended
    to a mixture, with their beads, change neither the energy at any state nor the
    maximum density.  (In floating point a non-finite logarithm of the radial
    distribution function of an absent component would spoil the sum; reals have none.) *)
Theorem C29_square_well_partial : forall mapsci rules beads extra lib cl n e nu nu' rings rings' s s',
  (forall key, ro_function (rules key) <> "multipole"%string) ->
  sw_init mapsci rules beads lib cl n nu rings = Ok s ->
  sw_init mapsci rules (beads ++ extra) lib cl (n + e) nu' rings' = Ok s' ->
  (forall i k, (i < n)%nat -> (k < length beads)%nat -> nu' i k = nu i k) ->
  (forall i k, (i < n)%nat -> (length beads <= k)%nat -> (k < length beads + length extra)%nat -> nu' i k = 0) ->
  (forall i, (i < n)%nat -> rings' i = rings i) ->
  forall xi, length xi = n ->
  (forall rho T, snd (residual s' rho T (xi ++ repeat 0 e)) = snd (residual s rho T xi)) /\
  (forall maxpack, snd (sw_density_max s' (xi ++ repeat 0 e) maxpack) = snd (sw_density_max s xi maxpack)).
Proof. exact absent. Qed.
Print Assumptions C29_square_well_partial.
Definition two_beads (e l s t : R) : dict (dict R) :=
  [("A", [("epsilon", e); ("lambda", l); ("sigma", s)]); ("B", [("epsilon", e); ("lambda", l); ("sigma", t)])]%string.
Definition own_bead (i k : nat) : R := if Nat.eqb i k then 1 else 0.
Lemma cross_AB e l s e' l' t : exists m,
  cross_interaction_from_dict R 0 (rule_of None sw_default_rules) ["A"; "B"]%string
    [("A", [("epsilon", e); ("lambda", l); ("sigma", s); ("Sk", 1); ("Vks", 1)]);
     ("B", [("epsilon", e'); ("lambda", l'); ("sigma", t); ("Sk", 1); ("Vks", 1)])]%string sw_keys [] = Ok m /\
  m "sigma"%string 0%nat 0%nat = s /\ m "sigma"%string 0%nat 1%nat = (s + t) / 2 /\
  m "sigma"%string 1%nat 0%nat = (s + t) / 2 /\ m "sigma"%string 1%nat 1%nat = t.
Proof. eexists. split; [reflexivity|]. repeat split; reflexivity. Qed.
Lemma cross_01 e l s e' l' t : exists m,
  cross_interaction_from_dict R 0 (rule_of None sw_default_rules) ["0"; "1"]%string
    [("0", [("sigma", s); ("lambda", l); ("epsilon", e)]);
     ("1", [("sigma", t); ("lambda", l'); ("epsilon", e')])]%string sw_keys [] = Ok m.
Proof. eexists. reflexivity. Qed.
Lemma two_init e l s t : exists o, sw_init None sw_default_rules ["A"; "B"]%string (two_beads e l s t) [] 2 own_bead (fun _ => 0) = Ok o /\
   sw_mats o "sigma"%string 0%nat 0%nat = s /\ sw_mats o "sigma"%string 0%nat 1%nat = (s + t) / 2 /\
   sw_mats o "sigma"%string 1%nat 0%nat = (s + t) / 2 /\ sw_mats o "sigma"%string 1%nat 1%nat = t /\
   slib o = [("A", [("epsilon", e); ("lambda", l); ("sigma", s); ("Sk", 1); ("Vks", 1)]);
             ("B", [("epsilon", e); ("lambda", l); ("sigma", t); ("Sk", 1); ("Vks", 1)])]%string /\
   sbeads o = ["A"; "B"]%string /\ sw_n o = 2%nat /\ sw_nu o = own_bead.
Proof.
  unfold sw_init.
  assert (E : snd (check_bead_parameters R (two_beads e l s t) sw_defaults) =
     Ok [("A", [("epsilon", e); ("lambda", l); ("sigma", s); ("Sk", 1); ("Vks", 1)]);
         ("B", [("epsilon", e); ("lambda", l); ("sigma", t); ("Sk", 1); ("Vks", 1)])]%string) by reflexivity.
  rewrite E. cbn [rbind]. clear E.
  match goal with |- context [extract_property R "Vks" ?a ?b ?c] => change (extract_property R "Vks" a b c) with (Ok [1; 1]) end.
  match goal with |- context [extract_property R "Sk" ?a ?b ?c] => change (extract_property R "Sk" a b c) with (Ok [1; 1]) end.
  cbn [rbind]. unfold group_matrices. change (opt_cross []) with (@nil (string * dict (dict (option R)))).
  destruct (cross_AB e l s e l t) as [m [-> [M1 [M2 [M3 M4]]]]]. cbn [rbind]. unfold averaged. cbv zeta.
  change (dummy_labels 2) with ["0"; "1"]%string. unfold dummy_library. cbn [seq map fst snd].
  change (nat_str 0) with "0"%string. change (nat_str 1) with "1"%string.
  match goal with |- context [cross_interaction_from_dict R 0 _ _ [(_, [(_, ?s0); (_, ?l0); (_, ?e0)]); (_, [(_, ?s1); (_, ?l1); (_, ?e1)])] _ _] =>
    destruct (cross_01 e0 l0 s0 e1 l1 s1) as [m1 ->] end.
  cbn [rbind]. eexists. split; [reflexivity|]. cbn [sw_mats slib sw_par ep_bead_library sbeads ep_beads sw_n sw_nu].
  repeat split; assumption.
Qed.
Lemma two_comp e l s t o xi : sw_init None sw_default_rules ["A"; "B"]%string (two_beads e l s t) [] 2 own_bead (fun _ => 0) = Ok o ->
  composition o xi = Ok (Cmol2seg 2 2 (arr xi) own_bead (arr [1; 1]) (arr [1; 1]), xskl 2 2 (arr xi) own_bead (arr [1; 1]) (arr [1; 1])).
Proof.
  intros I. destruct (two_init e l s t) as [o' [I' [_ [_ [_ [_ [L [B [N NU]]]]]]]]]. rewrite I' in I. injection I as ->.
  unfold composition. unfold sm. rewrite L, B, N, NU. reflexivity.
Qed.
Example C29_square_well_case : forall e l s t, exists s0 s1,
  sw_init None sw_default_rules ["A"%string] (two_beads e l s t) [] 1 own_bead (fun _ => 0) = Ok s0 /\
  sw_init None sw_default_rules (["A"%string] ++ ["B"%string]) (two_beads e l s t) [] (1 + 1) own_bead (fun _ => 0) = Ok s1 /\
  (forall key, ro_function (sw_default_rules key) <> "multipole"%string).
Proof.
  intros e l s t. destruct (two_init e l s t) as [o [O _]]. eexists. exists o. split; [reflexivity|]. split; [exact O|].
  intros key. unfold sw_default_rules. destruct (String.eqb key "sigma"), (String.eqb key "lambda"); cbn; discriminate.
Qed.

(** C31 for the square-well variant: the derivative the second-order term uses is the
    derivative of packing fraction times contact value, and the chain term's derivatives
    with respect to packing fraction and range are derivatives. *)
Theorem C31_square_well : forall l z, zeta_eff l z < 1 ->
  is_derive (zeta_eff l) z (dzeta_eff l z) /\
  is_derive g0HS (zeta_eff l z) (dg0HS (zeta_eff l z)) /\
  is_derive (fun y => y * g0HS (zeta_eff l y)) z
    (g0HS (zeta_eff l z) + z * dzeta_eff l z * (25 / 10 - zeta_eff l z) / (1 - zeta_eff l z) ^ 4) /\
  (l <> 0 -> is_derive (fun x => zeta_eff x z) l (dzeta_dlambda l z)).
Proof.
  intros l z H. split; [apply zeta_eff_derive|]. split; [apply g0HS_derive; exact H|]. split; [|apply zeta_eff_dlambda].
  assert (D : is_derive (fun y => y * g0HS (zeta_eff l y)) z (1 * g0HS (zeta_eff l z) + z * (dzeta_eff l z * dg0HS (zeta_eff l z)))).
  { apply (is_derive_mult (fun y => y) (fun y => g0HS (zeta_eff l y)) z 1 (dzeta_eff l z * dg0HS (zeta_eff l z))).
    - auto_derive; [exact I|reflexivity].
    - apply (is_derive_comp g0HS (zeta_eff l) z (dg0HS (zeta_eff l z)) (dzeta_eff l z)); [apply g0HS_derive; exact H|apply zeta_eff_derive].
    - intros; apply Rmult_comm. }
  replace (g0HS (zeta_eff l z) + z * dzeta_eff l z * (25 / 10 - zeta_eff l z) / (1 - zeta_eff l z) ^ 4)
    with (1 * g0HS (zeta_eff l z) + z * (dzeta_eff l z * dg0HS (zeta_eff l z))); [exact D|].
  unfold dg0HS. field. lra.
Qed.
Print Assumptions C31_square_well.
Example C31_square_well_case : zeta_eff (15 / 10) (1 / 10) < 1.
Proof. unfold zeta_eff, ckl0, ckl1, ckl2. destruct (Req_EM_T (15 / 10) 0); lra. Qed.

(** C33 for the square-well variant, first half (the second is part of
    C29_square_well_partial): if every component present is one segment without rings,
    there is no chain contribution. *)
Theorem C33_square_well : forall s C X xi rho T,
  (forall i, (i < sw_n s)%nat -> arr xi i = 0 \/
     (sw_rings s i = 0 /\ sumn (sm s) (fun k => sw_nu s i k * arr (sw_Vks s) k * arr (sw_Sk s) k) = 1)) ->
  chain s C X xi rho T = 0.
Proof.
  intros s C X xi rho T H. unfold chain, Achain. rewrite sumn_zero; [ring|].
  intros i Hi. destruct (H i Hi) as [->|[-> ->]]; ring.
Qed.
Print Assumptions C33_square_well.
Example C33_square_well_case : forall e l s, exists s0,
  sw_init None sw_default_rules ["A"%string] (one_bead e l s) [] 1 (fun _ _ => 1) (fun _ => 0) = Ok s0 /\
  forall i, (i < sw_n s0)%nat -> sw_rings s0 i = 0 /\ sumn (sm s0) (fun k => sw_nu s0 i k * arr (sw_Vks s0) k * arr (sw_Sk s0) k) = 1.
Proof.
  intros e l s. eexists. split; [reflexivity|]. intros i Hi. split; [reflexivity|].
  unfold sm. cbn [sbeads sw_par ep_beads length sumn sw_nu sw_Vks sw_Sk arr nth]. ring.
Qed.

(** C72 for the square-well variant.  The volume fraction the hard-sphere term works
    with at a density: molecules times segments times segment volume. *)
Definition volume_fraction (n m : nat) xi nu V Sk (sg : nat -> nat -> R) (rho : R) : R :=
  rho * molecule_per_nm3 * Cmol2seg n m xi nu V Sk * sumn m (fun k => fraction n m xi nu V Sk k * (PI / 6 * sg k k ^ 3)).

Section Packing.
  Variables (n m : nat) (xi : nat -> R) (nu : nat -> nat -> R) (V Sk : nat -> R) (mats : matrices R).
  Hypothesis Hxi : forall i, (i < n)%nat -> 0 <= xi i.
  Hypothesis Hnu : forall i k, (i < n)%nat -> (k < m)%nat -> 0 <= nu i k.
  Hypothesis HV : forall k, (k < m)%nat -> 0 < V k /\ 0 < Sk k.
  Hypothesis Hex : exists i k, (i < n)%nat /\ (k < m)%nat /\ 0 < xi i /\ 0 < nu i k.
  Notation x := (xsk n m xi nu V Sk). Notation X := (xskl n m xi nu V Sk). Notation C := (Cmol2seg n m xi nu V Sk).
  Notation sg := (mats "sigma"%string).

  Lemma C_pos : 0 < C.
  Proof. exact (proj1 (C27_segment_fractions n m xi nu V Sk Hxi Hnu HV Hex)). Qed.
  Lemma x_nonneg k : (k < m)%nat -> 0 <= x k.
  Proof.
    intros Hk. unfold xsk. destruct (HV k Hk). apply Rmult_le_pos; [|left; apply Rinv_0_lt_compat; apply C_pos].
    apply Rmult_le_pos; [apply Rmult_le_pos|]; try lra. apply sumn_nonneg. intros i Hi. apply Rmult_le_pos; auto.
  Qed.
  Lemma x_sum : sumn m x = 1.
  Proof.
    rewrite (sumn_ext m x (fun k => segments n xi nu V Sk k * / C)).
    - rewrite sumn_scal_r, <- Cmol2seg_total. apply Rinv_r. pose proof C_pos; lra.
    - intros k _. rewrite xsk_fraction. unfold fraction. rewrite <- Cmol2seg_total. reflexivity.
  Qed.
  Lemma zeta_fraction rho : zeta m mats C X rho 3 = volume_fraction n m xi nu V Sk sg rho.
  Proof.
    unfold zeta, volume_fraction. f_equal. rewrite <- sumn_scal_r. apply sumn_ext. intros k Hk.
    rewrite <- xsk_fraction. unfold xskl. rewrite sqrt_square by (apply x_nonneg; exact Hk). unfold sigma_kl. ring.
  Qed.
  Lemma max_volume mp : 0 < sumn m (fun k => sumn m (fun l => X k l * sg k l ^ 3)) ->
    rho_max m mats C X mp * molecule_per_nm3 * C * (PI / 6 * sumn m (fun k => sumn m (fun l => X k l * sg k l ^ 3))) = mp.
  Proof.
    intros HS. unfold rho_max, sigma_kl, molecule_per_nm3. pose proof C_pos. pose proof PI_RGT_0. field. repeat split; lra.
  Qed.
End Packing.

(** For segments of one size the bound is exact. *)
Theorem C72_square_well_partial : forall n m xi nu V Sk mats maxpack rho,
  (forall i, (i < n)%nat -> 0 <= xi i) ->
  (forall i k, (i < n)%nat -> (k < m)%nat -> 0 <= nu i k) ->
  (forall k, (k < m)%nat -> 0 < V k /\ 0 < Sk k) ->
  (exists i k, (i < n)%nat /\ (k < m)%nat /\ 0 < xi i /\ 0 < nu i k) ->
  0 <= rho <= rho_max m mats (Cmol2seg n m xi nu V Sk) (xskl n m xi nu V Sk) maxpack ->
  let phi := volume_fraction n m xi nu V Sk (mats "sigma"%string) rho in
  (forall s, 0 < s -> (forall k l, (k < m)%nat -> (l < m)%nat -> mats "sigma"%string k l = s) -> phi <= maxpack) /\
  (forall s : nat -> R, (forall k, (k < m)%nat -> 0 < s k) ->
     (forall k l, (k < m)%nat -> (l < m)%nat -> mats "sigma"%string k l = (s k + s l) / 2) -> phi <= 4 * maxpack).
Proof.
  intros n m xi nu V Sk mats mp rho Hxi Hnu HV Hex [H0 H1] phi.
  pose proof (C_pos n m xi nu V Sk Hxi Hnu HV Hex) as CP. pose proof PI_RGT_0 as PP.
  pose proof (fun k => x_nonneg n m xi nu V Sk Hxi Hnu HV Hex k) as XN.
  pose proof (x_sum n m xi nu V Sk Hxi Hnu HV Hex) as XS.
  assert (K : forall c, 0 < c ->
     (sumn m (fun k => xsk n m xi nu V Sk k * mats "sigma"%string k k ^ 3) <=
        c * sumn m (fun k => sumn m (fun l => xskl n m xi nu V Sk k l * mats "sigma"%string k l ^ 3))) ->
     0 < sumn m (fun k => sumn m (fun l => xskl n m xi nu V Sk k l * mats "sigma"%string k l ^ 3)) -> phi <= c * mp).
  { intros c Hc L P. pose proof (max_volume n m xi nu V Sk mats Hxi Hnu HV Hex mp P) as E.
    set (D := sumn m (fun k => sumn m (fun l => _))) in *.
    set (S := sumn m (fun k => xsk n m xi nu V Sk k * _)) in *.
    assert (S0 : phi = rho * molecule_per_nm3 * Cmol2seg n m xi nu V Sk * (PI / 6 * S)).
    { unfold phi, volume_fraction, S. f_equal. rewrite <- sumn_scal. apply sumn_ext. intros k _. rewrite xsk_fraction. ring. }
    rewrite S0. set (q := molecule_per_nm3 * Cmol2seg n m xi nu V Sk * (PI / 6)).
    assert (Q : 0 < q). { unfold q, molecule_per_nm3. apply Rmult_lt_0_compat; [apply Rmult_lt_0_compat|]; lra. }
    replace (rho * molecule_per_nm3 * Cmol2seg n m xi nu V Sk * (PI / 6 * S)) with (rho * q * S) by (unfold q; ring).
    replace (rho_max m mats (Cmol2seg n m xi nu V Sk) (xskl n m xi nu V Sk) mp * molecule_per_nm3 * Cmol2seg n m xi nu V Sk * (PI / 6 * D))
      with (rho_max m mats (Cmol2seg n m xi nu V Sk) (xskl n m xi nu V Sk) mp * (q * D)) in E by (unfold q; ring).
    rewrite <- E. apply Rle_trans with (rho * q * (c * D)).
    - apply Rmult_le_compat_l; [apply Rmult_le_pos; lra|exact L].
    - replace (rho * q * (c * D)) with (c * (rho * (q * D))) by ring. apply Rmult_le_compat_l; [lra|].
      apply Rmult_le_compat_r; [|exact H1]. apply Rmult_le_pos; lra. }
  assert (One : forall (f : nat -> R), (forall k, (k < m)%nat -> 0 < f k) -> 0 < sumn m (fun k => xsk n m xi nu V Sk k * f k)).
  { intros f Pf. assert (G : exists k, (k < m)%nat /\ 0 < xsk n m xi nu V Sk k).
    { destruct (Classical_Prop.classic (exists k, (k < m)%nat /\ 0 < xsk n m xi nu V Sk k)) as [G|G]; [exact G|exfalso].
      assert (Z : sumn m (xsk n m xi nu V Sk) = 0).
      { apply sumn_zero. intros k Hk. destruct (Rle_lt_or_eq_dec _ _ (XN k Hk)) as [Lt|Eq]; [|lra]. exfalso; apply G; exists k; auto. }
      lra. }
    destruct G as [k [Hk Pk]]. apply (sumn_pos m _ k).
    - intros j Hj. apply Rmult_le_pos; [apply XN; exact Hj|left; apply Pf; exact Hj].
    - exact Hk.
    - apply Rmult_lt_0_compat; [exact Pk|apply Pf; exact Hk]. }
  split.
  - intros s Hs E. replace mp with (1 * mp) by ring.
    assert (DS : sumn m (fun k => sumn m (fun l => xskl n m xi nu V Sk k l * mats "sigma"%string k l ^ 3)) = s ^ 3).
    { rewrite (sumn_ext m _ (fun k => xsk n m xi nu V Sk k * s ^ 3)).
      - rewrite sumn_scal_r, XS. ring.
      - intros k Hk. rewrite (sumn_ext m _ (fun l => xsk n m xi nu V Sk l * (xsk n m xi nu V Sk k * s ^ 3))).
        + rewrite sumn_scal_r, XS. ring.
        + intros l Hl. rewrite E by assumption. unfold xskl. ring. }
    apply K; [lra| |].
    + rewrite DS. rewrite (sumn_ext m _ (fun k => xsk n m xi nu V Sk k * s ^ 3)).
      * rewrite sumn_scal_r, XS. lra.
      * intros k Hk. rewrite E by assumption. reflexivity.
    + rewrite DS. apply pow_lt; exact Hs.
  - intros s Hs E.
    assert (Lower : sumn m (fun k => xsk n m xi nu V Sk k * s k ^ 3) <=
       4 * sumn m (fun k => sumn m (fun l => xskl n m xi nu V Sk k l * mats "sigma"%string k l ^ 3))).
    { rewrite <- sumn_scal. apply Rle_trans with
        (sumn m (fun k => sumn m (fun l => xsk n m xi nu V Sk k * xsk n m xi nu V Sk l * ((s k ^ 3 + s l ^ 3) / 2)))).
      - right. rewrite (sumn_ext m (fun k => sumn m _) (fun k => xsk n m xi nu V Sk k * s k ^ 3 / 2 + xsk n m xi nu V Sk k *
            (sumn m (fun l => xsk n m xi nu V Sk l * s l ^ 3) / 2))).
        + rewrite sumn_plus, sumn_scal_r, XS. unfold Rdiv. rewrite (sumn_scal_r m (/ 2) (fun k => xsk n m xi nu V Sk k * s k ^ 3)). lra.
        + intros k Hk. rewrite (sumn_ext m _ (fun l => xsk n m xi nu V Sk l * (xsk n m xi nu V Sk k * s k ^ 3 / 2) +
             xsk n m xi nu V Sk k * / 2 * (xsk n m xi nu V Sk l * s l ^ 3))) by (intros; lra).
          rewrite sumn_plus, sumn_scal_r, sumn_scal, XS. lra.
      - apply sumn_le. intros k Hk. rewrite <- sumn_scal. apply sumn_le. intros l Hl. rewrite E by assumption. unfold xskl.
        replace (4 * (xsk n m xi nu V Sk k * xsk n m xi nu V Sk l * ((s k + s l) / 2) ^ 3))
          with (xsk n m xi nu V Sk k * xsk n m xi nu V Sk l * ((s k + s l) ^ 3 / 2)) by field.
        apply Rmult_le_compat_l; [apply Rmult_le_pos; apply XN; assumption|].
        pose proof (Hs k Hk). pose proof (Hs l Hl).
        assert (0 <= s k * s l * (s k + s l)) by (apply Rmult_le_pos; [apply Rmult_le_pos|]; lra).
        replace ((s k + s l) ^ 3) with (s k ^ 3 + s l ^ 3 + 3 * (s k * s l * (s k + s l))) by ring. lra. }
    apply K; [lra| |].
    + rewrite (sumn_ext m (fun k => xsk n m xi nu V Sk k * mats "sigma"%string k k ^ 3) (fun k => xsk n m xi nu V Sk k * s k ^ 3)); [exact Lower|].
      intros k Hk. rewrite E by assumption. replace ((s k + s k) / 2) with (s k) by field. reflexivity.
    + pose proof (One (fun k => s k ^ 3) (fun k Hk => pow_lt _ 3 (Hs k Hk))) as P. cbv beta in P. lra.
Qed.
Print Assumptions C72_square_well_partial.
Example C72_square_well_case : 
  (forall i, (i < 2)%nat -> 0 <= arr [1 / 10; 9 / 10] i) /\ (exists i k, (i < 2)%nat /\ (k < 2)%nat /\ 0 < arr [1 / 10; 9 / 10] i /\ 0 < own_bead i k).
Proof.
  split.
  - intros [|[|i]] Hi; cbn; try lra; lia.
  - exists 0%nat, 0%nat. cbn. repeat split; try lia; lra.
Qed.

(** C72, refuted for a mixture of large and small segments: at the density the object
    reports as the maximum, the volume fraction of the hard-sphere term is above one, so
    the logarithm of the free volume does not exist. *)
Theorem C72_square_well_refuted : exists lib s xi rho,
  sw_init None sw_default_rules ["A"; "B"]%string lib [] 2 own_bead (fun _ => 0) = Ok s /\
  snd (sw_density_max s xi (65 / 100)) = Ok rho /\ 0 < rho /\
  1 < volume_fraction 2 2 (arr xi) own_bead (fun _ => 1) (fun _ => 1) (sw_mats s "sigma"%string) rho.
Proof.
  destruct (two_init 1 2 1 (1 / 10)) as [s [I [M00 [M01 [M10 [M11 [L [B [N NU]]]]]]]]].
  set (xi := [1 / 10; 9 / 10]).
  destruct (init_ok None _ _ _ _ _ _ _ _ I) as [_ St].
  pose proof (two_comp _ _ _ _ _ xi I) as CO.
  exists (two_beads 1 2 1 (1 / 10)), s, xi. eexists. split; [exact I|].
  rewrite (density_max_settled None s xi (65 / 100) _ _ St CO). rewrite N. cbn [negb Nat.eqb length xi].
  split; [reflexivity|]. unfold sm. rewrite B. cbn [length].
  assert (CC : forall V, (V 0%nat = 1 /\ V 1%nat = 1) -> Cmol2seg 2 2 (arr xi) own_bead V V = 1).
  { intros V [V0 V1]. unfold Cmol2seg. cbn [sumn]. rewrite V0, V1. unfold own_bead, arr, xi. cbn [nth Nat.eqb]. lra. }
  assert (XX : forall V, (V 0%nat = 1 /\ V 1%nat = 1) ->
     xsk 2 2 (arr xi) own_bead V V 0 = 1 / 10 /\ xsk 2 2 (arr xi) own_bead V V 1 = 9 / 10).
  { intros V HV. unfold xsk. rewrite (CC V HV). destruct HV as [-> ->]. cbn [sumn]. unfold own_bead, arr, xi. cbn [nth Nat.eqb]. lra. }
  assert (V1 : arr [1; 1] 0%nat = 1 /\ arr [1; 1] 1%nat = 1) by (split; reflexivity).
  destruct (XX (arr [1; 1]) V1) as [X0 X1]. pose proof PI_RGT_0 as PP.
  assert (RM : rho_max 2 (sw_mats s) (Cmol2seg 2 2 (arr xi) own_bead (arr [1; 1]) (arr [1; 1]))
     (xskl 2 2 (arr xi) own_bead (arr [1; 1]) (arr [1; 1])) (65 / 100) = 65 / 100 * 6 / (PI * (407575 / 10000000)) / molecule_per_nm3).
  { unfold rho_max, xskl, sigma_kl. rewrite (CC _ V1). cbn [sumn]. rewrite X0, X1, M00, M01, M10, M11. f_equal. f_equal. field. }
  rewrite RM. split.
  - unfold molecule_per_nm3. apply Rdiv_lt_0_compat; [|lra]. apply Rdiv_lt_0_compat; [lra|].
    apply Rmult_lt_0_compat; lra.
  - destruct (XX (fun _ => 1) (conj eq_refl eq_refl)) as [Y0 Y1].
    unfold volume_fraction. rewrite (CC (fun _ => 1) (conj eq_refl eq_refl)). cbn [sumn]. rewrite <- !xsk_fraction, Y0, Y1, M00, M11.
    replace (65 / 100 * 6 / (PI * (407575 / 10000000)) / molecule_per_nm3 * molecule_per_nm3 * 1 *
       (0 + 1 / 10 * (PI / 6 * 1 ^ 3) + 9 / 10 * (PI / 6 * (1 / 10) ^ 3)))
      with (65 / 100 * (1009 / 10000) / (407575 / 10000000)); [lra|].
    unfold molecule_per_nm3. field. lra.
Qed.
Print Assumptions C72_square_well_refuted.
