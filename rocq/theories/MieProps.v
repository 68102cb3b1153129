(** C25, C26, C28, C29, C33, C72 for the SAFT-gamma-Mie equation of state (C31 and C32:
    MieExtProps.v). *)
From Coq Require Import Reals Lra Lia.
From Verif Require Import Base BaseFacts RSum IOModel EosToolboxModel EosToolboxSpec CombiningModel
  SaftToolboxModel SwModel SwProofs SwProofs2 SwAbsent SaftToolboxProps SwProps MieExtModel MieExtProps MieModel MieProofs.
Open Scope R_scope.

(** C25 for the Mie variant: after any history whose last update has been followed by a
    refresh (and by any number of evaluations) the object answers like one built from the
    current parameters, provided the question is asked at a temperature other than the
    one stored at the refresh, or some other temperature has been asked for since.
    Missing: that temperature itself, see C25_mie_refuted. *)
Theorem C25_mie_partial : forall mapsci rules beads lib cl n nu rings s0 h s1 evals s,
  mie_init mapsci rules beads lib cl n nu rings = Ok s0 ->
  mie_run mapsci s0 (h ++ [MRefresh]) = Ok s1 -> mie_run mapsci s1 evals = Ok s -> Forall mis_eval evals ->
  let par := mie_updated (mi_par s0) h in
  exists f, mie_init mapsci rules beads (ep_bead_library par) (ep_cross_library par) n nu rings = Ok f /\
    forall T, (mi_T s <> mi_T s1 \/ Some T <> mi_T s1) ->
    (forall rho xi, snd (mie_residual s rho T xi) = snd (mie_residual f rho T xi)) /\
    (forall xi maxpack, snd (mie_density_max s xi T maxpack) = snd (mie_density_max f xi T maxpack)).
Proof.
  intros mapsci rules beads lib cl n nu rings s0 h s1 evals s I H HE F.
  destruct (mie_init_ok mapsci _ _ _ _ _ _ _ _ I) as [P0 _].
  assert (Id : mi_rules s0 = rules /\ mbeads s0 = beads /\ mi_n s0 = n /\ mi_nu s0 = nu /\ mi_rings s0 = rings).
  { unfold mie_init in I. repeat match type of I with rbind ?X _ = _ => destruct X; cbn [rbind] in I; [|discriminate] end.
    injection I as <-. repeat split. }
  destruct Id as [Id1 [Id2 [Id3 [Id4 Id5]]]].
  rewrite mie_run_app in H. destruct (mie_run mapsci s0 h) as [sh|] eqn:E1; [|discriminate].
  destruct (mie_run_inv mapsci _ _ _ P0 E1) as [P1 [U1 [U2 [U3 [U4 U5]]]]].
  cbn in H. destruct (mie_refresh mapsci sh) as [s1'|] eqn:E2; cbn in H; [|discriminate]. injection H as ->.
  destruct (mie_refresh_ok mapsci _ _ P1 E2) as [Pr [Sr [[T1 ET] [R1 [R2 [R3 [R4 R5]]]]]]].
  assert (W : tab_weak T1 s1) by (left; exact ET).
  destruct (evals_state mapsci T1 _ _ _ F Pr Sr W HE) as [[T' [tab [c Es]]] [Ps [Ss [Ws _]]]].
  pose proof (mie_rebuild mapsci s Ps Ss) as B.
  assert (Q : mi_par s = mi_par s1 /\ mi_rules s = mi_rules s1 /\ mi_n s = mi_n s1 /\ mi_nu s = mi_nu s1 /\ mi_rings s = mi_rings s1)
    by (rewrite Es; repeat split).
  destruct Q as [Q1 [Q2 [Q3 [Q4 Q5]]]].
  assert (BB : mbeads s = beads).
  { unfold mbeads. rewrite Q1, R1, U1. rewrite <- Id2. unfold mbeads. clear. unfold mie_updated.
    generalize (mi_par s0). induction h as [|o h IH]; intros par; [reflexivity|]. cbn [fold_left]. rewrite IH.
    destruct o; try reflexivity. destruct (saft_update_parameter par p names v) as [par'|] eqn:E; [|reflexivity].
    unfold saft_update_parameter in E. destruct (Nat.ltb 1 (length (split_dash p)) && negb (Nat.eqb (length (tl (split_dash p))) 2))%bool; [discriminate|].
    rewrite EosToolboxProofs.update_unfold in E. destruct (EosToolboxProofs.guard _ _ _ _); [|discriminate].
    destruct names as [|? [|? [|? ?]]]; injection E as <-; reflexivity. }
  exists (cold s). split.
  - unfold mlib, mcross in B. rewrite BB, Q1, Q2, Q3, Q4, Q5, R1, R2, R3, R4, R5, U1, U2, U3, U4, U5, Id1, Id3, Id4, Id5 in B. exact B.
  - intros T HT. assert (D : tab_ok s \/ mi_T s <> Some T).
    { destruct Ws as [Ws|Ws]; [|auto]. right. rewrite ET in HT. rewrite Ws. destruct HT as [HT|HT]; congruence. }
    split; intros; [apply mie_residual_cold with (mapsci := mapsci); assumption|apply mie_density_max_cold with (mapsci := mapsci); assumption].
Qed.
Print Assumptions C25_mie_partial.

(** a pure fluid of one kind of bead *)
Definition mie_bead (e lr la s : R) : dict (dict R) :=
  [("A", [("epsilon", e); ("lambdar", lr); ("lambdaa", la); ("sigma", s)])]%string.
Definition mie_full (e lr la s : R) : dict (dict R) :=
  [("A", [("epsilon", e); ("lambdar", lr); ("lambdaa", la); ("sigma", s); ("Sk", 1); ("Vks", 1)])]%string.
Lemma mie_one_cross e lr la s : exists m,
  mie_matrices None mie_default_rules ["A"%string] (mie_full e lr la s) [] = Ok m /\ m "lambdar"%string 0%nat 0%nat = lr.
Proof. eexists. split; [reflexivity|]. reflexivity. Qed.
Lemma mie_one_prefactor mats : mats "lambdar"%string 0%nat 0%nat <> 0 -> exists c, prefactor_matrix 1 mats = Ok c.
Proof.
  intros H. unfold prefactor_matrix. change (list_prod (seq 0 1) (seq 0 1)) with [(0, 0)%nat]. cbn [existsb fst snd].
  destruct (Req_EM_T (mats "lambdar"%string 0%nat 0%nat) 0); [contradiction|]. cbn [orb]. eauto.
Qed.
Lemma mie_one_init e lr la s : lr <> 0 -> exists o,
  mie_init None mie_default_rules ["A"%string] (mie_bead e lr la s) [] 1 (fun _ _ => 1) (fun _ => 0) = Ok o /\
  mlib o = mie_full e lr la s /\ mbeads o = ["A"%string] /\ mi_n o = 1%nat /\ mi_nu o = (fun _ _ => 1) /\
  mi_T o = None /\ mi_comp o = None /\ mi_rules o = mie_default_rules /\ mcross o = [] /\ mi_rings o = (fun _ => 0) /\
  mi_Vks o = [1] /\ ep_types (mi_par o) = mie_types.
Proof.
  intros H. unfold mie_init.
  change (snd (check_bead_parameters R (mie_bead e lr la s) mie_defaults)) with (Ok (mie_full e lr la s)). cbn [rbind].
  change (extract_property R "Vks" (mie_full e lr la s) ["A"%string] (Some 1)) with (Ok [1]).
  change (extract_property R "Sk" (mie_full e lr la s) ["A"%string] (Some 1)) with (Ok [1]). cbn [rbind].
  destruct (mie_one_cross e lr la s) as [m [-> M]]. cbn [rbind length].
  destruct (mie_one_prefactor m) as [c ->]; [rewrite M; exact H|]. cbn [rbind].
  eexists. split; [reflexivity|]. repeat split.
Qed.
Lemma mie_one_tables o T e lr la s : lr <> 0 -> mlib o = mie_full e lr la s -> mbeads o = ["A"%string] -> exists t,
  mie_tables_at o T = Ok t /\ t_dkl t 0%nat 0%nat = calc_dkk e s T (prefactor_value lr la) lr la.
Proof.
  intros H L B. unfold mie_tables_at. rewrite L, B. cbn [mapM]. unfold bead_diameter.
  change (dfetch (mie_full e lr la s) "A") with (Ok [("epsilon", e); ("lambdar", lr); ("lambdaa", la); ("sigma", s); ("Sk", 1); ("Vks", 1)])%string.
  cbn [rbind].
  match goal with |- context [dfetch ?d "lambdar"] => change (dfetch d "lambdar") with (@Ok R lr); change (dfetch d "lambdaa") with (@Ok R la);
     change (dfetch d "epsilon") with (@Ok R e); change (dfetch d "sigma") with (@Ok R s) end. cbn [rbind].
  rewrite (prefactor_ok lr la H). cbn [rbind]. eexists. split; [reflexivity|].
  cbn [t_dkl]. unfold dkl_of, arr. cbn [nth]. set (d := calc_dkk _ _ _ _ _ _). lra.
Qed.
Lemma mie_one_comp o : forall e lr la s xi, mlib o = mie_full e lr la s -> mbeads o = ["A"%string] -> mi_n o = 1%nat -> mi_nu o = (fun _ _ => 1) ->
  mie_composition o xi = Ok (Cmol2seg 1 1 (arr xi) (fun _ _ => 1) (arr [1]) (arr [1]), xskl 1 1 (arr xi) (fun _ _ => 1) (arr [1]) (arr [1])).
Proof. intros e lr la s xi L B N NU. unfold mie_composition, mm. rewrite L, B, N, NU. reflexivity. Qed.
Lemma mie_one_rho t mp : mie_rho_max 1 t (Cmol2seg 1 1 (arr [1]) (fun _ _ => 1) (arr [1]) (arr [1]))
    (xskl 1 1 (arr [1]) (fun _ _ => 1) (arr [1]) (arr [1])) mp = mp * 6 / (PI * t_dkl t 0%nat 0%nat ^ 3) / molecule_per_nm3.
Proof.
  unfold mie_rho_max, xskl, xsk, Cmol2seg, arr. cbn [sumn nth].
  do 2 f_equal. field.
Qed.

(** C25, refuted: evaluate, change a diameter, refresh, evaluate again at the same
    temperature.  The hard-sphere diameters are still the old ones: for every bead with a
    positive repulsive exponent above the attractive one, doubling its size leaves the
    maximum density eight times what a fresh object reports. *)
Theorem C25_mie_refuted : forall e lr la sg T maxpack, 0 < e -> 0 < lr -> la < lr -> 0 < prefactor_value lr la -> 0 < sg -> 0 < T -> 0 < maxpack ->
  let init sg := mie_init None mie_default_rules ["A"%string] (mie_bead e lr la sg) [] 1 (fun _ _ => 1) (fun _ => 0) in
  exists s0 s f r, init sg = Ok s0 /\ init (2 * sg) = Ok f /\
    mie_run None s0 [MMax [1] T maxpack; MUpdate "sigma" ["A"%string] (2 * sg); MRefresh] = Ok s /\
    mlib s = mlib f /\
    0 < r /\ snd (mie_density_max f [1] T maxpack) = Ok r /\ snd (mie_density_max s [1] T maxpack) = Ok (8 * r).
Proof.
  intros e lr la sg T mp He Hlr Hla HC Hs HT Hmp init. assert (N0 : lr <> 0) by lra.
  destruct (mie_one_init e lr la sg N0) as [s0 [I0 [L0 [B0 [n0 [nu0 [T0 [C0 [r0 [c0 [g0 [V0 TY0]]]]]]]]]]]].
  destruct (mie_one_init e lr la (2 * sg) N0) as [f [If [Lf [Bf [nf [nuf [Tf [Cf _]]]]]]]].
  destruct (mie_one_tables s0 T e lr la sg N0 L0 B0) as [t [Et Dt]].
  destruct (mie_one_tables f T e lr la (2 * sg) N0 Lf Bf) as [tf [Etf Dtf]].
  destruct (C71_diameter e sg T (prefactor_value lr la) lr la He Hs HT HC Hla) as [[Dpos _] [Dsc _]].
  specialize (Dsc 2 ltac:(lra)). set (d := calc_dkk e sg T (prefactor_value lr la) lr la) in *.
  pose proof (mie_one_comp s0 e lr la sg [1] L0 B0 n0 nu0) as CO.
  pose proof (mie_one_comp f e lr la (2 * sg) [1] Lf Bf nf nuf) as COf.
  set (cx := (Cmol2seg 1 1 (arr [1]) (fun _ _ : nat => 1) (arr [1]) (arr [1]), xskl 1 1 (arr [1]) (fun _ _ : nat => 1) (arr [1]) (arr [1]))) in *.
  set (s1 := with_mcomp (with_T s0 (Some T) (Some t)) (Some ([1], cx))).
  assert (St1 : mie_step None s0 (MMax [1] T mp) = Ok s1).
  { cbn [mie_step]. unfold mie_density_max. rewrite n0. cbn [length Nat.eqb negb]. unfold refreshed, check_temperature. rewrite T0, Et.
    unfold check_mie_composition. cbn [mi_comp with_T]. rewrite C0.
    change (mie_composition (with_T s0 (Some T) (Some t)) [1]) with (mie_composition s0 [1]). rewrite CO. reflexivity. }
  set (par2 := {| ep_beads := ["A"%string]; ep_types := mie_types; ep_bead_library := mie_full e lr la (2 * sg); ep_cross_library := [] |}).
  assert (PAR : mi_par s0 = {| ep_beads := ["A"%string]; ep_types := mie_types; ep_bead_library := mie_full e lr la sg; ep_cross_library := [] |}).
  { unfold mlib, mbeads, mcross in L0, B0, c0. destruct (mi_par s0). cbn in *. subst. reflexivity. }
  assert (UPD : saft_update_parameter (mi_par s0) "sigma" ["A"%string] (2 * sg) = Ok par2) by (rewrite PAR; reflexivity).
  set (s2 := {| mi_par := par2; mi_rules := mi_rules s0; mi_n := mi_n s0; mi_nu := mi_nu s0; mi_rings := mi_rings s0;
          mi_Vks := mi_Vks s0; mi_Sk := mi_Sk s0; mi_mats := mi_mats s0; mi_avg := mi_avg s0; mi_Ckl := mi_Ckl s0;
          mi_alpha := mi_alpha s0; mi_T := Some T; mi_tab := Some t; mi_comp := Some ([1], cx) |}).
  assert (St2 : mie_step None s1 (MUpdate "sigma" ["A"%string] (2 * sg)) = Ok s2).
  { cbn [mie_step]. unfold mie_update. change (mi_par s1) with (mi_par s0). rewrite UPD. reflexivity. }
  destruct (mie_one_cross e lr la (2 * sg)) as [m2 [M2 M2r]].
  destruct (mie_one_prefactor m2) as [c2 P2]; [rewrite M2r; lra|].
  assert (CO2 : mie_composition s2 [1] = Ok cx) by exact (mie_one_comp s2 e lr la (2 * sg) [1] eq_refl eq_refl n0 nu0).
  assert (St3 : exists s3, mie_step None s2 MRefresh = Ok s3 /\ mi_T s3 = Some T /\ mi_tab s3 = Some t /\ mi_comp s3 = Some ([1], cx) /\
     mi_n s3 = 1%nat /\ mm s3 = 1%nat /\ mlib s3 = mie_full e lr la (2 * sg)).
  { cbn [mie_step]. unfold mie_refresh. change (mlib s2) with (mie_full e lr la (2 * sg)). change (mbeads s2) with ["A"%string].
    change (mcross s2) with (@nil (string * dict (dict R))). change (mi_rules s2) with (mi_rules s0). rewrite r0.
    change (extract_property R "Sk" (mie_full e lr la (2 * sg)) ["A"%string] (Some 1)) with (Ok [1]). cbn [rbind].
    rewrite M2. cbn [rbind]. unfold check_temperature. cbn [mi_T s2]. destruct (Req_EM_T T T) as [_|X]; [|congruence]. cbn [rbind mi_comp].
    change (mi_comp s2) with (Some ([1], cx)). cbv beta iota.
    match goal with |- context [mie_composition ?s [1]] => change (mie_composition s [1]) with (mie_composition s2 [1]) end.
    rewrite CO2. cbn [rbind]. 
    match goal with |- context [prefactor_matrix (mm ?s) m2] => change (prefactor_matrix (mm s) m2) with (prefactor_matrix 1 m2) end. rewrite P2. cbn [rbind].
    eexists. split; [reflexivity|]. repeat split. exact n0. }
  destruct St3 as [s3 [St3 [T3 [t3 [C3 [n3 [m3 L3]]]]]]].
  exists s0, s3, f, (mp * 6 / (PI * (2 * d) ^ 3) / molecule_per_nm3).
  split; [exact I0|]. split; [exact If|]. split.
  { unfold mie_run, foldM. rewrite St1. cbn [rbind]. rewrite St2. cbn [rbind]. rewrite St3. reflexivity. }
  split; [congruence|]. pose proof PI_RGT_0 as PP. split.
  { unfold molecule_per_nm3. apply Rdiv_lt_0_compat; [|lra]. apply Rdiv_lt_0_compat; [lra|].
    apply Rmult_lt_0_compat; [exact PP|]. apply pow_lt. lra. }
  split.
  - unfold mie_density_max. rewrite nf. cbn [length Nat.eqb negb]. unfold refreshed, check_temperature. rewrite Tf, Etf.
    unfold check_mie_composition. cbn [mi_comp with_T]. rewrite Cf.
    change (mie_composition (with_T f (Some T) (Some tf)) [1]) with (mie_composition f [1]). rewrite COf. cbn [rbind mi_tab mi_comp with_mcomp with_T].
    unfold cx. cbn [snd]. f_equal. unfold mm, mbeads, with_mcomp, with_T. cbn [mi_par]. unfold mbeads in Bf. rewrite Bf. cbn [length].
    rewrite mie_one_rho, Dtf, Dsc. reflexivity.
  - unfold mie_density_max. rewrite n3. cbn [length Nat.eqb negb]. unfold refreshed, check_temperature. rewrite T3.
    destruct (Req_EM_T T T) as [_|X]; [|congruence]. unfold check_mie_composition. rewrite C3.
    destruct (list_eq_dec Req_EM_T [1] [1]) as [_|X]; [|congruence]. rewrite t3, C3. unfold cx. cbn [snd]. f_equal. rewrite m3.
    rewrite mie_one_rho, Dt. unfold molecule_per_nm3. field. lra.
Qed.
Print Assumptions C25_mie_refuted.
Example C25_mie_case : forall T, 0 < T -> T <> 298 -> exists s0 s1,
  mie_init None mie_default_rules ["A"%string] (mie_bead 300 12 6 (3 / 10)) [] 1 (fun _ _ => 1) (fun _ => 0) = Ok s0 /\
  mie_run None s0 ([] ++ [MRefresh]) = Ok s1 /\ Some T <> mi_T s1.
Proof.
  intros T HT HN. destruct (mie_one_init 300 12 6 (3 / 10) ltac:(lra)) as [s0 [I0 [L0 [B0 [n0 [nu0 [T0 [C0 [r0 [c0 [g0 [V0 TY0]]]]]]]]]]]].
  exists s0. destruct (mie_one_cross 300 12 6 (3 / 10)) as [m [M Mr]]. destruct (mie_one_prefactor m) as [c P]; [rewrite Mr; lra|].
  cbn [app]. unfold mie_run, foldM. cbn [mie_step]. unfold mie_refresh. rewrite L0, B0, c0, r0.
  change (extract_property R "Sk" (mie_full 300 12 6 (3 / 10)) ["A"%string] (Some 1)) with (Ok [1]). cbn [rbind]. rewrite M. cbn [rbind].
  cbn [mi_T]. rewrite T0. unfold check_temperature. cbn [mi_T]. 
  match goal with |- context [mie_tables_at ?s 298] => destruct (mie_one_tables s 298 300 12 6 (3 / 10) ltac:(lra) L0 B0) as [t [-> _]] end.
  cbn [rbind mi_comp with_T]. rewrite C0. cbn [rbind]. unfold mm, mbeads. cbn [mi_par with_T]. unfold mbeads in B0. rewrite B0. cbn [length]. rewrite P.
  cbn [rbind]. eexists. split; [exact I0|]. split; [reflexivity|]. cbn [mi_T]. intros Q. apply HN. injection Q as Q. exact Q.
Qed.

(** C26 for the Mie variant *)
Theorem C26_mie : forall mapsci rules beads lib cl n nu rings s0 evals,
  mie_init mapsci rules beads lib cl n nu rings = Ok s0 -> Forall mis_eval evals ->
  exists s, mie_run mapsci s0 evals = Ok s /\
    (forall rho T xi, snd (mie_residual s rho T xi) = snd (mie_residual s0 rho T xi)) /\
    (forall xi T maxpack, snd (mie_density_max s xi T maxpack) = snd (mie_density_max s0 xi T maxpack)).
Proof.
  intros mapsci rules beads lib cl n nu rings s0 evals I F.
  destruct (mie_init_ok mapsci _ _ _ _ _ _ _ _ I) as [P0 [S0 K0]].
  assert (R : exists s, mie_run mapsci s0 evals = Ok s).
  { clear - F. revert s0. induction F as [|o l Fo Fl IH]; intros s0; [exists s0; reflexivity|].
    destruct o; try contradiction; cbn; apply IH. }
  destruct R as [s R]. exists s. split; [exact R|].
  destruct (evals_state mapsci 0 evals s0 s F P0 S0 (or_intror K0) R) as [[T' [tab [c Es]]] [Ps [Ss [_ Ks]]]].
  specialize (Ks K0). assert (EC : cold s = cold s0) by (rewrite Es; reflexivity). split; intros.
  - rewrite (mie_residual_cold mapsci s _ _ _ Ps Ss (or_introl Ks)), (mie_residual_cold mapsci s0 _ _ _ P0 S0 (or_introl K0)), EC. reflexivity.
  - rewrite (mie_density_max_cold mapsci s _ _ _ Ps Ss (or_introl Ks)), (mie_density_max_cold mapsci s0 _ _ _ P0 S0 (or_introl K0)), EC. reflexivity.
Qed.
Print Assumptions C26_mie.
Example C26_mie_case : exists s0,
  mie_init None mie_default_rules ["A"%string] (mie_bead 300 12 6 (3 / 10)) [] 1 (fun _ _ => 1) (fun _ => 0) = Ok s0 /\
  Forall mis_eval [MEval [1] 300 [1]; MMax [1] 310 (1 / 2); MEval [2; 3] 300 [1]].
Proof.
  destruct (mie_one_init 300 12 6 (3 / 10) ltac:(lra)) as [s0 [I0 _]]. exists s0. split; [exact I0|]. repeat constructor.
Qed.

(** C28 for the Mie variant *)
Lemma cube_between m nu V Sk i (d : nat -> nat -> R) lo hi :
  (forall k, (k < m)%nat -> 0 <= nu i k) -> (forall k, (k < m)%nat -> 0 < V k /\ 0 < Sk k) ->
  (exists k, (k < m)%nat /\ 0 < nu i k) -> 0 < lo ->
  (forall k l, (k < m)%nat -> (l < m)%nat -> nu i k <> 0 -> nu i l <> 0 -> lo <= d k l <= hi) ->
  lo <= cube_mean m nu V Sk d i <= hi.
Proof.
  intros Hnu HV Hex Hlo H.
  assert (lo <= hi). { destruct Hex as [k [Hk P]]. destruct (H k k Hk Hk ltac:(lra) ltac:(lra)). lra. }
  destruct (mean_between m nu V Sk i Hnu HV Hex (fun k l => d k l ^ 3) (lo ^ 3) (hi ^ 3)) as [M1 M2].
  { intros k l Hk Hl N1 N2. destruct (H k l Hk Hl N1 N2). split; apply cube_le; lra. }
  unfold cube_mean. change (sumn m _) with (mean_ii m nu V Sk (fun k l => d k l ^ 3) i).
  assert (0 < lo ^ 3) by (apply pow_lt; exact Hlo).
  rewrite <- (cube_root lo) by exact Hlo. rewrite <- (cube_root hi) by lra.
  split; apply Rle_Rpower_l; lra.
Qed.
Theorem C28_mie : forall mapsci rules beads lib cl n nu rings s i,
  mie_init mapsci rules beads lib cl n nu rings = Ok s ->
  (forall k, (k < length beads)%nat -> 0 <= nu i k /\ 0 < arr (mi_Vks s) k /\ 0 < arr (mi_Sk s) k) ->
  (exists k, (k < length beads)%nat /\ 0 < nu i k) ->
  let pair k l := (k < length beads)%nat /\ (l < length beads)%nat /\ nu i k <> 0 /\ nu i l <> 0 in
  (forall lo hi, 0 < lo -> (forall k l, pair k l -> lo <= mi_mats s "sigma"%string k l <= hi) ->
     lo <= mi_avg s "sigma"%string i <= hi) /\
  (forall p, p <> "sigma"%string ->
     forall lo hi, (forall k l, pair k l -> lo <= mi_mats s p k l <= hi) -> lo <= mi_avg s p i <= hi) /\
  (** the average hard-sphere diameter, too *)
  (forall T t lo hi, mie_tables_at s T = Ok t -> 0 < lo ->
     (forall k l, pair k l -> lo <= t_dkl t k l <= hi) -> lo <= t_dii t i <= hi).
Proof.
  intros mapsci rules beads lib cl n nu rings s i I Hk Hex pair.
  unfold mie_init in I. repeat match type of I with rbind ?X _ = _ => destruct X eqn:?; cbn [rbind] in I; [|discriminate] end.
  injection I as <-. cbn [mi_Vks mi_Sk mi_mats mi_avg] in *. unfold mie_averages.
  assert (K1 : forall k, (k < length beads)%nat -> 0 <= nu i k) by (intros; apply Hk; assumption).
  assert (K2 : forall k, (k < length beads)%nat -> 0 < arr a0 k /\ 0 < arr a1 k) by (intros; apply Hk; assumption).
  split; [|split].
  - intros lo hi Hlo H. cbn [String.eqb Ascii.eqb Bool.eqb]. apply cube_between; auto.
    intros k l A B C D. apply H. repeat split; assumption.
  - intros p Hp lo hi H. apply String.eqb_neq in Hp. rewrite Hp. apply mean_between; auto.
    intros k l A B C D. apply H. repeat split; assumption.
  - intros T t lo hi Ht Hlo H. unfold mie_tables_at in Ht. destruct (mapM _ _) as [dkk|] in Ht; cbn [rbind] in Ht; [|discriminate].
    injection Ht as <-. cbn [t_dkl t_dii mi_Vks mi_Sk mi_nu] in *. apply cube_between; auto.
    intros k l A B C D. apply H. repeat split; assumption.
Qed.
Print Assumptions C28_mie.
Example C28_mie_case : exists s0,
  mie_init None mie_default_rules ["A"%string] (mie_bead 300 12 6 (3 / 10)) [] 1 (fun _ _ => 1) (fun _ => 0) = Ok s0 /\
  arr (mi_Vks s0) 0 = 1.
Proof.
  destruct (mie_one_init 300 12 6 (3 / 10) ltac:(lra)) as [s0 [I0 [_ [_ [_ [_ [_ [_ [_ [_ [_ [V0 _]]]]]]]]]]]].
  exists s0. split; [exact I0|]. rewrite V0. reflexivity.
Qed.

(** ** C29 and C33: absent components *)
Section Pad.
  Variables (n n' m m' : nat) (nu nu' : nat -> nat -> R) (V V' Sk Sk' xi xi' : nat -> R) (t t' : mie_tables).
  Hypothesis Hn : (n <= n')%nat.
  Hypothesis Hm : (m <= m')%nat.
  Hypothesis Hnu : forall i k, (i < n)%nat -> (k < m)%nat -> nu' i k = nu i k.
  Hypothesis Hnu0 : forall i k, (i < n)%nat -> (m <= k)%nat -> (k < m')%nat -> nu' i k = 0.
  Hypothesis HV : forall k, (k < m)%nat -> V' k = V k /\ Sk' k = Sk k.
  Hypothesis Hxi : forall i, (i < n)%nat -> xi' i = xi i.
  Hypothesis Hxi0 : forall i, (n <= i)%nat -> (i < n')%nat -> xi' i = 0.
  Hypothesis Hd : forall k l, (k < m)%nat -> (l < m)%nat -> t_dkl t' k l = t_dkl t k l.
  Notation X := (xskl n m xi nu V Sk). Notation X' := (xskl n' m' xi' nu' V' Sk').
  Notation C := (Cmol2seg n m xi nu V Sk). Notation C' := (Cmol2seg n' m' xi' nu' V' Sk').

  Lemma pad_eta rho p : eta_m m' t' C' X' rho p = eta_m m t C X rho p.
  Proof.
    unfold eta_m. rewrite (pad_C n n' m m' nu nu' V V' Sk Sk' xi xi') by assumption. f_equal. f_equal. rewrite (sumn_pad m m').
    - apply sumn_ext. intros k Hk. rewrite (pad_Xin n n' m m' nu nu' V V' Sk Sk' xi xi'), Hd by assumption. reflexivity.
    - exact Hm.
    - intros k H1 H2. rewrite (pad_X n n' m m' nu nu' V V' Sk Sk' xi xi') by (assumption || lia).
      replace (Nat.ltb k m) with false by (symmetry; apply Nat.ltb_ge; lia). cbn [andb]. rewrite sqrt_0. ring.
  Qed.
  Lemma pad_packing rho (d d' : nat -> nat -> R) : (forall k l, (k < m)%nat -> (l < m)%nat -> d' k l = d k l) ->
    packing m' rho C' X' d' = packing m rho C X d.
  Proof.
    intros H. unfold packing. rewrite (pad_C n n' m m' nu nu' V V' Sk Sk' xi xi') by assumption. f_equal. f_equal.
    apply (pad_double n n' m m' nu nu' V V' Sk Sk' xi xi'); try assumption.
    - intros k l Hk Hl. rewrite (pad_Xin n n' m m' nu nu' V V' Sk Sk' xi xi'), H by assumption. reflexivity.
    - intros k l _ _ E. rewrite E. ring.
  Qed.
End Pad.

(** C29 for the Mie variant: the hard-sphere energy of a fluid is unchanged by absent
    components, if the fluid itself has at least two components, or if the segments of
    the fluid all have one diameter.  Missing: see C29_mie_refuted. *)
Theorem C29_mie_partial : forall n n' m m' nu nu' V V' Sk Sk' xi xi' t t' rho,
  (n <= n')%nat -> (m <= m')%nat ->
  (forall i k, (i < n)%nat -> (k < m)%nat -> nu' i k = nu i k) ->
  (forall i k, (i < n)%nat -> (m <= k)%nat -> (k < m')%nat -> nu' i k = 0) ->
  (forall k, (k < m)%nat -> V' k = V k /\ Sk' k = Sk k) ->
  (forall i, (i < n)%nat -> xi' i = xi i) ->
  (forall i, (n <= i)%nat -> (i < n')%nat -> xi' i = 0) ->
  (forall k l, (k < m)%nat -> (l < m)%nat -> t_dkl t' k l = t_dkl t k l) ->
  ((2 <= n)%nat \/
   (rho <> 0 /\ exists d, d <> 0 /\ forall k, (k < m)%nat -> t_dkl t k k = d)) ->
  mie_hard_sphere n' m' t' (Cmol2seg n' m' xi' nu' V' Sk') (xskl n' m' xi' nu' V' Sk') rho
  = mie_hard_sphere n m t (Cmol2seg n m xi nu V Sk) (xskl n m xi nu V Sk) rho.
Proof.
  intros n n' m m' nu nu' V V' Sk Sk' xi xi' t t' rho Hn Hm Hnu Hnu0 HV Hxi Hxi0 Hd Alt.
  unfold mie_hard_sphere. cbv zeta. rewrite !(pad_eta n n' m m' nu nu' V V' Sk Sk' xi xi' t t' Hn Hm Hnu Hnu0 HV Hxi Hxi0 Hd).
  f_equal. f_equal. f_equal. destruct Alt as [N|[Hr [d [Dn Dk]]]].
  - destruct (Nat.eqb_spec n 1), (Nat.eqb_spec n' 1); try lia; reflexivity.
  - assert (Z : forall p, eta_m m t (Cmol2seg n m xi nu V Sk) (xskl n m xi nu V Sk) rho p =
        d ^ p * eta_m m t (Cmol2seg n m xi nu V Sk) (xskl n m xi nu V Sk) rho 0%nat).
    { intros p. unfold eta_m. rewrite (sumn_ext m (fun k => _ * t_dkl t k k ^ p) (fun k => d ^ p * (sqrt (xskl n m xi nu V Sk k k) * t_dkl t k k ^ 0))).
      - rewrite sumn_scal. ring.
      - intros k Hk. rewrite (Dk k Hk). cbn [pow]. ring. }
    assert (LOG : ln (1 + - eta_m m t (Cmol2seg n m xi nu V Sk) (xskl n m xi nu V Sk) rho 3) *
       (eta_m m t (Cmol2seg n m xi nu V Sk) (xskl n m xi nu V Sk) rho 2 ^ 3 / eta_m m t (Cmol2seg n m xi nu V Sk) (xskl n m xi nu V Sk) rho 3 ^ 2
        - eta_m m t (Cmol2seg n m xi nu V Sk) (xskl n m xi nu V Sk) rho 0) = 0).
    { rewrite (Z 2%nat), (Z 3%nat). set (z := eta_m _ _ _ _ _ _). destruct (Req_EM_T z 0) as [->|Nz].
      - rewrite !Rmult_0_r. replace (1 + - 0) with 1 by ring. rewrite ln_1. ring.
      - replace ((d ^ 2 * z) ^ 3 / (d ^ 3 * z) ^ 2 - z) with 0; [ring|]. field. auto. }
    destruct (Nat.eqb n 1), (Nat.eqb n' 1); rewrite ?LOG; reflexivity.
Qed.
Print Assumptions C29_mie_partial.

Definition diameters (dkk : nat -> R) : mie_tables :=
  {| t_dkl := dkl_of dkk; t_x0kl := fun _ _ => 1; t_dii := fun _ => 1; t_x0ii := fun _ => 1 |}.
(** C29, refuted for a pure fluid whose molecule has two groups of different size: alone,
    the logarithmic term is left out; with a second component of mole fraction zero it is
    there, and it is not zero.  At every density below close packing. *)
Theorem C29_mie_refuted : exists (nu : nat -> nat -> R) dkk, forall rho V,
  (forall k, V k = 1) ->
  let C := Cmol2seg 1 2 (arr [1]) nu V V in let X := xskl 1 2 (arr [1]) nu V V in
  let C' := Cmol2seg 2 2 (arr [1; 0]) nu V V in let X' := xskl 2 2 (arr [1; 0]) nu V V in
  0 < eta_m 2 (diameters dkk) C X rho 3 < 1 ->
  mie_hard_sphere 2 2 (diameters dkk) C' X' rho <> mie_hard_sphere 1 2 (diameters dkk) C X rho.
Proof.
  exists (fun i _ => match i with O => 1 | _ => 0 end), (arr [1; 2]). intros rho V HV C X C' X' [Z0 Z1].
  assert (EC : C = 2) by (unfold C, Cmol2seg, arr; cbn [sumn nth]; rewrite !HV; ring).
  assert (EC' : C' = 2) by (unfold C', Cmol2seg, arr; cbn [sumn nth]; rewrite !HV; ring).
  assert (EX : forall k, (k < 2)%nat -> sqrt (X k k) = 1 / 2).
  { intros k Hk. unfold X, xskl, xsk. fold C. rewrite EC. cbn [sumn]. unfold arr. cbn [nth]. rewrite HV.
    replace ((0 + 1 * 1) * 1 * 1 / 2) with (1 / 2) by lra. rewrite sqrt_square; lra. }
  assert (EX' : forall k, (k < 2)%nat -> sqrt (X' k k) = 1 / 2).
  { intros k Hk. unfold X', xskl, xsk. fold C'. rewrite EC'. cbn [sumn]. unfold arr. cbn [nth]. rewrite HV.
    replace ((0 + 1 * 1 + 0 * 0) * 1 * 1 / 2) with (1 / 2) by lra. rewrite sqrt_square; lra. }
  assert (ETA : forall p, eta_m 2 (diameters (arr [1; 2])) C X rho p = rho * molecule_per_nm3 * ((1 ^ p + 2 ^ p) * (PI / 6))).
  { intros p. unfold eta_m. rewrite EC. cbn [sumn]. rewrite !EX by lia. cbn [diameters t_dkl]. unfold dkl_of, arr. cbn [nth].
    replace ((1 + 1) / 2) with 1 by lra. replace ((2 + 2) / 2) with 2 by lra. field. }
  assert (ETA' : forall p, eta_m 2 (diameters (arr [1; 2])) C' X' rho p = rho * molecule_per_nm3 * ((1 ^ p + 2 ^ p) * (PI / 6))).
  { intros p. unfold eta_m. rewrite EC'. cbn [sumn]. rewrite !EX' by lia. cbn [diameters t_dkl]. unfold dkl_of, arr. cbn [nth].
    replace ((1 + 1) / 2) with 1 by lra. replace ((2 + 2) / 2) with 2 by lra. field. }
  rewrite ETA in Z0, Z1.
  unfold mie_hard_sphere. cbv zeta. rewrite !ETA, !ETA'. cbn [Nat.eqb]. set (q := rho * molecule_per_nm3) in *.
  pose proof PI_RGT_0 as PP.
  assert (Q : 0 < q). { cbn [pow] in Z0. destruct (Rle_lt_dec q 0) as [L|L]; [|exact L]. nra. }
  assert (R : 0 < rho). { unfold q, molecule_per_nm3 in Q. destruct (Rle_lt_dec rho 0); nra. }
  intros E.
  assert (F : 6 / (PI * rho * molecule_per_nm3) <> 0).
  { unfold Rdiv. apply Rmult_integral_contrapositive_currified; [lra|]. apply Rinv_neq_0_compat.
    replace (PI * rho * molecule_per_nm3) with (PI * q) by (unfold q; ring). apply Rmult_integral_contrapositive_currified; lra. }
  apply Rmult_eq_reg_l in E; [|exact F].
  set (l := ln _) in E.
  assert (L : l < 0). { unfold l. rewrite <- ln_1. apply ln_increasing; lra. }
  assert (K : l * ((q * ((1 ^ 2 + 2 ^ 2) * (PI / 6))) ^ 3 / (q * ((1 ^ 3 + 2 ^ 3) * (PI / 6))) ^ 2 - q * ((1 ^ 0 + 2 ^ 0) * (PI / 6))) = 0) by lra.
  replace ((q * ((1 ^ 2 + 2 ^ 2) * (PI / 6))) ^ 3 / (q * ((1 ^ 3 + 2 ^ 3) * (PI / 6))) ^ 2 - q * ((1 ^ 0 + 2 ^ 0) * (PI / 6)))
    with (- (37 / 81) * (q * (PI / 6))) in K by (field; lra).
  apply Rmult_integral in K. destruct K as [K|K]; [lra|]. nra.
Qed.
Print Assumptions C29_mie_refuted.
Example C29_mie_case : exists rho, 0 < rho * molecule_per_nm3 * ((1 ^ 3 + 2 ^ 3) * (PI / 6)) < 1.
Proof.
  exists (/ (molecule_per_nm3 * PI * 2)). pose proof PI_RGT_0. 
  replace (/ (molecule_per_nm3 * PI * 2) * molecule_per_nm3 * ((1 ^ 3 + 2 ^ 3) * (PI / 6))) with (9 / 12); [lra|].
  unfold molecule_per_nm3. field. lra.
Qed.

(** C33 for the Mie variant.  First half: one spherical segment without rings. *)
Theorem C33_mie : forall n m mats avg t C X nu V Sk rings xi rho T a,
  mie_chain n m mats avg t C X nu V Sk rings xi rho T = Ok a ->
  (forall i, (i < n)%nat -> xi i = 0 \/ (rings i = 0 /\ sumn m (fun k => nu i k * V k * Sk k) = 1)) ->
  a = 0.
Proof.
  intros n m mats avg t C X nu V Sk rings xi rho T a H K. unfold mie_chain in H.
  destruct (mapM _ _) as [g|]; cbn [rbind] in H; [|discriminate]. injection H as <-.
  rewrite sumn_zero; [ring|]. intros i Hi. destruct (K i Hi) as [->|[-> ->]]; ring.
Qed.
Print Assumptions C33_mie.
(** Second half: absent components.  [g'] and [t'] describe the larger mixture. *)
Theorem C33_mie_absent : forall n n' m m' nu nu' V V' Sk Sk' rings rings' xi xi' mats mats' avg avg' t t' rho T a,
  (n <= n')%nat -> (m <= m')%nat ->
  (forall i k, (i < n)%nat -> (k < m)%nat -> nu' i k = nu i k) ->
  (forall i k, (i < n)%nat -> (m <= k)%nat -> (k < m')%nat -> nu' i k = 0) ->
  (forall k, (k < m)%nat -> V' k = V k /\ Sk' k = Sk k) ->
  (forall i, (i < n)%nat -> xi' i = xi i /\ rings' i = rings i) ->
  (forall i, (n <= i)%nat -> (i < n')%nat -> xi' i = 0) ->
  (forall k l, (k < m)%nat -> (l < m)%nat -> t_dkl t' k l = t_dkl t k l /\ mats' "sigma"%string k l = mats "sigma"%string k l) ->
  (forall i, (i < n)%nat -> t_dii t' i = t_dii t i /\ t_x0ii t' i = t_x0ii t i /\
      forall p, In p ["epsilon"; "lambdar"; "lambdaa"]%string -> avg' p i = avg p i) ->
  mie_chain n' m' mats' avg' t' (Cmol2seg n' m' xi' nu' V' Sk') (xskl n' m' xi' nu' V' Sk') nu' V' Sk' rings' xi' rho T = Ok a ->
  mie_chain n m mats avg t (Cmol2seg n m xi nu V Sk) (xskl n m xi nu V Sk) nu V Sk rings xi rho T = Ok a.
Proof.
  intros n n' m m' nu nu' V V' Sk Sk' rings rings' xi xi' mats mats' avg avg' t t' rho T a Hn Hm Hnu Hnu0 HV Hxi Hxi0 Hd Hi H.
  assert (Hx : forall i, (i < n)%nat -> xi' i = xi i) by (intros i L; exact (proj1 (Hxi i L))).
  set (C' := Cmol2seg n' m' xi' nu' V' Sk') in *. set (X' := xskl n' m' xi' nu' V' Sk') in *.
  set (C := Cmol2seg n m xi nu V Sk) in *. set (X := xskl n m xi nu V Sk) in *.
  assert (EC : C' = C) by (apply pad_C; assumption).
  assert (Ez : zetax m' t' C' X' rho = zetax m t C X rho).
  { apply (pad_packing n n' m m' nu nu' V V' Sk Sk' xi xi'); try assumption. intros k l Hk Hl. apply Hd; assumption. }
  assert (Es : zetaxstar m' mats' C' X' rho = zetaxstar m mats C X rho).
  { apply (pad_packing n n' m m' nu nu' V V' Sk Sk' xi xi'); try assumption. intros k l Hk Hl. apply Hd; assumption. }
  assert (G : forall i, (i < n)%nat -> mie_gii m' mats' avg' t' C' X' rho T i = mie_gii m mats avg t C X rho T i).
  { intros i L. destruct (Hi i L) as [D1 [D2 D3]].
    assert (A1 := D3 "epsilon"%string ltac:(cbn; tauto)). assert (A2 := D3 "lambdar"%string ltac:(cbn; tauto)).
    assert (A3 := D3 "lambdaa"%string ltac:(cbn; tauto)).
    unfold mie_gii, mie_g1, mie_g2, mie_gdHS, gammac, v_eps, v_lr, v_la. cbv zeta.
    rewrite Ez, Es, EC, D1, D2, A1, A2, A3. reflexivity. }
  unfold mie_chain in *. assert (SQ : seq 0 n' = (seq 0 n ++ seq n (n' - n))%list).
  { pose proof (seq_app n (n' - n) 0) as Q. cbn [Nat.add] in Q. replace (n + (n' - n))%nat with n' in Q by lia. exact Q. }
  rewrite SQ in H.
  destruct (mapM (mie_gii m' mats' avg' t' C' X' rho T) (seq 0 n ++ seq n (n' - n))%list) as [g'|] eqn:E; cbn [rbind] in H; [|discriminate].
  destruct (mapM_app_inv _ _ _ _ E) as [g1 [g2 [E1 [E2 ->]]]].
  rewrite (mapM_ext (mie_gii m mats avg t C X rho T) (mie_gii m' mats' avg' t' C' X' rho T)).
  2:{ intros i L. apply in_seq in L. symmetry. apply G. lia. }
  rewrite E1. cbn [rbind]. injection H as <-. f_equal. f_equal. symmetry.
  pose proof (mapM_length _ _ _ E1) as LG. rewrite seq_length in LG.
  rewrite (sumn_pad n n').
  - apply sumn_ext. intros i L. rewrite arr_app_l by lia. destruct (Hxi i L) as [-> ->].
    rewrite (pad_weight n m m' nu nu' V V' Sk Sk') by assumption. reflexivity.
  - exact Hn.
  - intros i L1 L2. rewrite Hxi0 by assumption. ring.
Qed.
Print Assumptions C33_mie_absent.
Example C33_mie_case : forall e lr la s, lr <> 0 -> exists s0,
  mie_init None mie_default_rules ["A"%string] (mie_bead e lr la s) [] 1 (fun _ _ => 1) (fun _ => 0) = Ok s0 /\
  forall i, (i < mi_n s0)%nat -> mi_rings s0 i = 0 /\ sumn (mm s0) (fun k => mi_nu s0 i k * arr (mi_Vks s0) k * arr [1] k) = 1.
Proof.
  intros e lr la s H. destruct (mie_one_init e lr la s H) as [s0 [I0 [L0 [B0 [n0 [nu0 [T0 [C0 [r0 [c0 [g0 [V0 TY0]]]]]]]]]]]].
  exists s0. split; [exact I0|]. intros i Hi. rewrite g0, nu0, V0. unfold mm. rewrite B0. split; [reflexivity|]. cbn. ring.
Qed.

(** ** C72 *)
(** The hard-sphere term works with [volume_fraction] (SwProps.v) of the diameters. *)
Lemma eta_volume n m xi nu V Sk t rho :
  (forall i, (i < n)%nat -> 0 <= xi i) -> (forall i k, (i < n)%nat -> (k < m)%nat -> 0 <= nu i k) ->
  (forall k, (k < m)%nat -> 0 < V k /\ 0 < Sk k) -> (exists i k, (i < n)%nat /\ (k < m)%nat /\ 0 < xi i /\ 0 < nu i k) ->
  eta_m m t (Cmol2seg n m xi nu V Sk) (xskl n m xi nu V Sk) rho 3 = volume_fraction n m xi nu V Sk (t_dkl t) rho.
Proof.
  intros H1 H2 H3 H4. exact (zeta_fraction n m xi nu V Sk (fun _ => t_dkl t) H1 H2 H3 H4 rho).
Qed.
(** C72 for the Mie variant: the tables of a temperature have the mean as combining rule
    for diameters, so the packing fraction stays below four times the maximum, and below
    the maximum itself if the diameters are equal.  Missing: see C72_mie_refuted. *)
Theorem C72_mie_partial : forall s T t xi maxpack rho,
  mie_tables_at s T = Ok t ->
  let n := mi_n s in let m := mm s in let nu := mi_nu s in let V := arr (mi_Vks s) in let Sk := arr (mi_Sk s) in
  (forall k, (k < m)%nat -> 0 < t_dkl t k k) ->
  (forall i, (i < n)%nat -> 0 <= xi i) ->
  (forall i k, (i < n)%nat -> (k < m)%nat -> 0 <= nu i k) ->
  (forall k, (k < m)%nat -> 0 < V k /\ 0 < Sk k) ->
  (exists i k, (i < n)%nat /\ (k < m)%nat /\ 0 < xi i /\ 0 < nu i k) ->
  0 <= rho <= mie_rho_max m t (Cmol2seg n m xi nu V Sk) (xskl n m xi nu V Sk) maxpack ->
  let phi := eta_m m t (Cmol2seg n m xi nu V Sk) (xskl n m xi nu V Sk) rho 3 in
  phi <= 4 * maxpack /\
  ((exists d, forall k, (k < m)%nat -> t_dkl t k k = d) -> phi <= maxpack).
Proof.
  intros s T t xi mp rho Ht n m nu V Sk Hd Hxi Hnu HV Hex Hr phi.
  unfold mie_tables_at in Ht. destruct (mapM _ _) as [dkk|] in Ht; cbn [rbind] in Ht; [|discriminate]. injection Ht as Ht.
  assert (DK : t_dkl t = dkl_of (arr dkk)) by (subst t; reflexivity). clear Ht.
  pose proof (C72_square_well_partial n m xi nu V Sk (fun _ => t_dkl t) mp rho Hxi Hnu HV Hex Hr) as [E1 E2].
  unfold phi. rewrite eta_volume by assumption.
  assert (DD : forall k, t_dkl t k k = arr dkk k) by (intros k; rewrite DK; unfold dkl_of; lra).
  split.
  - apply (E2 (arr dkk)).
    + intros k Hk. rewrite <- DD. apply Hd; exact Hk.
    + intros k l _ _. rewrite DK. reflexivity.
  - intros [d E]. destruct Hex as [i [k [_ [Hk _]]]]. apply (E1 d).
    + rewrite <- (E k Hk). apply Hd; exact Hk.
    + intros a b Ha Hb. rewrite DK. unfold dkl_of. rewrite <- !DD, !E by assumption. lra.
Qed.
Print Assumptions C72_mie_partial.

(** C72, refuted for a mixture of large and small segments. *)
Theorem C72_mie_refuted : exists dkk xi, forall V, (forall k, V k = 1) ->
  let C := Cmol2seg 2 2 xi own_bead V V in let X := xskl 2 2 xi own_bead V V in
  let rho := mie_rho_max 2 (diameters dkk) C X (65 / 100) in
  0 < rho /\ 1 < eta_m 2 (diameters dkk) C X rho 3.
Proof.
  exists (arr [1; 1 / 10]), (arr [1 / 10; 9 / 10]). intros V HV C X rho. pose proof PI_RGT_0 as PP.
  assert (EC : C = 1) by (unfold C, Cmol2seg, arr, own_bead; cbn [sumn nth Nat.eqb]; rewrite !HV; lra).
  assert (X0 : xsk 2 2 (arr [1 / 10; 9 / 10]) own_bead V V 0 = 1 / 10).
  { unfold xsk. fold C. rewrite EC, HV. cbn [sumn]. unfold arr, own_bead. cbn [nth Nat.eqb]. lra. }
  assert (X1 : xsk 2 2 (arr [1 / 10; 9 / 10]) own_bead V V 1 = 9 / 10).
  { unfold xsk. fold C. rewrite EC, HV. cbn [sumn]. unfold arr, own_bead. cbn [nth Nat.eqb]. lra. }
  assert (RM : rho = 65 / 100 * 6 / (PI * (407575 / 10000000)) / molecule_per_nm3).
  { unfold rho, mie_rho_max, X, xskl. rewrite EC. cbn [sumn]. rewrite X0, X1. cbn [diameters t_dkl]. unfold dkl_of, arr. cbn [nth].
    f_equal. f_equal. field. }
  assert (RP : 0 < rho).
  { rewrite RM. unfold molecule_per_nm3. apply Rdiv_lt_0_compat; [|lra]. apply Rdiv_lt_0_compat; [lra|]. apply Rmult_lt_0_compat; lra. }
  split; [exact RP|].
  unfold eta_m, X, xskl. rewrite EC. cbn [sumn]. rewrite X0, X1, !sqrt_square by lra. cbn [diameters t_dkl]. unfold dkl_of, arr. cbn [nth].
  rewrite RM.
  match goal with |- 1 < ?a => replace a with (65 / 100 * (1009 / 10000) / (407575 / 10000000)) by (unfold molecule_per_nm3; field; lra) end.
  lra.
Qed.
Print Assumptions C72_mie_refuted.
