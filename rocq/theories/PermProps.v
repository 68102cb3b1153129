(** C118: the order in which groups and components are listed does not change what a SAFT
    object reports.  C119: when a matrix of pair parameters is refused. *)
From Coq Require Import Reals Lra Lia.
From Verif Require Import Base BaseFacts RSum OrderSpec IOModel EosToolboxModel EosToolboxSpec CombiningModel
  SaftToolboxModel SwModel SwProofs2 SwAbsent SwPerm MieExtModel MieExtProps MieModel MieProofs MiePerm CrossTotal SwProps MieProps.
Open Scope R_scope.

(** C118 for the square-well variant, fluids without association sites: if an object can
    be built, so can the one with groups and components listed in another order, and it
    reports the same energies, the same maximum densities and the same refusals. *)
Theorem C118_square_well : forall mapsci rules sg tau beads beads' lib cl n nu nu' rings rings' s,
  (forall key, ro_function (rules key) <> "multipole"%string) -> orders_agree cl ->
  same_in_order sg beads beads' -> relabelling n tau ->
  (forall i k, (i < n)%nat -> (k < length beads)%nat -> nu' i k = nu (tau i) (sg k)) ->
  (forall i, (i < n)%nat -> rings' i = rings (tau i)) ->
  sw_init mapsci rules beads lib cl n nu rings = Ok s ->
  exists s', sw_init mapsci rules beads' lib cl n nu' rings' = Ok s' /\
    forall xi xi', length xi = n -> same_in_order tau xi xi' ->
    (forall rho T, snd (residual s' rho T xi') = snd (residual s rho T xi)) /\
    (forall maxpack, snd (sw_density_max s' xi' maxpack) = snd (sw_density_max s xi maxpack)).
Proof.
  intros mapsci rules sg tau beads beads' lib cl n nu nu' rings rings' s M O RO Ht Hnu Hr I.
  destruct (sw_init_reordered mapsci rules sg tau beads beads' lib cl n nu nu' rings rings' s M RO Ht I) as [s' I'].
  exists s'. split; [exact I'|]. exact (reordering mapsci rules sg tau beads beads' lib cl n nu nu' rings rings' s s' M O RO Ht Hnu Hr I I').
Qed.
Print Assumptions C118_square_well.

(** C118 for the Mie variant *)
Theorem C118_mie : forall mapsci rules sg tau beads beads' lib cl n nu nu' rings rings' s,
  (forall key, ro_function (rules key) <> "multipole"%string) -> orders_agree cl ->
  same_in_order sg beads beads' -> relabelling n tau ->
  (forall i k, (i < n)%nat -> (k < length beads)%nat -> nu' i k = nu (tau i) (sg k)) ->
  (forall i, (i < n)%nat -> rings' i = rings (tau i)) ->
  mie_init mapsci rules beads lib cl n nu rings = Ok s ->
  exists s', mie_init mapsci rules beads' lib cl n nu' rings' = Ok s' /\
    forall xi xi', length xi = n -> same_in_order tau xi xi' ->
    (forall rho T, snd (mie_residual s' rho T xi') = snd (mie_residual s rho T xi)) /\
    (forall T maxpack, snd (mie_density_max s' xi' T maxpack) = snd (mie_density_max s xi T maxpack)).
Proof.
  intros mapsci rules sg tau beads beads' lib cl n nu nu' rings rings' s M O RO Ht Hnu Hr I.
  destruct (mie_init_reordered mapsci rules sg tau beads beads' lib cl n nu nu' rings rings' s M O RO Ht I) as [s' I'].
  exists s'. split; [exact I'|]. exact (mie_reordering mapsci rules sg tau beads beads' lib cl n nu nu' rings rings' s s' M O RO Ht Hnu Hr I I').
Qed.
Print Assumptions C118_mie.

Definition exchange (i : nat) : nat := match i with O => 1%nat | S O => 0%nat | _ => i end.
Lemma exchange_relabels : relabelling 2 exchange.
Proof.
  split; [intros [|[|i]] Hi; cbn; lia|]. intros [|[|i]] [|[|j]] Hi Hj; cbn; lia.
Qed.
Lemma exchange_order {A} (x y : A) : same_in_order exchange [x; y] [y; x].
Proof. split; [reflexivity|]. split; [exact exchange_relabels|]. intros [|[|i]] Hi; cbn in *; [reflexivity|reflexivity|lia]. Qed.
(** two groups and two components, both exchanged; the library also holds a pair *)
Example C118_square_well_case : forall e l s t, exists o,
  sw_init None sw_default_rules ["A"; "B"]%string (two_beads e l s t) [] 2 own_bead (fun _ => 0) = Ok o /\
  (forall key, ro_function (sw_default_rules key) <> "multipole"%string) /\
  orders_agree [("A", [("B", [("sigma", s)])])]%string /\
  same_in_order exchange ["A"; "B"]%string ["B"; "A"]%string /\ same_in_order exchange [1 / 3; 2 / 3] [2 / 3; 1 / 3] /\ relabelling 2 exchange.
Proof.
  intros e l s t. destruct (two_init e l s t) as [o [O _]]. exists o. split; [exact O|]. split; [|split; [|split; [|split]]].
  - intros key. unfold sw_default_rules. destruct (String.eqb key "sigma"), (String.eqb key "lambda"); cbn; discriminate.
  - intros a b p v w. unfold entry. cbn [dget]. destruct (String.eqb_spec a "A") as [->|]; [|discriminate]. cbn [dget].
    destruct (String.eqb_spec b "B") as [->|]; [|discriminate]. cbn [dget]. intros _. discriminate.
  - apply exchange_order.
  - apply exchange_order.
  - exact exchange_relabels.
Qed.

Definition mie_two (e lr la s e' lr' la' s' : R) : dict (dict R) :=
  [("A", [("epsilon", e); ("lambdar", lr); ("lambdaa", la); ("sigma", s)]);
   ("B", [("epsilon", e'); ("lambdar", lr'); ("lambdaa", la'); ("sigma", s')])]%string.
Lemma mie_two_init e lr la s e' lr' la' s' : 0 < lr -> 0 < lr' -> exists o,
  mie_init None mie_default_rules ["A"; "B"]%string (mie_two e lr la s e' lr' la' s') [] 2 own_bead (fun _ => 0) = Ok o.
Proof.
  intros P P'. unfold mie_init.
  assert (E : snd (check_bead_parameters R (mie_two e lr la s e' lr' la' s') mie_defaults) =
    Ok [("A", [("epsilon", e); ("lambdar", lr); ("lambdaa", la); ("sigma", s); ("Sk", 1); ("Vks", 1)]);
        ("B", [("epsilon", e'); ("lambdar", lr'); ("lambdaa", la'); ("sigma", s'); ("Sk", 1); ("Vks", 1)])]%string) by reflexivity.
  rewrite E. cbn [rbind]. clear E.
  match goal with |- context [extract_property R "Vks" ?a ?b ?c] => change (extract_property R "Vks" a b c) with (Ok [1; 1]) end.
  match goal with |- context [extract_property R "Sk" ?a ?b ?c] => change (extract_property R "Sk" a b c) with (Ok [1; 1]) end.
  cbn [rbind]. unfold mie_matrices. change (opt_cross []) with (@nil (string * dict (dict (option R)))).
  match goal with |- context [cross_interaction_from_dict R 0 ?r ?b ?l ?k ?c] =>
    assert (X : exists m, cross_interaction_from_dict R 0 r b l k c = Ok m /\
      m "lambdar"%string 0%nat 0%nat = lr /\ m "lambdar"%string 0%nat 1%nat = 3 + sqrt ((lr - 3) * (lr' - 3)) /\
      m "lambdar"%string 1%nat 0%nat = 3 + sqrt ((lr - 3) * (lr' - 3)) /\ m "lambdar"%string 1%nat 1%nat = lr')
      by (eexists; split; [reflexivity|]; repeat split; reflexivity) end.
  destruct X as [m [-> [M1 [M2 [M3 M4]]]]]. cbn [rbind length]. unfold prefactor_matrix.
  change (list_prod (seq 0 2) (seq 0 2)) with [(0, 0); (0, 1); (1, 0); (1, 1)]%nat. cbn [existsb fst snd]. rewrite M1, M2, M3, M4.
  pose proof (sqrt_pos ((lr - 3) * (lr' - 3))) as Q.
  destruct (Req_EM_T lr 0); [lra|]. destruct (Req_EM_T (3 + sqrt ((lr - 3) * (lr' - 3))) 0); [lra|]. destruct (Req_EM_T lr' 0); [lra|].
  cbn [orb rbind]. eauto.
Qed.
Example C118_mie_case : exists o,
  mie_init None mie_default_rules ["A"; "B"]%string (mie_two 300 12 6 (3 / 10) 250 10 6 (4 / 10)) [] 2 own_bead (fun _ => 0) = Ok o /\
  (forall key, ro_function (mie_default_rules key) <> "multipole"%string) /\ same_in_order exchange ["A"; "B"]%string ["B"; "A"]%string.
Proof.
  destruct (mie_two_init 300 12 6 (3 / 10) 250 10 6 (4 / 10)) as [o O]; [lra|lra|]. exists o. split; [exact O|]. split; [|apply exchange_order].
  intros key. unfold mie_default_rules. destruct (String.eqb key "sigma"), (String.eqb key "epsilon"); cbn; discriminate.
Qed.

(** C118 needs the two orders of a pair to agree in the cross library: if they do not, the
    group listed first decides which entry is used, and the same fluid listed the other way
    round has another maximum density. *)
Definition conflict (u v : R) : dict (dict (dict R)) := [("A", [("B", [("sigma", u)])]); ("B", [("A", [("sigma", v)])])]%string.
Lemma conflict_max beads u v w : (beads = ["A"; "B"]%string /\ w = u \/ beads = ["B"; "A"]%string /\ w = v) -> exists o,
  sw_init None sw_default_rules beads (two_beads 1 2 1 1) (conflict u v) 1 (fun _ _ => 1) (fun _ => 0) = Ok o /\
  forall mp, snd (sw_density_max o [1] mp) = Ok (mp * 6 / (2 * PI * ((1 + w ^ 3 + w ^ 3 + 1) / 4)) / molecule_per_nm3).
Proof.
  intros D.
  assert (X : exists m, group_matrices None sw_default_rules beads
      [("A", [("epsilon", 1); ("lambda", 2); ("sigma", 1); ("Sk", 1); ("Vks", 1)]);
       ("B", [("epsilon", 1); ("lambda", 2); ("sigma", 1); ("Sk", 1); ("Vks", 1)])]%string (conflict u v) = Ok m /\
      m "sigma"%string 0%nat 0%nat = 1 /\ m "sigma"%string 0%nat 1%nat = w /\ m "sigma"%string 1%nat 0%nat = w /\ m "sigma"%string 1%nat 1%nat = 1).
  { destruct D as [[-> ->]|[-> ->]]; (eexists; split; [reflexivity|]; repeat split; reflexivity). }
  destruct X as [m [X [M1 [M2 [M3 M4]]]]].
  assert (Ex : forall p, In p ["Vks"; "Sk"]%string -> extract_property R p
      [("A", [("epsilon", 1); ("lambda", 2); ("sigma", 1); ("Sk", 1); ("Vks", 1)]);
       ("B", [("epsilon", 1); ("lambda", 2); ("sigma", 1); ("Sk", 1); ("Vks", 1)])]%string beads (Some 1) = Ok [1; 1]).
  { intros p [<-|[<-|[]]]; destruct D as [[-> _]|[-> _]]; reflexivity. }
  assert (Lb : length beads = 2%nat) by (destruct D as [[-> _]|[-> _]]; reflexivity).
  unfold sw_init.
  assert (E : snd (check_bead_parameters R (two_beads 1 2 1 1) sw_defaults) =
     Ok [("A", [("epsilon", 1); ("lambda", 2); ("sigma", 1); ("Sk", 1); ("Vks", 1)]);
         ("B", [("epsilon", 1); ("lambda", 2); ("sigma", 1); ("Sk", 1); ("Vks", 1)])]%string) by reflexivity.
  rewrite E. cbn [rbind]. rewrite !Ex by (cbn; tauto). cbn [rbind]. rewrite X. cbn [rbind].
  assert (Av : exists a, averaged None sw_default_rules 1 (length beads) (fun _ _ => 1) (arr [1; 1]) (arr [1; 1]) m = Ok a) by (eexists; reflexivity).
  destruct Av as [a ->]. cbn [rbind]. eexists. split; [reflexivity|]. intros mp. unfold sw_density_max. cbn [sw_n length Nat.eqb negb].
  unfold check_composition. cbn [sw_comp].
  match goal with |- context [composition ?o ?x] => assert (CO : composition o x = Ok
     (Cmol2seg 1 2 (arr [1]) (fun _ _ => 1) (arr [1; 1]) (arr [1; 1]), xskl 1 2 (arr [1]) (fun _ _ => 1) (arr [1; 1]) (arr [1; 1]))) end.
  { unfold composition, sm, slib, sbeads. cbn [sw_par ep_beads ep_bead_library sw_n sw_nu]. rewrite Lb.
    destruct D as [[-> _]|[-> _]]; reflexivity. }
  rewrite CO. cbn [rbind sw_comp with_comp snd]. unfold sm, sbeads. cbn [sw_par with_comp ep_beads sw_mats]. rewrite Lb.
  f_equal. unfold rho_max, sigma_kl, xskl, xsk, Cmol2seg, arr. cbn [sumn nth]. rewrite M1, M2, M3, M4. do 2 f_equal.
  rewrite !Rplus_0_l. field.
Qed.
Theorem C118_both_orders_refuted : exists lib cl n nu s s',
  sw_init None sw_default_rules ["A"; "B"]%string lib cl n nu (fun _ => 0) = Ok s /\
  sw_init None sw_default_rules ["B"; "A"]%string lib cl n nu (fun _ => 0) = Ok s' /\
  same_in_order exchange ["A"; "B"]%string ["B"; "A"]%string /\ (forall i k, (k < 2)%nat -> nu i k = nu i (exchange k)) /\
  forall maxpack, 0 < maxpack -> snd (sw_density_max s' [1] maxpack) <> snd (sw_density_max s [1] maxpack).
Proof.
  destruct (conflict_max ["A"; "B"]%string 1 2 1 (or_introl (conj eq_refl eq_refl))) as [s [I D]].
  destruct (conflict_max ["B"; "A"]%string 1 2 2 (or_intror (conj eq_refl eq_refl))) as [s' [I' D']].
  exists (two_beads 1 2 1 1), (conflict 1 2), 1%nat, (fun _ _ => 1), s, s'. split; [exact I|]. split; [exact I'|].
  split; [apply exchange_order|]. split; [reflexivity|]. intros mp Hmp. rewrite D, D'. intros H0.
  match type of H0 with Ok ?a = Ok ?b => assert (H : a = b) by congruence end. clear H0.
  pose proof PI_RGT_0 as PP.
  assert (N : molecule_per_nm3 <> 0) by (unfold molecule_per_nm3; lra).
  apply (f_equal (fun x => x * molecule_per_nm3 * PI)) in H. cbv beta in H.
  replace (mp * 6 / (2 * PI * ((1 + 2 ^ 3 + 2 ^ 3 + 1) / 4)) / molecule_per_nm3 * molecule_per_nm3 * PI) with (mp * 6 / 9) in H by (field; repeat split; first [exact N | lra]).
  replace (mp * 6 / (2 * PI * ((1 + 1 ^ 3 + 1 ^ 3 + 1) / 4)) / molecule_per_nm3 * molecule_per_nm3 * PI) with (mp * 3) in H by (field; repeat split; first [exact N | lra]).
  lra.
Qed.
Print Assumptions C118_both_orders_refuted.

(** ** C119 *)
(** The pair matrices: built exactly if every bead has every parameter (else a KeyError)
    and every pair has a value in the cross library or two beads its rule can combine (else
    a ValueError). *)
Theorem C119_pair_parameters : forall V (zero : V) rule beads lib keys cl,
  (forall key a b out, rule key a b = Ok out -> out = [] \/ exists v, out = [(key, v)]) ->
  let lacking := exists key b, In key keys /\ In b beads /\ bead_value lib b key = None in
  let unobtainable := exists key i j bi bj, In key keys /\ (i < j)%nat /\ nth_error beads i = Some bi /\ nth_error beads j = Some bj /\
      not_given cl bi bj key /\
      forall d1 d2 out, dget lib bi = Some d1 -> dget lib bj = Some d2 -> rule key d1 d2 <> Ok out in
  match cross_interaction_from_dict V zero rule beads lib keys cl with
  | Ok _ => ~ lacking /\ ~ unobtainable
  | Err KeyError => lacking
  | Err ValueError => ~ lacking /\ unobtainable
  | Err _ => False
  end.
Proof.
  intros V zero rule beads lib keys cl S lacking unobtainable.
  pose proof (cross_outcome zero rule S beads lib keys cl) as O.
  assert (NL : all_known beads lib keys -> ~ lacking) by (intros AK [key [b [H1 [H2 H3]]]]; exact (AK key b H1 H2 H3)).
  destruct (cross_interaction_from_dict V zero rule beads lib keys cl) as [m|e].
  - destruct O as [AK AO]. split; [apply NL; exact AK|]. intros [key [i [j [bi [bj [Hk [L [Bi [Bj [NG NR]]]]]]]]]].
    destruct (AO key i j bi bj Hk L Bi Bj) as [[v G]|[d1 [d2 [out [D1 [D2 E]]]]]]; [exact (given_not _ _ _ _ _ G NG)|exact (NR _ _ _ D1 D2 E)].
  - destruct O as [[-> LK]|[-> [AK [key [i [j [bi [bj [Hk [L [Bi [Bj NO]]]]]]]]]]]]; [exact LK|].
    split; [apply NL; exact AK|]. exists key, i, j, bi, bj. repeat split; try assumption.
    + intros w W. apply NO. left. exists w. left. exact W.
    + intros w W. apply NO. left. destruct (cross_get cl bi bj key) as [v|] eqn:E.
      * exists v. left. apply EosToolboxProofs.cross_get_entry. exact E.
      * exists w. right. split; [apply EosToolboxProofs.cross_get_none; exact E|exact W].
    + intros d1 d2 out D1 D2 E. apply NO. right. eauto 6.
Qed.
Print Assumptions C119_pair_parameters.
Definition rule_if_charged (key : string) (a b : dict nat) : result (dict nat) :=
  let* _ := dfetch a "q" in let* _ := dfetch b "q" in Ok [(key, 0%nat)].
(** all three outcomes occur *)
Example C119_case :
  let run lib cl := cross_interaction_from_dict nat 0%nat rule_if_charged ["A"; "B"]%string lib ["e"%string] cl in
  is_ok (run [("A", [("e", 1%nat)]); ("B", [("e", 2%nat)])]%string [("B", [("A", [("e", Some 5%nat)])])]%string) = true /\
  run [("A", [("e", 1%nat)]); ("B", [("e", 2%nat)])]%string [] = Err ValueError /\
  run [("A", [("e", 1%nat)]); ("B", [])]%string [] = Err KeyError /\
  forall key a b out, rule_if_charged key a b = Ok out -> out = [] \/ exists v, out = [(key, v)].
Proof.
  cbv zeta. split; [vm_compute; reflexivity|]. split; [vm_compute; reflexivity|]. split; [vm_compute; reflexivity|].
  intros key a b out. unfold rule_if_charged, dfetch. destruct (dget a "q"), (dget b "q"); cbn; intros H; try discriminate. injection H as <-. right; eauto.
Qed.
