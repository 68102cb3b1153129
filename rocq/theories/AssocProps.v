(** C35, C36, C73, C74, C75: association sites and matrices. *)
From Coq Require Import Sorted Reals Lra.
From Verif Require Import Base BaseFacts EosToolboxModel AssocModel AssocProofs AssocProofs2 XikaModel BondingModel.
Open Scope nat_scope.
Open Scope string_scope.

(** ** C35: the list of association sites *)
(** Entry (i, j, k) is listed exactly when component i contains bead j and bead j has
    sites of type k.  The list is in strictly increasing (component, bead, site) order,
    so no entry is repeated. *)
Theorem C35_sites : forall (V : Type) (is0 : V -> bool) (nk comp : list (list V)) l,
  assoc_site_indices V is0 nk comp = Ok l ->
  (forall i j k, In (i, j, k) l <->
     exists row v srow c, nth_error comp i = Some row /\ nth_error row j = Some v /\ is0 v = false /\
       nth_error nk j = Some srow /\ nth_error srow k = Some c /\ is0 c = false) /\
  StronglySorted lex3 l /\ NoDup l.
Proof.
  intros V is0 nk comp l H. destruct (indices_spec V is0 nk comp l H) as [S I]. split; [exact I|]. split; [exact S|].
  clear - S. induction S as [|x l S IH F]; constructor; [|exact IH]. intros Hx. rewrite Forall_forall in F. specialize (F x Hx).
  destruct x as [[i j] k]. unfold lex3 in F. lia.
Qed.
Theorem C35_never_fails : forall (V : Type) (is0 : V -> bool) (nk comp : list (list V)),
  (forall row, In row comp -> (List.length row <= List.length nk)%nat) -> exists l, assoc_site_indices V is0 nk comp = Ok l.
Proof. intros. apply indices_ok. assumption. Qed.
Print Assumptions C35_sites. Print Assumptions C35_never_fails.
Example C35_nonvacuous :
  assoc_site_indices Z (Z.eqb 0) [[1; 2]; [0; 0]; [0; 1]]%Z [[1; 1; 0]; [0; 2; 3]]%Z = Ok [(0, 0, 0); (0, 0, 1); (1, 2, 1)]%nat.
Proof. reflexivity. Qed.

(** ** C36: symmetry *)
Theorem C36_matrices : forall V zero is0 eps_same eps_mix K_mix r_mix beads lib cross sites nk m,
  calc_assoc_matrices V zero is0 eps_same eps_mix K_mix r_mix beads lib cross sites nk = Ok m ->
  forall k l a b, eps V m k l a b = eps V m l k b a /\ Kk V m k l a b = Kk V m l k b a /\
                  rc V m k l a b = rc V m l k b a /\ rd V m k l a b = rd V m l k b a.
Proof.
  intros V zero is0 es em Km rm beads lib cross sites nk m H k l a b. unfold calc_assoc_matrices in H.
  destruct (self_loop V is0 es beads lib sites nk (amat0 V zero)) as [m1|] eqn:E1; [|discriminate]. cbn [rbind] in H.
  destruct (cross_loop V is0 em Km rm beads lib cross sites nk m1) as [m2|] eqn:E2; [|discriminate]. cbn [rbind] in H.
  assert (S0 : msym V (amat0 V zero)) by (repeat split).
  pose proof (self_loop_sym _ _ _ _ _ _ _ _ _ S0 E1) as S1. pose proof (cross_loop_sym _ _ _ _ _ _ _ _ _ _ _ _ S1 E2) as [A [B [C D]]].
  destruct (fK V m2 && frc V m2)%bool; [discriminate|]. destruct (frd V m2 && negb (frc V m2))%bool; [discriminate|]. injection H as <-.
  split; [apply A|]. split; [apply B|]. split; [apply C|apply D].
Qed.
Print Assumptions C36_matrices.
(** the bonding volume calculated from cutoff distances, in both SAFT variants *)
Theorem C36_bonding_volume : forall rc rd ratio,
  (forall k l a b, rc k l a b = rc l k b a) ->
  (forall f, rd = Some f -> forall k l a b, f k l a b = f l k b a) ->
  (forall dii i j k l a b, Kijklab_mie dii rc rd ratio i j k l a b = Kijklab_mie dii rc rd ratio j i l k b a) /\
  (forall n sigma i j k l a b, Kijklab_sw n sigma rc rd ratio i j k l a b = Kijklab_sw n sigma rc rd ratio j i l k b a).
Proof.
  intros rc rd ratio Hrc Hrd.
  assert (G : forall dij, (forall i j, dij i j = dij j i) ->
     forall i j k l a b, calc_bonding_volume rc dij rd ratio i j k l a b = calc_bonding_volume rc dij rd ratio j i l k b a).
  { intros dij Hd i j k l a b. unfold calc_bonding_volume, site_position. rewrite (Hrc k l a b), (Hd i j).
    destruct rd as [f|]; [rewrite (Hrd f eq_refl k l a b)|]; reflexivity. }
  split.
  - intros dii. apply G. intros i j. unfold dij_mie. field.
  - intros n sigma. apply G. intros i j. unfold dij_sw. rewrite Rplus_comm. reflexivity.
Qed.
Print Assumptions C36_bonding_volume.

(** ** C73: the site table *)
(** [site_of key] is the site a library key of the form Nk...-site speaks about;
    [count_of d s] the (last) number a bead's dictionary gives for site s, zero without. *)
Theorem C73_site_table : forall V zero is0 beads lib comp names nk flag,
  initiate_assoc_matrices V zero is0 beads lib comp = Ok (names, nk, flag) ->
  exists ds : list (dict V), mapM (dfetch lib) beads = Ok ds /\
  NoDup names /\
  (forall s, In s names <-> exists d, In d ds /\ exists kv, In kv d /\ site_of (fst kv) = Some s) /\
  nk = map (fun d => map (count_of V zero d) names) ds /\
  (flag = true <-> exists i row j v srow k c, nth_error comp i = Some row /\ nth_error row j = Some v /\ is0 v = false /\
       nth_error nk j = Some srow /\ nth_error srow k = Some c /\ is0 c = false).
Proof.
  intros V zero is0 beads lib comp names nk flag H. unfold initiate_assoc_matrices in H.
  destruct (foldM (site_bead V zero lib) ([], []) beads) as [t|] eqn:E; [|discriminate]. cbn [rbind] in H.
  destruct (assoc_site_indices V is0 (fst t) comp) as [ind|] eqn:EI; [|discriminate]. cbn [rbind] in H. injection H as <- <- <-.
  destruct (site_table V zero is0 lib beads t E) as [ds [H1 [H2 [H3 H4]]]]. exists ds. split; [exact H1|]. split; [exact H2|]. split; [exact H4|]. split; [exact H3|].
  destruct (indices_spec V is0 (fst t) comp ind EI) as [_ I]. destruct ind as [|[[i j] k] ind].
  - split; [discriminate|]. intros [i [row [j [v [srow [k [c Hx]]]]]]]. assert (In (i, j, k) []) by (apply I; exists row, v, srow, c; exact Hx). destruct H.
  - split; [|reflexivity]. intros _. destruct (proj1 (I i j k) (or_introl eq_refl)) as [row [v [srow [c Hx]]]]. exists i, row, j, v, srow, k, c. exact Hx.
Qed.
(** A site key without, or with more than one, hyphen is refused, and nothing else. *)
Theorem C73_refused : forall V zero is0 beads (lib : library V) comp (ds : list (dict V)),
  mapM (dfetch lib) beads = Ok ds -> (forall row, In row comp -> (List.length row <= List.length beads)%nat) ->
  ((exists d kv, In d ds /\ In kv d /\ bad_site_key (fst kv) = true) -> initiate_assoc_matrices V zero is0 beads lib comp = Err ValueError) /\
  ((forall d kv, In d ds -> In kv d -> bad_site_key (fst kv) = false) -> exists r, initiate_assoc_matrices V zero is0 beads lib comp = Ok r).
Proof.
  intros V zero is0 beads lib comp ds HM HL. unfold initiate_assoc_matrices.
  set (bad := fun b => match dget lib b with Some d => existsb (fun kv => bad_site_key (fst kv)) d | None => false end).
  assert (HF : forall b, In b beads -> exists d : dict V, dget lib b = Some d /\ In d ds).
  { clear - HM. revert ds HM. induction beads as [|x xs IH]; intros ds HM b Hb; [destruct Hb|]. cbn in HM.
    unfold dfetch in HM at 1. destruct (dget lib x) as [d|] eqn:Ed; [|discriminate]. cbn [rbind] in HM.
    destruct (mapM (dfetch lib) xs) as [ys|]; [|discriminate]. injection HM as <-. destruct Hb as [->|Hb]; [exists d; split; [exact Ed|left; reflexivity]|].
    destruct (IH ys eq_refl b Hb) as [d' [A B]]. exists d'. split; [exact A|right; exact B]. }
  assert (HB : forall d, In d ds -> exists b, In b beads /\ dget lib b = Some d).
  { clear - HM. revert ds HM. induction beads as [|x xs IH]; intros ds HM d Hd; cbn in HM; [injection HM as <-; destruct Hd|].
    unfold dfetch in HM at 1. destruct (dget lib x) as [d0|] eqn:Ed; [|discriminate]. cbn [rbind] in HM.
    destruct (mapM (dfetch lib) xs) as [ys|]; [|discriminate]. injection HM as <-. destruct Hd as [<-|Hd]; [exists x; split; [left; reflexivity|exact Ed]|].
    destruct (IH ys eq_refl d Hd) as [b [A B]]. exists b. split; [right; exact A|exact B]. }
  assert (HBad : forall t b, In b beads -> bad b = true -> site_bead V zero lib t b = Err ValueError).
  { intros t b Hb Hbad. destruct (HF b Hb) as [d [Ed _]]. unfold bad in Hbad. rewrite Ed in Hbad. assert (Ef : dfetch lib b = Ok d) by (unfold dfetch; rewrite Ed; reflexivity).
    unfold site_bead. rewrite Ef. cbn [rbind].
    rewrite (foldM_err _ ValueError d (fun kv => bad_site_key (fst kv))); [reflexivity| | |].
    - intros x kv _ Hk. apply site_item_bad. exact Hk.
    - intros x kv _ Hk. apply site_item_ok. exact Hk.
    - apply existsb_exists in Hbad. exact Hbad. }
  assert (HOk : forall t b, In b beads -> bad b = false -> exists t', site_bead V zero lib t b = Ok t').
  { intros t b Hb Hbad. destruct (HF b Hb) as [d [Ed _]]. unfold bad in Hbad. rewrite Ed in Hbad. assert (Ef : dfetch lib b = Ok d) by (unfold dfetch; rewrite Ed; reflexivity).
    unfold site_bead. rewrite Ef. cbn [rbind].
    destruct (foldM_all_ok (site_item V zero) d (Table V (fst t) (map (fun _ => zero) (snd t)) (snd t))) as [r ->].
    - intros x kv Hkv. apply site_item_ok. destruct (bad_site_key (fst kv)) eqn:Eb; [|reflexivity].
      assert (existsb (fun kv => bad_site_key (fst kv)) d = true) by (apply existsb_exists; eauto). congruence.
    - cbn. eauto. }
  split.
  - intros [d [kv [Hd [Hkv Hk]]]]. rewrite (foldM_err _ ValueError beads bad); [reflexivity|auto|auto|].
    destruct (HB d Hd) as [b [Hb Ed]]. exists b. split; [exact Hb|]. unfold bad. rewrite Ed. apply existsb_exists. eauto.
  - intros Hg. destruct (foldM_all_ok (site_bead V zero lib) beads ([], [])) as [t E].
    { intros t b Hb. apply HOk; [exact Hb|]. unfold bad. destruct (HF b Hb) as [d [-> Hd]]. destruct (existsb _ d) eqn:Ex; [|reflexivity].
      apply existsb_exists in Ex. destruct Ex as [kv [A B]]. rewrite (Hg d kv Hd A) in B. discriminate. }
    rewrite E. cbn [rbind]. destruct (site_table V zero is0 lib beads t E) as [ds' [M [_ [T _]]]].
    assert (ds' = ds) by congruence. subst ds'. destruct (indices_ok V is0 (fst t) comp) as [l ->]; [|cbn; eauto].
    intros row Hr. rewrite T, map_length. rewrite (mapM_length _ _ _ HM). apply HL. exact Hr.
Qed.
Print Assumptions C73_site_table. Print Assumptions C73_refused.
Example C73_nonvacuous :
  initiate_assoc_matrices Z 0%Z (Z.eqb 0) ["CH3"; "H2O"; "OH"]
    [("CH3", [("sigma", 4%Z)]); ("H2O", [("Nk-H", 2%Z); ("Nk-e", 2%Z)]); ("OH", [("Nk-e", 1%Z); ("Nk-a", 3%Z)])] [[1; 0; 1]; [0; 1; 0]]%Z
  = Ok (["H"; "e"; "a"], [[0; 0; 0]; [2; 2; 0]; [0; 1; 3]]%Z, true).
Proof. reflexivity. Qed.
Example C73_bad_key : bad_site_key "Nk" = true /\ bad_site_key "Nk-H" = false /\ bad_site_key "Nk-H-e" = true /\ bad_site_key "K-H-e" = false.
Proof. repeat split. Qed.

(** ** C75: parameters of the pure beads *)
Section C75.
  Variables (V : Type) (zero : V) (is0 : V -> bool) (eps_same : V -> V) (eps_mix : V -> V -> V -> V -> V) (K_mix r_mix : V -> V -> V)
            (beads : list string) (lib : library V) (sites : list string) (nk : nat -> nat -> V).
  Definition has_sites (i a : nat) : bool := negb (is0 (nk i a)).
  (** parameter [p] of bead i between two of its sites: under the names in the order of
      the site table, or else in the other order *)
  Definition param (p : string) (i a b : nat) : option V :=
    let s := nth (Nat.min a b) sites "" in let t := nth (Nat.max a b) sites "" in
    match dget lib (nth i beads "") with
    | Some d => match dget d (p ++ "-" ++ s ++ "-" ++ t) with Some v => Some v | None => dget d (p ++ "-" ++ t ++ "-" ++ s) end
    | None => None
    end.
  Definition self_energy (i a b : nat) : V :=
    match param "epsilonHB" i a b with
    | Some v => if (has_sites i a && has_sites i b)%bool then if Nat.eqb a b then eps_same v else v else zero
    | None => zero
    end.
  Definition self_length (p : string) (i a b : nat) : V :=
    match param "epsilonHB" i a b, param p i a b with
    | Some _, Some v => if (has_sites i a && has_sites i b)%bool then v else zero
    | _, _ => zero
    end.
  (** [base] if it is set or nothing can be mixed *)
  Definition or_mixed (base mixed : V) (i j a b : nat) : V :=
    if (is0 base && negb (Nat.eqb i j && Nat.eqb a b) && has_sites i a && has_sites j b)%bool then mixed else base.
  Definition expected_energy (i j a b : nat) : V :=
    let base := if Nat.eqb i j then self_energy i a b else zero in
    match param "epsilonHB" i a a, param "epsilonHB" j b b with
    | Some va, Some vb => or_mixed base (eps_mix (self_energy i a a) (self_energy j b b) va vb) i j a b
    | _, _ => base
    end.
  Definition expected_length (p : string) (mixf : V -> V -> V) (i j a b : nat) : V :=
    let base := if Nat.eqb i j then self_length p i a b else zero in
    or_mixed base (mixf (self_length p i a a) (self_length p j b b)) i j a b.
  Definition any_given (p : string) : Prop :=
    exists i a b v e, (i < List.length beads)%nat /\ (a <= b)%nat /\ (b < List.length sites)%nat /\ has_sites i a = true /\ has_sites i b = true /\
      param "epsilonHB" i a b = Some e /\ param p i a b = Some v.

  Hypothesis beads_known : forall i, (i < List.length beads)%nat -> exists d, dget lib (nth i beads "") = Some d.
  Hypothesis eps_mix_comm : forall x y u v, eps_mix x y u v = eps_mix y x v u.
  Hypothesis K_mix_comm : forall x y, K_mix x y = K_mix y x.
  Hypothesis r_mix_comm : forall x y, r_mix x y = r_mix y x.

  Lemma given_param p i a b : given_at V beads lib sites p i (Nat.min a b) (Nat.max a b) = param p i a b.
  Proof. unfold given_at, given, param, bead_dict, bead_name, site_name, pname. destruct (dget lib (nth i beads "")); [reflexivity|]. reflexivity. Qed.
  Lemma given_le p i a b : (a <= b)%nat -> given_at V beads lib sites p i a b = param p i a b.
  Proof. intros H. rewrite <- given_param. rewrite Nat.min_l, Nat.max_r by lia. reflexivity. Qed.
  Lemma in_triples' i a b : (i < List.length beads)%nat -> (a < List.length sites)%nat -> (b < List.length sites)%nat ->
    covers (triples V is0 beads sites nk) i i a b <-> (has_sites i a && has_sites i b)%bool = true.
  Proof.
    intros Hi Ha Hb. unfold covers, has_sites. rewrite in_triples, andb_true_iff, !negb_true_iff. unfold nbeads, nsites.
    destruct (Nat.le_ge_cases a b).
    - rewrite Nat.min_l, Nat.max_r by lia. intuition.
    - rewrite Nat.min_r, Nat.max_l by lia. intuition.
  Qed.
  Lemma self_value W M i j a b (val : nat -> nat -> nat -> V) : (i < List.length beads)%nat -> (a < List.length sites)%nat -> (b < List.length sites)%nat ->
    self_entry V zero (triples V is0 beads sites nk) W M ->
    ((has_sites i a && has_sites i b)%bool = true -> W i (Nat.min a b) (Nat.max a b) = val i a b) ->
    ((has_sites i a && has_sites i b)%bool = false -> val i a b = zero) ->
    M i j a b = if Nat.eqb i j then val i a b else zero.
  Proof.
    intros Hi Ha Hb HS HW HZ. destruct (HS i j a b) as [H1 H2]. destruct (Nat.eqb_spec i j) as [<-|N].
    - destruct (has_sites i a && has_sites i b)%bool eqn:E.
      + rewrite H1 by (apply in_triples'; assumption). apply HW. reflexivity.
      + rewrite HZ by reflexivity. apply H2. intros C. apply in_triples' in C; auto. congruence.
    - apply H2. intros [C _]. contradiction.
  Qed.
  Lemma flag_spec p : existsb (wr_flag V beads lib sites p) (triples V is0 beads sites nk) = true <-> any_given p.
  Proof.
    rewrite existsb_exists. split.
    - intros [[[i a] b] [Ht Hf]]. apply in_triples in Ht. destruct Ht as [Hi [Hab [Hb [Na Nb]]]]. cbn [wr_flag] in Hf.
      destruct (given_at V beads lib sites "epsilonHB" i a b) as [e|] eqn:E1; [|discriminate].
      destruct (given_at V beads lib sites p i a b) as [v|] eqn:E2; [|discriminate].
      rewrite given_le in E1, E2 by exact Hab.
      exists i, a, b, v, e. unfold has_sites. rewrite Na, Nb. repeat split; auto.
    - intros [i [a [b [v [e [Hi [Hab [Hb [Na [Nb [E1 E2]]]]]]]]]]]. exists (i, a, b). unfold has_sites in Na, Nb. apply negb_true_iff in Na, Nb. split.
      + apply in_triples. unfold nbeads, nsites. auto.
      + cbn [wr_flag]. rewrite <- given_param in E1, E2. rewrite Nat.min_l, Nat.max_r in E1, E2 by lia. rewrite E1, E2. reflexivity.
  Qed.

  (** Without a cross library every entry is what the pure beads say: the given value,
      minus its absolute value for a site with itself, else the mixed one. *)
Theorem C75_self_and_mixed : forall m,
    calc_assoc_matrices V zero is0 eps_same eps_mix K_mix r_mix beads lib [] sites nk = Ok m ->
    (forall i j a b, (i < List.length beads)%nat -> (j < List.length beads)%nat -> (a < List.length sites)%nat -> (b < List.length sites)%nat ->
       eps V m i j a b = expected_energy i j a b /\
       (fK V m = true -> Kk V m i j a b = expected_length "K" K_mix i j a b) /\
       (frc V m = true -> rc V m i j a b = expected_length "rc" r_mix i j a b) /\
       (frd V m = true -> rd V m i j a b = expected_length "rd" r_mix i j a b)) /\
    (fK V m = true <-> any_given "K") /\ (frc V m = true <-> any_given "rc") /\ (frd V m = true <-> any_given "rd").
  Proof.
    intros m H. unfold calc_assoc_matrices in H.
    destruct (self_loop V is0 eps_same beads lib sites nk (amat0 V zero)) as [m1|] eqn:E1; [|discriminate]. cbn [rbind] in H.
    assert (S0 : msym V (amat0 V zero)) by (repeat split).
    pose proof (self_loop_sym _ _ _ _ _ _ _ _ _ S0 E1) as S1.
    pose proof (self_loop_inv V zero is0 eps_same eps_mix K_mix r_mix beads lib sites nk beads_known m1 E1) as [I1 [I2 [I3 [I4 [F1 [F2 F3]]]]]].
    destruct (cross_loop_inv V zero is0 eps_same eps_mix K_mix r_mix beads lib sites nk beads_known eps_mix_comm K_mix_comm r_mix_comm m1 S1) as [m2 [E2 J]].
    rewrite E2 in H. cbn [rbind] in H. assert (m2 = m) by (destruct (fK V m2 && frc V m2)%bool; [discriminate|]; destruct (frd V m2 && negb (frc V m2))%bool; [discriminate|congruence]).
    subst m2. destruct J as [_ [J1 [J2 [J3 [J4 [G1 [G2 G3]]]]]]].
    split; [|rewrite G1, G2, G3, F1, F2, F3, !flag_spec; tauto].
    intros i j a b Hi Hj Ha Hb.
    assert (VE : forall i j a b, (i < List.length beads)%nat -> (a < List.length sites)%nat -> (b < List.length sites)%nat ->
       eps V m1 i j a b = if Nat.eqb i j then self_energy i a b else zero).
    { intros i' j' a' b' H1 H2 H3. apply (self_value _ _ i' j' a' b' self_energy H1 H2 H3 I1); unfold wr_eps, self_energy.
      - intros ->. rewrite given_param. destruct (param "epsilonHB" i' a' b'); [|reflexivity].
        destruct (Nat.eqb_spec a' b') as [->|N]; [rewrite Nat.min_id, Nat.max_id, Nat.eqb_refl; reflexivity|].
        destruct (Nat.eqb_spec (Nat.min a' b') (Nat.max a' b')); [lia|reflexivity].
      - intros ->. destruct (param "epsilonHB" i' a' b'); reflexivity. }
    assert (VL : forall p M, self_entry V zero (triples V is0 beads sites nk) (wr_len V zero beads lib sites p) M ->
       forall i j a b, (i < List.length beads)%nat -> (a < List.length sites)%nat -> (b < List.length sites)%nat ->
       M i j a b = if Nat.eqb i j then self_length p i a b else zero).
    { intros p M HM i' j' a' b' H1 H2 H3. apply (self_value _ _ i' j' a' b' (self_length p) H1 H2 H3 HM); unfold wr_len, self_length; rewrite ?given_param.
      - intros ->. destruct (param "epsilonHB" i' a' b'), (param p i' a' b'); reflexivity.
      - intros ->. destruct (param "epsilonHB" i' a' b'), (param p i' a' b'); reflexivity. }
    assert (TQ : forall i j a b, (i < List.length beads)%nat -> (j < List.length beads)%nat -> (a < List.length sites)%nat -> (b < List.length sites)%nat ->
       (touched (quads V is0 beads sites nk) i j a b <-> (negb (Nat.eqb i j && Nat.eqb a b) && has_sites i a && has_sites j b)%bool = true)).
    { clear - zero. intros i j a b Hi Hj Ha Hb. unfold touched. split.
      - intros [Q|Q]; apply in_quads in Q; destruct Q as [_ [_ [_ [_ [Q1 [Q2 Q3]]]]]]; unfold has_sites; rewrite Q1, Q2; cbn;
          destruct (Nat.eqb_spec i j), (Nat.eqb_spec a b); try reflexivity; exfalso; apply Q3; auto.
      - intros Q. left. apply in_quads. apply andb_true_iff in Q. destruct Q as [Q Q3]. apply andb_true_iff in Q. destruct Q as [Q1 Q2].
        unfold has_sites in *. apply negb_true_iff in Q1, Q2, Q3. unfold nbeads, nsites. repeat split; auto. intros [-> ->]. rewrite !Nat.eqb_refl in Q1. discriminate. }
    assert (FIN : forall M0 val M, filled V is0 M0 val (quads V is0 beads sites nk) M ->
       M i j a b = match val i j a b with Some v => or_mixed (M0 i j a b) v i j a b | None => M0 i j a b end).
    { intros M0 val M HM. destruct (HM i j a b) as [A B]. unfold or_mixed.
      destruct (negb (Nat.eqb i j && Nat.eqb a b) && has_sites i a && has_sites j b)%bool eqn:E.
      - rewrite A by (apply TQ; assumption). unfold fin. rewrite <- !andb_assoc in *. rewrite E, andb_true_r. destruct (is0 (M0 i j a b)), (val i j a b); reflexivity.
      - rewrite B by (rewrite TQ by assumption; congruence). rewrite <- !andb_assoc in *. rewrite E, andb_false_r. destruct (val i j a b); reflexivity. }
    split; [|split; [|split]].
    - rewrite (FIN _ _ _ J1). unfold mix_eps_val, expected_energy.
      assert (P : forall i a, dget (bead_dict V beads lib i) (pname "epsilonHB" (site_name sites a) (site_name sites a)) = param "epsilonHB" i a a).
      { intros i' a'. unfold bead_dict, param, site_name, pname, bead_name. rewrite Nat.min_id, Nat.max_id. destruct (dget lib (nth i' beads "")) as [d|]; [|reflexivity].
        destruct (dget d ("epsilonHB" ++ "-" ++ nth a' sites "" ++ "-" ++ nth a' sites "")); reflexivity. }
      rewrite !P. rewrite !VE by assumption. rewrite !Nat.eqb_refl. destruct (param "epsilonHB" i a a), (param "epsilonHB" j b b); reflexivity.
    - rewrite G1. intros Fl. rewrite (FIN _ _ _ J2). unfold mix_len_val. rewrite Fl. rewrite !(VL "K" _ I2) by assumption. rewrite !Nat.eqb_refl. reflexivity.
    - rewrite G2. intros Fl. rewrite (FIN _ _ _ J3). unfold mix_len_val. rewrite Fl. rewrite !(VL "rc" _ I3) by assumption. rewrite !Nat.eqb_refl. reflexivity.
    - rewrite G3. intros Fl. rewrite (FIN _ _ _ J4). unfold mix_len_val. rewrite Fl. rewrite !(VL "rd" _ I4) by assumption. rewrite !Nat.eqb_refl. reflexivity.
  Qed.

  (** The combinations refused with ValueError, and no others: for sites a bead has, an
      energy without bonding information, both kinds of bonding information, or bonding
      information without an energy; over the whole mixture both kinds of bonding
      information, or site positions without cutoff distances. *)
  Definition refused_pair (i a b : nat) : Prop :=
    (i < List.length beads)%nat /\ (a <= b)%nat /\ (b < List.length sites)%nat /\ has_sites i a = true /\ has_sites i b = true /\
    ((param "epsilonHB" i a b <> None /\ param "K" i a b = None /\ param "rc" i a b = None) \/
     (param "K" i a b <> None /\ param "rc" i a b <> None) \/
     (param "epsilonHB" i a b = None /\ (param "K" i a b <> None \/ param "rc" i a b <> None))).
Theorem C75_refused :
    ((exists i a b, refused_pair i a b) \/ (any_given "K" /\ any_given "rc") \/ (any_given "rd" /\ ~ any_given "rc") ->
      calc_assoc_matrices V zero is0 eps_same eps_mix K_mix r_mix beads lib [] sites nk = Err ValueError) /\
    (~ ((exists i a b, refused_pair i a b) \/ (any_given "K" /\ any_given "rc") \/ (any_given "rd" /\ ~ any_given "rc")) ->
      exists m, calc_assoc_matrices V zero is0 eps_same eps_mix K_mix r_mix beads lib [] sites nk = Ok m).
  Proof.
    assert (RB : (exists i a b, refused_pair i a b) <-> exists t, In t (triples V is0 beads sites nk) /\ tri_bad V beads lib sites t = true).
    { split.
      - intros [i [a [b [Hi [Hab [Hb [Na [Nb R]]]]]]]]. exists (i, a, b). split.
        + apply in_triples. unfold has_sites in Na, Nb. apply negb_true_iff in Na, Nb. unfold nbeads, nsites. auto.
        + cbn [tri_bad]. unfold inconsistent.
          rewrite <- !given_param in R. rewrite Nat.min_l, Nat.max_r in R by lia. unfold given_at in R.
          destruct (given V (bead_dict V beads lib i) "epsilonHB" _ _), (given V (bead_dict V beads lib i) "K" _ _), (given V (bead_dict V beads lib i) "rc" _ _); try reflexivity; exfalso; intuition congruence.
      - intros [[[i a] b] [Ht Hb]]. apply in_triples in Ht. destruct Ht as [Hi [Hab [Hb' [Na Nb]]]]. exists i, a, b. unfold refused_pair, has_sites. rewrite Na, Nb.
        split; [exact Hi|]. split; [exact Hab|]. split; [exact Hb'|]. split; [reflexivity|]. split; [reflexivity|].
        rewrite <- !given_param. rewrite Nat.min_l, Nat.max_r by lia. cbn [tri_bad] in Hb. unfold inconsistent in Hb. unfold given_at.
        destruct (given V (bead_dict V beads lib i) "epsilonHB" _ _), (given V (bead_dict V beads lib i) "K" _ _), (given V (bead_dict V beads lib i) "rc" _ _);
          try discriminate; intuition congruence. }
    unfold calc_assoc_matrices.
    assert (GOOD : ~ (exists i a b, refused_pair i a b) -> exists m,
       self_loop V is0 eps_same beads lib sites nk (amat0 V zero) = Ok m /\ exists m', cross_loop V is0 eps_mix K_mix r_mix beads lib [] sites nk m = Ok m' /\
       (fK V m' = true <-> any_given "K") /\ (frc V m' = true <-> any_given "rc") /\ (frd V m' = true <-> any_given "rd")).
    { intros N. destruct (self_loop_ok V zero is0 eps_same beads lib sites nk beads_known) as [m1 E1].
      { intros t Ht. destruct (tri_bad V beads lib sites t) eqn:E; [|reflexivity]. exfalso. apply N. apply RB. eauto. }
      exists m1. split; [exact E1|].
      assert (S0 : msym V (amat0 V zero)) by (repeat split).
      pose proof (self_loop_sym _ _ _ _ _ _ _ _ _ S0 E1) as S1.
      pose proof (self_loop_inv V zero is0 eps_same eps_mix K_mix r_mix beads lib sites nk beads_known m1 E1) as [_ [_ [_ [_ [F1 [F2 F3]]]]]].
      destruct (cross_loop_inv V zero is0 eps_same eps_mix K_mix r_mix beads lib sites nk beads_known eps_mix_comm K_mix_comm r_mix_comm m1 S1) as [m2 [E2 J]].
      destruct J as [_ [_ [_ [_ [_ [G1 [G2 G3]]]]]]]. exists m2. split; [exact E2|]. rewrite G1, G2, G3, F1, F2, F3, !flag_spec. tauto. }
    split.
    - intros H. destruct (existsb (tri_bad V beads lib sites) (triples V is0 beads sites nk)) eqn:EX.
      + rewrite (self_loop_bad V zero is0 eps_same beads lib sites nk beads_known); [reflexivity|]. apply existsb_exists. exact EX.
      + assert (N : ~ exists i a b, refused_pair i a b).
        { rewrite RB. intros C. apply existsb_exists in C. congruence. }
        destruct (GOOD N) as [m1 [-> [m2 [E2 [K1 [K2 K3]]]]]]. cbn [rbind]. rewrite E2. cbn [rbind].
        destruct H as [H|[[H1 H2]|[H1 H2]]]; [contradiction| |].
        * apply K1 in H1. apply K2 in H2. rewrite H1, H2. reflexivity.
        * apply K3 in H1. rewrite <- K2 in H2. apply not_true_is_false in H2. rewrite H1, H2. destruct (fK V m2); reflexivity.
    - intros H. assert (N : ~ exists i a b, refused_pair i a b) by tauto.
      destruct (GOOD N) as [m1 [-> [m2 [E2 [K1 [K2 K3]]]]]]. cbn [rbind]. rewrite E2. cbn [rbind]. rewrite <- K1, <- K2, <- K3 in H.
      destruct (fK V m2), (frc V m2), (frd V m2); cbn; eauto; exfalso; apply H; intuition congruence.
  Qed.
End C75.
Print Assumptions C75_self_and_mixed. Print Assumptions C75_refused.

(** An instance over the integers: two beads, two site types. *)
Definition z_same (v : Z) : Z := (- Z.abs v)%Z.
Definition z_mix (x y u v : Z) : Z := (Z.sqrt (x * y) * - Z.sgn (u * v))%Z.
Definition z_mean (x y : Z) : Z := ((x + y) / 2)%Z.
Definition two_beads : library Z :=
  [("W", [("Nk-H", 1%Z); ("Nk-e", 1%Z); ("epsilonHB-H-e", 100%Z); ("K-e-H", 8%Z)]);
   ("E", [("Nk-H", 1%Z); ("Nk-e", 1%Z); ("epsilonHB-e-H", 200%Z); ("K-H-e", 4%Z)])].
Definition run_two (cross : dict (library Z)) : result (amat Z) :=
  calc_assoc_matrices Z 0%Z (Z.eqb 0) z_same z_mix z_mean z_mean ["W"; "E"] two_beads cross ["H"; "e"] (fun _ _ => 1%Z).
Example C75_nonvacuous : match run_two [] with
  | Ok m => eps Z m 0 0 0 1 = 100%Z /\ eps Z m 0 0 1 0 = 100%Z /\ eps Z m 1 1 0 1 = 200%Z /\ Kk Z m 0 0 0 1 = 8%Z /\ eps Z m 0 1 0 1 = 0%Z
  | Err _ => False end.
Proof. vm_compute. auto 10. Qed.

(** ** C74: cross association parameters of the user *)
(** The same energy is used or ignored depending on which of the two beads the library
    names first: with W before E in the bead list, the entry under W is dropped. *)
Theorem C74_cross_energy_refuted :
  exists m, run_two [("W", [("E", [("epsilonHB-H-e", 150%Z); ("K-H-e", 6%Z)])])] = Ok m /\
    eps Z m 0 1 0 1 = 0%Z /\ eps Z m 1 0 1 0 = 0%Z.
Proof.
  assert (H : match run_two [("W", [("E", [("epsilonHB-H-e", 150%Z); ("K-H-e", 6%Z)])])] with
              | Ok m => eps Z m 0 1 0 1 = 0%Z /\ eps Z m 1 0 1 0 = 0%Z | Err _ => False end) by (vm_compute; auto).
  destruct (run_two _) as [m|]; [|destruct H]. exists m. split; [reflexivity|exact H].
Qed.
Theorem C74_cross_energy_other_order :
  exists m, run_two [("E", [("W", [("epsilonHB-H-e", 150%Z); ("K-H-e", 6%Z)])])] = Ok m /\
    eps Z m 1 0 0 1 = 150%Z /\ eps Z m 0 1 1 0 = 150%Z /\ Kk Z m 1 0 0 1 = 6%Z.
Proof.
  assert (H : match run_two [("E", [("W", [("epsilonHB-H-e", 150%Z); ("K-H-e", 6%Z)])])] with
              | Ok m => eps Z m 1 0 0 1 = 150%Z /\ eps Z m 0 1 1 0 = 150%Z /\ Kk Z m 1 0 0 1 = 6%Z | Err _ => False end) by (vm_compute; auto).
  destruct (run_two _) as [m|]; [|destruct H]. exists m. split; [reflexivity|exact H].
Qed.
Print Assumptions C74_cross_energy_refuted.
