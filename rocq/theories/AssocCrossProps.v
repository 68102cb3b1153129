(** C74: association parameters given for a pair of beads. *)
From Coq Require Import Sorted.
From Verif Require Import Base BaseFacts EosToolboxModel AssocModel AssocProofs AssocProofs2 AssocCross AssocProps.
Open Scope nat_scope.
Open Scope string_scope.

Section C74.
  Variables (V : Type) (zero : V) (is0 : V -> bool) (eps_same : V -> V) (eps_mix : V -> V -> V -> V -> V) (K_mix r_mix : V -> V -> V)
            (beads : list string) (lib : library V) (cross : dict (library V)) (sites : list string) (nk : nat -> nat -> V).
  Notation has := (has_sites V is0 nk).
  (** what the cross library says, under bead i and bead j, for [name] *)
  Definition entry (i j : nat) (name : string) : option V :=
    match dget cross (nth i beads "") with
    | Some l => match dget l (nth j beads "") with Some d => dget d name | None => None end
    | None => None
    end.
  (** the name of parameter [p] between sites a and b *)
  Definition key (p : string) (a b : nat) : string := p ++ "-" ++ nth a sites "" ++ "-" ++ nth b sites "".
  (** some bead before bead j has site b, and the library has no energy for it with site
      a of bead i (the pair of a site with itself on the same bead does not count) *)
  Definition shadowed (i j a b : nat) : Prop :=
    exists k, k < j /\ has k b = true /\ entry i k (key "epsilonHB" a b) = None /\ ~ (k = i /\ a = b).
  (** the library gives an energy for site a of bead i with site b of bead j, and it is read *)
  Definition taken (i j a b : nat) (v : V) : Prop :=
    has i a = true /\ ~ (i = j /\ a = b) /\
    ((~ shadowed i j a b /\ entry i j (key "epsilonHB" a b) = Some v) \/
     (shadowed i j a b /\ entry i j (key "epsilonHB" b b) = Some v)).
  Definition not_taken (i j a b : nat) : Prop := forall v, ~ taken i j a b v.
  (** the energies of the library are between sites that the beads have *)
  Definition sites_exist : Prop := forall i j a b v, i < List.length beads -> j < List.length beads -> a < List.length sites -> b < List.length sites ->
    entry i j (key "epsilonHB" a b) = Some v -> has i a = true /\ has j b = true.
  Notation calc := (calc_assoc_matrices V zero is0 eps_same eps_mix K_mix r_mix beads lib).
  Notation energy := (expected_energy V zero is0 eps_same eps_mix beads lib sites nk).
  Notation length_of := (expected_length V zero is0 beads lib sites nk).

  Hypothesis beads_known : forall i, i < List.length beads -> exists d, dget lib (nth i beads "") = Some d.
  Hypothesis eps_mix_comm : forall x y u v, eps_mix x y u v = eps_mix y x v u.
  Hypothesis K_mix_comm : forall x y, K_mix x y = K_mix y x.
  Hypothesis r_mix_comm : forall x y, r_mix x y = r_mix y x.
  Hypothesis known_sites : sites_exist.

  Lemma entry_cdict i j s : dget (cdict V beads cross i j) s = entry i j s.
  Proof. unfold cdict, entry, bead_name. destruct (dget cross (nth i beads "")) as [l|]; [|reflexivity]. destruct (dget l (nth j beads "")); reflexivity. Qed.
  Lemma named' i j a b : i < nbeads beads -> j < nbeads beads -> a < nsites sites -> b < nsites sites ->
    dget (cdict V beads cross i j) (pname "epsilonHB" (site_name sites a) (site_name sites b)) <> None -> is0 (nk i a) = false /\ is0 (nk j b) = false.
  Proof.
    intros Hi Hj Ha Hb H. rewrite entry_cdict in H. destruct (entry i j _) as [v|] eqn:E; [|congruence].
    destruct (known_sites i j a b v Hi Hj Ha Hb E) as [A B]. unfold has_sites in A, B. apply negb_true_iff in A, B. auto.
  Qed.
  Lemma shadowed_iff i j a b : existsb (shadow V is0 beads cross sites nk i a b) (seq 0 j) = true <-> shadowed i j a b.
  Proof.
    rewrite existsb_exists. unfold shadowed, shadow. split.
    - intros [k [Hk H]]. apply in_seq in Hk. exists k. apply andb_true_iff in H. destruct H as [H H3]. apply andb_true_iff in H. destruct H as [H1 H2].
      rewrite entry_cdict in H3. split; [lia|]. split; [exact H2|]. split; [change (key "epsilonHB" a b) with (pname "epsilonHB" (site_name sites a) (site_name sites b)); destruct (entry i k _); [discriminate|reflexivity]|].
      intros [-> ->]. rewrite !Nat.eqb_refl in H1. discriminate.
    - intros [k [Hk [H1 [H2 H3]]]]. exists k. split; [apply in_seq; lia|]. rewrite entry_cdict. change (pname "epsilonHB" (site_name sites a) (site_name sites b)) with (key "epsilonHB" a b). rewrite H2.
      unfold has_sites in H1. rewrite H1. destruct (Nat.eqb_spec i k), (Nat.eqb_spec a b); try reflexivity. exfalso. apply H3. auto.
  Qed.
  Notation skip' := (skip V is0 nk).
  Lemma skip_iff i j a b : skip' i j a b = false <-> has i a = true /\ ~ (i = j /\ a = b).
  Proof.
    unfold skip, has_sites. rewrite orb_false_iff, negb_true_iff. destruct (Nat.eqb_spec i j), (Nat.eqb_spec a b); cbn; intuition congruence.
  Qed.
  Notation nm' := (nm V is0 beads cross sites nk).
  Lemma taken_iff i j a b v : taken i j a b v <-> skip' i j a b = false /\ dget (cdict V beads cross i j) (nm' i a b j) = Some v.
  Proof.
    rewrite skip_iff, entry_cdict. unfold taken, nm. rewrite <- shadowed_iff. destruct (existsb _ _); unfold key, pname, site_name; intuition congruence.
  Qed.
  Lemma not_taken_iff i j a b : not_taken i j a b <-> skip' i j a b = true \/ dget (cdict V beads cross i j) (nm' i a b j) = None.
  Proof.
    unfold not_taken. split.
    - intros H. destruct (skip' i j a b) eqn:E; [left; reflexivity|right]. destruct (dget _ _) as [v|] eqn:E2; [|reflexivity]. exfalso. apply (H v). apply taken_iff. auto.
    - intros H v T. apply taken_iff in T. destruct T, H; congruence.
  Qed.

  Lemma self_values m1 : self_loop V is0 eps_same beads lib sites nk (amat0 V zero) = Ok m1 ->
    msym V m1 /\
    (forall i j a b, i < List.length beads -> a < List.length sites -> b < List.length sites ->
       eps V m1 i j a b = (if Nat.eqb i j then self_energy V zero is0 eps_same beads lib sites nk i a b else zero) /\
       Kk V m1 i j a b = (if Nat.eqb i j then self_length V zero is0 beads lib sites nk "K" i a b else zero) /\
       rc V m1 i j a b = (if Nat.eqb i j then self_length V zero is0 beads lib sites nk "rc" i a b else zero) /\
       rd V m1 i j a b = (if Nat.eqb i j then self_length V zero is0 beads lib sites nk "rd" i a b else zero)).
  Proof.
    intros E1. assert (S0 : msym V (amat0 V zero)) by (repeat split).
    pose proof (self_loop_sym _ _ _ _ _ _ _ _ _ S0 E1) as S1. split; [exact S1|].
    pose proof (self_loop_inv V zero is0 eps_same eps_mix K_mix r_mix beads lib sites nk beads_known m1 E1) as [I1 [I2 [I3 [I4 [F1 [F2 F3]]]]]].
    assert (GP : forall p i a b, given_at V beads lib sites p i (Nat.min a b) (Nat.max a b) = param V beads lib sites p i a b) by (intros; apply given_param).
    assert (VL : forall p M, self_entry V zero (triples V is0 beads sites nk) (wr_len V zero beads lib sites p) M ->
       forall i j a b, i < List.length beads -> a < List.length sites -> b < List.length sites ->
       M i j a b = if Nat.eqb i j then self_length V zero is0 beads lib sites nk p i a b else zero).
    { intros p M HM i' j' a' b' H1 H2 H3. apply (self_value V zero is0 eps_same beads sites nk _ _ i' j' a' b' (self_length V zero is0 beads lib sites nk p) H1 H2 H3 HM); unfold wr_len, self_length; rewrite ?GP.
      - intros ->. destruct (param V beads lib sites "epsilonHB" i' a' b'), (param V beads lib sites p i' a' b'); reflexivity.
      - intros ->. destruct (param V beads lib sites "epsilonHB" i' a' b'), (param V beads lib sites p i' a' b'); reflexivity. }
    intros i j a b Hi Ha Hb. split; [|split; [|split]]; [|apply (VL "K" _ I2); assumption|apply (VL "rc" _ I3); assumption|apply (VL "rd" _ I4); assumption].
    apply (self_value V zero is0 eps_same beads sites nk _ _ i j a b (self_energy V zero is0 eps_same beads lib sites nk) Hi Ha Hb I1); unfold wr_eps, self_energy; rewrite ?GP.
    - intros ->. destruct (param V beads lib sites "epsilonHB" i a b); [|reflexivity].
      destruct (Nat.eqb_spec a b) as [->|N]; [rewrite Nat.min_id, Nat.max_id, Nat.eqb_refl; reflexivity|].
      destruct (Nat.eqb_spec (Nat.min a b) (Nat.max a b)); [lia|reflexivity].
    - intros ->. destruct (param V beads lib sites "epsilonHB" i a b); reflexivity.
  Qed.
  (** the final entries as two visits *)
  Lemma two_visits m : calc cross sites nk = Ok m -> exists m1,
    self_loop V is0 eps_same beads lib sites nk (amat0 V zero) = Ok m1 /\ cinv V is0 eps_mix K_mix r_mix beads lib cross sites nk m1 (allq beads sites) m.
  Proof.
    intros H. unfold calc_assoc_matrices in H. destruct (self_loop V is0 eps_same beads lib sites nk (amat0 V zero)) as [m1|] eqn:E1; [|discriminate]. exists m1. split; [reflexivity|].
    cbn [rbind] in H. destruct (self_values m1 E1) as [S1 _].
    destruct (cross_loop_cinv V is0 eps_mix K_mix r_mix beads lib cross sites nk named' beads_known m1 S1) as [m2 [E2 J]].
    rewrite E2 in H. cbn [rbind] in H. assert (m2 = m) by (destruct (fK V m2 && frc V m2)%bool; [discriminate|]; destruct (frd V m2 && negb (frc V m2))%bool; [discriminate|congruence]).
    subst m2. exact J.
  Qed.
  Definition both_have (i j a b : nat) : bool := negb (Nat.eqb i j && Nat.eqb a b) && has i a && has j b.
  Lemma both_have_sym i j a b : both_have i j a b = both_have j i b a.
  Proof. unfold both_have. rewrite (Nat.eqb_sym i j), (Nat.eqb_sym a b), <- !andb_assoc, (andb_comm (has i a)). reflexivity. Qed.
  Lemma act_taken (M0 : mat4 V) i j a b v x : taken i j a b v -> e_act V is0 eps_mix beads lib cross sites nk M0 i j a b x = v.
  Proof. intros T. apply taken_iff in T. destruct T as [T1 T2]. unfold e_act. rewrite T1, T2. reflexivity. Qed.
  Lemma visit_cases (X : Type) (y n : X) i j a b : not_taken i j a b ->
    (if skip' i j a b then n else match dget (cdict V beads cross i j) (nm' i a b j) with Some _ => y | None => if is0 (nk j b) then n else y end) = if both_have i j a b then y else n.
  Proof.
    intros N. apply not_taken_iff in N. unfold both_have. unfold skip in *. unfold has_sites. destruct (is0 (nk i a)); cbn [orb negb]; [rewrite andb_false_r; reflexivity|].
    destruct (Nat.eqb i j && Nat.eqb a b)%bool; cbn [andb negb]; [reflexivity|]. destruct N as [N|N]; [discriminate|]. rewrite N. destruct (is0 (nk j b)); reflexivity.
  Qed.
  Lemma act_not_taken M0 i j a b x : not_taken i j a b ->
    e_act V is0 eps_mix beads lib cross sites nk M0 i j a b x = if both_have i j a b then fill V is0 (mix_eps_val V eps_mix beads lib sites M0 i j a b) x else x.
  Proof.
    intros N. rewrite <- (visit_cases _ _ _ i j a b N). unfold e_act. apply not_taken_iff in N. destruct (skip' i j a b); [reflexivity|].
    destruct N as [N|N]; [discriminate|]. rewrite N. reflexivity.
  Qed.
  Lemma len_given p f M0 i j a b v w x : taken i j a b v -> entry i j (key p a b) = Some w -> l_act V is0 beads cross sites nk p true f M0 i j a b x = w.
  Proof.
    intros T E. apply taken_iff in T. destruct T as [T1 T2]. unfold l_act. rewrite T1, T2. rewrite entry_cdict. change (pname p (site_name sites a) (site_name sites b)) with (key p a b). rewrite E. reflexivity.
  Qed.
  Lemma len_not_given p f M0 i j a b v x : taken i j a b v -> entry i j (key p a b) = None -> l_act V is0 beads cross sites nk p true f M0 i j a b x = x.
  Proof.
    intros T E. apply taken_iff in T. destruct T as [T1 T2]. unfold l_act. rewrite T1, T2. rewrite entry_cdict. change (pname p (site_name sites a) (site_name sites b)) with (key p a b). rewrite E. reflexivity.
  Qed.
  Lemma len_not_taken p f M0 i j a b x : not_taken i j a b ->
    l_act V is0 beads cross sites nk p true f M0 i j a b x = if both_have i j a b then fill V is0 (Some (f (M0 i i a a) (M0 j j b b))) x else x.
  Proof.
    intros N. rewrite <- (visit_cases _ _ _ i j a b N). unfold l_act. apply not_taken_iff in N. destruct (skip' i j a b); [reflexivity|].
    destruct N as [N|N]; [discriminate|]. rewrite N. reflexivity.
  Qed.
  Lemma fill_twice w x : fill V is0 w (fill V is0 w x) = fill V is0 w x.
  Proof. unfold fill. destruct (is0 x) eqn:E; [|rewrite E; reflexivity]. destruct w as [w|]; [destruct (is0 w); reflexivity|rewrite E; reflexivity]. Qed.
  Lemma fill_set w v : is0 v = false -> fill V is0 w v = v.
  Proof. intros H. unfold fill. rewrite H. reflexivity. Qed.

  (** The matrices of bonding parameters in the output, with their mixing rules *)
  Definition lengths (m : amat V) : list (string * mat4 V * (V -> V -> V)) :=
    (if fK V m then [("K", Kk V m, K_mix)] else []) ++ (if frc V m then [("rc", rc V m, r_mix)] else []) ++ (if frd V m then [("rd", rd V m, r_mix)] else []).
  Lemma lengths_inv m p M f : calc cross sites nk = Ok m -> In (p, M, f) (lengths m) ->
    (forall x y, f x y = f y x) /\ exists M0, inv V (l_act V is0 beads cross sites nk p true f M0) M0 (allq beads sites) M /\
      forall i j a b, i < List.length beads -> a < List.length sites -> b < List.length sites -> M0 i j a b = (if Nat.eqb i j then self_length V zero is0 beads lib sites nk p i a b else zero).
  Proof.
    intros H HI. destruct (two_visits m H) as [m1 [E1 [J1 [J2 [J3 [J4 [G1 [G2 G3]]]]]]]]. destruct (self_values m1 E1) as [_ SV]. unfold lengths in HI.
    apply in_app_iff in HI. destruct HI as [HI|HI]; [|apply in_app_iff in HI; destruct HI as [HI|HI]].
    - destruct (fK V m); [|destruct HI]. destruct HI as [HI|[]]. injection HI as <- <- <-. split; [exact K_mix_comm|]. exists (Kk V m1). rewrite <- G1 in J2. split; [exact J2|]. intros. apply SV; assumption.
    - destruct (frc V m); [|destruct HI]. destruct HI as [HI|[]]. injection HI as <- <- <-. split; [exact r_mix_comm|]. exists (rc V m1). rewrite <- G2 in J3. split; [exact J3|]. intros. apply SV; assumption.
    - destruct (frd V m); [|destruct HI]. destruct HI as [HI|[]]. injection HI as <- <- <-. split; [exact r_mix_comm|]. exists (rd V m1). rewrite <- G3 in J4. split; [exact J4|]. intros. apply SV; assumption.
  Qed.
  Lemma first_cases i j a b : ~ (i = j /\ a = b) -> first i j a b \/ first j i b a.
  Proof. unfold first. lia. Qed.
  (** An energy of the cross library that is read is the entry of its pair, unless the
      library also gives one for the pair in the other order. *)
Theorem C74_energy_used : forall m i j a b v, calc cross sites nk = Ok m ->
    i < List.length beads -> j < List.length beads -> a < List.length sites -> b < List.length sites ->
    taken i j a b v -> is0 v = false -> not_taken j i b a -> eps V m i j a b = v /\ eps V m j i b a = v.
  Proof.
    intros m i j a b v H Hi Hj Ha Hb T Hv N. destruct (two_visits m H) as [m1 [E1 [J1 _]]].
    assert (S : eps V m j i b a = eps V m i j a b) by apply (proj1 J1). rewrite S. assert (G : eps V m i j a b = v); [|auto].
    assert (E := inv_end V beads sites _ _ _ J1). destruct (first_cases i j a b) as [F|F]; [apply T| |].
    - rewrite (E i j a b Hi Hj Ha Hb F). rewrite (act_taken _ i j a b v _ T). rewrite act_not_taken by exact N. rewrite fill_set by exact Hv. destruct (both_have _ _ _ _); reflexivity.
    - rewrite <- S. rewrite (E j i b a Hj Hi Hb Ha F). apply act_taken. exact T.
  Qed.
  (** With energies in both orders, the one under the bead that comes later in the
      mixture (for two sites of one bead, the one naming the later site first) is used. *)
Theorem C74_later_wins : forall m i j a b v w, calc cross sites nk = Ok m ->
    i < List.length beads -> j < List.length beads -> a < List.length sites -> b < List.length sites ->
    (i < j \/ (i = j /\ a < b)) -> taken i j a b v -> taken j i b a w -> eps V m i j a b = w /\ eps V m j i b a = w.
  Proof.
    intros m i j a b v w H Hi Hj Ha Hb F T T'. destruct (two_visits m H) as [m1 [E1 [J1 _]]].
    assert (S : eps V m j i b a = eps V m i j a b) by apply (proj1 J1). rewrite S. assert (G : eps V m i j a b = w); [|auto].
    rewrite (inv_end V beads sites _ _ _ J1 i j a b Hi Hj Ha Hb F). apply act_taken. exact T'.
  Qed.
  (** Without an energy that is read, the entry is the one of an empty cross library. *)
Theorem C74_energy_not_used : forall m i j a b, calc cross sites nk = Ok m ->
    i < List.length beads -> j < List.length beads -> a < List.length sites -> b < List.length sites ->
    not_taken i j a b -> not_taken j i b a -> eps V m i j a b = energy i j a b.
  Proof.
    intros m i j a b H Hi Hj Ha Hb N N'. destruct (two_visits m H) as [m1 [E1 [J1 _]]]. destruct (self_values m1 E1) as [SM SV].
    assert (P : forall i a, dget (bead_dict V beads lib i) (pname "epsilonHB" (site_name sites a) (site_name sites a)) = param V beads lib sites "epsilonHB" i a a).
    { intros i' a'. unfold bead_dict, param, site_name, pname, bead_name. rewrite Nat.min_id, Nat.max_id. destruct (dget lib (nth i' beads "")) as [d|]; [|reflexivity].
      destruct (dget d ("epsilonHB" ++ "-" ++ nth a' sites "" ++ "-" ++ nth a' sites "")); reflexivity. }
    assert (W : eps V m i j a b = if both_have i j a b then fill V is0 (mix_eps_val V eps_mix beads lib sites (eps V m1) i j a b) (eps V m1 i j a b) else eps V m1 i j a b).
    { assert (MS : forall i j a b, mix_eps_val V eps_mix beads lib sites (eps V m1) i j a b = mix_eps_val V eps_mix beads lib sites (eps V m1) j i b a) by (intros; apply mix_eps_val_sym; exact eps_mix_comm).
      assert (SS : forall i j a b, eps V m1 i j a b = eps V m1 j i b a) by apply SM.
      assert (S : eps V m j i b a = eps V m i j a b) by apply (proj1 J1).
      destruct (Nat.eq_dec i j) as [e|ne]; [destruct (Nat.eq_dec a b) as [e'|ne']|].
      - subst j b. unfold both_have. rewrite !Nat.eqb_refl. cbn [andb negb]. apply (proj1 (proj2 J1)).
      - destruct (first_cases i j a b) as [F|F]; [tauto| |].
        + rewrite (inv_end V beads sites _ _ _ J1 i j a b Hi Hj Ha Hb F). rewrite !act_not_taken by assumption. rewrite (both_have_sym j i b a), (MS j i b a). destruct (both_have i j a b); [apply fill_twice|reflexivity].
        + rewrite <- S. rewrite (inv_end V beads sites _ _ _ J1 j i b a Hj Hi Hb Ha F). rewrite !act_not_taken by assumption. rewrite (both_have_sym j i b a), (MS j i b a), (SS j i b a). destruct (both_have i j a b); [apply fill_twice|reflexivity].
      - destruct (first_cases i j a b) as [F|F]; [tauto| |].
        + rewrite (inv_end V beads sites _ _ _ J1 i j a b Hi Hj Ha Hb F). rewrite !act_not_taken by assumption. rewrite (both_have_sym j i b a), (MS j i b a). destruct (both_have i j a b); [apply fill_twice|reflexivity].
        + rewrite <- S. rewrite (inv_end V beads sites _ _ _ J1 j i b a Hj Hi Hb Ha F). rewrite !act_not_taken by assumption. rewrite (both_have_sym j i b a), (MS j i b a), (SS j i b a). destruct (both_have i j a b); [apply fill_twice|reflexivity]. }
    rewrite W. unfold mix_eps_val, expected_energy, or_mixed. rewrite !P. rewrite !(fun i j a b A B C => proj1 (SV i j a b A B C)) by assumption. rewrite !Nat.eqb_refl.
    unfold both_have, fill. rewrite <- !andb_assoc. destruct (param V beads lib sites "epsilonHB" i a a), (param V beads lib sites "epsilonHB" j b b);
      destruct (negb (Nat.eqb i j && Nat.eqb a b) && (has i a && has j b))%bool; rewrite ?andb_true_r, ?andb_false_r; try reflexivity;
      match goal with |- (if ?x then _ else _) = _ => destruct x; reflexivity end.
  Qed.
  (** Bonding volumes, cutoff distances and site positions: the value given with an
      energy that is read; otherwise what an empty cross library would give, except
      that nothing is mixed when energies are read in both orders. *)
Theorem C74_lengths : forall m p M f i j a b, calc cross sites nk = Ok m -> In (p, M, f) (lengths m) ->
    i < List.length beads -> j < List.length beads -> a < List.length sites -> b < List.length sites ->
    (forall v w, taken i j a b v -> entry i j (key p a b) = Some w -> is0 w = false -> not_taken j i b a -> M i j a b = w /\ M j i b a = w) /\
    (forall v, taken i j a b v -> entry i j (key p a b) = None -> not_taken j i b a -> M i j a b = length_of p f i j a b) /\
    (not_taken i j a b -> not_taken j i b a -> M i j a b = length_of p f i j a b) /\
    (forall v v' w, taken i j a b v -> taken j i b a v' -> (i < j \/ (i = j /\ a < b)) ->
       entry j i (key p b a) = Some w -> M i j a b = w /\ M j i b a = w) /\
    (forall v v' w, taken i j a b v -> taken j i b a v' -> entry i j (key p a b) = Some w -> entry j i (key p b a) = None ->
       M i j a b = w /\ M j i b a = w) /\
    (forall v v', taken i j a b v -> taken j i b a v' -> entry i j (key p a b) = None -> entry j i (key p b a) = None ->
       M i j a b = if Nat.eqb i j then self_length V zero is0 beads lib sites nk p i a b else zero).
  Proof.
    intros m p M f i j a b H HI Hi Hj Ha Hb. destruct (lengths_inv m p M f H HI) as [Cf [M0 [J SV]]]. pose proof (proj1 J) as SM.
    assert (E1 := inv_end V beads sites _ _ _ J i j a b Hi Hj Ha Hb). assert (E2 := inv_end V beads sites _ _ _ J j i b a Hj Hi Hb Ha).
    assert (S : M j i b a = M i j a b) by apply SM.
    assert (S0 : ~ (i = j /\ a = b) -> M0 j i b a = M0 i j a b).
    { intros _. rewrite !SV by assumption. rewrite (Nat.eqb_sym j i). destruct (Nat.eqb_spec i j) as [<-|]; [|reflexivity]. unfold self_length, param.
      rewrite (Nat.min_comm b a), (Nat.max_comm b a), (andb_comm (has_sites V is0 nk i b)). reflexivity. }
    assert (L : (if both_have i j a b then fill V is0 (Some (f (M0 i i a a) (M0 j j b b))) (M0 i j a b) else M0 i j a b) = length_of p f i j a b).
    { rewrite !SV by assumption. rewrite !Nat.eqb_refl. unfold expected_length, or_mixed, both_have, fill. rewrite <- !andb_assoc.
      destruct (negb (Nat.eqb i j && Nat.eqb a b) && (has i a && has j b))%bool; rewrite ?andb_true_r, ?andb_false_r; try reflexivity. }
    assert (L' : (if both_have j i b a then fill V is0 (Some (f (M0 j j b b) (M0 i i a a))) (M0 i j a b) else M0 i j a b) = length_of p f i j a b).
    { rewrite <- L, (both_have_sym j i b a), (Cf (M0 j j b b)). reflexivity. }
    assert (TT : forall x, (if both_have j i b a then fill V is0 (Some (f (M0 j j b b) (M0 i i a a))) (if both_have i j a b then fill V is0 (Some (f (M0 i i a a) (M0 j j b b))) x else x) else (if both_have i j a b then fill V is0 (Some (f (M0 i i a a) (M0 j j b b))) x else x))
        = if both_have i j a b then fill V is0 (Some (f (M0 i i a a) (M0 j j b b))) x else x).
    { intros x. rewrite (both_have_sym j i b a), (Cf (M0 j j b b)). destruct (both_have i j a b); [apply fill_twice|reflexivity]. }
    repeat split.
    1, 2: rewrite ?S; destruct (first_cases i j a b) as [F|F]; [apply H0|rewrite (E1 F)|rewrite <- S, (E2 F)].
    - rewrite (len_given _ _ _ i j a b v w _ H0 H1). rewrite len_not_taken by exact H3. rewrite fill_set by exact H2. destruct (both_have j i b a); reflexivity.
    - apply (len_given _ _ _ i j a b v w _ H0 H1).
    - rewrite (len_given _ _ _ i j a b v w _ H0 H1). rewrite len_not_taken by exact H3. rewrite fill_set by exact H2. destruct (both_have j i b a); reflexivity.
    - apply (len_given _ _ _ i j a b v w _ H0 H1).
    - intros v T E N. destruct (first_cases i j a b) as [F|F]; [apply T|rewrite (E1 F)|rewrite <- S, (E2 F)].
      + rewrite (len_not_given _ _ _ i j a b v _ T E). rewrite len_not_taken by exact N. exact L'.
      + rewrite (len_not_given _ _ _ i j a b v _ T E). rewrite len_not_taken by exact N. rewrite S0 by apply T. exact L'.
    - intros N N'. destruct (Nat.eq_dec i j) as [e|ne]; [destruct (Nat.eq_dec a b) as [e'|ne']|].
      + subst j b. rewrite (proj1 (proj2 J)). rewrite SV by assumption. rewrite Nat.eqb_refl. unfold expected_length, or_mixed. rewrite !Nat.eqb_refl. cbn [andb negb]. rewrite andb_false_r. reflexivity.
      + destruct (first_cases i j a b) as [F|F]; [tauto|rewrite (E1 F)|rewrite <- S, (E2 F)]; rewrite !len_not_taken by assumption; rewrite <- L.
        * rewrite TT. reflexivity.
        * rewrite S0 by tauto. rewrite (both_have_sym j i b a), (Cf (M0 j j b b)). destruct (both_have i j a b); [apply fill_twice|reflexivity].
      + destruct (first_cases i j a b) as [F|F]; [tauto|rewrite (E1 F)|rewrite <- S, (E2 F)]; rewrite !len_not_taken by assumption; rewrite <- L.
        * rewrite TT. reflexivity.
        * rewrite S0 by tauto. rewrite (both_have_sym j i b a), (Cf (M0 j j b b)). destruct (both_have i j a b); [apply fill_twice|reflexivity].
    - rewrite (E1 H2). apply (len_given _ _ _ j i b a v' w _ H1 H3).
    - rewrite S, (E1 H2). apply (len_given _ _ _ j i b a v' w _ H1 H3).
    - destruct (first_cases i j a b) as [F|F]; [apply H0|rewrite (E1 F)|rewrite <- S, (E2 F)].
      + rewrite (len_not_given _ _ _ j i b a v' _ H1 H3). apply (len_given _ _ _ i j a b v w _ H0 H2).
      + apply (len_given _ _ _ i j a b v w _ H0 H2).
    - rewrite S. destruct (first_cases i j a b) as [F|F]; [apply H0|rewrite (E1 F)|rewrite <- S, (E2 F)].
      + rewrite (len_not_given _ _ _ j i b a v' _ H1 H3). apply (len_given _ _ _ i j a b v w _ H0 H2).
      + apply (len_given _ _ _ i j a b v w _ H0 H2).
    - intros v v' T T' E E'. rewrite <- (SV i j a b) by assumption. destruct (first_cases i j a b) as [F|F]; [apply T|rewrite (E1 F)|rewrite <- S, (E2 F)].
      + rewrite (len_not_given _ _ _ j i b a v' _ T' E'). apply (len_not_given _ _ _ i j a b v _ T E).
      + rewrite (len_not_given _ _ _ i j a b v _ T E). rewrite (len_not_given _ _ _ j i b a v' _ T' E'). apply S0. apply T.
  Qed.
  (** Such a library makes nothing fail that would not fail without it. *)
Theorem C74_same_refusals : forall e, calc cross sites nk = Err e <-> calc [] sites nk = Err e.
  Proof.
    intros e. unfold calc_assoc_matrices. destruct (self_loop V is0 eps_same beads lib sites nk (amat0 V zero)) as [m1|e1] eqn:E1; [|cbn; tauto]. cbn [rbind].
    destruct (self_values m1 E1) as [S1 _].
    destruct (cross_loop_cinv V is0 eps_mix K_mix r_mix beads lib cross sites nk named' beads_known m1 S1) as [m2 [E2 [_ [_ [_ [_ [G1 [G2 G3]]]]]]]].
    destruct (cross_loop_inv V zero is0 eps_same eps_mix K_mix r_mix beads lib sites nk beads_known eps_mix_comm K_mix_comm r_mix_comm m1 S1) as [m3 [E3 [_ [_ [_ [_ [_ [K1 [K2 K3]]]]]]]]].
    rewrite E2, E3. cbn [rbind]. rewrite G1, G2, G3, K1, K2, K3. destruct (fK V m1), (frc V m1), (frd V m1); cbn; intuition congruence.
  Qed.
  (** The property as stated, where it holds: no earlier bead has the second site
      without an energy of its own, and the library has nothing under the two beads in
      the other order. *)
Theorem C74_cross_energy_partial : forall m i j a b v, calc cross sites nk = Ok m ->
    i < List.length beads -> j < List.length beads -> a < List.length sites -> b < List.length sites ->
    ~ (i = j /\ a = b) -> entry i j (key "epsilonHB" a b) = Some v -> is0 v = false ->
    (forall k, k < j -> has k b = true -> entry i k (key "epsilonHB" a b) <> None \/ (k = i /\ a = b)) ->
    (forall s, entry j i s = None) ->
    eps V m i j a b = v /\ eps V m j i b a = v.
  Proof.
    intros m i j a b v H Hi Hj Ha Hb D E Hv NS NR. apply C74_energy_used; auto.
    - split; [apply (known_sites i j a b v); assumption|]. split; [exact D|]. left. split; [|exact E]. intros [k [Hk [Hh [Hn Hd]]]]. destruct (NS k Hk Hh) as [X|X]; [congruence|tauto].
    - intros w [_ [_ [[_ X]|[_ X]]]]; rewrite NR in X; discriminate.
  Qed.
  (** Where it does not: an energy given only under the names in this order has no
      effect at all once an earlier bead has the second site and no energy of its own. *)
Theorem C74_dropped_refuted : forall m i j a b v k, calc cross sites nk = Ok m ->
    i < List.length beads -> j < List.length beads -> a < List.length sites -> b < List.length sites ->
    entry i j (key "epsilonHB" a b) = Some v ->
    k < j -> has k b = true -> entry i k (key "epsilonHB" a b) = None -> ~ (k = i /\ a = b) ->
    entry i j (key "epsilonHB" b b) = None -> (forall s, entry j i s = None) -> eps V m i j a b = energy i j a b.
  Proof.
    intros m i j a b v k H Hi Hj Ha Hb E Hk Hh Hn Hd NB NR. apply C74_energy_not_used; auto.
    - intros w [_ [_ [[X _]|[_ X]]]]; [|congruence]. apply X. exists k. auto.
    - intros w [_ [_ [[_ X]|[_ X]]]]; rewrite NR in X; discriminate.
  Qed.
End C74.
Print Assumptions C74_energy_used. Print Assumptions C74_later_wins. Print Assumptions C74_energy_not_used. Print Assumptions C74_lengths.
Print Assumptions C74_same_refusals. Print Assumptions C74_cross_energy_partial. Print Assumptions C74_dropped_refuted.

(** A library that names sites the beads do not have. *)
Section Absent.
  Variables (V : Type) (zero : V) (is0 : V -> bool) (eps_same : V -> V) (eps_mix : V -> V -> V -> V -> V) (K_mix r_mix : V -> V -> V)
            (beads : list string) (lib : library V) (cross : dict (library V)) (sites : list string) (nk : nat -> nat -> V).
  Notation has := (has_sites V is0 nk).
  Notation said := (entry V beads cross).
  Notation name_of := (key sites "epsilonHB").
  Notation calc := (calc_assoc_matrices V zero is0 eps_same eps_mix K_mix r_mix beads lib cross sites nk).
  Notation turn := (cross_bead2 V is0 eps_mix K_mix r_mix beads lib cross sites nk).

  Lemma foldM_reaches {A B} (f : B -> A -> result B) l1 x l2 acc out : foldM f acc (l1 ++ x :: l2)%list = Ok out ->
    exists st st', foldM f acc l1 = Ok st /\ f st x = Ok st'.
  Proof.
    revert acc. induction l1 as [|y ys IH]; intros acc; cbn [foldM List.app].
    - destruct (f acc x) as [st'|] eqn:E; [|discriminate]. intros _. exists acc, st'. split; [reflexivity|exact E].
    - destruct (f acc y) as [s|]; [|discriminate]. cbn. apply IH.
  Qed.
  Lemma seq_at n i : i < n -> seq 0 n = (seq 0 i ++ i :: seq (S i) (n - S i))%list.
  Proof. intros H. replace n with (i + S (n - S i)) at 1 by lia. rewrite seq_app. reflexivity. Qed.
  Lemma turn_cases i Kn rcn rdn m a b nm j : has i a = true ->
    (said i j nm <> None -> ~ (i = j /\ a = b) -> has j b = true) ->
    forall st, turn i Kn rcn rdn (CState V m a b nm) j = Ok st ->
    c_a V st = a /\ c_b V st = b /\ (c_name V st = nm \/ c_name V st = name_of b b /\ has j b = true /\ said i j nm = None /\ ~ (i = j /\ a = b)).
  Proof.
    intros Ha Hs st. unfold cross_bead2. cbn [c_a c_b c_name c_m]. destruct (Nat.eqb i j && Nat.eqb a b)%bool eqn:E.
    - intros H. injection H as <-. cbn. auto.
    - assert (D : ~ (i = j /\ a = b)) by (intros [-> ->]; rewrite !Nat.eqb_refl in E; discriminate).
      unfold entry in Hs |- *. unfold bead_name. destruct (dget cross (nth i beads "")) as [l|]; [destruct (dget l (nth j beads "")) as [d|]; [destruct (dget d nm) as [ve|]|]|].
      + unfold has_sites in *. assert (Hj := Hs ltac:(discriminate) D). apply negb_true_iff in Ha, Hj. rewrite Ha, Hj. cbn. intros H. injection H as <-. cbn. auto.
      + destruct (is0 (nk j b)) eqn:Z; [intros H; injection H as <-; cbn; auto|]. destruct (mix _ _ _ _ _ _ _ _ _ _ _ _) as [m'|]; [|discriminate]. cbn. intros H. injection H as <-. cbn. unfold has_sites. rewrite Z. auto 8.
      + destruct (is0 (nk j b)) eqn:Z; [intros H; injection H as <-; cbn; auto|]. destruct (mix _ _ _ _ _ _ _ _ _ _ _ _) as [m'|]; [|discriminate]. cbn. intros H. injection H as <-. cbn. unfold has_sites. rewrite Z. auto 8.
      + destruct (is0 (nk j b)) eqn:Z; [intros H; injection H as <-; cbn; auto|]. destruct (mix _ _ _ _ _ _ _ _ _ _ _ _) as [m'|]; [|discriminate]. cbn. intros H. injection H as <-. cbn. unfold has_sites. rewrite Z. auto 8.
  Qed.
  (** An energy for a site the second bead does not have, and that does not fit the other way round either, is refused, if it is
      the first such energy of the bead and is not hidden by an earlier bead (C74_dropped_refuted). *)
Theorem C74_absent_refused : forall i j a b v,
    i < List.length beads -> j < List.length beads -> a < List.length sites -> b < List.length sites ->
    has i a = true -> has j b = false -> has i b = false \/ has j a = false ->
    said i j (name_of a b) = Some v ->
    (forall b' j', b' < b \/ (b' = b /\ j' < j) -> j' < List.length beads -> said i j' (name_of a b') <> None \/ said i j' (name_of b' b') <> None -> has j' b' = true) ->
    ~ shadowed V is0 beads cross sites nk i j a b ->
    forall m, calc <> Ok m.
  Proof.
    intros i j a b v Hi Hj Ha Hb Pa Pb Pc Hv First NS m H. unfold calc_assoc_matrices in H.
    destruct (self_loop V is0 eps_same beads lib sites nk (amat0 V zero)) as [m1|]; [|discriminate]. cbn [rbind] in H.
    destruct (cross_loop V is0 eps_mix K_mix r_mix beads lib cross sites nk m1) as [m2|] eqn:E; [|discriminate]. clear H.
    unfold cross_loop in E. unfold nbeads in E. rewrite (seq_at _ i Hi) in E. apply foldM_reaches in E. destruct E as (mi & mi' & _ & E).
    unfold cross_bead1 in E. unfold nsites in E. rewrite (seq_at _ a Ha) in E. apply foldM_reaches in E. destruct E as (ma & ma' & _ & E).
    assert (Za : is0 (nk i a) = false) by (unfold has_sites in Pa; apply negb_true_iff; exact Pa). rewrite Za in E.
    destruct (foldM (cross_site2 V is0 eps_mix K_mix r_mix beads lib cross sites nk i a) (ma, a) _) as [r|] eqn:Er; [|discriminate]. clear E.
    rewrite <- (seq_at _ a Ha) in Er. rewrite (seq_at _ b Hb) in Er. apply foldM_reaches in Er. destruct Er as (st & st' & E1 & E2).
    assert (A : snd st = a).
    { refine (foldM_inv' (fun s : amat V * nat => snd s = a) _ (seq 0 b) (ma, a) st eq_refl _ E1).
      intros [m0 a0] b' s' Hb' Qa Es. cbn in Qa. subst a0. apply in_seq in Hb'. unfold cross_site2 in Es. cbn [fst snd] in Es.
      destruct (foldM (turn i _ _ _) (CState V m0 a b' _) _) as [r'|] eqn:E'; [|discriminate]. cbn in Es. injection Es as <-. cbn [snd].
      refine (proj1 (foldM_inv' (fun c : cstate V => c_a V c = a /\ c_b V c = b' /\ (c_name V c = name_of a b' \/ c_name V c = name_of b' b')) _ (seq 0 (nbeads beads)) _ r' _ _ E')).
      - cbn. auto.
      - intros [mm aa bb nn] j' c' Hj' (Q1 & Q2 & Q3) Ec. cbn in Q1, Q2, Q3. subst aa bb. apply in_seq in Hj'. unfold nbeads in Hj'.
        assert (N : said i j' nn <> None -> ~ (i = j' /\ a = b') -> has j' b' = true).
        { intros N _. apply (First b' j'); [left; lia|lia|]. destruct Q3 as [->| ->]; auto. }
        destruct (turn_cases i _ _ _ mm a b' nn j' Pa N _ Ec) as (R1 & R2 & R3).
        split; [exact R1|]. split; [exact R2|]. destruct R3 as [->|[-> _]]; auto. }
    unfold cross_site2 in E2. rewrite A in E2. unfold nbeads in E2. rewrite (seq_at _ j Hj) in E2.
    match type of E2 with (let* r := ?X in _) = _ => destruct X as [r'|] eqn:E3; [|discriminate] end. clear E2.
    apply foldM_reaches in E3. destruct E3 as (c & c' & E3 & E4).
    assert (B : c_a V c = a /\ c_b V c = b /\ c_name V c = name_of a b).
    { refine (foldM_inv' (fun c : cstate V => c_a V c = a /\ c_b V c = b /\ c_name V c = name_of a b) _ (seq 0 j) _ c _ _ E3).
      - cbn. auto.
      - intros [mm aa bb nn] j' d Hj' (Q1 & Q2 & Q3) Ec. cbn in Q1, Q2, Q3. subst aa bb nn. apply in_seq in Hj'.
        assert (N : said i j' (name_of a b) <> None -> ~ (i = j' /\ a = b) -> has j' b = true).
        { intros N _. apply (First b j'); [right; lia|lia|auto]. }
        destruct (turn_cases i _ _ _ mm a b (name_of a b) j' Pa N _ Ec) as (R1 & R2 & R3).
        split; [exact R1|]. split; [exact R2|]. destruct R3 as [R3|(_ & R4 & R5 & R6)]; [exact R3|]. exfalso. apply NS. exists j'. split; [lia|]. split; [exact R4|]. split; [exact R5|]. intros [-> ->]. apply R6. auto. }
    destruct c as [mm aa bb nn]. cbn [c_a c_b c_name] in B. destruct B as (-> & -> & ->). unfold cross_bead2 in E4. cbn [c_a c_b c_name c_m] in E4.
    destruct (Nat.eqb i j && Nat.eqb a b)%bool eqn:Eq.
    { apply andb_true_iff in Eq. destruct Eq as [Q1 Q2]. apply Nat.eqb_eq in Q1, Q2. subst. congruence. }
    unfold entry in Hv. unfold bead_name in E4. destruct (dget cross (nth i beads "")) as [l|]; [|discriminate]. destruct (dget l (nth j beads "")) as [d|]; [|discriminate].
    rewrite Hv in E4. unfold has_sites in Pb, Pc. apply negb_false_iff in Pb. rewrite Pb, orb_true_r in E4.
    assert (X : (is0 (nk i b) || is0 (nk j a))%bool = true) by (apply orb_true_iff; destruct Pc as [P|P]; apply negb_false_iff in P; auto).
    rewrite X in E4. discriminate.
  Qed.
End Absent.
Print Assumptions C74_absent_refused.

(** The bead P has the donor H only.  An energy of W and P for the sites H and e is that of site e of W with site H of P if W
    has both, and is refused if W has no e. *)
Definition counts_wp (e : Z) (i a : nat) : Z := match i, a with 0, 0 => 1%Z | 0, _ => e | _, 0 => 1%Z | _, _ => 0%Z end.
Definition wp_lib : library Z := [("W", [("epsilonHB-H-H", 100%Z); ("K-H-H", 8%Z)]); ("P", [("sigma", 3%Z)])].
Definition wp_cross : dict (library Z) := [("W", [("P", [("epsilonHB-H-e", 150%Z); ("K-H-e", 6%Z)])])].
Definition run_wp (e : Z) (cross : dict (library Z)) : result (amat Z) :=
  calc_assoc_matrices Z 0%Z (Z.eqb 0) z_same z_mix z_mean z_mean ["W"; "P"] wp_lib cross ["H"; "e"] (counts_wp e).
Example C74_exchanged_sites : match run_wp 1 [("W", [("W", [("epsilonHB-H-e", 100%Z)]); ("P", [("epsilonHB-H-e", 150%Z); ("K-H-e", 6%Z)])])] with
  | Ok m => eps Z m 0 1 1 0 = 150%Z /\ eps Z m 1 0 0 1 = 150%Z /\ Kk Z m 0 1 1 0 = 6%Z /\ eps Z m 0 1 0 1 = 0%Z
  | Err _ => False end.
Proof. vm_compute. auto. Qed.
Example C74_absent_nonvacuous : (forall m, run_wp 0 wp_cross <> Ok m) /\ exists m, run_wp 0 [] = Ok m.
Proof.
  split; [|eexists; vm_compute; reflexivity].
  apply (C74_absent_refused Z 0%Z (Z.eqb 0) z_same z_mix z_mean z_mean ["W"; "P"] wp_lib wp_cross ["H"; "e"] (counts_wp 0) 0 1 0 1 150%Z);
    try (cbn; lia); try reflexivity; try (left; reflexivity).
  - intros b' j' P Hj Q. cbn in Hj. destruct j' as [|[|j']]; [| |lia].
    + destruct Q as [Q|Q]; exfalso; apply Q; destruct b' as [|[|b']]; [reflexivity|reflexivity|lia|reflexivity|reflexivity|lia].
    + destruct b' as [|b']; [reflexivity|lia].
  - intros (k & Hk & X & _). assert (k = 0) by lia. subst k. discriminate.
Qed.

(** The two beads of C75 with both sites; the library names the later bead first. *)
Definition later_first : dict (library Z) := [("E", [("W", [("epsilonHB-H-e", 150%Z); ("K-H-e", 6%Z)])])].
Definition earlier_first : dict (library Z) := [("W", [("E", [("epsilonHB-H-e", 150%Z); ("K-H-e", 6%Z)])])].
Lemma two_sites_exist cross : sites_exist Z (Z.eqb 0) ["W"; "E"] cross ["H"; "e"] (fun _ _ => 1%Z).
Proof. intros i j a b v _ _ _ _ _. split; reflexivity. Qed.
Example C74_used_nonvacuous :
  (exists m, run_two later_first = Ok m) /\ entry Z ["W"; "E"] later_first 1 0 (key ["H"; "e"] "epsilonHB" 0 1) = Some 150%Z /\
  (forall s, entry Z ["W"; "E"] later_first 0 1 s = None) /\
  taken Z (Z.eqb 0) ["W"; "E"] later_first ["H"; "e"] (fun _ _ => 1%Z) 1 0 0 1 150%Z /\
  not_taken Z (Z.eqb 0) ["W"; "E"] later_first ["H"; "e"] (fun _ _ => 1%Z) 0 1 1 0.
Proof.
  split; [|split; [reflexivity|split; [reflexivity|split]]].
  - assert (H : match run_two later_first with Ok _ => True | Err _ => False end) by (vm_compute; exact I). destruct (run_two later_first) as [m|]; [exists m; reflexivity|destruct H].
  - split; [reflexivity|]. split; [lia|]. left. split; [|reflexivity]. intros [k [Hk _]]. lia.
  - intros v [_ [_ [[_ H]|[_ H]]]]; discriminate.
Qed.
Example C74_dropped_nonvacuous :
  (exists m, run_two earlier_first = Ok m) /\ entry Z ["W"; "E"] earlier_first 0 1 (key ["H"; "e"] "epsilonHB" 0 1) = Some 150%Z /\
  has_sites Z (Z.eqb 0) (fun _ _ => 1%Z) 0 1 = true /\ entry Z ["W"; "E"] earlier_first 0 0 (key ["H"; "e"] "epsilonHB" 0 1) = None /\
  entry Z ["W"; "E"] earlier_first 0 1 (key ["H"; "e"] "epsilonHB" 1 1) = None /\ (forall s, entry Z ["W"; "E"] earlier_first 1 0 s = None).
Proof.
  split; [|repeat split].
  assert (H : match run_two earlier_first with Ok _ => True | Err _ => False end) by (vm_compute; exact I). destruct (run_two earlier_first) as [m|]; [exists m; reflexivity|destruct H].
Qed.
(** Energies in both orders and no bonding volume: the volume of the pair stays zero
    although both beads have one. *)
Definition both_orders : dict (library Z) := [("W", [("E", [("epsilonHB-H-H", 150%Z)])]); ("E", [("W", [("epsilonHB-H-H", 170%Z)])])].
Definition two_donors : library Z := [("W", [("Nk-H", 1%Z); ("epsilonHB-H-H", 100%Z); ("K-H-H", 8%Z)]); ("E", [("Nk-H", 1%Z); ("epsilonHB-H-H", 200%Z); ("K-H-H", 4%Z)])].
Example C74_both_orders :
  match calc_assoc_matrices Z 0%Z (Z.eqb 0) z_same z_mix z_mean z_mean ["W"; "E"] two_donors both_orders ["H"] (fun _ _ => 1%Z) with
  | Ok m => eps Z m 0 1 0 0 = 170%Z /\ Kk Z m 0 1 0 0 = 0%Z /\ Kk Z m 0 0 0 0 = 8%Z /\ Kk Z m 1 1 0 0 = 4%Z
  | Err _ => False end.
Proof. vm_compute. auto. Qed.
