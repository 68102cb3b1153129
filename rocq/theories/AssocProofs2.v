(** Proofs about the association matrices. *)
From Verif Require Import Base BaseFacts EosToolboxModel AssocModel AssocProofs.
Open Scope string_scope.

Section Mat.
  Variable V : Type.
  Definition sym (M : mat4 V) : Prop := forall i j a b, M i j a b = M j i b a.
  Lemma pair_set_at (M : mat4 V) i j a b v i' j' a' b' :
    ((i', j', a', b') = (i, j, a, b) \/ (i', j', a', b') = (j, i, b, a)) -> pair_set V M i j a b v i' j' a' b' = v.
  Proof.
    intros [H|H]; injection H as -> -> -> ->; unfold pair_set, mat_set; rewrite !Nat.eqb_refl; cbn [andb]; [|reflexivity].
    destruct (Nat.eqb i j && Nat.eqb j i && Nat.eqb a b && Nat.eqb b a)%bool; reflexivity.
  Qed.
  Lemma pair_set_off (M : mat4 V) i j a b v i' j' a' b' :
    (i', j', a', b') <> (i, j, a, b) -> (i', j', a', b') <> (j, i, b, a) -> pair_set V M i j a b v i' j' a' b' = M i' j' a' b'.
  Proof.
    intros H1 H2. unfold pair_set, mat_set.
    destruct (Nat.eqb_spec i' j), (Nat.eqb_spec j' i), (Nat.eqb_spec a' b), (Nat.eqb_spec b' a); cbn [andb];
      try (exfalso; apply H2; congruence);
      destruct (Nat.eqb_spec i' i), (Nat.eqb_spec j' j), (Nat.eqb_spec a' a), (Nat.eqb_spec b' b); cbn [andb]; try reflexivity; exfalso; apply H1; congruence.
  Qed.
  Lemma quad_dec (p q : nat * nat * nat * nat) : {p = q} + {p <> q}.
  Proof. repeat decide equality. Qed.
  Lemma pair_set_sym M i j a b v : sym M -> sym (pair_set V M i j a b v).
  Proof.
    intros S i' j' a' b'.
    destruct (quad_dec (i', j', a', b') (i, j, a, b)) as [E|N1]; [injection E as -> -> -> ->; rewrite !pair_set_at; auto|].
    destruct (quad_dec (i', j', a', b') (j, i, b, a)) as [E|N2]; [injection E as -> -> -> ->; rewrite !pair_set_at; auto|].
    rewrite !pair_set_off; auto; intros E; injection E as -> -> -> ->; auto.
  Qed.
End Mat.

Section Loops.
  Variables (V : Type) (zero : V) (is0 : V -> bool) (eps_same : V -> V) (eps_mix : V -> V -> V -> V -> V) (K_mix r_mix : V -> V -> V)
            (beads : list string) (lib : library V) (cross : dict (library V)) (sites : list string) (nk : nat -> nat -> V).
  Notation amat := (amat V). Notation sym := (sym V).
  Definition msym (m : amat) : Prop := sym (eps _ m) /\ sym (Kk _ m) /\ sym (rc _ m) /\ sym (rd _ m).

  Ltac sy := repeat split; cbn [eps Kk rc rd]; try apply pair_set_sym; auto.
  Lemma self_pair_sym i d m a b s t m' : msym m -> self_pair V eps_same i d m a b s t = Ok m' -> msym m'.
  Proof.
    intros [S1 [S2 [S3 S4]]] H. unfold self_pair in H. cbv zeta in H.
    repeat match type of H with (if ?c then _ else _) = _ => destruct c; [discriminate|] end.
    destruct (dget d (either V d "epsilonHB" s t)) as [v|]; [|injection H as <-; sy].
    destruct (dget d (either V d "K" s t)); destruct (dget d (either V d "rc" s t)); destruct (dget d (either V d "rd" s t)); injection H as <-; sy.
  Qed.
  Lemma mix_sym m i j a b m' : msym m -> mix V is0 eps_mix K_mix r_mix beads lib sites m i j a b = Ok m' -> msym m'.
  Proof.
    intros S H. unfold mix in H. cbv zeta in H.
    match type of H with rbind ?e _ = _ => destruct e as [m1|] eqn:E; [|discriminate] end. cbn [rbind] in H.
    assert (S1 : msym m1).
    { destruct S as [S1 [S2 [S3 S4]]]. destruct (is0 (eps V m j i b a)); [|injection E as <-; sy].
      destruct (dfetch lib (bead_name beads i)) as [di|]; [|discriminate]. cbn [rbind] in E.
      destruct (dget di _) as [va|]; [|injection E as <-; sy].
      destruct (dfetch lib (bead_name beads j)) as [dj|]; [|discriminate]. cbn [rbind] in E.
      destruct (dget dj _) as [vb|]; injection E as <-; sy. }
    clear S E. destruct S1 as [S1 [S2 [S3 S4]]].
    destruct (fK V m1 && is0 (Kk V m1 i j a b))%bool; cbn [eps Kk rc rd fK frc frd] in H;
    destruct (frc V m1 && is0 (rc V m1 i j a b))%bool; cbn [eps Kk rc rd fK frc frd] in H;
    destruct (frd V m1 && is0 (rd V m1 i j a b))%bool; injection H as <-; sy.
  Qed.
  Lemma from_cross_sym m d i j a b ve Kn rcn rdn : msym m -> msym (from_cross V m d i j a b ve Kn rcn rdn).
  Proof.
    intros [S1 [S2 [S3 S4]]]. unfold from_cross. cbv zeta. cbn [fK].
    destruct (if fK V m then dget d Kn else None); cbn [frc];
    destruct (if frc V m then dget d rcn else None); cbn [frd];
    destruct (if frd V m then dget d rdn else None); sy.
  Qed.
  Lemma self_loop_sym m m' : msym m -> self_loop V is0 eps_same beads lib sites nk m = Ok m' -> msym m'.
  Proof.
    intros S H. unfold self_loop in H. refine (foldM_inv' msym _ _ _ _ S _ H). clear. intros m i m' _ S H.
    unfold self_bead in H. refine (foldM_inv' msym _ _ _ _ S _ H). clear. intros m a m' _ S H. cbv beta in H.
    destruct (is0 (nk i a)); [injection H as <-; exact S|]. refine (foldM_inv' msym _ _ _ _ S _ H). clear. intros m b m' _ S H. cbv beta in H.
    destruct (is0 (nk i b)); [injection H as <-; exact S|]. destruct (dfetch lib _) as [d|]; [|discriminate]. exact (self_pair_sym _ _ _ _ _ _ _ _ S H).
  Qed.
  Lemma cross_loop_sym m m' : msym m -> cross_loop V is0 eps_mix K_mix r_mix beads lib cross sites nk m = Ok m' -> msym m'.
  Proof.
    intros S H. unfold cross_loop in H. refine (foldM_inv' msym _ _ _ _ S _ H). clear. intros m i m' _ S H.
    unfold cross_bead1 in H. refine (foldM_inv' msym _ _ _ _ S _ H). clear. intros m a m' _ S H. cbv beta in H.
    destruct (is0 (nk i a)); [injection H as <-; exact S|].
    match type of H with rbind ?e _ = _ => destruct e as [r|] eqn:E; [|discriminate] end. injection H as <-.
    refine (foldM_inv' (fun st => msym (fst st)) _ _ _ _ _ _ E); [exact S|]. clear. intros st b st' _ S H. cbv beta in H.
    unfold cross_site2 in H. cbv zeta in H. match type of H with rbind ?e _ = _ => destruct e as [r|] eqn:E; [|discriminate] end. injection H as <-. cbn [fst].
    refine (foldM_inv' (fun st => msym (c_m _ st)) _ _ _ _ _ _ E); [exact S|]. clear. intros st j st' _ S H.
    unfold cross_bead2 in H. cbv zeta in H. destruct (Nat.eqb i j && _)%bool; [injection H as <-; exact S|].
    match type of H with match match ?e with _ => _ end with _ => _ end = _ => destruct e as [d|] end.
    - destruct (dget d (c_name V st)) as [ve|].
      + match type of H with rbind ?e _ = _ => destruct e as [ab|]; [|discriminate] end. injection H as <-. cbn [c_m]. apply from_cross_sym. exact S.
      + destruct (is0 (nk j _)); [injection H as <-; exact S|].
        match type of H with rbind ?e _ = _ => destruct e as [m'|] eqn:E; [|discriminate] end. injection H as <-. cbn [c_m]. exact (mix_sym _ _ _ _ _ _ S E).
    - destruct (is0 (nk j _)); [injection H as <-; exact S|].
      match type of H with rbind ?e _ = _ => destruct e as [m'|] eqn:E; [|discriminate] end. injection H as <-. cbn [c_m]. exact (mix_sym _ _ _ _ _ _ S E).
  Qed.

  (** ** The self loop as one loop over triples *)
  Definition triples : list (nat * nat * nat) :=
    flat_map (fun i => flat_map (fun a => if is0 (nk i a) then [] else
       flat_map (fun b => if is0 (nk i b) then [] else [(i, a, b)]) (seq a (nsites sites - a))) (seq 0 (nsites sites))) (seq 0 (nbeads beads)).
  Definition tri_step (m : amat) (t : nat * nat * nat) : result amat :=
    let '(i, a, b) := t in let* d := dfetch lib (bead_name beads i) in
    self_pair V eps_same i d m a b (site_name sites a) (site_name sites b).
  Lemma self_loop_triples m : self_loop V is0 eps_same beads lib sites nk m = foldM tri_step m triples.
  Proof.
    unfold self_loop, triples. rewrite <- foldM_flat. apply foldM_ext. intros b i _. unfold self_bead. rewrite <- foldM_flat. apply foldM_ext.
    intros b' a _. destruct (is0 (nk i a)); [reflexivity|]. rewrite <- foldM_flat. apply foldM_ext. intros b'' c _.
    destruct (is0 (nk i c)); [reflexivity|]. cbn [foldM tri_step]. destruct (dfetch lib (bead_name beads i)); cbn [rbind]; [|reflexivity].
    destruct (self_pair _ _ _ _ _ _ _ _ _); reflexivity.
  Qed.
  Lemma in_triples i a b : In (i, a, b) triples <->
    (i < nbeads beads)%nat /\ (a <= b)%nat /\ (b < nsites sites)%nat /\ is0 (nk i a) = false /\ is0 (nk i b) = false.
  Proof.
    unfold triples. rewrite in_flat_map. split.
    - intros [i' [Hi H]]. apply in_flat_map in H. destruct H as [a' [Ha H]]. destruct (is0 (nk i' a')) eqn:E1; [destruct H|].
      apply in_flat_map in H. destruct H as [b' [Hb H]]. destruct (is0 (nk i' b')) eqn:E2; [destruct H|]. destruct H as [H|[]]. injection H as <- <- <-.
      apply in_seq in Hi, Ha, Hb. repeat split; auto; lia.
    - intros [H1 [H2 [H3 [H4 H5]]]]. exists i. split; [apply in_seq; lia|]. apply in_flat_map. exists a. split; [apply in_seq; lia|]. rewrite H4.
      apply in_flat_map. exists b. split; [apply in_seq; lia|]. rewrite H5. left. reflexivity.
  Qed.

  (** a parameter of a bead under either order of the site names *)
  Definition given (d : dict V) (p s t : string) : option V :=
    match dget d (pname p s t) with Some v => Some v | None => dget d (pname p t s) end.
  Lemma dget_either d p s t : dget d (either V d p s t) = given d p s t.
  Proof. unfold either, given, dmem. destruct (dget d (pname p s t)) eqn:E; [exact E|reflexivity]. Qed.
  Lemma dmem_either d p s t : dmem d (either V d p s t) = match given d p s t with Some _ => true | None => false end.
  Proof. unfold dmem. rewrite dget_either. reflexivity. Qed.
  (** what the validation of 288-317 refuses *)
  Definition inconsistent (d : dict V) (s t : string) : bool :=
    match given d "epsilonHB" s t, given d "K" s t, given d "rc" s t with
    | Some _, None, None => true
    | _, Some _, Some _ => true
    | None, Some _, None => true
    | None, None, Some _ => true
    | _, _, _ => false
    end.
  Definition bead_dict (i : nat) : dict V := match dget lib (bead_name beads i) with Some d => d | None => [] end.
  Definition given_at (p : string) (i a b : nat) : option V := given (bead_dict i) p (site_name sites a) (site_name sites b).
  (** value written for one pair a <= b *)
  Definition wr_eps (i a b : nat) : V :=
    match given_at "epsilonHB" i a b with Some v => if Nat.eqb a b then eps_same v else v | None => zero end.
  Definition wr_len (p : string) (i a b : nat) : V :=
    match given_at "epsilonHB" i a b, given_at p i a b with Some _, Some v => v | _, _ => zero end.
  Definition wr_flag (p : string) (t : nat * nat * nat) : bool :=
    let '(i, a, b) := t in
    match given_at "epsilonHB" i a b, given_at p i a b with Some _, Some _ => true | _, _ => false end.

  Definition covers (pre : list (nat * nat * nat)) (i j a b : nat) : Prop := i = j /\ In (i, Nat.min a b, Nat.max a b) pre.
  Definition self_entry (pre : list (nat * nat * nat)) (W : nat -> nat -> nat -> V) (M : mat4 V) : Prop :=
    forall i j a b, (covers pre i j a b -> M i j a b = W i (Nat.min a b) (Nat.max a b)) /\ (~ covers pre i j a b -> M i j a b = zero).
  Lemma covers_dec pre i j a b : covers pre i j a b \/ ~ covers pre i j a b.
  Proof.
    unfold covers. destruct (Nat.eq_dec i j); [|right; tauto].
    destruct (in_dec (fun x y : nat * nat * nat => ltac:(repeat decide equality)) (i, Nat.min a b, Nat.max a b) pre); [left|right]; tauto.
  Qed.
  Lemma self_entry_write pre W M i a b : self_entry pre W M -> (a <= b)%nat ->
    self_entry (pre ++ [(i, a, b)])%list W (pair_set V M i i a b (W i a b)).
  Proof.
    intros H L i' j' a' b'.
    destruct (quad_dec (i', j', a', b') (i, i, a, b)) as [E|N1].
    { injection E as -> -> -> ->. rewrite pair_set_at by auto. rewrite Nat.min_l, Nat.max_r by lia. split; [reflexivity|]. intros C. exfalso. apply C.
      split; [reflexivity|]. rewrite Nat.min_l, Nat.max_r by lia. apply in_app_iff. right. left. reflexivity. }
    destruct (quad_dec (i', j', a', b') (i, i, b, a)) as [E|N2].
    { injection E as -> -> -> ->. rewrite pair_set_at by auto. rewrite Nat.min_r, Nat.max_l by lia. split; [reflexivity|]. intros C. exfalso. apply C.
      split; [reflexivity|]. rewrite Nat.min_r, Nat.max_l by lia. apply in_app_iff. right. left. reflexivity. }
    rewrite pair_set_off by assumption. destruct (H i' j' a' b') as [H1 H2]. split.
    - intros [E C]. apply H1. split; [exact E|]. apply in_app_iff in C. destruct C as [C|[C|[]]]; [exact C|].
      exfalso. injection C as -> C1 C2. subst j'. destruct (Nat.le_ge_cases a' b').
      + rewrite Nat.min_l in C1 by lia. rewrite Nat.max_r in C2 by lia. apply N1. congruence.
      + rewrite Nat.min_r in C1 by lia. rewrite Nat.max_l in C2 by lia. apply N2. congruence.
    - intros C. apply H2. intros [E C']. apply C. split; [exact E|]. apply in_app_iff. left. exact C'.
  Qed.
  Lemma self_entry_skip pre W M i a b : self_entry pre W M -> (a <= b)%nat -> W i a b = zero ->
    self_entry (pre ++ [(i, a, b)])%list W M.
  Proof.
    intros H L Z i' j' a' b'. destruct (H i' j' a' b') as [H1 H2]. destruct (covers_dec pre i' j' a' b') as [C|C].
    - split; [auto|]. intros C'. exfalso. apply C'. destruct C as [E C]. split; [exact E|]. apply in_app_iff. auto.
    - rewrite (H2 C). split; [|reflexivity]. intros [E C']. apply in_app_iff in C'. destruct C' as [C'|[C'|[]]]; [exfalso; apply C; split; assumption|].
      injection C' as <- <- <-. symmetry. exact Z.
  Qed.
  Definition self_inv (pre : list (nat * nat * nat)) (m : amat) : Prop :=
    self_entry pre wr_eps (eps _ m) /\ self_entry pre (wr_len "K") (Kk _ m) /\ self_entry pre (wr_len "rc") (rc _ m) /\ self_entry pre (wr_len "rd") (rd _ m) /\
    fK _ m = existsb (wr_flag "K") pre /\ frc _ m = existsb (wr_flag "rc") pre /\ frd _ m = existsb (wr_flag "rd") pre.

  Lemma self_pair_cases i m a b : 
    self_pair V eps_same i (bead_dict i) m a b (site_name sites a) (site_name sites b) =
    if inconsistent (bead_dict i) (site_name sites a) (site_name sites b) then Err ValueError
    else match given_at "epsilonHB" i a b with
         | None => Ok m
         | Some v => Ok (AMat V (pair_set V (eps _ m) i i a b (wr_eps i a b))
              (match given_at "K" i a b with Some v => pair_set V (Kk _ m) i i a b v | None => Kk _ m end)
              (match given_at "rc" i a b with Some v => pair_set V (rc _ m) i i a b v | None => rc _ m end)
              (match given_at "rd" i a b with Some v => pair_set V (rd _ m) i i a b v | None => rd _ m end)
              (match given_at "K" i a b with Some _ => true | None => fK _ m end)
              (match given_at "rc" i a b with Some _ => true | None => frc _ m end)
              (match given_at "rd" i a b with Some _ => true | None => frd _ m end))
         end.
  Proof.
    unfold self_pair. cbv zeta. rewrite !dmem_either, !dget_either. unfold wr_eps, given_at, inconsistent.
    generalize (site_name sites a) (site_name sites b). intros s t.
    destruct (given (bead_dict i) "epsilonHB" s t), (given (bead_dict i) "K" s t), (given (bead_dict i) "rc" s t), (given (bead_dict i) "rd" s t);
      cbn [andb negb orb eps Kk rc rd fK frc frd]; reflexivity.
  Qed.

  Hypothesis beads_known : forall i, (i < nbeads beads)%nat -> exists d, dget lib (bead_name beads i) = Some d.
  Lemma fetch_bead i : (i < nbeads beads)%nat -> dfetch lib (bead_name beads i) = Ok (bead_dict i).
  Proof. intros H. destruct (beads_known i H) as [d E]. unfold dfetch, bead_dict. rewrite E. reflexivity. Qed.
  Definition tri_bad (t : nat * nat * nat) : bool := let '(i, a, b) := t in inconsistent (bead_dict i) (site_name sites a) (site_name sites b).

  Lemma tri_step_inv pre m t m' : In t triples -> self_inv pre m -> tri_step m t = Ok m' -> self_inv (pre ++ [t])%list m'.
  Proof.
    destruct t as [[i a] b]. intros Ht [I1 [I2 [I3 [I4 [F1 [F2 F3]]]]]] H. apply in_triples in Ht. destruct Ht as [Hi [Hab _]].
    unfold tri_step in H. rewrite fetch_bead in H by exact Hi. cbn [rbind] in H. rewrite self_pair_cases in H.
    destruct (inconsistent _ _ _) eqn:EI; [discriminate|].
    assert (WK : forall p, given_at "epsilonHB" i a b <> None -> wr_len p i a b = match given_at p i a b with Some v => v | None => zero end).
    { intros p N. unfold wr_len. destruct (given_at "epsilonHB" i a b); [reflexivity|congruence]. }
    assert (LEN : forall p M, given_at "epsilonHB" i a b <> None -> self_entry pre (wr_len p) M ->
       self_entry (pre ++ [(i, a, b)])%list (wr_len p) (match given_at p i a b with Some v => pair_set V M i i a b v | None => M end)).
    { intros p M N HM. destruct (given_at p i a b) as [v|] eqn:E.
      - replace v with (wr_len p i a b) by (rewrite WK by exact N; rewrite E; reflexivity). apply self_entry_write; assumption.
      - apply self_entry_skip; auto. rewrite WK by exact N. rewrite E. reflexivity. }
    assert (FLG : forall p f, given_at "epsilonHB" i a b <> None -> f = existsb (wr_flag p) pre ->
       (match given_at p i a b with Some _ => true | None => f end) = existsb (wr_flag p) (pre ++ [(i, a, b)])%list).
    { intros p f N ->. rewrite existsb_app. cbn [existsb wr_flag]. destruct (given_at "epsilonHB" i a b); [|congruence].
      destruct (given_at p i a b); rewrite ?orb_false_r, ?orb_true_r; reflexivity. }
    unfold self_inv. destruct (given_at "epsilonHB" i a b) as [v|] eqn:E; injection H as <-.
    - cbn [eps Kk rc rd fK frc frd].
      split; [apply self_entry_write; assumption|].
      split; [apply LEN; [congruence|exact I2]|]. split; [apply LEN; [congruence|exact I3]|]. split; [apply LEN; [congruence|exact I4]|].
      split; [apply FLG; [congruence|exact F1]|]. split; [apply FLG; [congruence|exact F2]|apply FLG; [congruence|exact F3]].
    - assert (Z : forall p, wr_len p i a b = zero) by (intros p; unfold wr_len; rewrite E; reflexivity).
      split; [apply self_entry_skip; auto; unfold wr_eps; rewrite E; reflexivity|].
      split; [apply self_entry_skip; auto|]. split; [apply self_entry_skip; auto|]. split; [apply self_entry_skip; auto|].
      rewrite !existsb_app. cbn [existsb wr_flag]. rewrite E, !orb_false_r. auto.
  Qed.
  Lemma self_loop_inv m : self_loop V is0 eps_same beads lib sites nk (amat0 V zero) = Ok m -> self_inv triples m.
  Proof.
    rewrite self_loop_triples. intros H. change triples with ([] ++ triples)%list.
    refine (foldM_prefix self_inv _ triples [] _ m _ _ H).
    - assert (E : forall W, self_entry [] W (fun _ _ _ _ => zero)) by (intros W i j a b; split; [intros [_ []]|reflexivity]).
      unfold self_inv. cbn. repeat (split; [apply E|]). auto.
    - intros pre acc t acc' Ht Ha Hs. exact (tri_step_inv pre acc t acc' Ht Ha Hs).
  Qed.
  Lemma self_loop_ok : (forall t, In t triples -> tri_bad t = false) -> exists m, self_loop V is0 eps_same beads lib sites nk (amat0 V zero) = Ok m.
  Proof.
    intros H. rewrite self_loop_triples. apply foldM_all_ok. intros m [[i a] b] Ht. pose proof (H _ Ht) as B. apply in_triples in Ht.
    unfold tri_step. rewrite fetch_bead by apply Ht. cbn [rbind]. rewrite self_pair_cases. cbn in B. rewrite B. destruct (given_at _ _ _ _); eauto.
  Qed.
  Lemma self_loop_bad : (exists t, In t triples /\ tri_bad t = true) -> self_loop V is0 eps_same beads lib sites nk (amat0 V zero) = Err ValueError.
  Proof.
    intros H. rewrite self_loop_triples. apply (foldM_err _ _ _ tri_bad); [| |exact H].
    - intros m [[i a] b] Ht B. apply in_triples in Ht. unfold tri_step. rewrite fetch_bead by apply Ht. cbn [rbind]. rewrite self_pair_cases. cbn in B. rewrite B. reflexivity.
    - intros m [[i a] b] Ht B. apply in_triples in Ht. unfold tri_step. rewrite fetch_bead by apply Ht. cbn [rbind]. rewrite self_pair_cases. cbn in B. rewrite B.
      destruct (given_at _ _ _ _); eauto.
  Qed.

  (** ** The cross loop without a cross library *)
  Definition quads : list (nat * nat * nat * nat) :=
    flat_map (fun i => flat_map (fun a => if is0 (nk i a) then [] else
       flat_map (fun b => flat_map (fun j => if (Nat.eqb i j && Nat.eqb a b || is0 (nk j b))%bool then [] else [(i, j, a, b)]) (seq 0 (nbeads beads)))
         (seq 0 (nsites sites))) (seq 0 (nsites sites))) (seq 0 (nbeads beads)).
  Lemma in_quads i j a b : In (i, j, a, b) quads <->
    (i < nbeads beads)%nat /\ (j < nbeads beads)%nat /\ (a < nsites sites)%nat /\ (b < nsites sites)%nat /\
    is0 (nk i a) = false /\ is0 (nk j b) = false /\ ~ (i = j /\ a = b).
  Proof.
    unfold quads. rewrite in_flat_map. split.
    - intros [i' [Hi H]]. apply in_flat_map in H. destruct H as [a' [Ha H]]. destruct (is0 (nk i' a')) eqn:E1; [destruct H|].
      apply in_flat_map in H. destruct H as [b' [Hb H]]. apply in_flat_map in H. destruct H as [j' [Hj H]].
      destruct (Nat.eqb i' j' && Nat.eqb a' b' || is0 (nk j' b'))%bool eqn:E2; [destruct H|]. destruct H as [H|[]]. injection H as <- <- <- <-.
      apply orb_false_iff in E2. destruct E2 as [E2 E3]. apply in_seq in Hi, Ha, Hb, Hj. repeat split; auto; try lia.
      intros [-> ->]. rewrite !Nat.eqb_refl in E2. discriminate.
    - intros [H1 [H2 [H3 [H4 [H5 [H6 H7]]]]]]. exists i. split; [apply in_seq; lia|]. apply in_flat_map. exists a. split; [apply in_seq; lia|]. rewrite H5.
      apply in_flat_map. exists b. split; [apply in_seq; lia|]. apply in_flat_map. exists j. split; [apply in_seq; lia|]. rewrite H6.
      destruct (Nat.eqb_spec i j), (Nat.eqb_spec a b); cbn; try (left; reflexivity). exfalso. apply H7. auto.
  Qed.
  Lemma quads_mirror i j a b : In (i, j, a, b) quads -> In (j, i, b, a) quads.
  Proof. rewrite !in_quads. intros [H1 [H2 [H3 [H4 [H5 [H6 H7]]]]]]. repeat split; auto. intros [-> ->]. auto. Qed.
  Definition q_step (m : amat) (q : nat * nat * nat * nat) : result amat :=
    let '(i, j, a, b) := q in mix V is0 eps_mix K_mix r_mix beads lib sites m i j a b.
  Lemma cross_loop_quads m : cross_loop V is0 eps_mix K_mix r_mix beads lib [] sites nk m = foldM q_step m quads.
  Proof.
    unfold cross_loop, quads. rewrite <- foldM_flat. apply foldM_ext. intros m1 i _. unfold cross_bead1. rewrite <- foldM_flat. apply foldM_ext.
    intros m2 a _. destruct (is0 (nk i a)); [reflexivity|]. rewrite <- foldM_flat.
    assert (B : forall bs m, foldM (cross_site2 V is0 eps_mix K_mix r_mix beads lib [] sites nk i a) (m, a) bs =
       let* m' := foldM (fun m b => foldM q_step m (flat_map (fun j => if (Nat.eqb i j && Nat.eqb a b || is0 (nk j b))%bool then [] else [(i, j, a, b)]) (seq 0 (nbeads beads)))) m bs in Ok (m', a)).
    { induction bs as [|b bs IH]; intros m0; [reflexivity|]. cbn [foldM].
      assert (J : forall js m nm Kn rcn rdn, exists nm', foldM (cross_bead2 V is0 eps_mix K_mix r_mix beads lib [] sites nk i Kn rcn rdn) (CState V m a b nm) js =
         let* m' := foldM q_step m (flat_map (fun j => if (Nat.eqb i j && Nat.eqb a b || is0 (nk j b))%bool then [] else [(i, j, a, b)]) js) in Ok (CState V m' a b nm')).
      { clear. induction js as [|j js IH]; intros m nm Kn rcn rdn; [exists nm; reflexivity|]. cbn [foldM flat_map]. unfold cross_bead2 at 1. cbn [c_a c_b c_m c_name dget].
        destruct (Nat.eqb i j && Nat.eqb a b)%bool; cbn [orb app]; [cbn [rbind]; apply IH|]. destruct (is0 (nk j b)); cbn [orb app]; [cbn [rbind]; apply IH|].
        cbn [foldM q_step]. destruct (mix V is0 eps_mix K_mix r_mix beads lib sites m i j a b) as [m'|e]; cbn [rbind]; [apply IH|exists nm; reflexivity]. }
      unfold cross_site2 at 1. cbv zeta. cbn [fst snd]. destruct (J (seq 0 (nbeads beads)) m0 (pname "epsilonHB" (site_name sites a) (site_name sites b))
         (pname "K" (site_name sites a) (site_name sites b)) (pname "rc" (site_name sites a) (site_name sites b)) (pname "rd" (site_name sites a) (site_name sites b))) as [nm' ->].
      match goal with |- context [foldM q_step m0 ?l] => destruct (foldM q_step m0 l) as [m'|e] end; cbn [rbind c_m c_a]; [apply IH|reflexivity]. }
    rewrite B. match goal with |- context [rbind (foldM ?f ?x ?l) _] => destruct (foldM f x l) end; reflexivity.
  Qed.

  (** one matrix: an empty entry is filled, with its mirror *)
  Definition fill1 (val : option V) (empty : bool) (M : mat4 V) (i j a b : nat) : mat4 V :=
    if empty then match val with Some v => pair_set V M i j a b v | None => M end else M.
  Definition mix_eps_val (M : mat4 V) (i j a b : nat) : option V :=
    match dget (bead_dict i) (pname "epsilonHB" (site_name sites a) (site_name sites a)), dget (bead_dict j) (pname "epsilonHB" (site_name sites b) (site_name sites b)) with
    | Some va, Some vb => Some (eps_mix (M i i a a) (M j j b b) va vb)
    | _, _ => None
    end.
  Definition mix_len_val (fl : bool) (f : V -> V -> V) (M : mat4 V) (i j a b : nat) : option V :=
    if fl then Some (f (M i i a a) (M j j b b)) else None.
  Lemma mix_eq m i j a b : (i < nbeads beads)%nat -> (j < nbeads beads)%nat ->
    mix V is0 eps_mix K_mix r_mix beads lib sites m i j a b =
    Ok (AMat V (fill1 (mix_eps_val (eps _ m) i j a b) (is0 (eps _ m j i b a)) (eps _ m) i j a b)
               (fill1 (mix_len_val (fK _ m) K_mix (Kk _ m) i j a b) (is0 (Kk _ m i j a b)) (Kk _ m) i j a b)
               (fill1 (mix_len_val (frc _ m) r_mix (rc _ m) i j a b) (is0 (rc _ m i j a b)) (rc _ m) i j a b)
               (fill1 (mix_len_val (frd _ m) r_mix (rd _ m) i j a b) (is0 (rd _ m i j a b)) (rd _ m) i j a b) (fK _ m) (frc _ m) (frd _ m)).
  Proof.
    intros Hi Hj. unfold mix. cbv zeta. rewrite !fetch_bead by assumption. cbn [rbind]. unfold fill1, mix_eps_val, mix_len_val. destruct m as [e K c r f1 f2 f3].
    cbn [eps Kk rc rd fK frc frd].
    destruct (is0 (e j i b a)), (dget (bead_dict i) (pname "epsilonHB" (site_name sites a) (site_name sites a))), (dget (bead_dict j) (pname "epsilonHB" (site_name sites b) (site_name sites b))), f1, f2, f3; cbn [rbind eps Kk rc rd fK frc frd andb];
    destruct (is0 (K i j a b)); cbn [rbind eps Kk rc rd fK frc frd andb]; destruct (is0 (c i j a b)); cbn [rbind eps Kk rc rd fK frc frd andb]; destruct (is0 (r i j a b)); reflexivity.
  Qed.
  Definition touched (pre : list (nat * nat * nat * nat)) (i j a b : nat) : Prop := In (i, j, a, b) pre \/ In (j, i, b, a) pre.
  Definition fin (M0 : mat4 V) (val : nat -> nat -> nat -> nat -> option V) (i j a b : nat) : V :=
    if is0 (M0 i j a b) then match val i j a b with Some v => v | None => M0 i j a b end else M0 i j a b.
  Definition filled (M0 : mat4 V) (val : nat -> nat -> nat -> nat -> option V) (pre : list (nat * nat * nat * nat)) (M : mat4 V) : Prop :=
    forall i j a b, (touched pre i j a b -> M i j a b = fin M0 val i j a b) /\ (~ touched pre i j a b -> M i j a b = M0 i j a b).
  Lemma touched_dec pre i j a b : touched pre i j a b \/ ~ touched pre i j a b.
  Proof. unfold touched. destruct (in_dec quad_dec (i, j, a, b) pre), (in_dec quad_dec (j, i, b, a) pre); tauto. Qed.
  Lemma filled_sym M0 val pre M : sym M0 -> (forall i j a b, val i j a b = val j i b a) -> filled M0 val pre M -> sym M.
  Proof.
    intros S Sv H i j a b. destruct (H i j a b) as [H1 H2], (H j i b a) as [H3 H4]. destruct (touched_dec pre i j a b) as [T|T].
    - rewrite H1, H3 by (unfold touched in *; tauto). unfold fin. rewrite (S i j a b), (Sv i j a b). reflexivity.
    - rewrite H2, H4 by (unfold touched in *; tauto). apply S.
  Qed.
  Lemma filled_step M0 val pre M i j a b e : sym M0 -> (forall i j a b, val i j a b = val j i b a) -> filled M0 val pre M -> e = is0 (M i j a b) ->
    filled M0 val (pre ++ [(i, j, a, b)])%list (fill1 (val i j a b) e M i j a b).
  Proof.
    intros S Sv H -> i' j' a' b'.
    assert (T : touched (pre ++ [(i, j, a, b)])%list i' j' a' b' <-> touched pre i' j' a' b' \/ (i', j', a', b') = (i, j, a, b) \/ (i', j', a', b') = (j, i, b, a)).
    { unfold touched. rewrite !in_app_iff. cbn. intuition congruence. }
    assert (Own : M i j a b = fin M0 val i j a b \/ M i j a b = M0 i j a b) by (destruct (H i j a b); destruct (touched_dec pre i j a b); auto).
    assert (New : fill1 (val i j a b) (is0 (M i j a b)) M i j a b i j a b = fin M0 val i j a b).
    { unfold fill1. destruct Own as [O|O].
      - destruct (is0 (M i j a b)) eqn:E; [|exact O]. rewrite O in E. unfold fin in *. destruct (is0 (M0 i j a b)) eqn:E0; [|congruence].
        destruct (val i j a b); [rewrite pair_set_at by auto; reflexivity|exact O].
      - rewrite O. unfold fin. destruct (is0 (M0 i j a b)); [|exact O]. destruct (val i j a b); [rewrite pair_set_at by auto; reflexivity|exact O]. }
    assert (Sf : fin M0 val i j a b = fin M0 val j i b a) by (unfold fin; rewrite (S i j a b), (Sv i j a b); reflexivity).
    assert (SM : M i j a b = M j i b a) by (apply (filled_sym M0 val pre); assumption).
    assert (New' : fill1 (val i j a b) (is0 (M i j a b)) M i j a b j i b a = fin M0 val j i b a).
    { rewrite <- Sf, <- New. unfold fill1. destruct (is0 (M i j a b)); [|symmetry; exact SM]. destruct (val i j a b); [rewrite !pair_set_at by auto; reflexivity|symmetry; exact SM]. }
    rewrite T. destruct (quad_dec (i', j', a', b') (i, j, a, b)) as [E|N1]; [injection E as -> -> -> ->; split; [intros _; exact New|tauto]|].
    destruct (quad_dec (i', j', a', b') (j, i, b, a)) as [E|N2]; [injection E as -> -> -> ->; split; [intros _; exact New'|tauto]|].
    assert (U : fill1 (val i j a b) (is0 (M i j a b)) M i j a b i' j' a' b' = M i' j' a' b').
    { unfold fill1. destruct (is0 (M i j a b)); [|reflexivity]. destruct (val i j a b); [apply pair_set_off; assumption|reflexivity]. }
    rewrite U. destruct (H i' j' a' b') as [H1 H2]. split; [intros [X|[X|X]]; [auto|contradiction|contradiction]|]. intros X. apply H2. tauto.
  Qed.
  Lemma filled_diag M0 val pre M i a : (forall i j a b, In (i, j, a, b) pre -> ~ (i = j /\ a = b)) -> filled M0 val pre M -> M i i a a = M0 i i a a.
  Proof. intros N H. apply (H i i a a). intros [T|T]; exact (N _ _ _ _ T (conj eq_refl eq_refl)). Qed.

  Hypothesis eps_mix_comm : forall x y u v, eps_mix x y u v = eps_mix y x v u.
  Hypothesis K_mix_comm : forall x y, K_mix x y = K_mix y x.
  Hypothesis r_mix_comm : forall x y, r_mix x y = r_mix y x.
  Lemma mix_eps_val_sym M i j a b : mix_eps_val M i j a b = mix_eps_val M j i b a.
  Proof. unfold mix_eps_val. destruct (dget (bead_dict i) (pname "epsilonHB" (site_name sites a) (site_name sites a))), (dget (bead_dict j) (pname "epsilonHB" (site_name sites b) (site_name sites b))); try reflexivity. rewrite eps_mix_comm. reflexivity. Qed.
  Lemma mix_len_val_sym fl f M i j a b : (forall x y, f x y = f y x) -> mix_len_val fl f M i j a b = mix_len_val fl f M j i b a.
  Proof. intros C. unfold mix_len_val. rewrite C. reflexivity. Qed.
  Definition cross_inv (m0 : amat) (pre : list (nat * nat * nat * nat)) (m : amat) : Prop :=
    (forall i j a b, In (i, j, a, b) pre -> ~ (i = j /\ a = b)) /\
    filled (eps _ m0) (mix_eps_val (eps _ m0)) pre (eps _ m) /\
    filled (Kk _ m0) (mix_len_val (fK _ m0) K_mix (Kk _ m0)) pre (Kk _ m) /\
    filled (rc _ m0) (mix_len_val (frc _ m0) r_mix (rc _ m0)) pre (rc _ m) /\
    filled (rd _ m0) (mix_len_val (frd _ m0) r_mix (rd _ m0)) pre (rd _ m) /\
    fK _ m = fK _ m0 /\ frc _ m = frc _ m0 /\ frd _ m = frd _ m0.
  Lemma cross_loop_inv m0 : msym m0 -> exists m, cross_loop V is0 eps_mix K_mix r_mix beads lib [] sites nk m0 = Ok m /\ cross_inv m0 quads m.
  Proof.
    intros [S1 [S2 [S3 S4]]]. rewrite cross_loop_quads.
    assert (Step : forall m q, In q quads -> exists m', q_step m q = Ok m').
    { intros m [[[i j] a] b] Hq. apply in_quads in Hq. cbn [q_step]. rewrite mix_eq by apply Hq. eauto. }
    destruct (foldM_all_ok q_step quads m0 Step) as [m E]. exists m. split; [exact E|].
    change quads with ([] ++ quads)%list. refine (foldM_prefix (cross_inv m0) q_step quads [] m0 m _ _ E).
    - assert (Z : forall M val, filled M val [] M) by (intros M val i j a b; split; [intros [[]|[]]|reflexivity]).
      unfold cross_inv. split; [intros i j a b []|]. repeat (split; [apply Z|]). auto.
    - clear m E. intros pre m [[[i j] a] b] m' Hq [I0 [I1 [I2 [I3 [I4 [F1 [F2 F3]]]]]]] E. apply in_quads in Hq. cbn [q_step] in E. rewrite mix_eq in E by apply Hq.
      injection E as <-. unfold cross_inv. cbn [eps Kk rc rd fK frc frd].
      assert (D1 := fun i a => filled_diag _ _ pre _ i a I0 I1). assert (D2 := fun i a => filled_diag _ _ pre _ i a I0 I2).
      assert (D3 := fun i a => filled_diag _ _ pre _ i a I0 I3). assert (D4 := fun i a => filled_diag _ _ pre _ i a I0 I4).
      split.
      { intros i' j' a' b' H. apply in_app_iff in H. destruct H as [H|[H|[]]]; [exact (I0 _ _ _ _ H)|]. injection H as <- <- <- <-. apply Hq. }
      split.
      { replace (mix_eps_val (eps V m) i j a b) with (mix_eps_val (eps V m0) i j a b) by (unfold mix_eps_val; rewrite !D1; reflexivity).
        apply filled_step; auto; [exact (mix_eps_val_sym _)|]. f_equal. symmetry. apply (filled_sym _ _ _ _ S1 (mix_eps_val_sym _) I1). }
      split.
      { replace (mix_len_val (fK V m) K_mix (Kk V m) i j a b) with (mix_len_val (fK V m0) K_mix (Kk V m0) i j a b) by (unfold mix_len_val; rewrite F1, !D2; reflexivity).
        apply filled_step; auto. intros; apply mix_len_val_sym; assumption. }
      split.
      { replace (mix_len_val (frc V m) r_mix (rc V m) i j a b) with (mix_len_val (frc V m0) r_mix (rc V m0) i j a b) by (unfold mix_len_val; rewrite F2, !D3; reflexivity).
        apply filled_step; auto. intros; apply mix_len_val_sym; assumption. }
      split.
      { replace (mix_len_val (frd V m) r_mix (rd V m) i j a b) with (mix_len_val (frd V m0) r_mix (rd V m0) i j a b) by (unfold mix_len_val; rewrite F3, !D4; reflexivity).
        apply filled_step; auto. intros; apply mix_len_val_sym; assumption. }
      auto.
  Qed.
End Loops.
