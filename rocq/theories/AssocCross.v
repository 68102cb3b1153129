(** Proofs about the association matrices with a cross library: the loop over pairs of
    beads and sites as a list of visits, each of which changes one pair of entries. *)
From Coq Require Import Sorted.
From Verif Require Import Base BaseFacts EosToolboxModel AssocModel AssocProofs AssocProofs2.
Open Scope string_scope.

Lemma foldM_sorted {A B} (R : A -> A -> Prop) (P : list A -> B -> Prop) (f : B -> A -> result B) l : forall pre acc out,
  StronglySorted R l -> (forall x y, In x pre -> In y l -> R x y) -> P pre acc ->
  (forall pre' acc x acc', In x l -> (forall y, In y pre' -> R y x) -> P pre' acc -> f acc x = Ok acc' -> P (pre' ++ [x])%list acc') ->
  foldM f acc l = Ok out -> P (pre ++ l)%list out.
Proof.
  induction l as [|x xs IH]; intros pre acc out HS HR H0 Hs H; cbn in H.
  - injection H as <-. rewrite app_nil_r. exact H0.
  - destruct (f acc x) as [acc'|] eqn:E; [|discriminate]. cbn in H. inversion HS as [|? ? HS' HF]; subst. rewrite Forall_forall in HF.
    replace (pre ++ x :: xs)%list with ((pre ++ [x]) ++ xs)%list by (rewrite <- app_assoc; reflexivity).
    apply (IH (pre ++ [x])%list acc' out); [exact HS'| | | |exact H].
    + intros y z Hy Hz. apply in_app_iff in Hy. destruct Hy as [Hy|[<-|[]]]; [apply HR; [exact Hy|right; exact Hz]|apply HF; exact Hz].
    + apply (Hs pre acc x acc'); auto. left; reflexivity. intros y Hy. apply HR; [exact Hy|left; reflexivity].
    + intros pre' a y a' Hy. apply Hs. right. exact Hy.
Qed.
Lemma sorted_flat {A} (R : A -> A -> Prop) (h : nat -> list A) n : forall k,
  (forall x, (k <= x < k + n)%nat -> StronglySorted R (h x)) ->
  (forall x y u v, (k <= x)%nat -> (x < y)%nat -> (y < k + n)%nat -> In u (h x) -> In v (h y) -> R u v) ->
  StronglySorted R (flat_map h (seq k n)).
Proof.
  induction n as [|n IH]; intros k H1 H2; [constructor|]. cbn [seq flat_map]. apply StronglySorted_app.
  - apply H1. lia.
  - apply IH; [intros x Hx; apply H1; lia|]. intros x y u v Hx Hy Hn. apply H2; lia.
  - intros u v Hu Hv. apply in_flat_map in Hv. destruct Hv as [y [Hy Hv]]. apply in_seq in Hy. apply (H2 k y u v); auto; lia.
Qed.

Section Cross.
  Variables (V : Type) (zero : V) (is0 : V -> bool) (eps_mix : V -> V -> V -> V -> V) (K_mix r_mix : V -> V -> V)
            (beads : list string) (lib : library V) (cross : dict (library V)) (sites : list string) (nk : nat -> nat -> V).
  Notation amat := (amat V).
  Notation sn := (site_name sites).
  Definition quad := (nat * nat * nat * nat)%type.
  Definition cdict (i j : nat) : dict V :=
    match dget cross (bead_name beads i) with Some l => match dget l (bead_name beads j) with Some d => d | None => [] end | None => [] end.
  Definition shadow (i a b k : nat) : bool :=
    negb (Nat.eqb i k && Nat.eqb a b) && negb (is0 (nk k b)) && match dget (cdict i k) (pname "epsilonHB" (sn a) (sn b)) with Some _ => false | None => true end.
  Definition nm (i a b k : nat) : string :=
    if existsb (shadow i a b) (seq 0 k) then pname "epsilonHB" (sn b) (sn b) else pname "epsilonHB" (sn a) (sn b).
  Definition allq : list quad :=
    flat_map (fun i => flat_map (fun a => flat_map (fun b => flat_map (fun j => [(i, j, a, b)]) (seq 0 (nbeads beads)))
       (seq 0 (nsites sites))) (seq 0 (nsites sites))) (seq 0 (nbeads beads)).
  Lemma in_allq i j a b : In (i, j, a, b) allq <-> (i < nbeads beads /\ j < nbeads beads /\ a < nsites sites /\ b < nsites sites)%nat.
  Proof.
    unfold allq. rewrite in_flat_map. split.
    - intros [i' [Hi H]]. apply in_flat_map in H. destruct H as [a' [Ha H]]. apply in_flat_map in H. destruct H as [b' [Hb H]].
      apply in_flat_map in H. destruct H as [j' [Hj [H|[]]]]. injection H as <- <- <- <-. apply in_seq in Hi, Ha, Hb, Hj. lia.
    - intros H. exists i. split; [apply in_seq; lia|]. apply in_flat_map. exists a. split; [apply in_seq; lia|]. apply in_flat_map. exists b. split; [apply in_seq; lia|].
      apply in_flat_map. exists j. split; [apply in_seq; lia|left; reflexivity].
  Qed.
  (** order of the visits *)
  Definition lexq (p q : quad) : Prop :=
    let '(i, j, a, b) := p in let '(i', j', a', b') := q in
    (i < i')%nat \/ (i = i' /\ ((a < a')%nat \/ (a = a' /\ ((b < b')%nat \/ (b = b' /\ (j < j')%nat))))).
  Lemma allq_sorted : StronglySorted lexq allq.
  Proof.
    assert (F : forall {A B} (h : A -> list B) l x, In x (flat_map h l) -> exists y, In y l /\ In x (h y)) by (intros; apply in_flat_map; assumption).
    unfold allq. apply sorted_flat.
    - intros i _. apply sorted_flat.
      + intros a _. apply sorted_flat.
        * intros b _. apply sorted_flat; [intros; repeat constructor|].
          intros x y u v _ Hxy _ [<-|[]] [<-|[]]. cbn. lia.
        * intros x y u v _ Hxy _ Hu Hv. apply F in Hu, Hv. destruct Hu as [? [_ [<-|[]]]], Hv as [? [_ [<-|[]]]]. cbn. lia.
      + intros x y u v _ Hxy _ Hu Hv. apply F in Hu, Hv. destruct Hu as [? [_ Hu]], Hv as [? [_ Hv]]. apply F in Hu, Hv.
        destruct Hu as [? [_ [<-|[]]]], Hv as [? [_ [<-|[]]]]. cbn. lia.
    - intros x y u v _ Hxy _ Hu Hv. apply F in Hu, Hv. destruct Hu as [? [_ Hu]], Hv as [? [_ Hv]]. apply F in Hu, Hv. destruct Hu as [? [_ Hu]], Hv as [? [_ Hv]]. apply F in Hu, Hv.
      destruct Hu as [? [_ [<-|[]]]], Hv as [? [_ [<-|[]]]]. cbn. lia.
  Qed.

  Definition visit (m : amat) (q : quad) : result amat :=
    let '(i, j, a, b) := q in
    if is0 (nk i a) then Ok m else if (Nat.eqb i j && Nat.eqb a b)%bool then Ok m
    else match dget (cdict i j) (nm i a b j) with
         | Some ve => Ok (from_cross V m (cdict i j) i j a b ve (pname "K" (sn a) (sn b)) (pname "rc" (sn a) (sn b)) (pname "rd" (sn a) (sn b)))
         | None => if is0 (nk j b) then Ok m else mix V is0 eps_mix K_mix r_mix beads lib sites m i j a b
         end.

  (** every energy of the cross library is between sites the beads have *)
  Hypothesis named : forall i j a b, (i < nbeads beads)%nat -> (j < nbeads beads)%nat -> (a < nsites sites)%nat -> (b < nsites sites)%nat ->
    dget (cdict i j) (pname "epsilonHB" (sn a) (sn b)) <> None -> is0 (nk i a) = false /\ is0 (nk j b) = false.

  Lemma bead2_visits i a b (Hi : (i < nbeads beads)%nat) (Ha : (a < nsites sites)%nat) (Hb : (b < nsites sites)%nat) (Na : is0 (nk i a) = false) n : forall k m, (k + n <= nbeads beads)%nat ->
    foldM (cross_bead2 V is0 eps_mix K_mix r_mix beads lib cross sites nk i (pname "K" (sn a) (sn b)) (pname "rc" (sn a) (sn b)) (pname "rd" (sn a) (sn b)))
       (CState V m a b (nm i a b k)) (seq k n) =
    let* m' := foldM visit m (flat_map (fun j => [(i, j, a, b)]) (seq k n)) in Ok (CState V m' a b (nm i a b (k + n))).
  Proof.
    induction n as [|n IH]; intros k m Hk; [cbn; rewrite Nat.add_0_r; reflexivity|]. cbn [seq foldM flat_map app].
    rewrite <- Nat.add_succ_comm. unfold cross_bead2 at 1. cbn [c_a c_b c_m c_name]. unfold visit at 1. rewrite Na.
    assert (NS : nm i a b (S k) = if shadow i a b k then pname "epsilonHB" (sn b) (sn b) else nm i a b k).
    { unfold nm. rewrite seq_S, existsb_app. cbn [existsb]. rewrite Nat.add_0_l, orb_false_r. destruct (existsb (shadow i a b) (seq 0 k)), (shadow i a b k); reflexivity. }
    destruct (Nat.eqb i k && Nat.eqb a b)%bool eqn:E0.
    { cbn [rbind]. rewrite <- IH by lia. rewrite NS. unfold shadow. rewrite E0. reflexivity. }
    assert (EQ : (match (match dget cross (bead_name beads i) with Some l => dget l (bead_name beads k) | None => None end) with Some d => dget d (nm i a b k) | None => None end)
                 = dget (cdict i k) (nm i a b k)).
    { unfold cdict. destruct (dget cross (bead_name beads i)) as [l|]; [|reflexivity]. destruct (dget l (bead_name beads k)); reflexivity. }
    rewrite EQ. destruct (dget (cdict i k) (nm i a b k)) as [ve|] eqn:Ev.
    - assert (CD : match dget cross (bead_name beads i) with Some l => dget l (bead_name beads k) | None => None end = Some (cdict i k)).
      { revert Ev. unfold cdict. destruct (dget cross (bead_name beads i)) as [l|]; [|discriminate]. destruct (dget l (bead_name beads k)); [reflexivity|discriminate]. }
      rewrite CD. assert (Nb : is0 (nk k b) = false).
      { unfold nm in Ev. destruct (existsb _ _).
        - apply (named i k b b); auto; try lia. congruence.
        - apply (named i k a b); auto; try lia. congruence. }
      rewrite ?Na, ?Nb. cbn [orb rbind fst snd]. rewrite <- IH by lia.
      assert (NK : nm i a b (S k) = nm i a b k).
      { rewrite NS. unfold nm in Ev |- *. unfold shadow. destruct (existsb _ _); [match goal with |- (if ?x then _ else _) = _ => destruct x end; reflexivity|]. rewrite Ev. rewrite andb_false_r. reflexivity. }
      rewrite NK. reflexivity.
    - destruct (is0 (nk k b)) eqn:Nb.
      { cbn [rbind]. rewrite <- IH by lia. rewrite NS. unfold shadow. rewrite Nb, andb_false_r. reflexivity. }
      destruct (mix V is0 eps_mix K_mix r_mix beads lib sites m i k a b) as [m'|e]; cbn [rbind]; [|reflexivity]. rewrite <- IH by lia.
      assert (NK : nm i a b (S k) = pname "epsilonHB" (sn b) (sn b)).
      { rewrite NS. unfold nm in Ev |- *. unfold shadow. destruct (existsb _ _); [match goal with |- (if ?x then _ else _) = _ => destruct x end; reflexivity|]. rewrite E0, Nb, Ev. reflexivity. }
      rewrite NK. reflexivity.
  Qed.
  Lemma cross_loop_visits m : cross_loop V is0 eps_mix K_mix r_mix beads lib cross sites nk m = foldM visit m allq.
  Proof.
    unfold cross_loop, allq. rewrite <- foldM_flat. apply foldM_ext. intros m1 i Hi. apply in_seq in Hi. unfold cross_bead1. rewrite <- foldM_flat. apply foldM_ext.
    intros m2 a Ha. apply in_seq in Ha. destruct (is0 (nk i a)) eqn:Na.
    - assert (Z : forall l m, (forall q, In q l -> fst (fst (fst q)) = i /\ snd (fst q) = a) -> foldM visit m l = Ok m).
      { induction l as [|[[[i' j'] a'] b'] l IH]; intros m0 H; [reflexivity|]. cbn [foldM]. destruct (H _ (or_introl eq_refl)) as [H1 H2]. cbn in H1, H2. subst i' a'.
        unfold visit at 1. rewrite Na. cbn [rbind]. apply IH. intros q Hq. apply H. right. exact Hq. }
      rewrite Z; [reflexivity|]. intros q Hq. apply in_flat_map in Hq. destruct Hq as [b [_ Hq]]. apply in_flat_map in Hq. destruct Hq as [j [_ [<-|[]]]]. auto.
    - rewrite <- foldM_flat.
      assert (B : forall bs m, (forall b, In b bs -> (b < nsites sites)%nat) -> foldM (cross_site2 V is0 eps_mix K_mix r_mix beads lib cross sites nk i a) (m, a) bs =
         let* m' := foldM (fun m b => foldM visit m (flat_map (fun j => [(i, j, a, b)]) (seq 0 (nbeads beads)))) m bs in Ok (m', a)).
      { induction bs as [|b bs IH]; intros m0 Hbs; [reflexivity|]. cbn [foldM]. unfold cross_site2 at 1. cbv zeta. cbn [fst snd].
        change (pname "epsilonHB" (sn a) (sn b)) with (nm i a b 0).
        rewrite (bead2_visits i a b ltac:(lia) ltac:(lia) (Hbs b (or_introl eq_refl)) Na (nbeads beads) 0 m0 ltac:(lia)).
        match goal with |- context [foldM visit m0 ?l] => destruct (foldM visit m0 l) as [m'|e] end; cbn [rbind c_m c_a]; [|reflexivity].
        apply IH. intros b' Hb'. apply Hbs. right. exact Hb'. }
      rewrite B by (intros b Hb; apply in_seq in Hb; lia). match goal with |- context [rbind (foldM ?f ?x ?l) _] => destruct (foldM f x l) end; reflexivity.
  Qed.

  (** ** One matrix *)
  Definition eff (M M' : mat4 V) (i j a b : nat) (x : V) : Prop :=
    M' i j a b = x /\ M' j i b a = x /\ forall i' j' a' b', (i', j', a', b') <> (i, j, a, b) -> (i', j', a', b') <> (j, i, b, a) -> M' i' j' a' b' = M i' j' a' b'.
  Lemma eff_set M i j a b v : eff M (pair_set V M i j a b v) i j a b v.
  Proof.
    split; [apply pair_set_at; auto|]. split; [apply pair_set_at; auto|]. intros. apply pair_set_off; assumption.
  Qed.
  Lemma eff_id M i j a b : sym V M -> eff M M i j a b (M i j a b).
  Proof. intros S. split; [reflexivity|]. split; [symmetry; apply S|reflexivity]. Qed.
  Definition mem (q : quad) (l : list quad) : bool := if in_dec (quad_dec) q l then true else false.
  Lemma mem_in q l : In q l -> mem q l = true.
  Proof. intros H. unfold mem. destruct (in_dec quad_dec q l); [reflexivity|contradiction]. Qed.
  Lemma mem_out q l : ~ In q l -> mem q l = false.
  Proof. intros H. unfold mem. destruct (in_dec quad_dec q l); [contradiction|reflexivity]. Qed.
  Lemma mem_snoc_neq q x l : q <> x -> mem q (l ++ [x])%list = mem q l.
  Proof.
    intros N. destruct (in_dec quad_dec q l) as [I|I]; [rewrite !mem_in; auto; apply in_app_iff; auto|].
    rewrite !mem_out; auto. rewrite in_app_iff. intros [H|[H|[]]]; [auto|congruence].
  Qed.
  Definition first (i j a b : nat) : Prop := (i < j)%nat \/ (i = j /\ (a < b)%nat).
  Section Inv.
    Variables (act : nat -> nat -> nat -> nat -> V -> V) (M0 : mat4 V).
    Hypothesis act_diag : forall i a x, act i i a a x = x.
    Definition inv (pre : list quad) (M : mat4 V) : Prop :=
      sym V M /\ (forall i a, M i i a a = M0 i i a a) /\
      forall i j a b, first i j a b ->
        M i j a b = (if mem (j, i, b, a) pre then act j i b a else id) ((if mem (i, j, a, b) pre then act i j a b else id) (M0 i j a b)).
    Lemma inv_step pre M M' i j a b : inv pre M -> (forall y, In y pre -> lexq y (i, j, a, b)) -> eff M M' i j a b (act i j a b (M i j a b)) ->
      inv (pre ++ [(i, j, a, b)])%list M'.
    Proof.
      intros [S [D I]] L [E1 [E2 E3]].
      assert (SM : M i j a b = M j i b a) by apply S.
      assert (Nq : ~ In (i, j, a, b) pre) by (intros H; apply L in H; cbn in H; lia).
      assert (S' : sym V M').
      { intros i' j' a' b'. destruct (quad_dec (i', j', a', b') (i, j, a, b)) as [X|N1]; [injection X as -> -> -> ->; rewrite E1, E2; reflexivity|].
        destruct (quad_dec (i', j', a', b') (j, i, b, a)) as [X|N2]; [injection X as -> -> -> ->; rewrite E1, E2; reflexivity|].
        rewrite !E3 by congruence. apply S. }
      split; [exact S'|]. split.
      { intros k c. destruct (quad_dec (k, k, c, c) (i, j, a, b)) as [X|N1]; [injection X as <- <- <- <-; rewrite E1, act_diag; apply D|].
        destruct (quad_dec (k, k, c, c) (j, i, b, a)) as [X|N2]; [congruence|]. rewrite E3 by assumption. apply D. }
      intros i' j' a' b' F. destruct (quad_dec (i', j', a', b') (i, j, a, b)) as [X|N1].
      - injection X as -> -> -> ->. rewrite E1.
        assert (Nf : (j, i, b, a) <> (i, j, a, b)) by (intros X; injection X as -> _ -> _; unfold first in F; lia).
        rewrite (mem_snoc_neq _ _ _ Nf), (mem_in _ (pre ++ _)%list) by (apply in_app_iff; right; left; reflexivity).
        assert (Nq' : ~ In (j, i, b, a) pre) by (intros H; apply L in H; cbn in H; unfold first in F; lia).
        rewrite (mem_out _ _ Nq'). rewrite (I i j a b F). rewrite (mem_out _ _ Nq'), (mem_out _ _ Nq). reflexivity.
      - rewrite (mem_snoc_neq _ _ _ N1). destruct (quad_dec (i', j', a', b') (j, i, b, a)) as [X|N2].
        + injection X as -> -> -> ->. rewrite E2, SM. rewrite (mem_in _ (pre ++ _)%list) by (apply in_app_iff; right; left; reflexivity).
          rewrite (I j i b a F). rewrite (mem_out _ _ Nq). reflexivity.
        + rewrite E3 by assumption. rewrite mem_snoc_neq by congruence. apply I. exact F.
    Qed.
    Lemma inv_nil : sym V M0 -> inv [] M0.
    Proof. intros S. split; [exact S|]. split; [reflexivity|]. intros. reflexivity. Qed.
    Lemma inv_end M : inv allq M -> forall i j a b, (i < nbeads beads)%nat -> (j < nbeads beads)%nat -> (a < nsites sites)%nat -> (b < nsites sites)%nat ->
      first i j a b -> M i j a b = act j i b a (act i j a b (M0 i j a b)).
    Proof. intros [_ [_ I]] i j a b Hi Hj Ha Hb F. rewrite (I i j a b F). rewrite !mem_in by (apply in_allq; auto). reflexivity. Qed.
  End Inv.

  (** ** The four matrices *)
  Hypothesis beads_known : forall i, (i < List.length beads)%nat -> exists d, dget lib (nth i beads "") = Some d.
  Definition skip (i j a b : nat) : bool := is0 (nk i a) || (Nat.eqb i j && Nat.eqb a b).
  Definition fill (w : option V) (x : V) : V := if is0 x then match w with Some w => w | None => x end else x.
  Definition e_act (M0 : mat4 V) (i j a b : nat) (x : V) : V :=
    if skip i j a b then x
    else match dget (cdict i j) (nm i a b j) with
         | Some v => v
         | None => if is0 (nk j b) then x else fill (mix_eps_val V eps_mix beads lib sites M0 i j a b) x
         end.
  Definition l_act (p : string) (fl : bool) (f : V -> V -> V) (M0 : mat4 V) (i j a b : nat) (x : V) : V :=
    if skip i j a b then x
    else match dget (cdict i j) (nm i a b j) with
         | Some _ => match (if fl then dget (cdict i j) (pname p (sn a) (sn b)) else None) with Some v => v | None => x end
         | None => if is0 (nk j b) then x else fill (mix_len_val V fl f M0 i j a b) x
         end.
  Definition cinv (m0 : amat) (pre : list quad) (m : amat) : Prop :=
    inv (e_act (eps _ m0)) (eps _ m0) pre (eps _ m) /\
    inv (l_act "K" (fK _ m0) K_mix (Kk _ m0)) (Kk _ m0) pre (Kk _ m) /\
    inv (l_act "rc" (frc _ m0) r_mix (rc _ m0)) (rc _ m0) pre (rc _ m) /\
    inv (l_act "rd" (frd _ m0) r_mix (rd _ m0)) (rd _ m0) pre (rd _ m) /\
    fK _ m = fK _ m0 /\ frc _ m = frc _ m0 /\ frd _ m = frd _ m0.
  Lemma skip_diag i a : skip i i a a = true.
  Proof. unfold skip. rewrite !Nat.eqb_refl, orb_true_r. reflexivity. Qed.
  Lemma e_diag M0 i a x : e_act M0 i i a a x = x.
  Proof. unfold e_act. rewrite skip_diag. reflexivity. Qed.
  Lemma l_diag p fl f M0 i a x : l_act p fl f M0 i i a a x = x.
  Proof. unfold l_act. rewrite skip_diag. reflexivity. Qed.
  Lemma eff_opt M i j a b (w : option V) : sym V M ->
    eff M (match w with Some v => pair_set V M i j a b v | None => M end) i j a b (match w with Some v => v | None => M i j a b end).
  Proof. intros S. destruct w; [apply eff_set|apply eff_id; exact S]. Qed.
  Lemma eff_fill M i j a b w : sym V M -> eff M (fill1 V w (is0 (M i j a b)) M i j a b) i j a b (fill w (M i j a b)).
  Proof. intros S. unfold fill1, fill. destruct (is0 (M i j a b)); [apply eff_opt; exact S|apply eff_id; exact S]. Qed.
  Lemma from_cross_eq m d i j a b ve Kn rcn rdn : from_cross V m d i j a b ve Kn rcn rdn =
    AMat V (pair_set V (eps _ m) i j a b ve)
       (match (if fK _ m then dget d Kn else None) with Some v => pair_set V (Kk _ m) i j a b v | None => Kk _ m end)
       (match (if frc _ m then dget d rcn else None) with Some v => pair_set V (rc _ m) i j a b v | None => rc _ m end)
       (match (if frd _ m then dget d rdn else None) with Some v => pair_set V (rd _ m) i j a b v | None => rd _ m end) (fK _ m) (frc _ m) (frd _ m).
  Proof.
    unfold from_cross. destruct m as [e K c r f1 f2 f3]. cbn [eps Kk rc rd fK frc frd].
    destruct f1, f2, f3; cbn [eps Kk rc rd fK frc frd]; destruct (dget d Kn), (dget d rcn); cbn [eps Kk rc rd fK frc frd]; try destruct (dget d rdn); reflexivity.
  Qed.
  Lemma visit_inv m0 pre m q m' : In q allq -> (forall y, In y pre -> lexq y q) -> cinv m0 pre m -> visit m q = Ok m' -> cinv m0 (pre ++ [q])%list m'.
  Proof.
    destruct q as [[[i j] a] b]. intros Hq L [I1 [I2 [I3 [I4 [F1 [F2 F3]]]]]] H. apply in_allq in Hq.
    assert (G : eff (eps _ m) (eps _ m') i j a b (e_act (eps _ m0) i j a b (eps _ m i j a b)) /\
                eff (Kk _ m) (Kk _ m') i j a b (l_act "K" (fK _ m0) K_mix (Kk _ m0) i j a b (Kk _ m i j a b)) /\
                eff (rc _ m) (rc _ m') i j a b (l_act "rc" (frc _ m0) r_mix (rc _ m0) i j a b (rc _ m i j a b)) /\
                eff (rd _ m) (rd _ m') i j a b (l_act "rd" (frd _ m0) r_mix (rd _ m0) i j a b (rd _ m i j a b)) /\
                fK _ m' = fK _ m /\ frc _ m' = frc _ m /\ frd _ m' = frd _ m).
    { assert (S1 := proj1 I1). assert (S2 := proj1 I2). assert (S3 := proj1 I3). assert (S4 := proj1 I4).
      assert (D1 := proj1 (proj2 I1)). assert (D2 := proj1 (proj2 I2)). assert (D3 := proj1 (proj2 I3)). assert (D4 := proj1 (proj2 I4)).
      unfold visit in H. unfold e_act, l_act, skip. destruct (is0 (nk i a)); cbn [orb].
      { injection H as <-. repeat (split; [apply eff_id; assumption|]). auto. }
      destruct (Nat.eqb i j && Nat.eqb a b)%bool.
      { injection H as <-. repeat (split; [apply eff_id; assumption|]). auto. }
      destruct (dget (cdict i j) (nm i a b j)) as [ve|].
      { injection H as <-. rewrite from_cross_eq. cbn [eps Kk rc rd fK frc frd]. rewrite F1, F2, F3. split; [apply eff_set|].
        repeat (split; [apply eff_opt; assumption|]). auto. }
      destruct (is0 (nk j b)).
      { injection H as <-. repeat (split; [apply eff_id; assumption|]). auto. }
      rewrite mix_eq in H by (assumption || apply Hq). injection H as <-. cbn [eps Kk rc rd fK frc frd]. rewrite <- (S1 i j a b).
      replace (mix_eps_val V eps_mix beads lib sites (eps V m) i j a b) with (mix_eps_val V eps_mix beads lib sites (eps V m0) i j a b) by (unfold mix_eps_val; rewrite !D1; reflexivity).
      replace (mix_len_val V (fK V m) K_mix (Kk V m) i j a b) with (mix_len_val V (fK V m0) K_mix (Kk V m0) i j a b) by (unfold mix_len_val; rewrite F1, !D2; reflexivity).
      replace (mix_len_val V (frc V m) r_mix (rc V m) i j a b) with (mix_len_val V (frc V m0) r_mix (rc V m0) i j a b) by (unfold mix_len_val; rewrite F2, !D3; reflexivity).
      replace (mix_len_val V (frd V m) r_mix (rd V m) i j a b) with (mix_len_val V (frd V m0) r_mix (rd V m0) i j a b) by (unfold mix_len_val; rewrite F3, !D4; reflexivity).
      repeat (split; [apply eff_fill; assumption|]). auto. }
    destruct G as [G1 [G2 [G3 [G4 [G5 [G6 G7]]]]]].
    split; [apply (inv_step _ _ (e_diag _) pre (eps _ m)); assumption|].
    split; [apply (inv_step _ _ (l_diag _ _ _ _) pre (Kk _ m)); assumption|].
    split; [apply (inv_step _ _ (l_diag _ _ _ _) pre (rc _ m)); assumption|].
    split; [apply (inv_step _ _ (l_diag _ _ _ _) pre (rd _ m)); assumption|].
    repeat split; congruence.
  Qed.
  Lemma cross_loop_cinv m0 : msym V m0 -> exists m, cross_loop V is0 eps_mix K_mix r_mix beads lib cross sites nk m0 = Ok m /\ cinv m0 allq m.
  Proof.
    intros [S1 [S2 [S3 S4]]]. rewrite cross_loop_visits.
    assert (Step : forall m q, In q allq -> exists m', visit m q = Ok m').
    { intros m [[[i j] a] b] Hq. apply in_allq in Hq. unfold visit. destruct (is0 (nk i a)); [eauto|]. destruct (_ && _)%bool; [eauto|].
      destruct (dget _ _); [eauto|]. destruct (is0 (nk j b)); [eauto|]. rewrite mix_eq by (assumption || apply Hq). eauto. }
    destruct (foldM_all_ok visit allq m0 Step) as [m E]. exists m. split; [exact E|].
    change allq with ([] ++ allq)%list. refine (foldM_sorted lexq (cinv m0) visit allq [] m0 m allq_sorted _ _ _ E).
    - intros x y [].
    - split; [apply inv_nil; assumption|]. split; [apply inv_nil; assumption|]. split; [apply inv_nil; assumption|]. split; [apply inv_nil; assumption|]. auto.
    - intros pre acc x acc' Hx HR HP Hf. exact (visit_inv m0 pre acc x acc' Hx HR HP Hf).
  Qed.
End Cross.
