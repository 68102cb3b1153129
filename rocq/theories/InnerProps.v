(** Properties of the inner loops of bubble and dew points and of the searches for a composition. *)
From Coq Require Import Lqa Lia Permutation.
From Verif Require Import Base BaseFacts Num NumFacts PhaseEqModel PhaseEqProps InnerModel.
Open Scope Q_scope.

(** A composition: finite fractions, none negative, that sum to one. *)
Definition composition (l : list num) : Prop :=
  exists q, l = fin q /\ Forall (fun a => 0 <= a) q /\ qsum q == 1.
(** x between a and b *)
Definition between (a b : Q) (x : num) : Prop := exists q, x = Fin q /\ a <= q /\ q <= b.

(** the list holds these fractions *)
Definition same (l : list num) (q : list Q) : Prop := exists l', l = fin l' /\ Forall2 Qeq l' q.

Ltac ok H := match type of H with
  | rbind ?m _ = Ok _ => let E := fresh "E" in let v := fresh "v" in
      destruct m as [v|] eqn:E; cbn [rbind] in H; [|discriminate H]
  end.

(** ** The bisection between two compositions (C99) *)
Section Bisection.
  Variable coeff : list num -> result (list num * nat).
  Variable vapor : bool.
  Variables (known phi : list num).
  Notation obj y := (objective_find coeff vapor known phi (binary y)).
  Notation bend_at := (bend_at coeff vapor known phi).
  Notation bisect := (bisect coeff vapor known phi).
  Notation bracket := (bracket_bounding coeff vapor known phi).

  (** the equation of state finds flag [f] at the binary composition y, 1 - y *)
  Definition kind_at (y : Q) (f : nat) : Prop := exists c p, same c [y; 1 - y] /\ coeff c = Ok (p, f).

  Lemma obj_kind y o f : obj (Fin y) = Ok (o, f) -> kind_at y f.
  Proof.
    unfold objective_find. intros H. ok H. destruct v as [p f0]. cbn [fst snd] in H.
    assert (f0 = f).
    { ok H. destruct (any_nan (normalise v)); [injection H as _ <-; reflexivity|]. ok H. ok H. ok H. ok H. injection H as _ <-. reflexivity. }
    subst f0. exists (normalise (binary (Fin y))), p. split; [|exact E].
    unfold normalise, binary. cbn [map nsum fold_right nsub nneg nadd ndiv].
    assert (S : y + (1 + - y + 0) == 1) by ring.
    destruct (Qeq_bool (y + (1 + - y + 0)) 0) eqn:Z; [apply Qeq_bool_iff in Z; rewrite S in Z; discriminate|].
    exists [y / (y + (1 + - y + 0)); (1 + - y) / (y + (1 + - y + 0))]. split; [reflexivity|]. repeat constructor; rewrite S; field.
  Qed.

  Definition evaluated (e : bend) : Prop := obj (e_y e) = Ok (e_obj e, e_flag e).

  Lemma bend_eval y e : bend_at y = Ok e -> evaluated e /\ e_y e = y.
  Proof.
    unfold InnerModel.bend_at, evaluated. intros H. ok H. destruct v as [o f]. injection H as <-. cbn. auto.
  Qed.

  Lemma mean_fin p q : ndiv (nadd (Fin p) (Fin q)) (Fin 2) = Fin ((p + q) / 2).
  Proof. reflexivity. Qed.

  (** what is known of the pair of ends: both evaluated, inside the limits and a given distance apart *)
  Definition pair (lo hi w : Q) (a b : bend) : Prop :=
    evaluated a /\ evaluated b /\ exists p q, e_y a = Fin p /\ e_y b = Fin q /\
      lo <= p <= hi /\ lo <= q <= hi /\ Qabs (q - p) <= w.

  Lemma half_abs p q w m : m == (p + q) / 2 -> Qabs (q - p) <= w ->
    Qabs (q - m) <= w / 2 /\ Qabs (m - p) <= w / 2 /\ Qabs (m - q) <= w / 2.
  Proof.
    intros Em H. apply Qabs_Qle_condition in H as (H1 & H2).
    assert (E : (p + q) / 2 == p * (1#2) + q * (1#2)) by field.
    assert (Ew : w / 2 == w * (1#2)) by field.
    rewrite Ew. rewrite E in Em.
    repeat split; apply Qabs_Qle_condition; split; lra.
  Qed.

  Lemma turn_inv tol lo hi w high a b high' a' b' :
    pair lo hi w a b -> bisect_turn coeff vapor known phi tol high a b = Ok (high', a', b') ->
    pair lo hi (w / 2) a' b'.
  Proof.
    intros (Ea & Eb & p & q & Ya & Yb & (Hp1 & Hp2) & (Hq1 & Hq2) & W). unfold bisect_turn. rewrite Ya, Yb, mean_fin.
    intros H. ok H. destruct (bend_eval _ _ E) as (Em & Ym).
    set (m := (p + q) / 2) in *. assert (Dm : m == (p + q) / 2) by reflexivity. clearbody m.
    destruct (half_abs p q w m Dm W) as (W1 & W2 & W3).
    assert (Hm : lo <= m <= hi).
    { assert (E' : (p + q) / 2 == p * (1#2) + q * (1#2)) by field. rewrite E' in Dm. split; lra. }
    assert (Ga : pair lo hi (w / 2) v b) by (repeat split; auto; exists m, q; auto 8).
    assert (Gb : pair lo hi (w / 2) a v) by (repeat split; auto; exists p, m; auto 8).
    assert (Gc : pair lo hi (w / 2) b v) by (repeat split; auto; exists q, m; auto 8).
    destruct high.
    - destruct (nlt (e_obj v) (e_obj a)); injection H as <- <- <-; assumption.
    - destruct (Nat.eqb (e_flag a) (e_flag v)).
      + destruct (Nat.eqb (e_flag v) 0 && nlt (ndiv (Fin 1) tol) (e_obj v)); injection H as <- <- <-; assumption.
      + destruct (Nat.eqb (e_flag b) (e_flag v)); [|discriminate].
        destruct (Nat.eqb (e_flag v) 0 && nlt (ndiv (Fin 1) tol) (e_obj v)); injection H as <- <- <-; assumption.
  Qed.

  Fixpoint halved (w : Q) (n : nat) : Q := match n with O => w | S k => halved (w / 2) k end.

  Lemma pair_width lo hi w w' a b : pair lo hi w a b -> w <= w' -> pair lo hi w' a b.
  Proof.
    intros (Ea & Eb & p & q & Ya & Yb & Hp & Hq & W) L. repeat split; auto.
    exists p, q. repeat split; auto; try tauto. eapply Qle_trans; eassumption.
  Qed.

  Lemma halved_le n : forall w, 0 <= w -> halved w n <= w.
  Proof.
    induction n as [|n IH]; intros w H; cbn; [apply Qle_refl|].
    assert (E : w / 2 == w * (1#2)) by field.
    eapply Qle_trans; [apply IH; rewrite E; lra|rewrite E; lra].
  Qed.

  Lemma bisect_inv tol lo hi fuel : forall w high a b a' b',
    0 <= w -> pair lo hi w a b -> bisect fuel (Fin tol) high a b = Ok (a', b') ->
    exists w', pair lo hi w' a' b' /\
      (w' <= halved w fuel \/ exists p q, e_y a' = Fin p /\ e_y b' = Fin q /\ Qabs (q - p) < tol) /\ w' <= w.
  Proof.
    induction fuel as [|n IH]; intros w high a b a' b' Hw Pw H; cbn [InnerModel.bisect] in H.
    - injection H as <- <-. exists w. repeat split; try assumption; try apply Pw; [left; apply Qle_refl|apply Qle_refl].
    - ok H. destruct v as ((h' & a1) & b1). pose proof (turn_inv _ _ _ _ _ _ _ _ _ _ Pw E) as P1.
      assert (Ew : w / 2 == w * (1#2)) by field.
      destruct (nlt (nabs (nsub (e_y b1) (e_y a1))) (Fin tol)) eqn:T.
      + injection H as <- <-. exists (w / 2). split; [assumption|]. split; [|rewrite Ew; lra].
        right. destruct P1 as (_ & _ & p & q & Ya & Yb & _). exists p, q. repeat split; try assumption.
        rewrite Ya, Yb in T. apply nlt_fin in T. exact T.
      + destruct (IH (w / 2) h' a1 b1 a' b') as (w' & P' & C & L); [rewrite Ew; lra|assumption|assumption|].
        exists w'. split; [assumption|]. split; [|rewrite Ew in L; lra]. exact C.
  Qed.

(** C99: what the bisection returns is a composition between the two it started from, with the flag found
    at exactly that composition. *)
Theorem C99_inside : forall lo hi n tol c f,
  lo <= hi -> bracket (Fin lo) (Fin hi) n (Fin tol) = Ok (c, f) ->
  exists y o, c = [Fin y; nsub (Fin 1) (Fin y)] /\ lo <= y <= hi /\ kind_at y f /\ obj (Fin y) = Ok (o, f).
Proof.
  intros lo hi n tol c f L H. unfold bracket_bounding in H. ok H. ok H.
  destruct (bend_eval _ _ E) as (Ea & Ya). destruct (bend_eval _ _ E0) as (Eb & Yb).
  assert (G : forall e, evaluated e -> (exists y, e_y e = Fin y /\ lo <= y <= hi) ->
    exists y o, binary (e_y e) = [Fin y; nsub (Fin 1) (Fin y)] /\ lo <= y <= hi /\ kind_at y (e_flag e) /\ obj (Fin y) = Ok (o, e_flag e)).
  { intros e Ee (y & Y & B). unfold evaluated in Ee. rewrite Y in *. exists y, (e_obj e). pose proof (obj_kind _ _ _ Ee). auto. }
  destruct (Nat.eqb (e_flag v) (e_flag v0)).
  - injection H as <- <-. apply G; [assumption|]. exists hi. rewrite Yb. repeat split; lra.
  - ok H. destruct v1 as (a' & b').
    assert (P0 : pair lo hi (hi - lo) v v0).
    { repeat split; auto. exists lo, hi. repeat split; auto; try lra. apply Qabs_Qle_condition. split; lra. }
    destruct (bisect_inv tol lo hi n (hi - lo) false v v0 a' b') as (w' & (Ea' & Eb' & p & q & Yp & Yq & Hp & Hq & _) & _);
      [lra|assumption|assumption|].
    assert (Ga := G a' Ea' (ex_intro _ p (conj Yp Hp))). assert (Gb := G b' Eb' (ex_intro _ q (conj Yq Hq))).
    clear E1. destruct (Nat.eqb (e_flag a') 0), (Nat.eqb (e_flag b') 0);
      try (injection H as <- <-; assumption);
      (destruct (is_nan (e_obj a') || is_nan (e_obj b')); [discriminate|]);
      destruct (nle (e_obj a') (e_obj b')); injection H as <- <-; assumption.
Qed.

  (** every vapor met has an objective that is not huge *)
  Definition moderate (tol : Q) : Prop := forall y o, obj y = Ok (o, 0%nat) -> nlt (ndiv (Fin 1) (Fin tol)) o = false.

  Lemma turn_flags tol a b h' a' b' : moderate tol ->
    bisect_turn coeff vapor known phi (Fin tol) false a b = Ok (h', a', b') ->
    h' = false /\ e_flag a' = e_flag a /\ e_flag b' = e_flag b.
  Proof.
    intros M H. unfold bisect_turn in H. ok H. destruct (bend_eval _ _ E) as (Em & _).
    assert (K : Nat.eqb (e_flag v) 0 && nlt (ndiv (Fin 1) (Fin tol)) (e_obj v) = false).
    { destruct (Nat.eqb (e_flag v) 0) eqn:F; [|reflexivity]. apply Nat.eqb_eq in F. unfold evaluated in Em. rewrite F in Em.
      apply (M _ _ Em). }
    rewrite K in H. destruct (Nat.eqb (e_flag a) (e_flag v)) eqn:Fa.
    - injection H as <- <- <-. apply Nat.eqb_eq in Fa. auto.
    - destruct (Nat.eqb (e_flag b) (e_flag v)) eqn:Fb; [|discriminate]. injection H as <- <- <-. apply Nat.eqb_eq in Fb. auto.
  Qed.

  Lemma bisect_flags tol fuel : moderate tol -> forall a b a' b',
    bisect fuel (Fin tol) false a b = Ok (a', b') -> e_flag a' = e_flag a /\ e_flag b' = e_flag b.
  Proof.
    intros M. induction fuel as [|n IH]; intros a b a' b' H; cbn [InnerModel.bisect] in H.
    - injection H as <- <-. auto.
    - ok H. destruct v as ((h' & a1) & b1). destruct (turn_flags _ _ _ _ _ _ M E) as (-> & Fa & Fb).
      destruct (nlt (nabs (nsub (e_y b1) (e_y a1))) (Fin tol)).
      + injection H as <- <-. auto.
      + destruct (IH _ _ _ _ H). split; congruence.
  Qed.

(** C99: started from a vapor and something else the bisection returns a vapor, and closer to it than the tolerance
    lies a composition with the other flag, as soon as the halvings allowed make the interval that small. *)
Theorem C99_finds_boundary : forall lo hi n tol olo ohi flo fhi c f,
  lo <= hi -> moderate tol -> halved (hi - lo) n < tol ->
  obj (Fin lo) = Ok (olo, flo) -> obj (Fin hi) = Ok (ohi, fhi) ->
  (flo = 0 /\ fhi <> 0 \/ flo <> 0 /\ fhi = 0)%nat ->
  bracket (Fin lo) (Fin hi) n (Fin tol) = Ok (c, f) ->
  f = 0%nat /\ exists y y' f', c = [Fin y; nsub (Fin 1) (Fin y)] /\ kind_at y 0 /\
    kind_at y' f' /\ f' = (flo + fhi)%nat /\ lo <= y' <= hi /\ Qabs (y' - y) < tol.
Proof.
  intros lo hi n tol olo ohi flo fhi c f L M Hn Ol Oh Hf H.
  unfold bracket_bounding, InnerModel.bend_at in H. rewrite Ol, Oh in H. cbn [rbind fst snd e_flag e_y e_obj] in H.
  set (a := {| e_y := Fin lo; e_obj := olo; e_flag := flo |}) in *.
  set (b := {| e_y := Fin hi; e_obj := ohi; e_flag := fhi |}) in *.
  destruct (Nat.eqb flo fhi) eqn:F; [apply Nat.eqb_eq in F; lia|].
  ok H. destruct v as (a' & b'). destruct (bisect_flags _ _ M _ _ _ _ E) as (Fa & Fb).
  assert (P0 : pair lo hi (hi - lo) a b).
  { repeat split; auto. exists lo, hi. repeat split; auto; try lra. apply Qabs_Qle_condition. split; lra. }
  destruct (bisect_inv tol lo hi n (hi - lo) false a b a' b') as (w' & (Ea & Eb & p & q & Ya & Yb & Hp & Hq & W) & C & _);
    [lra|assumption|assumption|].
  assert (D : Qabs (q - p) < tol).
  { destruct C as [C|(p' & q' & Ya' & Yb' & D)]; [lra|]. rewrite Ya in Ya'. rewrite Yb in Yb'. congruence. }
  assert (D' : Qabs (p - q) < tol) by (rewrite Qabs_Qminus; exact D).
  unfold evaluated in Ea, Eb. rewrite Ya in Ea. rewrite Yb in Eb. cbn [e_flag a] in Fa. cbn [e_flag b] in Fb.
  rewrite Fa, Fb in H. rewrite Fa in Ea. rewrite Fb in Eb.
  destruct Hf as [(-> & N)|(N & ->)]; apply Nat.eqb_neq in N; cbn [Nat.eqb] in H; rewrite N in H; injection H as <- <-.
  - apply obj_kind in Ea. apply obj_kind in Eb. split; [reflexivity|]. exists p, q, fhi. rewrite Ya. auto 10.
  - apply obj_kind in Ea. apply obj_kind in Eb. split; [reflexivity|]. exists q, p, flo. rewrite Yb, Nat.add_0_r. auto 10.
Qed.

(** C99 is false for three kinds of fluid: a midpoint that is neither of the two (say critical, between a liquid and
    a vapor) stops the bisection with an IndexError. *)
Theorem C99_third_kind_refuted : forall lo hi n tol olo ohi om flo fhi fm,
  obj (Fin lo) = Ok (olo, flo) -> obj (Fin hi) = Ok (ohi, fhi) -> obj (Fin ((lo + hi) / 2)) = Ok (om, fm) ->
  flo <> fhi -> fm <> flo -> fm <> fhi ->
  bracket (Fin lo) (Fin hi) (S n) (Fin tol) = Err IndexError.
Proof.
  intros lo hi n tol olo ohi om flo fhi fm Ol Oh Om N1 N2 N3.
  unfold bracket_bounding, InnerModel.bend_at. rewrite Ol, Oh. cbn [rbind fst snd e_flag e_y e_obj].
  rewrite (proj2 (Nat.eqb_neq _ _) N1). cbn [InnerModel.bisect]. unfold bisect_turn. cbn [e_flag e_y e_obj]. rewrite mean_fin.
  unfold InnerModel.bend_at. rewrite Om. cbn [rbind fst snd e_flag e_y e_obj].
  rewrite (proj2 (Nat.eqb_neq _ _) (not_eq_sym N2)), (proj2 (Nat.eqb_neq _ _) (not_eq_sym N3)). reflexivity.
Qed.
End Bisection.

(** ** Least values *)
  Lemma pymin_In l m : pymin l = Ok m -> In m l /\ (Forall (fun a => a <> NaN) l -> forall a, In a l -> nle m a = true).
  Proof.
    destruct l as [|a l]; [discriminate|]. cbn [pymin]. intros H. injection H as <-.
    assert (G : forall l a, let m := fold_left (fun m b => if nlt b m then b else m) l a in
      In m (a :: l) /\ (Forall (fun a => a <> NaN) (a :: l) -> forall b, In b (a :: l) -> nle m b = true)).
    { clear. induction l as [|x l IH]; intros a; cbn [fold_left].
      - split; [now left|]. intros F b [<-|[]]. apply nle_refl. now inversion F.
      - destruct (nlt x a) eqn:X.
        + destruct (IH x) as (A & B). split; [destruct A as [A|A]; [right; left; exact A|right; right; exact A]|].
          intros F b Hb. assert (Fx : Forall (fun a => a <> NaN) (x :: l)) by now inversion F.
          destruct Hb as [<-|Hb]; [|apply B; assumption].
          eapply nle_trans; [apply B; [assumption|now left]|]. apply nlt_le; assumption.
        + destruct (IH a) as (A & B). split; [destruct A as [A|A]; [left; exact A|right; right; exact A]|].
          intros F b Hb. inversion_clear F as [|? ? Na F']. inversion_clear F' as [|? ? Nx F''].
          assert (Fa : Forall (fun a => a <> NaN) (a :: l)) by (constructor; assumption).
          destruct Hb as [<-|[<-|Hb]].
          * apply B; [assumption|now left].
          * eapply nle_trans; [apply B; [assumption|now left]|]. apply nlt_false_nle; assumption.
          * apply B; [assumption|now right]. }
    apply G.
  Qed.

  Lemma In_where l m : forall i, In i (where_eq l m) <-> exists a, nth_error l i = Some a /\ neqb a m = true.
  Proof.
    assert (G : forall l k i, In i (map fst (filter (fun p : nat * num => neqb (snd p) m) (combine (seq k (length l)) l))) <->
      (k <= i)%nat /\ exists a, nth_error l (i - k) = Some a /\ neqb a m = true).
    { clear. induction l as [|x l IH]; intros k i; cbn [length seq combine filter map].
      - split; [intros []|]. intros (_ & a & H & _). destruct (i - k)%nat; discriminate.
      - cbn [snd]. destruct (neqb x m) eqn:X; cbn [map fst In].
        + split.
          * intros [<-|H]; [rewrite Nat.sub_diag; split; [lia|]; exists x; auto|]. apply IH in H as (L & a & Ha & Hm). split; [lia|].
            exists a. replace (i - k)%nat with (S (i - S k)) by lia. auto.
          * intros (L & a & Ha & Hm). destruct (Nat.eq_dec k i); [auto|]. right. apply IH. split; [lia|]. exists a.
            replace (i - k)%nat with (S (i - S k)) in Ha by lia. auto.
        + rewrite IH. split.
          * intros (L & a & Ha & Hm). split; [lia|]. exists a. replace (i - k)%nat with (S (i - S k)) by lia. auto.
          * intros (L & a & Ha & Hm). destruct (Nat.eq_dec k i) as [->|N].
            -- rewrite Nat.sub_diag in Ha. injection Ha as <-. congruence.
            -- split; [lia|]. exists a. replace (i - k)%nat with (S (i - S k)) in Ha by lia. auto. }
    intros i. unfold where_eq. rewrite G, Nat.sub_0_r. split; [tauto|]. intros H. split; [lia|exact H].
  Qed.

  Lemma argmin_spec l i : argmin l = Ok i -> exists m, nth_error l i = Some m /\ (Forall (fun a => a <> NaN) l -> forall a, In a l -> nle m a = true).
  Proof.
    unfold argmin, first_eq. intros H. ok H. destruct (pymin_In _ _ E) as (Iv & Mv).
    destruct (where_eq l v) as [|i' is_] eqn:W; [discriminate|]. injection H as <-.
    assert (Hi : In i' (where_eq l v)) by (rewrite W; now left). apply In_where in Hi as (m & Hm & Em).
    exists m. split; [exact Hm|]. intros F a Ha. specialize (Mv F a Ha).
    destruct m, v; try discriminate; destruct a; try discriminate; try reflexivity.
    apply Qeq_bool_iff in Em. apply nle_fin in Mv. apply nle_fin. lra.
  Qed.

  Lemma drop_Permutation {A} (l : list A) i x : nth_error l i = Some x -> Permutation l (x :: drop_nth l i).
  Proof.
    intros H. apply nth_error_split in H as (l1 & l2 & -> & <-). unfold drop_nth.
    rewrite firstn_app, Nat.sub_diag, firstn_all, app_nil_r. rewrite skipn_app, (skipn_all2 l1) by lia.
    replace (S (length l1) - length l1)%nat with 1%nat by lia. cbn. symmetry. apply Permutation_middle.
  Qed.


(** ** The search over a range of binary compositions (C98) *)
Section Searching.
  Variable coeff : list num -> result (list num * nat).
  Variable vapor : bool.
  Variables (known phi : list num).
  Variable akima : list (num * num) -> result (list (num * num)).
  Notation obj c := (objective_find coeff vapor known phi c).
  Notation find := (find_new coeff vapor known phi akima).

  (** The stationary points of an interpolant lie between the points it interpolates.  scipy marks sections that are
      constant by NaN after their start. *)
  Definition akima_inside : Prop := forall a b pts rs, akima pts = Ok rs ->
    Forall (fun p => between a b (fst p)) pts ->
    Forall (fun r => between a b (fst r) \/ snd r = NaN) rs /\ (forall r, rs = [r] -> between a b (fst r)).

  Lemma mapM_In {A B} (f : A -> result B) l r : mapM f l = Ok r ->
    forall b, In b r -> exists a, In a l /\ f a = Ok b.
  Proof.
    revert r. induction l as [|a l IH]; intros r H b Hb; cbn in H.
    - injection H as <-. destruct Hb.
    - ok H. ok H. injection H as <-. destruct Hb as [<-|Hb]; [exists a; cbn; auto|].
      destruct (IH _ eq_refl b Hb) as (a' & Ha & E'). exists a'. cbn; auto.
  Qed.

  Lemma mapM_ok {A B} (f : A -> result B) l r : mapM f l = Ok r ->
    forall a, In a l -> exists b, In b r /\ f a = Ok b.
  Proof.
    revert r. induction l as [|x l IH]; intros r H a Ha; cbn in H; [destruct Ha|].
    ok H. ok H. injection H as <-. destruct Ha as [<-|Ha]; [exists v; cbn; auto|].
    destruct (IH _ eq_refl a Ha) as (b & Hb & E'). exists b. cbn; auto.
  Qed.

  Lemma grid_inside lo hi n : lo <= hi -> Forall (between lo hi) (grid (Fin lo) (Fin hi) n).
  Proof.
    intros L. apply Forall_forall. intros x Hx. unfold grid in Hx. apply in_map_iff in Hx as (i & <- & Hi).
    apply in_seq in Hi. cbn [nsub nneg nadd nmul]. eexists; split; [reflexivity|].
    set (t := inject_Z (Z.of_nat i) / inject_Z (Z.of_nat (n - 1))).
    assert (Ht : 0 <= t /\ t <= 1).
    { unfold t. destruct (Nat.eq_dec (n - 1) 0) as [E|E].
      - rewrite E. assert (i = 0)%nat by lia. subst i. split; vm_compute; discriminate.
      - assert (0 < inject_Z (Z.of_nat (n - 1))) by (change 0 with (inject_Z 0); rewrite <- Zlt_Qlt; lia).
        split; [apply Qle_shift_div_l|apply Qle_shift_div_r]; try assumption.
        + rewrite Qmult_0_l. change 0 with (inject_Z 0). rewrite <- Zle_Qle. lia.
        + rewrite Qmult_1_l. rewrite <- Zle_Qle. lia. }
    destruct Ht. split; nra.
  Qed.

  Lemma In_drop {A} (l : list A) i x : In x (drop_nth l i) -> In x l.
  Proof.
    unfold drop_nth. intros H. apply in_app_or in H as [H|H].
    - rewrite <- (firstn_skipn i l). apply in_or_app; auto.
    - rewrite <- (firstn_skipn (S i) l). apply in_or_app; auto.
  Qed.

  Lemma candidates_inside a b pts rs cs :
    candidates coeff vapor known phi pts rs = Ok cs ->
    Forall (fun p => between a b (fst p)) pts ->
    Forall (fun r => between a b (fst r) \/ snd r = NaN) rs -> (forall r, rs = [r] -> between a b (fst r)) ->
    Forall (between a b) cs.
  Proof.
    intros H Fp Fr F1. unfold candidates in H. destruct rs as [|r1 [|r2 rs]].
    - injection H as <-. constructor.
    - injection H as <-. constructor; [auto|constructor].
    - set (RS := r1 :: r2 :: rs) in *.
      set (m0 := map fst (filter (fun r => nlt (Fin 0) (snd r)) RS)) in *.
      assert (F0 : Forall (between a b) m0).
      { unfold m0. apply Forall_forall. intros x Hx. apply in_map_iff in Hx as (r & <- & Hr). apply filter_In in Hr as (Hr & P).
        rewrite Forall_forall in Fr. destruct (Fr r Hr) as [|E]; [assumption|]. rewrite E in P. discriminate. }
      set (m1 := match pts with
                      | a :: b :: _ => if nlt (snd a) (snd b) then fst a :: m0 else m0
                      | _ => m0 end) in *.
      assert (Fm1 : Forall (between a b) m1).
      { unfold m1. destruct pts as [|p1 [|p2 pts]]; try assumption.
        destruct (nlt (snd p1) (snd p2)); [|assumption]. constructor; [|assumption]. now inversion Fp. }
      set (m2 := match rev pts with
                      | a :: b :: _ => if nlt (snd a) (snd b) then m1 ++ [fst a] else m1
                      | _ => m1 end) in *.
      assert (Fm2 : Forall (between a b) m2).
      { unfold m2. assert (Fv : Forall (fun p => between a b (fst p)) (rev pts)) by now apply Forall_rev.
        destruct (rev pts) as [|p1 [|p2 ps]]; try assumption.
        destruct (nlt (snd p1) (snd p2)); [|assumption]. apply Forall_app. split; [assumption|]. constructor; [|constructor].
        now inversion Fv. }
      clearbody m2. clear m1 Fm1 m0 F0.
      ok H. ok H.
      assert (Fd : Forall (between a b) (drop_nth m2 v0)).
      { apply Forall_forall. intros x Hx. rewrite Forall_forall in Fm2. apply Fm2. eapply In_drop; eassumption. }
      destruct (vapor && (1 <? length (drop_nth m2 v0))%nat).
      + ok H. ok H.
        set (among := match filter (fun e => negb (Nat.eqb (snd (snd e)) 1)) v1 with [] => v1 | _ => _ end) in *.
        assert (Fa : forall e, In e among -> In e v1).
        { unfold among. intros e. destruct (filter _ v1) eqn:Ef; [auto|]. rewrite <- Ef. intros He. now apply filter_In in He. }
        destruct (nth_error among v2) as [e|] eqn:En; [|discriminate]. injection H as <-. constructor; [|constructor].
        apply nth_error_In, Fa in En. destruct (mapM_In _ _ _ E1 e En) as (y & Hy & Ey). ok Ey. injection Ey as <-. cbn [fst].
        rewrite Forall_forall in Fd. auto.
      + injection H as <-. assumption.
  Qed.

(** C98: the search returns a binary composition within the limits, or reports that no composition tried
    has an objective. *)
Theorem C98_inside : akima_inside -> forall lo hi n c, lo <= hi ->
  find (Fin lo) (Fin hi) n = Ok c ->
  (exists y, c = [Fin y; nsub (Fin 1) (Fin y)] /\ lo <= y <= hi) \/
  (c = [NaN; NaN] /\ forall y, In y (grid (Fin lo) (Fin hi) n) -> exists f, obj (binary y) = Ok (NaN, f)).
Proof.
  intros A lo hi n c L H. unfold find_new in H. ok H.
  pose proof (grid_inside lo hi n L) as G. rewrite Forall_forall in G.
  set (tmp := filter (fun e : num * num => negb (is_nan (snd e))) v) in *.
  assert (Ft : Forall (fun p => between lo hi (fst p)) tmp).
  { apply Forall_forall. intros p Hp. apply filter_In in Hp as (Hp & _).
    destruct (mapM_In _ _ _ E p Hp) as (y & Hy & Ey). ok Ey. injection Ey as <-. cbn. auto. }
  assert (Out : forall y, between lo hi y -> exists q, binary y = [Fin q; nsub (Fin 1) (Fin q)] /\ lo <= q <= hi).
  { intros y (q & -> & Hq). exists q. split; [reflexivity|assumption]. }
  destruct tmp as [|t0 ts] eqn:Et.
  - right. injection H as <-. split; [reflexivity|]. intros y Hy.
    destruct (mapM_ok _ _ _ E y Hy) as (b & Hb & Eb). ok Eb. destruct v0 as [o f]. injection Eb as <-.
    exists f. cbn [fst] in *. assert (Ho : is_nan o = true).
    { destruct (is_nan o) eqn:No; [reflexivity|]. exfalso.
      assert (In (y, o) tmp). { unfold tmp. apply filter_In. split; [assumption|]. cbn. now rewrite No. }
      rewrite Et in H. destruct H. }
    destruct o; try discriminate. reflexivity.
  - left. rewrite <- Et in *. clear Et. ok H. ok H. destruct (A lo hi _ _ E0 Ft) as (Fr & F1).
    pose proof (candidates_inside lo hi _ _ _ E1 Ft Fr F1) as Fc.
    destruct v1 as [|y ys].
    + ok H. destruct (nth_error tmp v1) as [e|] eqn:En; [|discriminate]. injection H as <-. apply Out.
      rewrite Forall_forall in Ft. apply Ft. eapply nth_error_In; eassumption.
    + injection H as <-. apply Out. now inversion Fc.
Qed.

(** The abscissas considered: the minima of the interpolated objective and the ends towards which the objective falls. *)
Definition considered (pts rs : list (num * num)) (v : num) : Prop :=
  (exists r, In r rs /\ v = fst r /\ nlt (Fin 0) (snd r) = true) \/
  (exists a b l, pts = a :: b :: l /\ v = fst a /\ nlt (snd a) (snd b) = true) \/
  (exists a b l, pts = l ++ [b; a] /\ v = fst a /\ nlt (snd a) (snd b) = true).

(** C98: with several stationary points the one considered that is nearest to the known composition is discarded; among the
    others a vapor search returns one that is not a liquid if there is one. *)
Theorem C98_choice : forall pts rs cs x0 y, candidates coeff vapor known phi pts rs = Ok cs -> (2 <= length rs)%nat ->
  nth_error known 0 = Some (Fin x0) -> 0 < x0 -> In y cs ->
  (forall r, In r rs -> exists q, fst r = Fin q) -> (forall p, In p pts -> exists q, fst p = Fin q) ->
  exists minima d rest, (forall v, In v minima <-> considered pts rs v) /\ Permutation minima (Fin d :: rest) /\ In y rest /\
    (forall q, In (Fin q) minima -> Qabs (d - x0) <= Qabs (q - x0)) /\
    (vapor = true -> (2 <= length rest)%nat ->
       exists o f, obj (binary y) = Ok (o, f) /\ (f = 1%nat -> forall y', In y' rest -> exists o', obj (binary y') = Ok (o', 1%nat))).
Proof.
  intros pts rs cs x0 y H L Hk X0 Hy Fr Fp. unfold candidates in H. destruct rs as [|r1 [|r2 rs]]; [cbn in L; lia|cbn in L; lia|].
  set (RS := r1 :: r2 :: rs) in *.
  set (m0 := map fst (filter (fun r => nlt (Fin 0) (snd r)) RS)) in *.
  assert (F0 : forall v, In v m0 -> exists q, v = Fin q).
  { unfold m0. intros v Hv. apply in_map_iff in Hv as (r & <- & Hr). apply filter_In in Hr as (Hr & _). auto. }
  assert (I0 : forall v, In v m0 <-> exists r, In r RS /\ v = fst r /\ nlt (Fin 0) (snd r) = true).
  { intros v. unfold m0. rewrite in_map_iff. split.
    - intros (r & <- & Hr). apply filter_In in Hr as (Hr & P). eauto.
    - intros (r & Hr & -> & P). exists r. split; [reflexivity|]. apply filter_In. auto. }
  set (m1 := match pts with
                  | a :: b :: _ => if nlt (snd a) (snd b) then fst a :: m0 else m0
                  | _ => m0 end) in *.
  assert (F1 : forall v, In v m1 -> exists q, v = Fin q).
  { unfold m1. destruct pts as [|p1 [|p2 pts]]; try assumption.
    destruct (nlt (snd p1) (snd p2)); [|assumption]. intros v [<-|Hv]; [apply Fp; now left|auto]. }
  assert (I1 : forall v, In v m1 <-> In v m0 \/ exists a b l, pts = a :: b :: l /\ v = fst a /\ nlt (snd a) (snd b) = true).
  { intros v. unfold m1. split.
    - destruct pts as [|p1 [|p2 pts]]; auto. destruct (nlt (snd p1) (snd p2)) eqn:N; auto. intros [<-|Hv]; [right|auto]. exists p1, p2, pts. auto.
    - intros [Hv|(a & b & l & -> & -> & N)]; [|rewrite N; now left].
      destruct pts as [|p1 [|p2 pts]]; auto. destruct (nlt (snd p1) (snd p2)); auto. now right. }
  set (m2 := match rev pts with
                  | a :: b :: _ => if nlt (snd a) (snd b) then m1 ++ [fst a] else m1
                  | _ => m1 end) in *.
  assert (F2 : forall v, In v m2 -> exists q, v = Fin q).
  { unfold m2. destruct (rev pts) as [|p1 [|p2 ps]] eqn:Er; try assumption.
    destruct (nlt (snd p1) (snd p2)); [|assumption]. intros v Hv. apply in_app_or in Hv as [Hv|[<-|[]]]; [auto|].
    apply Fp. apply in_rev. rewrite Er. now left. }
  assert (I2 : forall v, In v m2 <-> In v m1 \/ exists a b l, pts = l ++ [b; a] /\ v = fst a /\ nlt (snd a) (snd b) = true).
  { intros v. unfold m2. split.
    - destruct (rev pts) as [|p1 [|p2 ps]] eqn:Er; auto. destruct (nlt (snd p1) (snd p2)) eqn:N; auto.
      intros Hv. apply in_app_or in Hv as [Hv|[<-|[]]]; [auto|right]. exists p1, p2, (rev ps).
      split; [|auto]. rewrite <- (rev_involutive pts), Er. cbn. rewrite <- app_assoc. reflexivity.
    - intros [Hv|(a & b & l & Ep & -> & N)].
      + destruct (rev pts) as [|p1 [|p2 ps]]; auto. destruct (nlt (snd p1) (snd p2)); auto. apply in_or_app. auto.
      + assert (Er : rev pts = a :: b :: rev l) by (rewrite Ep, rev_app_distr; reflexivity). rewrite Er, N. apply in_or_app. right. now left. }
  assert (IC : forall v, In v m2 <-> considered pts RS v).
  { intros v. unfold considered. rewrite I2, I1, I0. tauto. }
  clearbody m2. unfold at_ in H. rewrite Hk in H. cbn [rbind] in H. ok H.
  set (dist := fun v => ndiv (nabs (nsub v (Fin x0))) (Fin x0)) in *.
  destruct (argmin_spec _ _ E) as (md & Hm & Mm). rewrite nth_error_map in Hm. destruct (nth_error m2 v) as [dn|] eqn:Hd; [|discriminate].
  injection Hm as <-. destruct (F2 dn (nth_error_In _ _ Hd)) as (d & ->).
  assert (Dist : forall q, dist (Fin q) = Fin (Qabs (q - x0) / x0)).
  { intros q. unfold dist. cbn. destruct (Qeq_bool x0 0) eqn:Z; [apply Qeq_bool_iff in Z; lra|reflexivity]. }
  exists m2, d, (drop_nth m2 v).
  split; [exact IC|]. split; [apply drop_Permutation; exact Hd|].
  assert (Near : forall q, In (Fin q) m2 -> Qabs (d - x0) <= Qabs (q - x0)).
  { intros q Hq. assert (Le : nle (dist (Fin d)) (dist (Fin q)) = true).
    { apply Mm; [|apply in_map; exact Hq]. apply Forall_forall. intros w Hw. apply in_map_iff in Hw as (u & <- & Hu).
      destruct (F2 u Hu) as (uq & ->). rewrite Dist. discriminate. }
    rewrite !Dist in Le. apply nle_fin in Le.
    apply (Qmult_le_r _ _ (/ x0)); [apply Qinv_lt_0_compat; exact X0|exact Le]. }
  destruct (vapor && Nat.ltb 1 (length (drop_nth m2 v))) eqn:V.
  - ok H. ok H.
    set (vs := filter (fun e : num * (num * nat) => negb (Nat.eqb (snd (snd e)) 1)) v0) in *.
    set (among := match vs with [] => v0 | _ => vs end) in *.
    destruct (nth_error among v1) as [e|] eqn:En; [|discriminate]. injection H as <-. destruct Hy as [<-|[]].
    apply nth_error_In in En.
    assert (Ie : In e v0) by (unfold among in En; destruct vs eqn:Ev; [exact En|]; rewrite <- Ev in En; now apply filter_In in En).
    destruct (mapM_In _ _ _ E0 e Ie) as (y0 & Hy0 & Ey). ok Ey. injection Ey as <-. cbn [fst snd] in *.
    split; [exact Hy0|]. split; [exact Near|].
    intros _ _. destruct v2 as [o f]. exists o, f. split; [assumption|]. intros -> y' Hy'.
    destruct (mapM_ok _ _ _ E0 y' Hy') as (e' & Ie' & Ee'). ok Ee'. destruct v2 as [o' f']. injection Ee' as <-.
    exists o'. f_equal. f_equal. destruct (Nat.eq_dec f' 1) as [->|N]; [reflexivity|]. exfalso.
    assert (I' : In (y', (o', f')) vs) by (unfold vs; apply filter_In; split; [exact Ie'|]; cbn; apply Nat.eqb_neq in N; now rewrite N).
    unfold among in En. destruct vs as [|w ws] eqn:Ev; [destruct I'|]. rewrite <- Ev in En. unfold vs in En. apply filter_In in En as (_ & En). discriminate.
  - injection H as <-. split; [exact Hy|]. split; [exact Near|].
    intros Ev Lr. rewrite Ev in V. rewrite andb_true_l in V. apply Nat.ltb_ge in V. lia.
Qed.

(** C98 is false of compositions without a density: one of them in the range, after others that are fine,
    stops the search with a ValueError although it is meant to skip them. *)
Theorem C98_skips_refuted : forall lo hi n pre y post p f,
  grid lo hi n = pre ++ y :: post ->
  (forall y', In y' pre -> exists r, obj (binary y') = Ok r) ->
  coeff (normalise (binary y)) = Ok (p, f) -> existsb is_nan p = true ->
  find lo hi n = Err ValueError.
Proof.
  intros lo hi n pre y post p f G Hpre Hc Hn.
  assert (Bad : obj (binary y) = Err ValueError).
  { unfold objective_find. rewrite Hc. cbn [rbind fst]. unfold trial, calc_new_mole_fractions, check_fractions.
    destruct vapor; cbn [smem existsb]; cbn -[is_nan].
    - destruct (neqb (nsum known) (Fin 1)); cbn [negb rbind]; [|reflexivity]. now rewrite Hn.
    - destruct (neqb (nsum known) (Fin 1)); cbn [negb rbind]; [|reflexivity].
      destruct (existsb is_nan phi); [reflexivity|]. now rewrite Hn. }
  unfold find_new. rewrite G.
  assert (M : mapM (fun y => let* o := obj (binary y) in Ok (y, fst o)) (pre ++ y :: post) = Err ValueError).
  { clear G. induction pre as [|a pre IH]; cbn [app mapM].
    - rewrite Bad. reflexivity.
    - destruct (Hpre a (or_introl eq_refl)) as (r & ->). cbn [rbind].
      rewrite IH; [reflexivity|]. intros y' Hy'. apply Hpre. right. assumption. }
  rewrite M. reflexivity.
Qed.
End Searching.

(** ** What the inner loops return belongs together (C96) *)
Section Together.
  Variable coeff : list num -> result (list num * nat).
  Variables (known phi : list num).
  Variable akima : list (num * num) -> result (list (num * num)).
  Variable rand : nat -> list num.
  Variable lsq : num -> result num.
  Variables (lo hi : num) (npoints : nat) (tol tol_trivial : num).
  Notation vapor_composition := (calc_vapor_composition coeff true known phi akima rand lsq lo hi npoints tol tol_trivial).
  Notation liquid_composition := (calc_liquid_composition coeff false known phi akima rand lsq lo hi npoints tol tol_trivial).
  Notation vloop := (vapor_loop coeff true known phi akima rand lsq lo hi npoints tol tol_trivial).
  Notation lloop := (liquid_loop coeff false known phi akima rand lsq lo hi npoints tol tol_trivial).

  (** the coefficients and the flag are those of the composition *)
  Definition belongs (r : found) : Prop := exists f, f_flag r = Some f /\ coeff (f_comp r) = Ok (f_phi r, f).
  (** reported as not found: NaN coefficients and flag NaN or 3 *)
  Definition not_found (r : found) : Prop := (f_flag r = None \/ f_flag r = Some 3%nat) /\ Forall (fun p => p = NaN) (f_phi r).

  Lemma all_nan {A} (l : list A) : Forall (fun p => p = NaN) (map (fun _ => NaN) l).
  Proof. apply Forall_forall. intros x H. apply in_map_iff in H as (? & <- & _). reflexivity. Qed.

  Lemma vend_together last c flag new cur r :
    belongs cur -> vapor_end coeff true known phi akima lsq lo hi npoints tol last c flag new cur = Ok r -> belongs r \/ not_found r.
  Proof.
    intros B H. unfold vapor_end in H. ok H. destruct (Nat.eqb flag 3).
    - injection H as <-. right. split; [auto|apply all_nan].
    - destruct last; [|injection H as <-; auto]. ok H. ok H. ok H. ok H. ok H. ok H.
      destruct (nlt tol (fst v5)); injection H as <-.
      + right. split; [auto|apply all_nan].
      + left. destruct v4 as [p f]. exists f. cbn. auto.
  Qed.

  Lemma leave_err last f new cur : vapor_end coeff true known phi akima lsq lo hi npoints tol last (binary NaN) f new cur = Err ValueError.
  Proof. reflexivity. Qed.

  Lemma vloop_together rest : forall z cur totals check trivial r,
    vloop rest z cur totals check trivial = Ok r -> belongs r \/ not_found r.
  Proof.
    induction rest as [|n IH]; intros z cur totals check trivial r H; [discriminate|]. cbn [vapor_loop] in H.
    ok H. destruct v as [f|c p flag new check' trivial']; [rewrite leave_err in H; discriminate|].
    ok H. destruct v as [p2 f2]. cbn [fst snd] in H.
    destruct (bouncing totals (nsum (zero_nan new)) flag f2).
    - ok H. ok H. ok H. destruct v1 as [c3 f3]. cbn [fst snd] in H. ok H. destruct v1 as [p4 f4].
      eapply vend_together; [|exact H]. exists f4. auto.
    - ok H.
      assert (B : forall g, belongs {| f_comp := normalise (zero_nan new); f_phi := p2; f_flag := Some f2; f_global := g |})
        by (intros g; exists f2; auto).
      destruct v; [eapply vend_together; [apply B|exact H]|].
      destruct (Nat.eqb n 0); [eapply vend_together; [apply B|exact H]|]. eapply IH; exact H.
  Qed.

(** C96: the fugacity coefficients and the flag a vapor search returns are those of the vapor it
    returns, or it reports by NaN that none was found; at every tolerance, number of iterations and guess. *)
Theorem C96_vapor : forall maxiter guess r, vapor_composition maxiter guess = Ok r -> belongs r \/ not_found r.
Proof.
  intros maxiter guess r H. unfold calc_vapor_composition in H. destruct (any_nan phi); [discriminate|].
  eapply vloop_together; exact H.
Qed.

  Lemma tested_eval b z cur check trivial c p f new check' trivial' :
    test_composition coeff b known phi akima rand lo hi npoints tol_trivial z cur check trivial = Ok (Tested c p f new check' trivial') ->
    coeff c = Ok (p, f) /\ (trial b known phi p = Ok new \/
      new = cur /\ c = normalise cur /\ (any_nan p || wrong_phase b f = true) /\ all_nonzero c && two c = false).
  Proof.
    intros H. unfold test_composition in H. ok H. destruct v as [p0 f0]. cbn [fst snd] in H.
    assert (Ag : forall c' ch, (if any_nan c' then Ok (Leave 3)
      else let* p' := coeff c' in let* new := trial b known phi (fst p') in Ok (Tested c' (fst p') (snd p') new ch false))
      = Ok (Tested c p f new check' trivial') -> coeff c = Ok (p, f) /\ trial b known phi p = Ok new).
    { intros c' ch Hc. destruct (any_nan c'); [discriminate|]. ok Hc. destruct v as [p1 f1]. ok Hc. injection Hc as <- <- <- <- <- <-. auto. }
    destruct ((any_nan p0 || wrong_phase b f0) && check) eqn:W.
    - destruct (all_nonzero (normalise cur) && two (normalise cur)) eqn:N.
      + ok H. destruct (Ag _ _ H). auto.
      + injection H as <- <- <- <- <- <-. split; [assumption|]. right. apply andb_prop in W as (W & _). auto.
    - ok H. destruct (nlt v tol_trivial && trivial).
      + destruct (all_nonzero (normalise cur) && two (normalise cur)).
        * ok H. destruct (Ag _ _ H). auto.
        * destruct (Ag _ _ H). auto.
      + ok H. injection H as <- <- <- <- <- <-. auto.
  Qed.

  (** a composition, its coefficients and flag, and whether the loop ran out *)
  Definition liquid_parts (r : found) : Prop := exists c f, coeff c = Ok (f_phi r, f) /\ f_flag r = Some f /\
    (f_comp r = c \/ exists start x, lsq start = Ok x /\ f_comp r = binary x).

  Lemma lend_parts last c p flag new g r : coeff c = Ok (p, flag) ->
    liquid_end coeff false known phi akima lsq lo hi npoints last c p flag new g = Ok r ->
    coeff c = Ok (f_phi r, flag) /\ f_flag r = Some flag /\
    ((last = false /\ f_comp r = c) \/ (last = true /\ exists start x, lsq start = Ok x /\ f_comp r = binary x)) /\ f_global r = g.
  Proof.
    intros C H. unfold liquid_end in H. ok H. destruct last.
    - ok H. ok H. ok H. ok H. ok H. injection H as <-. cbn. repeat split; auto. right. split; [auto|]. eauto.
    - injection H as <-. cbn. repeat split; auto.
  Qed.

  Lemma lloop_parts rest : forall z cur total check trivial r,
    lloop rest z cur total check trivial = Ok r -> liquid_parts r.
  Proof.
    induction rest as [|n IH]; intros z cur total check trivial r H; [discriminate|]. cbn [liquid_loop] in H.
    ok H. destruct v as [f|c p flag new check' trivial']; [discriminate|].
    destruct (tested_eval _ _ _ _ _ _ _ _ _ _ _ E) as (Ec & _).
    ok H. assert (G : forall g, liquid_end coeff false known phi akima lsq lo hi npoints (Nat.eqb n 0) c p flag (zero_nan new) g = Ok r -> liquid_parts r).
    { intros g Hg. destruct (lend_parts _ _ _ _ _ _ _ Ec Hg) as (A & B & C & _).
      exists c, flag. repeat split; try assumption. destruct C as [(_ & C)|(_ & C)]; auto. }
    destruct v; [eapply G; exact H|]. destruct (Nat.eqb n 0) eqn:N; [eapply G; exact H|]. eapply IH; exact H.
  Qed.

(** C96 for a liquid, in part: the coefficients and the flag are those of the liquid returned unless that one comes
    from the root finder that takes over in the last iteration. *)
Theorem C96_liquid_partial : forall maxiter guess r, liquid_composition maxiter guess = Ok r -> liquid_parts r.
Proof.
  intros maxiter guess r H. unfold calc_liquid_composition in H. destruct (any_nan phi); [discriminate|].
  eapply lloop_parts; exact H.
Qed.
End Together.

(** ** Converged compositions reproduce themselves (C97) *)
Section Converged.
  Variable coeff : list num -> result (list num * nat).
  Variable vapor : bool.
  (** the composition and coefficients of the known phase *)
  Variables (ks fs : list Q).
  Variable akima : list (num * num) -> result (list (num * num)).
  Variable rand : nat -> list num.
  Variable lsq : num -> result num.
  Variables (lo hi : Q) (npoints : nat) (tol : Q) (tol_trivial : num).
  Hypothesis Hk : Forall (fun a => 0 <= a) ks /\ qsum ks == 1.
  Hypothesis Hf : length fs = length ks /\ Forall (fun a => 0 < a) fs.
  (** the equation of state gives a positive coefficient for each component, or NaN *)
  Hypothesis Hcoeff : forall c p f, length c = length ks -> coeff c = Ok (p, f) ->
    existsb is_nan p = true \/ exists ps, p = fin ps /\ length ps = length ks /\ Forall (fun a => 0 < a) ps.
  (** random numbers and the least-squares solver stay where they are documented to *)
  Hypothesis Hrand : forall z, exists r, rand z = fin r /\ length r = length ks /\ Forall (fun a => 0 < a) r.
  Hypothesis Hlsq : forall s x, lsq s = Ok x -> between 0 1 x.
  Hypothesis Hlim : 0 <= lo /\ lo <= hi /\ hi <= 1.
  Hypothesis Hakima : akima_inside akima.

  Notation known := (fin ks).
  Notation phi := (fin fs).

  (** the mole numbers n that a phase with coefficients p must have beside the known phase *)
  Definition equilibrium (ns ps : list Q) : Prop := length ns = length ks /\ length ps = length ks /\
    forall i n p k f, nth_error ns i = Some n -> nth_error ps i = Some p -> nth_error ks i = Some k -> nth_error fs i = Some f ->
      0 <= n /\ n * p == k * f.

  Lemma qsum_pos l : Forall (fun a => 0 <= a) l -> 0 <= qsum l.
  Proof. induction 1; cbn; [lra|]. unfold qsum in IHForall. lra. Qed.

  Lemma equilibrium_sum ns ps : Forall (fun a => 0 < a) ps -> equilibrium ns ps -> Forall (fun a => 0 <= a) ns /\ 0 < qsum ns.
  Proof.
    intros Fp (Ln & Lp & R). destruct Hk as (Fk & Sk), Hf as (Lf & Ff).
    assert (A : forall ns' ps' ks' fs', length ns' = length ks' -> length ps' = length ks' -> length fs' = length ks' ->
      Forall (fun a => 0 < a) ps' -> Forall (fun a => 0 < a) fs' -> Forall (fun a => 0 <= a) ks' ->
      (forall i n p k f, nth_error ns' i = Some n -> nth_error ps' i = Some p -> nth_error ks' i = Some k -> nth_error fs' i = Some f ->
        0 <= n /\ n * p == k * f) ->
      Forall (fun a => 0 <= a) ns' /\ (0 < qsum ks' -> 0 < qsum ns')).
    { clear. induction ns' as [|n ns' IH]; intros [|p ps'] [|k ks'] [|f fs'] L1 L2 L3 Fp Ff Fk R; try discriminate.
      - split; [constructor|]. cbn. lra.
      - inversion_clear Fp. inversion_clear Ff. inversion_clear Fk.
        destruct (IH ps' ks' fs') as (A & B); cbn in *; try congruence; try assumption; try lia.
        { intros i. exact (R (S i)). }
        destruct (R 0%nat n p k f eq_refl eq_refl eq_refl eq_refl) as (N0 & E).
        split; [constructor; assumption|]. intros S. pose proof (qsum_pos ks' H4). pose proof (qsum_pos ns' A). unfold qsum in *.
        destruct (Qlt_le_dec 0 (fold_right Qplus 0 ks')) as [P|P]; [specialize (B P); lra|].
        assert (0 < k) by lra. assert (0 < k * f) by nra. assert (0 < n) by nra. lra. }
    destruct (A ns ps ks fs Ln Lp Lf Fp Ff Fk R) as (B & C). split; [assumption|]. apply C. lra.
  Qed.

  Lemma length_fin l : length (fin l) = length l.
  Proof. apply map_length. Qed.

  Lemma fin_inj a b : fin a = fin b -> a = b.
  Proof. revert b. induction a as [|x a IH]; intros [|y b] H; try discriminate; [reflexivity|]. injection H as -> H. f_equal; auto. Qed.

  Lemma trial_spec c p f new : length c = length ks -> coeff c = Ok (p, f) -> trial vapor known phi p = Ok new ->
    exists ps ns, p = fin ps /\ new = fin ns /\ Forall (fun a => 0 < a) ps /\ equilibrium ns ps.
  Proof.
    intros Lc Ec T. destruct Hk as (Fk & Sk), Hf as (Lf & Ff).
    destruct (Hcoeff c p f Lc Ec) as [N|(ps & -> & Lp & Fp)].
    - exfalso. unfold trial, calc_new_mole_fractions, check_fractions in T. destruct vapor; cbn -[is_nan nsum] in T.
      + destruct (neqb (nsum known) (Fin 1)); cbn -[is_nan] in T; [|discriminate]. rewrite N in T. discriminate.
      + destruct (neqb (nsum known) (Fin 1)); cbn -[is_nan] in T; [|discriminate]. rewrite N, (not_nan_fin fs) in T. discriminate.
    - exists ps. unfold trial in T. destruct vapor.
      + destruct (C38_trial_composition "vapor" ks fs ps) as (ns & o & E & _ & Ln & R & _); auto.
        rewrite E in T. injection T as <-. exists ns. repeat split; auto; intros; edestruct R as (? & ?); eauto.
      + destruct (C38_trial_composition "liquid" ks ps fs) as (ns & o & E & _ & Ln & R & _); auto.
        rewrite E in T. injection T as <-. exists ns. repeat split; auto; intros; edestruct R as (? & ?); eauto.
  Qed.

  Lemma normalise_fin l : 0 < qsum l -> normalise (fin l) = fin (map (fun a => a / qsum l) l).
  Proof.
    intros P. unfold normalise. rewrite nsum_fin. unfold fin. rewrite !map_map. apply map_ext. intros a. cbn.
    destruct (Qeq_bool (qsum l) 0) eqn:E; [apply Qeq_bool_iff in E; lra|reflexivity].
  Qed.

  Lemma qsum_div l s : ~ s == 0 -> qsum (map (fun a => a / s) l) == qsum l / s.
  Proof. intros N. induction l as [|a l IH]; cbn; [field; assumption|]. unfold qsum in IH. rewrite IH. field. assumption. Qed.

  Lemma normalise_composition l : Forall (fun a => 0 <= a) l -> 0 < qsum l -> composition (normalise (fin l)).
  Proof.
    intros F P. rewrite normalise_fin by assumption. eexists; split; [reflexivity|]. split.
    - apply Forall_map. eapply Forall_impl; [|exact F]. intros a Ha. apply Qle_shift_div_l; [assumption|]. rewrite Qmult_0_l. exact Ha.
    - rewrite qsum_div by lra. field. lra.
  Qed.

  Lemma zero_nan_fin l : zero_nan (fin l) = fin l.
  Proof. unfold zero_nan, fin. rewrite map_map. apply map_ext. reflexivity. Qed.

  Lemma length_normalise l : length (normalise l) = length l.
  Proof. apply map_length. Qed.

  Lemma binary_composition y : between 0 1 y -> composition (binary y).
  Proof.
    intros (q & -> & H0 & H1). exists [q; 1 - q]. split; [reflexivity|]. split; [repeat constructor; lra|]. cbn. ring.
  Qed.

  (** amounts the loop carries: finite, not negative, not all zero, one for each component *)
  Definition amounts (l : list num) : Prop := exists q, l = fin q /\ length q = length ks /\ Forall (fun a => 0 <= a) q /\ 0 < qsum q.

  Lemma amounts_composition l : amounts l -> composition (normalise l) /\ length (normalise l) = length ks.
  Proof.
    intros (q & -> & L & F & P). split; [apply normalise_composition; assumption|]. now rewrite length_normalise, length_fin.
  Qed.

  Lemma composition_nonempty c : composition c -> exists a b, 0 <= a <= 1 /\ c = Fin a :: b.
  Proof.
    intros (q & -> & F & S). destruct q as [|a q]; [cbn in S; lra|]. exists a, (fin q). split; [|reflexivity].
    inversion_clear F. pose proof (qsum_pos q H0). cbn in S. unfold qsum in *. lra.
  Qed.

  Lemma find_composition c : find_new coeff vapor known phi akima (Fin lo) (Fin hi) npoints = Ok c ->
    any_nan c = true \/ composition c.
  Proof.
    intros H. destruct (C98_inside coeff vapor known phi akima Hakima lo hi npoints c (proj1 (proj2 Hlim)) H) as [(y & -> & Hy)|(-> & _)].
    - right. apply binary_composition. exists y. destruct Hlim as (? & ? & ?). repeat split; lra.
    - left. reflexivity.
  Qed.

  Lemma composition_not_nan c : composition c -> any_nan c = false.
  Proof. intros (q & -> & _). apply not_nan_fin. Qed.

  Lemma find_two c : find_new coeff vapor known phi akima (Fin lo) (Fin hi) npoints = Ok c -> length c = 2%nat.
  Proof.
    intros H. destruct (C98_inside coeff vapor known phi akima Hakima lo hi npoints c (proj1 (proj2 Hlim)) H) as [(y & -> & Hy)|(-> & _)]; reflexivity.
  Qed.

  (** what a tested composition is: a composition of the right length; the new amounts are in equilibrium or,
      when it is the wrong phase and no search is possible, unchanged *)
  Lemma tested_spec z cur check trivial c p f new check' trivial' : amounts cur ->
    test_composition coeff vapor known phi akima rand (Fin lo) (Fin hi) npoints tol_trivial z cur check trivial
      = Ok (Tested c p f new check' trivial') ->
    composition c /\ length c = length ks /\ amounts new /\ coeff c = Ok (p, f) /\
    ((exists ps ns, p = fin ps /\ new = fin ns /\ equilibrium ns ps) \/
     (new = cur /\ c = normalise cur /\ (any_nan p || wrong_phase vapor f) = true /\ all_nonzero c && two c = false)).
  Proof.
    intros Ac H. pose proof (tested_eval _ _ _ _ _ _ _ _ _ _ _ _ _ _ _ _ _ _ _ _ H) as (Ec & T).
    assert (C : composition c /\ length c = length ks).
    { destruct (amounts_composition cur Ac) as (Cc & Lc). clear T.
      unfold test_composition in H. ok H. destruct v as [p0 f0]. cbn [fst snd] in H.
      assert (Ag : forall c' ch, (if any_nan c' then Ok (Leave 3)
        else let* p' := coeff c' in let* new := trial vapor known phi (fst p') in Ok (Tested c' (fst p') (snd p') new ch false))
        = Ok (Tested c p f new check' trivial') -> (any_nan c' = true \/ composition c') -> length c' = length ks ->
        composition c /\ length c = length ks).
      { intros c' ch Hc Cc' Lc'. destruct (any_nan c') eqn:N; [discriminate|]. ok Hc. destruct v as [p1 f1]. ok Hc.
        injection Hc as <- <- <- <- <- <-. destruct Cc' as [Cc'|Cc']; [discriminate|]. auto. }
      assert (Two : all_nonzero (normalise cur) && two (normalise cur) = true -> length ks = 2%nat).
      { intros T. apply andb_prop in T as (_ & T). unfold two in T. apply Nat.eqb_eq in T. congruence. }
      destruct ((any_nan p0 || wrong_phase vapor f0) && check).
      - destruct (all_nonzero (normalise cur) && two (normalise cur)).
        + ok H. apply Ag in H; auto; [apply find_composition; assumption|]. rewrite Two by reflexivity. eapply find_two; eassumption.
        + injection H as <- <- <- <- <- <-. auto.
      - ok H. destruct (nlt v tol_trivial && trivial).
        + destruct (all_nonzero (normalise cur) && two (normalise cur)).
          * ok H. apply Ag in H; auto; [apply find_composition; assumption|]. rewrite Two by reflexivity. eapply find_two; eassumption.
          * destruct (Hrand z) as (r & Er & Lr & Fr). rewrite Er in H.
            assert (Ar : amounts (fin r)).
            { exists r. assert (Fr' : Forall (fun a => 0 <= a) r) by (eapply Forall_impl; [|exact Fr]; cbn; intros; lra).
              repeat split; auto. destruct r as [|x r].
              - destruct Hk as (_ & Sk). destruct ks; [cbn in Sk; lra|discriminate].
              - inversion_clear Fr. inversion_clear Fr'. pose proof (qsum_pos r H3). cbn. unfold qsum in *. lra. }
            destruct (amounts_composition _ Ar) as (Cr & Lr'). apply Ag in H; auto.
        + ok H. injection H as <- <- <- <- <- <-. auto. }
    destruct C as (Cc & Lc). repeat split; auto.
    - destruct T as [T|(-> & _)]; [|assumption]. destruct (trial_spec _ _ _ _ Lc Ec T) as (ps & ns & -> & -> & Fp & R).
      destruct (equilibrium_sum ns ps Fp R) as (Fn & Sn). exists ns. destruct R as (Ln & _). auto.
    - destruct T as [T|T]; [|auto]. left. destruct (trial_spec _ _ _ _ Lc Ec T) as (ps & ns & -> & -> & _ & R). eauto.
  Qed.

  (** ** The smallest fraction *)
  (** The smallest fraction of c that is not zero has changed relatively by less than [tol]. *)
  Definition settled (c c2 : list Q) : Prop := exists i a b, nth_error c i = Some a /\ nth_error c2 i = Some b /\
    0 < a /\ (forall j a', nth_error c j = Some a' -> 0 < a' -> a <= a') /\ Qabs (b - a) < tol * a.

  Lemma settled_spec c c2 ind d : smallest (fin c) = Ok ind -> change ind (fin c2) (fin c) = Ok d -> nlt d (Fin tol) = true ->
    settled c c2.
  Proof.
    intros Hs Hc Hd. unfold smallest in Hs. ok Hs. injection Hs as <-. destruct (pymin_In _ _ E) as (Iv & Mv).
    apply filter_In in Iv as (Iv & Pv). unfold fin in Iv. apply in_map_iff in Iv as (a & <- & Ia).
    destruct (where_eq (fin c) (Fin a)) as [|i [|i' l']] eqn:W; try discriminate. cbn [change] in Hc.
    assert (Wi : In i (where_eq (fin c) (Fin a))) by (rewrite W; now left).
    apply In_where in Wi as (x & Hx & Ex).
    unfold at_ in Hc. rewrite Hx in Hc. unfold fin in Hx. rewrite nth_error_map in Hx.
    destruct (nth_error c i) as [a0|] eqn:Ha; [|discriminate]. injection Hx as <-. apply Qeq_bool_iff in Ex.
    unfold fin in Hc. rewrite nth_error_map in Hc. destruct (nth_error c2 i) as [b|] eqn:Hb; [|discriminate].
    cbn [option_map rbind nsub nneg nadd nabs ndiv] in Hc. apply nlt_fin in Pv.
    destruct (Qeq_bool a0 0) eqn:Z; [apply Qeq_bool_iff in Z; lra|]. injection Hc as <-. apply nlt_fin in Hd.
    exists i, a0, b. assert (P0 : 0 < a0) by lra. repeat split; auto.
    - intros j a' Hj Pa'. assert (L : nle (Fin a) (Fin a') = true).
      { apply Mv.
        - apply Forall_forall. intros y Hy. apply filter_In in Hy as (_ & Hy). apply nlt_not_nan in Hy. tauto.
        - apply filter_In. split; [apply in_map; eapply nth_error_In; eassumption|]. apply nlt_fin. assumption. }
      apply nle_fin in L. lra.
    - apply Qnot_le_lt. intros N. apply (Qlt_not_le _ _ Hd). apply Qle_shift_div_l; [assumption|exact N].
  Qed.

  Notation vloop := (vapor_loop coeff vapor known phi akima rand lsq (Fin lo) (Fin hi) npoints (Fin tol) tol_trivial).
  Notation lloop := (liquid_loop coeff vapor known phi akima rand lsq (Fin lo) (Fin hi) npoints (Fin tol) tol_trivial).
  Notation objective c := (objective_find coeff vapor known phi c).

  (** [c2] are the fractions of the mole numbers [ns] *)
  Definition fractions_of (ns c2 : list Q) : Prop := length c2 = length ns /\
    forall i n x, nth_error ns i = Some n -> nth_error c2 i = Some x -> x == n / qsum ns.
  (** The tested composition [c] with coefficients [ps] predicts the composition [c2], and is settled. *)
  Definition predicts (c c2 : list Q) : Prop := exists ps ns f, coeff (fin c) = Ok (fin ps, f) /\
    equilibrium ns ps /\ fractions_of ns c2 /\ settled c c2.
  (** The composition is the wrong phase (or has no density), and has a zero fraction or is not binary, so that
      no other was looked for. *)
  Definition given_up (c : list num) : Prop := exists p f, coeff c = Ok (p, f) /\
    (existsb is_nan p = true \/ (if vapor then f = 1 else f = 0 \/ f = 4)%nat) /\ (length c <> 2%nat \/ In (Fin 0) c \/ exists q, q == 0 /\ In (Fin q) c).
  (** It minimises the objective as far as the tolerance asks. *)
  Definition solved (c : list num) : Prop := exists o f, objective c = Ok (o, f) /\ nlt (Fin tol) o = false.
  (** It comes from the bisection between two compositions with different flags. *)
  Definition bisected (c : list num) : Prop := exists y o f t t2 p p2 f1 f2 a a2, c = binary (Fin y) /\ objective c = Ok (o, f) /\
    coeff t = Ok (p, f1) /\ coeff t2 = Ok (p2, f2) /\ f1 <> f2 /\ nth_error t 0 = Some (Fin a) /\ nth_error t2 0 = Some (Fin a2) /\
    (a <= y <= a2 \/ a2 <= y <= a).

  Lemma fractions_spec ns : 0 < qsum ns -> exists c2, normalise (fin ns) = fin c2 /\ fractions_of ns c2.
  Proof.
    intros P. rewrite normalise_fin by assumption. eexists; split; [reflexivity|]. split; [apply map_length|].
    intros i n x Hn Hx. rewrite nth_error_map, Hn in Hx. injection Hx as <-. reflexivity.
  Qed.

  Lemma given_up_spec c p f : composition c -> coeff c = Ok (p, f) -> (any_nan p || wrong_phase vapor f) = true ->
    all_nonzero c && two c = false -> given_up c.
  Proof.
    intros (q & Eq & _) Ec W N. exists p, f. split; [assumption|]. split.
    - apply orb_prop in W as [W|W]; [auto|right]. unfold wrong_phase in W. destruct vapor; [now apply Nat.eqb_eq|].
      apply orb_prop in W as [W|W]; apply Nat.eqb_eq in W; auto.
    - unfold two in N. destruct (Nat.eqb (length c) 2) eqn:L; [|left; now apply Nat.eqb_neq]. right. right. rewrite andb_true_r in N.
      subst c. unfold all_nonzero in N.
      assert (E : existsb (fun a => neqb a (Fin 0)) (fin q) = true).
      { destruct (existsb (fun a => neqb a (Fin 0)) (fin q)) eqn:X; [reflexivity|]. exfalso.
        assert (forallb (fun a => negb (neqb a (Fin 0))) (fin q) = true); [|congruence].
        apply forallb_forall. intros a Ha. destruct (neqb a (Fin 0)) eqn:Z; [|reflexivity].
        assert (existsb (fun a => neqb a (Fin 0)) (fin q) = true); [|congruence]. apply existsb_exists. eauto. }
      apply existsb_exists in E as (a & Ha & Z). unfold fin in Ha. apply in_map_iff in Ha as (x & <- & Hx).
      exists x. split; [apply Qeq_bool_iff; exact Z|]. apply in_map. assumption.
  Qed.

  Lemma vend_cases last c flag new cur r :
    vapor_end coeff vapor known phi akima lsq (Fin lo) (Fin hi) npoints (Fin tol) last c flag new cur = Ok r ->
    not_found r \/ (last = true /\ composition (f_comp r) /\ solved (f_comp r)) \/ (last = false /\ r = cur).
  Proof.
    intros H. unfold vapor_end in H. ok H. destruct (Nat.eqb flag 3).
    - injection H as <-. left. split; [auto|apply all_nan].
    - destruct last; [|injection H as <-; auto]. ok H. ok H. ok H. ok H. ok H. ok H. destruct v5 as [o f]. cbn [fst] in H.
      destruct (nlt (Fin tol) o) eqn:T; injection H as <-.
      + left. split; [auto|apply all_nan].
      + right. left. split; [reflexivity|]. cbn [f_comp]. split; [apply binary_composition; eapply Hlsq; eassumption|].
        exists o, f. auto.
  Qed.

  Lemma normalise_again cur : amounts cur -> normalise (zero_nan cur) = normalise cur.
  Proof. intros (q & -> & _). now rewrite zero_nan_fin. Qed.

  Lemma vloop_converged rest : forall z cur totals check trivial r, amounts cur ->
    vloop rest z cur totals check trivial = Ok r ->
    not_found r \/ composition (f_comp r) /\
    ((exists c c2, composition (fin c) /\ f_comp r = fin c2 /\ predicts c c2 /\ f_global r = Some (f_comp r)) \/
     given_up (f_comp r) \/ bisected (f_comp r) \/ solved (f_comp r)).
  Proof.
    induction rest as [|n IH]; intros z cur totals check trivial r Ac H; [discriminate|]. cbn [vapor_loop] in H.
    ok H. destruct v as [f|c p flag new check' trivial']; [discriminate|].
    destruct (tested_spec _ _ _ _ _ _ _ _ _ _ Ac E) as (Cc & Lc & An & Ec & T).
    ok H. destruct v as [p2 f2]. cbn [fst snd] in H.
    assert (Zn : zero_nan new = new) by (destruct An as (q & -> & _); apply zero_nan_fin).
    rewrite Zn in *. destruct (amounts_composition new An) as (Cn & Ln).
    destruct (bouncing totals (nsum new) flag f2) eqn:Bo.
    - assert (Nf : flag <> f2).
      { unfold bouncing in Bo. destruct totals as [|? [|? [|? [|? ?]]]]; try discriminate. apply andb_prop in Bo as (_ & Bo).
        intros ->. rewrite Nat.eqb_refl in Bo. discriminate. }
      ok H. ok H. ok H. destruct v1 as [c3 f3]. cbn [fst snd] in H. ok H. destruct v1 as [p4 f4].
      apply vend_cases in H as [H|[(_ & C & S)|(_ & ->)]]; [auto|right; auto|]. right. cbn [f_comp f_global].
      assert (B : exists y o a a', c3 = [Fin y; nsub (Fin 1) (Fin y)] /\ 0 <= y <= 1 /\ objective (binary (Fin y)) = Ok (o, f3) /\
        nth_error c 0 = Some (Fin a) /\ nth_error (normalise new) 0 = Some (Fin a') /\ (a <= y <= a' \/ a' <= y <= a)).
      { destruct (composition_nonempty _ Cc) as (a & l & Ha & ->). destruct (composition_nonempty _ Cn) as (a' & l' & Ha' & En).
        rewrite En in *. cbn in E1, E2. injection E1 as <-. injection E2 as <-.
        destruct (nle (Fin a) (Fin a')) eqn:O.
        - apply nle_fin in O. destruct (C99_inside _ _ _ _ _ _ _ _ _ _ O E3) as (y & o & -> & Hy & _ & Eo). exists y, o, a, a'.
          split; [reflexivity|]. split; [lra|]. split; [exact Eo|]. split; [reflexivity|]. split; [reflexivity|]. tauto.
        - apply nle_fin_false in O. apply Qlt_le_weak in O.
          destruct (C99_inside _ _ _ _ _ _ _ _ _ _ O E3) as (y & o & -> & Hy & _ & Eo). exists y, o, a, a'.
          split; [reflexivity|]. split; [lra|]. split; [exact Eo|]. split; [reflexivity|]. split; [reflexivity|]. tauto. }
      destruct B as (y & o & a & a' & -> & Hy & Eo & N1 & N2 & Bt). split.
      + change (composition (binary (Fin y))). apply binary_composition. exists y. tauto.
      + right. right. left. exists y, o, f3, c, (normalise new), p, p2, flag, f2, a, a'. auto 12.
    - ok H. destruct v.
      + apply vend_cases in H as [H|[(_ & C & S)|(_ & ->)]]; [auto|right; auto|]. right. cbn [f_comp f_global]. split; [assumption|].
        destruct (nlt (nabs (nsub (nsum new) (last_total totals))) (Fin tol)); [|discriminate]. ok E1. ok E1.
        destruct T as [(ps & ns & -> & -> & R)|(-> & -> & W & N)].
        * left. destruct An as (q & En & Lq & Fq & Sq). apply fin_inj in En. subst q.
          destruct (fractions_spec ns Sq) as (c2 & En & F2). rewrite En in *. destruct Cc as (cq & -> & Fc & Sc).
          exists cq, c2. split; [exists cq; auto|]. split; [reflexivity|]. split; [|reflexivity]. exists ps, ns, flag. split; [assumption|]. split; [exact R|]. split; [exact F2|].
          eapply settled_spec; [exact E2|exact E3|]. congruence.
        * right. left. eapply given_up_spec; eassumption.
      + destruct (Nat.eqb n 0) eqn:N0.
        * apply vend_cases in H as [H|[(_ & C & S)|(L & _)]]; [auto|right; auto|discriminate].
        * eapply IH; [|exact H]. assumption.
  Qed.

  Lemma normalised_amounts guess : (exists q, guess = fin q /\ length q = length ks /\ Forall (fun a => 0 <= a) q /\ 0 < qsum q) ->
    amounts (normalise guess).
  Proof.
    intros A. destruct (amounts_composition guess A) as ((q & E & F & S) & L). exists q. repeat split; auto.
    - rewrite E, length_fin in L. exact L.
    - lra.
  Qed.

(** C97: whatever guess it starts from, a vapor search that does not report failure returns a composition, which is
    predicted by a composition whose smallest fraction agrees within the tolerance, or solves the objective within the tolerance,
    or ends a bisection; or no vapor was looked for since the guess is a liquid and not a binary of two present components. *)
Theorem C97_vapor : forall maxiter guess r, amounts guess ->
  calc_vapor_composition coeff vapor known phi akima rand lsq (Fin lo) (Fin hi) npoints (Fin tol) tol_trivial maxiter guess = Ok r ->
  not_found r \/ composition (f_comp r) /\
  ((exists c c2, composition (fin c) /\ f_comp r = fin c2 /\ predicts c c2 /\ f_global r = Some (f_comp r)) \/
   given_up (f_comp r) \/ bisected (f_comp r) \/ solved (f_comp r)).
Proof.
  intros maxiter guess r A H. unfold calc_vapor_composition in H. destruct (any_nan phi); [discriminate|].
  eapply vloop_converged; [|exact H]. apply normalised_amounts. exact A.
Qed.

  Lemma lloop_converged rest : forall z cur total check trivial r, amounts cur ->
    lloop rest z cur total check trivial = Ok r ->
    composition (f_comp r) /\
    ((exists c c2, f_comp r = fin c /\ f_global r = Some (fin c2) /\ predicts c c2) \/
     given_up (f_comp r) \/ exists start x, lsq start = Ok x /\ f_comp r = binary x).
  Proof.
    induction rest as [|n IH]; intros z cur total check trivial r Ac H; [discriminate|]. cbn [liquid_loop] in H.
    ok H. destruct v as [f|c p flag new check' trivial']; [discriminate|].
    destruct (tested_spec _ _ _ _ _ _ _ _ _ _ Ac E) as (Cc & Lc & An & Ec & T).
    assert (Zn : zero_nan new = new) by (destruct An as (q & -> & _); apply zero_nan_fin).
    rewrite Zn in *.
    assert (Le : forall g, liquid_end coeff vapor known phi akima lsq (Fin lo) (Fin hi) npoints (Nat.eqb n 0) c p flag new g = Ok r ->
      (exists start x, lsq start = Ok x /\ f_comp r = binary x) \/ (Nat.eqb n 0 = false /\ f_comp r = c /\ f_global r = g)).
    { intros g Hg. unfold liquid_end in Hg. ok Hg. destruct (Nat.eqb n 0).
      - ok Hg. ok Hg. ok Hg. ok Hg. ok Hg. injection Hg as <-. left. eauto.
      - injection Hg as <-. right. auto. }
    assert (Ls : (exists start x, lsq start = Ok x /\ f_comp r = binary x) -> composition (f_comp r)).
    { intros (s & x & Ex & ->). apply binary_composition. eapply Hlsq; eassumption. }
    ok H. destruct v.
    - destruct (Le _ H) as [L|(_ & Er & Eg)]; [auto|]. rewrite Er, Eg. split; [assumption|].
      destruct (nlt (nabs (nsub (nsum new) total)) (Fin tol)); [|discriminate]. ok E0. ok E0.
      destruct T as [(ps & ns & -> & -> & R)|(-> & -> & W & N)].
      + left. destruct An as (q & En & Lq & Fq & Sq). apply fin_inj in En. subst q.
        destruct (fractions_spec ns Sq) as (c2 & En & F2). rewrite En in *. destruct Cc as (cq & -> & Fc & Sc).
        exists cq, c2. split; [reflexivity|]. split; [reflexivity|].
        exists ps, ns, flag. split; [assumption|]. split; [exact R|]. split; [exact F2|].
        eapply settled_spec; [exact E1|exact E2|]. congruence.
      + right. left. eapply given_up_spec; eassumption.
    - destruct (Nat.eqb n 0) eqn:N0.
      + destruct (Le _ H) as [L|(L & _)]; [auto|discriminate].
      + eapply IH; [|exact H]. assumption.
  Qed.

(** C97 for a liquid, in part: a liquid search returns a composition, which predicts one that agrees in its
    smallest fraction, unless it comes from the root finder of the last iteration, whose result is not checked. *)
Theorem C97_liquid_partial : forall maxiter guess r, amounts guess ->
  calc_liquid_composition coeff vapor known phi akima rand lsq (Fin lo) (Fin hi) npoints (Fin tol) tol_trivial maxiter guess = Ok r ->
  composition (f_comp r) /\
  ((exists c c2, f_comp r = fin c /\ f_global r = Some (fin c2) /\ predicts c c2) \/
   given_up (f_comp r) \/ exists start x, lsq start = Ok x /\ f_comp r = binary x).
Proof.
  intros maxiter guess r A H. unfold calc_liquid_composition in H. destruct (any_nan phi); [discriminate|].
  eapply lloop_converged; [|exact H]. apply normalised_amounts. exact A.
Qed.

(** C97 for a binary: the other fraction has settled as well. *)
Theorem C97_binary : forall c c2, length c = 2%nat -> length c2 = 2%nat -> qsum c == 1 -> qsum c2 == 1 ->
  settled c c2 -> forall i a b, nth_error c i = Some a -> nth_error c2 i = Some b -> 0 < a -> Qabs (b - a) < tol * a.
Proof.
  intros c c2 L L2 S S2 (j & x & y & Hx & Hy & Px & Mx & D) i a b Ha Hb Pa.
  pose proof (Mx i a Ha Pa) as Le.
  destruct c as [|c0 [|c1 [|]]]; try discriminate. destruct c2 as [|d0 [|d1 [|]]]; try discriminate. cbn in S, S2.
  assert (T : 0 < tol).
  { apply Qnot_le_lt. intros N. pose proof (Qabs_nonneg (y - x)). nra. }
  assert (Same : Qabs (d1 - c1) == Qabs (d0 - c0)).
  { rewrite (Qabs_Qminus d0 c0). apply Qabs_wd. lra. }
  assert (tol * x <= tol * a) by nra.
  destruct j as [|[|[|]]]; try discriminate; destruct i as [|[|[|]]]; try discriminate;
    injection Hx as <-; injection Hy as <-; injection Ha as <-; injection Hb as <-; lra.
Qed.
End Converged.

(** ** The objective of the search at an equilibrium *)
Section Objective.
  Variable coeff : list num -> result (list num * nat).
  Hypothesis Hext : forall a b, Forall2 Qeq a b -> coeff (fin a) = coeff (fin b).

  Lemma Forall2_nth_eq : forall a b : list Q, length a = length b ->
    (forall i x y, nth_error a i = Some x -> nth_error b i = Some y -> x == y) -> Forall2 Qeq a b.
  Proof.
    induction a as [|x a IH]; intros [|y b] L H; try discriminate; [constructor|]. constructor.
    - exact (H 0%nat x y eq_refl eq_refl).
    - apply IH; [cbn in L; lia|]. intros i. exact (H (S i)).
  Qed.

  Lemma div_one s l : s == 1 -> Forall2 Qeq (map (fun a => a / s) l) l.
  Proof. intros S. induction l as [|a l IH]; cbn [map]; constructor; [rewrite S; field|exact IH]. Qed.

  Lemma Forall2_Qeq_trans a b c : Forall2 Qeq a b -> Forall2 Qeq b c -> Forall2 Qeq a c.
  Proof.
    intros H. revert c. induction H; intros c Hc; inversion Hc; subst; constructor; [|auto].
    etransitivity; eassumption.
  Qed.

(** C98: at a vapor in equilibrium with the liquid the objective of the vapor search is zero. *)
Theorem C98_vapor_objective : forall ks fs cs ps f,
  Forall (fun a => 0 <= a) ks -> qsum ks == 1 -> length fs = length ks -> Forall (fun a => 0 < a) fs ->
  length cs = length ks -> qsum cs == 1 -> coeff (fin cs) = Ok (fin ps, f) -> length ps = length ks -> Forall (fun a => 0 < a) ps ->
  (forall i c p k g, nth_error cs i = Some c -> nth_error ps i = Some p -> nth_error ks i = Some k -> nth_error fs i = Some g ->
     c * p == k * g) ->
  exists o, objective_find coeff true (fin ks) (fin fs) (fin cs) = Ok (Fin o, f) /\ o == 0.
Proof.
  intros ks fs cs ps f Fk Sk Lf Ff Lc Sc Ec Lp Fp R.
  assert (Nc : exists n, normalise (fin cs) = fin n /\ Forall2 Qeq n cs).
  { rewrite normalise_fin by lra. eexists; split; [reflexivity|]. apply div_one. exact Sc. }
  destruct Nc as (n & En & Qn).
  destruct (C38_trial_composition "vapor" ks fs ps) as (ns & ob & E & _ & Ln & Rn & _); auto.
  cbn in Rn.
  assert (Qs : Forall2 Qeq ns cs).
  { apply Forall2_nth_eq; [congruence|]. intros i x y Hx Hy.
    assert (Li : (i < length ks)%nat) by (rewrite <- Ln; apply nth_error_Some; congruence).
    destruct (nth_error ks i) as [k|] eqn:Hk; [|apply nth_error_None in Hk; lia].
    destruct (nth_error fs i) as [g|] eqn:Hg; [|apply nth_error_None in Hg; lia].
    destruct (nth_error ps i) as [p|] eqn:Hp; [|apply nth_error_None in Hp; lia].
    destruct (Rn i x k g p Hx Hk Hg Hp) as (_ & E1). pose proof (R i y p k g Hy Hp Hk Hg) as E2.
    assert (0 < p) by (rewrite Forall_forall in Fp; apply Fp; eapply nth_error_In; eassumption).
    apply (Qmult_inj_r x y p); lra. }
  assert (Sn : qsum ns == 1) by (rewrite (qsum_eq _ _ Qs); exact Sc).
  assert (N2 : exists n2, normalise (fin ns) = fin n2 /\ Forall2 Qeq n2 cs).
  { rewrite normalise_fin by lra. eexists; split; [reflexivity|]. eapply Forall2_Qeq_trans; [|exact Qs]. apply div_one. exact Sn. }
  destruct N2 as (n2 & En2 & Qn2).
  unfold objective_find. rewrite En, (Hext _ _ Qn), Ec. cbn [rbind fst snd].
  unfold trial. rewrite E. cbn [rbind]. rewrite En2. unfold any_nan. rewrite not_nan_fin, (Hext _ _ Qn2), Ec. cbn [rbind fst].
  pose proof (zip_ok ks fs ps Lf Lp Fp) as Z. destruct (zipv nmul (fin ks) (fin fs)) as [za|] eqn:Ez; [|discriminate]. cbn [rbind] in Z |- *.
  rewrite Z. cbn [rbind].
  assert (Qq : Forall2 Qeq ns (quot ks fs ps)).
  { apply Forall2_nth_eq.
    - unfold quot. rewrite map_length, !combine_length. lia.
    - intros i x y Hx Hy.
      assert (Li : (i < length ks)%nat) by (rewrite <- Ln; apply nth_error_Some; congruence).
      destruct (nth_error ks i) as [k|] eqn:Hk; [|apply nth_error_None in Hk; lia].
      destruct (nth_error fs i) as [g|] eqn:Hg; [|apply nth_error_None in Hg; lia].
      destruct (nth_error ps i) as [p|] eqn:Hp; [|apply nth_error_None in Hp; lia].
      rewrite (quot_nth ks fs ps Lf Lp i k g p Hk Hg Hp) in Hy. injection Hy as <-.
      destruct (Rn i x k g p Hx Hk Hg Hp) as (_ & E1). rewrite <- E1.
      assert (0 < p) by (rewrite Forall_forall in Fp; apply Fp; eapply nth_error_In; eassumption). field. lra. }
  assert (Zs : exists d, zipv nsub (fin ns) (fin (quot ks fs ps)) = Ok (fin d) /\ Forall (fun a => a == 0) d).
  { unfold zipv. rewrite !length_fin, (Forall2_len _ _ _ Qq), Nat.eqb_refl. clear - Qq. revert Qq. generalize (quot ks fs ps).
    induction ns as [|a ns IH]; intros q Qq; inversion Qq; subst; [exists []; split; [reflexivity|constructor]|].
    destruct (IH _ H3) as (d & Ed & Fd). injection Ed as Ed. exists ((a - y) :: d). cbn [fin map combine fst snd]. unfold fin in Ed. rewrite Ed.
    split; [reflexivity|]. constructor; [lra|assumption]. }
  destruct Zs as (d & Ed & Fd). rewrite Ed. cbn [rbind].
  assert (Ea : map nabs (fin d) = fin (map Qabs d)) by (unfold fin; rewrite !map_map; reflexivity).
  rewrite Ea, nsum_fin. eexists; split; [reflexivity|].
  clear - Fd. induction Fd as [|a d Ha Fd IH]; cbn; [reflexivity|]. unfold qsum in IH. rewrite IH, Ha. reflexivity.
Qed.
End Objective.

(** ** Concrete fluids *)

Definition no_roots (pts : list (num * num)) : result (list (num * num)) := Ok [].
Definition here (s : num) : result num := Ok s.
Definition first_below (c : list num) (q : Q) : bool := match c with a :: _ => nlt a (Fin q) | [] => false end.
Definition second_below (c : list num) (q : Q) : bool := match c with _ :: a :: _ => nlt a (Fin q) | _ => false end.
Definition dice (n : nat) (z : nat) : list num := map Fin (repeat (1#2) n).
(** the defaults: limits, 30 points, tolerance 1e-6, trivial solutions within 0.05 *)
Notation vapor_search coeff ks fs n maxiter guess :=
  (calc_vapor_composition coeff true (fin ks) (fin fs) no_roots (dice n) here (Fin (1#100)) (Fin (99#100)) 30
     (Fin (1#1000000)) (Fin (1#20)) maxiter (fin guess)).
Notation liquid_search coeff ks fs n maxiter guess :=
  (calc_liquid_composition coeff false (fin ks) (fin fs) no_roots (dice n) here (Fin (1#1000)) (Fin (999#1000)) 30
     (Fin (1#1000000)) (Fin (1#20)) maxiter (fin guess)).
Definition value (a : num) : Q := match a with Fin q => q | _ => 0 end.
Ltac same_ := match goal with |- same ?l _ => exists (map value l); split; [vm_compute; reflexivity|]; repeat constructor end.

(** A binary in which the trial phase always is (2/5, 3/5): found in the second iteration, with its own coefficients. *)
Definition plain (f : nat) (c : list num) : result (list num * nat) := Ok (fin [1; 1], f).
Example C96_C97_vapor_example :
  exists r, vapor_search (plain 0) [1#5; 4#5] [2; 3#4] 2 50 [1#10; 9#10] = Ok r /\ f_flag r = Some 0%nat /\ same (f_comp r) [2#5; 3#5].
Proof. eexists. split; [vm_compute; reflexivity|]. split; [reflexivity|]. same_. Qed.
Example C96_C97_liquid_example :
  exists r, liquid_search (plain 1) [1#5; 4#5] [2; 3#4] 2 20 [1#10; 9#10] = Ok r /\ f_flag r = Some 1%nat /\ same (f_comp r) [2#5; 3#5].
Proof. eexists. split; [vm_compute; reflexivity|]. split; [reflexivity|]. same_. Qed.

(** ** What fails *)

(** C96 is false of a liquid when the iterations are used up: the coefficients returned, 2 and 1/2 here, are those of an earlier
    composition; the liquid returned has others. *)
Definition two_liquids (c : list num) : result (list num * nat) :=
  Ok (if first_below c (39#100) then fin [2; 1#2] else fin [1; 1], 1%nat).
Theorem C96_liquid_refuted :
  exists r p, liquid_search two_liquids [4#5; 1#5] [1; 1] 2 1 [19#50; 31#50] = Ok r /\
    two_liquids (f_comp r) = Ok (p, 1%nat) /\ f_flag r = Some 1%nat /\ p = fin [1; 1] /\ f_phi r = fin [2; 1#2].
Proof. eexists; eexists. split; [vm_compute; reflexivity|]. repeat split. Qed.

(** C97 is false of three components: only the smallest fraction is compared.  Here the vapor (1/5, 1/2, 3/10) is returned as
    converged, but with its coefficients the trial vapor is (1/5, 3/10, 1/2). *)
Definition swinging (c : list num) : result (list num * nat) :=
  Ok (if second_below c (2#5) then fin [1; 1; 1] else fin [1; 5#3; 3#5], 0%nat).
Theorem C97_ternary_refuted :
  exists r p new, vapor_search swinging [1#5; 1#2; 3#10] [1; 1; 1] 3 50 [1#5; 3#10; 1#2] = Ok r /\
    f_flag r = Some 0%nat /\ f_global r = Some (f_comp r) /\ same (f_comp r) [1#5; 1#2; 3#10] /\
    swinging (f_comp r) = Ok (p, 0%nat) /\
    calc_new_mole_fractions (fin [1#5; 1#2; 3#10]) (fin [1; 1; 1]) p (Some "vapor"%string) = Ok new /\ same new [1#5; 3#10; 1#2].
Proof.
  eexists; eexists; eexists. split; [vm_compute; reflexivity|]. split; [reflexivity|]. split; [reflexivity|].
  split; [same_|]. split; [reflexivity|]. split; [vm_compute; reflexivity|]. same_.
Qed.

(** C97 is false of a liquid guess with three components: it is returned as the vapor, and stored as the guess for the next point. *)
Definition only_liquid (c : list num) : result (list num * nat) := Ok (fin [1; 1; 1], 1%nat).
Theorem C97_liquid_as_vapor_refuted :
  exists r, vapor_search only_liquid [1#5; 1#2; 3#10] [5; 1; 1] 3 50 [1#5; 3#10; 1#2] = Ok r /\
    f_flag r = Some 1%nat /\ same (f_comp r) [1#5; 3#10; 1#2] /\ f_global r = Some (f_comp r).
Proof. eexists. split; [vm_compute; reflexivity|]. split; [reflexivity|]. split; [same_|reflexivity]. Qed.

(** C97: totals that only rise or only fall are never taken for bouncing; totals that swing between two values are, if the two
    compositions are of different kinds. *)
Theorem C97_bouncing : forall t1 t2 t3 more s f f2,
  (t3 <= t2 <= t1 /\ t1 <= s \/ s <= t1 /\ t1 <= t2 <= t3 -> bouncing (fin (t1 :: t2 :: t3 :: more)) (Fin s) f f2 = false) /\
  (more <> [] -> s == t2 -> t1 == t3 -> ~ s == t1 -> f <> f2 -> bouncing (fin (t1 :: t2 :: t3 :: more)) (Fin s) f f2 = true).
Proof.
  intros t1 t2 t3 more s f f2. destruct more as [|t4 more]; [split; [reflexivity|congruence]|].
  unfold bouncing, fin. cbn [map nsub nneg nadd nabs]. split.
  - intros M. apply andb_false_intro1. apply nlt_fin_false. destruct M as [(A & B)|(A & B)].
    + rewrite (Qabs_pos (s + - t1)), (Qabs_pos (s + - t2)), (Qabs_pos (t1 + - t3)) by lra. lra.
    + rewrite (Qabs_neg (s + - t1)), (Qabs_neg (s + - t2)), (Qabs_neg (t1 + - t3)) by lra. lra.
  - intros _ A B C D. apply Nat.eqb_neq in D. rewrite D, andb_true_r. apply nlt_fin.
    rewrite (Qabs_wd (s + - t2) 0), (Qabs_wd (t1 + - t3) 0) by lra. rewrite (Qabs_pos 0) by lra.
    pose proof (Qabs_nonneg (s + - t1)) as N. apply Qle_lteq in N as [N|N]; [lra|]. exfalso. apply C.
    destruct (Qlt_le_dec (s + - t1) 0); [rewrite Qabs_neg in N by lra|rewrite Qabs_pos in N by lra]; lra.
Qed.
Print Assumptions C97_bouncing.

(** C97 is false of the phase: where every composition is a liquid a liquid is returned as the vapor, with its flag. *)
Theorem C97_phase_refuted :
  exists r, vapor_search (plain 1) [1#5; 4#5] [2; 3#4] 2 50 [1#10; 9#10] = Ok r /\ f_flag r = Some 1%nat /\
    f_global r = Some (f_comp r) /\ same (f_comp r) [2#5; 3#5].
Proof. eexists. split; [vm_compute; reflexivity|]. split; [reflexivity|]. split; [reflexivity|]. same_. Qed.

(** C97 is false of a vapor with equal fractions: the guess is the solution and the search raises a ValueError. *)
Theorem C97_equal_refuted :
  calc_new_mole_fractions (fin [1#4; 3#4]) (fin [2; 2#3]) (fin [1; 1]) (Some "vapor"%string) = Ok (fin [2#4; 6#12]) /\
  vapor_search (plain 0) [1#4; 3#4] [2; 2#3] 2 50 [1#2; 1#2] = Err ValueError /\
  liquid_search (plain 1) [1#4; 3#4] [2; 2#3] 2 20 [1#2; 1#2] = Err ValueError.
Proof. split; [vm_compute; reflexivity|]. split; vm_compute; reflexivity. Qed.

(** C97 is false of more than two components when the iterations are used up: two fractions are returned. *)
Theorem C97_two_fractions_refuted : forall coeff b known phi akima rand lsq lo hi np tol triv guess r,
  calc_vapor_composition coeff b known phi akima rand lsq lo hi np tol triv 1 guess = Ok r \/
  calc_liquid_composition coeff b known phi akima rand lsq lo hi np tol triv 1 guess = Ok r ->
  f_flag r = None \/ length (f_comp r) = 2%nat.
Proof.
  intros coeff b known phi akima rand lsq lo hi np tol triv guess r [H|H].
  - unfold calc_vapor_composition in H. destruct (any_nan phi); [discriminate|]. cbn [vapor_loop Nat.eqb] in H. ok H.
    destruct v as [f|c p flag new check' trivial']; [discriminate|]. ok H.
    assert (G : forall cur, vapor_end coeff b known phi akima lsq lo hi np tol true c flag (zero_nan new) cur = Ok r ->
      f_flag r = None \/ length (f_comp r) = 2%nat).
    { intros cur G. unfold vapor_end in G. ok G. destruct (Nat.eqb flag 3); [injection G as <-; auto|].
      ok G. ok G. ok G. ok G. ok G. ok G. destruct (nlt tol (fst v6)); injection G as <-; auto. }
    destruct (bouncing [nsum guess] (nsum (zero_nan new)) flag (snd v)); [ok H; ok H; ok H; ok H; eapply G; exact H|].
    ok H. destruct v0; eapply G; exact H.
  - unfold calc_liquid_composition in H. destruct (any_nan phi); [discriminate|]. cbn [liquid_loop Nat.eqb] in H. ok H.
    destruct v as [f|c p flag new check' trivial']; [discriminate|]. ok H.
    assert (G : forall g, liquid_end coeff b known phi akima lsq lo hi np true c p flag (zero_nan new) g = Ok r ->
      f_flag r = None \/ length (f_comp r) = 2%nat).
    { intros cur G. unfold liquid_end in G. ok G. ok G. ok G. ok G. ok G. ok G. injection G as <-. auto. }
    destruct v; eapply G; exact H.
Qed.

(** C98 is false of a liquid: at the liquid in equilibrium with the vapor the objective of the liquid search is 2/3, since the trial
    liquid is compared with the tested one times the ratio of coefficients, not with the vapor times that ratio. *)
Definition ideal_liquid (c : list num) : result (list num * nat) := Ok (fin [3#2; 1#2], 1%nat).
Theorem C98_liquid_objective_refuted :
  exists new o, calc_new_mole_fractions (fin [3#4; 1#4]) (fin [3#2; 1#2]) (fin [1; 1]) (Some "liquid"%string) = Ok new /\
    same new [1#2; 1#2] /\
    objective_find ideal_liquid false (fin [3#4; 1#4]) (fin [1; 1]) (fin [1#2; 1#2]) = Ok (Fin o, 1%nat) /\ o == 2#3.
Proof.
  eexists; eexists. split; [vm_compute; reflexivity|]. split; [same_|]. split; [vm_compute; reflexivity|]. reflexivity.
Qed.

(** ** The hypotheses can be met *)
Example C97_hypotheses : (forall s x, (fun _ : num => Ok (Fin (1#2))) s = Ok x -> between 0 1 x) /\
  (forall c p f, length c = 2%nat -> plain 0 c = Ok (p, f) ->
     existsb is_nan p = true \/ exists ps, p = fin ps /\ length ps = 2%nat /\ Forall (fun a => 0 < a) ps) /\
  amounts [1#5; 4#5] (fin [1#10; 9#10]).
Proof.
  split; [intros s x H; injection H as <-; exists (1#2); split; [reflexivity|split; lra]|]. split.
  - intros c p f _ H. injection H as <- <-. right. exists [1; 1]. repeat split. repeat constructor.
  - exists [1#10; 9#10]. split; [reflexivity|]. split; [reflexivity|]. split; [|reflexivity]. repeat constructor; discriminate.
Qed.
(** Three minima, the middle one at the known composition; of the other two the vapor is taken. *)
Definition some_liquid (c : list num) : result (list num * nat) := Ok (fin [1; 1], if first_below c (1#4) then 1%nat else 0%nat).
Example C98_choice_example :
  candidates some_liquid true (fin [1#2; 1#2]) (fin [1; 1]) [(Fin 0, Fin 1); (Fin 1, Fin 1)]
    [(Fin (1#5), Fin 1); (Fin (3#10), Fin (-1)); (Fin (1#2), Fin 1); (Fin (3#5), Fin (-1)); (Fin (9#10), Fin 1)] = Ok [Fin (9#10)].
Proof. vm_compute. reflexivity. Qed.
Example C98_akima_example : akima_inside no_roots.
Proof. intros a b pts rs H _. injection H as <-. split; [constructor|]. intros r Hr. discriminate. Qed.
Example C98_example : exists c,
  find_new (plain 0) true (fin [1#5; 4#5]) (fin [2; 3#4]) no_roots (Fin (1#100)) (Fin (99#100)) 30 = Ok c /\ same c [1#100; 99#100].
Proof. eexists. split; [vm_compute; reflexivity|]. same_. Qed.
(** 50 halvings of the whole range are more than the default tolerance of 1e-7 asks *)
Example C99_default : halved 1 50 < 1#10000000.
Proof. vm_compute. reflexivity. Qed.
(** liquid below 3/10 and vapor above: the bisection ends on the vapor side, within 1/20 of a liquid *)
Definition boundary (c : list num) : result (list num * nat) := Ok (fin [1; 1], if first_below c (3#10) then 1%nat else 0%nat).
Example C99_example : halved ((4#5) - (1#10)) 5 < 1#20 /\
  moderate boundary true (fin [1#5; 4#5]) (fin [2; 3#4]) (1#20) /\
  exists c, bracket_bounding boundary true (fin [1#5; 4#5]) (fin [2; 3#4]) (Fin (1#10)) (Fin (4#5)) 5 (Fin (1#20)) = Ok (c, 0%nat).
Proof.
  split; [vm_compute; reflexivity|]. split.
  - intros y o H. unfold objective_find, boundary in H. cbn in H. injection H as <- _. reflexivity.
  - eexists. vm_compute. reflexivity.
Qed.

Print Assumptions C96_vapor.
Print Assumptions C96_liquid_partial.
Print Assumptions C96_liquid_refuted.
Print Assumptions C97_vapor.
Print Assumptions C97_liquid_partial.
Print Assumptions C97_binary.
Print Assumptions C97_ternary_refuted.
Print Assumptions C97_liquid_as_vapor_refuted.
Print Assumptions C97_phase_refuted.
Print Assumptions C97_equal_refuted.
Print Assumptions C97_two_fractions_refuted.
Print Assumptions C98_inside.
Print Assumptions C98_choice.
Print Assumptions C98_skips_refuted.
Print Assumptions C98_vapor_objective.
Print Assumptions C98_liquid_objective_refuted.
Print Assumptions C99_inside.
Print Assumptions C99_finds_boundary.
Print Assumptions C99_third_kind_refuted.
