(** C17, C34, C76: the association mass balance. *)
From Coq Require Import Reals Lra.
From Verif Require Import Base BaseFacts XikaModel.
Open Scope R_scope.

(** ** Specification: the law of mass action *)
(** [strength s t] is the association strength between two sites.  The unbonded fraction
    of a site is one over one plus the number of unbonded partner sites per volume,
    weighted with the strength. *)
Definition partners (sites : list site) xi nu nk (strength : site -> site -> R) (rho : R) (X : list R) (s : site) : R :=
  tot (map (fun p => let '(j, l, b) := fst p in
                     per_nm3 * rho * (xi j * nu j l * nk l b) * snd p * strength s (fst p)) (combine sites X)).
Definition mass_balance_error sites xi nu nk strength rho (X : list R) : R :=
  tot (map (fun p => Rabs (1 / (1 + partners sites xi nu nk strength rho X (fst p)) - snd p)) (combine sites X)).

(** ** Lemmas *)
Lemma tot_app a b : tot (a ++ b)%list = tot a + tot b.
Proof. unfold tot. induction a as [|x a IH]; cbn [app fold_right]; [lra|]. rewrite IH. lra. Qed.
Lemma fold_left_tot {A} (f : A -> R) l acc : fold_left (fun a x => a + f x) l acc = acc + tot (map f l).
Proof. unfold tot. revert acc. induction l as [|x l IH]; intros acc; cbn [fold_left map fold_right]; [lra|]. rewrite IH. lra. Qed.
Lemma map_seq_combine {A B} (da : A) (db : B) (f : A -> B -> R) la lb : length la = length lb ->
  map (fun j => f (nth j la da) (nth j lb db)) (seq 0 (length la)) = map (fun p => f (fst p) (snd p)) (combine la lb).
Proof.
  revert lb. induction la as [|a la IH]; intros lb H; [reflexivity|]. destruct lb as [|b lb]; [discriminate|].
  cbn [length seq map combine]. f_equal. rewrite <- seq_shift, map_map. cbn [nth]. apply IH. cbn in H. lia.
Qed.
Lemma map_seq_nth {A B} (da : A) (f : A -> B) la : map (fun j => f (nth j la da)) (seq 0 (length la)) = map f la.
Proof.
  induction la as [|a la IH]; [reflexivity|]. cbn [length seq map]. f_equal. rewrite <- seq_shift, map_map. exact IH.
Qed.
Lemma tot_nonneg l : (forall x, In x l -> 0 <= x) -> 0 <= tot l.
Proof. unfold tot. induction l as [|a l IH]; cbn [fold_right]; intros H; [lra|]. pose proof (H a (or_introl eq_refl)). assert (0 <= fold_right Rplus 0 l) by (apply IH; intros; apply H; right; assumption). lra. Qed.

Section Props.
  Variables (sites : list site) (xi : nat -> R) (nu nk : nat -> nat -> R) (F : nat -> nat -> nat -> nat -> R) (g : nat -> nat -> nat -> R).
  Notation delta := (py_delta F g).

  Lemma py_step_spec K r rho old : length old = length sites ->
    py_step sites xi nu nk F g K r rho old = map (fun s => 1 / (1 + partners sites xi nu nk (delta K r) rho old s)) sites.
  Proof.
    intros L. unfold py_step. rewrite <- (map_seq_nth (0, 0, 0)%nat).
    apply map_ext. intros ind. f_equal. f_equal. rewrite fold_left_tot. f_equal. f_equal. unfold partners.
    rewrite <- (map_seq_combine (0, 0, 0)%nat 0 (fun (t : site) x => let '(j, l, b) := t in per_nm3 * rho * (xi j * nu j l * nk l b) * x
       * delta K r (nth ind sites (0, 0, 0)%nat) t)) by (symmetry; exact L).
    f_equal. apply map_ext. intros j.
    assert (T : forall (t : site) x d, per_nm3 * rho * xi (comp_of t) * nu (comp_of t) (bead_of t) * nk (bead_of t) (type_of t) * x * d
        = let '(j, l, b) := t in per_nm3 * rho * (xi j * nu j l * nk l b) * x * d).
    { intros [[a l] b] x d. unfold comp_of, bead_of, type_of. cbn [fst snd]. ring. }
    exact (T _ _ _).
  Qed.

  (** *** the numba loops *)
  Lemma set_nth_length n v l : length (set_nth n v l) = length l.
  Proof. revert n. induction l; intros [|n]; cbn; auto. Qed.
  Lemma nth_set_nth n v l m : (n < length l)%nat -> nth m (set_nth n v l) 0 = if Nat.eqb m n then v else nth m l 0.
  Proof. revert n m. induction l; intros [|n] [|m] H; cbn in *; try lia; auto. apply IHl. lia. Qed.
  Lemma nb_inner_spec d rho old A ind iind : (ind < length A)%nat ->
    nb_inner sites xi nu nk d rho old A ind iind =
    set_nth ind (fold_left (fun acc jnd => let t := site_at sites jnd in
                 acc + per_nm3 * rho * xi (comp_of t) * nu (comp_of t) (bead_of t) * nk (bead_of t) (type_of t)
                       * nth jnd old 0 * d (site_at sites iind) t) (seq 0 (length sites)) (nth ind A 0)) A.
  Proof.
    intros H. unfold nb_inner. cbv zeta.
    set (term := fun jnd t => per_nm3 * rho * xi (comp_of t) * nu (comp_of t) (bead_of t) * nk (bead_of t) (type_of t)
                       * nth jnd old 0 * d (site_at sites iind) t).
    assert (G : forall n s A, (ind < length A)%nat ->
      fold_left (fun (st : list R * nat) jjnd => let '(A, jnd) := st in (set_nth ind (nth ind A 0 + term jnd (site_at sites jjnd)) A, S jnd)) (seq s n) (A, s)
      = (set_nth ind (fold_left (fun acc jnd => acc + term jnd (site_at sites jnd)) (seq s n) (nth ind A 0)) A, (s + n)%nat)).
    { induction n as [|n IH]; intros s B HB; cbn [seq fold_left].
      - rewrite Nat.add_0_r. f_equal. clear. revert ind. induction B; intros [|ind]; cbn; try reflexivity. f_equal. apply IHB.
      - rewrite IH by (rewrite set_nth_length; exact HB). rewrite nth_set_nth, Nat.eqb_refl by exact HB.
        f_equal; [|lia]. generalize (fold_left (fun acc jnd => acc + term jnd (site_at sites jnd)) (seq (S s) n) (nth ind B 0 + term s (site_at sites s))).
        generalize (nth ind B 0 + term s (site_at sites s)). clear. revert ind. induction B; intros [|ind] x y; cbn; try reflexivity. f_equal. apply IHB. }
    rewrite G by exact H. reflexivity.
  Qed.
  Lemma nb_step_spec d r rho old :
    nb_step sites xi nu nk d r rho old =
    map (fun ind => 1 / fold_left (fun acc jnd => let t := site_at sites jnd in
                 acc + per_nm3 * rho * xi (comp_of t) * nu (comp_of t) (bead_of t) * nk (bead_of t) (type_of t)
                       * nth jnd old 0 * d r (site_at sites ind) t) (seq 0 (length sites)) 1) (seq 0 (length sites)).
  Proof.
    unfold nb_step. rewrite <- (map_map (fun ind => fold_left _ _ 1) (fun x => 1 / x)). f_equal.
    set (val := fun ind => fold_left _ (seq 0 (length sites)) 1).
    assert (G : forall n s A, (s + n <= length A)%nat -> (forall m, (s <= m)%nat -> (m < length A)%nat -> nth m A 0 = 1) ->
      exists B, fold_left (fun (st : list R * nat) iind => let '(A, ind) := st in (nb_inner sites xi nu nk (d r) rho old A ind iind, S ind)) (seq s n) (A, s) = (B, (s + n)%nat) /\
        length B = length A /\ forall m, (m < length A)%nat -> nth m B 0 = if (Nat.leb s m && Nat.ltb m (s + n))%bool then val m else nth m A 0).
    { induction n as [|n IH]; intros s A HL H1; cbn [seq fold_left].
      - exists A. split; [f_equal; lia|]. split; [reflexivity|]. intros m _.
        destruct (Nat.leb_spec s m), (Nat.ltb_spec m (s + 0)); cbn [andb]; try reflexivity; lia.
      - rewrite nb_inner_spec by lia. rewrite H1 by lia. match goal with |- context [set_nth s ?v A] => change v with (val s) end.
        destruct (IH (S s) (set_nth s (val s) A)) as [B [E1 [E2 E3]]].
        + rewrite set_nth_length. lia.
        + intros m M1 M2. rewrite set_nth_length in M2. rewrite nth_set_nth by lia. destruct (Nat.eqb_spec m s); [lia|]. apply H1; lia.
        + exists B. rewrite set_nth_length in E2, E3. split; [rewrite E1; f_equal; lia|]. split; [exact E2|].
          intros m M. rewrite E3 by exact M. rewrite nth_set_nth by lia.
          destruct (Nat.leb_spec (S s) m), (Nat.ltb_spec m (S s + n)), (Nat.leb_spec s m), (Nat.ltb_spec m (s + S n)), (Nat.eqb_spec m s);
            cbn [andb]; try reflexivity; try lia; subst; reflexivity. }
    destruct (G (length sites) O (repeat 1 (length sites))) as [B [-> [LB NB]]].
    - rewrite repeat_length. lia.
    - intros m _ Hm. rewrite repeat_length in Hm. clear G. revert m Hm. induction (length sites) as [|k IHk]; intros [|m] Hm; cbn in *; try lia; auto.
      apply IHk. lia.
    - cbn [fst]. rewrite repeat_length in LB, NB. apply (nth_ext _ _ 0 0).
      + rewrite map_length, seq_length. exact LB.
      + intros m Hm. rewrite LB in Hm. rewrite NB by exact Hm.
        rewrite (nth_indep (map val (seq 0 (length sites))) 0 (val O)) by (rewrite map_length, seq_length; exact Hm).
        rewrite map_nth, seq_nth by exact Hm.
        replace (Nat.ltb m (0 + length sites)) with true by (symmetry; apply Nat.ltb_lt; lia). reflexivity.
  Qed.

  (** *** the iteration *)
  Definition fraction01 (x : R) : Prop := 0 < x <= 1.
  Definition good (X : list R) : Prop := length X = length sites /\ Forall fraction01 X.
  Lemma dist_step_spec K r rho old : length old = length sites ->
    dist (py_step sites xi nu nk F g K r rho old) old = mass_balance_error sites xi nu nk (delta K r) rho old.
  Proof.
    intros L. rewrite py_step_spec by exact L. unfold dist, mass_balance_error. f_equal.
    assert (G : forall (h : site -> R) ss X, length X = length ss ->
      map (fun p => Rabs (fst p - snd p)) (combine (map h ss) X) = map (fun p => Rabs (h (fst p) - snd p)) (combine ss X)).
    { intros h. induction ss as [|s ss IH]; intros [|x X] E; cbn in *; try reflexivity; try lia. f_equal. apply IH. lia. }
    exact (G (fun s => 1 / (1 + partners sites xi nu nk (delta K r) rho old s)) sites old L).
  Qed.

  Lemma partners_nonneg st rho X s : 0 <= rho -> (forall i, 0 <= xi i) -> (forall i k, 0 <= nu i k) -> (forall k a, 0 <= nk k a) ->
    (forall t, In t sites -> 0 <= st s t) -> Forall fraction01 X -> 0 <= partners sites xi nu nk st rho X s.
  Proof.
    intros Hr Hx Hn Hk Hs HX. unfold partners. apply tot_nonneg. intros y Hy. apply in_map_iff in Hy. destruct Hy as [[t x] [<- Hin]].
    destruct t as [[j l] b] eqn:Et. cbn [fst snd]. pose proof (in_combine_l _ _ _ _ Hin) as I1. pose proof (in_combine_r _ _ _ _ Hin) as I2.
    rewrite Forall_forall in HX. specialize (HX x I2). unfold fraction01 in HX. assert (0 < per_nm3) by (unfold per_nm3; lra).
    apply Rmult_le_pos; [|apply Hs; exact I1]. apply Rmult_le_pos; [|lra].
    apply Rmult_le_pos; [apply Rmult_le_pos; lra|]. apply Rmult_le_pos; [apply Rmult_le_pos|]; auto.
  Qed.
  Lemma py_step_good K r rho old : 0 <= rho -> (forall i, 0 <= xi i) -> (forall i k, 0 <= nu i k) -> (forall k a, 0 <= nk k a) ->
    (forall s t, In s sites -> In t sites -> 0 <= delta K r s t) -> good old -> good (py_step sites xi nu nk F g K r rho old).
  Proof.
    intros Hr Hx Hn Hk Hs [L HX]. rewrite py_step_spec by exact L. split; [apply map_length|].
    apply Forall_forall. intros y Hy. apply in_map_iff in Hy. destruct Hy as [s [<- Hin]].
    assert (P := partners_nonneg (delta K r) rho old s Hr Hx Hn Hk (fun t Ht => Hs s t Hin Ht) HX).
    unfold fraction01. set (q := partners _ _ _ _ _ _ _ _) in *. split.
    - apply Rdiv_lt_0_compat; lra.
    - apply Rmult_le_reg_r with (1 + q); [lra|]. field_simplify; lra.
  Qed.
  Lemma damped_good new old damp : 0 < damp < 1 -> good new -> good old -> good (damped damp new old).
  Proof.
    intros Hd [L1 H1] [L2 H2]. split.
    - unfold damped. rewrite map_length, combine_length. lia.
    - apply Forall_forall. intros y Hy. unfold damped in Hy. apply in_map_iff in Hy. destruct Hy as [[a b] [<- Hin]]. cbn [fst snd].
      rewrite Forall_forall in H1, H2. pose proof (H1 a (in_combine_l _ _ _ _ Hin)) as A. pose proof (H2 b (in_combine_r _ _ _ _ Hin)) as B.
      unfold fraction01 in *. split; nra.
  Qed.
  (** what the loop over knd guarantees *)
  Lemma iterate_good step tol damp fuel old obj : 0 < damp < 1 -> (forall X, good X -> good (step X)) -> good old ->
    good (fst (iterate step tol damp fuel old obj)) /\
    ((fuel > 0)%nat -> snd (iterate step tol damp fuel old obj) < tol ->
       dist (step (fst (iterate step tol damp fuel old obj))) (fst (iterate step tol damp fuel old obj)) = snd (iterate step tol damp fuel old obj)).
  Proof.
    intros Hd Hstep. revert old obj. induction fuel as [|fuel IH]; intros old obj G; cbn [iterate]; [split; [exact G|lia]|].
    destruct (Rlt_dec (dist (step old) old) tol) as [Lt|Ge]; [split; [exact G|reflexivity]|].
    assert (Last : forall X o, good X -> ~ o < tol ->
      good (fst (iterate step tol damp fuel X o)) /\ ((S fuel > 0)%nat -> snd (iterate step tol damp fuel X o) < tol ->
       dist (step (fst (iterate step tol damp fuel X o))) (fst (iterate step tol damp fuel X o)) = snd (iterate step tol damp fuel X o))).
    { intros X o GX No. destruct (IH X o GX) as [A B]. split; [exact A|]. intros _ Hs. destruct fuel as [|f]; [cbn in Hs; contradiction|]. apply B; [lia|exact Hs]. }
    destruct (Rgt_dec _ _).
    - apply Last; [apply damped_good; auto|exact Ge].
    - apply Last; [auto|exact Ge].
  Qed.
  Lemma densities_nth step tol damp mx r0 rho old (Inv : list R -> Prop) :
    Inv old -> (forall r p X, nth_error rho r = Some p -> Inv X -> Inv (fst (iterate (step (r0 + r)%nat p) tol damp mx X 0))) ->
    length (densities step tol damp mx r0 rho old) = length rho /\
    forall r p, nth_error rho r = Some p -> exists X, Inv X /\
      nth_error (densities step tol damp mx r0 rho old) r = Some (iterate (step (r0 + r)%nat p) tol damp mx X 0).
  Proof.
    revert r0 old. induction rho as [|q rho IH]; intros r0 old HI Hs; cbn [densities].
    - split; [reflexivity|]. intros [|r] p H; discriminate.
    - destruct (IH (S r0) (fst (iterate (step r0 q) tol damp mx old 0))) as [L N].
      + specialize (Hs O q old eq_refl HI). rewrite Nat.add_0_r in Hs. exact Hs.
      + intros r p X H HX. specialize (Hs (S r) p X H HX). rewrite <- plus_n_Sm in Hs. exact Hs.
      + split; [cbn; lia|]. intros [|r] p H; cbn in H |- *.
        * injection H as <-. exists old. rewrite Nat.add_0_r. auto.
        * destruct (N r p H) as [X [A B]]. exists X. split; [exact A|]. rewrite B. rewrite <- plus_n_Sm. reflexivity.
  Qed.
End Props.

(** ** C17: the numba kernels and the python one return the same fractions and errors,
    for every input and both kinds of bonding volume. *)
Theorem C17_backends_agree : forall sites xi nu nk F g K rho,
  nb_calc_Xika sites xi nu nk F g K rho = calc_Xika sites xi nu nk F g K rho.
Proof.
  intros sites xi nu nk F g K rho. unfold nb_calc_Xika, calc_Xika, py_calc_Xika, calc_Xika_4, calc_Xika_6.
  assert (I : forall s1 s2 tol damp fuel old obj, (forall X, s1 X = s2 X) -> iterate s1 tol damp fuel old obj = iterate s2 tol damp fuel old obj).
  { intros s1 s2 tol damp fuel. induction fuel as [|fuel IH]; intros old obj E; cbn [iterate]; [reflexivity|].
    rewrite E. destruct (Rlt_dec _ _); [reflexivity|]. destruct (Rgt_dec _ _); apply IH; exact E. }
  assert (D : forall s1 s2 tol damp mx r rho old, (forall r p X, s1 r p X = s2 r p X) ->
     densities s1 tol damp mx r rho old = densities s2 tol damp mx r rho old).
  { intros s1 s2 tol damp mx r rho0. revert r. induction rho0 as [|p rho0 IH]; intros r old E; cbn [densities]; [reflexivity|].
    rewrite (I (s1 r p) (s2 r p)) by (intros; apply E). f_equal. apply IH; exact E. }
  destruct K as [K|K]; apply D; intros r p X; rewrite nb_step_spec; unfold py_step; apply map_ext; intros ind; reflexivity.
Qed.
Print Assumptions C17_backends_agree.

(** ** C34 *)
Theorem C34_fractions : forall sites xi nu nk F g K rho,
  (forall i, 0 <= xi i) -> (forall i k, 0 <= nu i k) -> (forall k a, 0 <= nk k a) ->
  (forall r p, nth_error rho r = Some p -> 0 <= p) ->
  (forall r s t, In s sites -> In t sites -> 0 <= py_delta F g K r s t) ->
  let res := calc_Xika sites xi nu nk F g K rho in
  length res = length rho /\
  forall r p X err, nth_error rho r = Some p -> nth_error res r = Some (X, err) ->
    length X = length sites /\ (forall x, In x X -> 0 < x <= 1) /\
    (err < 1 / 10 ^ 12 -> mass_balance_error sites xi nu nk (py_delta F g K r) p X = err).
Proof.
  intros sites xi nu nk F g K rho Hx Hn Hk Hr Hd res.
  destruct (densities_nth (py_step sites xi nu nk F g K) (1 / 10 ^ 12) (1 / 10) 500 0 rho (repeat (1 / 2) (length sites)) (good sites)) as [L N].
  - split; [apply repeat_length|]. apply Forall_forall. intros x Hin. apply repeat_spec in Hin. subst x. unfold fraction01. lra.
  - intros r p X Hp GX. apply iterate_good; [lra| |exact GX]. intros Y GY.
    apply py_step_good; auto. exact (Hr r p Hp).
  - split; [exact L|]. intros r p X err Hp Hres. destruct (N r p Hp) as [X0 [G0 E]].
    unfold res, calc_Xika, py_calc_Xika in Hres. rewrite E in Hres. cbn [Nat.add] in *.
    assert (Hstep : forall Y, good sites Y -> good sites (py_step sites xi nu nk F g K r p Y))
      by (intros Y GY; apply py_step_good; auto; exact (Hr r p Hp)).
    destruct (iterate_good sites _ (1 / 10 ^ 12) (1 / 10) 500 X0 0 ltac:(lra) Hstep G0) as [[GL GF] GE].
    remember (iterate (py_step sites xi nu nk F g K r p) (1 / 10 ^ 12) (1 / 10) 500 X0 0) as it eqn:Eit. injection Hres as Hit. rewrite Hit in *.
    cbn [fst snd] in *. split; [exact GL|]. split.
    + intros x Hin. rewrite Forall_forall in GF. exact (GF x Hin).
    + intros Herr. rewrite <- dist_step_spec by exact GL. apply GE; [lia|exact Herr].
Qed.
Print Assumptions C34_fractions.

(** With no association strength the fractions are exactly one, for up to 10^20 sites. *)
Lemma ratio_bound : (9 / 10) ^ 490 * 10 ^ 20 <= 1000.
Proof.
  replace (490)%nat with (10 * (7 * 7))%nat by reflexivity. rewrite !pow_mult.
  assert (A : 0 <= (9 / 10) ^ 10 <= 35 / 100) by (split; [apply pow_le; lra|cbn [pow]; lra]).
  assert (B : 0 <= ((9 / 10) ^ 10) ^ 7 <= 65 / 100000).
  { split; [apply pow_le; lra|]. apply Rle_trans with ((35 / 100) ^ 7); [apply pow_incr; exact A|cbn [pow]; lra]. }
  apply Rle_trans with ((65 / 100000) ^ 7 * 10 ^ 20).
  - apply Rmult_le_compat_r; [apply pow_le; lra|]. apply pow_incr. exact B.
  - cbn [pow]. lra.
Qed.
Lemma dist_repeat n x : x <= 1 -> dist (repeat 1 n) (repeat x n) = INR n * (1 - x).
Proof.
  intros H. unfold dist. induction n as [|k IH]; [cbn; ring|]. rewrite S_INR. cbn [repeat combine map tot fold_right fst snd].
  fold (tot (map (fun p => Rabs (fst p - snd p)) (combine (repeat 1 k) (repeat x k)))). rewrite IH. rewrite Rabs_right by lra. ring.
Qed.
Lemma damped_repeat d n x : damped d (repeat 1 n) (repeat x n) = repeat (x + d * (1 - x)) n.
Proof. unfold damped. induction n as [|k IH]; cbn; [reflexivity|]. f_equal. exact IH. Qed.
Lemma rmax_repeat n x : (0 < n)%nat -> rmax (repeat x n) = x.
Proof.
  destruct n as [|n]; [lia|]. intros _. cbn [repeat rmax]. induction n as [|n IH]; cbn; [reflexivity|].
  rewrite Rmax_left by lra. exact IH.
Qed.

Theorem C34_no_strength : forall sites xi nu nk F g K rho,
  INR (length sites) <= 10 ^ 20 ->
  (forall r s t, In s sites -> In t sites -> py_delta F g K r s t = 0) ->
  forall X err, In (X, err) (calc_Xika sites xi nu nk F g K rho) ->
  X = repeat 1 (length sites) /\ err = 0.
Proof.
  intros sites xi nu nk F g K rho HN Hz. unfold calc_Xika, py_calc_Xika. set (n := length sites) in *.
  assert (Hone : forall r p Y, length Y = n -> py_step sites xi nu nk F g K r p Y = repeat 1 n).
  { intros r p Y GL. rewrite py_step_spec by exact GL. unfold n. clear - Hz.
    assert (Z : forall s, In s sites -> partners sites xi nu nk (py_delta F g K r) p Y s = 0).
    { intros s Hs. unfold partners.
      assert (W : forall l, (forall z, In z l -> z = 0) -> tot l = 0).
      { induction l as [|z l IH]; cbn; intros H; [reflexivity|]. fold (tot l). rewrite (H z (or_introl eq_refl)), IH by auto. lra. }
      apply W. intros z Hin. apply in_map_iff in Hin. destruct Hin as [[t x] [<- Ht]]. apply in_combine_l in Ht.
      destruct t as [[j l] b]. cbn [fst snd]. rewrite (Hz r s (j, l, b) Hs Ht). ring. }
    assert (W : forall ss, (forall s, In s ss -> In s sites) -> map (fun s => 1 / (1 + partners sites xi nu nk (py_delta F g K r) p Y s)) ss = repeat 1 (length ss)).
    { induction ss as [|s ss IH]; intros H; cbn; [reflexivity|]. rewrite Z by (apply H; left; reflexivity). f_equal; [field|]. apply IH. intros; apply H; right; assumption. }
    apply W. auto. }
  assert (Stop : forall r p fuel obj, (fuel > 0)%nat ->
     iterate (py_step sites xi nu nk F g K r p) (1 / 10 ^ 12) (1 / 10) fuel (repeat 1 n) obj = (repeat 1 n, 0)).
  { intros r p [|fuel] obj Hf; [lia|]. cbn [iterate]. rewrite Hone by apply repeat_length. rewrite dist_repeat by lra.
    replace (INR n * (1 - 1)) with 0 by ring. destruct (Rlt_dec 0 (1 / 10 ^ 12)) as [_|C]; [reflexivity|lra]. }
  assert (P9 : forall k, 0 < (9 / 10) ^ k) by (intros; apply pow_lt; lra).
  assert (Start : forall r p fuel k x obj, (fuel + k = 500)%nat -> (k <= 490)%nat -> (0 < n)%nat ->
     1 / 2 <= x < 1 -> 1 - x = 1 / 2 * (9 / 10) ^ k -> 1 / 2 <= INR n * (1 - x) ->
     iterate (py_step sites xi nu nk F g K r p) (1 / 10 ^ 12) (1 / 10) fuel (repeat x n) obj = (repeat 1 n, 0)).
  { intros r p fuel. induction fuel as [|fuel IH]; intros k x obj E Hk Hn Hx Ex Hd; [lia|]. cbn [iterate].
    rewrite Hone by apply repeat_length. rewrite dist_repeat by lra. rewrite rmax_repeat by exact Hn.
    destruct (Rlt_dec (INR n * (1 - x)) (1 / 10 ^ 12)) as [C|_].
    { exfalso. assert (1 / 10 ^ 12 < 1 / 2) by (cbn [pow]; lra). lra. }
    destruct (Rgt_dec (INR n * (1 - x) / x) 1000) as [Gt|_].
    - rewrite damped_repeat.
      assert (B : 1000 * x < INR n * (1 - x)).
      { apply Rmult_gt_compat_r with (r := x) in Gt; [|lra]. unfold Rdiv in Gt. rewrite Rmult_assoc, Rinv_l, Rmult_1_r in Gt by lra. lra. }
      assert (Hk' : (S k <= 490)%nat).
      { destruct (Nat.eq_dec k 490) as [->|]; [|lia]. exfalso. rewrite Ex in B. pose proof ratio_bound as RB.
        assert (INR n * (9 / 10) ^ 490 <= 1000).
        { apply Rle_trans with (10 ^ 20 * (9 / 10) ^ 490); [apply Rmult_le_compat_r; [left; apply P9|exact HN]|]. rewrite Rmult_comm. exact RB. }
        lra. }
      pose proof (P9 k) as Pk. apply (IH (S k)); try lia; try lra.
      replace (1 - (x + 1 / 10 * (1 - x))) with (9 / 10 * (1 - x)) by field. rewrite Ex. cbn [pow]. ring.
    - apply Stop. lia. }
  assert (All : forall rho r Y, Y = repeat (1 / 2) n \/ Y = repeat 1 n -> forall X err,
     In (X, err) (densities (py_step sites xi nu nk F g K) (1 / 10 ^ 12) (1 / 10) 500 r rho Y) -> X = repeat 1 n /\ err = 0).
  { clear rho. induction rho as [|p rho IH]; intros r Y HY X err HI; [destruct HI|]. cbn [densities] in HI.
    assert (E : iterate (py_step sites xi nu nk F g K r p) (1 / 10 ^ 12) (1 / 10) 500 Y 0 = (repeat 1 n, 0)).
    { destruct HY as [->| ->]; [|apply Stop; lia]. destruct (Nat.eq_dec n 0) as [Z|NZ].
      - replace (repeat (1 / 2) n) with (repeat 1 n) by (rewrite Z; reflexivity). apply Stop. lia.
      - apply (Start r p 500%nat O (1 / 2) 0); try lia; try (cbn [pow]; lra).
        assert (1 <= INR n) by (apply (le_INR 1); lia). lra. }
    rewrite E in HI. cbn [fst] in HI. destruct HI as [HI|HI].
    - split; congruence.
    - exact (IH (S r) (repeat 1 n) (or_intror eq_refl) X err HI). }
  intros X err HI. exact (All rho O _ (or_introl eq_refl) X err HI).
Qed.
Print Assumptions C34_no_strength.

(** Both theorems apply to a self-associating pure fluid at two densities. *)
Example C34_nonvacuous : exists X err,
  nth_error (calc_Xika [(0, 0, 0); (0, 0, 1)]%nat (fun _ => 1) (fun _ _ => 1) (fun _ _ => 1)
     (fun _ _ a b => if Nat.eqb a b then 0 else 2) (fun _ _ _ => 1) (K4 (fun _ _ _ _ => 3)) [10; 20]) 1 = Some (X, err)
  /\ length X = 2%nat /\ (forall x, In x X -> 0 < x <= 1).
Proof.
  set (sites := [(0, 0, 0); (0, 0, 1)]%nat).
  pose proof (C34_fractions sites (fun _ => 1) (fun _ _ => 1) (fun _ _ => 1)
     (fun _ _ a b => if Nat.eqb a b then 0 else 2) (fun _ _ _ => 1) (K4 (fun _ _ _ _ => 3)) [10; 20]) as H.
  cbv zeta in H. destruct H as [L H]; try (intros; lra).
  - intros [|[|[|r]]] p E; cbn in E; try discriminate; injection E as <-; lra.
  - intros r s t _ _. cbn [py_delta]. destruct (Nat.eqb _ _); lra.
  - revert L H. generalize (calc_Xika sites (fun _ => 1) (fun _ _ => 1) (fun _ _ => 1)
     (fun _ _ a b => if Nat.eqb a b then 0 else 2) (fun _ _ _ => 1) (K4 (fun _ _ _ _ => 3)) [10; 20]). intros res L H.
    destruct (nth_error res 1) as [[X err]|] eqn:E.
    + exists X, err. split; [reflexivity|]. destruct (H 1%nat 20 X err eq_refl E) as [A [B _]]. auto.
    + apply nth_error_None in E. rewrite L in E. cbn in E. lia.
Qed.

(** ** A density with no strength after one with some is only accurate to the tolerance:
    the fractions of the previous density are kept when they are close enough. *)
Lemma warm_start : forall f,
  let c := 1 / 10 ^ 13 in
  nth_error (py_calc_Xika [(0, 0, 0)]%nat (fun _ => 1) (fun _ _ => 1) (fun _ _ => 1)
     (fun _ _ _ _ => 1) (fun _ _ _ => 1) (K4 (fun _ _ _ _ => 1)) [c / per_nm3; 0] (S (S f)) (1 / 10 ^ 12) (1 / 10)) 1
   = Some ([1 / (1 + c / 2)], 1 - 1 / (1 + c / 2))
  /\ 1 / (1 + c / 2) <> 1.
Proof.
  intros f c.
  assert (HN : per_nm3 <> 0) by (unfold per_nm3; apply Rgt_not_eq; lra).
  assert (C0 : 0 < c < 1 / 10 ^ 12) by (unfold c; split; cbn [pow]; lra).
  assert (C1 : c < 1 / 100) by (unfold c; cbn [pow]; lra).
  assert (T0 : 0 < 1 / 10 ^ 12) by lra. assert (T1 : 1 / 10 ^ 12 < 1 / 100) by (cbn [pow]; lra).
  set (tol := 1 / 10 ^ 12) in *. clearbody c.
  assert (St : forall r p x, py_step [(0, 0, 0)]%nat (fun _ => 1) (fun _ _ => 1) (fun _ _ => 1) (fun _ _ _ _ => 1) (fun _ _ _ => 1) (K4 (fun _ _ _ _ => 1)) r p [x]
      = [1 / (1 + per_nm3 * p * x)]).
  { intros. unfold py_step. cbn [length seq map fold_left nth site_at py_delta comp_of bead_of type_of fst snd]. f_equal. f_equal. ring. }
  assert (Ds : forall a b, dist [a] [b] = Rabs (a - b)) by (intros; unfold dist; cbn; ring).
  set (y := 1 / (1 + c / 2)). assert (Hy : y * (1 + c / 2) = 1) by (unfold y; field; lra).
  assert (Y1 : y < 1) by nra. assert (Y2 : 1 / 2 < y) by nra. assert (Y3 : 1 - y = y * (c / 2)) by lra.
  assert (F1 : iterate (py_step [(0, 0, 0)]%nat (fun _ => 1) (fun _ _ => 1) (fun _ _ => 1) (fun _ _ _ _ => 1) (fun _ _ _ => 1) (K4 (fun _ _ _ _ => 1)) 0 (c / per_nm3)) tol (1 / 10) (S (S f)) [1 / 2] 0
     = ([y], Rabs (1 / (1 + c * y) - y))).
  { cbn [iterate]. rewrite !St. rewrite !Ds.
    replace (per_nm3 * (c / per_nm3) * (1 / 2)) with (c / 2) by (field; exact HN). fold y.
    replace (per_nm3 * (c / per_nm3) * y) with (c * y) by (field; exact HN).
    rewrite (Rabs_right (y - 1 / 2)) by lra.
    destruct (Rlt_dec (y - 1 / 2) tol) as [C|_]; [nra|]. cbn [rmax fold_left].
    destruct (Rgt_dec ((y - 1 / 2) / (1 / 2)) 1000) as [C|_]; [lra|].
    destruct (Rlt_dec (Rabs (1 / (1 + c * y) - y)) tol) as [_|C]; [reflexivity|]. exfalso. apply C.
    set (z := 1 / (1 + c * y)). assert (P : 0 < 1 + c * y) by nra. assert (Hz : z * (1 + c * y) = 1) by (unfold z; field; lra).
    assert (Z0 : 0 < z) by (unfold z; apply Rdiv_lt_0_compat; lra).
    assert (Z1 : z < 1) by nra. assert (Z2 : 1 - z = z * (c * y)) by lra.
    assert (0 < z * (c * y) < c) by (split; [nra|nra]). assert (0 < y * (c / 2) < c) by (split; nra).
    apply Rabs_def1; lra. }
  split; [|fold y; lra].
  unfold py_calc_Xika. fold tol. cbn [length repeat densities]. rewrite F1. cbn [nth_error fst].
  f_equal. generalize (S f). intros f'. cbn [iterate]. rewrite St, Ds. replace (1 / (1 + per_nm3 * 0 * y)) with 1 by field.
  rewrite Rabs_right by lra. destruct (Rlt_dec (1 - y) tol) as [_|C]; [reflexivity|]. exfalso. apply C. nra.
Qed.
Theorem C34_warm_start_refuted :
  exists rho x err, nth_error (calc_Xika [(0, 0, 0)]%nat (fun _ => 1) (fun _ _ => 1) (fun _ _ => 1)
     (fun _ _ _ _ => 1) (fun _ _ _ => 1) (K4 (fun _ _ _ _ => 1)) [rho; 0]) 1 = Some ([x], err) /\ x <> 1.
Proof.
  destruct (warm_start 498) as [A B]. eexists. eexists. eexists. split; [exact A|exact B].
Qed.
Print Assumptions C34_warm_start_refuted.

(** ** C76: association never raises the energy, and adds nothing without bonds *)
Lemma ln_below x : 0 < x -> ln x <= x - 1.
Proof.
  intros H. pose proof (exp_ineq1_le (x - 1)) as E. rewrite <- (ln_exp (x - 1)).
  destruct (Rle_lt_or_eq_dec x (exp (x - 1))) as [L|L]; [lra|left; apply ln_increasing; lra|rewrite <- L; lra].
Qed.
Lemma ln_half x : 0 < x <= 1 -> ln x + (1 - x) / 2 <= 0.
Proof.
  intros H. pose proof (ln_below x (proj1 H)). lra.
Qed.
Theorem C76_energy : forall sites xi nu nk X,
  (forall i, 0 <= xi i) -> (forall i k, 0 <= nu i k) -> (forall k a, 0 <= nk k a) -> length X = length sites ->
  (forall x, In x X -> 0 < x <= 1) ->
  assoc_energy sites xi nu nk X
    = tot (map (fun p => let '(i, k, a) := fst p in xi i * nu i k * nk k a * (ln (snd p) + (1 - snd p) / 2)) (combine sites X)) /\
  assoc_energy sites xi nu nk X <= 0 /\
  (Forall (fun x => x = 1) X -> assoc_energy sites xi nu nk X = 0) /\
  (forall i k a x, In ((i, k, a), x) (combine sites X) -> 0 < xi i -> 0 < nu i k -> 0 < nk k a -> x < 1 -> assoc_energy sites xi nu nk X < 0).
Proof.
  intros sites xi nu nk X Hx Hn Hk L HX.
  set (term := fun p : site * R => let '(i, k, a) := fst p in xi i * nu i k * nk k a * (ln (snd p) + (1 - snd p) / 2)).
  assert (E : assoc_energy sites xi nu nk X = tot (map term (combine sites X))).
  { unfold assoc_energy. cbv zeta.
    transitivity (fold_left (fun a ind => a + (fun s x => term (s, x)) (nth ind sites (0, 0, 0)%nat) (nth ind X 0)) (seq 0 (length sites)) 0).
    - assert (FE : forall (f h : R -> nat -> R) l acc, (forall a j, f a j = h a j) -> fold_left f l acc = fold_left h l acc).
      { clear. intros f h l. induction l as [|j l IH]; intros acc H; cbn [fold_left]; [reflexivity|]. rewrite H. apply IH. exact H. }
      apply FE. intros acc j. unfold site_at, term. destruct (nth j sites (0, 0, 0)%nat) as [[i k] a]. unfold comp_of, bead_of, type_of. cbn [fst snd].
      destruct (Req_EM_T (nk k a) 0) as [-> |_]; [|reflexivity]. ring.
    - rewrite (fold_left_tot (fun ind => (fun s x => term (s, x)) (nth ind sites (0, 0, 0)%nat) (nth ind X 0))).
      rewrite Rplus_0_l. f_equal. rewrite (map_seq_combine (0, 0, 0)%nat 0 (fun s x => term (s, x))) by (symmetry; exact L).
      apply map_ext. intros [s x]. reflexivity. }
  assert (T : forall p, In p (combine sites X) -> term p <= 0).
  { intros [[[i k] a] x] Hin. unfold term. cbn [fst snd]. apply in_combine_r in Hin. specialize (HX x Hin). pose proof (ln_half x HX).
    assert (0 <= xi i * nu i k * nk k a) by (apply Rmult_le_pos; [apply Rmult_le_pos|]; auto). nra. }
  assert (N : forall l, (forall p, In p l -> term p <= 0) -> tot (map term l) <= 0 /\ forall p, In p l -> tot (map term l) <= term p).
  { induction l as [|q l IH]; intros H; [cbn; split; [lra|tauto]|]. change (tot (map term (q :: l))) with (term q + tot (map term l)). destruct (IH (fun p Hp => H p (or_intror Hp))) as [A B].
    pose proof (H q (or_introl eq_refl)). split; [lra|]. intros p [->|Hp]; [lra|]. specialize (B p Hp). lra. }
  destruct (N _ T) as [N1 N2]. split; [exact E|]. rewrite E. split; [exact N1|]. split.
  - intros H1. rewrite Forall_forall in H1.
    assert (W : forall l, (forall p, In p l -> term p = 0) -> tot (map term l) = 0).
    { induction l as [|q l IH]; intros H; [reflexivity|]. change (tot (map term (q :: l))) with (term q + tot (map term l)). rewrite (IH (fun p Hp => H p (or_intror Hp))), (H q (or_introl eq_refl)). lra. }
    apply W. intros [[[i k] a] x] Hin. unfold term. cbn [fst snd]. rewrite (H1 x) by (exact (in_combine_r _ _ _ _ Hin)). rewrite ln_1. field.
  - intros i k a x Hin H1 H2 H3 H4. specialize (N2 _ Hin). unfold term in N2. cbn [fst snd] in N2.
    pose proof (HX x (in_combine_r _ _ _ _ Hin)) as Hx1.
    pose proof (ln_below x (proj1 Hx1)).
    assert (0 < xi i * nu i k * nk k a) by (repeat apply Rmult_lt_0_compat; assumption). fold term in N2.
    assert (xi i * nu i k * nk k a * (ln x + (1 - x) / 2) < 0) by nra. lra.
Qed.
Print Assumptions C76_energy.
Example C76_nonvacuous : assoc_energy [(0, 0, 0)]%nat (fun _ => 1) (fun _ _ => 1) (fun _ _ => 2) [1 / 2] < 0.
Proof.
  destruct (C76_energy [(0, 0, 0)]%nat (fun _ => 1) (fun _ _ => 1) (fun _ _ => 2) [1 / 2]) as [_ [_ [_ H]]]; try (intros; lra); [reflexivity| |].
  - intros x [<-|[]]. lra.
  - apply (H 0%nat 0%nat 0%nat (1 / 2)); try lra. left. reflexivity.
Qed.
