(** C46 again: K values for which the limits leave room are accepted. *)
From Coq Require Import Lqa Lia.
From Verif Require Import Base BaseFacts Num NumFacts PhaseEqModel DensityModel FlashModel FlashProps.
Open Scope Q_scope.

Lemma fold_min_spec (l : list num) (a : num) : (forall x, In x (a :: l) -> x <> NaN) ->
  let m := fold_left (fun m x => if nlt x m then x else m) l a in
  In m (a :: l) /\ (forall x, In x (a :: l) -> nle m x = true).
Proof.
  revert a. induction l as [|b l IH]; intros a Hn; cbn [fold_left].
  - split; [left; reflexivity|]. intros x [<-|[]]. apply nle_refl, Hn. left. reflexivity.
  - set (c := if nlt b a then b else a).
    assert (Hc : c <> NaN) by (unfold c; destruct (nlt b a); apply Hn; cbn; auto).
    destruct (IH c) as [I1 I2]. { intros x [<-|Hx]; [exact Hc|]. apply Hn. right. right. exact Hx. }
    assert (Ca : nle c a = true /\ nle c b = true).
    { unfold c. destruct (nlt b a) eqn:E.
      - split; [apply nlt_le, E|apply nle_refl, Hn; cbn; auto].
      - split; [apply nle_refl, Hn; cbn; auto|apply nlt_false_nle; [apply Hn; cbn; auto|apply Hn; cbn; auto|exact E]]. }
    split.
    + destruct I1 as [I1|I1]; [|right; right; exact I1]. rewrite <- I1. unfold c. destruct (nlt b a); cbn; auto.
    + pose proof (I2 c (or_introl eq_refl)) as Ic. intros x [<-|[<-|Hx]]; [eapply nle_trans; [exact Ic|apply Ca]|eapply nle_trans; [exact Ic|apply Ca]|].
      apply I2. right. exact Hx.
Qed.
Lemma fold_max_spec (l : list num) (a : num) : (forall x, In x (a :: l) -> x <> NaN) ->
  let m := fold_left (fun m x => if ngt x m then x else m) l a in
  In m (a :: l) /\ (forall x, In x (a :: l) -> nle x m = true).
Proof.
  revert a. induction l as [|b l IH]; intros a Hn; cbn [fold_left].
  - split; [left; reflexivity|]. intros x [<-|[]]. apply nle_refl, Hn. left. reflexivity.
  - set (c := if nlt a b then b else a).
    assert (Hc : c <> NaN) by (unfold c; destruct (nlt a b); apply Hn; cbn; auto).
    destruct (IH c) as [I1 I2]. { intros x [<-|Hx]; [exact Hc|]. apply Hn. right. right. exact Hx. }
    assert (Ca : nle a c = true /\ nle b c = true).
    { unfold c. destruct (nlt a b) eqn:E.
      - split; [apply nlt_le, E|apply nle_refl, Hn; cbn; auto].
      - split; [apply nle_refl, Hn; cbn; auto|apply nlt_false_nle; [apply Hn; cbn; auto|apply Hn; cbn; auto|exact E]]. }
    split.
    + destruct I1 as [I1|I1]; [|right; right; exact I1]. rewrite <- I1. unfold c. destruct (nlt a b); cbn; auto.
    + pose proof (I2 c (or_introl eq_refl)) as Ic. intros x [<-|[<-|Hx]]; [eapply nle_trans; [apply Ca|exact Ic]|eapply nle_trans; [apply Ca|exact Ic]|].
      apply I2. right. exact Hx.
Qed.

(** A drawn value between the largest lower and the smallest upper limit obeys all of them. *)
Lemma drawn_between (minl maxl : list num) a b k k1 r :
  (forall x, In x (Fin a :: minl) -> nle x (Fin k) = true) -> (forall x, In x (Fin b :: maxl) -> nle (Fin k) x = true) ->
  0 <= r -> r <= 1 ->
  exists min0 max0, py_min (Fin b :: maxl) = Ok max0 /\ py_max (Fin a :: minl) = Ok min0 /\
    let reset := existsb (fun m => ngt (Fin k1) m) (Fin b :: maxl) || existsb (fun m => nlt (Fin k1) m) (Fin a :: minl) in
    exists k', (if reset then nadd (nmul (nsub max0 min0) (Fin r)) min0 else Fin k1) = Fin k' /\
      (forall x, In x (Fin a :: minl) -> nle x (Fin k') = true) /\ (forall x, In x (Fin b :: maxl) -> nle (Fin k') x = true).
Proof.
  intros Hmin Hmax Hr0 Hr1.
  assert (N1 : forall x, In x (Fin a :: minl) -> x <> NaN) by (intros x Hx; apply Hmin in Hx; apply nle_not_nan in Hx; tauto).
  assert (N2 : forall x, In x (Fin b :: maxl) -> x <> NaN) by (intros x Hx; apply Hmax in Hx; apply nle_not_nan in Hx; tauto).
  destruct (fold_min_spec maxl (Fin b) N2) as [I1 I2]. destruct (fold_max_spec minl (Fin a) N1) as [J1 J2].
  cbv zeta in I1, I2, J1, J2.
  unfold py_min, py_max. set (M := fold_left _ maxl _) in *. set (m := fold_left _ minl _) in *.
  exists m, M. split; [reflexivity|]. split; [reflexivity|]. cbv zeta.
  pose proof (Hmax _ I1) as HM. pose proof (I2 _ (or_introl eq_refl)) as HM'.
  pose proof (Hmin _ J1) as Hm. pose proof (J2 _ (or_introl eq_refl)) as Hm'.
  destruct M as [q| | |]; try discriminate. destruct m as [p| | |]; try discriminate.
  apply nle_fin in HM, Hm.
  destruct (existsb (fun m => ngt (Fin k1) m) (Fin b :: maxl) || existsb (fun m => nlt (Fin k1) m) (Fin a :: minl)) eqn:E.
  - cbn [nsub nneg nadd nmul]. eexists. split; [reflexivity|].
    split; intros x Hx.
    + eapply nle_trans; [apply J2, Hx|]. apply nle_fin. nra.
    + eapply nle_trans; [|apply I2, Hx]. apply nle_fin. nra.
  - exists k1. split; [reflexivity|]. apply orb_false_iff in E. destruct E as [E1 E2].
    split; intros x Hx.
    + apply nlt_false_nle; [discriminate|apply N1, Hx|]. destruct (nlt (Fin k1) x) eqn:F; [|reflexivity].
      assert (X : existsb (fun m => nlt (Fin k1) m) (Fin a :: minl) = true); [|congruence].
      apply existsb_exists. exists x. split; assumption.
    + apply nlt_false_nle; [apply N2, Hx|discriminate|]. destruct (nlt x (Fin k1)) eqn:F; [|reflexivity].
      assert (X : existsb (fun m => nlt m (Fin k1)) (Fin b :: maxl) = true); [|congruence].
      apply existsb_exists. exists x. split; assumption.
Qed.

(** the K values (a, b) put the fractions of the first component, x0 and a x0, between [lo] and [hi] *)
Definition meets (a b lo hi : Q) : Prop :=
  ~ a == b /\ exists x0, x0 * (a - b) == 1 - b /\ lo <= x0 /\ x0 <= hi /\ lo <= a * x0 /\ a * x0 <= hi.

Lemma le_div a b c : 0 < c -> a * c <= b -> a <= b / c.
Proof. intros. apply Qle_shift_div_l; assumption. Qed.
Lemma div_le a b c : 0 < c -> a <= b * c -> a / c <= b.
Proof. intros. apply Qle_shift_div_r; assumption. Qed.
Lemma le_div_inv a b c : 0 < c -> a <= b / c -> a * c <= b.
Proof. intros Hc H. apply (Qmult_le_compat_r _ _ c) in H; [|lra]. assert (X : b / c * c == b) by (field; lra). lra. Qed.
Lemma div_le_inv a b c : 0 < c -> a / c <= b -> a <= b * c.
Proof. intros Hc H. apply (Qmult_le_compat_r _ _ c) in H; [|lra]. assert (X : a / c * c == a) by (field; lra). lra. Qed.

Lemma accepted a b lo hi : meets a b lo hi ->
  (nlt (frac_x (Fin a) (Fin b)) (Fin lo) || nlt (frac_y (Fin a) (Fin b)) (Fin lo) = false) /\
  (ngt (frac_x (Fin a) (Fin b)) (Fin hi) || ngt (frac_y (Fin a) (Fin b)) (Fin hi) = false).
Proof.
  intros (Hne & x0 & E & A & B & C & D). unfold frac_y. rewrite frac_x_fin by assumption. cbn [nmul].
  assert (X : (1 + - b) / (a + - b) == x0).
  { apply (Qmult_inj_r _ _ (a + - b)); [intros Z; apply Hne; lra|]. transitivity (1 + - b); [field; intros Z; apply Hne; lra|lra]. }
  assert (Y : a * ((1 + - b) / (a + - b)) == a * x0) by (rewrite X; reflexivity).
  split; apply orb_false_iff; split; apply nlt_fin_false; rewrite ?Y, ?X; lra.
Qed.

Lemma if_positive_In x b : In x (if_positive b) -> x = b /\ ngt b (Fin 0) = true.
Proof. unfold if_positive. destruct (ngt b (Fin 0)); [|intros []]. intros [<-|[]]. auto. Qed.

Lemma bound_x_fin m k0 : ~ m == 1 -> bound_x (Fin m) (Fin k0) = Fin ((1 + - (m * k0)) / (1 + - m)).
Proof. intros H. unfold bound_x, nsub, one. cbn [nneg nadd nmul]. apply ndiv_fin. intros Z. apply H. lra. Qed.
Lemma bound_y_fin m k0 : ~ m == k0 -> bound_y (Fin m) (Fin k0) = Fin ((1 + - m) * k0 / (k0 + - m)).
Proof. intros H. unfold bound_y, nsub, one. cbn [nneg nadd nmul]. apply ndiv_fin. intros Z. apply H. lra. Qed.

Section Up.
  Variables k0 lo hi : Q.
  Hypothesis (Hk0 : 1 < k0) (Hlo : 0 <= lo) (Hlo1 : lo < 1) (Hhi0 : 0 <= hi) (Hhi : hi <= 1).
  Lemma meets_up k' : k' <= 1 -> (meets k0 k' lo hi <-> lo * (k0 - k') <= 1 - k' /\ k0 * (1 - k') <= hi * (k0 - k')).
  Proof.
    intros Hk. split.
    - intros (_ & x0 & E & A & B & C & D). split; nra.
    - intros [A B]. split; [lra|]. exists ((1 - k') / (k0 - k')). set (x0 := (1 - k') / (k0 - k')).
      assert (E : x0 * (k0 - k') == 1 - k') by (unfold x0; field; lra).
      split; [exact E|]. assert (0 <= x0) by (unfold x0; apply le_div; lra).
      assert (P : 0 < k0 - k') by lra.
      assert (L : lo <= x0) by (unfold x0; apply le_div; lra).
      assert (U : k0 * x0 <= hi).
      { apply (Qmult_le_r _ _ (k0 - k')); [exact P|]. assert (Z : k0 * x0 * (k0 - k') == k0 * (1 - k')) by (rewrite <- E; ring). lra. }
      repeat split; nra.
  Qed.
  Lemma limits_up k' : 0 < k' -> k' <= 1 -> meets k0 k' lo hi ->
    (forall x, In x (fst ([] : list num, bound_y (Fin lo) (Fin k0) :: if_positive (bound_x (Fin lo) (Fin k0))) ++
                     (bound_y (Fin hi) (Fin k0) :: if_positive (bound_x (Fin hi) (Fin k0))))%list -> nle x (Fin k') = true) /\
    (forall x, In x ((bound_y (Fin lo) (Fin k0) :: if_positive (bound_x (Fin lo) (Fin k0))) ++ [])%list -> nle (Fin k') x = true).
  Proof.
    intros H0 H1 Hm. apply meets_up in Hm; [|assumption]. destruct Hm as [A B]. split.
    - cbn [fst app]. intros x [<-|Hx].
      + rewrite bound_y_fin by lra. apply nle_fin. apply div_le; [lra|]. nra.
      + apply if_positive_In in Hx. destruct Hx as [-> Hp]. destruct (Qeq_dec hi 1) as [E|E].
        * exfalso. unfold bound_x, nsub, one in Hp. cbn [nneg nadd nmul ndiv] in Hp.
          destruct (Qeq_bool (1 + - hi) 0) eqn:Z; [|apply Qeq_bool_neq in Z; apply Z; lra].
          unfold inf_of_sign in Hp. destruct (1 + - (hi * k0) ?= 0) eqn:C; try discriminate. apply Qgt_alt in C. nra.
        * rewrite bound_x_fin by assumption. apply nle_fin. apply div_le; [lra|]. nra.
    - intros x Hx. rewrite app_nil_r in Hx. destruct Hx as [<-|Hx].
      + rewrite bound_y_fin by lra. apply nle_fin. apply le_div; [lra|]. nra.
      + apply if_positive_In in Hx. destruct Hx as [-> Hp]. rewrite bound_x_fin by lra. apply nle_fin. apply le_div; [lra|]. nra.
  Qed.
  Lemma limits_up_conv k' : k' <= 1 -> (exists k, 0 < k /\ k <= 1 /\ meets k0 k lo hi) ->
    (forall x, In x (fst ([] : list num, bound_y (Fin lo) (Fin k0) :: if_positive (bound_x (Fin lo) (Fin k0))) ++
                     (bound_y (Fin hi) (Fin k0) :: if_positive (bound_x (Fin hi) (Fin k0))))%list -> nle x (Fin k') = true) ->
    (forall x, In x ((bound_y (Fin lo) (Fin k0) :: if_positive (bound_x (Fin lo) (Fin k0))) ++ [])%list -> nle (Fin k') x = true) ->
    meets k0 k' lo hi.
  Proof.
    intros H1 (k & Hk0' & Hk1 & Hm) Hmin Hmax. apply meets_up in Hm; [|assumption]. destruct Hm as [A B]. apply meets_up; [assumption|].
    split.
    - assert (X : nle (Fin k') (bound_x (Fin lo) (Fin k0)) = true).
      { apply Hmax. rewrite app_nil_r. right. unfold if_positive. rewrite bound_x_fin by lra.
        assert (E : ngt (Fin ((1 + - (lo * k0)) / (1 + - lo))) (Fin 0) = true); [|rewrite E; left; reflexivity].
        apply nlt_fin. apply Qlt_shift_div_l; [lra|]. nra. }
      rewrite bound_x_fin in X by lra. apply nle_fin in X. apply le_div_inv in X; [|lra]. nra.
    - assert (X : nle (bound_y (Fin hi) (Fin k0)) (Fin k') = true) by (apply Hmin; left; reflexivity).
      rewrite bound_y_fin in X by lra. apply nle_fin in X. apply div_le_inv in X; [|lra]. nra.
  Qed.
End Up.

Section Down.
  Variables k0 lo hi : Q.
  Hypothesis (Hk0 : 0 < k0) (Hk01 : k0 < 1) (Hlo : 0 <= lo) (Hlo1 : lo < k0) (Hhi0 : 0 <= hi) (Hhi : hi <= 1).
  Lemma meets_down k' : 1 <= k' -> (meets k0 k' lo hi <-> lo * (k' - k0) <= k0 * (k' - 1) /\ k' - 1 <= hi * (k' - k0)).
  Proof.
    intros Hk. split.
    - intros (_ & x0 & E & A & B & C & D).
      assert (E' : x0 * (k' - k0) == k' - 1) by lra. clear E. assert (0 < k' - k0) by lra.
      assert (L1 : lo * (k' - k0) <= k0 * x0 * (k' - k0)) by (apply Qmult_le_compat_r; lra).
      assert (L2 : x0 * (k' - k0) <= hi * (k' - k0)) by (apply Qmult_le_compat_r; lra).
      assert (Z : k0 * x0 * (k' - k0) == k0 * (k' - 1)) by (rewrite <- E'; ring). split; lra.
    - intros [A B]. split; [lra|]. exists ((k' - 1) / (k' - k0)). set (x0 := (k' - 1) / (k' - k0)).
      assert (P : 0 < k' - k0) by lra.
      assert (E : x0 * (k' - k0) == k' - 1) by (unfold x0; field; lra).
      split; [lra|]. assert (N : 0 <= x0) by (unfold x0; apply le_div; lra).
      assert (U : x0 <= hi) by (unfold x0; apply div_le; lra).
      assert (L : lo <= k0 * x0).
      { apply (Qmult_le_r _ _ (k' - k0)); [exact P|]. assert (Z : k0 * x0 * (k' - k0) == k0 * (k' - 1)) by (rewrite <- E; ring). lra. }
      repeat split; nra.
  Qed.
  Lemma bound_y_hi k' : 1 <= k' -> k' - 1 <= hi * (k' - k0) -> ngt (bound_y (Fin hi) (Fin k0)) (Fin 0) = true ->
    nle (Fin k') (bound_y (Fin hi) (Fin k0)) = true.
  Proof.
    intros Hk B Hp. destruct (Qlt_le_dec hi k0) as [L|L].
    - rewrite bound_y_fin by lra. apply nle_fin, le_div; [lra|]. nra.
    - destruct (Qeq_dec hi k0) as [E|E].
      + unfold bound_y, nsub, one in *. cbn [nneg nadd nmul ndiv] in *.
        destruct (Qeq_bool (k0 + - hi) 0) eqn:Z; [|apply Qeq_bool_neq in Z; exfalso; apply Z; lra].
        unfold inf_of_sign in *. destruct (_ ?= 0); try discriminate. reflexivity.
      + exfalso. rewrite bound_y_fin in Hp by assumption. apply nlt_fin in Hp.
        assert (X : (1 + - hi) * k0 / (k0 + - hi) == ((1 + - hi) * k0) * / (k0 + - hi)) by reflexivity.
        assert (Y : (1 + - hi) * k0 / (k0 + - hi) * (k0 + - hi) == (1 + - hi) * k0) by (field; lra). nra.
  Qed.
  Lemma bound_x_hi k' : 1 <= k' -> nle (Fin k') (bound_x (Fin hi) (Fin k0)) = true <-> k' - 1 <= hi * (k' - k0).
  Proof.
    intros Hk. destruct (Qeq_dec hi 1) as [E|E].
    - assert (X : bound_x (Fin hi) (Fin k0) = PInf).
      { unfold bound_x, nsub, one. cbn [nneg nadd nmul ndiv].
        destruct (Qeq_bool (1 + - hi) 0) eqn:Z; [|apply Qeq_bool_neq in Z; exfalso; apply Z; lra].
        unfold inf_of_sign. destruct (1 + - (hi * k0) ?= 0) eqn:C; [apply Qeq_alt in C; exfalso; nra|apply Qlt_alt in C; exfalso; nra|reflexivity]. }
      rewrite X. cbn. split; [intros _; nra|reflexivity].
    - rewrite bound_x_fin by assumption. rewrite nle_fin. split; intros H.
      + apply le_div_inv in H; [|lra]. nra.
      + apply le_div; [lra|]. nra.
  Qed.
  Lemma limits_down k' : 1 <= k' -> meets k0 k' lo hi ->
    (forall x, In x ((bound_x (Fin lo) (Fin k0) :: if_positive (bound_y (Fin lo) (Fin k0))) ++ [])%list -> nle x (Fin k') = true) /\
    (forall x, In x (([] : list num) ++ (bound_x (Fin hi) (Fin k0) :: if_positive (bound_y (Fin hi) (Fin k0))))%list -> nle (Fin k') x = true).
  Proof.
    intros H1 Hm. apply meets_down in Hm; [|assumption]. destruct Hm as [A B]. split.
    - intros x Hx. rewrite app_nil_r in Hx. destruct Hx as [<-|Hx].
      + rewrite bound_x_fin by lra. apply nle_fin, div_le; [lra|]. nra.
      + apply if_positive_In in Hx. destruct Hx as [-> Hp]. rewrite bound_y_fin by lra. apply nle_fin, div_le; [lra|]. nra.
    - cbn [app]. intros x [<-|Hx]; [apply bound_x_hi; assumption|].
      apply if_positive_In in Hx. destruct Hx as [-> Hp]. apply bound_y_hi; assumption.
  Qed.
  Lemma limits_down_conv k' : 1 <= k' ->
    (forall x, In x ((bound_x (Fin lo) (Fin k0) :: if_positive (bound_y (Fin lo) (Fin k0))) ++ [])%list -> nle x (Fin k') = true) ->
    (forall x, In x (([] : list num) ++ (bound_x (Fin hi) (Fin k0) :: if_positive (bound_y (Fin hi) (Fin k0))))%list -> nle (Fin k') x = true) ->
    meets k0 k' lo hi.
  Proof.
    intros H1 Hmin Hmax. apply meets_down; [assumption|]. split.
    - assert (X : nle (bound_y (Fin lo) (Fin k0)) (Fin k') = true).
      { apply Hmin. rewrite app_nil_r. right. unfold if_positive. rewrite bound_y_fin by lra.
        assert (E : ngt (Fin ((1 + - lo) * k0 / (k0 + - lo))) (Fin 0) = true); [|rewrite E; left; reflexivity].
        apply nlt_fin. apply Qlt_shift_div_l; [lra|]. nra. }
      rewrite bound_y_fin in X by lra. apply nle_fin in X. apply div_le_inv in X; [|lra]. nra.
    - apply bound_x_hi; [assumption|]. apply Hmax. left. reflexivity.
  Qed.
End Down.

(** C46: whenever some K1 of the allowed range meets the limits for the given K0, the K values are
    accepted: K0 is kept, and K1, kept or redrawn, meets the limits. *)
Theorem C46_redraw : forall k0 k1 lo hi r k,
  0 <= lo -> hi <= 1 -> 0 <= r -> r <= 1 ->
  (k1 < k0 /\ 1 < k0 /\ 1 # 67108864 <= k /\ k <= 1) \/ (k0 < k1 /\ 0 < k0 /\ k0 < 1 /\ 1 <= k /\ k <= 100000000) ->
  meets k0 k lo hi ->
  exists b reset, constrain_Ki (Fin k0, Fin k1) (Fin lo) (Fin hi) (Fin r) = Ok ((Fin k0, Fin b), reset) /\ meets k0 b lo hi.
Proof.
  intros k0 k1 lo hi r k Hlo Hhi Hr0 Hr1 Hc Hm.
  assert (Hl1 : lo < 1 /\ (k0 < 1 -> 0 < k0 -> lo < k0)).
  { destruct Hm as (Hne & x0 & E & A & B & C & D). destruct Hc as [(_ & H1 & H2 & H3)|(_ & H0 & H1 & H2 & H3)].
    - split; [|lra]. destruct (Qlt_le_dec lo 1); [assumption|]. exfalso. nra.
    - assert (x0 < 1).
      { destruct (Qlt_le_dec x0 1) as [|G]; [assumption|]. exfalso. assert (x0 == 1) by lra. assert (1 * (k0 - k) == 1 - k) by (rewrite <- H at 1; exact E). lra. }
      split; [nra|]. intros _ _. nra. }
  assert (Hhi0 : 0 <= hi) by (destruct Hm as (_ & x0 & _ & A & B & _); lra).
  unfold constrain_Ki.
  assert (Ulo : in_unit (Fin lo) = true) by (unfold in_unit, one; apply andb_true_iff; rewrite !nle_fin; split; lra).
  assert (Uhi : in_unit (Fin hi) = true) by (unfold in_unit, one; apply andb_true_iff; rewrite !nle_fin; split; lra).
  destruct Hc as [(G1 & H1 & H2 & H3)|(G1 & H0 & H1 & H2 & H3)].
  - assert (Es : k_setup (Fin k0) (Fin k1) = Ok (true, Fin k0)).
    { unfold k_setup. assert (X : ngt (Fin k0) (Fin k1) = true) by (apply nlt_fin; exact G1). rewrite X.
      assert (Y : nlt (Fin k0) one = false) by (apply nlt_fin_false; lra). rewrite Y. reflexivity. }
    rewrite Es. cbn [rbind]. assert (X : ngt (Fin k0) (Fin k1) = true) by (apply nlt_fin; exact G1). rewrite X.
    unfold limit_min, limit_max. rewrite Ulo, Uhi. cbn [rbind fst snd].
    destruct (limits_up k0 lo hi ltac:(assumption) Hlo ltac:(apply Hl1) Hhi k ltac:(lra) H3 Hm) as [L1 L2]. cbn [fst] in L1.
    set (minl := ([] ++ bound_y (Fin hi) (Fin k0) :: if_positive (bound_x (Fin hi) (Fin k0)))%list) in *.
    set (maxl := ((bound_y (Fin lo) (Fin k0) :: if_positive (bound_x (Fin lo) (Fin k0))) ++ [])%list) in *.
    destruct (drawn_between minl maxl (1 # 67108864) 1 k k1 r) as (m & M & E1 & E2 & k' & E3 & F1 & F2); try assumption.
    { intros x [<-|Hx]; [apply nle_fin; exact H2|apply L1, Hx]. }
    { intros x [<-|Hx]; [apply nle_fin; exact H3|apply L2, Hx]. }
    unfold one, seps. rewrite E1. cbn [rbind]. rewrite E2. cbn [rbind]. rewrite E3.
    assert (Hk' : k' <= 1) by (apply nle_fin, F2; left; reflexivity).
    assert (Hm' : meets k0 k' lo hi).
    { apply (limits_up_conv k0 lo hi); try assumption; [apply Hl1| | |].
      - exists k. repeat split; [lra|assumption|exact (proj1 Hm)|exact (proj2 Hm)].
      - cbn [fst]. fold minl. intros x Hx. apply F1. right. exact Hx.
      - fold maxl. intros x Hx. apply F2. right. exact Hx. }
    destruct (accepted _ _ _ _ Hm') as [A1 A2]. rewrite A1, A2. eexists _, _. split; [reflexivity|exact Hm'].
  - assert (Es : k_setup (Fin k0) (Fin k1) = Ok (false, Fin k0)).
    { unfold k_setup. assert (X : ngt (Fin k0) (Fin k1) = false) by (apply nlt_fin_false; lra). rewrite X.
      assert (X' : nlt (Fin k0) (Fin k1) = true) by (apply nlt_fin; exact G1). rewrite X'.
      assert (Y : ngt (Fin k0) one = false) by (apply nlt_fin_false; lra). rewrite Y.
      assert (Y' : nlt (Fin k0) (Fin 0) = false) by (apply nlt_fin_false; lra). rewrite Y'. reflexivity. }
    rewrite Es. cbn [rbind]. assert (X : ngt (Fin k0) (Fin k1) = false) by (apply nlt_fin_false; lra). rewrite X.
    assert (X' : nlt (Fin k0) (Fin k1) = true) by (apply nlt_fin; exact G1). rewrite X'.
    unfold limit_min, limit_max. rewrite Ulo, Uhi. cbn [rbind fst snd].
    destruct (limits_down k0 lo hi H1 Hlo (proj2 Hl1 H1 H0) Hhi0 Hhi k H2 Hm) as [L1 L2].
    set (minl := ((bound_x (Fin lo) (Fin k0) :: if_positive (bound_y (Fin lo) (Fin k0))) ++ [])%list) in *.
    set (maxl := ([] ++ (bound_x (Fin hi) (Fin k0) :: if_positive (bound_y (Fin hi) (Fin k0))))%list) in *.
    destruct (drawn_between minl maxl 1 100000000 k k1 r) as (m & M & E1 & E2 & k' & E3 & F1 & F2); try assumption.
    { intros x [<-|Hx]; [apply nle_fin; exact H2|apply L1, Hx]. }
    { intros x [<-|Hx]; [apply nle_fin; exact H3|apply L2, Hx]. }
    unfold one, seps. rewrite E1. cbn [rbind]. rewrite E2. cbn [rbind]. rewrite E3.
    assert (Hk' : 1 <= k') by (apply nle_fin, F1; left; reflexivity).
    assert (Hm' : meets k0 k' lo hi).
    { apply (limits_down_conv k0 lo hi); try assumption; [exact (proj2 Hl1 H1 H0)| |].
      - fold minl. intros x Hx. apply F1. right. exact Hx.
      - fold maxl. intros x Hx. apply F2. right. exact Hx. }
    destruct (accepted _ _ _ _ Hm') as [A1 A2]. rewrite A1, A2. eexists _, _. split; [reflexivity|exact Hm'].
Qed.

(** K0 = 2 and limits 0.1 and 0.9 leave room for K1 = 1/2. *)
Example C46_redraw_case : meets 2 (1#2) (1#10) (9#10) /\ meets (1#2) 2 (1#10) (9#10).
Proof. split; (split; [discriminate|]); [exists (1#3)|exists (2#3)]; repeat split; (discriminate || reflexivity). Qed.

Print Assumptions C46_redraw.
