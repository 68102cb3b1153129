(** C45, C46 and C47: the binary flash. *)
From Coq Require Import Lqa Lia.
From Verif Require Import Base BaseFacts Num NumFacts PhaseEqModel DensityModel FlashModel.
Open Scope Q_scope.

(** ** Vocabulary *)
(** Two mole fractions: not negative, adding up to one. *)
Definition is_composition (z : pair_ num) : Prop :=
  exists a b, z = (Fin a, Fin b) /\ 0 <= a /\ 0 <= b /\ a + b == 1.
Definition undefined (z : pair_ num) : Prop := nadd (fst z) (snd z) = NaN.
(** the fractions of the first component in the liquid and in the vapor for K values (a, b) *)
Definition x0_of (a b : num) : num := ndiv (nsub (Fin 1) b) (nsub a b).
Definition y0_of (a b : num) : num := nmul a (x0_of a b).

(** ** K-value limits *)
Lemma ndiv_fin a b : ~ b == 0 -> ndiv (Fin a) (Fin b) = Fin (a / b).
Proof. intros H. cbn. destruct (Qeq_bool b 0) eqn:E; [apply Qeq_bool_iff in E; contradiction|reflexivity]. Qed.

Lemma frac_x_fin a b : ~ a == b -> frac_x (Fin a) (Fin b) = Fin ((1 + - b) / (a + - b)).
Proof. intros H. unfold frac_x, nsub, one. cbn [nneg nadd]. apply ndiv_fin. intros C. apply H. lra. Qed.

Lemma setup_fin k0 k1 b a : k_setup (Fin k0) (Fin k1) = Ok (b, a) ->
  ~ k0 == k1 /\ exists q, a = Fin q /\ (q = k0 \/ q < 1 \/ 1 < q).
Proof.
  assert (Hi : inv_seps = Fin (1 / (1 # 67108864))) by reflexivity.
  unfold k_setup. rewrite Hi. destruct (ngt (Fin k0) (Fin k1)) eqn:E1.
  - apply nlt_fin in E1. destruct (nlt (Fin k0) one); intros E; injection E as <- <-;
      (split; [lra|]); eexists; (split; [reflexivity|]); [right; right; reflexivity|auto].
  - destruct (nlt (Fin k0) (Fin k1)) eqn:E2; [|discriminate]. apply nlt_fin in E2.
    unfold seps. destruct (ngt (Fin k0) one || nlt (Fin k0) (Fin 0)); intros E; injection E as <- <-;
      (split; [lra|]); eexists; (split; [reflexivity|]); [right; left; reflexivity|auto].
Qed.

(** C46: for finite K values and limits, the K values returned
    - give fractions x0 = (1-K1)/(K0-K1) and y0 = K0 x0 inside the limits if K1 was kept;
    - if K1 was redrawn, give fractions inside the limits or an undefined one. *)
Theorem C46_limits_partial : forall k0 k1 lo hi r K reset,
  constrain_Ki (Fin k0, Fin k1) (Fin lo) (Fin hi) r = Ok (K, reset) ->
  (reset = false -> exists a x0,
     K = (Fin a, Fin k1) /\ ~ a == k1 /\ x0 * (a - k1) == 1 - k1 /\
     lo <= x0 /\ x0 <= hi /\ lo <= a * x0 /\ a * x0 <= hi) /\
  (reset = true -> exists a, fst K = Fin a /\
     ((exists b x0, snd K = Fin b /\ ~ a == b /\ x0 * (a - b) == 1 - b /\
         lo <= x0 /\ x0 <= hi /\ lo <= a * x0 /\ a * x0 <= hi) \/
      x0_of (fst K) (snd K) = NaN \/ y0_of (fst K) (snd K) = NaN)).
Proof.
  change y0_of with frac_y. change x0_of with frac_x.
  intros k0 k1 lo hi r K reset E. unfold constrain_Ki in E.
  destruct (k_setup (Fin k0) (Fin k1)) as [[above a]|] eqn:Es; [|discriminate]. cbn [rbind] in E.
  apply setup_fin in Es. destruct Es as (Hne & q & -> & Hq).
  set (up := if ngt (Fin q) (Fin k1) then _ else _) in *.
  destruct (limit_min (Fin lo) (Fin q) up) as [la|]; [|discriminate]. cbn [rbind] in E.
  destruct (limit_max (Fin hi) (Fin q) up) as [lb|]; [|discriminate]. cbn [rbind] in E.
  destruct (py_min _) as [max0|]; [|discriminate]. cbn [rbind] in E.
  destruct (py_max _) as [min0|]; [|discriminate]. cbn [rbind] in E.
  match type of E with context [if ?c then nadd _ _ else Fin k1] => destruct c eqn:Er end.
  - (* redrawn *)
    set (k1' := nadd (nmul (nsub max0 min0) r) min0) in *.
    destruct (nlt (frac_x (Fin q) k1') (Fin lo) || nlt (frac_y (Fin q) k1') (Fin lo)) eqn:E1; [discriminate|].
    destruct (ngt (frac_x (Fin q) k1') (Fin hi) || ngt (frac_y (Fin q) k1') (Fin hi)) eqn:E2; [discriminate|].
    injection E as <- <-. split; [discriminate|]. intros _. exists q. cbn [fst snd]. split; [reflexivity|].
    apply orb_false_iff in E1, E2. destruct E1 as [A1 A2], E2 as [B1 B2].
    destruct (is_nan (frac_x (Fin q) k1')) eqn:N1; [right; left; destruct (frac_x (Fin q) k1'); discriminate || reflexivity|].
    destruct (is_nan (frac_y (Fin q) k1')) eqn:N2; [right; right; destruct (frac_y (Fin q) k1'); discriminate || reflexivity|].
    left. destruct k1' as [b| | |] eqn:Ek.
    + exists b. destruct (Qeq_dec q b) as [Heq|Heq].
      * exfalso. unfold frac_x, nsub, one in *. cbn [nneg nadd ndiv] in *.
        destruct (Qeq_bool (q + - b) 0) eqn:Ez.
        2:{ assert (X : q + - b == 0) by lra. apply Qeq_bool_iff in X. congruence. }
        unfold inf_of_sign in *. destruct (1 + - b ?= 0); [discriminate N1|discriminate A1|discriminate B1].
      * rewrite frac_x_fin in * by assumption. set (x0 := (1 + - b) / (q + - b)) in *.
        exists x0. unfold frac_y in *. rewrite frac_x_fin in A2, B2 by assumption. fold x0 in A2, B2. cbn [nmul] in A2, B2.
        apply nlt_fin_false in A1, A2, B1, B2. split; [reflexivity|]. split; [assumption|].
        split; [|repeat split; assumption]. unfold x0. field. intros C. apply Heq. lra.
    + exfalso. unfold frac_x, frac_y, nsub, one in N1. discriminate N1.
    + exfalso. unfold frac_x, frac_y, nsub, one in N1. discriminate N1.
    + exfalso. unfold frac_x, frac_y, nsub, one in N1. discriminate N1.
  - destruct (nlt (frac_x (Fin q) (Fin k1)) (Fin lo) || nlt (frac_y (Fin q) (Fin k1)) (Fin lo)) eqn:E1; [discriminate|].
    destruct (ngt (frac_x (Fin q) (Fin k1)) (Fin hi) || ngt (frac_y (Fin q) (Fin k1)) (Fin hi)) eqn:E2; [discriminate|].
    injection E as <- <-. split; [|discriminate]. intros _. exists q.
    apply orb_false_iff in E1, E2. destruct E1 as [A1 A2], E2 as [B1 B2].
    destruct (Qeq_dec q k1) as [Heq|Heq].
    + exfalso. unfold frac_x, nsub, one in *. cbn [nneg nadd ndiv] in *.
      destruct (Qeq_bool (q + - k1) 0) eqn:Ez.
      2:{ assert (X : q + - k1 == 0) by lra. apply Qeq_bool_iff in X. congruence. }
      unfold inf_of_sign in *. destruct (1 + - k1 ?= 0) eqn:Ec; [|discriminate A1|discriminate B1].
      apply Qeq_alt in Ec. destruct Hq as [-> | [Hq|Hq]]; [apply Hne; lra|lra|lra].
    + rewrite frac_x_fin in A1, B1 by assumption. set (x0 := (1 + - k1) / (q + - k1)) in *.
      exists x0. unfold frac_y in *. rewrite frac_x_fin in A2, B2 by assumption. fold x0 in A2, B2. cbn [nmul] in A2, B2.
      apply nlt_fin_false in A1, A2, B1, B2. split; [reflexivity|]. split; [assumption|].
      split; [|repeat split; assumption]. unfold x0. field. intros C. apply Heq. lra.
Qed.

(** C46 is false: redrawing can return an undefined K value.  With K0 exactly at the lower
    limit the bound for K1 is infinite and the new K1 is inf - inf, whatever is drawn. *)
Theorem C46_undefined_refuted : forall r, 0 <= r -> r < 1 ->
  constrain_Ki (Fin (1#2), Fin 5) (Fin (1#2)) (Fin 1) (Fin r) = Ok ((Fin (1#2), NaN), true).
Proof.
  intros r Hr Hr1. unfold constrain_Ki, k_setup.
  change (ngt (Fin (1#2)) (Fin 5)) with false. change (nlt (Fin (1#2)) (Fin 5)) with true.
  cbn [rbind]. change (ngt (Fin (1#2)) one || nlt (Fin (1#2)) (Fin 0)) with false.
  cbv beta iota zeta. change (ngt (Fin (1#2)) (Fin 5)) with false. change (nlt (Fin (1#2)) (Fin 5)) with true.
  cbv beta iota zeta.
  assert (E : exists b l1 l2, limit_min (Fin (1#2)) (Fin (1#2)) (Some false) = Ok ([b; PInf], []) /\ is_nan b = false /\
     limit_max (Fin 1) (Fin (1#2)) (Some false) = Ok (l1, l2) /\ l1 = [] /\ l2 = [PInf]).
  { do 3 eexists. split; [vm_compute; reflexivity|]. split; [reflexivity|]. split; [vm_compute; reflexivity|]. split; reflexivity. }
  destruct E as (b & l1 & l2 & E1 & Eb & E2 & -> & ->). rewrite E1, E2. cbn [rbind fst snd app].
  change (py_min [Fin 100000000; PInf]) with (Ok (Fin 100000000)).
  assert (E3 : py_max [one; b; PInf] = Ok PInf).
  { vm_compute in E1. injection E1 as <-. reflexivity. }
  rewrite E3. cbn [rbind].
  assert (E4 : existsb (fun m => ngt (Fin 5) m) [Fin 100000000; PInf] || existsb (fun m => nlt (Fin 5) m) [one; b; PInf] = true).
  { rewrite orb_true_iff. right. cbn. rewrite !orb_true_r. reflexivity. }
  rewrite E4.
  assert (E5 : nadd (nmul (nsub (Fin 100000000) PInf) (Fin r)) PInf = NaN).
  { cbn. unfold inf_of_sign. destruct (- r ?= 0) eqn:Ec; try reflexivity. apply Qgt_alt in Ec. lra. }
  rewrite E5. reflexivity.
Qed.

(** C46, refusals: a limit outside [0,1] is a ValueError, equal or undefined K values an
    UnboundLocalError. *)
Theorem C46_refused : forall k0 k1 lo hi r,
  (~ k0 == k1 -> lo < 0 \/ 1 < lo \/ hi < 0 \/ 1 < hi ->
     constrain_Ki (Fin k0, Fin k1) (Fin lo) (Fin hi) r = Err ValueError) /\
  (k0 == k1 -> constrain_Ki (Fin k0, Fin k1) (Fin lo) (Fin hi) r = Err UnboundLocalError).
Proof.
  intros k0 k1 lo hi r. split.
  - intros Hne H. unfold constrain_Ki.
    assert (Es : exists b a, k_setup (Fin k0) (Fin k1) = Ok (b, a)).
    { unfold k_setup. destruct (ngt (Fin k0) (Fin k1)) eqn:E1; [eauto|]. destruct (nlt (Fin k0) (Fin k1)) eqn:E2; [eauto|].
      apply nlt_fin_false in E1, E2. exfalso. apply Hne. lra. }
    destruct Es as (b & a & ->). cbn [rbind]. set (up := if ngt a (Fin k1) then _ else _).
    assert (G : forall m, m < 0 \/ 1 < m ->
       limit_min (Fin m) a up = Err ValueError /\ limit_max (Fin m) a up = Err ValueError).
    { intros m Hm. unfold limit_min, limit_max.
      assert (X : in_unit (Fin m) = false).
      { unfold in_unit, one. apply andb_false_iff. rewrite !nle_fin_false. destruct Hm; [left|right]; assumption. }
      assert (Y : out_of_unit (Fin m) = true).
      { unfold out_of_unit, one. apply orb_true_iff. rewrite !nlt_fin. destruct Hm; [left|right]; assumption. }
      rewrite X, Y. split; reflexivity. }
    assert (Lmin : limit_min (Fin lo) a up = Err ValueError \/ exists p, limit_min (Fin lo) a up = Ok p).
    { unfold limit_min. destruct (in_unit (Fin lo)); [destruct up as [[]|]; eauto|]. destruct (out_of_unit (Fin lo)); eauto. }
    destruct H as [H|[H|H]].
    + rewrite (proj1 (G lo (or_introl H))). reflexivity.
    + rewrite (proj1 (G lo (or_intror H))). reflexivity.
    + destruct Lmin as [-> |[p ->]]; [reflexivity|]. cbn [rbind]. rewrite (proj2 (G hi H)). reflexivity.
  - intros H. unfold constrain_Ki, k_setup.
    assert (E1 : ngt (Fin k0) (Fin k1) = false) by (apply nlt_fin_false; lra).
    assert (E2 : nlt (Fin k0) (Fin k1) = false) by (apply nlt_fin_false; lra).
    rewrite E1, E2. reflexivity.
Qed.

Example C46_example : exists K,
  constrain_Ki (Fin 2, Fin (1#2)) (Fin (1#10)) (Fin (9#10)) (Fin (1#2)) = Ok (K, false) /\ K = (Fin 2, Fin (1#2)).
Proof. eexists. split; vm_compute; reflexivity. Qed.
Example C46_example_reset : exists K,
  constrain_Ki (Fin 2, Fin (1#100)) (Fin 0) (Fin (6#10)) (Fin (1#2)) = Ok (K, true) /\
  is_fin (snd K) = true.
Proof. eexists. split; vm_compute; reflexivity. Qed.

(** ** The compositions of a flash *)
Lemma liquid_fractions_fin a b : (exists z, liquid_fractions (Fin a, Fin b) = z /\
   (is_composition z \/ undefined z)).
Proof.
  eexists; split; [reflexivity|]. unfold liquid_fractions. cbn [fst snd].
  assert (Cs : is_composition (seps, nsub one seps)).
  { exists (1#67108864), (1 - (1#67108864)). split; [reflexivity|]. split; [discriminate|]. split; [discriminate|reflexivity]. }
  assert (Cs' : is_composition (nsub one seps, seps)).
  { exists (1 - (1#67108864)), (1#67108864). split; [reflexivity|]. split; [discriminate|]. split; [discriminate|reflexivity]. }
  destruct (nlt (frac_x (Fin a) (Fin b)) (Fin 0)) eqn:E1; [left; exact Cs|].
  destruct (nlt (nsub one (frac_x (Fin a) (Fin b))) (Fin 0)) eqn:E2; [left; exact Cs'|].
  destruct (frac_x (Fin a) (Fin b)) as [x| | |] eqn:Ex.
  - left. apply nlt_fin_false in E1. unfold nsub, one in E2. cbn [nneg nadd] in E2. apply nlt_fin_false in E2.
    exists x, (1 + - x). split; [reflexivity|]. split; [exact E1|]. split; [exact E2|]. ring.
  - discriminate E2.
  - discriminate E1.
  - right. reflexivity.
Qed.

Lemma liquid_fractions_any K : is_composition (liquid_fractions K) \/ undefined (liquid_fractions K).
Proof.
  destruct K as [a b].
  unfold liquid_fractions. cbn [fst snd].
  assert (Cs : is_composition (seps, nsub one seps)).
  { exists (1#67108864), (1 - (1#67108864)). split; [reflexivity|]. split; [discriminate|]. split; [discriminate|reflexivity]. }
  assert (Cs' : is_composition (nsub one seps, seps)).
  { exists (1 - (1#67108864)), (1#67108864). split; [reflexivity|]. split; [discriminate|]. split; [discriminate|reflexivity]. }
  destruct (nlt (frac_x a b) (Fin 0)) eqn:E1; [left; exact Cs|].
  destruct (nlt (nsub one (frac_x a b)) (Fin 0)) eqn:E2; [left; exact Cs'|].
  destruct (frac_x a b) as [x| | |] eqn:Ex.
  - left. apply nlt_fin_false in E1. unfold nsub, one in E2. cbn [nneg nadd] in E2. apply nlt_fin_false in E2.
    exists x, (1 + - x). split; [reflexivity|]. split; [exact E1|]. split; [exact E2|]. ring.
  - discriminate E2.
  - discriminate E1.
  - right. reflexivity.
Qed.

(** [x] are the liquid fractions that the K values give, with a fraction outside [0,1]
    replaced by the nearest admissible one, sqrt(eps) or 1 - sqrt(eps). *)
Definition liquid_of (K : pair_ num) (x : pair_ num) : Prop :=
  forall k0 k1, K = (Fin k0, Fin k1) -> ~ k0 == k1 ->
  exists a b, x = (Fin a, Fin b) /\ a + b == 1 /\
    ((0 <= a <= 1 /\ a * (k0 - k1) == 1 - k1) \/
     (a = 1 # 67108864 /\ (1 - k1) / (k0 - k1) < 0) \/
     (b = 1 # 67108864 /\ 1 < (1 - k1) / (k0 - k1))).
(** [y] are proportional to K_i x_i and add up to one. *)
Definition vapor_of (K x y : pair_ num) : Prop :=
  forall k0 k1 a b, K = (Fin k0, Fin k1) -> x = (Fin a, Fin b) -> ~ k0 * a + k1 * b == 0 ->
  exists c d, y = (Fin c, Fin d) /\ c + d == 1 /\
    c * (k0 * a + k1 * b) == k0 * a /\ d * (k0 * a + k1 * b) == k1 * b.

Lemma liquid_of_ok K : liquid_of K (liquid_fractions K).
Proof.
  intros k0 k1 -> Hne. unfold liquid_fractions. cbn [fst snd]. rewrite frac_x_fin by assumption.
  assert (Hd : ~ k0 + - k1 == 0) by (intros C; apply Hne; lra).
  assert (Ed : (1 + - k1) / (k0 + - k1) == (1 - k1) / (k0 - k1)) by (field; exact Hd).
  destruct (nlt (Fin ((1 + - k1) / (k0 + - k1))) (Fin 0)) eqn:E1.
  - apply nlt_fin in E1. exists (1#67108864), (1 + - (1#67108864)). split; [reflexivity|]. split; [reflexivity|].
    right; left. split; [reflexivity|]. rewrite <- Ed. exact E1.
  - apply nlt_fin_false in E1. unfold nsub, one. cbn [nneg nadd].
    destruct (nlt (Fin (1 + - ((1 + - k1) / (k0 + - k1)))) (Fin 0)) eqn:E2.
    + apply nlt_fin in E2. exists (1 + - (1#67108864)), (1#67108864). split; [reflexivity|]. split; [reflexivity|].
      right; right. split; [reflexivity|]. rewrite <- Ed. lra.
    + apply nlt_fin_false in E2. eexists _, _. split; [reflexivity|]. split; [ring|]. left. split; [lra|].
      field. exact Hd.
Qed.

Lemma vapor_of_ok K x : vapor_of K x (vapor_fractions K x).
Proof.
  intros k0 k1 a b -> -> Hs. unfold vapor_fractions. cbn [fst snd nmul nadd]. unfold one.
  destruct (neqb (Fin (k0 * a + k1 * b)) (Fin 1)) eqn:E.
  - cbn in E. apply Qeq_bool_iff in E. exists (k0 * a), (k1 * b). split; [reflexivity|]. split; [exact E|].
    rewrite E. split; ring.
  - rewrite !ndiv_fin by assumption. eexists _, _. split; [reflexivity|]. split; [field; exact Hs|].
    split; field; exact Hs.
Qed.

Section Runs.
  Variable liquid vapor : pair_ num -> result (pair_ num * nat).
  Variable lo hi tol : num.
  Variable draw : nat -> num.

  (** The loop gets to iteration [i] with state [s]. *)
  Inductive reached (s0 : flash_state) : nat -> flash_state -> Prop :=
  | reached_0 : reached s0 0 s0
  | reached_S i s l v st :
      reached s0 i s ->
      liquid (liquid_fractions (fs_K s)) = Ok l ->
      vapor (vapor_fractions (fs_K s) (liquid_fractions (fs_K s))) = Ok v ->
      next_K lo hi tol draw i s (div2 (fst l) (fst v)) = Ok st ->
      st_stop st = false -> reached s0 (S i) (st_next st).

  (** [K] agrees with the ratio of the fugacity coefficients within the tolerance, both
      summed over the components and relative to the smallest positive K value. *)
  Definition converged (K : pair_ num) (pl pv : pair_ num) (e : num) : Prop :=
    let r0 := ndiv (fst pl) (fst pv) in
    let r1 := ndiv (snd pl) (snd pv) in
    nlt (nadd (nabs (nsub r0 (fst K))) (nabs (nsub r1 (snd K)))) tol = true /\ nlt e tol = true /\
    exists r k, (r = r0 /\ k = fst K \/ r = r1 /\ k = snd K) /\
      e = ndiv (nabs (nsub r k)) k /\ ngt k (Fin 0) = true /\
      (forall k', k' = fst K \/ k' = snd K -> ngt k' (Fin 0) = true -> nle k k' = true).

  Lemma py_min_In l m : py_min l = Ok m -> In m l.
  Proof.
    destruct l as [|a l]; [discriminate|]. cbn [py_min]. intros E. injection E as E. revert a m E.
    induction l as [|b l IH]; cbn [fold_left]; intros a m E; [left; exact E|].
    destruct (IH _ _ E) as [H|H].
    - destruct (nlt b a); subst; cbn; auto.
    - cbn; auto.
  Qed.

  Lemma neqb_pos a m : neqb a m = true -> ngt m (Fin 0) = true -> ngt a (Fin 0) = true.
  Proof.
    destruct a as [a| | |], m as [m| | |]; cbn; try discriminate; auto.
    intros E H. apply Qeq_bool_iff in E. apply negb_true_iff in H. apply negb_true_iff.
    apply Qle_bool_false in H. apply Qle_bool_false. lra.
  Qed.

  Lemma positive_le a b : ngt a (Fin 0) = true -> ngt b (Fin 0) = true -> nlt b a = false -> nle a b = true.
  Proof.
    destruct a as [a| | |], b as [b| | |]; cbn; try discriminate; auto.
    intros _ _ H. apply negb_false_iff in H. exact H.
  Qed.
  Lemma positive_lt_le a b : nlt b a = true -> nle b a = true.
  Proof.
    destruct a as [a| | |], b as [b| | |]; cbn; try discriminate; auto.
    intros H. apply negb_true_iff, Qle_bool_false in H. apply Qle_bool_iff. lra.
  Qed.
  Lemma positive_refl a : ngt a (Fin 0) = true -> nle a a = true.
  Proof. destruct a as [a| | |]; cbn; try discriminate; auto. intros _. apply Qle_bool_iff. lra. Qed.

  Lemma smallest_pos K i : smallest_index K = Ok i -> (i = 0 \/ i = 1)%nat /\ ngt (comp K i) (Fin 0) = true /\
    (forall k, k = fst K \/ k = snd K -> ngt k (Fin 0) = true -> nle (comp K i) k = true).
  Proof.
    unfold smallest_index. destruct K as [a b]. cbn [fst snd filter].
    destruct (ngt a (Fin 0)) eqn:Pa, (ngt b (Fin 0)) eqn:Pb; cbn [py_min fold_left rbind]; [| | |discriminate].
    - destruct (nlt b a) eqn:E; cbn [rbind].
      + destruct (neqb a b) eqn:E0.
        * exfalso. destruct a as [a| | |], b as [b| | |]; cbn in E, E0; try discriminate.
          apply Qeq_bool_iff in E0. apply negb_true_iff, Qle_bool_false in E. lra.
        * destruct (neqb b b); [|discriminate]. intros X; injection X as <-. cbn [comp snd]. split; [auto|]. split; [exact Pb|].
          intros k [->| ->] _; [apply positive_lt_le; exact E|apply positive_refl; exact Pb].
      + assert (R : neqb a a = true) by (destruct a as [a| | |]; try discriminate Pa; cbn; [apply Qeq_bool_iff; reflexivity|reflexivity]).
        rewrite R. intros X; injection X as <-. cbn [comp fst]. split; [auto|]. split; [exact Pa|].
        intros k [->| ->] Hk; [apply positive_refl; exact Pa|apply positive_le; assumption].
    - assert (R : neqb a a = true) by (destruct a as [a| | |]; try discriminate Pa; cbn; [apply Qeq_bool_iff; reflexivity|reflexivity]).
      rewrite R. intros X; injection X as <-. cbn [comp fst]. split; [auto|]. split; [exact Pa|].
      intros k [->| ->] Hk; [apply positive_refl; exact Pa|congruence].
    - destruct (neqb a b) eqn:E0; [rewrite (neqb_pos _ _ E0 Pb) in Pa; discriminate|].
      destruct (neqb b b); [|discriminate]. intros X; injection X as <-. cbn [comp snd]. split; [auto|]. split; [exact Pb|].
      intros k [->| ->] Hk; [congruence|apply positive_refl; exact Pb].
  Qed.

  Lemma next_stop i s Kn st : next_K lo hi tol draw i s Kn = Ok st -> st_stop st = true ->
    (19 <= fs_reset s)%nat \/
    (nlt (err2 Kn (fs_K s)) tol = true /\ nlt (st_err st) tol = true /\
     exists j, (j = 0%nat \/ j = 1%nat) /\ st_err st = rel_err Kn (fs_K s) j /\ ngt (comp (fs_K s) j) (Fin 0) = true /\
       (forall k, k = fst (fs_K s) \/ k = snd (fs_K s) -> ngt k (Fin 0) = true -> nle (comp (fs_K s) j) k = true)).
  Proof.
    unfold next_K. destruct (constrain_Ki _ _ _ _) as [[Kt rs]|]; [|discriminate]. cbn [rbind].
    set (count := if rs then S (fs_reset s) else fs_reset s).
    destruct (negb (pair_eqb Kn Kt)) eqn:En.
    - destruct (Nat.eqb count 10); [intros E H; injection E as <-; discriminate H|].
      destruct (Nat.eqb count 20) eqn:Ec; [|intros E H; injection E as <-; discriminate H].
      destruct (smallest_index _); [|discriminate]. cbn [rbind]. intros E _. left.
      apply Nat.eqb_eq in Ec. unfold count in Ec. destruct rs; lia.
    - destruct (_ && _ && _); [intros E H; injection E as <-; discriminate H|].
      destruct (nlt (err2 Kn (fs_K s)) tol) eqn:Et; [|intros E H; injection E as <-; discriminate H].
      destruct (smallest_index (fs_K s)) as [j|] eqn:Ej; [|discriminate]. cbn [rbind].
      destruct (nlt (rel_err Kn (fs_K s) j) tol) eqn:Ee; [|intros E H; injection E as <-; discriminate H].
      intros E _. injection E as <-. cbn [st_err]. right. apply smallest_pos in Ej. destruct Ej as [Hj Hp].
      split; [reflexivity|]. split; [exact Ee|]. exists j. split; [exact Hj|]. split; [reflexivity|exact Hp].
  Qed.

  Lemma loop_runs s0 : forall rest i s x fl y fv e,
    reached s0 i s -> flash_loop liquid vapor lo hi tol draw rest i s = Ok (x, fl, y, fv, e) ->
    exists j s' pl pv, reached s0 j s' /\
      x = liquid_fractions (fs_K s') /\ y = vapor_fractions (fs_K s') x /\
      liquid x = Ok (pl, fl) /\ vapor y = Ok (pv, fv) /\
      (exists st, next_K lo hi tol draw j s' (div2 pl pv) = Ok st) /\
      ((i + rest = S j)%nat \/ (19 <= fs_reset s')%nat \/ converged (fs_K s') pl pv e).
  Proof.
    induction rest as [|rest IH]; intros i s x fl y fv e Hr E; [discriminate|].
    cbn [flash_loop] in E.
    destruct (liquid (liquid_fractions (fs_K s))) as [[pl fl0]|] eqn:El; [|discriminate]. cbn [rbind] in E.
    destruct (vapor (vapor_fractions (fs_K s) (liquid_fractions (fs_K s)))) as [[pv fv0]|] eqn:Ev; [|discriminate]. cbn [rbind fst snd] in E.
    destruct (next_K lo hi tol draw i s (div2 pl pv)) as [st|] eqn:En; [|discriminate]. cbn [rbind] in E.
    destruct rest as [|rest'].
    - destruct (smallest_index (st_prev st)) as [ind|]; [|discriminate]. cbn [rbind] in E. injection E as <- <- <- <- <-.
      exists i, s, pl, pv. split; [exact Hr|]. split; [reflexivity|]. split; [reflexivity|]. split; [exact El|].
      split; [exact Ev|]. split; [exists st; exact En|]. left. lia.
    - destruct (st_stop st) eqn:Es.
      + injection E as <- <- <- <- <-. exists i, s, pl, pv. split; [exact Hr|]. split; [reflexivity|].
        split; [reflexivity|]. split; [exact El|]. split; [exact Ev|]. split; [exists st; exact En|]. right.
        destruct (next_stop _ _ _ _ En Es) as [H|(H1 & H2 & j & Hj & He & Hp)]; [left; exact H|right].
        destruct Hp as [Hp Hs]. split; [exact H1|]. split; [exact H2|]. destruct Hj as [->| ->].
        * exists (ndiv (fst pl) (fst pv)), (fst (fs_K s)). split; [left; split; reflexivity|]. split; [exact He|]. split; [exact Hp|exact Hs].
        * exists (ndiv (snd pl) (snd pv)), (snd (fs_K s)). split; [right; split; reflexivity|]. split; [exact He|]. split; [exact Hp|exact Hs].
      + destruct (IH (S i) (st_next st) x fl y fv e) as (j & s' & p1 & p2 & A & B & C & D & F & F' & G).
        * apply (reached_S s0 i s (pl, fl0) (pv, fv0) st); assumption.
        * exact E.
        * exists j, s', p1, p2. split; [exact A|]. split; [exact B|]. split; [exact C|]. split; [exact D|]. split; [exact F|]. split; [exact F'|].
          destruct G as [G|G]; [left; lia|right; exact G].
  Qed.

  (** C45 and C47.  Whatever a flash reports, there are K values [K] and two phases [x], [y]
      - [x] the liquid fractions of [K] and [y] the normalised [K x];
      - each evaluated once more by the phase model, with its own flag;
      - reported as (x, y), or the other way round, each with its flag;
      - [K] converged unless the iterations or the redraws were used up. *)
Theorem C45_flash : forall ncomp maxiter P Pset psat out,
    calc_flash liquid vapor lo hi tol draw ncomp maxiter P Pset psat = Ok out ->
    ncomp = 2%nat /\
    exists s0 i s x y pl fl pv fv,
      reached s0 i s /\ fs_reset s0 = 0%nat /\
      liquid_of (fs_K s) x /\ vapor_of (fs_K s) x y /\
      (is_composition x \/ undefined x) /\
      liquid x = Ok (pl, fl) /\ vapor y = Ok (pv, fv) /\
      ((out_x out = x /\ out_fl out = fl /\ out_y out = y /\ out_fv out = fv) \/
       (out_x out = y /\ out_fl out = fv /\ out_y out = x /\ out_fv out = fl)) /\
      (maxiter = S i \/ (19 <= fs_reset s)%nat \/ converged (fs_K s) pl pv (out_err out)).
  Proof.
    intros ncomp maxiter P Pset psat out E. unfold calc_flash in E.
    destruct (Nat.eqb ncomp 2) eqn:En; cbn [negb] in E; [|discriminate]. apply Nat.eqb_eq in En. split; [exact En|].
    destruct (psat 0%nat) as [p0|]; [|discriminate]. cbn [rbind] in E.
    destruct (psat 1%nat) as [p1|]; [|discriminate]. cbn [rbind] in E.
    destruct (constrain_Ki _ _ _ _) as [c|]; [|discriminate]. cbn [rbind] in E.
    destruct (flash_loop _ _ _ _ _ _ _ _ _) as [[[[[x fl] y] fv] e]|] eqn:El; [|discriminate]. cbn [rbind] in E.
    apply (loop_runs {| fs_K := fst c; fs_critical := 0; fs_reset := 0 |}) in El; [|apply reached_0].
    destruct El as (j & s & pl & pv & A & B & C & D & F & _ & G).
    exists {| fs_K := fst c; fs_critical := 0; fs_reset := 0 |}, j, s, x, y, pl, fl, pv, fv.
    split; [exact A|]. split; [reflexivity|].
    split; [rewrite B; apply liquid_of_ok|]. split; [rewrite C; apply vapor_of_ok|].
    split; [rewrite B; apply liquid_fractions_any|]. split; [exact D|]. split; [exact F|].
    assert (Eo : out_err out = e) by (destruct (must_switch x fl y fv); injection E as <-; reflexivity).
    rewrite Eo. split; [|cbn in G; destruct G as [G|G]; [left; exact G|right; exact G]].
    destruct (must_switch x fl y fv); injection E as <-; [right|left]; repeat split; reflexivity.
  Qed.

Theorem C45_not_binary : forall ncomp maxiter P Pset psat,
    ncomp <> 2%nat -> calc_flash liquid vapor lo hi tol draw ncomp maxiter P Pset psat = Err ValueError.
  Proof. intros. unfold calc_flash. apply Nat.eqb_neq in H. rewrite H. reflexivity. Qed.

  (** C47: a phase flagged as a vapor (0, 4) is never reported as the liquid beside a phase
      flagged as a liquid (1); compositions keep their flags; phases are relabelled only if
      the flags call for it; phases of the same kind are ordered by the first mole fraction. *)
Theorem C47_labels : forall ncomp maxiter P Pset psat out,
    calc_flash liquid vapor lo hi tol draw ncomp maxiter P Pset psat = Ok out ->
    (~ ((out_fl out = 0 \/ out_fl out = 4)%nat /\ out_fv out = 1%nat)) /\
    (exists x pl fl y pv fv, liquid x = Ok (pl, fl) /\ vapor y = Ok (pv, fv) /\
       ((out_x out = x /\ out_fl out = fl /\ out_y out = y /\ out_fv out = fv) \/
        (out_x out = y /\ out_fl out = fv /\ out_y out = x /\ out_fv out = fl /\
         ((fl = 0 \/ fl = 4 \/ fv = 1)%nat /\ ~ (fl = 1%nat /\ (fv = 0 \/ fv = 4)%nat))))) /\
    (forall a b, out_fl out = out_fv out -> (out_fl out = 0 \/ out_fl out = 1 \/ out_fl out = 4)%nat ->
       fst (out_x out) = Fin a -> fst (out_y out) = Fin b -> a <= b).
  Proof.
    intros ncomp maxiter P Pset psat out E. unfold calc_flash in E.
    destruct (Nat.eqb ncomp 2) eqn:En; cbn [negb] in E; [|discriminate].
    destruct (psat 0%nat) as [p0|]; [|discriminate]. cbn [rbind] in E.
    destruct (psat 1%nat) as [p1|]; [|discriminate]. cbn [rbind] in E.
    destruct (constrain_Ki _ _ _ _) as [c|]; [|discriminate]. cbn [rbind] in E.
    destruct (flash_loop _ _ _ _ _ _ _ _ _) as [[[[[x fl] y] fv] e]|] eqn:El; [|discriminate]. cbn [rbind] in E.
    apply (loop_runs {| fs_K := fst c; fs_critical := 0; fs_reset := 0 |}) in El; [|apply reached_0].
    destruct El as (j & s & pl & pv & _ & _ & _ & D & F & _ & _).
    destruct (must_switch x fl y fv) eqn:Es; injection E as <-; cbn [out_x out_fl out_y out_fv].
    - split.
      + intros [Hv Hl]. revert Es. rewrite Hl. unfold must_switch, vap, liq. destruct Hv as [-> | ->]; cbn; discriminate.
      + split.
        { exists x, pl, fl, y, pv, fv. split; [assumption|]. split; [assumption|]. right.
          do 4 (split; [reflexivity|]). revert Es. unfold must_switch, vap, liq.
          destruct (Nat.eqb_spec fl 0), (Nat.eqb_spec fl 4), (Nat.eqb_spec fv 1), (Nat.eqb_spec fl 1),
            (Nat.eqb_spec fv 0), (Nat.eqb_spec fv 4); cbn; try discriminate; intros _; (split; [tauto|lia]). } intros a b Ef Hf Ha Hb. revert Es. rewrite Ef in Hf. rewrite Ef.
        unfold must_switch. rewrite Ha, Hb.
        assert (X : (vap fl || liq fl)%bool = true) by (destruct Hf as [-> |[-> | ->]]; reflexivity).
        rewrite X, (orb_comm (liq fl)), X. intros H. apply nlt_fin in H. lra.
    - split.
      + intros [Hv Hl]. revert Es. rewrite Hl. unfold must_switch, vap, liq. destruct Hv as [-> | ->]; cbn; discriminate.
      + split.
        { exists x, pl, fl, y, pv, fv. split; [assumption|]. split; [assumption|]. left. repeat split; reflexivity. } intros a b Ef Hf Ha Hb. revert Es. rewrite <- Ef in *. 
        unfold must_switch. rewrite Ha, Hb.
        assert (X : (vap fl || liq fl)%bool = true) by (destruct Hf as [-> |[-> | ->]]; reflexivity).
        rewrite X, (orb_comm (liq fl)), X. intros H. apply nlt_fin_false in H. lra.
  Qed.

End Runs.

(** ** Reported compositions *)
Definition nonneg (k : num) : Prop := nle (Fin 0) k = true.
Definition nonneg_or_nan (k : num) : Prop := nonneg k \/ k = NaN.

Lemma nonneg_fin q : nonneg (Fin q) <-> 0 <= q.
Proof. unfold nonneg. apply nle_fin. Qed.

Lemma fold_min_spec l : forall a, a <> NaN ->
  let m := fold_left (fun m x => if nlt x m then x else m) l a in m <> NaN /\ (m = a \/ In m l).
Proof.
  induction l as [|b l IH]; intros a Ha; cbn [fold_left]; [split; [exact Ha|left; reflexivity]|].
  destruct (nlt b a) eqn:E.
  - destruct (IH b) as [H1 H2]; [apply nlt_not_nan in E; tauto|]. split; [exact H1|]. right. destruct H2 as [->|H2]; [left; reflexivity|right; exact H2].
  - destruct (IH a Ha) as [H1 H2]. split; [exact H1|]. destruct H2 as [H2|H2]; [left; exact H2|right; right; exact H2].
Qed.

Lemma fold_max_ge l : forall a, a <> NaN ->
  nle a (fold_left (fun m x => if ngt x m then x else m) l a) = true.
Proof.
  induction l as [|b l IH]; intros a Ha; cbn [fold_left]; [apply nle_refl; exact Ha|].
  destruct (ngt b a) eqn:E; [|apply IH; exact Ha].
  apply nle_trans with b; [apply nlt_le; exact E|]. apply IH. apply nlt_not_nan in E. tauto.
Qed.

Lemma Forall_if_positive b : Forall nonneg_or_nan (if_positive b).
Proof. unfold if_positive. destruct (ngt b (Fin 0)) eqn:E; [|constructor]. constructor; [|constructor]. left. apply nlt_le. exact E. Qed.

Lemma in_unit_fin m : in_unit m = true -> exists q, m = Fin q /\ 0 <= q /\ q <= 1.
Proof.
  unfold in_unit, one. intros H. apply andb_true_iff in H. destruct H as [H1 H2].
  destruct m as [q| | |]; try discriminate. apply nle_fin in H1, H2. exists q; auto.
Qed.

Lemma bound_y_nonneg m k0 : in_unit m = true -> nle one k0 = true -> nonneg_or_nan (bound_y m k0).
Proof.
  intros Hm Hk. apply in_unit_fin in Hm. destruct Hm as (q & -> & H0 & H1). unfold bound_y, nsub, one in *.
  destruct k0 as [k| | |]; try discriminate; cbn [nneg nadd nmul].
  - apply nle_fin in Hk. destruct (Qeq_dec (k + - q) 0) as [E|E].
    + right. cbn [ndiv]. apply Qeq_bool_iff in E. rewrite E. unfold inf_of_sign.
      assert (X : (1 + - q) * k == 0) by (apply Qeq_bool_iff in E; assert (Y : q == 1) by lra; rewrite Y; ring).
      apply Qeq_alt in X. rewrite X. reflexivity.
    + left. rewrite ndiv_fin by exact E. apply nonneg_fin. apply Qle_shift_div_l; [lra|].
      assert (0 <= (1 + - q) * k) by (apply Qmult_le_0_compat; lra). lra.
  - right. unfold inf_of_sign. destruct (_ ?= _); reflexivity.
Qed.

Lemma bound_x_nonneg m k0 : in_unit m = true -> nonneg k0 -> nle k0 one = true -> nonneg_or_nan (bound_x m k0).
Proof.
  intros Hm Hk Hk1. apply in_unit_fin in Hm. destruct Hm as (q & -> & H0 & H1). unfold bound_x, nsub, one in *.
  destruct k0 as [k| | |]; try discriminate. apply nonneg_fin in Hk. apply nle_fin in Hk1. cbn [nneg nadd nmul].
  assert (X : 0 <= 1 + - (q * k)).
  { assert (0 <= (1 - q) * k) by (apply Qmult_le_0_compat; lra). assert (E : (1 - q) * k == k - q * k) by ring. lra. }
  destruct (Qeq_dec (1 + - q) 0) as [E|E].
  - cbn [ndiv]. apply Qeq_bool_iff in E. rewrite E. unfold inf_of_sign. destruct (1 + - (q * k) ?= 0) eqn:Ec.
    + right; reflexivity.
    + apply Qlt_alt in Ec. lra.
    + left. reflexivity.
  - left. rewrite ndiv_fin by exact E. apply nonneg_fin. apply Qle_shift_div_l; [lra|]. lra.
Qed.

Lemma setup_up k0 k1 above a : nonneg k0 -> k_setup k0 k1 = Ok (above, a) ->
  (if above then ngt a k1 = true /\ nle one a = true
   else nlt a k1 = true /\ nle a one = true) /\ nonneg a.
Proof.
  intros Hk0 Es. unfold k_setup in Es. destruct (ngt k0 k1) eqn:E1.
  - destruct (nlt k0 one) eqn:E2; injection Es as <- <-.
    + split; [|reflexivity]. split; [|reflexivity]. apply nlt_nle_trans with k0; [exact E1|].
      apply nlt_le. eapply nlt_nle_trans; [exact E2|reflexivity].
    + split; [|exact Hk0]. split; [exact E1|]. apply nlt_false_nle; [apply nlt_not_nan in E1; tauto|discriminate|exact E2].
  - destruct (nlt k0 k1) eqn:E2; [|discriminate]. destruct (ngt k0 one || nlt k0 (Fin 0)) eqn:E3; injection Es as <- <-.
    + split; [|reflexivity]. split; [|reflexivity]. apply orb_true_iff in E3. destruct E3 as [E3|E3].
      * eapply nle_nlt_trans with one; [reflexivity|]. apply nlt_nle_trans with k0; [exact E3|]. apply nlt_le; exact E2.
      * exfalso. assert (X : nlt k0 k0 = true) by (eapply nlt_nle_trans; [exact E3|exact Hk0]). rewrite nlt_irrefl in X. discriminate.
    + apply orb_false_iff in E3. destruct E3 as [E3 E4]. split; [|exact Hk0]. split; [exact E2|].
      apply nlt_false_nle; [discriminate|apply nlt_not_nan in E2; tauto|exact E3].
Qed.

Lemma limits_nonneg lo hi a (above : bool) la lb : nonneg a ->
  (if above then nle one a = true else nle a one = true) ->
  limit_min lo a (Some above) = Ok la -> limit_max hi a (Some above) = Ok lb ->
  Forall nonneg_or_nan (snd la) /\ Forall nonneg_or_nan (snd lb).
Proof.
  intros Ha Hab El Eh. unfold limit_min in El. unfold limit_max in Eh.
  destruct (in_unit lo) eqn:Ilo, (in_unit hi) eqn:Ihi; destruct above;
    try destruct (out_of_unit lo); try destruct (out_of_unit hi); try discriminate;
    injection El as <-; injection Eh as <-; cbn [snd]; split; try constructor;
    try apply Forall_if_positive; try (apply bound_y_nonneg; assumption); try (apply bound_x_nonneg; assumption).
Qed.

(** K values that are not negative stay so when they are constrained. *)
Lemma constrain_nonneg k0 k1 lo hi r K reset : nonneg k0 -> 0 <= r -> r < 1 ->
  constrain_Ki (k0, k1) lo hi (Fin r) = Ok (K, reset) -> nonneg (fst K) /\ nonneg_or_nan (snd K).
Proof.
  intros Hk0 Hr Hr1 E. unfold constrain_Ki in E.
  destruct (k_setup k0 k1) as [[above a]|] eqn:Es; [|discriminate]. cbn [rbind] in E.
  destruct (setup_up _ _ _ _ Hk0 Es) as [Hab Ha].
  assert (Hup : (if ngt a k1 then Some true else if nlt a k1 then Some false else None) = Some above).
  { destruct above; destruct Hab as [Hab _]; [rewrite Hab; reflexivity|]. rewrite Hab, (nlt_asym _ _ Hab). reflexivity. }
  rewrite Hup in E. clear Hup.
  destruct (limit_min lo a (Some above)) as [la|] eqn:El; [|discriminate]. cbn [rbind] in E.
  destruct (limit_max hi a (Some above)) as [lb|] eqn:Eh; [|discriminate]. cbn [rbind] in E.
  assert (Hb : if above then nle one a = true else nle a one = true) by (destruct above; tauto).
  destruct (limits_nonneg _ _ _ _ _ _ Ha Hb El Eh) as [La Lb].
  set (mn := if above then seps else one) in *. set (mx := if above then one else Fin 100000000) in *.
  cbn [py_min py_max rbind] in E.
  set (max0 := fold_left (fun m x => if nlt x m then x else m) (snd la ++ snd lb) mx) in *.
  set (min0 := fold_left (fun m x => if ngt x m then x else m) (fst la ++ fst lb) mn) in *.
  assert (Hmx : nonneg max0).
  { destruct (fold_min_spec (snd la ++ snd lb) mx) as [N I]; [destruct above; discriminate|]. fold max0 in N, I.
    destruct I as [-> |I]; [unfold mx; destruct above; reflexivity|].
    apply in_app_iff in I. rewrite Forall_forall in La, Lb.
    destruct I as [I|I]; [apply La in I|apply Lb in I]; destruct I as [I|I]; try contradiction; exact I. }
  assert (Hmn : nonneg min0).
  { apply nle_trans with mn; [unfold mn; destruct above; reflexivity|]. apply fold_max_ge. unfold mn. destruct above; discriminate. }
  set (reset0 := existsb _ _ || existsb _ _) in *.
  destruct (nlt (frac_x a _) lo || _); [discriminate|]. destruct (ngt (frac_x a _) hi || _); [discriminate|].
  injection E as <- <-. cbn [fst snd]. split; [exact Ha|].
  destruct reset0 eqn:Er.
  - destruct max0 as [x| | |], min0 as [n| | |]; try discriminate Hmx; try discriminate Hmn;
      unfold nonneg_or_nan, nsub; cbn [nneg nadd nmul].
    + left. apply nonneg_fin. apply nonneg_fin in Hmx, Hmn.
      assert (0 <= x * r) by (apply Qmult_le_0_compat; lra).
      assert (0 <= n * (1 - r)) by (apply Qmult_le_0_compat; lra).
      assert (X : (x + - n) * r + n == x * r + n * (1 - r)) by ring. rewrite X. lra.
    + right. unfold inf_of_sign. destruct (- r ?= 0) eqn:Ec; try reflexivity. apply Qgt_alt in Ec. lra.
    + unfold inf_of_sign. destruct (r ?= 0) eqn:Ec; [right; reflexivity|apply Qlt_alt in Ec; lra|left; reflexivity].
    + right; reflexivity.
  - left. unfold reset0 in Er. apply orb_false_iff in Er. destruct Er as [_ Er]. cbn [existsb] in Er.
    apply orb_false_iff in Er. destruct Er as [Er _].
    apply nle_trans with mn; [unfold mn; destruct above; reflexivity|].
    apply nlt_false_nle; [|unfold mn; destruct above; discriminate|exact Er].
    destruct above; destruct Hab as [Hab _]; apply nlt_not_nan in Hab; tauto.
Qed.

Lemma undefined_dec x : {undefined x} + {~ undefined x}.
Proof. unfold undefined. destruct (nadd (fst x) (snd x)); (left; reflexivity) || (right; discriminate). Qed.

(** vapor fractions that are defined are a composition *)
Lemma vapor_composition K x : nonneg_or_nan (fst K) -> nonneg_or_nan (snd K) -> is_composition x ->
  ~ undefined (vapor_fractions K x) -> is_composition (vapor_fractions K x).
Proof.
  intros H0 H1 (a & b & -> & Ha & Hb & Hs). unfold vapor_fractions, undefined. cbn [fst snd].
  destruct K as [k0 k1]. cbn [fst snd] in *.
  assert (G : forall k q, nonneg k -> 0 <= q -> nmul k (Fin q) = NaN \/ nmul k (Fin q) = PInf \/ exists c, nmul k (Fin q) = Fin c /\ 0 <= c).
  { intros [k| | |] q Hk Hq; try discriminate Hk; cbn [nmul].
    - right; right. eexists; split; [reflexivity|]. apply Qmult_le_0_compat; [apply nonneg_fin; exact Hk|exact Hq].
    - unfold inf_of_sign. destruct (q ?= 0) eqn:Ec; auto. apply Qlt_alt in Ec. lra. }
  assert (G0 : nmul k0 (Fin a) = NaN \/ nmul k0 (Fin a) = PInf \/ exists c, nmul k0 (Fin a) = Fin c /\ 0 <= c).
  { destruct H0 as [H0| ->]; [apply G; assumption|left; reflexivity]. }
  assert (G1 : nmul k1 (Fin b) = NaN \/ nmul k1 (Fin b) = PInf \/ exists c, nmul k1 (Fin b) = Fin c /\ 0 <= c).
  { destruct H1 as [H1| ->]; [apply G; assumption|left; reflexivity]. }
  destruct G0 as [-> |[-> |(c & -> & Hc)]], G1 as [-> |[-> |(d & -> & Hd)]]; cbn [nadd neqb one fst snd ndiv]; try tauto.
  unfold one. cbn [neqb]. destruct (Qeq_bool (c + d) 1) eqn:E; cbn [fst snd].
  - intros _. apply Qeq_bool_iff in E. exists c, d. auto.
  - destruct (Qeq_dec (c + d) 0) as [Ez|Ez].
    + intros X. exfalso. apply X. apply Qeq_bool_iff in Ez. rewrite Ez. apply Qeq_bool_iff in Ez.
      unfold inf_of_sign. assert (c == 0) by lra. apply Qeq_alt in H. rewrite H. reflexivity.
    + intros _. assert (En : Qeq_bool (c + d) 0 = false) by (apply not_true_is_false; rewrite Qeq_bool_iff; exact Ez).
      rewrite En. exists (c / (c + d)), (d / (c + d)). split; [reflexivity|].
      assert (0 < c + d) by lra.
      split; [apply Qle_shift_div_l; lra|]. split; [apply Qle_shift_div_l; lra|]. field. exact Ez.
Qed.

Section Reported.
  Variable liquid vapor : pair_ num -> result (pair_ num * nat).
  Variable lo hi tol : num.
  Variable draw : nat -> num.
  (** random numbers lie in [0,1); fugacity coefficients are not negative, and undefined for
      a composition that is *)
  Hypothesis draw_unit : forall i, exists r, draw i = Fin r /\ 0 <= r /\ r < 1.
  Hypothesis coeff_nonneg : forall x p f, liquid x = Ok (p, f) \/ vapor x = Ok (p, f) ->
    nonneg_or_nan (fst p) /\ nonneg_or_nan (snd p).
  Hypothesis coeff_undefined : forall x p f, undefined x -> liquid x = Ok (p, f) \/ vapor x = Ok (p, f) -> fst p = NaN.

  Lemma ndiv_nonneg a b : nonneg_or_nan a -> nonneg_or_nan b -> nonneg_or_nan (ndiv a b).
  Proof.
    intros [Ha| ->] [Hb| ->]; try (right; reflexivity); [|right; destruct a; reflexivity].
    destruct a as [a| | |], b as [b| | |]; try discriminate Ha; try discriminate Hb; cbn [ndiv].
    - apply nonneg_fin in Ha, Hb. destruct (Qeq_bool b 0) eqn:E.
      + unfold inf_of_sign. destruct (a ?= 0) eqn:Ec; [right; reflexivity|apply Qlt_alt in Ec; lra|left; reflexivity].
      + left. apply nonneg_fin. assert (~ b == 0) by (intros C; apply Qeq_bool_iff in C; congruence).
        apply Qle_shift_div_l; lra.
    - left. reflexivity.
    - apply nonneg_fin in Hb. apply Qle_bool_iff in Hb. rewrite Hb. left; reflexivity.
    - right; reflexivity.
  Qed.

  Lemma constrain_nan_l k lo' hi' r : constrain_Ki (NaN, k) lo' hi' r = Err UnboundLocalError.
  Proof. destruct k; reflexivity. Qed.

  Lemma neqb_nonneg a b : neqb a b = true -> nonneg b -> nonneg a.
  Proof.
    destruct a as [a| | |], b as [b| | |]; cbn; try discriminate; try (intros; reflexivity).
    intros E H. apply Qeq_bool_iff in E. apply nonneg_fin in H. apply nonneg_fin. lra.
  Qed.
  Lemma neqb_nan a b : neqb a b = true -> b <> NaN.
  Proof. destruct a, b; discriminate. Qed.

  Lemma next_nonneg i s Kn st : nonneg_or_nan (fst Kn) -> nonneg_or_nan (snd Kn) ->
    next_K lo hi tol draw i s Kn = Ok st -> st_stop st = false ->
    nonneg_or_nan (fst (fs_K (st_next st))) /\ nonneg_or_nan (snd (fs_K (st_next st))).
  Proof.
    intros H0 H1 E Hs. unfold next_K in E. destruct Kn as [k0 k1]. cbn [fst snd] in H0, H1.
    destruct H0 as [H0| ->]; [|rewrite constrain_nan_l in E; discriminate].
    destruct (constrain_Ki (k0, k1) lo hi (draw (S i))) as [[Kt rs]|] eqn:Ec; [|discriminate]. cbn [rbind] in E.
    destruct (draw_unit (S i)) as (r & Er & Hr & Hr1). rewrite Er in Ec.
    destruct (constrain_nonneg _ _ _ _ _ _ _ H0 Hr Hr1 Ec) as [K0 K1].
    set (count := if rs then S (fs_reset s) else fs_reset s) in *.
    destruct (negb (pair_eqb (k0, k1) Kt)) eqn:En.
    - destruct (Nat.eqb count 10); [injection E as <-; cbn; split; [exact K1|left; exact K0]|].
      destruct (Nat.eqb count 20).
      + destruct (smallest_index _); [|discriminate]. cbn [rbind] in E. injection E as <-. discriminate Hs.
      + injection E as <-. cbn. split; [left; exact K0|exact K1].
    - destruct (_ && _ && _); [injection E as <-; cbn; split; left; reflexivity|].
      destruct (nlt _ tol).
      + destruct (smallest_index _); [|discriminate]. cbn [rbind] in E. destruct (nlt _ tol); injection E as <-; [discriminate Hs|].
        cbn. split; [left; exact H0|exact H1].
      + injection E as <-. cbn. split; [left; exact H0|exact H1].
  Qed.

  Lemma reached_nonneg s0 i s : nonneg_or_nan (fst (fs_K s0)) -> nonneg_or_nan (snd (fs_K s0)) ->
    reached liquid vapor lo hi tol draw s0 i s -> nonneg_or_nan (fst (fs_K s)) /\ nonneg_or_nan (snd (fs_K s)).
  Proof.
    intros H0 H1 H. induction H as [|i s [pl fl] [pv fv] st Hr IH El Ev En Hs]; [split; assumption|].
    cbn [fst] in En. destruct (coeff_nonneg _ _ _ (or_introl El)) as [L0 L1].
    destruct (coeff_nonneg _ _ _ (or_intror Ev)) as [V0 V1].
    apply (next_nonneg i s (div2 pl pv)); [apply ndiv_nonneg; assumption|apply ndiv_nonneg; assumption|exact En|exact Hs].
  Qed.

  (** C45: both phases a flash reports are compositions. *)
Theorem C45_compositions : forall ncomp maxiter p Pset psat out,
    0 < p -> nonneg Pset -> (forall i q, psat i = Ok q -> nonneg_or_nan q) ->
    calc_flash liquid vapor lo hi tol draw ncomp maxiter (Fin p) Pset psat = Ok out ->
    is_composition (out_x out) /\ is_composition (out_y out).
  Proof.
    intros ncomp maxiter p Pset psat out Hp HP Hpsat E. unfold calc_flash in E.
    destruct (negb (Nat.eqb ncomp 2)); [discriminate|].
    assert (Hr : forall q, nonneg_or_nan q -> nonneg (ndiv (if is_nan q then Pset else q) (Fin p))).
    { intros q Hq. assert (X : nonneg (if is_nan q then Pset else q)) by (destruct Hq as [Hq| ->]; [destruct q; try discriminate Hq; exact Hq|exact HP]).
      destruct (if is_nan q then Pset else q) as [a| | |]; try discriminate X.
      - rewrite ndiv_fin by lra. apply nonneg_fin. apply nonneg_fin in X. apply Qle_shift_div_l; lra.
      - cbn. assert (Y : Qle_bool 0 p = true) by (apply Qle_bool_iff; lra). rewrite Y. reflexivity. }
    destruct (psat 0%nat) as [p0|] eqn:E0; [|discriminate]. cbn [rbind] in E.
    destruct (psat 1%nat) as [p1|] eqn:E1; [|discriminate]. cbn [rbind] in E.
    destruct (draw_unit 0) as (r & Er & Hr0 & Hr1).
    destruct (constrain_Ki _ _ _ _) as [[K rs]|] eqn:Ec; [|discriminate]. cbn [rbind fst] in E. rewrite Er in Ec.
    destruct (constrain_nonneg _ _ _ _ _ _ _ (Hr _ (Hpsat _ _ E0)) Hr0 Hr1 Ec) as [K0 K1].
    destruct (flash_loop _ _ _ _ _ _ _ _ _) as [[[[[x fl] y] fv] e]|] eqn:El; [|discriminate]. cbn [rbind] in E.
    apply (loop_runs _ _ _ _ _ _ {| fs_K := K; fs_critical := 0; fs_reset := 0 |}) in El; [|apply reached_0].
    destruct El as (j & s & pl & pv & A & B & C & D & F & (st & En) & _).
    apply reached_nonneg in A; [|left; exact K0|exact K1]. destruct A as [A0 A1].
    assert (Nk : ndiv (fst pl) (fst pv) <> NaN).
    { intros X. unfold next_K, div2 in En. rewrite X, constrain_nan_l in En. discriminate. }
    assert (Ux : ~ undefined x).
    { intros U. apply Nk. rewrite (coeff_undefined _ _ _ U (or_introl D)). reflexivity. }
    assert (Uy : ~ undefined y).
    { intros U. apply Nk. rewrite (coeff_undefined _ _ _ U (or_intror F)). destruct (fst pl); reflexivity. }
    assert (Cx : is_composition x).
    { destruct (liquid_fractions_any (fs_K s)) as [X|X]; rewrite <- B in X; [exact X|contradiction]. }
    assert (Cy : is_composition y) by (rewrite C; apply vapor_composition; try assumption; rewrite <- C; assumption).
    destruct (must_switch x fl y fv); injection E as <-; split; assumption.
  Qed.
End Reported.

(** Phase models that meet the hypotheses of C45_compositions, and a run with them. *)
Definition demo (p : pair_ num) (f : nat) (x : pair_ num) : result (pair_ num * nat) :=
  if is_nan (nadd (fst x) (snd x)) then Ok ((NaN, NaN), 3%nat) else Ok (p, f).
Example C45_compositions_example :
  match calc_flash (demo (Fin 2, Fin (1#2)) 1) (demo (Fin 1, Fin 1) 0)
          (Fin 0) (Fin 1) (Fin (1#1000)) (fun _ => Fin (1#2)) 2 5 (Fin 1) (Fin 1)
          (fun i => Ok (if Nat.eqb i 0 then Fin 3 else NaN)) with
  | Ok o => is_composition (out_x o) /\ is_composition (out_y o)
  | Err _ => False
  end.
Proof.
  destruct (calc_flash _ _ _ _ _ _ _ _ _ _ _) as [o|] eqn:E; [|vm_compute in E; discriminate].
  revert E. apply C45_compositions.
  - intros _. exists (1#2). split; [reflexivity|]. split; [discriminate|reflexivity].
  - intros x p f. unfold demo. destruct (is_nan _); intros [H|H]; injection H as <- <-; split; cbn;
      (right; reflexivity) || (left; reflexivity).
  - intros x p f U. unfold demo, undefined in *. rewrite U. intros [H|H]; injection H as <- <-; reflexivity.
  - reflexivity.
  - reflexivity.
  - intros i q H. injection H as <-. destruct (Nat.eqb i 0); [left|right]; reflexivity.
Qed.

(** A converged case: x = (1/3, 2/3), y = (2/3, 1/3). *)
Example C45_example :
  match calc_flash (fun _ => Ok ((Fin 2, Fin (1#2)), 1%nat)) (fun _ => Ok ((Fin 1, Fin 1), 0%nat))
          (Fin 0) (Fin 1) (Fin (1#1000)) (fun _ => Fin (1#2)) 2 5 (Fin 1) (Fin 1)
          (fun i => Ok (if Nat.eqb i 0 then Fin 2 else Fin (1#2))) with
  | Ok o => out_fl o = 1%nat /\ out_fv o = 0%nat /\ nlt (out_err o) (Fin (1#1000)) = true /\
            neqb (fst (out_x o)) (Fin (1#3)) = true /\ neqb (fst (out_y o)) (Fin (2#3)) = true
  | Err _ => False
  end.
Proof. vm_compute. repeat split; reflexivity. Qed.

(** A relabelled case: the phase solved as a liquid is a vapor and the other a liquid. *)
Example C47_example :
  match calc_flash (fun _ => Ok ((Fin 2, Fin (1#2)), 0%nat)) (fun _ => Ok ((Fin 1, Fin 1), 1%nat))
          (Fin 0) (Fin 1) (Fin (1#1000)) (fun _ => Fin (1#2)) 2 5 (Fin 1) (Fin 1)
          (fun i => Ok (if Nat.eqb i 0 then Fin 2 else Fin (1#2))) with
  | Ok o => out_fl o = 1%nat /\ out_fv o = 0%nat /\ neqb (fst (out_x o)) (Fin (2#3)) = true
  | Err _ => False
  end.
Proof. vm_compute. repeat split; reflexivity. Qed.

Print Assumptions C45_flash.
Print Assumptions C45_compositions.
Print Assumptions C45_not_binary.
Print Assumptions C46_limits_partial.
Print Assumptions C46_undefined_refuted.
Print Assumptions C46_refused.
Print Assumptions C47_labels.
