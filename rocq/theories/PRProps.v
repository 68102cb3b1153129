(** Property theorems C21, C22, C24: the Peng-Robinson object. *)
From Verif Require Import Base BaseFacts EosToolboxModel EosToolboxSpec RSum PRModel PRSpec PRProofs.
From Coq Require Import Reals Lra.
Open Scope R_scope.
Open Scope string_scope.

(** what a caller sees of an evaluation *)
Definition outcome {A} (r : result (pr * A)) : result A := let* x := r in Ok (snd x).
Definition outcome_at (i : nat) (r : result (pr * (nat -> R))) : result R := let* x := r in Ok (snd x i).

(** What a caller can do with an object, and the user's own libraries kept alongside:
    an accepted update is also made in the user's libraries, a refused one in neither. *)
Inductive op := Update (p : string) (names : list string) (v : R) | Refresh | Evaluate (T : R).
Fixpoint run (s : pr) (e : eos_params R) (ops : list op) : result (pr * eos_params R) :=
  match ops with
  | [] => Ok (s, e)
  | Update p names v :: ops' =>
      match pr_update s p names v with
      | Ok s' => let* e' := update_parameter e p names v in run s' e' ops'
      | Err _ => run s e ops'
      end
  | Refresh :: ops' => let* s' := parameter_refresh s in run s' e ops'
  | Evaluate T :: ops' => let* s' := at_temperature s T in run s' e ops'
  end.

Definition changes_omega (o : op) : Prop := exists b v, o = Update "omega" [b] v.
Definition only_evaluates (o : op) : Prop := exists T, o = Evaluate T.

(** each evaluation entry point moves the object exactly as [Evaluate] does *)
Lemma evaluate_state s T rho P xi mp :
  (let* r := pressure s rho T xi in Ok (fst r)) = at_temperature s T /\
  (let* r := fugacity_coefficient s P P T xi in Ok (fst r)) = at_temperature s T /\
  (let* r := density_max s xi T mp in Ok (fst r)) = at_temperature s T.
Proof.
  unfold pressure, fugacity_coefficient, density_max. destruct (at_temperature s T); cbn; repeat split; reflexivity.
Qed.

Lemma obs_mix_a s s' e al n xi : n = length (ep_beads e) -> observables s e al -> observables s' e al ->
  mix_a s n xi = mix_a s' n xi /\ mix_b s n xi = mix_b s' n xi /\
  forall i, (i < n)%nat -> pr_ai s i = pr_ai s' i /\ pr_bi s i = pr_bi s' i /\ pr_alpha s i = pr_alpha s' i /\
    forall j, (j < n)%nat -> pr_kij s i j = pr_kij s' i j.
Proof.
  intros -> [_ [A [K L]]] [_ [A' [K' L']]].
  assert (E : forall i, (i < length (ep_beads e))%nat -> pr_ai s i = pr_ai s' i /\ pr_bi s i = pr_bi s' i /\ pr_alpha s i = pr_alpha s' i /\
    forall j, (j < length (ep_beads e))%nat -> pr_kij s i j = pr_kij s' i j).
  { intros i Hi. destruct (nth_error (ep_beads e) i) as [b|] eqn:Eb; [|apply nth_error_None in Eb; lia].
    destruct (A i b Eb) as [u [U1 U2]]. destruct (A' i b Eb) as [u' [U1' U2']].
    rewrite U1 in U1'. injection U1' as <-. rewrite U2 in U2'. injection U2' as E1 E2.
    split; [exact E1|]. split; [exact E2|]. split; [rewrite L, L' by exact Hi; reflexivity|].
    intros j Hj. rewrite K, K' by assumption. reflexivity. }
  split; [|split; [|exact E]].
  - unfold mix_a. apply sumn_ext. intros i Hi. apply sumn_ext. intros j Hj.
    destruct (E i Hi) as [-> [_ [-> Ek]]]. destruct (E j Hj) as [-> [_ [-> _]]]. rewrite (Ek j Hj). reflexivity.
  - unfold mix_b. apply sumn_ext. intros i Hi. destruct (E i Hi) as [_ [-> _]]. reflexivity.
Qed.

Lemma fresh_outputs s s' e : fresh s e -> fresh s' e -> forall T xi,
  (forall rho, outcome (pressure s rho T xi) = outcome (pressure s' rho T xi)) /\
  (forall maxpack, outcome (density_max s xi T maxpack) = outcome (density_max s' xi T maxpack)) /\
  (forall P rho i, (i < length (ep_beads e))%nat ->
     outcome_at i (fugacity_coefficient s P rho T xi) = outcome_at i (fugacity_coefficient s' P rho T xi)).
Proof.
  intros F F' T xi. pose proof (fresh_at s e T F) as A. pose proof (fresh_at s' e T F') as A'.
  unfold pressure, density_max, fugacity_coefficient, outcome, outcome_at.
  destruct (mapM _ _) as [al|x].
  2: { rewrite A, A'. repeat split; reflexivity. }
  destruct A as [s1 [-> [_ O]]]. destruct A' as [s1' [-> [_ O']]]. cbn [rbind snd].
  destruct (obs_mix_a s1 s1' e al (length (ep_beads e)) xi eq_refl O O') as [Ea [Eb Ei]].
  destruct O as [Ob _]. destruct O' as [Ob' _]. rewrite Ob, Ob'.
  split; [|split].
  - intros rho. rewrite Ea, Eb. reflexivity.
  - intros mp. rewrite Eb. reflexivity.
  - intros P rho i Hi. f_equal. f_equal. unfold ln_phi. rewrite Ea, Eb.
    destruct (Ei i Hi) as [-> [-> [-> Ek]]].
    rewrite (sumn_ext _ _ (fun j => xi j * (sqrt (pr_ai s1' i * pr_alpha s1' i * P / (Rgas * T) ^ 2 *
        (pr_ai s1' j * pr_alpha s1' j * P / (Rgas * T) ^ 2)) * (1 - pr_kij s1' i j)))); [reflexivity|].
    intros j Hj. destruct (Ei j Hj) as [-> [_ [-> _]]]. rewrite (Ek j Hj). reflexivity.
Qed.

Lemma run_inv ops : forall s e s' e', inv s e -> Forall (fun o => ~ changes_omega o) ops ->
  run s e ops = Ok (s', e') -> inv s' e'.
Proof.
  induction ops as [|o ops IH]; intros s e s' e' I FO E; [injection E as <- <-; exact I|].
  inversion FO as [|? ? NO FO']; subst. destruct o as [p names v| |T]; cbn [run] in E.
  - destruct (pr_update s p names v) as [s1|] eqn:EU; [|exact (IH _ _ _ _ I FO' E)].
    destruct (update_inv s e p names v s1 I EU) as [e1 [E1 I1]].
    { intros [-> L]. apply NO. destruct names as [|b [|? ?]]; try discriminate. exists b, v. reflexivity. }
    rewrite E1 in E. cbn [rbind] in E. exact (IH _ _ _ _ I1 FO' E).
  - destruct (parameter_refresh s) as [s1|] eqn:ER; cbn [rbind] in E; [|discriminate].
    apply (IH _ _ _ _ (proj1 (refresh_spec s e s1 I ER)) FO' E).
  - destruct (at_temperature s T) as [s1|] eqn:EA; cbn [rbind] in E; [|discriminate].
    exact (IH _ _ _ _ (inv_at s e T s1 I EA) FO' E).
Qed.
Lemma run_evals ops : forall s e s' e', fresh s e -> Forall only_evaluates ops -> run s e ops = Ok (s', e') ->
  fresh s' e /\ e' = e.
Proof.
  induction ops as [|o ops IH]; intros s e s' e' F FO E; [injection E as <- <-; split; [exact F|reflexivity]|].
  inversion FO as [|? ? [T ->] FO']; subst. cbn [run] in E.
  destruct (at_temperature s T) as [s1|] eqn:EA; cbn [rbind] in E; [|discriminate].
  pose proof (fresh_at s e T F) as A. destruct (mapM _ _); [|congruence]. destruct A as [s2 [X [F2 _]]].
  rewrite EA in X. injection X as <-. exact (IH _ _ _ _ F2 FO' E).
Qed.

(** C24, for histories that do not change an acentric factor: after any history of
    updates, refreshes and evaluations, then a refresh and any further evaluations, the
    object evaluates as one newly built from the user's updated libraries. *)
Theorem C24_refresh_equals_fresh_partial : forall beads lib cl s0 ops s e s1 evs s2 e2,
  init beads lib cl = Ok s0 ->
  Forall (fun o => ~ changes_omega o) ops -> Forall only_evaluates evs ->
  run s0 {| ep_beads := beads; ep_types := pr_types; ep_bead_library := lib; ep_cross_library := cl |} ops = Ok (s, e) ->
  parameter_refresh s = Ok s1 -> run s1 e evs = Ok (s2, e2) ->
  exists sf, init beads (ep_bead_library e) (ep_cross_library e) = Ok sf /\
    forall T xi,
      (forall rho, outcome (pressure s2 rho T xi) = outcome (pressure sf rho T xi)) /\
      (forall maxpack, outcome (density_max s2 xi T maxpack) = outcome (density_max sf xi T maxpack)) /\
      (forall P rho i, (i < length beads)%nat ->
         outcome_at i (fugacity_coefficient s2 P rho T xi) = outcome_at i (fugacity_coefficient sf P rho T xi)).
Proof.
  intros beads lib cl s0 ops s e s1 evs s2 e2 HI HO HE HR HF HV.
  pose proof (init_spec beads lib cl) as S. rewrite HI in S. destruct S as [[I0 _] _].
  pose proof (run_inv _ _ _ _ _ I0 HO HR) as IS. pose proof (refresh_spec _ _ _ IS HF) as F1.
  destruct (run_evals _ _ _ _ _ F1 HE HV) as [F2 ->].
  assert (EB : ep_beads e = beads /\ ep_types e = pr_types).
  { clear - HR HI. revert HR.
    assert (G : forall ops s e s' e', run s e ops = Ok (s', e') -> ep_beads e' = ep_beads e /\ ep_types e' = ep_types e).
    { clear. induction ops as [|o ops IH]; intros s e s' e' E; [injection E as <- <-; split; reflexivity|].
      destruct o as [p names v| |T]; cbn [run] in E.
      - destruct (pr_update s p names v); [|exact (IH _ _ _ _ E)].
        destruct (update_parameter e p names v) as [e1|] eqn:EU; cbn [rbind] in E; [|discriminate].
        destruct (IH _ _ _ _ E) as [-> ->]. unfold update_parameter in EU.
        destruct (Nat.ltb 2 (length names)); [discriminate|]. destruct (negb _); [discriminate|]. destruct (negb _); [discriminate|].
        destruct names as [|b [|b1 [|]]].
        + injection EU as <-. split; reflexivity.
        + destruct (dget _ b); injection EU as <-; split; reflexivity.
        + repeat match type of EU with context [match ?x with _ => _ end] => destruct x end; injection EU as <-; split; reflexivity.
        + injection EU as <-. split; reflexivity.
      - destruct (parameter_refresh s); cbn [rbind] in E; [|discriminate]. exact (IH _ _ _ _ E).
      - destruct (at_temperature s T); cbn [rbind] in E; [|discriminate]. exact (IH _ _ _ _ E). }
    intros HR. exact (G _ _ _ _ _ HR). }
  destruct EB as [EB ET].
  pose proof (init_spec beads (ep_bead_library e) (ep_cross_library e)) as SF.
  destruct (init beads (ep_bead_library e) (ep_cross_library e)) as [sf|x].
  - exists sf. split; [reflexivity|]. destruct SF as [FF _]. intros T xi.
    assert (Ee : e = {| ep_beads := beads; ep_types := pr_types; ep_bead_library := ep_bead_library e; ep_cross_library := ep_cross_library e |}).
    { destruct e; cbn in *; subst; reflexivity. }
    rewrite <- Ee in FF. rewrite <- EB. apply fresh_outputs; assumption.
  - exfalso. destruct SF as [_ [b [Hb NB]]]. apply NB.
    destruct F1 as [[I1 _] [_ [A _]]]. rewrite EB in I1. rewrite <- I1 in A.
    apply In_nth_error in Hb. destruct Hb as [i Hi]. destruct (A i b Hi) as [u [U1 U2]]. exists u. eexists. split; [exact U1|exact U2].
Qed.
Print Assumptions C24_refresh_equals_fresh_partial.

(** Non-vacuity: a critical-property component and an (ai, bi) component; the history
    updates both and the interaction, evaluates in between, and attempts a refused
    update. *)
Definition lib2 (Tc Pc w a b : R) : dict (dict R) :=
  [("CO2", [("Tc", Tc); ("Pc", Pc); ("omega", w)]); ("X", [("ai", a); ("bi", b)])].
Definition history2 (T Tc Pc a k : R) : list op :=
  [Evaluate T; Update "Tc" ["CO2"] Tc; Evaluate T; Update "ai" ["X"] a; Update "kij" ["CO2"; "X"] k;
   Update "ai" ["CO2"] a; Refresh; Update "Pc" ["CO2"] Pc].
Example C24_case : forall T Tc Pc w a b Tc' Pc' a' k, exists s0 s e s1,
  init ["CO2"; "X"] (lib2 Tc Pc w a b) [] = Ok s0 /\
  Forall (fun o => ~ changes_omega o) (history2 T Tc' Pc' a' k) /\
  run s0 {| ep_beads := ["CO2"; "X"]; ep_types := pr_types; ep_bead_library := lib2 Tc Pc w a b; ep_cross_library := [] |}
      (history2 T Tc' Pc' a' k) = Ok (s, e) /\
  parameter_refresh s = Ok s1 /\
  ep_bead_library e = lib2 Tc' Pc' w a' b /\
  ep_cross_library e = [("CO2", [("X", [("kij", k)])])].
Proof.
  intros T Tc Pc w a b Tc' Pc' a' k.
  do 4 eexists. split; [cbn -[IZR Rgas Rdiv Rmult Rplus Rminus pow sqrt kij_refresh]; reflexivity|]. split.
  { unfold history2. repeat constructor; intros [x [v H]]; discriminate. }
  split.
  - unfold history2.
    cbn -[IZR Rgas Rdiv Rmult Rplus Rminus pow sqrt kij_refresh]. destruct (Req_EM_T T T) as [_|N]; [|exfalso; apply N; reflexivity].
    lazy -[IZR Rgas Rdiv Rmult Rplus Rminus pow sqrt kij_refresh]. reflexivity.
  - split; [cbn -[IZR Rgas Rdiv Rmult Rplus Rminus pow sqrt kij_refresh]; reflexivity|].
    split; reflexivity.
Qed.

(** C24, refuted for the acentric factor: the derived kappa is kept, and the object does
    not evaluate like a new one. *)
Definition lib1 (Tc w : R) : dict (dict R) := [("X", [("Tc", Tc); ("Pc", 1); ("omega", w)])].

Lemma pressure_one s s1 T rho : at_temperature s T = Ok s1 -> length (beads_of s1) = 1%nat ->
  0 <= pr_ai s1 0%nat * pr_alpha s1 0%nat -> pr_kij s1 0%nat 0%nat = 0 ->
  outcome (pressure s [rho] T (fun _ => 1)) =
    Ok [pressure_formula (pr_ai s1 0%nat * pr_alpha s1 0%nat) (pr_bi s1 0%nat) T rho].
Proof.
  intros E L P K. unfold pressure, outcome. rewrite E. cbn [rbind snd map]. rewrite L. unfold mix_a, mix_b.
  cbn [sumn]. rewrite K. do 2 f_equal. f_equal; [|ring].
  replace (pr_ai s1 0%nat * pr_alpha s1 0%nat * pr_ai s1 0%nat * pr_alpha s1 0%nat)
    with ((pr_ai s1 0%nat * pr_alpha s1 0%nat) * (pr_ai s1 0%nat * pr_alpha s1 0%nat)) by ring.
  rewrite sqrt_square by exact P. ring.
Qed.

Lemma pressure_formula_inj a a' b T : 0 < b ->
  pressure_formula a b T (1 / (2 * b)) = pressure_formula a' b T (1 / (2 * b)) -> a = a'.
Proof.
  intros B. unfold pressure_formula.
  assert (E : 1 + b * (1 / (2 * b)) + 1 / (2 * b) * b * (1 - b * (1 / (2 * b))) = 7 / 4) by (field; lra).
  rewrite E. intros H.
  assert (X : (1 / (2 * b)) ^ 2 * a = (1 / (2 * b)) ^ 2 * a') by lra.
  apply (Rmult_eq_reg_l ((1 / (2 * b)) ^ 2)); [exact X|]. apply pow_nonzero.
  apply Rgt_not_eq. apply Rdiv_lt_0_compat; lra.
Qed.

Theorem C24_omega_refuted : exists s0 s e s1 sf,
  init ["X"] (lib1 100 0) [] = Ok s0 /\
  run s0 {| ep_beads := ["X"]; ep_types := pr_types; ep_bead_library := lib1 100 0; ep_cross_library := [] |}
      [Update "omega" ["X"] 1] = Ok (s, e) /\
  ep_bead_library e = lib1 100 1 /\
  parameter_refresh s = Ok s1 /\ init ["X"] (ep_bead_library e) (ep_cross_library e) = Ok sf /\
  exists rho, 0 < rho /\ outcome (pressure s1 [rho] 400 (fun _ => 1)) <> outcome (pressure sf [rho] 400 (fun _ => 1)).
Proof.
  do 5 eexists. split; [cbn -[IZR Rgas Rdiv Rmult Rplus Rminus pow sqrt]; reflexivity|].
  split; [cbn -[IZR Rgas Rdiv Rmult Rplus Rminus pow sqrt]; reflexivity|]. split; [reflexivity|].
  split; [cbn -[IZR Rgas Rdiv Rmult Rplus Rminus pow sqrt]; reflexivity|]. 
  split; [cbn -[IZR Rgas Rdiv Rmult Rplus Rminus pow sqrt]; reflexivity|].
  set (b := 7779607 / 100000000 * (Rgas * 100 / 1)).
  exists (1 / (2 * b)).
  assert (HR : 0 < Rgas) by (unfold Rgas; lra).
  assert (Hb : 0 < b) by (unfold b; lra).
  split; [apply Rdiv_lt_0_compat; lra|].
  set (a := 45723553 / 100000000 * (Rgas * 100) ^ 2 / 1).
  assert (Ha : 0 < a).
  { unfold a. assert (0 < (Rgas * 100) ^ 2) by (apply pow_lt; lra). lra. }
  assert (S : sqrt (400 / 100) = 2).
  { replace (400 / 100) with (2 * 2) by lra. apply sqrt_square. lra. }
  assert (Q : forall x, 0 <= a * x ^ 2).
  { intros x. apply Rmult_le_pos; [lra|]. apply pow2_ge_0. }
  erewrite pressure_one; [|cbn -[IZR Rgas Rdiv Rmult Rplus Rminus pow sqrt]; reflexivity|reflexivity| |reflexivity].
  2: { cbn -[IZR Rgas Rdiv Rmult Rplus Rminus pow sqrt]. fold a. apply Q. }
  erewrite pressure_one; [|cbn -[IZR Rgas Rdiv Rmult Rplus Rminus pow sqrt]; reflexivity|reflexivity| |reflexivity].
  2: { cbn -[IZR Rgas Rdiv Rmult Rplus Rminus pow sqrt]. fold a. apply Q. }
  cbn -[IZR Rgas Rdiv Rmult Rplus Rminus pow sqrt pressure_formula]. fold a b. intros E. injection E as E.
  apply (pressure_formula_inj _ _ b 400 Hb) in E.
  apply (Rmult_eq_reg_l a) in E; [|lra]. rewrite S in E. clear - E. lra.
Qed.
Print Assumptions C24_omega_refuted.

(** C24, refuted for a library used twice: building an object writes derived entries
    into the caller's library, and a second object built from it no longer follows its
    critical properties. *)
Theorem C24_shared_library_refuted : exists s0 s1 s2 s3 sf,
  init ["X"] (lib1 100 0) [] = Ok s0 /\ init ["X"] (lib_of s0) [] = Ok s1 /\
  pr_update s1 "Tc" ["X"] 400 = Ok s2 /\ parameter_refresh s2 = Ok s3 /\
  init ["X"] (lib1 400 0) [] = Ok sf /\
  outcome (density_max s3 (fun _ => 1) 300 (9 / 10)) <> outcome (density_max sf (fun _ => 1) 300 (9 / 10)).
Proof.
  do 5 eexists. split; [cbn -[IZR Rgas Rdiv Rmult Rplus Rminus pow sqrt]; reflexivity|].
  split; [cbn -[IZR Rgas Rdiv Rmult Rplus Rminus pow sqrt]; reflexivity|].
  split; [cbn -[IZR Rgas Rdiv Rmult Rplus Rminus pow sqrt]; reflexivity|].
  split; [cbn -[IZR Rgas Rdiv Rmult Rplus Rminus pow sqrt]; reflexivity|].
  split; [cbn -[IZR Rgas Rdiv Rmult Rplus Rminus pow sqrt]; reflexivity|].
  unfold density_max, outcome. cbn -[IZR Rgas Rdiv Rmult Rplus Rminus pow sqrt mix_b]. unfold mix_b. cbn [sumn pr_bi fst snd nth].
  assert (HR : 0 < Rgas) by (unfold Rgas; lra). intros E. injection E as E.
  assert (H1 : forall x y, 0 < x -> 0 < y -> 9 / 10 / x = 9 / 10 / y -> x = y).
  { intros x y X Y H. apply (f_equal (fun z => z * x * y)) in H. field_simplify in H; lra. }
  apply H1 in E; lra.
Qed.
Print Assumptions C24_shared_library_refuted.

(** ** C21 *)
Lemma mapM_nth {A} (f : A -> result R) l ys i x :
  mapM f l = Ok ys -> nth_error l i = Some x -> f x = Ok (nth i ys 0).
Proof. intros H E. apply mapM_Forall2 in H. exact (Forall2_nth_error _ _ _ _ _ 0 H E). Qed.
Lemma mapM_all_ok {A B} (f : A -> result B) l : (forall x, In x l -> exists y, f x = Ok y) -> exists ys, mapM f l = Ok ys.
Proof.
  induction l as [|x xs IH]; intros H; [exists []; reflexivity|]. destruct (H x (or_introl eq_refl)) as [y E].
  destruct IH as [ys E']; [intros z Hz; apply H; right; exact Hz|]. exists (y :: ys). cbn. rewrite E, E'. reflexivity.
Qed.
Lemma mapM_err {A B} (f : A -> result B) l e : mapM f l = Err e -> exists x, In x l /\ f x = Err e.
Proof.
  induction l as [|x xs IH]; cbn; [discriminate|]. destruct (f x) as [y|e'] eqn:E; cbn [rbind].
  - destruct (mapM f xs) as [ys|e'] eqn:E'; cbn [rbind]; [discriminate|]. intros H. injection H as ->.
    destruct (IH eq_refl) as [z [Z1 Z2]]. exists z. split; [right; exact Z1|exact Z2].
  - intros H. injection H as ->. exists x. split; [left; reflexivity|exact E].
Qed.
Lemma alpha_spec_err U T b x : alpha_spec U T b = Err x -> x = KeyError.
Proof.
  unfold alpha_spec, dfetch, alpha_of. destruct (dget U b) as [u|]; cbn [rbind]; [|congruence].
  destruct (kappa_of u), (dget u "Tc"); congruence.
Qed.

(** the same components in another order *)
Definition reordered (sg : nat -> nat) (beads beads' : list string) : Prop :=
  length beads' = length beads /\ relabelling (length beads) sg /\
  forall i, (i < length beads)%nat -> nth_error beads' i = nth_error beads (sg i).

Lemma reordered_In sg beads beads' : reordered sg beads beads' -> forall b, In b beads' <-> In b beads.
Proof.
  intros [L [RL N]] b. split; intros H; apply In_nth_error in H; destruct H as [i Hi].
  - assert (Li : (i < length beads)%nat) by (rewrite <- L; apply nth_error_Some; congruence).
    rewrite N in Hi by exact Li. eapply nth_error_In; exact Hi.
  - assert (Li : (i < length beads)%nat) by (apply nth_error_Some; congruence).
    destruct (relabelling_onto _ _ i RL Li) as [j [Hj E]]. apply (nth_error_In _ j). rewrite N by exact Hj. rewrite E. exact Hi.
Qed.

Lemma nth_of_error (l : list string) i b : nth_error l i = Some b -> nth i l "" = b.
Proof. intros H. apply nth_error_nth. exact H. Qed.

Lemma reordered_mix sg beads beads' lib cl s s' al al' T xi :
  one_order cl -> reordered sg beads beads' ->
  let e := {| ep_beads := beads; ep_types := pr_types; ep_bead_library := lib; ep_cross_library := cl |} in
  let e' := {| ep_beads := beads'; ep_types := pr_types; ep_bead_library := lib; ep_cross_library := cl |} in
  mapM (alpha_spec lib T) beads = Ok al -> mapM (alpha_spec lib T) beads' = Ok al' ->
  observables s e al -> observables s' e' al' ->
  let n := length beads in
  (forall i, (i < n)%nat -> pr_ai s' i = pr_ai s (sg i) /\ pr_bi s' i = pr_bi s (sg i) /\ pr_alpha s' i = pr_alpha s (sg i) /\
    forall j, (j < n)%nat -> pr_kij s' i j = pr_kij s (sg i) (sg j)) /\
  mix_a s' n (fun i => xi (sg i)) = mix_a s n xi /\ mix_b s' n (fun i => xi (sg i)) = mix_b s n xi.
Proof.
  intros O1 RO e e' M M' [_ [A [K L]]] [_ [A' [K' L']]] n. pose proof RO as [Ln [RL N]]. unfold e, e' in *. cbn [ep_beads ep_bead_library ep_cross_library] in *.
  assert (E : forall i, (i < n)%nat -> pr_ai s' i = pr_ai s (sg i) /\ pr_bi s' i = pr_bi s (sg i) /\ pr_alpha s' i = pr_alpha s (sg i) /\
    forall j, (j < n)%nat -> pr_kij s' i j = pr_kij s (sg i) (sg j)).
  { intros i Hi. pose proof (proj1 RL i Hi) as Hsi.
    destruct (nth_error beads (sg i)) as [b|] eqn:Eb; [|apply nth_error_None in Eb; unfold n in *; lia].
    assert (Eb' : nth_error beads' i = Some b) by (rewrite N; assumption).
    destruct (A _ _ Eb) as [u [U1 U2]]. destruct (A' _ _ Eb') as [u' [U1' U2']].
    rewrite U1 in U1'. injection U1' as <-. rewrite U2 in U2'. injection U2' as E1 E2.
    split; [symmetry; exact E1|]. split; [symmetry; exact E2|]. split.
    - rewrite L' by (unfold n in *; lia). rewrite L by exact Hsi.
      pose proof (mapM_nth _ _ _ _ _ M Eb) as X. pose proof (mapM_nth _ _ _ _ _ M' Eb') as X'. congruence.
    - intros j Hj. pose proof (proj1 RL j Hj) as Hsj.
      rewrite K' by (unfold n in *; lia). rewrite K by assumption.
      rewrite !kij_refresh_value by (try assumption; unfold n in *; lia).
      destruct (nth_error beads (sg j)) as [c|] eqn:Ec; [|apply nth_error_None in Ec; unfold n in *; lia].
      assert (Ec' : nth_error beads' j = Some c) by (rewrite N; assumption).
      rewrite (nth_of_error _ _ _ Eb), (nth_of_error _ _ _ Eb'), (nth_of_error _ _ _ Ec), (nth_of_error _ _ _ Ec'). reflexivity. }
  split; [exact E|]. split.
  - unfold mix_a. symmetry. rewrite <- (sumn_perm n sg) by exact RL. apply sumn_ext. intros i Hi.
    rewrite <- (sumn_perm n sg) by exact RL. apply sumn_ext. intros j Hj.
    destruct (E i Hi) as [-> [_ [-> Ek]]]. destruct (E j Hj) as [-> [_ [-> _]]]. rewrite (Ek j Hj). reflexivity.
  - unfold mix_b. symmetry. rewrite <- (sumn_perm n sg) by exact RL. apply sumn_ext. intros i Hi.
    destruct (E i Hi) as [_ [-> _]]. reflexivity.
Qed.

(** C21, for cross libraries that store each pair in one order *)
Theorem C21_relabelling_partial : forall sg beads beads' lib cl s,
  one_order cl -> reordered sg beads beads' -> init beads lib cl = Ok s ->
  exists s', init beads' lib cl = Ok s' /\
    forall T xi,
      (forall rho, outcome (pressure s' rho T (fun i => xi (sg i))) = outcome (pressure s rho T xi)) /\
      (forall mp, outcome (density_max s' (fun i => xi (sg i)) T mp) = outcome (density_max s xi T mp)) /\
      (forall P rho i, (i < length beads)%nat ->
         outcome_at i (fugacity_coefficient s' P rho T (fun i => xi (sg i))) =
         outcome_at (sg i) (fugacity_coefficient s P rho T xi)).
Proof.
  intros sg beads beads' lib cl s O1 RO HI. pose proof (init_spec beads lib cl) as S. rewrite HI in S. destruct S as [F BO].
  pose proof (init_spec beads' lib cl) as S'. destruct (init beads' lib cl) as [s'|x].
  2: { exfalso. destruct S' as [_ [b [Hb NB]]]. apply NB. apply BO. apply (reordered_In _ _ _ RO). exact Hb. }
  destruct S' as [F' _]. exists s'. split; [reflexivity|]. intros T xi.
  pose proof (fresh_at s _ T F) as A. pose proof (fresh_at s' _ T F') as A'. cbn [ep_beads ep_bead_library] in A, A'.
  unfold pressure, density_max, fugacity_coefficient, outcome, outcome_at.
  destruct (mapM (alpha_spec lib T) beads) as [al|x] eqn:M.
  - destruct (mapM (alpha_spec lib T) beads') as [al'|x'] eqn:M'.
    2: { exfalso. destruct (mapM_err _ _ _ M') as [b [Hb Eb]]. apply (reordered_In _ _ _ RO) in Hb.
         apply In_nth_error in Hb. destruct Hb as [i Hi]. pose proof (mapM_nth _ _ _ _ _ M Hi). congruence. }
    destruct A as [s1 [-> [_ Ob]]]. destruct A' as [s1' [-> [_ Ob']]]. cbn [rbind snd].
    destruct (reordered_mix sg beads beads' lib cl s1 s1' al al' T xi O1 RO M M' Ob Ob') as [E [Ea Eb]].
    destruct Ob as [Ob _]. destruct Ob' as [Ob' _]. cbn in Ob, Ob'. rewrite Ob, Ob'. destruct RO as [Ln [RL _]]. rewrite Ln.
    split; [|split].
    + intros rho. rewrite Ea, Eb. reflexivity.
    + intros mp. rewrite Eb. reflexivity.
    + intros P rho i Hi. f_equal. f_equal. unfold ln_phi. rewrite Ea, Eb.
      destruct (E i Hi) as [-> [-> [-> Ek]]].
      rewrite <- (sumn_perm (length beads) sg (fun j => xi j * (sqrt (pr_ai s1 (sg i) * pr_alpha s1 (sg i) * P / (Rgas * T) ^ 2 *
        (pr_ai s1 j * pr_alpha s1 j * P / (Rgas * T) ^ 2)) * (1 - pr_kij s1 (sg i) j)))) by exact RL.
      rewrite (sumn_ext (length beads) _ (fun j => xi (sg j) * (sqrt (pr_ai s1 (sg i) * pr_alpha s1 (sg i) * P / (Rgas * T) ^ 2 *
        (pr_ai s1 (sg j) * pr_alpha s1 (sg j) * P / (Rgas * T) ^ 2)) * (1 - pr_kij s1 (sg i) (sg j))))); [reflexivity|].
      intros j Hj. destruct (E j Hj) as [-> [_ [-> _]]]. rewrite (Ek j Hj). reflexivity.
  - destruct (mapM (alpha_spec lib T) beads') as [al'|x'] eqn:M'.
    + exfalso. destruct (mapM_err _ _ _ M) as [b [Hb Eb]]. apply (reordered_In _ _ _ RO) in Hb.
      apply In_nth_error in Hb. destruct Hb as [i Hi]. pose proof (mapM_nth _ _ _ _ _ M' Hi). congruence.
    + rewrite A, A'. destruct (mapM_err _ _ _ M) as [b [_ Eb]]. destruct (mapM_err _ _ _ M') as [b' [_ Eb']].
      rewrite (alpha_spec_err _ _ _ _ Eb), (alpha_spec_err _ _ _ _ Eb'). repeat split; reflexivity.
Qed.
Print Assumptions C21_relabelling_partial.

Example C21_case : reordered (fun i => if Nat.eqb i 0 then 1%nat else 0%nat) ["CO2"; "X"] ["X"; "CO2"] /\
  one_order [("CO2", [("X", [("kij", 1)])])] /\ is_ok (init ["CO2"; "X"] (lib2 300 10 1 2 3) [("CO2", [("X", [("kij", 1)])])]) = true.
Proof.
  split; [split; [reflexivity|split; [split|]]|split].
  - intros [|[|i]] Hi; cbn in *; lia.
  - intros [|[|i]] [|[|j]] Hi Hj; cbn in *; lia.
  - intros [|[|i]] Hi; cbn in *; [reflexivity|reflexivity|lia].
  - intros a b N [d [e [E1 E2]]] [d' [e' [E3 E4]]]. cbn in *.
    destruct (String.eqb_spec a "CO2"); [|discriminate]. destruct (String.eqb_spec b "CO2"); [congruence|discriminate].
  - cbn -[IZR Rgas Rdiv Rmult Rplus Rminus pow sqrt]. reflexivity.
Qed.

(** C21, refuted when the cross library stores the pair in both orders: the matrix entry
    is that of the bead listed last, so relabelling changes it. *)
Theorem C21_both_orders_refuted : exists cl, 
  kij_refresh ["A"; "B"] cl (fun _ _ => 0) 0%nat 1%nat <> kij_refresh ["B"; "A"] cl (fun _ _ => 0) 1%nat 0%nat.
Proof.
  exists [("A", [("B", [("kij", 0)])]); ("B", [("A", [("kij", 1)])])]. cbn -[IZR]. lra.
Qed.
Print Assumptions C21_both_orders_refuted.

(** ** C22 *)
Lemma absent_mix beads c lib cl s s' al al' T xi :
  let e := {| ep_beads := beads; ep_types := pr_types; ep_bead_library := lib; ep_cross_library := cl |} in
  let e' := {| ep_beads := (beads ++ [c])%list; ep_types := pr_types; ep_bead_library := lib; ep_cross_library := cl |} in
  mapM (alpha_spec lib T) beads = Ok al -> mapM (alpha_spec lib T) (beads ++ [c]) = Ok al' ->
  observables s e al -> observables s' e' al' ->
  let n := length beads in
  xi n = 0 ->
  (forall i, (i < n)%nat -> pr_ai s' i = pr_ai s i /\ pr_bi s' i = pr_bi s i /\ pr_alpha s' i = pr_alpha s i /\
    forall j, (j < n)%nat -> pr_kij s' i j = pr_kij s i j) /\
  mix_a s' (S n) xi = mix_a s n xi /\ mix_b s' (S n) xi = mix_b s n xi.
Proof.
  intros e e' M M' [_ [A [K L]]] [_ [A' [K' L']]] n Hx. unfold e, e' in *. cbn [ep_beads ep_bead_library ep_cross_library] in *.
  assert (E : forall i, (i < n)%nat -> pr_ai s' i = pr_ai s i /\ pr_bi s' i = pr_bi s i /\ pr_alpha s' i = pr_alpha s i /\
    forall j, (j < n)%nat -> pr_kij s' i j = pr_kij s i j).
  { intros i Hi. destruct (nth_error beads i) as [b|] eqn:Eb; [|apply nth_error_None in Eb; unfold n in *; lia].
    assert (Eb' : nth_error (beads ++ [c]) i = Some b) by (rewrite nth_error_app1; assumption).
    destruct (A _ _ Eb) as [u [U1 U2]]. destruct (A' _ _ Eb') as [u' [U1' U2']].
    rewrite U1 in U1'. injection U1' as <-. rewrite U2 in U2'. injection U2' as E1 E2.
    split; [symmetry; exact E1|]. split; [symmetry; exact E2|]. split.
    - rewrite L' by (rewrite app_length; cbn; unfold n in *; lia). rewrite L by exact Hi.
      pose proof (mapM_nth _ _ _ _ _ M Eb) as X. pose proof (mapM_nth _ _ _ _ _ M' Eb') as X'. congruence.
    - intros j Hj. rewrite K' by (rewrite app_length; cbn; unfold n in *; lia). rewrite K by assumption.
      rewrite !kij_refresh_last by (try assumption; rewrite ?app_length; cbn; unfold n in *; lia).
      unfold written. rewrite !app_nth1 by (unfold n in *; lia). reflexivity. }
  split; [exact E|]. split.
  - unfold mix_a. cbn [sumn]. rewrite Hx.
    rewrite (sumn_ext n _ (fun i => sumn n (fun j => xi i * xi j * sqrt (pr_ai s i * pr_alpha s i * pr_ai s j * pr_alpha s j) * (1 - pr_kij s i j)))).
    + match goal with |- _ + (sumn n ?f + _) = _ => rewrite (sumn_zero n f) end; [ring|]. intros; ring.
    + intros i Hi. rewrite !Rmult_0_r, !Rmult_0_l, Rplus_0_r. apply sumn_ext. intros j Hj.
      destruct (E i Hi) as [-> [_ [-> Ek]]]. destruct (E j Hj) as [-> [_ [-> _]]]. rewrite (Ek j Hj). reflexivity.
  - unfold mix_b. cbn [sumn]. rewrite Hx, Rmult_0_l, Rplus_0_r. apply sumn_ext. intros i Hi.
    destruct (E i Hi) as [_ [-> _]]. reflexivity.
Qed.

(** C22: a further component of mole fraction zero changes nothing, provided the larger
    mixture can be evaluated at all.  It is listed last; by C21 its place is free. *)
Theorem C22_absent_component : forall beads c lib cl s s' T xi,
  init beads lib cl = Ok s -> init (beads ++ [c]) lib cl = Ok s' ->
  is_ok (at_temperature s' T) = true -> xi (length beads) = 0 ->
  (forall rho, outcome (pressure s' rho T xi) = outcome (pressure s rho T xi)) /\
  (forall mp, outcome (density_max s' xi T mp) = outcome (density_max s xi T mp)) /\
  (forall P rho i, (i < length beads)%nat ->
     outcome_at i (fugacity_coefficient s' P rho T xi) = outcome_at i (fugacity_coefficient s P rho T xi)).
Proof.
  intros beads c lib cl s s' T xi HI HI' OK Hx.
  pose proof (init_spec beads lib cl) as S. rewrite HI in S. destruct S as [F _].
  pose proof (init_spec (beads ++ [c]) lib cl) as S'. rewrite HI' in S'. destruct S' as [F' _].
  pose proof (fresh_at s _ T F) as A. pose proof (fresh_at s' _ T F') as A'. cbn [ep_beads ep_bead_library] in A, A'.
  unfold pressure, density_max, fugacity_coefficient, outcome, outcome_at.
  destruct (mapM (alpha_spec lib T) (beads ++ [c])) as [al'|x'] eqn:M'; [|rewrite A' in OK; discriminate].
  destruct (mapM (alpha_spec lib T) beads) as [al|x] eqn:M.
  2: { exfalso. destruct (mapM_err _ _ _ M) as [b [Hb Eb]].
       apply In_nth_error in Hb. destruct Hb as [i Hi].
       assert (Hi' : nth_error (beads ++ [c]) i = Some b).
       { rewrite nth_error_app1; [exact Hi|]. apply nth_error_Some. congruence. }
       pose proof (mapM_nth _ _ _ _ _ M' Hi'). congruence. }
  destruct A as [s1 [-> [_ Ob]]]. destruct A' as [s1' [-> [_ Ob']]]. cbn [rbind snd].
  destruct (absent_mix beads c lib cl s1 s1' al al' T xi M M' Ob Ob' Hx) as [E [Ea Eb]].
  destruct Ob as [Ob _]. destruct Ob' as [Ob' _]. cbn in Ob, Ob'. rewrite Ob, Ob'.
  rewrite app_length. cbn [length]. rewrite Nat.add_1_r.
  split; [|split].
  - intros rho. rewrite Ea, Eb. reflexivity.
  - intros mp. rewrite Eb. reflexivity.
  - intros P rho i Hi. f_equal. f_equal. unfold ln_phi. rewrite Ea, Eb.
    destruct (E i Hi) as [-> [-> [-> Ek]]]. cbn [sumn]. rewrite Hx, Rmult_0_l, Rplus_0_r.
    rewrite (sumn_ext (length beads) _ (fun j => xi j * (sqrt (pr_ai s1 i * pr_alpha s1 i * P / (Rgas * T) ^ 2 *
        (pr_ai s1 j * pr_alpha s1 j * P / (Rgas * T) ^ 2)) * (1 - pr_kij s1 i j)))); [reflexivity|].
    intros j Hj. destruct (E j Hj) as [-> [_ [-> _]]]. rewrite (Ek j Hj). reflexivity.
Qed.
Print Assumptions C22_absent_component.

Example C22_case : exists s s', 
  init ["CO2"] (lib2 300 10 1 2 3) [] = Ok s /\ init (["CO2"] ++ ["X"]) (lib2 300 10 1 2 3) [] = Ok s' /\
  is_ok (at_temperature s' 300) = true.
Proof.
  do 2 eexists. split; [cbn -[IZR Rgas Rdiv Rmult Rplus Rminus pow sqrt]; reflexivity|].
  split; [cbn -[IZR Rgas Rdiv Rmult Rplus Rminus pow sqrt]; reflexivity|]. reflexivity.
Qed.
