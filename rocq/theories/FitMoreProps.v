(** C53, C56 and C81, the remaining parts: the Boltzmann-weighted objectives, mixtures, the constraints
    that are handed on and the names of the data classes. *)
From Verif Require Import Base BaseFacts Num NumFacts FitObjModel FitObjProps FitSetupModel FitSetupProps FitRunModel.
From Coq Require Import Lqa.
Open Scope Q_scope.

(** ** C53: the Boltzmann-weighted forms *)
(** [e] is the exponential as it is computed for rational arguments *)
Section Boltzmann.
  Variable nexp : num -> num.
  Variable e : Q -> Q.
  Hypothesis exp_e : forall q, nexp (Fin q) = Fin (e q).
  Hypothesis e_proper : forall a b, a == b -> e a == e b.

  Lemma min_fin (l : list Q) (a : Q) : exists m, fold_left (fun m b => if nlt b m then b else m) (map Fin l) (Fin a) = Fin m /\
    In m (a :: l) /\ m <= a /\ Forall (fun b => m <= b) l.
  Proof.
    revert a. induction l as [|b l IH]; intros a; cbn [map fold_left].
    - exists a. split; [reflexivity|]. split; [left; reflexivity|]. split; [lra|constructor].
    - destruct (nlt (Fin b) (Fin a)) eqn:E.
      + apply nlt_fin in E. destruct (IH b) as (m & -> & Hi & Hm & HF). exists m. split; [reflexivity|].
        split; [right; exact Hi|]. split; [lra|]. constructor; assumption.
      + apply nlt_fin_false in E. destruct (IH a) as (m & -> & Hi & Hm & HF). exists m. split; [reflexivity|].
        split; [destruct Hi; [left|right; right]; assumption|]. split; [exact Hm|]. constructor; [lra|exact HF].
  Qed.
  Lemma times_map {A} (f g : A -> num) l : times (map f l) (map g l) = map (fun d => nmul (f d) (g d)) l.
  Proof. induction l as [|d l IH]; [reflexivity|]. cbn in *. f_equal. exact IH. Qed.
  Lemma sum_terms {A} (f : A -> num) (g : A -> Q) l : (forall d, In d l -> exists q, f d = Fin q /\ q == g d) ->
    exists v, nsum (map f l) = Fin v /\ v == qsum (map g l).
  Proof.
    induction l as [|d l IH]; intros H; [exists 0; split; reflexivity|]. destruct IH as (v & E & Hv); [intros; apply H; right; assumption|].
    destruct (H d (or_introl eq_refl)) as (q & Eq & Hq). cbn. unfold nsum in E. rewrite E, Eq. exists (q + v). split; [reflexivity|].
    rewrite Hq, Hv. reflexivity.
  Qed.

  (** C53: over the points that could be calculated, each squared deviation counts with its weight and with the
      exponential of how far its deviation is above the least one, relative to the size of the least
      one; the form without the square uses the deviation itself.  All points must be available here. *)
Theorem C53_boltz_value_partial : forall l d0 number ratio, Forall proper l -> Forall (fun d => available d = true) l ->
    In d0 l -> (forall d, In d l -> deviation d0 <= deviation d) -> ~ deviation d0 == 0 ->
    let share d := e (- (deviation d - deviation d0) / Qabs (deviation d0)) in
    (exists v, run nexp l "sum-squared-deviation-boltz" number ratio = Ok (Fin v) /\
       v == qsum (map (fun d => deviation d * deviation d * weight d * share d) l)) /\
    (exists v, run nexp l "sum-deviation-boltz" number ratio = Ok (Fin v) /\
       v == qsum (map (fun d => deviation d * weight d * share d) l)).
  Proof.
    intros l d0 number ratio HP HA H0 Hleast Hn share.
    assert (HF : filter available l = l).
    { clear - HA. induction HA as [|d l Hd _ IH]; [reflexivity|]. cbn. rewrite Hd, IH. reflexivity. }
    unfold run, obj_function_form. rewrite !map_length, Nat.eqb_refl. cbn [negb].
    rewrite Bool.andb_false_r. rewrite (rels l HP), (kept l HP), (kept_w l). cbn [rbind]. rewrite HF, !map_length, Nat.eqb_refl. cbn [negb].
    assert (Hk : Nat.eqb (length l) 0 = false) by (destruct l; [destruct H0|reflexivity]). rewrite Hk.
    destruct l as [|d1 l']; [destruct H0|]. set (l := d1 :: l') in *.
    assert (M : exists m, np_min (map (fun d => Fin (deviation d)) l) = Ok (Fin m) /\ m == deviation d0).
    { unfold l. cbn [map np_min]. rewrite <- (map_map deviation Fin l').
      destruct (min_fin (map deviation l') (deviation d1)) as (m & -> & Hi & Hm & HFm). exists m. split; [reflexivity|].
      apply Qle_antisym.
      - destruct H0 as [<-|H0]; [exact Hm|]. rewrite Forall_forall in HFm. apply HFm. apply in_map, H0.
      - destruct Hi as [<-|Hi]; [apply Hleast; left; reflexivity|]. apply in_map_iff in Hi. destruct Hi as (d & <- & Hd).
        apply Hleast. right. exact Hd. }
    destruct M as (m & EM & HM). rewrite EM. cbn [String.eqb Ascii.eqb Bool.eqb rbind].
    assert (Hz : Qeq_bool (Qabs m) 0 = false).
    { destruct (Qeq_bool (Qabs m) 0) eqn:X; [|reflexivity]. apply Qeq_bool_iff in X. exfalso. apply Hn. rewrite <- HM.
      revert X. apply Qabs_case; intros; lra. }
    assert (HB : forall d, exists q, nexp (ndiv (nsub (Fin m) (Fin (deviation d))) (nabs (Fin m))) = Fin q /\ q == share d).
    { intros d. cbn [nsub nneg nadd nabs ndiv]. rewrite Hz, exp_e. eexists. split; [reflexivity|]. unfold share. apply e_proper.
      rewrite HM. assert (~ Qabs (deviation d0) == 0). { intros X. apply Hn. revert X. apply Qabs_case; intros; lra. } field. assumption. }
    unfold boltz. rewrite !map_map. split.
    - rewrite !times_map.
      destruct (sum_terms (fun d => nmul (nmul (nmul (Fin (deviation d)) (Fin (deviation d))) (Fin (weight d))) (nexp (ndiv (nsub (Fin m) (Fin (deviation d))) (nabs (Fin m)))))
                 (fun d => deviation d * deviation d * weight d * share d) l) as (v & E & Hv).
      { intros d _. destruct (HB d) as (q & -> & Hq). eexists. split; [reflexivity|]. rewrite Hq. reflexivity. }
      exists v. split; [|exact Hv]. f_equal. exact E.
    - rewrite !times_map.
      destruct (sum_terms (fun d => nmul (nmul (Fin (deviation d)) (Fin (weight d))) (nexp (ndiv (nsub (Fin m) (Fin (deviation d))) (nabs (Fin m)))))
                 (fun d => deviation d * weight d * share d) l) as (v & E & Hv).
      { intros d _. destruct (HB d) as (q & -> & Hq). eexists. split; [reflexivity|]. rewrite Hq. reflexivity. }
      exists v. split; [|exact Hv]. f_equal. exact E.
  Qed.

  (** C53: with an exponential that is positive, 1 at 0 and at most 1 below, the Boltzmann-weighted squared objective is
      at most the plain one, and at least the contribution of the point with the least deviation. *)
Theorem C53_boltz_bounds_partial : (forall q, 0 < e q) -> (forall q, q <= 0 -> e q <= 1) -> e 0 == 1 ->
    forall l d0 number ratio, Forall proper l -> Forall (fun d => available d = true) l ->
    In d0 l -> (forall d, In d l -> deviation d0 <= deviation d) -> ~ deviation d0 == 0 ->
    exists v, run nexp l "sum-squared-deviation-boltz" number ratio = Ok (Fin v) /\
      deviation d0 * deviation d0 * weight d0 <= v /\
      v <= qsum (map (fun d => deviation d * deviation d * weight d) l).
  Proof.
    intros Ep E1 E0 l d0 number ratio HP HA H0 Hleast Hn.
    destruct (C53_boltz_value_partial l d0 number ratio HP HA H0 Hleast Hn) as [(v & E & Hv) _].
    exists v. split; [exact E|]. rewrite Hv. clear E Hv v.
    set (share := fun d => e (- (deviation d - deviation d0) / Qabs (deviation d0))).
    assert (Habs : 0 < Qabs (deviation d0)).
    { assert (H := Qabs_nonneg (deviation d0)). apply Qle_lt_or_eq in H. destruct H as [H|H]; [exact H|].
      exfalso. apply Hn. revert H. apply Qabs_case; intros; lra. }
    assert (Hsh : forall d, deviation d0 <= deviation d -> 0 < share d /\ share d <= 1).
    { intros d Hd. split; [apply Ep|]. apply E1. apply Qle_shift_div_r; [exact Habs|]. lra. }
    assert (Hs0 : share d0 == 1).
    { unfold share. rewrite <- E0. apply e_proper. field. lra. }
    assert (Hw : forall d, In d l -> 0 <= deviation d * deviation d * weight d).
    { intros d Hd. rewrite Forall_forall in HP. destruct (HP d Hd) as [_ Hw]. nra. }
    change (deviation d0 * deviation d0 * weight d0 <= qsum (map (fun d => deviation d * deviation d * weight d * share d) l) /\
            qsum (map (fun d => deviation d * deviation d * weight d * share d) l) <= qsum (map (fun d => deviation d * deviation d * weight d) l)).
    clearbody share. split.
    - clear - H0 Hsh Hs0 Hw Hleast. induction l as [|d l IH]; [destruct H0|]. cbn [map qsum fold_right].
      fold (qsum (map (fun d => deviation d * deviation d * weight d * share d) l)).
      assert (P : forall d', In d' (d :: l) -> 0 <= deviation d' * deviation d' * weight d' * share d').
      { intros d' Hd. destruct (Hsh d' (Hleast d' Hd)). specialize (Hw d' Hd). nra. }
      assert (N : 0 <= qsum (map (fun d => deviation d * deviation d * weight d * share d) l)).
      { apply qsum_nonneg. intros x Hx. apply in_map_iff in Hx. destruct Hx as (d' & <- & Hd). apply P. right. exact Hd. }
      destruct H0 as [->|H0].
      + rewrite Hs0. lra.
      + specialize (IH H0). assert (D := P d (or_introl eq_refl)).
        assert (deviation d0 * deviation d0 * weight d0 <= qsum (map (fun d => deviation d * deviation d * weight d * share d) l)).
        { apply IH; [intros; apply Hleast; right; assumption|intros; apply Hw; right; assumption]. }
        lra.
    - clear H0 HP HA. induction l as [|d l IH]; [cbn; lra|]. cbn [map qsum fold_right].
      fold (qsum (map (fun d => deviation d * deviation d * weight d * share d) l)). fold (qsum (map (fun d => deviation d * deviation d * weight d) l)).
      assert (D : deviation d * deviation d * weight d * share d <= deviation d * deviation d * weight d).
      { destruct (Hsh d (Hleast d (or_introl eq_refl))). specialize (Hw d (or_introl eq_refl)). nra. }
      assert (I := IH (fun d' Hd => Hleast d' (or_intror Hd)) (fun d' Hd => Hw d' (or_intror Hd))). lra.
  Qed.
End Boltzmann.

(** a rational function with the three features: 1 / (1 - q) below 0 and 1 above *)
Definition slow_decay (q : Q) : Q := if Qle_bool q 0 then 1 / (1 - q) else 1.
Definition slow_exp (x : num) : num := match x with Fin q => Fin (slow_decay q) | PInf => PInf | NInf => Fin 0 | NaN => NaN end.
Definition two_points : list datum := [{| calc := Some 11; ref := 10; weight := 1 |}; {| calc := Some 12; ref := 10; weight := 2 |}].
Example C53_boltz_case :
  (forall q, slow_exp (Fin q) = Fin (slow_decay q)) /\ (forall a b, a == b -> slow_decay a == slow_decay b) /\
  (forall q, 0 < slow_decay q) /\ (forall q, q <= 0 -> slow_decay q <= 1) /\ slow_decay 0 == 1 /\
  Forall proper two_points /\ Forall (fun d => available d = true) two_points /\
  (forall d, In d two_points -> deviation {| calc := Some 11; ref := 10; weight := 1 |} <= deviation d) /\
  exists v, run slow_exp two_points "sum-squared-deviation-boltz" 1000 (1#2) = Ok (Fin v) /\ v == 5 # 100.
Proof.
  split; [reflexivity|].
  assert (HL : forall q, q <= 0 -> slow_decay q == 1 / (1 - q)).
  { intros q H. unfold slow_decay. apply Qle_bool_iff in H. rewrite H. reflexivity. }
  assert (HG : forall q, ~ q <= 0 -> slow_decay q = 1).
  { intros q H. unfold slow_decay. destruct (Qle_bool q 0) eqn:E; [apply Qle_bool_iff in E; contradiction|reflexivity]. }
  split.
  { intros a b E. destruct (Qlt_le_dec 0 a).
    - rewrite !HG by lra. reflexivity.
    - rewrite !HL by lra. rewrite E. reflexivity. }
  split.
  { intros q. destruct (Qlt_le_dec 0 q); [rewrite HG by lra; reflexivity|]. rewrite HL by assumption. apply Qlt_shift_div_l; lra. }
  split. { intros q H. rewrite HL by exact H. apply Qle_shift_div_r; lra. }
  split; [reflexivity|]. split; [repeat constructor; cbn; intros H; discriminate|]. split; [repeat constructor|].
  split. { intros d [<-|[<-|[]]]; unfold Qle; vm_compute; discriminate. }
  eexists. split; [vm_compute; reflexivity|reflexivity].
Qed.

(** ** C53: a mixture data set is the sum of what its components give, if all of them give a number; the first
    exception is passed on. *)
Lemma fold_fin (l : list Q) a : exists v, fold_left nadd (map Fin l) (Fin a) = Fin v /\ v == a + qsum l.
Proof.
  revert a. induction l as [|b l IH]; intros a; cbn [map fold_left]; [exists a; split; [reflexivity|cbn; ring]|].
  cbn [nadd]. destruct (IH (a + b)) as (v & -> & Hv). exists v. split; [reflexivity|]. rewrite Hv. cbn [qsum fold_right]. fold (qsum l). ring.
Qed.
Theorem C53_components : forall l : list Q,
  (exists v, component_values (map (fun q => Ok (Fin q)) l) = Ok (Fin v) /\ v == qsum l) /\
  (forall e rest, component_values (map (fun q => Ok (Fin q)) l ++ Err e :: rest) = Err e).
Proof.
  intros l. split.
  - unfold component_values. destruct (fold_fin l 0) as (v & E & Hv). exists v. split; [|rewrite Hv; ring].
    assert (M : mapM (fun x : result num => x) (map (fun q => Ok (Fin q)) l) = Ok (map Fin l)).
    { clear. induction l as [|a l IH]; [reflexivity|]. cbn [map mapM rbind]. rewrite IH. reflexivity. }
    rewrite M. cbn [rbind]. f_equal. exact E.
  - intros e rest. unfold component_values.
    assert (M : mapM (fun x : result num => x) (map (fun q => Ok (Fin q)) l ++ Err e :: rest) = Err e).
    { clear. induction l as [|a l IH]; [reflexivity|]. cbn [map app mapM rbind]. rewrite IH. reflexivity. }
    rewrite M. reflexivity.
Qed.
Example C53_components_case : exists v, component_values [Ok (Fin 1); Ok (Fin 2)] = Ok (Fin v) /\ v == 3.
Proof. eexists. split; reflexivity. Qed.

(** ** C56: the constraints that are accepted in the form 'dict' reach the optimiser: one each, in order, with the
    type, function and arguments given. *)
Local Open Scope string_scope.
Theorem C56_kept_partial : forall functions l built, initialize_constraints functions "dict" l = Ok built ->
  Forall2 (fun c b => exists ty f args, c_type c = Some ty /\ c_function c = Some f /\ In f functions /\ c_args c = Some args /\
                                        b = BDict ty f args) l built.
Proof.
  intros functions. unfold initialize_constraints. generalize (@None FitSetupModel.built) as prev.
  intros prev l. revert prev. induction l as [|c l IH]; intros prev built H; cbn [initialize_constraints_from] in H.
  - injection H as <-. constructor.
  - destruct (build_constraint functions "dict" prev c) as [b|] eqn:Eb; [|discriminate]. cbn [rbind] in H.
    destruct (initialize_constraints_from functions "dict" (Some b) l) as [r|] eqn:Er; [|discriminate]. cbn [rbind] in H.
    injection H as <-. constructor; [|exact (IH _ _ Er)].
    unfold build_constraint in Eb. destruct (c_function c) as [f|]; [|discriminate]. destruct (smem f functions) eqn:Es; [|discriminate].
    cbn [negb] in Eb. destruct (c_args c) as [args|]; [|discriminate]. cbn [String.eqb Ascii.eqb Bool.eqb] in Eb.
    destruct (c_type c) as [ty|]; [|discriminate]. destruct (smem ty ["eq"; "ineq"]); [discriminate|]. injection Eb as <-.
    exists ty, f, args. repeat split. apply smem_In. exact Es.
Qed.
Example C56_kept_case : let c ty := {| c_function := Some "conserve"; c_args := Some [Fin 1; Fin 2]; c_type := Some ty; c_kwargs := false |} in
  initialize_constraints ["conserve"] "dict" [c "a"; c "b"] = Ok [BDict "a" "conserve" [Fin 1; Fin 2]; BDict "b" "conserve" [Fin 1; Fin 2]].
Proof. reflexivity. Qed.

(** ** C81: the data class is the one named in the dictionary of the data set *)
(** the names under which the data classes are known *)
Definition class_names : list (string * data_class) :=
  [("liquid_density", LiquidDensity); ("flash", Flash); ("saturation_properties", Saturation); ("TLVE", TLVE); ("solubility_parameter", Solubility)].
Theorem C81_classes : forall finish todo exp exp' l, build_all finish todo exp = (exp', Ok l) ->
  Forall2 (fun kd i => exists s, dget (snd kd) "data_class_type" = Some (VStr s) /\ In (s, i_class i) class_names) todo l.
Proof.
  intros finish. induction todo as [|[key dd] todo IH]; intros exp exp' l H; cbn [build_all] in H.
  - injection H as <- <-. constructor.
  - destruct (dget dd "data_class_type") as [ty|] eqn:Et; [|discriminate].
    destruct (match ty with VStr s => class_of s | _ => None end) as [c|] eqn:Ec; [|discriminate].
    destruct (construct finish c dd) as [w r] eqn:Er. destruct r as [i|]; [|discriminate].
    destruct (build_all finish todo _) as [exp2 [l2|]] eqn:E2; [|discriminate]. injection H as <- <-.
    constructor; [|exact (IH _ _ _ E2)]. destruct ty as [s| | |]; try discriminate. exists s. split; [exact Et|].
    assert (Hi : i_class i = c).
    { unfold construct in Er. repeat match type of Er with context [match ?x with _ => _ end] => destruct x; try discriminate end;
        injection Er as <- <-; reflexivity. }
    rewrite Hi. unfold class_of in Ec. unfold class_names.
    destruct (String.eqb_spec s "liquid_density") as [->|]; [injection Ec as <-; left; reflexivity|].
    destruct (String.eqb_spec s "flash") as [->|]; [injection Ec as <-; right; left; reflexivity|].
    destruct (String.eqb_spec s "saturation_properties") as [->|]; [injection Ec as <-; do 2 right; left; reflexivity|].
    destruct (String.eqb_spec s "TLVE") as [->|]; [injection Ec as <-; do 3 right; left; reflexivity|].
    destruct (String.eqb_spec s "solubility_parameter") as [->|]; [injection Ec as <-; do 4 right; left; reflexivity|]. discriminate.
Qed.

Print Assumptions C53_boltz_value_partial.
Print Assumptions C53_boltz_bounds_partial.
Print Assumptions C53_components.
Print Assumptions C56_kept_partial.
Print Assumptions C81_classes.
