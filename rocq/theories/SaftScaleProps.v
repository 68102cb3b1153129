(** Property theorem C91: corresponding states.  Only the ratios epsilon/T and
    rho sigma^3 matter to the SAFT energies. *)
From Coq Require Import Reals Lra Lia.
From Verif Require Import Base BaseFacts RSum CombiningModel EosToolboxModel EosToolboxSpec EosToolboxProps SaftToolboxModel SaftToolboxProps
  SwModel SwProofs SwProofs2 SwProofs2 SwAbsent SwProps CombiningProps MieExtModel MieExtProps MieModel MieProofs MieProps.
Open Scope R_scope.

(** ** Specification: all energies multiplied by [a], all lengths by [b] *)
Definition scale_param (a b : R) (p : string) (v : R) : R :=
  if String.eqb p "epsilon" then a * v else if String.eqb p "sigma" then b * v else v.
Definition scale_bead (a b : R) (d : dict R) : dict R := map (fun pv => (fst pv, scale_param a b (fst pv) (snd pv))) d.
Definition scale_library (a b : R) (lib : dict (dict R)) : dict (dict R) := map (fun bd => (fst bd, scale_bead a b (snd bd))) lib.
Definition scale_cross (a b : R) (cl : dict (dict (dict R))) : dict (dict (dict R)) := map (fun ad => (fst ad, scale_library a b (snd ad))) cl.

Section Scale.
  Variables a b : R.
  Hypothesis Ha : 0 < a.
  Hypothesis Hb : 0 < b.
  Notation sp := (scale_param a b).
  Notation sbead := (scale_bead a b).
  Notation slibr := (scale_library a b).

  (** *** libraries *)
  Lemma dget_map {A} (f : string -> A -> A) (d : dict A) p :
    dget (map (fun pv => (fst pv, f (fst pv) (snd pv))) d) p = option_map (f p) (dget d p).
  Proof.
    induction d as [|[q v] d IH]; [reflexivity|]. cbn. destruct (String.eqb p q) eqn:E; [|exact IH].
    apply String.eqb_eq in E. subst. reflexivity.
  Qed.
  Lemma fetch_bead d p v : dfetch d p = Ok v -> dfetch (sbead d) p = Ok (sp p v).
  Proof. unfold dfetch, scale_bead. rewrite dget_map. destruct (dget d p); [|discriminate]. intros H. injection H as ->. reflexivity. Qed.
  Lemma get_lib lib x : dget (slibr lib) x = option_map sbead (dget lib x).
  Proof. unfold scale_library. exact (dget_map (fun _ => sbead) lib x). Qed.
  Lemma fetch_lib lib x d : dfetch lib x = Ok d -> dfetch (slibr lib) x = Ok (sbead d).
  Proof. unfold dfetch. rewrite get_lib. destruct (dget lib x); [|discriminate]. intros H. injection H as ->. reflexivity. Qed.
  Lemma dget_some {A} (d : dict A) p : dget (map (fun pv => (fst pv, Some (snd pv))) d) p = option_map Some (dget d p).
  Proof. induction d as [|[q v] d IH]; [reflexivity|]. cbn. destruct (String.eqb p q); [reflexivity|exact IH]. Qed.
  Lemma dget_mapv {A B} (f : A -> B) (d : dict A) p : dget (map (fun pv => (fst pv, f (snd pv))) d) p = option_map f (dget d p).
  Proof. induction d as [|[q v] d IH]; [reflexivity|]. cbn. destruct (String.eqb p q); [reflexivity|exact IH]. Qed.
  Lemma cross_get_opt cl x y key : cross_get (opt_cross cl) x y key =
    match dget cl x with Some d => match dget d y with Some e => dget e key | None => None end | None => None end.
  Proof.
    unfold cross_get, opt_cross. induction cl as [|[q d] cl IH]; [reflexivity|]. cbn. destruct (String.eqb x q); [|exact IH]. clear IH.
    induction d as [|[q' e] d IH]; [reflexivity|]. cbn. destruct (String.eqb y q'); [|exact IH]. clear IH.
    rewrite dget_some. destruct (dget e key); reflexivity.
  Qed.
  Lemma cross_scaled cl x y key : cross_get (opt_cross (scale_cross a b cl)) x y key = option_map (sp key) (cross_get (opt_cross cl) x y key).
  Proof.
    rewrite !cross_get_opt. unfold scale_cross. rewrite (dget_map (fun _ => slibr) cl x).
    destruct (dget cl x) as [d|]; cbn [option_map]; [|reflexivity]. rewrite get_lib. destruct (dget d y) as [e|]; cbn [option_map]; [|reflexivity].
    unfold scale_bead. apply dget_map.
  Qed.
  Lemma bead_set d p v : sbead (dset d p v) = dset (sbead d) p (sp p v).
  Proof.
    induction d as [|[q w] d IH]; [reflexivity|]. cbn. destruct (String.eqb p q) eqn:E; cbn; [|f_equal; exact IH].
    apply String.eqb_eq in E. subst. reflexivity.
  Qed.
  Lemma fill_scaled ds : (forall p v, In (p, Some v) ds -> sp p v = v) -> forall d,
    fill_defaults R ds (sbead d) = (sbead (fst (fill_defaults R ds d)), snd (fill_defaults R ds d)).
  Proof.
    induction ds as [|[p o] ds IH]; intros H d; [reflexivity|]. cbn.
    assert (M : dmem (sbead d) p = dmem d p) by (unfold dmem, scale_bead; rewrite dget_map; destruct (dget d p); reflexivity).
    rewrite M. destruct (dmem d p); [apply IH; intros; apply H; right; assumption|].
    destruct o as [v|]; [|reflexivity].
    rewrite <- (H p v (or_introl eq_refl)) at 1. rewrite <- bead_set. apply IH. intros; apply H; right; assumption.
  Qed.
  Lemma check_scaled ds lib : (forall p v, In (p, Some v) ds -> sp p v = v) ->
    snd (check_bead_parameters R (slibr lib) ds) = rbind (snd (check_bead_parameters R lib ds)) (fun l => Ok (slibr l)).
  Proof.
    intros H. unfold check_bead_parameters.
    assert (E : check_beads R (slibr lib) ds = (slibr (fst (check_beads R lib ds)), snd (check_beads R lib ds))).
    { induction lib as [|[x d] lib IH]; [reflexivity|]. change (slibr ((x, d) :: lib)) with ((x, sbead d) :: slibr lib). cbn [check_beads].
      rewrite (fill_scaled ds H). destruct (fill_defaults R ds d) as [d' ok]. cbn [fst snd].
      destruct ok; [|reflexivity]. rewrite IH. destruct (check_beads R lib ds). reflexivity. }
    rewrite E. destruct (check_beads R lib ds) as [lib' [|]]; reflexivity.
  Qed.
  Lemma extract_scaled p lib beads d l : (forall v, sp p v = v) -> extract_property R p lib beads d = Ok l -> extract_property R p (slibr lib) beads d = Ok l.
  Proof.
    intros H. unfold extract_property. revert l. induction beads as [|x beads IH]; intros l E; [exact E|]. cbn in *.
    destruct (dfetch lib x) as [bd|] eqn:Ex; [|discriminate]. rewrite (fetch_lib _ _ _ Ex). cbn [rbind] in *.
    unfold scale_bead at 1. rewrite dget_map.
    match type of E with rbind ?Y _ = _ => destruct Y as [v|] eqn:Ev; [|discriminate] end. cbn [rbind] in E.
    match type of E with rbind ?Y _ = _ => destruct Y as [l'|] eqn:El; [|discriminate] end. cbn [rbind] in E.
    rewrite (IH l' eq_refl).
    destruct (dget bd p) as [w|]; cbn [option_map]; [rewrite H|]; rewrite Ev; exact E.
  Qed.

  (** *** combining rules and matrices *)
  Definition related (m m' : matrices R) : Prop := forall k i j, m' k i j = sp k (m k i j).
  Lemma related_set m m' k i j v : related m m' -> related (mset R m k i j v) (mset R m' k i j (sp k v)).
  Proof.
    intros H k' i' j'. unfold mset. destruct (String.eqb k k') eqn:E; cbn [andb]; [|apply H].
    apply String.eqb_eq in E. subst. destruct (Nat.eqb i i' && Nat.eqb j j'); [reflexivity|apply H].
  Qed.
  Lemma foldM_sim {A S} (R : S -> S -> Prop) (f f' : S -> A -> result S) l :
    (forall x s s1 s', In x l -> R s s' -> f s x = Ok s1 -> exists s1', f' s' x = Ok s1' /\ R s1 s1') ->
    forall s s1 s', R s s' -> foldM f s l = Ok s1 -> exists s1', foldM f' s' l = Ok s1' /\ R s1 s1'.
  Proof.
    induction l as [|x l IH]; intros H s s1 s' Rs E; cbn in *; [injection E as <-; eauto|].
    destruct (f s x) as [s2|] eqn:E2; [|discriminate]. cbn [rbind] in E.
    destruct (H x s s2 s' (or_introl eq_refl) Rs E2) as [s2' [-> R2]]. cbn [rbind].
    apply (IH (fun y t t1 t' Hy => H y t t1 t' (or_intror Hy)) s2 s1 s2' R2 E).
  Qed.
  Lemma scale_zero k : sp k 0 = 0.
  Proof. unfold scale_param. destruct (String.eqb k "epsilon"), (String.eqb k "sigma"); ring. Qed.

  Lemma write_sim keys i j out : forall t t' u, related t t' -> foldM (write_rule R keys i j) t out = Ok u ->
    exists u', foldM (write_rule R keys i j) t' (sbead out) = Ok u' /\ related u u'.
  Proof.
    induction out as [|[p v] out IH]; intros t t' u Rt Eu; [injection Eu as <-; exists t'; split; [reflexivity|exact Rt]|].
    cbn [foldM scale_bead map] in *. unfold write_rule at 1 in Eu. unfold write_rule at 1. cbn [fst snd] in *.
    destruct (smem p keys); [|discriminate]. cbn [rbind] in *.
    apply (IH (mset R (mset R t p i j v) p j i v) _ u); [|exact Eu].
    apply related_set. apply related_set. exact Rt.
  Qed.

  Lemma cross_sim (rule : string -> dict R -> dict R -> result (dict R)) beads lib lib' keys cl cl' m :
    (forall key A B out, In key keys -> rule key A B = Ok out -> rule key (sbead A) (sbead B) = Ok (sbead out)) ->
    (forall x d, In x beads -> dfetch lib x = Ok d -> dfetch lib' x = Ok (sbead d)) ->
    (forall x y key, cross_get cl' x y key = option_map (sp key) (cross_get cl x y key)) ->
    cross_interaction_from_dict R 0 rule beads lib keys cl = Ok m ->
    exists m', cross_interaction_from_dict R 0 rule beads lib' keys cl' = Ok m' /\ related m m'.
  Proof.
    intros HR HL HC E. unfold cross_interaction_from_dict in *.
    destruct (set_diagonals R 0 beads lib keys) as [m0|] eqn:E0; [|discriminate]. cbn [rbind] in E.
    assert (D : exists m0', set_diagonals R 0 beads lib' keys = Ok m0' /\ related m0 m0').
    { unfold set_diagonals in *. revert E0. apply (foldM_sim related).
      - intros key s s1 s' Hk Rs. apply (foldM_sim related); [|exact Rs].
        intros k t t1 t' _ Rt Et. unfold diag_entry in *. destruct (nth_error beads k) as [x|] eqn:Ex; [|discriminate].
        destruct (dfetch lib x) as [d|] eqn:Ed; [|discriminate]. cbn [rbind] in Et.
        rewrite (HL x d (nth_error_In _ _ Ex) Ed). cbn [rbind].
        destruct (dfetch d key) as [v|] eqn:Ev; [|discriminate]. rewrite (fetch_bead _ _ _ Ev). cbn [rbind] in *. injection Et as <-.
        eexists. split; [reflexivity|]. apply related_set. exact Rt.
      - intros k i j. symmetry. apply scale_zero. }
    destruct D as [m0' [-> R0]]. cbn [rbind]. revert E. apply (foldM_sim related); [|exact R0].
    intros [i j] s s1 s' _ Rs. apply (foldM_sim related); [|exact Rs]. cbn [fst snd].
    intros key t t1 t' Hk Rt Et. unfold pair_entry in *.
    destruct (nth_error beads i) as [x|] eqn:Ex; [|discriminate]. destruct (nth_error beads j) as [y|] eqn:Ey; [|discriminate].
    rewrite !HC.
    assert (K : forall u u', related u u' -> related (mset R u key j i (u key i j)) (mset R u' key j i (u' key i j))).
    { intros u u' Ru. rewrite (Ru key i j). apply related_set. exact Ru. }
    destruct (cross_get cl x y key) as [v|]; cbn [option_map].
    { cbn [rbind] in *. injection Et as <-. eexists. split; [reflexivity|]. apply K. apply related_set. exact Rt. }
    destruct (cross_get cl y x key) as [v|]; cbn [option_map].
    { cbn [rbind] in *. injection Et as <-. eexists. split; [reflexivity|]. apply K. apply related_set. exact Rt. }
    destruct (dfetch lib x) as [d1|] eqn:E1; [|discriminate]. destruct (dfetch lib y) as [d2|] eqn:E2; [|discriminate].
    rewrite (HL x d1 (nth_error_In _ _ Ex) E1), (HL y d2 (nth_error_In _ _ Ey) E2). cbn [rbind] in *.
    destruct (rule key d1 d2) as [out|] eqn:Er; [|discriminate]. rewrite (HR key d1 d2 out Hk Er). cbn [rbind] in *.
    destruct (foldM (write_rule R keys i j) t out) as [u|] eqn:Eu; [|discriminate]. cbn [rbind] in Et. injection Et as <-.
    destruct (write_sim keys i j out t t' u Rt Eu) as [u' [-> Ru]]. cbn [rbind]. eexists. split; [reflexivity|]. apply K. exact Ru.
  Qed.

  (** the built-in rules of both variants commute with the scaling *)
  Lemma sqrt_scale x y : sqrt (a * x * (a * y)) = a * sqrt (x * y).
  Proof. replace (a * x * (a * y)) with ((a * a) * (x * y)) by ring. rewrite sqrt_mult_alt by nra. rewrite sqrt_square by lra. reflexivity. Qed.
  Lemma sqrt_cubes x y : sqrt ((b * x) ^ 3 * (b * y) ^ 3) = b ^ 3 * sqrt (x ^ 3 * y ^ 3).
  Proof.
    assert (P := pow_lt b 3 Hb).
    replace ((b * x) ^ 3 * (b * y) ^ 3) with ((b ^ 3 * b ^ 3) * (x ^ 3 * y ^ 3)) by ring. rewrite sqrt_mult_alt by nra. rewrite sqrt_square by lra. reflexivity.
  Qed.
  Lemma volume_scale x y : sqrt ((b * x) ^ 3 * (b * y) ^ 3) * 8 / (b * x + b * y) ^ 3 = sqrt (x ^ 3 * y ^ 3) * 8 / (x + y) ^ 3.
  Proof.
    rewrite sqrt_cubes. replace ((b * x + b * y) ^ 3) with (b ^ 3 * (x + y) ^ 3) by ring. unfold Rdiv. rewrite Rinv_mult.
    assert (P := pow_lt b 3 Hb). replace (b ^ 3 * sqrt (x ^ 3 * y ^ 3) * 8 * (/ b ^ 3 * / (x + y) ^ 3)) with ((b ^ 3 * / b ^ 3) * (sqrt (x ^ 3 * y ^ 3) * 8 * / (x + y) ^ 3)) by ring.
    rewrite Rinv_r by lra. ring.
  Qed.
  Lemma weight_scale x y u v : (x * (b * u) + y * (b * v)) / (b * u + b * v) = (x * u + y * v) / (u + v).
  Proof.
    replace (x * (b * u) + y * (b * v)) with (b * (x * u + y * v)) by ring. replace (b * u + b * v) with (b * (u + v)) by ring.
    unfold Rdiv. rewrite Rinv_mult. replace (b * (x * u + y * v) * (/ b * / (u + v))) with ((b * / b) * ((x * u + y * v) * / (u + v))) by ring.
    rewrite Rinv_r by lra. ring.
  Qed.

  Variable mapsci : option (bead -> bead -> option R -> result (dict R)).
  Ltac fetches := repeat match goal with
    | H : rbind ?Y _ = Ok _ |- _ => match Y with context [dfetch ?A ?p] => let v := fresh "v" in let E := fresh "E" in destruct (dfetch A p) as [v|] eqn:E; [|discriminate H]; cbn [rbind] in H;
        rewrite ?(fetch_bead _ _ _ E) end end; cbn [rbind].
  Lemma ok_inj {A} (x y : A) : Ok x = Ok y -> x = y.
  Proof. congruence. Qed.
  Lemma one_eq (p : string) (x y : R) : x = y -> Ok [(p, x)] = Ok [(p, y)].
  Proof. intros ->. reflexivity. Qed.
  Lemma mie_rules_scale key A B out : In key mie_keys -> rule_of mapsci mie_default_rules key A B = Ok out ->
    rule_of mapsci mie_default_rules key (sbead A) (sbead B) = Ok (sbead out).
  Proof.
    intros K. unfold mie_keys in K. cbn [In] in K. destruct K as [<-|[<-|[<-|[<-|[]]]]]; unfold rule_of, combining_rules; cbn [mie_default_rules ro_function ro_weights String.eqb Ascii.eqb Bool.eqb];
    unfold mean, mie_exponent, volumetric_geometric_mean, weight_name; cbn [nth_error rbind]; intros H; fetches; apply ok_inj in H; subst out;
    unfold scale_bead, scale_param; cbn [map fst snd String.eqb Ascii.eqb Bool.eqb]; (reflexivity || apply one_eq).
    - field.
    - rewrite sqrt_scale, volume_scale. ring.
  Qed.
  Lemma sw_rules_scale key A B out : In key sw_keys -> rule_of mapsci sw_default_rules key A B = Ok out ->
    rule_of mapsci sw_default_rules key (sbead A) (sbead B) = Ok (sbead out).
  Proof.
    intros K. unfold sw_keys in K. cbn [In] in K. destruct K as [<-|[<-|[<-|[]]]]; unfold rule_of, combining_rules; cbn [sw_default_rules ro_function ro_weights String.eqb Ascii.eqb Bool.eqb];
    unfold mean, weighted_mean, square_well_berthelot, weight_name; cbn [nth_error rbind]; unfold weighted_mean, weight_name; cbn [nth_error rbind]; intros H; fetches; apply ok_inj in H; subst out;
    unfold scale_bead, scale_param; cbn [map fst snd String.eqb Ascii.eqb Bool.eqb]; (reflexivity || apply one_eq).
    - field.
    - apply weight_scale.
    - rewrite sqrt_scale, volume_scale, weight_scale. ring.
  Qed.

  Lemma rel_sigma m m' : related m m' -> forall k l, m' "sigma"%string k l = b * m "sigma"%string k l.
  Proof. intros H k l. apply (H "sigma"%string). Qed.
  Lemma rel_eps m m' : related m m' -> forall k l, m' "epsilon"%string k l = a * m "epsilon"%string k l.
  Proof. intros H k l. apply (H "epsilon"%string). Qed.
  Lemma rel_same m m' p : related m m' -> (forall v, sp p v = v) -> forall k l, m' p k l = m p k l.
  Proof. intros H S k l. rewrite (H p k l). apply S. Qed.

  Lemma existsb_same {A} (f g : A -> bool) l : (forall x, f x = g x) -> existsb f l = existsb g l.
  Proof. intros H. induction l as [|x l IH]; [reflexivity|]. cbn. rewrite H, IH. reflexivity. Qed.

  (** *** the Mie object *)
  Lemma mie_init_scaled beads lib cl n nu rings s : mie_init mapsci mie_default_rules beads lib cl n nu rings = Ok s ->
    exists s', mie_init mapsci mie_default_rules beads (slibr lib) (scale_cross a b cl) n nu rings = Ok s' /\
      mi_n s = n /\ mi_n s' = n /\ mi_nu s = nu /\ mi_nu s' = nu /\ mi_rings s = rings /\ mi_rings s' = rings /\
      mi_Vks s' = mi_Vks s /\ mi_Sk s' = mi_Sk s /\ mbeads s = beads /\ mbeads s' = beads /\
      mlib s' = slibr (mlib s) /\ related (mi_mats s) (mi_mats s') /\
      (forall k l, mi_Ckl s' k l = mi_Ckl s k l) /\ (forall k l, mi_alpha s' k l = mi_alpha s k l).
  Proof.
    unfold mie_init. intros H.
    destruct (snd (check_bead_parameters R lib mie_defaults)) as [L|] eqn:E1; [|discriminate]. cbn [rbind] in H.
    destruct (extract_property R "Vks" L beads (Some 1)) as [V|] eqn:E2; [|discriminate]. cbn [rbind] in H.
    destruct (extract_property R "Sk" L beads (Some 1)) as [Sk|] eqn:E3; [|discriminate]. cbn [rbind] in H.
    destruct (mie_matrices mapsci mie_default_rules beads L cl) as [mats|] eqn:E4; [|discriminate]. cbn [rbind] in H.
    destruct (prefactor_matrix (length beads) mats) as [Ckl|] eqn:E5; [|discriminate]. cbn [rbind] in H. apply ok_inj in H. subst s.
    rewrite check_scaled.
    2:{ intros p v I. cbn in I. repeat (destruct I as [I|I]; [injection I as <- <- || discriminate I; try reflexivity|]). destruct I. }
    rewrite E1. cbn [rbind].
    rewrite (extract_scaled "Vks" L beads (Some 1) V) by (reflexivity || exact E2). cbn [rbind].
    rewrite (extract_scaled "Sk" L beads (Some 1) Sk) by (reflexivity || exact E3). cbn [rbind].
    destruct (cross_sim (rule_of mapsci mie_default_rules) beads L (slibr L) mie_keys (opt_cross cl) (opt_cross (scale_cross a b cl)) mats)
      as [mats' [E4' Rm]]; [intros; apply mie_rules_scale; assumption|intros; apply fetch_lib; assumption|intros; apply cross_scaled|exact E4|].
    unfold mie_matrices. rewrite E4'. cbn [rbind].
    assert (Lr : forall k l, mats' "lambdar"%string k l = mats "lambdar"%string k l) by (apply (rel_same _ _ _ Rm); reflexivity).
    assert (La : forall k l, mats' "lambdaa"%string k l = mats "lambdaa"%string k l) by (apply (rel_same _ _ _ Rm); reflexivity).
    unfold prefactor_matrix in *.
    rewrite (existsb_same _ (fun kl => if Req_EM_T (mats "lambdar"%string (fst kl) (snd kl)) 0 then true else false)) by (intros; rewrite Lr; reflexivity).
    destruct (existsb _ _); [discriminate|]. apply ok_inj in E5. subst Ckl. cbn [rbind].
    eexists. split; [reflexivity|]. repeat (split; [reflexivity|]). split; [exact Rm|]. cbn [mi_Ckl mi_alpha].
    unfold mie_alpha. split; intros; rewrite ?Lr, ?La; reflexivity.
  Qed.

  Lemma dkk_scale e sg T' C lr la : calc_dkk (a * e) (b * sg) T' C lr la = b * calc_dkk e sg (/ a * T') C lr la.
  Proof.
    assert (Ce : C * (a * e) / T' = C * e / (/ a * T')) by (unfold Rdiv; rewrite Rinv_mult, Rinv_inv; ring).
    destruct (Req_EM_T sg 0) as [->|N].
    - unfold calc_dkk. rewrite !Rmult_0_r, !Rmult_0_l. ring.
    - rewrite !calc_dkk_eq by (assumption || (apply Rmult_integral_contrapositive; split; lra)). rewrite Ce. ring.
  Qed.
  Lemma diameter_scale lib T' x d : bead_diameter lib (/ a * T') x = Ok d -> bead_diameter (slibr lib) T' x = Ok (b * d).
  Proof.
    unfold bead_diameter. intros H. destruct (dfetch lib x) as [bd|] eqn:Ex; [|discriminate]. rewrite (fetch_lib _ _ _ Ex). cbn [rbind] in *.
    destruct (dfetch bd "lambdar") as [lr|] eqn:E1; [|discriminate]. rewrite (fetch_bead _ _ _ E1). cbn [rbind] in *.
    destruct (dfetch bd "lambdaa") as [la|] eqn:E2; [|discriminate]. rewrite (fetch_bead _ _ _ E2). cbn [rbind] in *.
    change (sp "lambdar" lr) with lr. change (sp "lambdaa" la) with la.
    destruct (prefactor lr la) as [c|]; [|discriminate]. cbn [rbind] in *.
    destruct (dfetch bd "epsilon") as [e|] eqn:E3; [|discriminate]. rewrite (fetch_bead _ _ _ E3). cbn [rbind] in *.
    destruct (dfetch bd "sigma") as [sg|] eqn:E4; [|discriminate]. rewrite (fetch_bead _ _ _ E4). cbn [rbind] in *.
    apply ok_inj in H. subst d. change (sp "epsilon" e) with (a * e). change (sp "sigma" sg) with (b * sg). rewrite dkk_scale. reflexivity.
  Qed.
  Lemma diameters_scale lib T' l ds : mapM (bead_diameter lib (/ a * T')) l = Ok ds -> mapM (bead_diameter (slibr lib) T') l = Ok (map (Rmult b) ds).
  Proof.
    revert ds. induction l as [|x l IH]; intros ds H; cbn in *; [injection H as <-; reflexivity|].
    destruct (bead_diameter lib (/ a * T') x) as [d|] eqn:E; [|discriminate]. cbn [rbind] in H.
    destruct (mapM (bead_diameter lib (/ a * T')) l) as [ds'|]; [|discriminate]. cbn [rbind] in H. injection H as <-.
    rewrite (diameter_scale _ _ _ _ E). cbn [rbind]. rewrite (IH ds' eq_refl). reflexivity.
  Qed.
  Lemma arr_scale ds k : arr (map (Rmult b) ds) k = b * arr ds k.
  Proof. unfold arr. rewrite <- (Rmult_0_r b) at 1. apply map_nth. Qed.

  Lemma cube_root x : 0 < x -> Rpower (b ^ 3 * x) (1 / 3) = b * Rpower x (1 / 3).
  Proof.
    intros Hx. assert (P := pow_lt b 3 Hb). rewrite <- Rpower_mult_distr by assumption. f_equal.
    rewrite <- Rpower_pow by exact Hb. rewrite Rpower_mult. replace (INR 3 * (1 / 3)) with 1 by (cbn; field). apply Rpower_1. exact Hb.
  Qed.
  Lemma weight_nonneg m nu V Sk i : (forall k, (k < m)%nat -> 0 <= nu i k) -> (forall k, (k < m)%nat -> 0 < V k) -> (forall k, (k < m)%nat -> 0 < Sk k) ->
    (exists k, (k < m)%nat /\ 0 < nu i k) ->
    (forall k, (k < m)%nat -> 0 <= zki m nu V Sk i k) /\ exists k, (k < m)%nat /\ 0 < zki m nu V Sk i k.
  Proof.
    intros Hn HV HS [k0 [Hk Hp]]. unfold zki.
    assert (W : forall k, (k < m)%nat -> 0 <= nu i k * V k * Sk k).
    { intros k K. specialize (Hn k K). specialize (HV k K). specialize (HS k K). apply Rmult_le_pos; [apply Rmult_le_pos|]; lra. }
    assert (W0 : 0 < nu i k0 * V k0 * Sk k0) by (repeat apply Rmult_lt_0_compat; auto).
    assert (S : 0 < sumn m (fun l => nu i l * V l * Sk l)) by (apply (sumn_pos m _ k0); assumption).
    split.
    - intros k K. apply Rmult_le_pos; [auto|]. left. apply Rinv_0_lt_compat. exact S.
    - exists k0. split; [exact Hk|]. apply Rdiv_lt_0_compat; assumption.
  Qed.
  Lemma cube_sum_pos m nu V Sk d i : (forall k, (k < m)%nat -> 0 <= nu i k) -> (forall k, (k < m)%nat -> 0 < V k) -> (forall k, (k < m)%nat -> 0 < Sk k) ->
    (exists k, (k < m)%nat /\ 0 < nu i k) -> (forall k l, (k < m)%nat -> (l < m)%nat -> 0 < d k l) ->
    0 < sumn m (fun k => sumn m (fun l => zki m nu V Sk i k * zki m nu V Sk i l * d k l ^ 3)).
  Proof.
    intros Hn HV HS He Hd. destruct (weight_nonneg m nu V Sk i Hn HV HS He) as [W [k0 [K0 W0]]].
    assert (N : forall k l, (k < m)%nat -> (l < m)%nat -> 0 <= zki m nu V Sk i k * zki m nu V Sk i l * d k l ^ 3).
    { intros k l K L. apply Rmult_le_pos; [apply Rmult_le_pos; auto|]. left. apply pow_lt. auto. }
    apply (sumn_pos m _ k0); [|exact K0|].
    - intros k K. apply sumn_nonneg. intros l L. auto.
    - apply (sumn_pos m _ k0); [|exact K0|]; [intros; auto|]. apply Rmult_lt_0_compat; [apply Rmult_lt_0_compat; assumption|apply pow_lt; auto].
  Qed.
  Lemma cube_mean_scale m nu V Sk d d' i : (forall k l, (k < m)%nat -> (l < m)%nat -> d' k l = b * d k l) ->
    0 < sumn m (fun k => sumn m (fun l => zki m nu V Sk i k * zki m nu V Sk i l * d k l ^ 3)) ->
    cube_mean m nu V Sk d' i = b * cube_mean m nu V Sk d i.
  Proof.
    intros Hd P. unfold cube_mean. rewrite <- cube_root by exact P. f_equal.
    rewrite <- sumn_scal. apply sumn_ext. intros k K. rewrite <- sumn_scal. apply sumn_ext. intros l L. rewrite (Hd k l K L). ring.
  Qed.
  Lemma mean_scale c m nu V Sk e e' i : (forall k l, e' k l = c * e k l) -> mean_ii m nu V Sk e' i = c * mean_ii m nu V Sk e i.
  Proof.
    intros He. unfold mean_ii. rewrite <- sumn_scal. apply sumn_ext. intros k _. rewrite <- sumn_scal. apply sumn_ext. intros l _. rewrite He. ring.
  Qed.

  (** *** kernels: density [r] and [b^3 r], temperature [T] and [T / a] *)
  Notation v3 r := (b ^ 3 * r).
  Lemma a1s_scale r C l z e d : a1s r C l z (a * e) (b * d) = a * a1s (v3 r) C l z e d.
  Proof. unfold a1s, Rdiv. ring. Qed.
  Lemma Bkl_scale r l C d e x0 z : Bkl r l C (b * d) (a * e) x0 z = a * Bkl (v3 r) l C d e x0 z.
  Proof. unfold Bkl. ring. Qed.
  Lemma a1ii_scale r C d la lr x0 e z : a1ii r C (b * d) la lr x0 (a * e) z = a * a1ii (v3 r) C d la lr x0 e z.
  Proof. unfold a1ii. rewrite !a1s_scale, !Bkl_scale. ring. Qed.
  Lemma da1s_scale l z e d : da1s_drhos l z (a * e) (b * d) = a * b ^ 3 * da1s_drhos l z e d.
  Proof. unfold da1s_drhos, Rdiv. ring. Qed.
  Lemma dBkl_scale l d e x0 z : dBkl_drhos l (b * d) (a * e) x0 z = a * b ^ 3 * dBkl_drhos l d e x0 z.
  Proof. unfold dBkl_drhos. ring. Qed.
  Lemma dKHS_scale r C z : dKHS_drhos r C z = b ^ 3 * dKHS_drhos (v3 r) C z.
  Proof.
    assert (P := pow_lt b 3 Hb). unfold dKHS_drhos, Rdiv.
    replace (v3 r * C) with (b ^ 3 * (r * C)) by ring. rewrite (Rinv_mult (b ^ 3)).
    match goal with |- ?K * (z * ?i) = b ^ 3 * (?K * (z * (/ b ^ 3 * ?i))) => replace (b ^ 3 * (K * (z * (/ b ^ 3 * i)))) with ((b ^ 3 * / b ^ 3) * (K * (z * i))) by ring end.
    rewrite Rinv_r by lra. ring.
  Qed.
  Lemma packing_scale m r C X d d' : (forall k l, (k < m)%nat -> (l < m)%nat -> d' k l = b * d k l) -> packing m r C X d' = packing m (v3 r) C X d.
  Proof.
    intros H. unfold packing.
    replace (sumn m (fun k => sumn m (fun l => X k l * (d' k l ^ 3 * molecule_per_nm3)))) with
      (b ^ 3 * sumn m (fun k => sumn m (fun l => X k l * (d k l ^ 3 * molecule_per_nm3)))); [ring|].
    rewrite <- sumn_scal. apply sumn_ext. intros k K. rewrite <- sumn_scal. apply sumn_ext. intros l L. rewrite (H k l K L). ring.
  Qed.
  Lemma inv_T T : / T = / a * / (/ a * T).
  Proof. rewrite Rinv_mult, Rinv_inv. replace (/ a * (a * / T)) with ((/ a * a) * / T) by ring. rewrite Rinv_l by lra. ring. Qed.
  Lemma max_scale m C X d d' mp : (forall k l, (k < m)%nat -> (l < m)%nat -> d' k l = b * d k l) ->
    b ^ 3 * (mp * 6 / (C * PI * sumn m (fun k => sumn m (fun l => X k l * d' k l ^ 3))) / molecule_per_nm3) =
    mp * 6 / (C * PI * sumn m (fun k => sumn m (fun l => X k l * d k l ^ 3))) / molecule_per_nm3.
  Proof.
    intros H. assert (P := pow_lt b 3 Hb).
    replace (sumn m (fun k => sumn m (fun l => X k l * d' k l ^ 3))) with (b ^ 3 * sumn m (fun k => sumn m (fun l => X k l * d k l ^ 3))).
    2:{ rewrite <- sumn_scal. apply sumn_ext. intros k K. rewrite <- sumn_scal. apply sumn_ext. intros l L. rewrite (H k l K L). ring. }
    unfold Rdiv. set (S := sumn _ _). replace (C * PI * (b ^ 3 * S)) with (b ^ 3 * (C * PI * S)) by ring. rewrite (Rinv_mult (b ^ 3)).
    set (W := / (C * PI * S)). replace (b ^ 3 * (mp * 6 * (/ b ^ 3 * W) * / molecule_per_nm3)) with ((b ^ 3 * / b ^ 3) * (mp * 6 * W * / molecule_per_nm3)) by ring.
    rewrite Rinv_r by lra. ring.
  Qed.

  Section MieFormulas.
    Variables (n m : nat) (mats mats' : matrices R) (avg avg' : string -> nat -> R) (Ckl Ckl' alpha alpha' : nat -> nat -> R)
              (t t' : mie_tables) (C : R) (X : nat -> nat -> R).
    Hypothesis Hm : related mats mats'.
    Hypothesis Hc : forall k l, Ckl' k l = Ckl k l.
    Hypothesis Hal : forall k l, alpha' k l = alpha k l.
    Hypothesis Hd : forall k l, (k < m)%nat -> (l < m)%nat -> t_dkl t' k l = b * t_dkl t k l.
    Hypothesis Hx : forall k l, (k < m)%nat -> (l < m)%nat -> t_x0kl t' k l = t_x0kl t k l.
    Hypothesis Hdi : forall i, (i < n)%nat -> t_dii t' i = b * t_dii t i.
    Hypothesis Hxi : forall i, (i < n)%nat -> t_x0ii t' i = t_x0ii t i.
    Hypothesis Hae : forall i, (i < n)%nat -> avg' "epsilon"%string i = a * avg "epsilon"%string i.
    Hypothesis Har : forall i, (i < n)%nat -> avg' "lambdar"%string i = avg "lambdar"%string i.
    Hypothesis Haa : forall i, (i < n)%nat -> avg' "lambdaa"%string i = avg "lambdaa"%string i.

    Lemma s_lr k l : m_lr mats' k l = m_lr mats k l.
    Proof. apply (rel_same _ _ _ Hm). reflexivity. Qed.
    Lemma s_la k l : m_la mats' k l = m_la mats k l.
    Proof. apply (rel_same _ _ _ Hm). reflexivity. Qed.
    Lemma s_eps k l : m_eps mats' k l = a * m_eps mats k l.
    Proof. apply (rel_eps _ _ Hm). Qed.
    Lemma s_zetax r : zetax m t' C X r = zetax m t C X (v3 r).
    Proof. apply packing_scale. exact Hd. Qed.
    Lemma s_zetaxstar r : zetaxstar m mats' C X r = zetaxstar m mats C X (v3 r).
    Proof. apply packing_scale. intros. apply (rel_sigma _ _ Hm). Qed.
    Lemma s_eta r p : b ^ 3 * eta_m m t' C X r p = b ^ p * eta_m m t C X (v3 r) p.
    Proof.
      unfold eta_m.
      replace (sumn m (fun k => sqrt (X k k) * t_dkl t' k k ^ p)) with (b ^ p * sumn m (fun k => sqrt (X k k) * t_dkl t k k ^ p)); [ring|].
      rewrite <- sumn_scal. apply sumn_ext. intros k K. rewrite (Hd k k K K), Rpow_mult_distr. ring.
    Qed.
    Lemma s_hard_sphere r : mie_hard_sphere n m t' C X r = mie_hard_sphere n m t C X (v3 r).
    Proof.
      assert (P := pow_lt b 3 Hb). unfold mie_hard_sphere. cbv zeta.
      pose proof (s_eta r 3) as E3. pose proof (s_eta r 2) as E2. pose proof (s_eta r 1) as E1. pose proof (s_eta r 0) as E0.
      set (z3 := eta_m m t C X (v3 r) 3) in *. set (z2 := eta_m m t C X (v3 r) 2) in *. set (z1 := eta_m m t C X (v3 r) 1) in *. set (z0 := eta_m m t C X (v3 r) 0) in *.
      set (u := / b). assert (U : b * u = 1) by (unfold u; apply Rinv_r; lra).
      assert (B3 : eta_m m t' C X r 3 = z3) by (apply (Rmult_eq_reg_l (b ^ 3)); [exact E3|lra]).
      assert (B2 : eta_m m t' C X r 2 = u * z2).
      { apply (Rmult_eq_reg_l (b ^ 3)); [|lra]. rewrite E2. replace (b ^ 3 * (u * z2)) with (b ^ 2 * (b * u) * z2) by ring. rewrite U. ring. }
      assert (B1 : eta_m m t' C X r 1 = u ^ 2 * z1).
      { apply (Rmult_eq_reg_l (b ^ 3)); [|lra]. rewrite E1. replace (b ^ 3 * (u ^ 2 * z1)) with (b * (b * u) ^ 2 * z1) by ring. rewrite U. ring. }
      assert (B0 : eta_m m t' C X r 0 = u ^ 3 * z0).
      { apply (Rmult_eq_reg_l (b ^ 3)); [|lra]. rewrite E0. replace (b ^ 3 * (u ^ 3 * z0)) with ((b * u) ^ 3 * z0) by ring. rewrite U. ring. }
      rewrite B3, B2, B1, B0.
      assert (T6 : 6 / (PI * r * molecule_per_nm3) = b ^ 3 * (6 / (PI * (v3 r) * molecule_per_nm3))).
      { unfold Rdiv. replace (PI * (v3 r) * molecule_per_nm3) with (b ^ 3 * (PI * r * molecule_per_nm3)) by ring. rewrite (Rinv_mult (b ^ 3)).
        set (W := / (PI * r * molecule_per_nm3)). replace (b ^ 3 * (6 * (/ b ^ 3 * W))) with ((b ^ 3 * / b ^ 3) * (6 * W)) by ring. rewrite Rinv_r by lra. ring. }
      rewrite T6. set (Q := 6 / (PI * (v3 r) * molecule_per_nm3)).
      assert (R0 : ln (1 + - z3) * ((u * z2) ^ 3 / z3 ^ 2 - u ^ 3 * z0) = u ^ 3 * (ln (1 + - z3) * (z2 ^ 3 / z3 ^ 2 - z0))) by (unfold Rdiv; ring).
      assert (R1 : 3 * (u * z2) / (1 - z3) * (u ^ 2 * z1) = u ^ 3 * (3 * z2 / (1 - z3) * z1)) by (unfold Rdiv; ring).
      assert (R2 : (u * z2) ^ 3 / (z3 * (1 - z3) ^ 2) = u ^ 3 * (z2 ^ 3 / (z3 * (1 - z3) ^ 2))) by (unfold Rdiv; ring).
      rewrite R0, R1, R2.
      assert (K : forall W, b ^ 3 * Q * (u ^ 3 * W) = Q * W) by (intros W; replace (b ^ 3 * Q * (u ^ 3 * W)) with ((b * u) ^ 3 * (Q * W)) by ring; rewrite U; ring).
      destruct (Nat.eqb n 1).
      - rewrite <- K. f_equal. ring.
      - rewrite <- K. f_equal. ring.
    Qed.
    Lemma s_first r T : mie_first_order m mats' t' C X r T = mie_first_order m mats t C X (v3 r) (/ a * T).
    Proof.
      unfold mie_first_order. unfold Rdiv. rewrite (inv_T T).
      replace (sumn m (fun k => sumn m (fun l => a1ii r C (t_dkl t' k l) (m_la mats' k l) (m_lr mats' k l) (t_x0kl t' k l) (m_eps mats' k l) (zetax m t' C X r) * X k l)))
        with (a * sumn m (fun k => sumn m (fun l => a1ii (v3 r) C (t_dkl t k l) (m_la mats k l) (m_lr mats k l) (t_x0kl t k l) (m_eps mats k l) (zetax m t C X (v3 r)) * X k l))).
      - set (S := sumn _ _). set (W := / (/ a * T)). replace (C * (/ a * W) * (a * S)) with ((/ a * a) * (C * W * S)) by ring. rewrite Rinv_l by lra. unfold W. ring.
      - rewrite <- sumn_scal. apply sumn_ext. intros k K. rewrite <- sumn_scal. apply sumn_ext. intros l L.
        rewrite s_lr, s_la, s_eps, s_zetax, (Hd k l K L), (Hx k l K L), a1ii_scale. ring.
    Qed.
    Lemma s_chi r k l : chi m mats' alpha' C X r k l = chi m mats alpha C X (v3 r) k l.
    Proof. unfold chi. rewrite Hal, s_zetaxstar. reflexivity. Qed.
    Lemma s_a2kl r k l : (k < m)%nat -> (l < m)%nat -> a2kl m mats' Ckl' alpha' t' C X r k l = a ^ 2 * a2kl m mats Ckl alpha t C X (v3 r) k l.
    Proof.
      intros K L. unfold a2kl. cbv zeta. rewrite s_lr, s_la, s_eps, s_zetax, (Hd k l K L), (Hx k l K L), Hc, s_chi, !a1s_scale, !Bkl_scale. unfold Rdiv. ring.
    Qed.
    Lemma s_second r T : mie_second_order m mats' Ckl' alpha' t' C X r T = mie_second_order m mats Ckl alpha t C X (v3 r) (/ a * T).
    Proof.
      unfold mie_second_order. unfold Rdiv. rewrite <- !pow_inv, (inv_T T).
      replace (sumn m (fun k => sumn m (fun l => a2kl m mats' Ckl' alpha' t' C X r k l * X k l)))
        with (a ^ 2 * sumn m (fun k => sumn m (fun l => a2kl m mats Ckl alpha t C X (v3 r) k l * X k l))).
      - set (S := sumn _ _). set (W := / (/ a * T)). replace (C * (/ a * W) ^ 2 * (a ^ 2 * S)) with ((/ a * a) ^ 2 * (C * W ^ 2 * S)) by ring. rewrite Rinv_l by lra. unfold W. ring.
      - rewrite <- sumn_scal. apply sumn_ext. intros k K. rewrite <- sumn_scal. apply sumn_ext. intros l L. rewrite (s_a2kl r k l K L). ring.
    Qed.
    Lemma s_third r T : mie_third_order m mats' alpha' C X r T = mie_third_order m mats alpha C X (v3 r) (/ a * T).
    Proof.
      unfold mie_third_order. cbv zeta. unfold Rdiv. rewrite <- !pow_inv, (inv_T T). rewrite s_zetaxstar.
      set (z := zetaxstar m mats C X (v3 r)).
      replace (sumn m (fun k => sumn m (fun l => z * (- m_eps mats' k l ^ 3 * fm4 (alpha' k l)) * exp (z * fm5 (alpha' k l) + z ^ 2 * fm6 (alpha' k l)) * X k l)))
        with (a ^ 3 * sumn m (fun k => sumn m (fun l => z * (- m_eps mats k l ^ 3 * fm4 (alpha k l)) * exp (z * fm5 (alpha k l) + z ^ 2 * fm6 (alpha k l)) * X k l))).
      - set (S := sumn _ _). set (W := / (/ a * T)). replace (C * (/ a * W) ^ 3 * (a ^ 3 * S)) with ((/ a * a) ^ 3 * (C * W ^ 3 * S)) by ring. rewrite Rinv_l by lra. unfold W. ring.
      - rewrite <- sumn_scal. apply sumn_ext. intros k K. rewrite <- sumn_scal. apply sumn_ext. intros l L. rewrite s_eps, Hal. ring.
    Qed.

    Lemma s_gdHS z i : (i < n)%nat -> mie_gdHS t' z i = mie_gdHS t z i.
    Proof. intros I. unfold mie_gdHS. cbv zeta. rewrite (Hxi i I). reflexivity. Qed.
    Lemma cancel_ab K Y q : 1 / (K * (a * q) * (b ^ 3)) * (a * b ^ 3 * Y) = 1 / (K * q) * Y.
    Proof.
      assert (P := pow_lt b 3 Hb). unfold Rdiv. replace (K * (a * q) * b ^ 3) with ((a * b ^ 3) * (K * q)) by ring. rewrite (Rinv_mult (a * b ^ 3)).
      replace (1 * (/ (a * b ^ 3) * / (K * q)) * (a * b ^ 3 * Y)) with ((/ (a * b ^ 3) * (a * b ^ 3)) * (1 * / (K * q) * Y)) by ring.
      rewrite Rinv_l; [ring|]. apply Rmult_integral_contrapositive; split; lra.
    Qed.
    Lemma inv_r r : 1 / (r * C) = b ^ 3 * (1 / (v3 r * C)).
    Proof.
      assert (P := pow_lt b 3 Hb). unfold Rdiv. replace (v3 r * C) with (b ^ 3 * (r * C)) by ring. rewrite (Rinv_mult (b ^ 3)).
      replace (b ^ 3 * (1 * (/ b ^ 3 * / (r * C)))) with ((b ^ 3 * / b ^ 3) * (1 * / (r * C))) by ring. rewrite Rinv_r by lra. ring.
    Qed.
    Lemma s_g1 r i : (i < n)%nat -> mie_g1 m avg' t' C X r i = mie_g1 m avg t C X (v3 r) i.
    Proof.
      intros I. unfold mie_g1. cbv zeta. unfold v_la, v_lr, v_eps. rewrite (Haa i I), (Har i I), (Hae i I), s_zetax, (Hdi i I), (Hxi i I).
      unfold da1ii_drhos. destruct (prefactor (avg "lambdar"%string i) (avg "lambdaa"%string i)) as [c|]; [|reflexivity]. cbn [rbind]. f_equal.
      rewrite !da1s_scale, !dBkl_scale, !a1s_scale, !Bkl_scale, (inv_r r).
      set (e := avg "epsilon"%string i). set (d := t_dii t i).
      replace (2 * PI * (a * e) * (b * d) ^ 3 * molecule_per_nm3 ^ 2) with (2 * PI * molecule_per_nm3 ^ 2 * (a * (e * d ^ 3)) * b ^ 3) by ring.
      replace (2 * PI * e * d ^ 3 * molecule_per_nm3 ^ 2) with (2 * PI * molecule_per_nm3 ^ 2 * (e * d ^ 3)) by ring.
      etransitivity; [|apply cancel_ab]. f_equal. ring.
    Qed.
    Lemma s_gammac r T al e : gammac m mats' C X r T al (a * e) = gammac m mats C X (v3 r) (/ a * T) al e.
    Proof. unfold gammac. rewrite s_zetaxstar. replace (a * e / T) with (e / (/ a * T)); [reflexivity|]. unfold Rdiv. rewrite Rinv_mult, Rinv_inv. ring. Qed.
    Lemma cancel_a2b K Y q : 1 / (K * (a ^ 2 * q) * (b ^ 3)) * (a ^ 2 * b ^ 3 * Y) = 1 / (K * q) * Y.
    Proof.
      assert (P := pow_lt b 3 Hb). assert (P2 := pow_lt a 2 Ha). unfold Rdiv. replace (K * (a ^ 2 * q) * b ^ 3) with ((a ^ 2 * b ^ 3) * (K * q)) by ring.
      rewrite (Rinv_mult (a ^ 2 * b ^ 3)).
      replace (1 * (/ (a ^ 2 * b ^ 3) * / (K * q)) * (a ^ 2 * b ^ 3 * Y)) with ((/ (a ^ 2 * b ^ 3) * (a ^ 2 * b ^ 3)) * (1 * / (K * q) * Y)) by ring.
      rewrite Rinv_l; [ring|]. apply Rmult_integral_contrapositive; split; lra.
    Qed.
    Lemma s_g2 r T i : (i < n)%nat -> mie_g2 m mats' avg' t' C X r T i = mie_g2 m mats avg t C X (v3 r) (/ a * T) i.
    Proof.
      intros I. unfold mie_g2. cbv zeta. unfold v_la, v_lr, v_eps. rewrite (Haa i I), (Har i I), (Hae i I), s_zetax, (Hdi i I), (Hxi i I).
      unfold da2_1pchi_drhos. destruct (prefactor (avg "lambdar"%string i) (avg "lambdaa"%string i)) as [c|]; [|reflexivity]. cbn [rbind]. f_equal.
      rewrite s_gammac. f_equal. unfold da2_bracket, a2_bracket. rewrite !da1s_scale, !dBkl_scale, !a1s_scale, !Bkl_scale.
      set (z := zetax m t C X (v3 r)). rewrite (dKHS_scale r C z). set (e := avg "epsilon"%string i). set (d := t_dii t i).
      assert (Kr : KHS z / r / C = b ^ 3 * (KHS z / (v3 r) / C)).
      { pose proof (inv_r r) as IR. unfold Rdiv in *. rewrite (Rinv_mult r), (Rinv_mult (v3 r)) in IR. rewrite !Rmult_1_l in IR.
        rewrite !Rmult_assoc in *. rewrite IR. ring. }
      rewrite Kr.
      replace (2 * PI * (a * e) ^ 2 * (b * d) ^ 3 * molecule_per_nm3 ^ 2) with (2 * PI * molecule_per_nm3 ^ 2 * (a ^ 2 * (e ^ 2 * d ^ 3)) * b ^ 3) by ring.
      replace (2 * PI * e ^ 2 * d ^ 3 * molecule_per_nm3 ^ 2) with (2 * PI * molecule_per_nm3 ^ 2 * (e ^ 2 * d ^ 3)) by ring.
      etransitivity; [|apply cancel_a2b]. f_equal. ring.
    Qed.
    Lemma s_gii r T i : (i < n)%nat -> mie_gii m mats' avg' t' C X r T i = mie_gii m mats avg t C X (v3 r) (/ a * T) i.
    Proof.
      intros I. unfold mie_gii. cbv zeta. rewrite (s_g1 r i I), (s_g2 r T i I), s_zetax, (s_gdHS _ i I). unfold v_eps. rewrite (Hae i I).
      destruct (mie_g1 m avg t C X (v3 r) i) as [g1|]; [|reflexivity]. cbn [rbind].
      destruct (mie_g2 m mats avg t C X (v3 r) (/ a * T) i) as [g2|]; [|reflexivity]. cbn [rbind]. f_equal. f_equal. f_equal.
      unfold Rdiv. rewrite !Rinv_mult, !Rinv_inv. ring.
    Qed.
    Lemma s_chain nu V Sk rings xi r T :
      mie_chain n m mats' avg' t' C X nu V Sk rings xi r T = mie_chain n m mats avg t C X nu V Sk rings xi (v3 r) (/ a * T).
    Proof.
      unfold mie_chain. rewrite (mapM_ext (mie_gii m mats' avg' t' C X r T) (mie_gii m mats avg t C X (v3 r) (/ a * T)) (seq 0 n)); [reflexivity|].
      intros i I. apply in_seq in I. apply s_gii. lia.
    Qed.
    Lemma s_max mp : b ^ 3 * mie_rho_max m t' C X mp = mie_rho_max m t C X mp.
    Proof. apply max_scale. exact Hd. Qed.
  End MieFormulas.

  Lemma fetch_bead_eq d p : (forall v, sp p v = v) -> dfetch (sbead d) p = dfetch d p.
  Proof. intros H. unfold dfetch, scale_bead. rewrite dget_map. destruct (dget d p); cbn; [rewrite H|]; reflexivity. Qed.
  Lemma fetches_eq lib beads p : (forall v, sp p v = v) ->
    mapM (fun x => let* d := dfetch (slibr lib) x in dfetch d p) beads = mapM (fun x => let* d := dfetch lib x in dfetch d p) beads.
  Proof.
    intros H. apply mapM_ext. intros x _. unfold dfetch at 1 3. rewrite get_lib. destruct (dget lib x); cbn [option_map rbind]; [|reflexivity].
    apply fetch_bead_eq. exact H.
  Qed.
  Lemma undo3 r : b ^ 3 * (r / b ^ 3) = r.
  Proof. assert (P := pow_lt b 3 Hb). field. lra. Qed.
  Lemma undoT T : / a * (a * T) = T.
  Proof. field. lra. Qed.
  Lemma neg_scale rho : existsb (fun r => if Rlt_dec r 0 then true else false) (map (fun r => r / b ^ 3) rho)
    = existsb (fun r => if Rlt_dec r 0 then true else false) rho.
  Proof.
    assert (P := pow_lt b 3 Hb). induction rho as [|r rho IH]; [reflexivity|]. cbn [map existsb]. rewrite IH. f_equal.
    pose proof (undo3 r) as U. destruct (Rlt_dec (r / b ^ 3) 0), (Rlt_dec r 0); try reflexivity; exfalso; nra.
  Qed.
End Scale.

(** The usual parameters: positive segment diameters, well depths and volumes, exponents
    of a Mie potential, and in every component a nonnegative number of each bead and at
    least one bead. *)
Definition proper_molecules (n m : nat) (nu : nat -> nat -> R) (V Sk : list R) : Prop :=
  (forall v, In v V \/ In v Sk -> 0 < v) /\ (forall i k, (i < n)%nat -> (k < m)%nat -> 0 <= nu i k) /\
  (forall i, (i < n)%nat -> exists k, (k < m)%nat /\ 0 < nu i k).
Definition proper_mie (s : mie) : Prop :=
  (forall k l, (k < mm s)%nat -> (l < mm s)%nat -> 0 < mi_mats s "sigma"%string k l) /\
  (forall k, (k < mm s)%nat -> 0 < mi_mats s "epsilon"%string k k /\ 0 < mi_mats s "lambdaa"%string k k < mi_mats s "lambdar"%string k k) /\
  proper_molecules (mi_n s) (mm s) (mi_nu s) (mi_Vks s) (mi_Sk s).

Lemma mapM_len {A B} (f : A -> result B) l l' : mapM f l = Ok l' -> length l' = length l.
Proof. apply mapM_length. Qed.
Lemma arr_pos l k : (forall v, In v l -> 0 < v) -> (k < length l)%nat -> 0 < arr l k.
Proof. intros H K. apply H. apply nth_In. exact K. Qed.
Lemma prefactor_pos lr la : 0 < la < lr -> 0 < prefactor_value lr la.
Proof. intros H. unfold prefactor_value. apply Rmult_lt_0_compat; [apply Rdiv_lt_0_compat; lra | apply exp_pos]. Qed.

(** the diameter the tables hold for a bead, read off the matrices *)
Lemma table_diameter mapsci s T t k : mpre s -> msettled mapsci s -> mie_tables_at s T = Ok t -> (k < mm s)%nat ->
  t_dkl t k k = calc_dkk (mi_mats s "epsilon"%string k k) (mi_mats s "sigma"%string k k) T
    (prefactor_value (mi_mats s "lambdar"%string k k) (mi_mats s "lambdaa"%string k k)) (mi_mats s "lambdar"%string k k) (mi_mats s "lambdaa"%string k k).
Proof.
  intros P S E K. unfold mie_tables_at in E. destruct (mapM (bead_diameter (mlib s) T) (mbeads s)) as [dkk|] eqn:Ed; [|discriminate].
  cbn [rbind] in E. injection E as <-. cbn [t_dkl]. unfold dkl_of.
  destruct (nth_error (mbeads s) k) as [x|] eqn:Ex; [|apply nth_error_None in Ex; unfold mm in K; lia].
  assert (Dk : bead_diameter (mlib s) T x = Ok (arr dkk k)).
  { clear - Ed Ex. revert k dkk Ed Ex. generalize (mbeads s). intros l. induction l as [|y l IH]; intros k dkk Ed Ex; [destruct k; discriminate|].
    cbn in Ed. destruct (bead_diameter (mlib s) T y) as [d|] eqn:E1; [|discriminate]. cbn [rbind] in Ed.
    destruct (mapM (bead_diameter (mlib s) T) l) as [ds|]; [|discriminate]. cbn [rbind] in Ed. injection Ed as <-.
    destruct k as [|k]; [injection Ex as ->; exact E1|]. exact (IH k ds eq_refl Ex). }
  destruct S as [_ [S2 [S3 _]]].
  assert (G : forall key, In key mie_keys -> exists d, dget (mlib s) x = Some d /\ dget d key = Some (mi_mats s key k k)).
  { intros key I. destruct (cross_diag _ _ _ _ _ _ _ _ S2 key k x I Ex) as [d [H1 H2]]. eauto. }
  destruct (G "epsilon"%string ltac:(cbn; tauto)) as [d [Hd He]].
  destruct (G "sigma"%string ltac:(cbn; tauto)) as [d2 [Hd2 Hs]]. rewrite Hd in Hd2. injection Hd2 as <-.
  destruct (G "lambdar"%string ltac:(cbn; tauto)) as [d2 [Hd2 Hlr]]. rewrite Hd in Hd2. injection Hd2 as <-.
  destruct (G "lambdaa"%string ltac:(cbn; tauto)) as [d2 [Hd2 Hla]]. rewrite Hd in Hd2. injection Hd2 as <-.
  unfold bead_diameter, dfetch in Dk. rewrite Hd in Dk. cbn [rbind] in Dk. rewrite Hlr in Dk. cbn [rbind] in Dk. rewrite Hla in Dk. cbn [rbind] in Dk.
  rewrite He, Hs in Dk. unfold prefactor in Dk. destruct (Req_EM_T _ 0); [discriminate|]. cbn [rbind] in Dk. apply ok_inj in Dk. rewrite Dk. field.
Qed.

(** C91 for the Mie variant: well depths multiplied by [a], segment diameters by [b]; at
    the temperature [a T] and the density [rho / b^3] the answers are those of the first
    fluid at [T] and [rho], refusals included, and the largest density is its 1/b^3. *)
Theorem C91_mie : forall mapsci a b beads lib cl n nu rings s,
  0 < a -> 0 < b ->
  mie_init mapsci mie_default_rules beads lib cl n nu rings = Ok s -> proper_mie s ->
  exists s', mie_init mapsci mie_default_rules beads (scale_library a b lib) (scale_cross a b cl) n nu rings = Ok s' /\
    (forall rho T xi, 0 < T -> snd (mie_residual s' (map (fun r => r / b ^ 3) rho) (a * T) xi) = snd (mie_residual s rho T xi)) /\
    (forall xi T mp, 0 < T -> snd (mie_density_max s' xi (a * T) mp) = rbind (snd (mie_density_max s xi T mp)) (fun r => Ok (r / b ^ 3))).
Proof.
  intros mapsci a b beads lib cl n nu rings s Ha Hb I P.
  destruct (mie_init_scaled a b Ha Hb mapsci beads lib cl n nu rings s I)
    as [s' [I' [n1 [n2 [u1 [u2 [r1 [r2 [EV [ES [B1 [B2 [L [Rm [EC EA]]]]]]]]]]]]]]].
  exists s'. split; [exact I'|].
  destruct (mie_init_ok mapsci _ _ _ _ _ _ _ _ I) as [Pr [St Tb]]. destruct (mie_init_ok mapsci _ _ _ _ _ _ _ _ I') as [Pr' [St' Tb']].
  destruct P as [Psg [Pd [PVS [Pn Pe]]]].
  assert (MM : mm s' = mm s) by (unfold mm; congruence).
  assert (HV : forall k, (k < mm s)%nat -> 0 < arr (mi_Vks s) k).
  { intros k K. apply arr_pos; [auto|]. destruct Pr as [_ [_ P3]]. unfold extract_property in P3. rewrite (mapM_len _ _ _ P3). exact K. }
  assert (HS : forall k, (k < mm s)%nat -> 0 < arr (mi_Sk s) k).
  { intros k K. apply arr_pos; [auto|]. destruct St as [P3 _]. unfold extract_property in P3. rewrite (mapM_len _ _ _ P3). exact K. }
  assert (CO : forall xi, mie_composition s' xi = mie_composition s xi).
  { intros xi. unfold mie_composition. rewrite L, MM, B1, B2, n1, n2, u1, u2. rewrite !fetches_eq by reflexivity. reflexivity. }
  assert (AV : forall i, (i < mi_n s)%nat -> mi_avg s' "epsilon"%string i = a * mi_avg s "epsilon"%string i /\
     mi_avg s' "lambdar"%string i = mi_avg s "lambdar"%string i /\ mi_avg s' "lambdaa"%string i = mi_avg s "lambdaa"%string i /\
     mi_avg s' "sigma"%string i = b * mi_avg s "sigma"%string i).
  { intros i Hi. destruct St as [_ [_ [_ [A _]]]]. destruct St' as [_ [_ [_ [A' _]]]]. rewrite A, A', MM, EV, ES, u1, u2. unfold mie_averages.
    cbn [String.eqb Ascii.eqb Bool.eqb]. repeat split.
    - apply mean_scale. apply (rel_eps a b _ _ Rm).
    - rewrite <- (Rmult_1_l (mean_ii _ _ _ _ (mi_mats s "lambdar"%string) i)). apply mean_scale. intros. rewrite Rmult_1_l. apply (rel_same a b _ _ _ Rm). reflexivity.
    - rewrite <- (Rmult_1_l (mean_ii _ _ _ _ (mi_mats s "lambdaa"%string) i)). apply mean_scale. intros. rewrite Rmult_1_l. apply (rel_same a b _ _ _ Rm). reflexivity.
    - apply cube_mean_scale; [exact Hb|intros; apply (rel_sigma a b _ _ Rm)|]. rewrite u1 in *. apply cube_sum_pos; auto. }
  assert (TT : forall T t, 0 < T -> mie_tables_at s T = Ok t -> exists t', mie_tables_at s' (a * T) = Ok t' /\
     (forall k l, t_dkl t' k l = b * t_dkl t k l) /\ (forall k l, t_x0kl t' k l = t_x0kl t k l) /\
     (forall i, (i < mi_n s)%nat -> t_dii t' i = b * t_dii t i) /\ (forall i, (i < mi_n s)%nat -> t_x0ii t' i = t_x0ii t i)).
  { intros T t HT Et.
    assert (Dpos : forall k l, (k < mm s)%nat -> (l < mm s)%nat -> 0 < t_dkl t k l).
    { assert (D1 : forall k, (k < mm s)%nat -> 0 < t_dkl t k k).
      { intros k K. rewrite (table_diameter mapsci s T t k Pr St Et K). destruct (Pd k K) as [E1 E2].
        apply C71_diameter; auto. - apply prefactor_pos; exact E2. - lra. }
      intros k l K K'. pose proof (D1 k K) as X1. pose proof (D1 l K') as X2. unfold mie_tables_at in Et.
      destruct (mapM _ _) as [dkk|]; [|discriminate]. cbn [rbind] in Et. injection Et as <-. cbn [t_dkl] in *. unfold dkl_of in *. lra. }
    unfold mie_tables_at in Et. destruct (mapM (bead_diameter (mlib s) T) (mbeads s)) as [dkk|] eqn:Ed; [|discriminate]. cbn [rbind] in Et. injection Et as <-.
    rewrite <- (undoT a Ha T) in Ed. apply (diameters_scale a b Hb) in Ed. unfold mie_tables_at. rewrite L, B2, <- B1, Ed. cbn [rbind].
    eexists. split; [reflexivity|]. cbn [t_dkl t_x0kl t_dii t_x0ii] in *.
    assert (K0 : forall k l, dkl_of (arr (map (Rmult b) dkk)) k l = b * dkl_of (arr dkk) k l) by (intros; unfold dkl_of; rewrite !arr_scale; field).
    assert (K1 : forall i, (i < mi_n s)%nat -> cube_mean (mm s') (mi_nu s') (arr (mi_Vks s')) (arr (mi_Sk s')) (dkl_of (arr (map (Rmult b) dkk))) i
       = b * cube_mean (mm s) (mi_nu s) (arr (mi_Vks s)) (arr (mi_Sk s)) (dkl_of (arr dkk)) i).
    { intros i Hi. rewrite MM, EV, ES, u2, <- u1. apply cube_mean_scale; [exact Hb|auto|]. apply cube_sum_pos; auto. }
    assert (Q : forall x y, b * x / (b * y) = x / y).
    { intros x y. unfold Rdiv. rewrite Rinv_mult. replace (b * x * (/ b * / y)) with ((b * / b) * (x * / y)) by ring. rewrite Rinv_r by lra. ring. }
    split; [exact K0|]. split; [|split; [exact K1|]].
    - intros k l. rewrite K0, (rel_sigma a b _ _ Rm). apply Q.
    - intros i Hi. rewrite (K1 i Hi). destruct (AV i Hi) as [_ [_ [_ ->]]]. apply Q. }
  split.
  - intros rho T xi HT. unfold mie_residual. rewrite n1, n2. rewrite neg_scale by exact Hb.
    destruct (negb _); [reflexivity|].
    replace (match map (fun r => r / b ^ 3) rho with [] => true | _ => false end) with (match rho with [] => true | _ => false end) by (destruct rho; reflexivity).
    destruct (match rho with [] => true | _ => false end); [reflexivity|].
    destruct (existsb _ rho); [reflexivity|]. destruct (existsb _ xi); [reflexivity|].
    match goal with |- snd (refreshed s' _ _ ?f') = snd (refreshed s _ _ ?f) =>
      destruct (refreshed_spec mapsci s T xi f Pr St (or_introl Tb)) as [t [Et ->]];
      destruct (refreshed_spec mapsci s' (a * T) xi f' Pr' St' (or_introl Tb')) as [t' [Et' ->]] end.
    destruct (TT T t HT Et) as [t2 [Et2 [X1 [X2 [X3 X4]]]]]. rewrite Et' in Et2. injection Et2 as <-. rewrite CO.
    destruct (mie_composition s xi) as [[C X]|]; [|reflexivity]. cbv zeta. cbn [snd].
    change (mm (with_mcomp (with_T s (Some T) (Some t)) (Some (xi, (C, X))))) with (mm s).
    change (mm (with_mcomp (with_T s' (Some (a * T)) (Some t')) (Some (xi, (C, X))))) with (mm s'). rewrite MM.
    assert (MX := s_max b Hb (mm s) t t' C X ltac:(auto) 1).
    assert (FE : forallb (fun r => if Rge_dec r (mie_rho_max (mm s) t' C X 1) then true else false) (map (fun r => r / b ^ 3) rho)
               = forallb (fun r => if Rge_dec r (mie_rho_max (mm s) t C X 1) then true else false) rho).
    { assert (B3 := pow_lt b 3 Hb). clear - MX B3 Hb. induction rho as [|r rho IH]; [reflexivity|]. cbn [map forallb]. rewrite IH. f_equal.
      pose proof (undo3 b Hb r) as U. destruct (Rge_dec (r / b ^ 3) _), (Rge_dec r _); try reflexivity; exfalso; nra. }
    rewrite FE. destruct (forallb _ rho); [reflexivity|].
    clear FE MX. induction rho as [|r rho IH]; [reflexivity|]. cbn [map mapM]. rewrite IH.
    assert (E1 : mie_chain_of (with_mcomp (with_T s' (Some (a * T)) (Some t')) (Some (xi, (C, X)))) t' C X xi (r / b ^ 3) (a * T) =
                 mie_chain_of (with_mcomp (with_T s (Some T) (Some t)) (Some (xi, (C, X)))) t C X xi r T).
    { unfold mie_chain_of. cbn [with_mcomp with_T mi_n mi_mats mi_avg mi_nu mi_Vks mi_Sk mi_rings].
      change (mm (with_mcomp (with_T s (Some T) (Some t)) (Some (xi, (C, X))))) with (mm s).
      change (mm (with_mcomp (with_T s' (Some (a * T)) (Some t')) (Some (xi, (C, X))))) with (mm s'). rewrite MM, n1, n2, u1, u2, r1, r2, EV, ES.
      rewrite (s_chain a b Ha Hb n (mm s) (mi_mats s) (mi_mats s') (mi_avg s) (mi_avg s') t t' C X Rm); try (intros; auto; apply AV; congruence); try (intros; first [apply X3|apply X4]; congruence).
      rewrite (undo3 b Hb), (undoT a Ha). reflexivity. }
    assert (E2 : mie_monomer (with_mcomp (with_T s' (Some (a * T)) (Some t')) (Some (xi, (C, X)))) t' C X (r / b ^ 3) (a * T) =
                 mie_monomer (with_mcomp (with_T s (Some T) (Some t)) (Some (xi, (C, X)))) t C X r T).
    { unfold mie_monomer. cbn [with_mcomp with_T mi_n mi_mats mi_Ckl mi_alpha].
      change (mm (with_mcomp (with_T s (Some T) (Some t)) (Some (xi, (C, X))))) with (mm s).
      change (mm (with_mcomp (with_T s' (Some (a * T)) (Some t')) (Some (xi, (C, X))))) with (mm s'). rewrite MM, n1, n2.
      rewrite (s_hard_sphere b Hb n (mm s) t t') by auto.
      rewrite (s_first a b Ha (mm s) (mi_mats s) (mi_mats s') t t') by auto.
      rewrite (s_second a b Ha (mm s) (mi_mats s) (mi_mats s') (mi_Ckl s) (mi_Ckl s') (mi_alpha s) (mi_alpha s') t t') by auto.
      rewrite (s_third a b Ha (mm s) (mi_mats s) (mi_mats s') (mi_alpha s) (mi_alpha s')) by auto.
      rewrite (undo3 b Hb), (undoT a Ha). reflexivity. }
    rewrite E1, E2. reflexivity.
  - intros xi T mp HT. unfold mie_density_max. rewrite n1, n2. destruct (negb _); [reflexivity|].
    match goal with |- snd (refreshed s' _ _ ?f') = rbind (snd (refreshed s _ _ ?f)) _ =>
      destruct (refreshed_spec mapsci s T xi f Pr St (or_introl Tb)) as [t [Et ->]];
      destruct (refreshed_spec mapsci s' (a * T) xi f' Pr' St' (or_introl Tb')) as [t' [Et' ->]] end.
    destruct (TT T t HT Et) as [t2 [Et2 [X1 _]]]. rewrite Et' in Et2. injection Et2 as <-. rewrite CO.
    destruct (mie_composition s xi) as [[C X]|]; [|reflexivity]. cbv zeta. cbn [snd rbind].
    change (mm (with_mcomp (with_T s (Some T) (Some t)) (Some (xi, (C, X))))) with (mm s).
    change (mm (with_mcomp (with_T s' (Some (a * T)) (Some t')) (Some (xi, (C, X))))) with (mm s'). rewrite MM.
    assert (MX := s_max b Hb (mm s) t t' C X ltac:(auto) mp). rewrite <- MX. f_equal. assert (B3 := pow_lt b 3 Hb). field. lra.
Qed.
Print Assumptions C91_mie.

(** *** the square-well variant *)
Section ScaleSw.
  Variables a b : R.
  Hypothesis Ha : 0 < a.
  Hypothesis Hb : 0 < b.
  Variable mapsci : option (bead -> bead -> option R -> result (dict R)).
  Notation v3 r := (b ^ 3 * r).

  Lemma sigma_ii_scale m nu V Sk d d' i : (forall k l, d' k l = b * d k l) -> (forall k, (k < m)%nat -> 0 < d k k) ->
    (forall k, (k < m)%nat -> 0 <= nu i k) -> (forall k, (k < m)%nat -> 0 < V k) -> (forall k, (k < m)%nat -> 0 < Sk k) ->
    (exists k, (k < m)%nat /\ 0 < nu i k) -> sigma_ii m nu V Sk d' i = b * sigma_ii m nu V Sk d i.
  Proof.
    intros H Hd Hn HV HS He. unfold sigma_ii. rewrite <- cube_root; [|exact Hb|].
    - f_equal. rewrite <- sumn_scal. apply sumn_ext. intros k K. rewrite H. ring.
    - destruct (weight_nonneg m nu V Sk i Hn HV HS He) as [W [k0 [K0 W0]]]. apply (sumn_pos m _ k0); [|exact K0|].
      + intros k K. apply Rmult_le_pos; [auto|]. left. apply pow_lt. auto.
      + apply Rmult_lt_0_compat; [exact W0|apply pow_lt; auto].
  Qed.

  Lemma sw_init_scaled beads lib cl n nu rings s : sw_init mapsci sw_default_rules beads lib cl n nu rings = Ok s ->
    (forall k, (k < sm s)%nat -> 0 < sw_mats s "sigma"%string k k) -> proper_molecules (sw_n s) (sm s) (sw_nu s) (sw_Vks s) (sw_Sk s) ->
    exists s', sw_init mapsci sw_default_rules beads (scale_library a b lib) (scale_cross a b cl) n nu rings = Ok s' /\
      sw_n s = n /\ sw_n s' = n /\ sw_nu s = nu /\ sw_nu s' = nu /\ sw_rings s = rings /\ sw_rings s' = rings /\
      sw_Vks s' = sw_Vks s /\ sw_Sk s' = sw_Sk s /\ sbeads s = beads /\ sbeads s' = beads /\
      slib s' = scale_library a b (slib s) /\ related a b (sw_mats s) (sw_mats s') /\ related a b (sw_avg s) (sw_avg s') /\
      (forall k l, sw_alpha s' k l = a * b ^ 3 * sw_alpha s k l).
  Proof.
    unfold sw_init. intros H Hsg Hp.
    destruct (snd (check_bead_parameters R lib sw_defaults)) as [L|] eqn:E1; [|discriminate]. cbn [rbind] in H.
    destruct (extract_property R "Vks" L beads (Some 1)) as [V|] eqn:E2; [|discriminate]. cbn [rbind] in H.
    destruct (extract_property R "Sk" L beads (Some 1)) as [Sk|] eqn:E3; [|discriminate]. cbn [rbind] in H.
    destruct (group_matrices mapsci sw_default_rules beads L cl) as [mats|] eqn:E4; [|discriminate]. cbn [rbind] in H.
    destruct (averaged mapsci sw_default_rules n (length beads) nu (arr V) (arr Sk) mats) as [avg|] eqn:E5; [|discriminate]. cbn [rbind] in H.
    apply ok_inj in H. subst s.
    change (sm _) with (length beads) in *. cbn [sw_mats sw_n sw_nu sw_Vks sw_Sk] in Hsg, Hp. destruct Hp as [PVS [Pn Pe]].
    rewrite check_scaled.
    2:{ intros p v I. cbn in I. repeat (destruct I as [I|I]; [injection I as <- <- || discriminate I; try reflexivity|]). destruct I. }
    rewrite E1. cbn [rbind].
    rewrite (extract_scaled a b "Vks" L beads (Some 1) V) by (reflexivity || exact E2). cbn [rbind].
    rewrite (extract_scaled a b "Sk" L beads (Some 1) Sk) by (reflexivity || exact E3). cbn [rbind].
    destruct (cross_sim a b (rule_of mapsci sw_default_rules) beads L (scale_library a b L) sw_keys (opt_cross cl) (opt_cross (scale_cross a b cl)) mats)
      as [mats' [E4' Rm]]; [intros; apply sw_rules_scale; assumption|intros; apply fetch_lib; assumption|intros; apply cross_scaled|exact E4|].
    unfold group_matrices. rewrite E4'. cbn [rbind].
    assert (HV : forall k, (k < length beads)%nat -> 0 < arr V k).
    { intros k K. apply arr_pos; [auto|]. unfold extract_property in E2. rewrite (mapM_len _ _ _ E2). exact K. }
    assert (HS : forall k, (k < length beads)%nat -> 0 < arr Sk k).
    { intros k K. apply arr_pos; [auto|]. unfold extract_property in E3. rewrite (mapM_len _ _ _ E3). exact K. }
    unfold averaged in *.
    match type of E5 with cross_interaction_from_dict _ _ _ _ ?D _ _ = _ => set (D0 := D) in * end.
    match goal with |- context [cross_interaction_from_dict _ _ _ (dummy_labels n) ?D _ _] => replace D with (scale_library a b D0) end.
    2:{ unfold D0, dummy_library, scale_library. rewrite map_map. apply map_ext_in. intros i I. apply in_seq in I. cbn [fst snd map scale_bead scale_param String.eqb Ascii.eqb Bool.eqb].
        unfold scale_bead, scale_param; cbn [fst snd map String.eqb Ascii.eqb Bool.eqb].
        rewrite (sigma_ii_scale (length beads) nu (arr V) (arr Sk) (mats "sigma"%string) (mats' "sigma"%string) i (rel_sigma a b _ _ Rm) Hsg);
          [|intros; apply Pn; lia|exact HV|exact HS|apply Pe; lia].
        rewrite (mean_scale a (length beads) nu (arr V) (arr Sk) (mats "epsilon"%string) (mats' "epsilon"%string) i (rel_eps a b _ _ Rm)).
        rewrite (mean_scale 1 (length beads) nu (arr V) (arr Sk) (mats "lambda"%string) (mats' "lambda"%string) i), Rmult_1_l; [reflexivity|].
        intros. rewrite Rmult_1_l. apply (rel_same a b _ _ _ Rm). reflexivity. }
    destruct (cross_sim a b (rule_of mapsci sw_default_rules) (dummy_labels n) D0 (scale_library a b D0) sw_keys [] [] avg)
      as [avg' [E5' Ra]]; [intros; apply sw_rules_scale; assumption|intros; apply fetch_lib; assumption|reflexivity|exact E5|].
    rewrite E5'. cbn [rbind].
    eexists. split; [reflexivity|]. repeat (split; [reflexivity|]). split; [exact Rm|]. split; [exact Ra|]. cbn [sw_alpha].
    intros k l. unfold alpha_kl. rewrite (rel_sigma a b _ _ Rm), (rel_eps a b _ _ Rm), (rel_same a b _ _ "lambda" Rm) by reflexivity. ring.
  Qed.

  Section SwFormulas.
    Variables (n m : nat) (mats mats' avg avg' : matrices R) (alpha alpha' : nat -> nat -> R) (C : R) (X : nat -> nat -> R).
    Hypothesis Hm : related a b mats mats'.
    Hypothesis Hg : related a b avg avg'.
    Hypothesis Hal : forall k l, alpha' k l = a * b ^ 3 * alpha k l.

    Lemma w_zeta r p : b ^ 3 * zeta m mats' C X r p = b ^ p * zeta m mats C X (v3 r) p.
    Proof.
      unfold zeta, sigma_kl.
      replace (sumn m (fun k => sqrt (X k k) * mats' "sigma"%string k k ^ p)) with (b ^ p * sumn m (fun k => sqrt (X k k) * mats "sigma"%string k k ^ p)); [ring|].
      rewrite <- sumn_scal. apply sumn_ext. intros k K. rewrite (rel_sigma a b _ _ Hm), Rpow_mult_distr. ring.
    Qed.
    Lemma w_zetas r : zeta m mats' C X r 3 = zeta m mats C X (v3 r) 3 /\ zeta m mats' C X r 2 = / b * zeta m mats C X (v3 r) 2 /\
      zeta m mats' C X r 1 = (/ b) ^ 2 * zeta m mats C X (v3 r) 1 /\ zeta m mats' C X r 0 = (/ b) ^ 3 * zeta m mats C X (v3 r) 0.
    Proof.
      assert (P := pow_lt b 3 Hb). assert (U : b * / b = 1) by (apply Rinv_r; lra).
      repeat split; (apply (Rmult_eq_reg_l (b ^ 3)); [|lra]); rewrite w_zeta; [ring| | |]; set (u := / b) in *.
      - set (z := zeta m mats C X (v3 r) 2). replace (b ^ 3 * (u * z)) with (b ^ 2 * (b * u) * z) by ring. rewrite U. ring.
      - set (z := zeta m mats C X (v3 r) 1). replace (b ^ 3 * (u ^ 2 * z)) with (b * (b * u) ^ 2 * z) by ring. rewrite U. ring.
      - set (z := zeta m mats C X (v3 r) 0). replace (b ^ 3 * (u ^ 3 * z)) with ((b * u) ^ 3 * z) by ring. rewrite U. ring.
    Qed.
    Lemma w_hs r : Ahard_sphere m mats' C X r = Ahard_sphere m mats C X (v3 r).
    Proof.
      assert (P := pow_lt b 3 Hb). unfold Ahard_sphere. cbv zeta. destruct (w_zetas r) as [-> [-> [-> ->]]].
      set (z3 := zeta m mats C X (v3 r) 3). set (z2 := zeta m mats C X (v3 r) 2). set (z1 := zeta m mats C X (v3 r) 1). set (z0 := zeta m mats C X (v3 r) 0).
      assert (U : b * / b = 1) by (apply Rinv_r; lra). set (u := / b) in *.
      assert (T6 : 6 / (PI * r * molecule_per_nm3) = b ^ 3 * (6 / (PI * (v3 r) * molecule_per_nm3))).
      { unfold Rdiv. replace (PI * (v3 r) * molecule_per_nm3) with (b ^ 3 * (PI * r * molecule_per_nm3)) by ring. rewrite (Rinv_mult (b ^ 3)).
        set (W := / (PI * r * molecule_per_nm3)). replace (b ^ 3 * (6 * (/ b ^ 3 * W))) with ((b ^ 3 * / b ^ 3) * (6 * W)) by ring. rewrite Rinv_r by lra. ring. }
      rewrite T6. set (Q := 6 / (PI * (v3 r) * molecule_per_nm3)).
      assert (R0 : ln (1 - z3) * ((u * z2) ^ 3 / z3 ^ 2 - u ^ 3 * z0) = u ^ 3 * (ln (1 - z3) * (z2 ^ 3 / z3 ^ 2 - z0))) by (unfold Rdiv; ring).
      assert (R1 : 3 * (u * z2) / (1 - z3) * (u ^ 2 * z1) = u ^ 3 * (3 * z2 / (1 - z3) * z1)) by (unfold Rdiv; ring).
      assert (R2 : (u * z2) ^ 3 / (z3 * (1 - z3) ^ 2) = u ^ 3 * (z2 ^ 3 / (z3 * (1 - z3) ^ 2))) by (unfold Rdiv; ring).
      rewrite R0, R1, R2.
      assert (K : forall W, b ^ 3 * Q * (u ^ 3 * W) = Q * W) by (intros W; replace (b ^ 3 * Q * (u ^ 3 * W)) with ((b * u) ^ 3 * (Q * W)) by ring; rewrite U; ring).
      rewrite <- K. f_equal. ring.
    Qed.
    Lemma w_lam k l : lambda_kl mats' k l = lambda_kl mats k l.
    Proof. apply (rel_same a b _ _ _ Hm). reflexivity. Qed.
    Lemma w_first r T : Afirst_order m mats' alpha' C X r T = Afirst_order m mats alpha C X (v3 r) (/ a * T).
    Proof.
      unfold Afirst_order. unfold Rdiv. rewrite (inv_T a Ha T).
      replace (sumn m (fun k => sumn m (fun l => r * molecule_per_nm3 * (X k l * alpha' k l) * g0HS (zeta_eff (lambda_kl mats' k l) (zeta m mats' C X r 3)))))
        with (a * sumn m (fun k => sumn m (fun l => v3 r * molecule_per_nm3 * (X k l * alpha k l) * g0HS (zeta_eff (lambda_kl mats k l) (zeta m mats C X (v3 r) 3))))).
      - set (S := sumn _ _). set (W := / (/ a * T)). replace (- (C ^ 2 * (/ a * W)) * (a * S)) with ((/ a * a) * (- (C ^ 2 * W) * S)) by ring. rewrite Rinv_l by lra. unfold W. ring.
      - rewrite <- sumn_scal. apply sumn_ext. intros k K. rewrite <- sumn_scal. apply sumn_ext. intros l L.
        rewrite w_lam, Hal. destruct (w_zetas r) as [-> _]. ring.
    Qed.
    Lemma w_second r T : Asecond_order m mats' alpha' C X r T = Asecond_order m mats alpha C X (v3 r) (/ a * T).
    Proof.
      unfold Asecond_order. cbv zeta. destruct (w_zetas r) as [-> _]. set (z := zeta m mats C X (v3 r) 3).
      match goal with |- _ * ?S' = _ * ?S => replace S' with (a ^ 2 * S) end.
      - unfold Rdiv at 1 4. rewrite <- !pow_inv, (inv_T a Ha T). set (S := sumn _ _). set (W := / (/ a * T)).
        replace (- (C * (/ a * W) ^ 2) * (a ^ 2 * S)) with ((/ a * a) ^ 2 * (- (C * W ^ 2) * S)) by ring. rewrite Rinv_l by lra. unfold Rdiv. unfold W. rewrite <- !pow_inv. ring.
      - rewrite <- sumn_scal. apply sumn_ext. intros k K. rewrite <- sumn_scal. apply sumn_ext. intros l L.
        rewrite w_lam, Hal. unfold epsilon_kl. rewrite (rel_eps a b _ _ Hm). unfold Rdiv. ring.
    Qed.
    Lemma w_gHS r i j : gHS m mats' avg' C X r i j = gHS m mats avg C X (v3 r) i j.
    Proof.
      unfold gHS. cbv zeta. unfold sigma_ij. rewrite !(rel_sigma a b _ _ Hg). destruct (w_zetas r) as [-> [-> _]].
      set (z3 := zeta m mats C X (v3 r) 3). set (z2 := zeta m mats C X (v3 r) 2). set (x := avg "sigma"%string i i). set (y := avg "sigma"%string j j).
      assert (U : b * / b = 1) by (apply Rinv_r; lra).
      assert (E : b * x * (b * y) / (b * x + b * y) = b * (x * y / (x + y))).
      { replace (b * x + b * y) with (b * (x + y)) by ring. unfold Rdiv. rewrite Rinv_mult.
        replace (b * x * (b * y) * (/ b * / (x + y))) with ((b * / b) * (b * (x * y * / (x + y)))) by ring. rewrite U. ring. }
      rewrite E. set (w := x * y / (x + y)). set (u := / b) in *. unfold Rdiv.
      replace (3 * (b * w) * (u * z2 * / (1 - z3) ^ 2)) with ((b * u) * (3 * w * (z2 * / (1 - z3) ^ 2))) by ring.
      replace (2 * (b * w) ^ 2 * ((u * z2) ^ 2 * / (1 - z3) ^ 3)) with ((b * u) ^ 2 * (2 * w ^ 2 * (z2 ^ 2 * / (1 - z3) ^ 3))) by ring.
      rewrite U. ring.
    Qed.
    Lemma w_gSW r T i j : gSW m mats' avg' C X r T i j = gSW m mats avg C X (v3 r) (/ a * T) i j.
    Proof.
      unfold gSW. cbv zeta. rewrite w_gHS. unfold lambda_ij, epsilon_ij. rewrite (rel_eps a b _ _ Hg), (rel_same a b _ _ "lambda" Hg) by reflexivity.
      destruct (w_zetas r) as [-> _]. replace (a * avg "epsilon"%string i j / T) with (avg "epsilon"%string i j / (/ a * T)); [reflexivity|].
      unfold Rdiv. rewrite Rinv_mult, Rinv_inv. ring.
    Qed.
    Lemma w_chain nu V Sk rings xi r T :
      Achain n m mats' avg' C X nu V Sk rings xi r T = Achain n m mats avg C X nu V Sk rings xi (v3 r) (/ a * T).
    Proof. unfold Achain. f_equal. apply sumn_ext. intros i I. rewrite w_gSW. reflexivity. Qed.
    Lemma w_max mp : b ^ 3 * rho_max m mats' C X mp = rho_max m mats C X mp.
    Proof. apply (max_scale b Hb). intros. apply (rel_sigma a b _ _ Hm). Qed.
  End SwFormulas.
End ScaleSw.

(** C91 for the square-well variant *)
Theorem C91_square_well : forall mapsci a b beads lib cl n nu rings s,
  0 < a -> 0 < b ->
  sw_init mapsci sw_default_rules beads lib cl n nu rings = Ok s ->
  (forall k, (k < sm s)%nat -> 0 < sw_mats s "sigma"%string k k) ->
  proper_molecules (sw_n s) (sm s) (sw_nu s) (sw_Vks s) (sw_Sk s) ->
  exists s', sw_init mapsci sw_default_rules beads (scale_library a b lib) (scale_cross a b cl) n nu rings = Ok s' /\
    (forall rho T xi, snd (residual s' (map (fun r => r / b ^ 3) rho) (a * T) xi) = snd (residual s rho T xi)) /\
    (forall xi mp, snd (sw_density_max s' xi mp) = rbind (snd (sw_density_max s xi mp)) (fun r => Ok (r / b ^ 3))).
Proof.
  intros mapsci a b beads lib cl n nu rings s Ha Hb I Hsg Hp.
  destruct (sw_init_scaled a b Ha Hb mapsci beads lib cl n nu rings s I Hsg Hp)
    as [s' [I' [n1 [n2 [u1 [u2 [r1 [r2 [EV [ES [B1 [B2 [L [Rm [Ra EA]]]]]]]]]]]]]]].
  exists s'. split; [exact I'|].
  destruct (init_ok mapsci _ _ _ _ _ _ _ _ I) as [Pr St]. destruct (init_ok mapsci _ _ _ _ _ _ _ _ I') as [Pr' St'].
  assert (MM : sm s' = sm s) by (unfold sm; congruence).
  assert (CO : forall xi, composition s' xi = composition s xi).
  { intros xi. unfold composition. rewrite L, MM, B1, B2, n1, n2, u1, u2. rewrite !fetches_eq by reflexivity. reflexivity. }
  split.
  - intros rho T xi. destruct (composition s xi) as [[C X]|e] eqn:Ec.
    + rewrite (residual_settled mapsci s rho T xi C X St Ec), (residual_settled mapsci s' _ (a * T) xi C X St'); [|rewrite CO; exact Ec].
      rewrite n1, n2, (neg_scale b Hb), MM. destruct (negb _); [reflexivity|].
      replace (match map (fun r => r / b ^ 3) rho with [] => true | _ => false end) with (match rho with [] => true | _ => false end) by (destruct rho; reflexivity).
      destruct (match rho with [] => true | _ => false end); [reflexivity|].
      destruct (existsb _ rho); [reflexivity|]. destruct (existsb _ xi); [reflexivity|].
      assert (MX := w_max a b Hb (sm s) (sw_mats s) (sw_mats s') C X Rm (65 / 100)).
      assert (FE : forallb (fun r => if Rgt_dec r (rho_max (sm s) (sw_mats s') C X (65 / 100)) then true else false) (map (fun r => r / b ^ 3) rho)
                 = forallb (fun r => if Rgt_dec r (rho_max (sm s) (sw_mats s) C X (65 / 100)) then true else false) rho).
      { assert (B3 := pow_lt b 3 Hb). clear - MX B3 Hb. induction rho as [|r rho IH]; [reflexivity|]. cbn [map forallb]. rewrite IH. f_equal.
        pose proof (undo3 b Hb r) as U. destruct (Rgt_dec (r / b ^ 3) _), (Rgt_dec r _); try reflexivity; exfalso; nra. }
      rewrite FE. destruct (forallb _ rho); [reflexivity|]. f_equal. rewrite map_map. apply map_ext. intros r.
      unfold monomer, chain. rewrite MM, n1, n2, u1, u2, r1, r2, EV, ES.
      rewrite (w_hs a b Hb (sm s) (sw_mats s) (sw_mats s') C X Rm).
      rewrite (w_first a b Ha Hb (sm s) (sw_mats s) (sw_mats s') (sw_alpha s) (sw_alpha s') C X Rm EA).
      rewrite (w_second a b Ha Hb (sm s) (sw_mats s) (sw_mats s') (sw_alpha s) (sw_alpha s') C X Rm EA).
      rewrite (w_chain a b Hb n (sm s) (sw_mats s) (sw_mats s') (sw_avg s) (sw_avg s') C X Rm Ra).
      rewrite (undo3 b Hb), (undoT a Ha). reflexivity.
    + assert (K : forall s0 rho0 T0, settled mapsci s0 -> composition s0 xi = Err e -> snd (residual s0 rho0 T0 xi) =
        if negb (Nat.eqb (length xi) (sw_n s0)) then Err ValueError else if match rho0 with [] => true | _ => false end then Err ValueError
        else if existsb (fun r => if Rlt_dec r 0 then true else false) rho0 then Err ValueError
        else if existsb (fun x => if Rlt_dec x 0 then true else false) xi then Err ValueError else Err e).
      { intros s0 rho0 T0 St0 E0. unfold residual. rewrite (check_comp_settled mapsci s0 xi St0), E0.
        destruct (negb _); [reflexivity|]. destruct (match rho0 with [] => true | _ => false end); [reflexivity|].
        destruct (existsb _ rho0); [reflexivity|]. destruct (existsb _ xi); reflexivity. }
      rewrite (K s rho T St Ec), (K s' _ (a * T) St') by (rewrite CO; exact Ec). rewrite n1, n2, (neg_scale b Hb).
      destruct rho; reflexivity.
  - intros xi mp. destruct (composition s xi) as [[C X]|e] eqn:Ec.
    + rewrite (density_max_settled mapsci s xi mp C X St Ec), (density_max_settled mapsci s' xi mp C X St'); [|rewrite CO; exact Ec].
      rewrite n1, n2, MM. destruct (negb _); [reflexivity|]. cbn [rbind]. f_equal.
      assert (MX := w_max a b Hb (sm s) (sw_mats s) (sw_mats s') C X Rm mp). rewrite <- MX. assert (B3 := pow_lt b 3 Hb). field. lra.
    + unfold sw_density_max. rewrite (check_comp_settled mapsci s xi St), (check_comp_settled mapsci s' xi St'), CO, Ec, n1, n2. destruct (negb _); reflexivity.
Qed.
Print Assumptions C91_square_well.

(** *** C71, for the whole object: the temperature-dependent diameters stay below the
    segment diameters, so that every reduced distance handed to the kernels exceeds 1.
    Default rules, and no segment diameter in the cross library. *)
Lemma mean_sigma mapsci s : msettled mapsci s -> mi_rules s = mie_default_rules ->
  (forall x y, EosToolboxSpec.entry (mcross s) x y "sigma" = None) ->
  forall k l, (k < mm s)%nat -> (l < mm s)%nat ->
  mi_mats s "sigma"%string k l = (mi_mats s "sigma"%string k k + mi_mats s "sigma"%string l l) / 2.
Proof.
  intros [_ [S2 _]] Hr Hcl. unfold mie_matrices in S2. rewrite Hr in S2.
  destruct (C13_values_partial R 0 (rule_of mapsci mie_default_rules) (mbeads s) (mlib s) mie_keys (opt_cross (mcross s)) (mi_mats s)) as [D O].
  - intros key A B out H. right. unfold rule_of in H. destruct (CombiningProps.C12_single_output mapsci A B key (mie_default_rules key) out) as [[N _]|Y]; auto.
    + unfold mie_default_rules. destruct (String.eqb key "sigma"), (String.eqb key "epsilon"); discriminate.
    + exfalso. revert N. unfold mie_default_rules. destruct (String.eqb key "sigma"), (String.eqb key "epsilon"); discriminate.
  - repeat constructor; cbn; intuition discriminate.
  - exact S2.
  - assert (W : forall i j, (i < j)%nat -> (j < mm s)%nat ->
      mi_mats s "sigma"%string i j = (mi_mats s "sigma"%string i i + mi_mats s "sigma"%string j j) / 2 /\ mi_mats s "sigma"%string j i = mi_mats s "sigma"%string i j).
    { intros i j L J. destruct (nth_error (mbeads s) i) as [x|] eqn:Ex; [|apply nth_error_None in Ex; unfold mm in J; lia].
      destruct (nth_error (mbeads s) j) as [y|] eqn:Ey; [|apply nth_error_None in Ey; unfold mm in J; lia].
      destruct (D "sigma"%string i x ltac:(cbn; tauto) Ex) as [dx [X1 X2]]. destruct (D "sigma"%string j y ltac:(cbn; tauto) Ey) as [dy [Y1 Y2]].
      destruct (O "sigma"%string i j x y ltac:(cbn; tauto) L Ex Ey) as [[G|[_ [d1 [d2 [D1 [D2 G]]]]]] Sy].
      - exfalso.
        assert (N : forall x y w, EosToolboxSpec.entry (opt_cross (mcross s)) x y "sigma" <> Some (Some w)).
        { intros p q w E. pose proof (Hcl p q) as Hn. pose proof (cross_get_opt (mcross s) p q "sigma") as C. unfold EosToolboxSpec.entry in *. unfold cross_get in C. 
          destruct (dget (opt_cross (mcross s)) p) as [d|]; [|discriminate]. destruct (dget d q) as [e|]; [|discriminate]. rewrite E in C.
          destruct (dget (mcross s) p) as [d'|]; [|discriminate]. destruct (dget d' q) as [e'|]; [|discriminate]. rewrite Hn in C. discriminate. }
        destruct G as [G|[_ G]]; exact (N _ _ _ G).
      - split; [|exact Sy]. rewrite X1 in D1. injection D1 as <-. rewrite Y1 in D2. injection D2 as <-.
        assert (E : rule_of mapsci mie_default_rules "sigma" dx dy = Ok [("sigma"%string, (mi_mats s "sigma"%string i i + mi_mats s "sigma"%string j j) / 2)]).
        { unfold rule_of, combining_rules. cbn [mie_default_rules ro_function ro_weights String.eqb Ascii.eqb Bool.eqb]. unfold mean, dfetch. rewrite X2, Y2. reflexivity. }
        rewrite E in G. destruct G as [G|[G _]]; [|discriminate]. injection G as G. symmetry. exact G. }
    intros k l K L. destruct (Nat.lt_trichotomy k l) as [Lt|[->|Lt]].
    + apply W; assumption.
    + field.
    + destruct (W l k Lt K) as [W1 W2]. rewrite W2, W1. field.
Qed.
Lemma cube_mean_lt m nu V Sk d d' i : (forall k, (k < m)%nat -> 0 <= nu i k) -> (forall k, (k < m)%nat -> 0 < V k) -> (forall k, (k < m)%nat -> 0 < Sk k) ->
  (exists k, (k < m)%nat /\ 0 < nu i k) -> (forall k l, (k < m)%nat -> (l < m)%nat -> 0 < d k l < d' k l) ->
  0 < cube_mean m nu V Sk d i < cube_mean m nu V Sk d' i.
Proof.
  intros Hn HV HS He Hd. split; [apply exp_pos|]. unfold cube_mean. apply Rlt_Rpower_l; [lra|]. split; [apply cube_sum_pos; auto; intros; apply Hd; assumption|].
  destruct (weight_nonneg m nu V Sk i Hn HV HS He) as [W [k0 [K0 W0]]].
  assert (P : forall k l, (k < m)%nat -> (l < m)%nat -> d k l ^ 3 < d' k l ^ 3).
  { intros k l K L. destruct (Hd k l K L) as [D1 D2]. assert (d k l ^ 2 < d' k l ^ 2) by nra. change (d k l * d k l ^ 2 < d' k l * d' k l ^ 2). apply Rmult_le_0_lt_compat; nra. }
  apply Rminus_gt_0_lt. unfold Rminus. 
  assert (E : sumn m (fun k => sumn m (fun l => zki m nu V Sk i k * zki m nu V Sk i l * d' k l ^ 3)) - sumn m (fun k => sumn m (fun l => zki m nu V Sk i k * zki m nu V Sk i l * d k l ^ 3))
    = sumn m (fun k => sumn m (fun l => zki m nu V Sk i k * zki m nu V Sk i l * (d' k l ^ 3 - d k l ^ 3)))).
  { rewrite <- sumn_minus. apply sumn_ext. intros k K. rewrite <- sumn_minus. apply sumn_ext. intros l L. ring. }
  unfold Rminus in E at 1. rewrite E.
  assert (N : forall k l, (k < m)%nat -> (l < m)%nat -> 0 <= zki m nu V Sk i k * zki m nu V Sk i l * (d' k l ^ 3 - d k l ^ 3)).
  { intros k l K L. apply Rmult_le_pos; [apply Rmult_le_pos; auto|]. pose proof (P k l K L). lra. }
  apply (sumn_pos m _ k0); [|exact K0|].
  - intros k K. apply sumn_nonneg. intros l L. auto.
  - apply (sumn_pos m _ k0); [intros; auto|exact K0|]. apply Rmult_lt_0_compat; [apply Rmult_lt_0_compat; assumption|]. pose proof (P k0 k0 K0 K0). lra.
Qed.
Theorem C71_tables : forall mapsci beads lib cl n nu rings s T t,
  mie_init mapsci mie_default_rules beads lib cl n nu rings = Ok s -> proper_mie s ->
  (forall x y, EosToolboxSpec.entry cl x y "sigma" = None) -> 0 < T -> mie_tables_at s T = Ok t ->
  (forall k l, (k < mm s)%nat -> (l < mm s)%nat -> 0 < t_dkl t k l < mi_mats s "sigma"%string k l /\ 1 < t_x0kl t k l) /\
  (forall i, (i < n)%nat -> 0 < t_dii t i < mi_avg s "sigma"%string i /\ 1 < t_x0ii t i).
Proof.
  intros mapsci beads lib cl n nu rings s T t I [Psg [Pd [PVS [Pn Pe]]]] Hcl HT Et.
  destruct (mie_init_ok mapsci _ _ _ _ _ _ _ _ I) as [Pr [St Tb]].
  assert (Id : mi_rules s = mie_default_rules /\ mcross s = cl /\ mi_n s = n).
  { unfold mie_init in I. repeat match type of I with rbind ?X _ = _ => destruct X; cbn [rbind] in I; [|discriminate] end.
    injection I as <-. repeat split. }
  destruct Id as [Id1 [Id2 Id3]]. rewrite <- Id2 in Hcl. pose proof (mean_sigma mapsci s St Id1 Hcl) as MS.
  assert (HV : forall k, (k < mm s)%nat -> 0 < arr (mi_Vks s) k).
  { intros k K. apply arr_pos; [auto|]. destruct Pr as [_ [_ P3]]. unfold extract_property in P3. rewrite (mapM_len _ _ _ P3). exact K. }
  assert (HS : forall k, (k < mm s)%nat -> 0 < arr (mi_Sk s) k).
  { intros k K. apply arr_pos; [auto|]. destruct St as [P3 _]. unfold extract_property in P3. rewrite (mapM_len _ _ _ P3). exact K. }
  assert (D1 : forall k, (k < mm s)%nat -> 0 < t_dkl t k k < mi_mats s "sigma"%string k k).
  { intros k K. rewrite (table_diameter mapsci s T t k Pr St Et K). destruct (Pd k K) as [E1 E2].
    apply C71_diameter; auto. - apply prefactor_pos; exact E2. - lra. }
  unfold mie_tables_at in Et. destruct (mapM _ _) as [dkk|]; [|discriminate]. cbn [rbind] in Et. injection Et as <-. cbn [t_dkl t_x0kl t_dii t_x0ii] in *.
  assert (D2 : forall k l, (k < mm s)%nat -> (l < mm s)%nat -> 0 < dkl_of (arr dkk) k l < mi_mats s "sigma"%string k l).
  { intros k l K L. rewrite (MS k l K L). pose proof (D1 k K). pose proof (D1 l L). unfold dkl_of in *. lra. }
  assert (Q : forall x y, 0 < x < y -> 1 < y / x).
  { intros x y H. apply (Rmult_lt_reg_r x); [lra|]. unfold Rdiv. rewrite Rmult_assoc, Rinv_l by lra. lra. }
  split.
  - intros k l K L. split; [auto|]. apply Q. auto.
  - intros i Hi. rewrite <- Id3 in Hi.
    assert (A : 0 < cube_mean (mm s) (mi_nu s) (arr (mi_Vks s)) (arr (mi_Sk s)) (dkl_of (arr dkk)) i < mi_avg s "sigma"%string i).
    { destruct St as [_ [_ [_ [-> _]]]]. unfold mie_averages. cbn [String.eqb Ascii.eqb Bool.eqb]. apply cube_mean_lt; auto. }
    split; [exact A|]. apply Q. exact A.
Qed.
Print Assumptions C71_tables.

(** the hypotheses are met: a mixture of a heteronuclear square-well dimer and a monomer *)
Definition two_wells : dict (dict R) :=
  [("A", [("epsilon", 300); ("lambda", 3 / 2); ("sigma", 3 / 10)]); ("B", [("epsilon", 200); ("lambda", 2); ("sigma", 4 / 10)])]%string.
Definition dimer_nu (i k : nat) : R := match i, k with 0%nat, _ => 1 | _, 0%nat => 1 | _, _ => 0 end.
Example C91_square_well_case : exists s s',
  sw_init None sw_default_rules ["A"; "B"]%string two_wells [] 2 dimer_nu (fun _ => 0) = Ok s /\
  sw_init None sw_default_rules ["A"; "B"]%string (scale_library 2 3 two_wells) [] 2 dimer_nu (fun _ => 0) = Ok s' /\
  forall rho T xi, snd (residual s' (map (fun r => r / 3 ^ 3) rho) (2 * T) xi) = snd (residual s rho T xi).
Proof.
  assert (D : exists s, sw_init None sw_default_rules ["A"; "B"]%string two_wells [] 2 dimer_nu (fun _ => 0) = Ok s /\
    sm s = 2%nat /\ sw_n s = 2%nat /\ sw_nu s = dimer_nu /\ sw_Vks s = [1; 1] /\ sw_Sk s = [1; 1] /\
    sw_mats s "sigma"%string 0%nat 0%nat = 3 / 10 /\ sw_mats s "sigma"%string 1%nat 1%nat = 4 / 10).
  { unfold two_wells. generalize (3 / 10) (4 / 10) (3 / 2) 300 200 2. intros s1 s2 l1 e1 e2 l2. unfold sw_init.
    match goal with |- context [snd ?X] => let y := eval cbv [snd check_bead_parameters check_beads fill_defaults sw_defaults dmem dget dset String.eqb Ascii.eqb Bool.eqb] in (snd X) in change (snd X) with y end.
    cbn [rbind].
    match goal with |- context [extract_property R "Vks" ?L ?B ?D] => change (extract_property R "Vks" L B D) with (Ok [1; 1]); change (extract_property R "Sk" L B D) with (Ok [1; 1]) end.
    cbn [rbind].
    match goal with |- context [group_matrices None sw_default_rules ?B ?L []] =>
      assert (M : exists m, group_matrices None sw_default_rules B L [] = Ok m /\ m "sigma"%string 0%nat 0%nat = s1 /\ m "sigma"%string 1%nat 1%nat = s2)
        by (eexists; split; [reflexivity|split; reflexivity]) end.
    destruct M as [m [-> [M1 M2]]]. cbn [rbind length]. unfold averaged.
    set (f := sigma_ii _ _ _ _ _). set (g := mean_ii _ _ _ _ (m "lambda"%string)). set (h := mean_ii _ _ _ _ _). clearbody f g h.
    match goal with |- context [cross_interaction_from_dict ?V ?z ?r ?B ?L ?K ?c] =>
      assert (W : exists w, cross_interaction_from_dict V z r B L K c = Ok w) by (eexists; reflexivity) end.
    destruct W as [w ->]. cbn [rbind]. eexists. split; [reflexivity|]. repeat split; assumption. }
  destruct D as [s [I [Em [En [Eu [EV [ES [S0 S1]]]]]]]]. exists s.
  destruct (C91_square_well None 2 3 _ _ _ _ _ _ s ltac:(lra) ltac:(lra) I) as [s' [I' [H _]]].
  - rewrite Em. intros [|[|k]] K; [rewrite S0; lra|rewrite S1; lra|lia].
  - rewrite Em, En, Eu, EV, ES. split; [|split].
    + intros v [H|H]; cbn in H; destruct H as [<-|[<-|[]]]; lra.
    + intros [|i] [|k] _ _; cbn; lra.
    + intros [|i] _; exists 0%nat; cbn; split; lia || lra.
  - exists s'. split; [exact I|]. split; [exact I'|exact H].
Qed.

(** and a Mie fluid *)
Lemma proper_dimer e sg : 0 < e -> 0 < sg -> exists s,
  mie_init None mie_default_rules ["A"%string] (mie_bead e 12 6 sg) [] 1 (fun _ _ => 2) (fun _ => 0) = Ok s /\ proper_mie s.
Proof.
  intros He Hs.
  assert (M : exists m, mie_matrices None mie_default_rules ["A"%string] (mie_full e 12 6 sg) [] = Ok m /\ m "lambdar"%string 0%nat 0%nat = 12 /\
     m "lambdaa"%string 0%nat 0%nat = 6 /\ m "sigma"%string 0%nat 0%nat = sg /\ m "epsilon"%string 0%nat 0%nat = e) by (eexists; repeat split; reflexivity).
  destruct M as [m [Em [M1 [M2 [M3 M4]]]]]. destruct (mie_one_prefactor m) as [c Ec]; [rewrite M1; lra|].
  unfold mie_init.
  change (snd (check_bead_parameters R (mie_bead e 12 6 sg) mie_defaults)) with (Ok (mie_full e 12 6 sg)). cbn [rbind].
  change (extract_property R "Vks" (mie_full e 12 6 sg) ["A"%string] (Some 1)) with (Ok [1]).
  change (extract_property R "Sk" (mie_full e 12 6 sg) ["A"%string] (Some 1)) with (Ok [1]). cbn [rbind].
  rewrite Em. cbn [rbind length]. rewrite Ec. cbn [rbind]. eexists. split; [reflexivity|]. unfold proper_mie.
  change (mm _) with 1%nat. cbn [mi_mats mi_n mi_nu mi_Vks mi_Sk]. split; [|split; [|split; [|split]]].
  - intros [|k] [|l] K L; try lia. rewrite M3. exact Hs.
  - intros [|k] K; try lia. rewrite M1, M2, M4. lra.
  - intros v [H|H]; cbn in H; destruct H as [<-|[]]; lra.
  - intros; lra.
  - intros i _. exists 0%nat. split; [lia|lra].
Qed.
Example C91_mie_case : forall e sg, 0 < e -> 0 < sg -> exists s s',
  mie_init None mie_default_rules ["A"%string] (mie_bead e 12 6 sg) [] 1 (fun _ _ => 2) (fun _ => 0) = Ok s /\
  mie_init None mie_default_rules ["A"%string] (mie_bead (2 * e) 12 6 (3 * sg)) [] 1 (fun _ _ => 2) (fun _ => 0) = Ok s' /\
  forall rho T xi, 0 < T -> snd (mie_residual s' (map (fun r => r / 3 ^ 3) rho) (2 * T) xi) = snd (mie_residual s rho T xi).
Proof.
  intros e sg He Hs. destruct (proper_dimer e sg He Hs) as [s [I P]].
  destruct (C91_mie None 2 3 _ _ _ _ _ _ s ltac:(lra) ltac:(lra) I P) as [s' [I' [H _]]]. exists s, s'. split; [exact I|]. split; [exact I'|exact H].
Qed.
Example C71_tables_case : forall e sg T, 0 < e -> 0 < sg -> 0 < T -> exists s t,
  mie_init None mie_default_rules ["A"%string] (mie_bead e 12 6 sg) [] 1 (fun _ _ => 2) (fun _ => 0) = Ok s /\
  mie_tables_at s T = Ok t /\ 1 < t_x0kl t 0%nat 0%nat /\ 1 < t_x0ii t 0%nat.
Proof.
  intros e sg T He Hs HT. destruct (proper_dimer e sg He Hs) as [s [I P]]. destruct (mie_init_ok None _ _ _ _ _ _ _ _ I) as [Pr [St _]].
  destruct (tables_total None s T Pr St) as [t Et]. exists s, t. split; [exact I|]. split; [exact Et|].
  destruct (C71_tables None _ _ _ _ _ _ s T t I P (fun _ _ => eq_refl) HT Et) as [A B].
  assert (M1 : mm s = 1%nat).
  { unfold mie_init in I. repeat match type of I with rbind ?X _ = _ => destruct X; cbn [rbind] in I; [|discriminate] end. injection I as <-. reflexivity. }
  split; [apply A; rewrite M1; lia|apply B; lia].
Qed.
