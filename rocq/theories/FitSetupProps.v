(** C55, C56, C61 and C80: preparing a fit. *)
From Verif Require Import Base BaseFacts Num NumFacts IOModel EosToolboxModel EosToolboxSpec EosToolboxProofs FitSetupModel FitObjModel.
Open Scope nat_scope.
Open Scope string_scope.

(** ** C55: the bounds *)
(** *** Specification *)
Definition plain (p : string) : Prop := ~ occurs_in "_bounds" p.
(** the entry of the user's dictionary for a parameter, or the default *)
Definition requested (opt : dict oval) (name : string) : num * num :=
  match dget opt (name ++ "_bounds") with Some (ONums [a; b]) => (a, b) | _ => (Fin 0, Fin 10000) end.
(** a request that makes sense: the bead and a list of distinct parameters are given, and every entry
    about bounds is a pair of numbers under the key of some parameter *)
Definition sensible (opt : dict oval) (names : list string) : Prop :=
  (exists b, dget opt "fit_bead" = Some b) /\ dget opt "fit_parameter_names" = Some (ONames names) /\
  NoDup names /\ Forall plain names /\ NoDup (map fst opt) /\
  forall k v, In (k, v) opt -> occurs_in "bounds" k ->
    exists p a b, k = p ++ "_bounds" /\ plain p /\ v = ONums [a; b] /\ a <> NaN /\ b <> NaN.
(** [b] is [r] brought inside the limits *)
Definition clipped (lim r b : num * num) : Prop :=
  within lim (fst b) /\ within lim (snd b) /\
  (within lim (fst r) -> fst b = fst r) /\ (within lim (snd r) -> snd b = snd r) /\
  (~ within lim (fst r) -> fst b = fst lim) /\ (~ within lim (snd r) -> snd b = snd lim) /\
  (nle (fst r) (snd r) = true -> nle (fst b) (snd b) = true).

Lemma append_nil_r s : s ++ "" = s.
Proof. induction s as [|c s IH]; [reflexivity|]. cbn. rewrite IH. reflexivity. Qed.
Lemma prefix_app t s : prefix t s = true -> exists post, s = t ++ post.
Proof.
  revert s. induction t as [|c t IH]; intros s H; [exists s; reflexivity|]. destruct s as [|d s]; [discriminate|].
  cbn in H. destruct (Ascii.ascii_dec c d) as [<-|]; [|discriminate]. destruct (IH s H) as (post & ->). exists post. reflexivity.
Qed.
Lemma prefix_occurs t s : prefix t s = true -> occurs_in t s.
Proof. intros H. destruct (prefix_app t s H) as (post & ->). exists "", post. reflexivity. Qed.
Lemma occurs_tail t c s : occurs_in t s -> occurs_in t (String c s).
Proof. intros (pre & post & ->). exists (String c pre), post. reflexivity. Qed.
Lemma suffix_only p : p <> "" -> prefix "_bounds" (p ++ "_bounds") = true -> prefix "_bounds" p = true.
Proof.
  intros Hne H. destruct (prefix_app _ _ H) as (post & E). clear H. destruct p as [|c1 p]; [congruence|].
  destruct p as [|c2 p]; [|destruct p as [|c3 p]; [|destruct p as [|c4 p]; [|destruct p as [|c5 p]; [|destruct p as [|c6 p]; [|destruct p as [|c7 p]]]]]];
    cbn [append] in E; injection E as; subst; try discriminate; destruct p; reflexivity.
Qed.
Lemma drop_suffix p : plain p -> drop_bounds 0 (p ++ "_bounds") = p.
Proof.
  induction p as [|c p IH]; intros H; [reflexivity|].
  change (String c p ++ "_bounds") with (String c (p ++ "_bounds")). cbn [drop_bounds].
  destruct (prefix "_bounds" (String c (p ++ "_bounds"))) eqn:E.
  - exfalso. apply H, prefix_occurs. apply suffix_only; [discriminate|exact E].
  - f_equal. apply IH. intros O. apply H, occurs_tail, O.
Qed.
Lemma append_inj_r a b s : a ++ s = b ++ s -> a = b.
Proof.
  assert (HL : forall x, String.length (x ++ s) = String.length x + String.length s).
  { intros x. induction x as [|c x IH]; [reflexivity|]. cbn. rewrite IH. reflexivity. }
  revert b. induction a as [|c a IH]; intros b H.
  - destruct b as [|d b]; [reflexivity|]. exfalso. apply (f_equal String.length) in H. rewrite !HL in H. cbn in H. lia.
  - destruct b as [|d b]; [exfalso; apply (f_equal String.length) in H; rewrite !HL in H; cbn in H; lia|].
    cbn in H. injection H as -> H. f_equal. apply IH, H.
Qed.
Lemma index_of_some x l i : index_of x l = Some i -> nth_error l i = Some x.
Proof.
  revert i. induction l as [|y l IH]; intros i H; [discriminate|]. cbn in H. destruct (String.eqb_spec y x) as [->|].
  - injection H as <-. reflexivity.
  - destruct (index_of x l) as [j|] eqn:E; [|discriminate]. injection H as <-. apply IH. reflexivity.
Qed.
Lemma index_of_none x l : index_of x l = None -> ~ In x l.
Proof.
  induction l as [|y l IH]; intros H; [intros []|]. cbn in H. destruct (String.eqb_spec y x); [discriminate|].
  destruct (index_of x l); [discriminate|]. intros [->|Hin]; [congruence|]. exact (IH eq_refl Hin).
Qed.
Lemma set_nth_length {A} i (v : A) l : length (set_nth i v l) = length l.
Proof. revert i. induction l as [|x l IH]; intros [|i]; cbn; try reflexivity. rewrite IH. reflexivity. Qed.
Lemma set_nth_same {A} i (v : A) l : i < length l -> nth_error (set_nth i v l) i = Some v.
Proof. revert i. induction l as [|x l IH]; intros [|i] H; cbn in *; try lia; [reflexivity|]. apply IH. lia. Qed.
Lemma set_nth_other {A} i j (v : A) l : i <> j -> nth_error (set_nth i v l) j = nth_error l j.
Proof. revert i j. induction l as [|x l IH]; intros [|i] [|j] H; cbn; try reflexivity; try congruence. apply IH. congruence. Qed.

Lemma bounds_in_key p : substring_in "bounds" (p ++ "_bounds") = true.
Proof.
  apply substring_in_spec. exists (p ++ "_"), "". cbn. clear. induction p as [|c p IH]; [reflexivity|]. cbn. rewrite <- IH. reflexivity.
Qed.
Lemma nodup_first {A} (k : string) (v : A) (items : list (string * A)) : NoDup (map fst ((k, v) :: items)) -> ~ In k (map fst items).
Proof. intros H. inversion H. assumption. Qed.
Lemma dget_notin {A} (items : list (string * A)) k : ~ In k (map fst items) -> dget items k = None.
Proof.
  induction items as [|[k' v] items IH]; intros H; [reflexivity|]. cbn. destruct (String.eqb_spec k k') as [->|].
  - exfalso. apply H. left. reflexivity.
  - apply IH. intros Hin. apply H. right. exact Hin.
Qed.
Lemma loop_bounds (names : list string) : NoDup names -> Forall plain names -> forall items bs out,
  NoDup (map fst items) -> length bs = length names ->
  (forall k v, In (k, v) items -> occurs_in "bounds" k -> exists p, k = p ++ "_bounds" /\ plain p) ->
  length (fst (consolidate_loop names items bs out)) = length names /\
  forall i name, nth_error names i = Some name ->
    nth_error (fst (consolidate_loop names items bs out)) i =
    match dget items (name ++ "_bounds") with Some v => Some v | None => nth_error bs i end.
Proof.
  intros ND PL. induction items as [|[k v] items IH]; intros bs out NK HL HK; cbn [consolidate_loop].
  - split; [exact HL|]. intros; reflexivity.
  - assert (NK' : NoDup (map fst items)) by (inversion NK; assumption).
    assert (HK' : forall k v, In (k, v) items -> occurs_in "bounds" k -> exists p, k = p ++ "_bounds" /\ plain p)
      by (intros k' v' H'; apply (HK k' v'); right; exact H').
    destruct (substring_in "bounds" k) eqn:Es.
    + apply substring_in_spec in Es. destruct (HK k v ltac:(left; reflexivity) Es) as (p & -> & Hp).
      rewrite (drop_suffix p Hp). destruct (index_of p names) as [j|] eqn:Ei.
      * apply index_of_some in Ei. destruct (IH (set_nth j v bs) out NK' ltac:(rewrite set_nth_length; exact HL) HK') as [I1 I2].
        split; [exact I1|]. intros i name Hn. rewrite (I2 i name Hn). cbn [dget].
        destruct (String.eqb_spec (name ++ "_bounds") (p ++ "_bounds")) as [E|E].
        { apply append_inj_r in E. subst name. rewrite (dget_notin items _ (nodup_first _ _ _ NK)).
          assert (i = j) as ->. { apply (NoDup_nth_error names); [exact ND| |congruence]. apply nth_error_Some. congruence. }
          apply set_nth_same. rewrite HL. apply nth_error_Some. congruence. }
        { destruct (dget items (name ++ "_bounds")); [reflexivity|]. apply set_nth_other. intros ->. apply E. congruence. }
      * apply index_of_none in Ei. destruct (IH bs out NK' HL HK') as [I1 I2]. split; [exact I1|]. intros i name Hn.
        rewrite (I2 i name Hn). cbn [dget]. destruct (String.eqb_spec (name ++ "_bounds") (p ++ "_bounds")) as [E|E]; [|reflexivity].
        exfalso. apply append_inj_r in E. subst name. apply Ei. eapply nth_error_In; exact Hn.
    + destruct (IH bs (dset out k v) NK' HL HK') as [I1 I2]. split; [exact I1|]. intros i name Hn. rewrite (I2 i name Hn). cbn [dget].
      destruct (String.eqb_spec (name ++ "_bounds") k) as [E|E]; [|reflexivity]. exfalso. rewrite <- E, bounds_in_key in Es. discriminate.
Qed.

Section Bounds.
  Variable check : string -> num * num -> result (num * num).
  Lemma check_all : forall names bounds (req lim : string -> num * num), length bounds = length names ->
    (forall i name, nth_error names i = Some name -> exists v, nth_error bounds i = Some v /\ as_pair v = Ok (req name)) ->
    (forall name, In name names -> exists b, check name (req name) = Ok b /\ clipped (lim name) (req name) b) ->
    exists bs, check_parameter_bounds check names bounds = Ok bs /\ Forall2 (fun name b => clipped (lim name) (req name) b) names bs.
  Proof.
    induction names as [|p names IH]; intros bounds req lim HL HB HC; [exists []; split; constructor|].
    destruct bounds as [|b bounds]; [discriminate|]. injection HL as HL.
    destruct (HB 0 p eq_refl) as (v & Ev & Hv). cbn in Ev. injection Ev as <-. cbn [check_parameter_bounds]. rewrite Hv. cbn [rbind].
    destruct (HC p ltac:(left; reflexivity)) as (c & Ec & Hc). rewrite Ec. cbn [rbind].
    destruct (IH bounds req lim HL) as (bs & -> & HF).
    - intros i name Hn. apply (HB (S i) name Hn).
    - intros name Hin. apply HC. right. exact Hin.
    - exists (c :: bs). split; [reflexivity|]. constructor; assumption.
  Qed.
  Lemma fit_bounds_ok : forall opt names lim, sensible opt names ->
    (forall name r, In name names -> fst r <> NaN -> snd r <> NaN -> exists b, check name r = Ok b /\ clipped (lim name) r b) ->
    exists bs, fit_bounds check opt = Ok bs /\ Forall2 (fun name b => clipped (lim name) (requested opt name) b) names bs.
  Proof.
    intros opt names lim ((fb & Hfb) & Hn & ND & PL & NK & HK) HC. unfold fit_bounds, consolidate_bounds. rewrite Hfb, Hn. cbn [rbind].
    destruct (loop_bounds names ND PL opt (repeat default_bounds (length names)) [] NK ltac:(apply repeat_length)) as [L1 L2].
    { intros k v H O. destruct (HK k v H O) as (p & a & b & E & Hp & _). exists p. auto. }
    assert (HV : forall name, match dget opt (name ++ "_bounds") with
                 | Some v => exists a b, v = ONums [a; b] /\ a <> NaN /\ b <> NaN | None => True end).
    { intros name. destruct (dget opt (name ++ "_bounds")) as [v|] eqn:E; [|exact I]. apply dget_In in E.
      destruct (HK _ _ E) as (p & a & b & _ & _ & Hv); [apply substring_in_spec, bounds_in_key|]. exists a, b. exact Hv. }
    apply check_all with (req := requested opt); [exact L1| |].
    - intros i name Hname. rewrite (L2 i name Hname). unfold requested. specialize (HV name).
      destruct (dget opt (name ++ "_bounds")) as [v|].
      + destruct HV as (a & b & -> & _). eexists. split; reflexivity.
      + exists default_bounds. split; [|reflexivity]. apply nth_error_repeat. apply nth_error_Some. congruence.
    - intros name Hin. apply HC; [exact Hin| |]; unfold requested; specialize (HV name);
        destruct (dget opt (name ++ "_bounds")) as [v|]; try discriminate; destruct HV as (a & b & -> & Ha & Hb); assumption.
  Qed.
End Bounds.

(** C55: a fit uses one pair of bounds per parameter, in the order of the parameter list: the pair
    requested for it, or [0, 10000], brought inside the limits of its type. *)
Theorem C55_bounds : forall extreme opt names lim ty, sensible opt names ->
  (forall name, In name names -> starts_with_type underscore name (ty name) /\ dget extreme (ty name) = Some (lim name) /\
                nle (fst (lim name)) (snd (lim name)) = true) ->
  exists bs, fit_bounds (check_bounds extreme) opt = Ok bs /\ Forall2 (fun name b => clipped (lim name) (requested opt name) b) names bs.
Proof.
  intros extreme opt names lim ty HS HT. apply fit_bounds_ok; [exact HS|]. intros name r Hin N1 N2.
  destruct (HT name Hin) as (H1 & H2 & H3). pose proof (check_bounds_spec extreme name (ty name) r H1) as H. rewrite H2 in H.
  destruct (H N1 N2 H3) as (b & E & Hb). exists b. split; [exact E|exact Hb].
Qed.
(** the same for SAFT, where the names may end in association sites *)
Theorem C55_saft_bounds : forall extreme opt names lim sf ty, sensible opt names ->
  (forall name, In name names -> starts_with_type dash name (sf name) /\ starts_with_type underscore (sf name) (ty name) /\
                dget extreme (ty name) = Some (lim name) /\ nle (fst (lim name)) (snd (lim name)) = true) ->
  exists bs, fit_bounds (saft_check_bounds extreme) opt = Ok bs /\ Forall2 (fun name b => clipped (lim name) (requested opt name) b) names bs.
Proof.
  intros extreme opt names lim sf ty HS HT. apply fit_bounds_ok; [exact HS|]. intros name r Hin N1 N2.
  destruct (HT name Hin) as (H0 & H1 & H2 & H3). unfold saft_check_bounds.
  assert (E : hd "" (split_dash name) = sf name).
  { symmetry. apply (type_unique _ _ _ _ H0 (split_dash_type name)). }
  rewrite E. pose proof (check_bounds_spec extreme (sf name) (ty name) r H1) as H. rewrite H2 in H.
  destruct (H N1 N2 H3) as (b & Eb & Hb). exists b. split; [exact Eb|exact Hb].
Qed.
(** C55: a parameter of unknown type is refused *)
Theorem C55_unknown_type : forall extreme opt names name ty, sensible opt names -> In name names ->
  starts_with_type underscore name ty -> dget extreme ty = None -> exists e, fit_bounds (check_bounds extreme) opt = Err e.
Proof.
  intros extreme opt names name ty ((fb & Hfb) & Hn & _) Hin Ht HN. unfold fit_bounds, consolidate_bounds. rewrite Hfb, Hn. cbn [rbind].
  set (bs := fst _). clearbody bs. revert bs. clear Hn. induction names as [|p names IH]; intros bs; [destruct Hin|].
  cbn [check_parameter_bounds]. destruct bs as [|b bs]; [eexists; reflexivity|]. destruct (as_pair b) as [r|]; [|eexists; reflexivity]. cbn [rbind].
  destruct Hin as [->|Hin].
  - pose proof (check_bounds_spec extreme name ty r Ht) as H. rewrite HN in H. rewrite H. eexists; reflexivity.
  - destruct (check_bounds extreme p r); [|eexists; reflexivity]. cbn [rbind]. destruct (IH Hin bs) as (e & ->). eexists; reflexivity.
Qed.
(** C55: without the bead or the parameters, ValueError *)
Theorem C55_missing : forall check opt, dget opt "fit_bead" = None \/ dget opt "fit_parameter_names" = None ->
  fit_bounds check opt = Err ValueError.
Proof.
  intros check opt H. unfold fit_bounds, consolidate_bounds. destruct (dget opt "fit_bead"); [|reflexivity].
  destruct H as [H|H]; [discriminate|]. rewrite H. reflexivity.
Qed.
Example C55_example :
  let opt := [("fit_bead", OStr "CO2"); ("fit_parameter_names", ONames ["epsilon"; "sigma"; "epsilon_H2O"]);
              ("epsilon_H2O_bounds", ONums [Fin 150; Fin 9999]); ("epsilon_bounds", ONums [Fin 200; Fin 300])] in
  let extreme := [("epsilon", (Fin 100, Fin 1000)); ("sigma", (Fin 1, Fin 9))] in
  sensible opt ["epsilon"; "sigma"; "epsilon_H2O"] /\
  fit_bounds (check_bounds extreme) opt = Ok [(Fin 200, Fin 300); (Fin 1, Fin 9); (Fin 150, Fin 1000)].
Proof.
  split; [|vm_compute; reflexivity].
  assert (P : forall p, substring_in "_bounds" p = false -> plain p).
  { intros p H O. apply substring_in_spec in O. congruence. }
  split; [eexists; reflexivity|]. split; [reflexivity|].
  split; [repeat constructor; cbn; intuition discriminate|].
  split; [repeat constructor; apply P; reflexivity|].
  split; [repeat constructor; cbn; intuition discriminate|].
  intros k v Hin Hb. apply substring_in_spec in Hb.
  destruct Hin as [E|[E|[E|[E|[]]]]]; injection E as <- <-; try discriminate.
  - exists "epsilon_H2O", (Fin 150), (Fin 9999). split; [reflexivity|]. split; [apply P; reflexivity|]. split; [reflexivity|]. split; discriminate.
  - exists "epsilon", (Fin 200), (Fin 300). split; [reflexivity|]. split; [apply P; reflexivity|]. split; [reflexivity|]. split; discriminate.
Qed.

(** ** C80: initial guesses *)
(** C80: the guess of a parameter that is in the libraries (each pair in one order) is its value there *)
Theorem C80_stored : forall check garbage (e : eos_params num) p b v, In b (ep_beads e) ->
  bead_value (ep_bead_library e) b p = Some v -> guess_parameters check garbage e p [b] = Ok v.
Proof.
  intros check garbage e p b v Hb Hv. unfold guess_parameters. cbn [length Nat.ltb Nat.leb forallb].
  assert (smem b (ep_beads e) = true) as -> by (apply smem_In; exact Hb). cbn [andb negb].
  unfold bead_value in Hv. rewrite Hv. reflexivity.
Qed.
Theorem C80_stored_pair : forall check garbage (e : eos_params num) p a b v, a <> b -> In a (ep_beads e) -> In b (ep_beads e) ->
  one_order (ep_cross_library e) -> pair_value (ep_cross_library e) a b p = Some v -> guess_parameters check garbage e p [a; b] = Ok v.
Proof.
  intros check garbage e p a b v Hab Ha Hb HO Hv. unfold guess_parameters. cbn [length Nat.ltb Nat.leb forallb].
  assert (smem a (ep_beads e) = true) as -> by (apply smem_In; exact Ha).
  assert (smem b (ep_beads e) = true) as -> by (apply smem_In; exact Hb). cbn [andb negb].
  unfold pair_value, entry in Hv. destruct (dget (ep_cross_library e) b) as [d1|] eqn:E1.
  - destruct (dget d1 a) as [x|] eqn:E2.
    + assert (HN : match dget (ep_cross_library e) a with Some d => match dget d b with Some e0 => dget e0 p | None => None end | None => None end = @None num).
      { destruct (dget (ep_cross_library e) a) as [d|] eqn:E3; [|reflexivity]. destruct (dget d b) as [y|] eqn:E4; [|reflexivity].
        exfalso. apply (HO b a); [congruence| |]; [exists d1, x|exists d, y]; split; assumption. }
      rewrite HN in Hv. rewrite Hv. reflexivity.
    + destruct (match dget (ep_cross_library e) a with Some d => match dget d b with Some e0 => dget e0 p | None => None end | None => None end); [|discriminate].
      injection Hv as ->. reflexivity.
  - destruct (match dget (ep_cross_library e) a with Some d => match dget d b with Some e0 => dget e0 p | None => None end | None => None end); [|discriminate].
    injection Hv as ->. reflexivity.
Qed.
(** C80: otherwise it is the middle of the limits of its type, provided that the two numbers that
    happen to be in the memory of the new array lie outside them; *)
Theorem C80_middle_partial : forall extreme garbage (e : eos_params num) p b lo hi, In b (ep_beads e) ->
  bead_value (ep_bead_library e) b p = None -> starts_with_type underscore p p -> dget extreme p = Some (Fin lo, Fin hi) -> (lo <= hi)%Q ->
  fst garbage <> NaN -> snd garbage <> NaN -> ~ within (Fin lo, Fin hi) (fst garbage) -> ~ within (Fin lo, Fin hi) (snd garbage) ->
  exists v, guess_parameters (check_bounds extreme) garbage e p [b] = Ok (Fin v) /\ (v == (lo + hi) / 2)%Q.
Proof.
  intros extreme garbage e p b lo hi Hb Hv Ht He Hle N1 N2 O1 O2. unfold guess_parameters. cbn [length Nat.ltb Nat.leb forallb].
  assert (smem b (ep_beads e) = true) as -> by (apply smem_In; exact Hb). cbn [andb negb]. unfold bead_value in Hv. rewrite Hv.
  pose proof (check_bounds_spec extreme p p garbage Ht) as H. rewrite He in H.
  destruct (H N1 N2 ltac:(apply nle_fin; exact Hle)) as (c & -> & _ & _ & _ & _ & C1 & C2 & _). cbn [rbind].
  rewrite (C1 O1), (C2 O2). cbn [fst snd nsub nneg nadd ndiv]. change (Qeq_bool 2 0) with false. cbn iota. cbn [nadd].
  eexists. split; [reflexivity|]. field.
Qed.
(** C80 is false otherwise: the guess is whatever those two numbers are. *)
Theorem C80_uninitialised_refuted : forall extreme (e : eos_params num) p b lo hi x y, In b (ep_beads e) ->
  bead_value (ep_bead_library e) b p = None -> starts_with_type underscore p p -> dget extreme p = Some (Fin lo, Fin hi) ->
  (lo <= x <= hi)%Q -> (lo <= y <= hi)%Q ->
  exists v, guess_parameters (check_bounds extreme) (Fin x, Fin y) e p [b] = Ok (Fin v) /\ (v == (x + y) / 2)%Q.
Proof.
  intros extreme e p b lo hi x y Hb Hv Ht He Hx Hy. unfold guess_parameters. cbn [length Nat.ltb Nat.leb forallb].
  assert (smem b (ep_beads e) = true) as -> by (apply smem_In; exact Hb). cbn [andb negb]. unfold bead_value in Hv. rewrite Hv.
  pose proof (check_bounds_spec extreme p p (Fin x, Fin y) Ht) as H. rewrite He in H.
  destruct (H ltac:(discriminate) ltac:(discriminate) ltac:(apply nle_fin; apply Qle_trans with x; apply Hx)) as (c & -> & _ & _ & C1 & C2 & _). cbn [rbind].
  rewrite C1 by (split; apply nle_fin; apply Hx). rewrite C2 by (split; apply nle_fin; apply Hy).
  cbn [fst snd nsub nneg nadd ndiv]. change (Qeq_bool 2 0) with false. cbn iota. cbn [nadd]. eexists. split; [reflexivity|]. field.
Qed.
Example C80_example : guess_parameters (check_bounds [("epsilon", (Fin 100, Fin 1000))]) (Fin 0, Fin 0)
    {| ep_beads := ["A"]; ep_types := ["epsilon"]; ep_bead_library := []; ep_cross_library := [] |} "epsilon" ["A"] = Ok (Fin (1100 # 2)).
Proof. vm_compute. reflexivity. Qed.

(** ** C61: fitting names *)
(** *** Specification: [name] addresses parameter [p] of the beads *)
Inductive addresses (fit_bead : string) : string -> string -> list string -> Prop :=
| of_bead p : lacks underscore p -> addresses fit_bead p p [fit_bead]
| of_pair p b : lacks underscore p -> lacks underscore b -> addresses fit_bead (p ++ String underscore b) p [fit_bead; b].
Definition malformed (name : string) : Prop := 2 <= occurrences underscore name.

Lemma split_lacks p : lacks underscore p -> split_us p = [p].
Proof.
  induction p as [|c p IH]; intros H; [reflexivity|]. destruct H as [Hc H]. cbn. destruct (Ascii.eqb_spec c underscore); [contradiction|].
  rewrite (IH H). reflexivity.
Qed.
Lemma split_app p s : lacks underscore p -> split_us (p ++ String underscore s) = p :: split_us s.
Proof.
  induction p as [|c p IH]; intros H; [reflexivity|]. destruct H as [Hc H]. cbn. destruct (Ascii.eqb_spec c underscore); [contradiction|].
  rewrite (IH H). reflexivity.
Qed.
Lemma address_ok fb name p beads : addresses fb name p beads -> address fb name = Ok (p, beads).
Proof.
  unfold address. intros [q H|q b H1 H2]; [rewrite (split_lacks q H); reflexivity|]. rewrite (split_app q b H1), (split_lacks b H2). reflexivity.
Qed.
Lemma split_us_length s : length (split_us s) = S (occurrences underscore s).
Proof.
  induction s as [|c s IH]; [reflexivity|]. cbn. destruct (Ascii.eqb c underscore); cbn; [rewrite IH; reflexivity|].
  destruct (split_us s); [discriminate|]. cbn in *. exact IH.
Qed.
Lemma address_malformed fb name : malformed name -> address fb name = Err ValueError.
Proof.
  unfold address, malformed. intros H. pose proof (split_us_length name) as L. destruct (split_us name) as [|a [|b [|c l]]]; cbn in L; try lia; reflexivity.
Qed.
Lemma address_cases fb name : (exists p beads, addresses fb name p beads) \/ malformed name.
Proof.
  unfold malformed. destruct (occurrences underscore name) as [|[|n]] eqn:E; [left|left|right; lia].
  - exists name, [fb]. constructor. revert E. induction name as [|c s IH]; intros E; [exact I|]. cbn in *.
    destruct (Ascii.eqb_spec c underscore); [discriminate|]. split; [assumption|]. apply IH, E.
  - assert (exists p b, name = p ++ String underscore b /\ lacks underscore p /\ lacks underscore b) as (p & b & -> & H1 & H2).
    { induction name as [|c s IH]; [discriminate|]. cbn in E. destruct (Ascii.eqb_spec c underscore) as [->|Hc].
      - exists "", s. split; [reflexivity|]. split; [exact I|]. cbn in E. injection E as E. clear IH. induction s as [|d s IH]; [exact I|]. cbn in E.
        destruct (Ascii.eqb_spec d underscore); [discriminate|]. split; [assumption|apply IH, E].
      - destruct (IH E) as (p & b & -> & H1 & H2). exists (String c p), b. split; [reflexivity|]. split; [split; assumption|assumption]. }
    exists p, [fb; b]. constructor; assumption.
Qed.

Section Update.
  Variable update : eos_params num -> string -> list string -> num -> result (eos_params num).
  (** the update is the general one, possibly refused more often (SAFT, Peng-Robinson) *)
  Hypothesis update_is : forall e p beads v, update e p beads v = update_parameter e p beads v \/ update e p beads v = Err ValueError.
  Lemma update_error e p beads v x : update e p beads v = Err x -> x = ValueError.
  Proof.
    intros H. destruct (update_is e p beads v) as [E|E]; [|congruence]. rewrite E, update_unfold in H.
    destruct (guard _ _ _ _); [|congruence]. destruct beads as [|a [|b [|c l]]]; discriminate.
  Qed.
  Lemma apply_all_view : forall names addrs values e e' fb, one_order (ep_cross_library e) ->
    Forall2 (fun name a => addresses fb name (fst a) (snd a)) names addrs ->
    apply_all _ update e fb names values = (e', None) ->
    one_order (ep_cross_library e') /\
    same_view (view_of num e') (fold_left (fun w av => apply w (fst (fst av)) (snd (fst av)) (snd av)) (combine addrs values) (view_of num e)).
  Proof.
    induction names as [|name names IH]; intros addrs values e e' fb HO HA H.
    - inversion HA; subst. cbn in H. injection H as <-. split; [exact HO|]. split; reflexivity.
    - destruct addrs as [|[p beads] addrs]; inversion HA as [|? ? ? ? Ha HA']; subst. cbn [apply_all] in H. cbn [fst snd] in Ha. rewrite (address_ok _ _ _ _ Ha) in H.
      destruct values as [|v values]; [discriminate|]. destruct (update e p beads v) as [e1|x] eqn:Eu; [|discriminate].
      assert (Eu' : update_parameter e p beads v = Ok e1) by (destruct (update_is e p beads v) as [E|E]; congruence).
      destruct (step_view num e (p, beads, v) HO) as [O1 V1]. unfold step in O1, V1. cbn [fst snd] in O1, V1. rewrite Eu' in O1, V1.
      assert (G : guard (ep_beads e) (ep_types e) p beads = true).
      { rewrite update_unfold in Eu'. destruct (guard _ _ _ _); [reflexivity|discriminate]. }
      rewrite G in V1. destruct (IH addrs values e1 e' fb O1 HA' H) as [O2 V2]. split; [exact O2|]. cbn [combine fold_left fst snd].
      assert (HS : forall l (w w' : view num), same_view w w' -> same_view (fold_left (fun w av => apply w (fst (fst av)) (snd (fst av)) (snd av)) l w) (fold_left (fun w av => apply w (fst (fst av)) (snd (fst av)) (snd av)) l w')).
      { induction l as [|a l IHl]; intros w w' Hw; [exact Hw|]. cbn. apply IHl, same_view_apply, Hw. }
      destruct V2 as [A1 A2]. destruct (HS (combine addrs values) _ _ V1) as [B1 B2].
      split; intros; [rewrite A1; apply B1|rewrite A2; apply B2].
  Qed.
  Lemma apply_all_malformed : forall names values e fb, length values = length names -> Exists malformed names ->
    exists e', apply_all _ update e fb names values = (e', Some ValueError).
  Proof.
    induction names as [|name names IH]; intros values e fb HL HE; [inversion HE|]. destruct values as [|v values]; [discriminate|]. injection HL as HL.
    cbn [apply_all]. destruct (address_cases fb name) as [(p & beads & Ha)|Hm].
    - rewrite (address_ok _ _ _ _ Ha). destruct (update e p beads v) as [e1|x] eqn:Eu; [|apply update_error in Eu; subst x; eauto].
      apply IH; [exact HL|]. inversion HE as [? ? Hm|? ? Hm]; subst; [|exact Hm]. apply (address_malformed fb) in Hm. rewrite (address_ok _ _ _ _ Ha) in Hm. discriminate.
    - rewrite (address_malformed fb name Hm). eauto.
  Qed.
End Update.

(** C61: after a parameter update that succeeds, reading any parameter of any bead or pair gives what
    setting the addressed parameters to the given values, one after the other, gives.  For every kind
    of equation of state, and libraries that store each pair in one order; [refresh] recalculates
    dependent quantities and does not touch the libraries. *)
Theorem C61_addressed_parameters : forall update refresh e fit_bead names addrs values e',
  (forall e p beads v, update e p beads v = update_parameter e p beads v \/ update e p beads v = Err ValueError) ->
  (forall e e', refresh e = Ok e' -> view_of num e' = view_of num e) ->
  one_order (ep_cross_library e) -> Forall2 (fun name a => addresses fit_bead name (fst a) (snd a)) names addrs ->
  update_parameters (eos_params num) update refresh e fit_bead names values = (e', None) ->
  same_view (view_of num e') (fold_left (fun w av => apply w (fst (fst av)) (snd (fst av)) (snd av)) (combine addrs values) (view_of num e)).
Proof.
  intros update refresh e fb names addrs values e' HU HR HO HA H. unfold update_parameters in H.
  destruct (apply_all _ update e fb names values) as [e1 [x|]] eqn:E; [discriminate|].
  destruct (refresh e1) as [e2|x] eqn:Er; [|discriminate]. injection H as <-. rewrite (HR _ _ Er).
  apply (apply_all_view update HU names addrs values e e1 fb HO HA E).
Qed.
(** C61: every name with at most one underscore addresses a parameter, and one with more is refused *)
Theorem C61_names : forall fit_bead name, (exists p beads, addresses fit_bead name p beads) \/ malformed name.
Proof. intros. apply address_cases. Qed.
Theorem C61_malformed : forall update refresh e fit_bead names values,
  (forall e p beads v, update e p beads v = update_parameter e p beads v \/ update e p beads v = Err ValueError) ->
  length values = length names -> Exists malformed names ->
  snd (update_parameters (eos_params num) update refresh e fit_bead names values) = Some ValueError.
Proof.
  intros update refresh e fb names values HU HL HE. unfold update_parameters.
  destruct (apply_all_malformed update HU names values e fb HL HE) as (e' & ->). reflexivity.
Qed.
(** the updates of the three equations of state are such updates *)
Theorem C61_saft_update : forall e p beads v,
  saft_update_parameter e p beads v = update_parameter (V := num) e p beads v \/ saft_update_parameter e p beads v = Err ValueError.
Proof. intros. unfold saft_update_parameter. destruct (_ && _); [right|left]; reflexivity. Qed.
(** C61 is false of a refused update: the parameters before the malformed name have been changed; *)
Theorem C61_refused_but_changed_refuted : exists (e : eos_params num) names values,
  let r := update_parameters _ update_parameter (fun e => Ok e) e "A" names values in
  snd r = Some ValueError /\ bead_value (ep_bead_library (fst r)) "A" "epsilon" <> bead_value (ep_bead_library e) "A" "epsilon".
Proof.
  exists {| ep_beads := ["A"]; ep_types := ["epsilon"]; ep_bead_library := [("A", [("epsilon", Fin 1)])]; ep_cross_library := [] |},
    ["epsilon"; "epsilon_B_C"], [Fin 2; Fin 3]. vm_compute. split; [reflexivity|discriminate].
Qed.
(** and of a fit: a malformed name is not refused but makes every candidate infinitely bad, if the
    user gives the initial guess. *)
Theorem C61_fit_not_refused_refuted : forall update refresh e fit_bead names (objective : eos_params num -> result num) bounds params,
  (forall e p beads v, update e p beads v = update_parameter e p beads v \/ update e p beads v = Err ValueError) ->
  Exists malformed names -> length params = length names -> length bounds = length names -> existsb is_nan params = false ->
  Forall (fun p => exists q, p = Fin q) params -> Forall (fun b => exists lo hi, b = (Fin lo, Fin hi)) bounds ->
  let data := fun ps => match update_parameters (eos_params num) update refresh e fit_bead names ps with
                        | (e', None) => objective e' | (_, Some x) => Err x end in
  compute_obj [data] (length names) bounds params None = Ok PInf.
Proof.
  intros update refresh e fb names objective bounds params HU HE HL HB HN HF HBF data. unfold compute_obj.
  rewrite HL, Nat.eqb_refl. cbn [rbind]. rewrite HL, Nat.ltb_irrefl, HN. cbn [map].
  assert (Hd : data params = Err ValueError).
  { unfold data. pose proof (C61_malformed update refresh e fb names params HU HL HE) as H. destruct (update_parameters _ _ _ _ _ _ _) as [e' x]. cbn in H. subst x. reflexivity. }
  rewrite Hd. change (nansum [PInf]) with PInf.
  assert (HP : penalties PInf params bounds = Ok PInf).
  { assert (HL2 : length bounds = length params) by congruence. clear -HF HBF HL2. revert params HF HL2. induction HBF as [|b bounds (lo & hi & ->) _ IH]; intros params HF HL2.
    - destruct params; [reflexivity|discriminate].
    - destruct params as [|p params]; [discriminate|]. inversion HF as [|? ? (q & ->) HF']; subst. injection HL2 as HL2. cbn [penalties].
      destruct (nlt _ _); [|destruct (nlt _ _)]; apply IH; assumption. }
  rewrite HP. reflexivity.
Qed.
Example C61_example :
  addresses "CO2" "epsilon_H2O" "epsilon" ["CO2"; "H2O"] /\ addresses "CO2" "sigma" "sigma" ["CO2"] /\ malformed "epsilon_H2O_CH4" /\
  let e : eos_params num := {| ep_beads := ["CO2"; "H2O"]; ep_types := ["epsilon"; "sigma"]; ep_bead_library := []; ep_cross_library := [] |} in
  let r := update_parameters _ update_parameter (fun e => Ok e) e "CO2" ["epsilon_H2O"; "sigma"] [Fin 5; Fin 6] in
  snd r = None /\ pair_value (ep_cross_library (fst r)) "H2O" "CO2" "epsilon" = Some (Fin 5) /\ bead_value (ep_bead_library (fst r)) "CO2" "sigma" = Some (Fin 6).
Proof.
  split. { change "epsilon_H2O" with ("epsilon" ++ String underscore "H2O"). constructor; cbn; repeat split; discriminate. }
  split. { constructor. cbn. repeat split; discriminate. }
  split; [unfold malformed; cbn; lia|]. vm_compute. repeat split; reflexivity.
Qed.

(** ** C56: constraints *)
(** a complete constraint: a known function, two arguments, and a type *)
Definition complete (functions : list string) (c : constraint) (f ty : string) (args : list num) : Prop :=
  c_function c = Some f /\ In f functions /\ c_args c = Some args /\ 2 <= length args /\ c_type c = Some ty /\ c_kwargs c = false.
(** C56 is false: every constraint with a supported type is refused, in both forms; *)
Theorem C56_supported_refused_refuted : forall functions c f ty args rest,
  complete functions c f ty args ->
  (In ty ["linear"; "nonlinear"] -> initialize_constraints functions "class" (c :: rest) = Err ValueError) /\
  (In ty ["eq"; "ineq"] -> initialize_constraints functions "dict" (c :: rest) = Err ValueError).
Proof.
  intros functions c f ty args rest (H1 & H2 & H3 & H4 & H5 & H6).
  assert (HF : smem f functions = true) by (apply smem_In; exact H2).
  split; intros Ht; apply smem_In in Ht; unfold initialize_constraints; cbn [initialize_constraints_from]; unfold build_constraint;
    rewrite H1, HF, H3, H5; cbn [negb String.eqb Ascii.eqb Bool.eqb]; rewrite Ht; reflexivity.
Qed.
(** an unsupported type is accepted in the form 'dict'; *)
Theorem C56_unsupported_accepted_refuted : forall functions c f ty args, complete functions c f ty args -> ~ In ty ["eq"; "ineq"] ->
  initialize_constraints functions "dict" [c] = Ok [BDict ty f args].
Proof.
  intros functions c f ty args (H1 & H2 & H3 & H4 & H5 & H6) Hn. apply smem_In in H2. apply smem_nIn in Hn.
  unfold initialize_constraints. cbn [initialize_constraints_from]. unfold build_constraint. rewrite H1, H2, H3, H5.
  cbn [negb String.eqb Ascii.eqb Bool.eqb]. rewrite Hn. reflexivity.
Qed.
(** so that no constraint can be handed over in the form 'class'. *)
Theorem C56_class_never_refuted : forall functions c rest, exists e, initialize_constraints functions "class" (c :: rest) = Err e.
Proof.
  intros functions c rest. unfold initialize_constraints. cbn [initialize_constraints_from]. unfold build_constraint.
  destruct (c_function c) as [f|]; [|eexists; reflexivity]. destruct (smem f functions); cbn [negb]; [|eexists; reflexivity].
  destruct (c_args c); [|eexists; reflexivity]. cbn [String.eqb Ascii.eqb Bool.eqb]. destruct (c_type c) as [ty|]; [|eexists; reflexivity].
  destruct (smem ty ["linear"; "nonlinear"]) eqn:E; [eexists; reflexivity|]. apply smem_nIn in E.
  destruct (String.eqb_spec ty "linear") as [->|]; [exfalso; apply E; left; reflexivity|].
  destruct (String.eqb_spec ty "nonlinear") as [->|]; [exfalso; apply E; right; left; reflexivity|]. eexists; reflexivity.
Qed.
(** C56, what holds: an incomplete constraint is refused with ValueError, an unknown function with ImportError,
    and a form other than 'class' and 'dict' with ValueError. *)
Theorem C56_refusals_partial : forall functions ct c rest,
  (c_function c = None -> initialize_constraints functions ct (c :: rest) = Err ValueError) /\
  (forall f, c_function c = Some f -> ~ In f functions -> initialize_constraints functions ct (c :: rest) = Err ImportError) /\
  (forall f, c_function c = Some f -> In f functions -> c_args c = None \/ c_type c = None \/ ~ In ct ["class"; "dict"] ->
     initialize_constraints functions ct (c :: rest) = Err ValueError).
Proof.
  intros functions ct c rest. unfold initialize_constraints. cbn [initialize_constraints_from]. unfold build_constraint.
  split; [intros ->; reflexivity|]. split.
  - intros f -> Hn. apply smem_nIn in Hn. rewrite Hn. reflexivity.
  - intros f -> Hi H. apply smem_In in Hi. rewrite Hi. cbn [negb]. destruct (c_args c); [|reflexivity].
    destruct H as [H|[H|H]]; [discriminate| |].
    + rewrite H. destruct (String.eqb ct "class"), (String.eqb ct "dict"); reflexivity.
    + destruct (String.eqb_spec ct "class") as [->|]; [exfalso; apply H; cbn; tauto|].
      destruct (String.eqb_spec ct "dict") as [->|]; [exfalso; apply H; cbn; tauto|]. reflexivity.
Qed.
Example C56_example : complete ["type1"] {| c_function := Some "type1"; c_args := Some [Fin 0; Fin 1]; c_type := Some "linear"; c_kwargs := false |} "type1" "linear" [Fin 0; Fin 1].
Proof. unfold complete. cbn. repeat split; try reflexivity; try lia. left; reflexivity. Qed.

Print Assumptions C55_bounds.
Print Assumptions C55_saft_bounds.
Print Assumptions C80_stored_pair.
Print Assumptions C80_middle_partial.
Print Assumptions C61_addressed_parameters.
Print Assumptions C61_malformed.
Print Assumptions C61_fit_not_refused_refuted.
Print Assumptions C56_supported_refused_refuted.
Print Assumptions C56_refusals_partial.
