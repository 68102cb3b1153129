(** Proofs for C07-C11, C64-C66. *)
From Verif Require Import Base BaseFacts Num SortLib IOModel IOSpec.
From Coq Require Import Ascii Permutation Sorted.
Open Scope nat_scope.

(** ** split and join *)
Lemma split_us_nonempty s : split_us s <> [].
Proof.
  destruct s as [|c s]; cbn; [discriminate|].
  destruct (Ascii.eqb c underscore); [discriminate|]. destruct (split_us s); discriminate.
Qed.

Lemma join_split s : join_us (split_us s) = s.
Proof.
  induction s as [|c s IH]; cbn; [reflexivity|].
  destruct (Ascii.eqb_spec c underscore) as [->|Hn].
  - pose proof (split_us_nonempty s). destruct (split_us s) as [|h t]; [congruence|].
    cbn in *. rewrite IH. reflexivity.
  - pose proof (split_us_nonempty s). destruct (split_us s) as [|h t]; [congruence|].
    cbn in *. destruct t as [|h' t]; cbn in *; rewrite <- IH; reflexivity.
Qed.

Lemma strip_prefix s : join_us (tl (split_us ("eos_" ++ s))) = s.
Proof. cbn. apply join_split. Qed.

Lemma prefix_app p k : String.prefix p k = true <-> exists s, k = (p ++ s)%string.
Proof.
  revert k. induction p as [|c p IH]; intros k.
  - split; [intros _; exists k; reflexivity|intros _; destruct k; reflexivity].
  - destruct k as [|c' k]; [split; [discriminate|intros [s Hs]; discriminate]|].
    change (String.prefix (String c p) (String c' k)) with (if ascii_dec c c' then String.prefix p k else false).
    destruct (ascii_dec c c') as [->|Hn].
    + rewrite IH. split; intros [s Hs]; exists s; [subst; reflexivity|injection Hs as ->; reflexivity].
    + split; [discriminate|]. intros [s Hs]. injection Hs as -> _. congruence.
Qed.

Lemma prefix_eos k : String.prefix "eos_" k = true <-> exists s, k = ("eos_" ++ s)%string.
Proof. apply prefix_app. Qed.

(** ** keys of updated dictionaries *)
Lemma dkeys_dset_existing {A} (d : dict A) k v x : dget d k = Some x -> dkeys (dset d k v) = dkeys d.
Proof.
  induction d as [|[a b] d IH]; cbn; [discriminate|].
  destruct (String.eqb_spec k a) as [->|Hn]; intros H; cbn; [reflexivity|]. f_equal. apply IH, H.
Qed.

Lemma dget_app {A} (d e : dict A) k : dget (d ++ e) k = match dget d k with Some v => Some v | None => dget e k end.
Proof. induction d as [|[a b] d IH]; cbn; [reflexivity|]. destruct (String.eqb k a); [reflexivity|exact IH]. Qed.

Lemma NoDup_ddel {A} (d : dict A) k : NoDup (dkeys d) -> NoDup (dkeys (ddel d k)).
Proof.
  induction d as [|[a b] d IH]; cbn; intros H; [constructor|].
  inversion H as [|? ? Hn Hd]; subst. destruct (String.eqb_spec k a); [apply IH, Hd|].
  cbn. constructor; [|apply IH, Hd]. intros Hi. apply Hn.
  clear - Hi. induction d as [|[c e] d IH]; cbn in *; [exact Hi|].
  destruct (String.eqb k c); cbn in *; [right; apply IH, Hi|]. destruct Hi as [->|Hi]; [left; reflexivity|right; apply IH, Hi].
Qed.

Section ReaderProofs.
  Variable read_json : string -> result json.
  Variable path_join : string -> string -> string.
  Variable bead_data : json -> result (json * json).
  Variable exp_file : json -> result (dict json).

  Notation moved := (moved path_join).

  Lemma append_lib_spec path key d d' :
    append_lib path_join path key d = Ok d' ->
    dkeys d' = dkeys d /\ (forall k, k <> key -> dget d' k = dget d k).
  Proof.
    unfold append_lib. destruct (dget d key) as [v|] eqn:E.
    - destruct (join_value path_join path v); cbn; [|discriminate]. intros H; injection H as <-.
      split; [eapply dkeys_dset_existing; exact E|]. intros k Hk. apply dget_dset_other. congruence.
    - intros H; injection H as <-. split; [reflexivity|]. reflexivity.
  Qed.

  Lemma append_entry_spec path kv kv' :
    append_entry path_join path kv = Ok kv' -> fst kv' = fst kv /\ moved path (snd kv) (snd kv').
  Proof.
    unfold append_entry. destruct kv as [k v]; cbn. destruct v as [s|s|l|m].
    1-3: intros H; injection H as <-; split; [reflexivity|]; constructor; discriminate.
    destruct (dget m "file") as [f|] eqn:E.
    - destruct f; cbn; try discriminate. intros H; injection H as <-. split; [reflexivity|].
      apply moved_file. exact E.
    - intros H; injection H as <-. split; [reflexivity|]. constructor. intros m' Hm. injection Hm as <-. exact E.
  Qed.

  Lemma mapM_append path d d' :
    mapM (append_entry path_join path) d = Ok d' ->
    dkeys d' = dkeys d /\
    (forall k v, dget d k = Some v -> exists v', dget d' k = Some v' /\ moved path v v') /\
    (forall k v', dget d' k = Some v' -> exists v, dget d k = Some v /\ moved path v v').
  Proof.
    intros H. apply mapM_Forall2 in H. induction H as [|kv kv' d d' H1 H2 IH]; cbn.
    - repeat split; discriminate.
    - destruct kv as [k v], kv' as [k' v']. destruct (append_entry_spec _ _ _ H1) as [Hk Hm]. cbn in *. subst k'.
      destruct IH as (I1 & I2 & I3). split; [f_equal; exact I1|]. split.
      + intros x w. destruct (String.eqb x k); [intros E; injection E as <-; exists v'; tauto|apply I2].
      + intros x w. destruct (String.eqb x k); [intros E; injection E as <-; exists v; tauto|apply I3].
  Qed.

  Lemma append_path_spec path d0 d :
    append_data_file_path path_join path d0 = Ok d ->
    dkeys d = dkeys d0 /\
    (forall k v, k <> "EOSgroup"%string -> k <> "EOScross"%string -> dget d0 k = Some v ->
       exists v', dget d k = Some v' /\ moved path v v') /\
    (forall k v', k <> "EOSgroup"%string -> k <> "EOScross"%string -> dget d k = Some v' ->
       exists v, dget d0 k = Some v /\ moved path v v').
  Proof.
    unfold append_data_file_path.
    destruct (append_lib path_join path "EOSgroup" d0) as [d1|] eqn:E1; cbn; [|discriminate].
    destruct (append_lib path_join path "EOScross" d1) as [d2|] eqn:E2; cbn; [|discriminate].
    intros H. apply append_lib_spec in E1, E2. apply mapM_append in H.
    destruct E1 as [K1 G1], E2 as [K2 G2], H as (K3 & G3 & G4). split; [congruence|]. split.
    - intros k v H1 H2 Hv. apply G3. rewrite G2, G1 by assumption. exact Hv.
    - intros k v' H1 H2 Hv. destruct (G4 k v' Hv) as (v & Hv' & Hm). exists v. split; [|exact Hm].
      rewrite G2, G1 in Hv' by assumption. exact Hv'.
  Qed.

  (** ** Routing *)
  Definition tgt (k : string) : option string :=
    if String.prefix "eos_" k then Some (join_us (tl (split_us k)))
    else if String.eqb k "eos" then Some "eos"%string else None.
  Definition calc_key (k : string) : bool :=
    negb (String.prefix "eos_" k) && negb (String.eqb k "eos") && negb (smem k EOS_dict_keys).

  Lemma route_entry_eq eos th k v :
    route_entry (eos, th) (k, v) =
    (match tgt k with Some s => dset eos s v | None => eos end, if calc_key k then dset th k v else th).
  Proof.
    unfold route_entry, tgt, calc_key. destruct (String.prefix "eos_" k); cbn [negb andb]; [reflexivity|].
    destruct (String.eqb k "eos"); cbn [negb andb]; [reflexivity|]. destruct (smem k EOS_dict_keys); reflexivity.
  Qed.

  Lemma fold_route_th d : forall eos th k,
    dget (snd (fold_left route_entry d (eos, th))) k =
    if calc_key k then match dget (rev d) k with Some v => Some v | None => dget th k end else dget th k.
  Proof.
    induction d as [|[k0 v0] d IH]; intros eos th k; cbn [fold_left rev].
    - cbn. destruct (calc_key k); reflexivity.
    - rewrite route_entry_eq. rewrite IH. rewrite dget_app. cbn [dget].
      destruct (calc_key k) eqn:Ek; [|destruct (calc_key k0) eqn:E0; [|reflexivity]].
      + destruct (dget (rev d) k) as [v|]; [reflexivity|].
        destruct (String.eqb_spec k k0) as [->|Hn].
        * rewrite Ek. apply dget_dset_same.
        * destruct (calc_key k0); [apply dget_dset_other; congruence|reflexivity].
      + apply dget_dset_other. congruence.
  Qed.

  Lemma fold_route_eos_none d : forall eos th s,
    (forall k, In k (dkeys d) -> tgt k <> Some s) ->
    dget (fst (fold_left route_entry d (eos, th))) s = dget eos s.
  Proof.
    induction d as [|[k0 v0] d IH]; intros eos th s H; cbn [fold_left]; [reflexivity|].
    rewrite route_entry_eq. rewrite IH by (intros k Hk; apply H; right; exact Hk).
    specialize (H k0 (or_introl eq_refl)). destruct (tgt k0) as [s'|]; [|reflexivity].
    apply dget_dset_other. congruence.
  Qed.

  Lemma fold_route_eos_unique d : forall eos th s k v,
    NoDup (dkeys d) -> In (k, v) d -> tgt k = Some s ->
    (forall k', In k' (dkeys d) -> tgt k' = Some s -> k' = k) ->
    dget (fst (fold_left route_entry d (eos, th))) s = Some v.
  Proof.
    induction d as [|[k0 v0] d IH]; intros eos th s k v Hnd Hin Ht Hu; cbn [fold_left]; [destruct Hin|].
    inversion Hnd as [|? ? Hni Hnd']; subst. rewrite route_entry_eq. destruct Hin as [E|Hin].
    - injection E as -> ->. rewrite Ht. rewrite fold_route_eos_none; [apply dget_dset_same|].
      intros k' Hk' Ht'. assert (k' = k) by (apply Hu; [right; exact Hk'|exact Ht']). subst. contradiction.
    - eapply IH; try eassumption. intros k' Hk'. apply Hu. right; exact Hk'.
  Qed.

  Lemma fold_route_eos_from d : forall eos th s v,
    dget (fst (fold_left route_entry d (eos, th))) s = Some v ->
    dget eos s = Some v \/ exists k, In (k, v) d /\ tgt k = Some s.
  Proof.
    induction d as [|[k0 v0] d IH]; intros eos th s v; cbn [fold_left]; [left; assumption|].
    rewrite route_entry_eq. intros H. apply IH in H. destruct H as [H|(k & Hk & Ht)].
    - destruct (tgt k0) as [s0|] eqn:E0; [|left; exact H].
      destruct (String.eqb_spec s0 s) as [->|Hn].
      + rewrite dget_dset_same in H. injection H as ->. right. exists k0. split; [left; reflexivity|exact E0].
      + rewrite dget_dset_other in H by exact Hn. left; exact H.
    - right. exists k. split; [right; exact Hk|exact Ht].
  Qed.

  Lemma fold_move bs : NoDup bs -> forall eos th,
    let r := fold_left move_backend bs (eos, th) in
    (forall k, dget (snd r) k = if smem k bs then None else dget th k) /\
    (forall s, dget (fst r) s = if smem s bs then match dget th s with Some v => Some v | None => dget eos s end
                                 else dget eos s).
  Proof.
    induction 1 as [|b bs Hni Hnd IH]; intros eos th r; cbn [fold_left] in r; [subst r; cbn; split; reflexivity|].
    assert (Hmb : move_backend (eos, th) b = match dget th b with Some v => (dset eos b v, ddel th b) | None => (eos, th) end) by reflexivity.
    unfold r in *; clear r. rewrite Hmb. destruct (dget th b) as [v|] eqn:Eb.
    - destruct (IH (dset eos b v) (ddel th b)) as [I1 I2]. split.
      + intros k. rewrite I1. cbn [smem existsb]. destruct (String.eqb_spec k b) as [->|Hn]; cbn [orb].
        * rewrite dget_ddel_same. destruct (smem b bs); reflexivity.
        * rewrite dget_ddel_other by congruence. reflexivity.
      + intros s. rewrite I2. cbn [smem existsb]. destruct (String.eqb_spec s b) as [->|Hn]; cbn [orb].
        * rewrite dget_ddel_same, dget_dset_same, Eb. destruct (smem b bs); reflexivity.
        * rewrite dget_ddel_other, dget_dset_other by congruence. reflexivity.
    - destruct (IH eos th) as [I1 I2]. split.
      + intros k. rewrite I1. cbn [smem existsb]. destruct (String.eqb_spec k b) as [->|Hn]; cbn [orb]; [|reflexivity].
        rewrite Eb. destruct (smem b bs); reflexivity.
      + intros s. rewrite I2. cbn [smem existsb]. destruct (String.eqb_spec s b) as [->|Hn]; cbn [orb]; [|reflexivity].
        rewrite Eb. destruct (smem b bs); reflexivity.
  Qed.

  Lemma backends_nodup : NoDup backends.
  Proof. repeat constructor; cbn; intuition discriminate. Qed.

  Lemma goes_tgt k s : goes_to k (ToEos s) <-> tgt k = Some s \/ (In k backends /\ s = k).
  Proof. clear read_json path_join bead_data exp_file.
    split.
    - intros H. inversion H; subst.
      + left. unfold tgt. rewrite (proj2 (prefix_eos _)) by (eexists; reflexivity).
        rewrite strip_prefix. reflexivity.
      + left. reflexivity.
      + right. split; [assumption|reflexivity].
    - unfold tgt. intros [H|[H ->]].
      + destruct (String.prefix "eos_" k) eqn:E.
        * apply prefix_eos in E. destruct E as [s' ->]. rewrite strip_prefix in H. injection H as ->. constructor.
        * destruct (String.eqb_spec k "eos"); [|discriminate]. injection H as <-. subst. constructor.
      + constructor. exact H.
  Qed.

  Lemma goes_calc_iff k : goes_to k ToCalc <-> calc_key k = true /\ ~ In k backends.
  Proof. clear read_json path_join bead_data exp_file.
    unfold calc_key. split.
    - intros H. inversion H as [| | | |k' Hni Hp]; subst. split.
      + rewrite !andb_true_iff, !negb_true_iff. repeat split.
        * destruct (String.prefix "eos_" k) eqn:E; [|reflexivity]. apply prefix_eos in E. destruct E as [s ->].
          exfalso. apply (Hp s); reflexivity.
        * apply String.eqb_neq. intros ->. apply Hni. cbn. tauto.
        * apply smem_nIn. unfold EOS_dict_keys. cbn in *. tauto.
      + unfold backends. cbn in *. tauto.
    - rewrite !andb_true_iff, !negb_true_iff. intros (((H1 & H2) & H3) & H4). constructor.
      + apply smem_nIn in H3. apply String.eqb_neq in H2. unfold EOS_dict_keys in H3. unfold backends in H4.
        cbn in *. intuition.
      + intros s ->. rewrite (proj2 (prefix_eos _)) in H1 by (eexists; reflexivity). discriminate.
  Qed.

  Lemma destination_exists k : exists d, goes_to k d.
  Proof. clear read_json path_join bead_data exp_file.
    destruct (calc_key k) eqn:E.
    - destruct (in_dec string_dec k backends) as [H|H].
      + exists (ToEos k). constructor. exact H.
      + exists ToCalc. apply goes_calc_iff. split; assumption.
    - unfold calc_key in E. destruct (tgt k) as [s|] eqn:Et.
      + exists (ToEos s). apply goes_tgt. left; exact Et.
      + unfold tgt in Et. destruct (String.prefix "eos_" k); [discriminate|]. destruct (String.eqb k "eos"); [discriminate|].
        cbn [negb andb] in E. apply negb_false_iff, smem_In in E. exists FileLevel. constructor. exact E.
  Qed.

  Lemma file_not_calc k : In k EOS_dict_keys -> calc_key k = false.
  Proof. clear read_json path_join bead_data exp_file. intros H. unfold calc_key. rewrite (proj2 (smem_In _ _) H). rewrite !andb_false_r. reflexivity. Qed.
  Lemma file_not_tgt k : In k EOS_dict_keys -> tgt k = None.
  Proof. clear read_json path_join bead_data exp_file. unfold EOS_dict_keys; cbn. intuition; subst; reflexivity. Qed.
  Lemma backend_not_tgt k : In k backends -> tgt k = None.
  Proof. clear read_json path_join bead_data exp_file. unfold backends; cbn. intuition; subst; reflexivity. Qed.
  Lemma backend_calc k : In k backends -> calc_key k = true.
  Proof. clear read_json path_join bead_data exp_file. unfold backends; cbn. intuition; subst; reflexivity. Qed.

  Lemma destination_unique k d d' : goes_to k d -> goes_to k d' -> d = d'.
  Proof. clear read_json path_join bead_data exp_file.
    assert (HE : forall s s', goes_to k (ToEos s) -> goes_to k (ToEos s') -> s = s').
    { intros s s' H H'. apply goes_tgt in H, H'. destruct H as [H|[H ->]], H' as [H'|[H' ->]].
      - congruence.
      - rewrite (backend_not_tgt k H') in H. discriminate.
      - rewrite (backend_not_tgt k H) in H'. discriminate.
      - reflexivity. }
    assert (HEC : forall s, goes_to k (ToEos s) -> ~ goes_to k ToCalc).
    { intros s H H'. apply goes_tgt in H. apply goes_calc_iff in H'. destruct H' as [Hc Hb].
      destruct H as [H|[H _]]; [|contradiction]. unfold tgt in H. unfold calc_key in Hc.
      destruct (String.prefix "eos_" k); [discriminate|]. destruct (String.eqb k "eos"); [discriminate|discriminate]. }
    assert (HEF : forall s, goes_to k (ToEos s) -> ~ goes_to k FileLevel).
    { intros s H H'. apply goes_tgt in H. inversion H' as [| | |? Hf|]; subst. destruct H as [H|[H _]].
      - rewrite (file_not_tgt k Hf) in H. discriminate.
      - unfold backends in H; cbn in *. intuition; subst; discriminate. }
    assert (HCF : goes_to k ToCalc -> ~ goes_to k FileLevel).
    { intros H H'. apply goes_calc_iff in H. inversion H' as [| | |? Hf|]; subst.
      rewrite (file_not_calc k Hf) in H. destruct H; discriminate. }
    intros H H'. destruct d, d'; try reflexivity; try (exfalso; eauto; fail); try (exfalso; eapply HEC; eauto; fail);
      try (exfalso; eapply HEF; eauto; fail); try (exfalso; eapply HCF; eauto; fail).
    f_equal. eapply HE; eassumption.
  Qed.

  (** shape of a successful read *)
  Lemma extract_shape fname path kwargs r :
    extract_calc_data read_json path_join bead_data exp_file fname path kwargs = Ok r ->
    exists d0 d eos0, read_json fname = Ok (JDict d0) /\ append_data_file_path path_join path d0 = Ok d /\
      eos_start read_json bead_data d = Ok eos0 /\
      let st1 := fold_left route_entry d (eos0, kwargs) in
      let st2 := fold_left move_backend backends st1 in
      eos_args r = fst st2 /\
      ((dmem (snd st2) "optimization_parameters" = false /\ thermo_args r = snd st2 /\ exp_sets r = []) \/
       (dmem (snd st2) "optimization_parameters" = true /\
        exists st, process_param_fit_inputs bead_data exp_file (snd st2) = Ok st /\
        thermo_args r = snd st /\
        mapM (fun ke => let* e := inherit_eos (fst st2) (snd ke) in Ok (fst ke, e)) (fst st) = Ok (exp_sets r))).
  Proof.
    unfold extract_calc_data. destruct (read_json fname) as [j|] eqn:Ej; cbn [rbind]; [|discriminate].
    destruct j as [s|s|l|d0]; try discriminate.
    destruct (append_data_file_path path_join path d0) as [d|] eqn:Ed; cbn [rbind]; [|discriminate].
    destruct (eos_start read_json bead_data d) as [eos0|] eqn:Ee; cbn [rbind]; [|discriminate].
    destruct (fold_left route_entry d (eos0, kwargs)) as [eos1 th1] eqn:E1.
    destruct (fold_left move_backend backends (eos1, th1)) as [eos2 th2] eqn:E2.
    destruct (dmem th2 "optimization_parameters") eqn:Eo.
    - destruct (process_param_fit_inputs bead_data exp_file th2) as [st|] eqn:Ep; cbn [rbind]; [|discriminate].
      destruct (mapM _ (fst st)) as [sets|] eqn:Em; cbn [rbind]; [|discriminate].
      intros H; injection H as <-. exists d0, d, eos0. split; [reflexivity|]. split; [exact Ed|]. split; [exact Ee|].
      rewrite E1. cbn zeta. rewrite E2. cbn [fst snd eos_args thermo_args exp_sets]. split; [reflexivity|]. right. split; [exact Eo|].
      exists st. repeat split; assumption.
    - intros H; injection H as <-. exists d0, d, eos0. split; [reflexivity|]. split; [exact Ed|]. split; [exact Ee|].
      rewrite E1. cbn zeta. rewrite E2. cbn [fst snd eos_args thermo_args exp_sets]. split; [reflexivity|]. left. repeat split. exact Eo.
  Qed.

  Lemma eos_start_keys d eos0 s v : eos_start read_json bead_data d = Ok eos0 -> dget eos0 s = Some v -> In s eos_base.
  Proof.
    unfold eos_start.
    assert (Hgen : forall e0, (forall s v, dget e0 s = Some v -> In s eos_base) ->
      (let* g := dfetch d "EOSgroup" in
       let* gname := (match g with JStr s => Ok s | _ => Err TypeError end) in
       let* lib := read_json gname in
       match dget d "EOScross" with
       | Some (JStr c) => let* cross := read_json c in Ok (dset (dset e0 "bead_library" lib) "cross_library" cross)
       | Some _ => Err TypeError
       | None => Ok (dset e0 "bead_library" lib)
       end) = Ok eos0 -> dget eos0 s = Some v -> In s eos_base).
    { intros e0 He0. destruct (dfetch d "EOSgroup") as [g|]; cbn; [|discriminate].
      destruct g; cbn; try discriminate. destruct (read_json s0) as [lib|]; cbn; [|discriminate].
      assert (Hl : forall s v, dget (dset e0 "bead_library" lib) s = Some v -> In s eos_base).
      { intros s1 v1. destruct (String.eqb_spec "bead_library" s1) as [<-|Hn].
        - intros _. cbn. tauto.
        - rewrite dget_dset_other by exact Hn. apply He0. }
      destruct (dget d "EOScross") as [[]|]; try discriminate.
      - destruct (read_json s1) as [cr|]; cbn; [|discriminate]. intros H; injection H as <-.
        destruct (String.eqb_spec "cross_library" s) as [<-|Hn].
        + intros _. cbn. tauto.
        + rewrite dget_dset_other by exact Hn. apply Hl.
      - intros H; injection H as <-. apply Hl. }
    destruct (dget d "bead_configuration") as [b|].
    - destruct (bead_data b) as [bm|]; cbn [rbind]; [|discriminate]. apply Hgen.
      intros s1 v1. cbn [dget]. destruct (String.eqb_spec s1 "beads") as [->|]; [cbn; tauto|].
      destruct (String.eqb_spec s1 "molecular_composition") as [->|]; [cbn; tauto|]. discriminate.
    - destruct (dmem d "optimization_parameters"); cbn [rbind]; [|discriminate]. apply Hgen. discriminate.
  Qed.

  Lemma dget_rev (d : dict json) k : NoDup (dkeys d) -> dget (rev d) k = dget d k.
  Proof.
    intros Hnd. assert (Hnd' : NoDup (dkeys (rev d))).
    { unfold dkeys. rewrite map_rev. apply NoDup_rev. exact Hnd. }
    destruct (dget d k) as [v|] eqn:E.
    - apply In_dget; [exact Hnd'|]. apply in_rev. rewrite rev_involutive. apply dget_In, E.
    - apply dget_None. apply dget_None in E. intros H. apply E. unfold dkeys in *. rewrite map_rev in H.
      apply in_rev in H. exact H.
  Qed.

  Lemma not_lib k d : goes_to k d -> d <> FileLevel -> k <> "EOSgroup"%string /\ k <> "EOScross"%string.
  Proof. clear read_json path_join bead_data exp_file.
    intros H Hn. split; intros ->; apply Hn; eapply destination_unique; eauto; constructor; cbn; tauto.
  Qed.

  (** the calculation arguments before the fitting data are separated *)
  Lemma routed_th d eos0 kwargs k :
    NoDup (dkeys d) ->
    dget (snd (fold_left move_backend backends (fold_left route_entry d (eos0, kwargs)))) k =
    if smem k backends then None
    else if calc_key k then match dget d k with Some v => Some v | None => dget kwargs k end else dget kwargs k.
  Proof.
    intros Hnd. destruct (fold_left route_entry d (eos0, kwargs)) as [e1 t1] eqn:E1.
    rewrite (proj1 (fold_move backends backends_nodup e1 t1)).
    destruct (smem k backends); [reflexivity|].
    replace t1 with (snd (fold_left route_entry d (eos0, kwargs))) by (rewrite E1; reflexivity).
    rewrite fold_route_th, dget_rev by exact Hnd. reflexivity.
  Qed.

  Lemma routed_eos d eos0 kwargs s :
    NoDup (dkeys d) ->
    dget (fst (fold_left move_backend backends (fold_left route_entry d (eos0, kwargs)))) s =
    if smem s backends then
      match dget d s with
      | Some v => Some v
      | None => match dget kwargs s with Some v => Some v
                | None => dget (fst (fold_left route_entry d (eos0, kwargs))) s end end
    else dget (fst (fold_left route_entry d (eos0, kwargs))) s.
  Proof.
    intros Hnd. destruct (fold_left route_entry d (eos0, kwargs)) as [e1 t1] eqn:E1.
    rewrite (proj2 (fold_move backends backends_nodup e1 t1)).
    destruct (smem s backends) eqn:Es; [|reflexivity].
    replace t1 with (snd (fold_left route_entry d (eos0, kwargs))) by (rewrite E1; reflexivity).
    rewrite fold_route_th, dget_rev by exact Hnd.
    rewrite backend_calc by (apply smem_In; exact Es). destruct (dget d s) as [v|]; [reflexivity|].
    destruct (dget kwargs s); reflexivity.
  Qed.

  Lemma routing_eos fname path kwargs r d0 :
    extract_calc_data read_json path_join bead_data exp_file fname path kwargs = Ok r ->
    read_json fname = Ok (JDict d0) -> NoDup (dkeys d0) ->
    (* nothing dropped *)
    (forall k v s, dget d0 k = Some v -> goes_to k (ToEos s) ->
       (forall k', In k' (dkeys d0) -> goes_to k' (ToEos s) -> k' = k) ->
       (k <> s -> In s ["numba"; "cython"; "python"]%string -> dget kwargs s = None) ->
       exists v', moved path v v' /\ dget (eos_args r) s = Some v') /\
    (* nothing added *)
    (forall s v', dget (eos_args r) s = Some v' ->
       In s eos_base \/
       (In s ["numba"; "cython"; "python"]%string /\ dget kwargs s = Some v') \/
       exists k v, dget d0 k = Some v /\ moved path v v' /\ goes_to k (ToEos s)).
  Proof.
    intros H Hr Hnd0. apply extract_shape in H. destruct H as (d0' & d & eos0 & Hr' & Hd & He & Hargs & _).
    assert (d0' = d0) by congruence. subst d0'. clear Hr'.
    destruct (append_path_spec _ _ _ Hd) as (Hk & Hf & Hb).
    assert (Hnd : NoDup (dkeys d)) by (rewrite Hk; exact Hnd0).
    rewrite Hargs. split.
    - intros k v s Hv Hg Hu Hkw. destruct (not_lib _ _ Hg) as [N1 N2]; [discriminate|].
      destruct (Hf k v N1 N2 Hv) as (v' & Hv' & Hm). exists v'. split; [exact Hm|].
      rewrite routed_eos by exact Hnd. apply goes_tgt in Hg. destruct Hg as [Ht|[Hb' ->]].
      + assert (Hroute : dget (fst (fold_left route_entry d (eos0, kwargs))) s = Some v').
        { eapply fold_route_eos_unique; [exact Hnd|apply dget_In; exact Hv'|exact Ht|].
          intros k' Hk' Ht'. rewrite Hk in Hk'. apply Hu; [exact Hk'|]. apply goes_tgt. left; exact Ht'. }
        destruct (smem s backends) eqn:Es; [|exact Hroute].
        destruct (dget d s) as [w|] eqn:Ew.
        * assert (s = k).
          { apply Hu; [rewrite <- Hk; apply dget_In in Ew; change s with (fst (s, w)); apply in_map; exact Ew|].
            constructor. apply smem_In in Es. exact Es. }
          subst s. rewrite backend_not_tgt in Ht by (apply smem_In; exact Es). discriminate.
        * rewrite Hkw; [exact Hroute| |apply smem_In in Es; exact Es].
          intros ->. rewrite backend_not_tgt in Ht by (apply smem_In; exact Es). discriminate.
      + rewrite (proj2 (smem_In _ _) Hb'). rewrite Hv'. reflexivity.
    - intros s v' Hv'. rewrite routed_eos in Hv' by exact Hnd.
      assert (Hrest : dget (fst (fold_left route_entry d (eos0, kwargs))) s = Some v' ->
         In s eos_base \/ (In s ["numba"; "cython"; "python"]%string /\ dget kwargs s = Some v') \/
         exists k v, dget d0 k = Some v /\ moved path v v' /\ goes_to k (ToEos s)).
      { intros H. apply fold_route_eos_from in H. destruct H as [H|(k & Hin & Ht)].
        - left. eapply eos_start_keys; eassumption.
        - right; right. apply In_dget in Hin; [|exact Hnd].
          assert (Hg : goes_to k (ToEos s)) by (apply goes_tgt; left; exact Ht).
          destruct (not_lib _ _ Hg) as [N1 N2]; [discriminate|].
          destruct (Hb k v' N1 N2 Hin) as (v & Hv & Hm). exists k, v. repeat split; assumption. }
      destruct (smem s backends) eqn:Es; [|apply Hrest; exact Hv'].
      destruct (dget d s) as [w|] eqn:Ew.
      + injection Hv' as ->. right; right.
        assert (Hg : goes_to s (ToEos s)) by (constructor; apply smem_In in Es; exact Es).
        destruct (not_lib _ _ Hg) as [N1 N2]; [discriminate|].
        destruct (Hb s v' N1 N2 Ew) as (v & Hv & Hm). exists s, v. repeat split; assumption.
      + destruct (dget kwargs s) as [w|] eqn:Ekw; [|apply Hrest; exact Hv'].
        injection Hv' as ->. right; left. split; [apply smem_In in Es; exact Es|reflexivity].
  Qed.

  (** fitting: separation of the data sets *)
  Lemma fit_fold l : forall st st', NoDup (dkeys l) ->
    (forall k, In k (dkeys l) -> dget (fst st) k = None /\ dget (snd st) k = None) ->
    foldM (fit_entry bead_data exp_file) st l = Ok st' ->
    (forall k v, In (k, v) l -> is_data_set v ->
       exists m e, v = JDict m /\ process_exp_data bead_data exp_file m = Ok e /\ dget (fst st') k = Some e /\ dget (snd st') k = None) /\
    (forall k v, In (k, v) l -> ~ is_data_set v -> dget (snd st') k = Some v /\ dget (fst st') k = None) /\
    (forall k, ~ In k (dkeys l) -> dget (fst st') k = dget (fst st) k /\ dget (snd st') k = dget (snd st) k).
  Proof.
    induction l as [|[k0 v0] l IH]; intros st st' Hnd Hfresh H; cbn in H.
    - injection H as <-. split; [intros k v []|]. split; [intros k v []|]. intros k _; tauto.
    - destruct (fit_entry bead_data exp_file st (k0, v0)) as [st1|] eqn:E; cbn in H; [|discriminate].
      inversion Hnd as [|? ? Hni Hnd']; subst.
      assert (Hcase : (is_data_set v0 /\ exists m e, v0 = JDict m /\ process_exp_data bead_data exp_file m = Ok e /\ st1 = (dset (fst st) k0 e, snd st)) \/
                      (~ is_data_set v0 /\ st1 = (fst st, dset (snd st) k0 v0))).
      { unfold fit_entry in E. cbn in E. destruct v0 as [s|s|li|m].
        1-3: right; injection E as <-; split; [intros (m & t & Hm & _); discriminate|reflexivity].
        destruct (dmem m "data_class_type") eqn:Em.
        - left. apply dmem_dget in Em. destruct Em as [t Ht]. split; [exists m, t; tauto|].
          destruct (process_exp_data bead_data exp_file m) as [e|] eqn:Ep; cbn in E; [|discriminate].
          injection E as <-. exists m, e. tauto.
        - right. injection E as <-. split; [|reflexivity]. intros (m' & t & Hm & Ht). injection Hm as <-.
          unfold dmem in Em. rewrite Ht in Em. discriminate. }
      assert (Hk0 : dget (fst st) k0 = None /\ dget (snd st) k0 = None) by (apply Hfresh; left; reflexivity).
      assert (Hoth : forall k, k <> k0 -> dget (fst st1) k = dget (fst st) k /\ dget (snd st1) k = dget (snd st) k).
      { intros k Hk. destruct Hcase as [(_ & m & e & _ & _ & ->)|[_ ->]]; cbn; split; try reflexivity;
          apply dget_dset_other; congruence. }
      destruct (IH st1 st' Hnd') as (I1 & I2 & I3).
      { intros k Hk. assert (k <> k0) by (intros ->; contradiction).
        destruct (Hoth k H0) as [-> ->]. apply Hfresh. right; exact Hk. }
      { exact H. }
      destruct (I3 k0 Hni) as [F1 F2].
      split; [|split].
      + intros k v [E'|Hin] Hds; [|apply I1; assumption]. injection E' as -> ->.
        destruct Hcase as [(_ & m & e & -> & Hp & ->)|[Hnds _]]; [|contradiction].
        exists m, e. cbn in F1, F2. rewrite dget_dset_same in F1. repeat split; try assumption. rewrite F2. apply Hk0.
      + intros k v [E'|Hin] Hds; [|apply I2; assumption]. injection E' as -> ->.
        destruct Hcase as [(Hds' & _)|[_ ->]]; [contradiction|].
        cbn in F1, F2. rewrite dget_dset_same in F2. split; [exact F2|]. rewrite F1. apply Hk0.
      + intros k Hk. cbn in Hk. destruct (I3 k ltac:(tauto)) as [-> ->]. apply Hoth. intros ->. apply Hk; left; reflexivity.
  Qed.

  Lemma inherit_spec (eos own : dict json) : forall acc,
    acc = fold_left (fun acc kv => if dmem acc (fst kv) then acc else dset acc (fst kv) (snd kv)) eos own ->
    NoDup (dkeys eos) ->
    forall k, dget acc k = match dget own k with Some v => Some v | None => dget eos k end.
  Proof.
    revert own. induction eos as [|[k0 v0] eos IH]; intros own acc -> Hnd k; cbn [fold_left].
    - cbn. destruct (dget own k); reflexivity.
    - inversion Hnd as [|? ? Hni Hnd']; subst. erewrite IH by (try reflexivity; exact Hnd'). cbn [fst snd dget].
      unfold dmem. destruct (dget own k0) as [w|] eqn:E0.
      + destruct (dget own k) as [v|] eqn:Ek; [reflexivity|].
        destruct (String.eqb_spec k k0) as [->|Hn]; [congruence|reflexivity].
      + destruct (String.eqb_spec k k0) as [->|Hn].
        * rewrite dget_dset_same, E0. reflexivity.
        * rewrite dget_dset_other by congruence. reflexivity.
  Qed.

  Lemma NoDup_route d : forall eos th,
    NoDup (dkeys eos) -> NoDup (dkeys th) ->
    NoDup (dkeys (fst (fold_left route_entry d (eos, th)))) /\ NoDup (dkeys (snd (fold_left route_entry d (eos, th)))).
  Proof.
    induction d as [|[k0 v0] d IH]; intros eos th H1 H2; cbn [fold_left]; [split; assumption|].
    rewrite route_entry_eq. apply IH.
    - destruct (tgt k0); [apply NoDup_dset|]; assumption.
    - destruct (calc_key k0); [apply NoDup_dset|]; assumption.
  Qed.
  Lemma NoDup_move bs : forall eos th,
    NoDup (dkeys eos) -> NoDup (dkeys th) ->
    NoDup (dkeys (fst (fold_left move_backend bs (eos, th)))) /\ NoDup (dkeys (snd (fold_left move_backend bs (eos, th)))).
  Proof.
    induction bs as [|b bs IH]; intros eos th H1 H2; cbn [fold_left]; [split; assumption|].
    assert (Hmb : move_backend (eos, th) b = match dget th b with Some v => (dset eos b v, ddel th b) | None => (eos, th) end) by reflexivity.
    rewrite Hmb. destruct (dget th b); apply IH; try assumption.
    - apply NoDup_dset; assumption.
    - apply NoDup_ddel; assumption.
  Qed.
  Lemma NoDup_start d eos0 : eos_start read_json bead_data d = Ok eos0 -> NoDup (dkeys eos0).
  Proof.
    unfold eos_start.
    destruct (match dget d "bead_configuration" with
      | Some b => let* bm := bead_data b in Ok [("beads", fst bm); ("molecular_composition", snd bm)]%string
      | None => if dmem d "optimization_parameters" then Ok [] else Err ValueError end) as [e0|] eqn:E0; cbn [rbind]; [|discriminate].
    assert (He0 : NoDup (dkeys e0)).
    { destruct (dget d "bead_configuration") as [b|].
      - destruct (bead_data b); cbn in E0; [|discriminate]. injection E0 as <-. cbn. repeat constructor; cbn; intuition discriminate.
      - destruct (dmem d "optimization_parameters"); [|discriminate]. injection E0 as <-. constructor. }
    destruct (dfetch d "EOSgroup") as [g|]; cbn [rbind]; [|discriminate].
    destruct g; cbn [rbind]; try discriminate. destruct (read_json s) as [lib|]; cbn [rbind]; [|discriminate].
    destruct (dget d "EOScross") as [[]|]; try discriminate.
    - destruct (read_json s0) as [cr|]; cbn [rbind]; [|discriminate]. intros H; injection H as <-. repeat apply NoDup_dset. exact He0.
    - intros H; injection H as <-. apply NoDup_dset. exact He0.
  Qed.

  (** thermodynamic input: calculation arguments *)
  Lemma routing_calc fname path kwargs r d0 :
    extract_calc_data read_json path_join bead_data exp_file fname path kwargs = Ok r ->
    read_json fname = Ok (JDict d0) -> NoDup (dkeys d0) ->
    dget d0 "optimization_parameters" = None -> dget kwargs "optimization_parameters" = None ->
    (forall k v, dget d0 k = Some v -> goes_to k ToCalc ->
       exists v', moved path v v' /\ dget (thermo_args r) k = Some v') /\
    (forall k v', dget (thermo_args r) k = Some v' ->
       (dget kwargs k = Some v' /\ ~ In k ["numba"; "cython"; "python"]%string) \/
       exists v, dget d0 k = Some v /\ moved path v v' /\ goes_to k ToCalc) /\
    exp_sets r = [].
  Proof.
    intros H Hr Hnd0 Ho Hok. apply extract_shape in H. destruct H as (d0' & d & eos0 & Hr' & Hd & He & Hargs & Hcase).
    assert (d0' = d0) by congruence. subst d0'. clear Hr'.
    destruct (append_path_spec _ _ _ Hd) as (Hk & Hf & Hb).
    assert (Hnd : NoDup (dkeys d)) by (rewrite Hk; exact Hnd0).
    destruct Hcase as [(_ & Ht & Hs)|(Hm & _)].
    - rewrite Ht. split; [|split; [|exact Hs]].
      + intros k v Hv Hg. destruct (not_lib _ _ Hg) as [N1 N2]; [discriminate|].
        destruct (Hf k v N1 N2 Hv) as (v' & Hv' & Hm). exists v'. split; [exact Hm|].
        rewrite routed_th by exact Hnd. apply goes_calc_iff in Hg. destruct Hg as [Hc Hnb].
        rewrite (proj2 (smem_nIn _ _) Hnb). rewrite Hc, Hv'. reflexivity.
      + intros k v' Hv'. rewrite routed_th in Hv' by exact Hnd.
        destruct (smem k backends) eqn:Eb; [discriminate|]. apply smem_nIn in Eb.
        destruct (calc_key k) eqn:Ec; [|left; split; [exact Hv'|exact Eb]].
        destruct (dget d k) as [w|] eqn:Ew; [|left; split; [exact Hv'|exact Eb]].
        injection Hv' as ->. right. assert (Hg : goes_to k ToCalc) by (apply goes_calc_iff; tauto).
        destruct (not_lib _ _ Hg) as [N1 N2]; [discriminate|].
        destruct (Hb k v' N1 N2 Ew) as (v & Hv & Hm). exists v. repeat split; assumption.
    - exfalso. apply dmem_dget in Hm. destruct Hm as [v Hv]. rewrite routed_th in Hv by exact Hnd.
      assert (Hd0 : dget d "optimization_parameters" = None).
      { apply dget_None. rewrite Hk. apply dget_None. exact Ho. }
      cbn [smem existsb backends] in Hv. cbn in Hv. rewrite Hd0, Hok in Hv. discriminate.
  Qed.

  Lemma moved_data_set path v v' : moved path v v' -> (is_data_set v <-> is_data_set v').
  Proof.
    intros H. inversion H as [w Hw|m f Hf]; subst; [tauto|].
    split; intros (m' & t & Hm & Ht); injection Hm as <-.
    - exists (dset m "file" (JStr (path_join path f))), t. split; [reflexivity|]. rewrite dget_dset_other by discriminate. exact Ht.
    - rewrite dget_dset_other in Ht by discriminate. exists m, t. tauto.
  Qed.

  Lemma mapM_inherit eos2 (sets : dict (dict json)) sets' :
    mapM (fun ke => let* e := inherit_eos eos2 (snd ke) in Ok (fst ke, e)) sets = Ok sets' ->
    (forall k e, dget sets k = Some e -> exists e', inherit_eos eos2 e = Ok e' /\ dget sets' k = Some e') /\
    (forall k, dget sets k = None -> dget sets' k = None).
  Proof.
    intros H. apply mapM_Forall2 in H. induction H as [|[k e] [k' e'] sets sets' H1 H2 IH]; [split; [discriminate|reflexivity]|].
    cbn in H1. destruct (inherit_eos eos2 e) as [e1|] eqn:E; cbn in H1; [|discriminate]. injection H1 as <- <-.
    destruct IH as [I1 I2]. split.
    - intros x w. cbn. destruct (String.eqb x k); [|apply I1]. intros Hx; injection Hx as <-. exists e1. tauto.
    - intros x. cbn. destruct (String.eqb x k); [discriminate|apply I2].
  Qed.

  (** fitting input *)
  Lemma routing_fit fname path kwargs r d0 :
    extract_calc_data read_json path_join bead_data exp_file fname path kwargs = Ok r ->
    read_json fname = Ok (JDict d0) -> NoDup (dkeys d0) -> NoDup (dkeys kwargs) ->
    dmem d0 "optimization_parameters" = true ->
    (forall k v, dget d0 k = Some v -> goes_to k ToCalc -> ~ is_data_set v ->
       exists v', moved path v v' /\ dget (thermo_args r) k = Some v' /\ dget (exp_sets r) k = None) /\
    (forall k v, dget d0 k = Some v -> goes_to k ToCalc -> is_data_set v ->
       exists v' m e e', moved path v v' /\ v' = JDict m /\
         process_exp_data bead_data exp_file m = Ok e /\
         dget (exp_sets r) k = Some e' /\ dget (thermo_args r) k = None /\
         (forall x, x <> "eos_dict"%string -> dget e' x = dget e x) /\
         exists own shared, dget e' "eos_dict" = Some (JDict shared) /\
           (dget e "eos_dict" = None /\ own = [] \/ dget e "eos_dict" = Some (JDict own)) /\
           forall x, dget shared x = match dget own x with Some w => Some w | None => dget (eos_args r) x end).
  Proof.
    intros H Hr Hnd0 Hndk Ho. apply extract_shape in H. destruct H as (d0' & d & eos0 & Hr' & Hd & He & Hargs & Hcase).
    assert (d0' = d0) by congruence. subst d0'. clear Hr'.
    destruct (append_path_spec _ _ _ Hd) as (Hk & Hf & Hb).
    assert (Hnd : NoDup (dkeys d)) by (rewrite Hk; exact Hnd0).
    pose proof (NoDup_start _ _ He) as Hne0.
    set (st1 := fold_left route_entry d (eos0, kwargs)) in *.
    set (st2 := fold_left move_backend backends st1) in *.
    assert (Hnd2 : NoDup (dkeys (fst st2)) /\ NoDup (dkeys (snd st2))).
    { unfold st2. destruct (NoDup_route d eos0 kwargs Hne0 Hndk) as [N1 N2]. fold st1 in N1, N2.
      destruct st1 as [e1 t1]. apply NoDup_move; assumption. }
    destruct Hcase as [(Hm & _)|(_ & st & Hp & Hta & Hsets)].
    { exfalso. apply dmem_dget in Ho. destruct Ho as [v Hv].
      assert (Hg : goes_to "optimization_parameters" ToCalc).
      { constructor; [cbn; intuition discriminate|intros s Hs; discriminate]. }
      destruct (Hf "optimization_parameters"%string v ltac:(discriminate) ltac:(discriminate) Hv) as (v' & Hv' & _).
      assert (dget (snd st2) "optimization_parameters" = Some v').
      { unfold st2, st1. rewrite routed_th by exact Hnd. apply goes_calc_iff in Hg. destruct Hg as [Hc Hnb].
        rewrite (proj2 (smem_nIn _ _) Hnb), Hc, Hv'. reflexivity. }
      unfold dmem in Hm. rewrite H in Hm. discriminate. }
    unfold process_param_fit_inputs in Hp.
    destruct (foldM (fit_entry bead_data exp_file) ([], []) (snd st2)) as [st'|] eqn:Ef; cbn in Hp; [|discriminate].
    assert (st' = st).
    { destruct (dfetch (snd st') "optimization_parameters") as [o|]; cbn in Hp; [|discriminate].
      destruct o; try discriminate. destruct (dmem d1 "fit_bead" && dmem d1 "fit_parameter_names"); [|discriminate]. congruence. }
    subst st'. apply fit_fold in Ef; [|apply Hnd2|intros; split; reflexivity].
    destruct Ef as (F1 & F2 & _). apply mapM_inherit in Hsets. destruct Hsets as [S1 S2]. rewrite Hta.
    assert (Hth : forall k v, dget d0 k = Some v -> goes_to k ToCalc -> exists v', moved path v v' /\ In (k, v') (snd st2)).
    { intros k v Hv Hg. destruct (not_lib _ _ Hg) as [N1 N2]; [discriminate|].
      destruct (Hf k v N1 N2 Hv) as (v' & Hv' & Hm). exists v'. split; [exact Hm|]. apply dget_In.
      unfold st2, st1. rewrite routed_th by exact Hnd. apply goes_calc_iff in Hg. destruct Hg as [Hc Hnb].
      rewrite (proj2 (smem_nIn _ _) Hnb), Hc, Hv'. reflexivity. }
    split.
    - intros k v Hv Hg Hns. destruct (Hth k v Hv Hg) as (v' & Hm & Hin).
      assert (~ is_data_set v') by (rewrite <- (moved_data_set _ _ _ Hm); exact Hns).
      destruct (F2 k v' Hin H) as [G1 G2]. exists v'. repeat split; try assumption. apply S2, G2.
    - intros k v Hv Hg Hds. destruct (Hth k v Hv Hg) as (v' & Hm & Hin).
      assert (Hds' : is_data_set v') by (rewrite <- (moved_data_set _ _ _ Hm); exact Hds).
      destruct (F1 k v' Hin Hds') as (m & e & Hvm & Hpe & Hge & Hgn).
      destruct (S1 k e Hge) as (e' & Hie & Hge'). exists v', m, e, e'.
      split; [exact Hm|]. split; [exact Hvm|]. split; [exact Hpe|]. split; [exact Hge'|]. split; [exact Hgn|].
      unfold inherit_eos in Hie. rewrite Hargs.
      destruct (dget e "eos_dict") as [[s|s|li|own]|] eqn:Eo; try discriminate; injection Hie as <-.
      + split; [intros x Hx; apply dget_dset_other; congruence|].
        exists own. eexists. rewrite dget_dset_same. split; [reflexivity|]. split; [right; reflexivity|].
        intros x. eapply inherit_spec; [reflexivity|apply Hnd2].
      + split; [intros x Hx; apply dget_dset_other; congruence|].
        exists []. eexists. rewrite dget_dset_same. split; [reflexivity|]. split; [left; split; reflexivity|].
        intros x. eapply inherit_spec; [reflexivity|apply Hnd2].
  Qed.
End ReaderProofs.
