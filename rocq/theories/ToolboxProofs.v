(** Proofs for the input helpers (C01-C04). *)
From Verif Require Import Base BaseFacts ToolboxModel ToolboxSpec.
From Coq Require Import Reals Lra.

(** ** C01 *)
Lemma list_max_ge n l : In n l -> n <= list_max_nat l.
Proof.
  unfold list_max_nat. induction l as [|m l IH]; cbn; [tauto|].
  intros [->|H]; [lia|]. specialize (IH H). lia.
Qed.

Lemma list_max_in l : l <> [] -> In (list_max_nat l) l.
Proof.
  unfold list_max_nat. induction l as [|m l IH]; [congruence|].
  intros _. destruct l as [|p l'].
  - cbn. left. lia.
  - cbn [fold_right]. destruct (Nat.max_dec m (fold_right Nat.max 0 (p :: l'))) as [E|E].
    + cbn [fold_right] in E. rewrite E. left; reflexivity.
    + cbn [fold_right] in E. rewrite E. right. apply IH. discriminate.
Qed.

Lemma lx_array_In {A} (d : dict (value A)) keys n :
  In n (lx_array d keys) <-> exists k v, supplied d keys k v /\ vlen v = n.
Proof.
  unfold supplied. induction keys as [|k ks IH]; cbn.
  - split; [tauto|]. intros (k & v & (H & _) & _); tauto.
  - destruct (dget d k) as [v|] eqn:E; cbn; rewrite ?IH; split.
    + intros [H|H].
      * exists k, v. split; [split; [left; reflexivity|exact E]|exact H].
      * destruct H as (k0 & v0 & (H1 & H2) & H3). exists k0, v0. tauto.
    + intros (k0 & v0 & ([H|H1] & H2) & H3).
      * subst k0. left. assert (v0 = v) by congruence. subst; reflexivity.
      * right. exists k0, v0; tauto.
    + intros (k0 & v0 & (H1 & H2) & H3). exists k0, v0; tauto.
    + intros (k0 & v0 & ([H|H1] & H2) & H3).
      * congruence.
      * exists k0, v0; tauto.
Qed.

Lemma target_length_spec {A} (d : dict (value A)) keys lx :
  match target_length d keys lx with
  | Ok L => wanted_length d keys lx L
  | Err e => e = ValueError /\ lx = None /\ forall k v, ~ supplied d keys k v
  end.
Proof.
  unfold target_length, wanted_length. destruct lx as [n|]; [reflexivity|].
  destruct (lx_array d keys) as [|n l] eqn:E.
  - split; [reflexivity|]. split; [reflexivity|].
    intros k v H. assert (Hi : In (vlen v) (lx_array d keys)).
    { apply lx_array_In. exists k, v; tauto. }
    rewrite E in Hi. exact Hi.
  - split.
    + apply lx_array_In. rewrite E. apply list_max_in. discriminate.
    + intros k v H. apply list_max_ge. rewrite <- E. apply lx_array_In. exists k, v; tauto.
Qed.

Lemma target_length_same {A} (d : dict (value A)) keys lx L L' :
  wanted_length d keys lx L -> wanted_length d keys lx L' -> L = L'.
Proof.
  unfold wanted_length. destruct lx; [congruence|].
  intros [(k & v & H & E) M] [(k' & v' & H' & E') M'].
  specialize (M _ _ H'). specialize (M' _ _ H). lia.
Qed.

Lemma expand_entry_spec {A} L (v : value A) :
  match expand_entry L v with
  | Ok l => fits L v /\ spread L v l
  | Err e => e = ValueError /\ ~ fits L v
  end.
Proof.
  destruct v as [a|l]; cbn.
  - split; [exact I|constructor].
  - destruct (Nat.eqb_spec (length l) 1) as [E1|E1].
    + destruct l as [|a [|b l]]; cbn in E1; try lia.
      split; [left; reflexivity|constructor].
    + destruct (Nat.eqb_spec (length l) L) as [E2|E2].
      * split; [right; exact E2|constructor; assumption].
      * split; [reflexivity|]. lia.
Qed.

Lemma spread_fun {A} L (v : value A) l l' : spread L v l -> spread L v l' -> l = l'.
Proof.
  intros H H'; inversion H; subst; inversion H'; subst; try reflexivity; cbn in *; try lia.
Qed.

Lemma spread_fits {A} L (v : value A) l : spread L v l -> fits L v.
Proof. intros H; inversion H; subst; cbn; auto. Qed.

Lemma length_loop_spec {A} (d : dict (value A)) L keys acc :
  match length_loop d L keys acc with
  | Ok out =>
      (forall k v, supplied d keys k v -> exists l, dget out k = Some l /\ spread L v l) /\
      (forall k, (forall v, ~ supplied d keys k v) -> dget out k = dget acc k)
  | Err e => e = ValueError /\ exists k v, supplied d keys k v /\ ~ fits L v
  end.
Proof.
  revert acc. induction keys as [|k ks IH]; intros acc; cbn [length_loop].
  - split.
    + intros k v [[] _].
    + reflexivity.
  - destruct (dget d k) as [v|] eqn:E.
    + pose proof (expand_entry_spec L v) as Hx.
      destruct (expand_entry L v) as [l|e]; cbn [rbind].
      * destruct Hx as [Hf Hs]. specialize (IH (dset acc k l)).
        destruct (length_loop d L ks (dset acc k l)) as [out|e].
        -- destruct IH as [I1 I2]. split.
           ++ intros k0 v0 [[<-|Hin] Hg].
              ** assert (v0 = v) by congruence; subst v0.
                 destruct (in_dec string_dec k ks) as [Hk|Hk].
                 --- apply I1. split; assumption.
                 --- exists l. split; [|exact Hs].
                     rewrite I2; [apply dget_dset_same|]. intros w [Hw _]; tauto.
              ** apply I1; split; assumption.
           ++ intros k0 Hno. rewrite I2.
              ** apply dget_dset_other. intros <-. apply (Hno v). split; [left; reflexivity|exact E].
              ** intros w [Hw1 Hw2]. apply (Hno w). split; [right; exact Hw1|exact Hw2].
        -- destruct IH as (-> & k0 & v0 & [H1 H2] & H3). split; [reflexivity|].
           exists k0, v0. split; [split; [right; exact H1|exact H2]|exact H3].
      * destruct Hx as [-> Hnf]. split; [reflexivity|]. exists k, v.
        split; [split; [left; reflexivity|exact E]|exact Hnf].
    + specialize (IH acc). destruct (length_loop d L ks acc) as [out|e].
      * destruct IH as [I1 I2]. split.
        -- intros k0 v0 [[<-|Hin] Hg]; [congruence|]. apply I1; split; assumption.
        -- intros k0 Hno. apply I2. intros w [Hw1 Hw2]. apply (Hno w). split; [right; exact Hw1|exact Hw2].
      * destruct IH as (-> & k0 & v0 & [H1 H2] & H3). split; [reflexivity|].
        exists k0, v0. split; [split; [right; exact H1|exact H2]|exact H3].
Qed.

Lemma check_length_dict_spec {A} (d : dict (value A)) keys lx :
  match check_length_dict d keys lx with
  | Ok out =>
      exists L, wanted_length d keys lx L /\
        (forall k v, supplied d keys k v -> exists l, dget out k = Some l /\ spread L v l) /\
        (forall k, (forall v, ~ supplied d keys k v) -> dget out k = None)
  | Err e => e = ValueError /\
      ((lx = None /\ forall k v, ~ supplied d keys k v) \/
       exists L, wanted_length d keys lx L /\ exists k v, supplied d keys k v /\ ~ fits L v)
  end.
Proof.
  unfold check_length_dict.
  pose proof (target_length_spec d keys lx) as Ht.
  destruct (target_length d keys lx) as [L|e]; cbn [rbind].
  - pose proof (length_loop_spec d L keys []) as Hl.
    destruct (length_loop d L keys []) as [out|e].
    + exists L. destruct Hl as [H1 H2]. split; [exact Ht|]. split; [exact H1|exact H2].
    + destruct Hl as [-> Hl]. split; [reflexivity|]. right. exists L. split; [exact Ht|exact Hl].
  - destruct Ht as (-> & -> & H). split; [reflexivity|]. left; split; [reflexivity|exact H].
Qed.

Lemma spread_length {A} L (v : value A) l : spread L v l -> length l = L.
Proof. intros H; inversion H; subst; try apply repeat_length; reflexivity. Qed.

Lemma check_length_dict_lengths {A} (d : dict (value A)) keys lx out :
  check_length_dict d keys lx = Ok out ->
  exists L, wanted_length d keys lx L /\ forall k l, dget out k = Some l -> length l = L.
Proof.
  intros H. pose proof (check_length_dict_spec d keys lx) as Hs. rewrite H in Hs.
  destruct Hs as (L & Hw & H1 & H2). exists L. split; [exact Hw|].
  intros k l Hg.
  destruct (in_dec string_dec k keys) as [Hk|Hk].
  - destruct (dget d k) as [v|] eqn:E.
    + destruct (H1 k v (conj Hk E)) as (l' & Hl' & Hs).
      assert (l' = l) by congruence. subst. eapply spread_length; exact Hs.
    + rewrite H2 in Hg; [discriminate|]. intros v [_ Hv]; congruence.
  - rewrite H2 in Hg; [discriminate|]. intros v [Hv _]; tauto.
Qed.

Lemma check_length_dict_accepts {A} (d : dict (value A)) keys lx L :
  wanted_length d keys lx L ->
  (forall k v, supplied d keys k v -> fits L v) ->
  exists out, check_length_dict d keys lx = Ok out.
Proof.
  intros Hw Hf. pose proof (check_length_dict_spec d keys lx) as Hs.
  destruct (check_length_dict d keys lx) as [out|e]; [exists out; reflexivity|].
  exfalso. destruct Hs as (_ & [(-> & Hno)|(L' & Hw' & k & v & Hsup & Hnf)]).
  - destruct Hw as [(k & v & H & _) _]. exact (Hno k v H).
  - assert (L' = L) by (eapply target_length_same; eassumption). subst.
    apply Hnf, (Hf k v Hsup).
Qed.

(** ** C02 *)
Lemma default_value_spec {A} lx (v : value A) : stored_default lx v (default_value lx v).
Proof. destruct v, lx; cbn; constructor. Qed.

Definition sd_step {A} (d : dict (value A)) lx acc (kv : string * value A) :=
  if dmem d (fst kv) then acc else dset acc (fst kv) (default_value lx (snd kv)).

Lemma sd_fold_present {A} (d : dict (value A)) lx kvs acc k v :
  dget d k = Some v -> dget (fold_left (sd_step d lx) kvs acc) k = dget acc k.
Proof.
  intros Hd. revert acc. induction kvs as [|[k0 v0] kvs IH]; intros acc; cbn [fold_left]; [reflexivity|].
  rewrite IH. unfold sd_step; cbn. destruct (dmem d k0) eqn:E; [reflexivity|].
  apply dget_dset_other. intros ->. unfold dmem in E. rewrite Hd in E. discriminate.
Qed.

Lemma sd_fold_other {A} (d : dict (value A)) lx kvs acc k :
  ~ In k (map fst kvs) -> dget (fold_left (sd_step d lx) kvs acc) k = dget acc k.
Proof.
  revert acc. induction kvs as [|[k0 v0] kvs IH]; intros acc Hn; cbn [fold_left]; [reflexivity|].
  cbn in Hn. rewrite IH by tauto. unfold sd_step; cbn. destruct (dmem d k0); [reflexivity|].
  apply dget_dset_other. tauto.
Qed.

Lemma sd_fold_absent {A} (d : dict (value A)) lx kvs acc k :
  dget d k = None -> In k (map fst kvs) ->
  exists v, In (k, v) kvs /\ dget (fold_left (sd_step d lx) kvs acc) k = Some (default_value lx v).
Proof.
  intros Hd. revert acc. induction kvs as [|[k0 v0] kvs IH]; intros acc Hi; [destruct Hi|].
  cbn [fold_left]. destruct (in_dec string_dec k (map fst kvs)) as [H|H].
  - destruct (IH (sd_step d lx acc (k0, v0)) H) as (v & Hv & E). exists v. split; [right; exact Hv|exact E].
  - destruct Hi as [E|Hi]; [cbn in E; subst k0|tauto].
    exists v0. split; [left; reflexivity|]. rewrite sd_fold_other by exact H.
    unfold sd_step; cbn. unfold dmem. rewrite Hd. apply dget_dset_same.
Qed.

Lemma map_fst_combine {A B} (l : list A) (l' : list B) :
  length l = length l' -> map fst (combine l l') = l.
Proof.
  revert l'. induction l as [|x l IH]; intros [|y l']; cbn; try discriminate; [reflexivity|].
  intros H. f_equal. apply IH. lia.
Qed.

Lemma In_combine_nth {A B} (l : list A) (l' : list B) a b :
  In (a, b) (combine l l') <-> exists i, nth_error l i = Some a /\ nth_error l' i = Some b.
Proof.
  revert l'. induction l as [|x l IH]; intros [|y l']; cbn.
  - split; [tauto|]. intros (i & H & _). destruct i; discriminate.
  - split; [tauto|]. intros (i & H & _). destruct i; discriminate.
  - split; [tauto|]. intros (i & _ & H). destruct i; discriminate.
  - rewrite IH. split.
    + intros [E|(i & H1 & H2)].
      * injection E as -> ->. exists 0; cbn; tauto.
      * exists (S i); cbn; tauto.
    + intros ([|i] & H1 & H2); cbn in H1, H2.
      * left. congruence.
      * right. exists i; tauto.
Qed.

Lemma pair_defaults_In {A} keys (values : value (value A)) kvs :
  pair_defaults keys values = Ok kvs ->
  (forall k v, In (k, v) kvs <-> listed_default keys values k v) /\
  (forall k, In k (map fst kvs) <-> listed_key keys k).
Proof.
  unfold pair_defaults. destruct values as [v0|vs], keys as [k0|ks]; cbn.
  - intros H; injection H as <-. cbn. split.
    + intros k v. split; [intros [E|[]]; split; congruence|intros [-> ->]; left; reflexivity].
    + intros k. split; [intros [E|[]]; congruence|intros ->; left; reflexivity].
  - intros H; injection H as <-. split.
    + intros k v. rewrite in_map_iff. split.
      * intros (x & E & Hx). injection E as -> ->. split; [exact Hx|reflexivity].
      * intros [Hk ->]. exists k. split; [reflexivity|exact Hk].
    + intros k. rewrite map_map. cbn. rewrite map_id. reflexivity.
  - destruct vs as [|v0 [|v1 vs]]; try discriminate. intros H; injection H as <-. cbn. split.
    + intros k v. split; [intros [E|[]]; split; congruence|]. intros [-> E]. injection E as ->. left; reflexivity.
    + intros k. split; [intros [E|[]]; congruence|intros ->; left; reflexivity].
  - destruct (Nat.eqb_spec (length ks) (length vs)) as [E|E]; [|discriminate].
    intros H; injection H as <-. split.
    + intros k v. apply In_combine_nth.
    + intros k. rewrite (map_fst_combine ks vs) by exact E. reflexivity.
Qed.

Lemma set_defaults_spec {A} (d : dict (value A)) keys values lx out :
  set_defaults d keys values lx = Ok out ->
  (forall k v, dget d k = Some v -> dget out k = Some v) /\
  (forall k, dget d k = None -> listed_key keys k ->
     exists v w, listed_default keys values k v /\ stored_default lx v w /\ dget out k = Some w) /\
  (forall k, dget d k = None -> ~ listed_key keys k -> dget out k = None).
Proof.
  unfold set_defaults. destruct (pair_defaults keys values) as [kvs|e] eqn:E; cbn [rbind]; [|discriminate].
  apply pair_defaults_In in E. destruct E as [E1 E2]. intros H. injection H as <-.
  change (fold_left _ kvs d) with (fold_left (sd_step d lx) kvs d). split; [|split].
  - intros k v Hk. rewrite (sd_fold_present d lx kvs d k v Hk). exact Hk.
  - intros k Hk Hl. apply E2 in Hl. destruct (sd_fold_absent d lx kvs d k Hk Hl) as (v & Hi & Hg).
    exists v, (default_value lx v). split; [apply E1; exact Hi|]. split; [apply default_value_spec|exact Hg].
  - intros k Hk Hl. rewrite sd_fold_other; [exact Hk|]. rewrite E2. exact Hl.
Qed.

Lemma set_defaults_error {A} (d : dict (value A)) keys values lx e :
  set_defaults d keys values lx = Err e ->
  e = ValueError /\
  match keys, values with
  | ManyKeys ks, Arr vs => length ks <> length vs
  | OneKey _, Arr vs => length vs <> 1
  | _, Scalar _ => False
  end.
Proof.
  unfold set_defaults, pair_defaults. destruct values as [v0|vs], keys as [k0|ks]; cbn; try discriminate.
  - destruct vs as [|v0 [|v1 vs]]; cbn; intros H; try discriminate; injection H as <-; split; try reflexivity; lia.
  - destruct (Nat.eqb_spec (length ks) (length vs)) as [E|E]; cbn; [discriminate|].
    intros H; injection H as <-. split; [reflexivity|exact E].
Qed.

Lemma sd_fold_id {A} (d : dict (value A)) lx kvs acc :
  (forall k, In k (map fst kvs) -> dmem d k = true) -> fold_left (sd_step d lx) kvs acc = acc.
Proof.
  revert acc. induction kvs as [|[k v] kvs IH]; intros acc H; cbn [fold_left]; [reflexivity|].
  unfold sd_step at 2. cbn. rewrite H by (left; reflexivity). apply IH.
  intros k' Hk'. apply H. right; exact Hk'.
Qed.

Lemma set_defaults_idem {A} (d : dict (value A)) keys values lx out :
  set_defaults d keys values lx = Ok out -> set_defaults out keys values lx = Ok out.
Proof.
  intros H. pose proof (set_defaults_spec d keys values lx out H) as (S1 & S2 & _).
  unfold set_defaults in *. destruct (pair_defaults keys values) as [kvs|e] eqn:E; cbn [rbind] in *; [|discriminate].
  f_equal. change (fold_left (sd_step out lx) kvs out = out). apply sd_fold_id.
  intros k Hk. apply dmem_dget. apply pair_defaults_In in E. destruct E as [_ E2].
  apply E2 in Hk. destruct (dget d k) as [v|] eqn:Ed.
  - exists v. apply S1, Ed.
  - destruct (S2 k Ed Hk) as (v & w & _ & _ & Hw). exists w; exact Hw.
Qed.

(** ** C03 *)
Lemma cd_step_nonzero eps relative h x :
  (0 < eps)%R -> (relative = true \/ h <> 0%R) -> cd_step eps relative h x <> 0%R.
Proof.
  intros He Hr. unfold cd_step. destruct relative.
  - destruct (Rlt_dec (x * h) eps) as [H|H]; lra.
  - destruct Hr as [Hr|Hr]; [discriminate|exact Hr].
Qed.

Lemma combine_map_self {A B} (f : A -> B) l : combine l (map f l) = map (fun x => (x, f x)) l.
Proof. induction l as [|x l IH]; cbn; [reflexivity|]. f_equal; exact IH. Qed.

Lemma combine_map2 {A B C} (f : A -> B) (g : A -> C) l :
  combine (map f l) (map g l) = map (fun x => (f x, g x)) l.
Proof. induction l as [|x l IH]; cbn; [reflexivity|]. f_equal; exact IH. Qed.

(** for a pointwise function the routine is the symmetric difference quotient *)
Lemma central_difference_pointwise eps f relative h xs :
  central_difference eps (map f) relative h xs =
  map (fun x => let s := cd_step eps relative h x in ((f (x + s) - f (x - s)) / (2 * s))%R) xs.
Proof.
  unfold central_difference.
  rewrite combine_map_self, !map_map. cbn [fst snd].
  rewrite map_app, !map_map, app_length, !map_length.
  replace ((length xs + length xs) / 2)%nat with (length xs).
  2:{ replace (length xs + length xs) with (length xs * 2) by lia. rewrite Nat.div_mul; lia. }
  rewrite firstn_app, skipn_app, !map_length, Nat.sub_diag. cbn [firstn skipn].
  rewrite app_nil_r. rewrite firstn_all2 by (rewrite map_length; lia).
  rewrite skipn_all2 by (rewrite map_length; lia). cbn [app].
  rewrite combine_map2, combine_map2, map_map. reflexivity.
Qed.

Lemma central_difference_quadratic eps a b c relative h xs :
  (0 < eps)%R -> (relative = true \/ h <> 0%R) ->
  central_difference eps (map (quad a b c)) relative h xs = map (quad' a b) xs.
Proof.
  intros He Hr. rewrite central_difference_pointwise. apply map_ext. intros x. cbv zeta.
  pose proof (cd_step_nonzero eps relative h x He Hr) as Hs. unfold quad, quad'. field. exact Hs.
Qed.

(** ** C04 *)
Lemma solve_root_unknown {N} dflt m x0 (b : bounds_arg N) opts :
  ~ In m known_methods -> solve_root dflt m x0 b opts = Err ValueError.
Proof. change known_methods with supported_methods. intros H. unfold solve_root. apply smem_nIn in H. rewrite H. reflexivity. Qed.

Lemma check_pairs_none {N} t (b : list (option (list (option N)))) :
  existsb (fun x => match x with None => true | Some _ => false end) b = true ->
  exists e, check_pairs t b = Err e.
Proof.
  induction b as [|[p|] b IH]; cbn; [discriminate| |].
  - intros H. destruct (Nat.eqb (length p) 2); [|eexists; reflexivity].
    destruct t; [eexists; reflexivity|]. destruct (IH H) as [e He]. rewrite He. cbn. eexists; reflexivity.
  - intros _. eexists; reflexivity.
Qed.

Lemma dispatch_method {N} (dflt : string -> dict N) m x0 b opts c :
  dispatch dflt m x0 b opts = Ok c -> call_method c = m.
Proof.
  unfold dispatch.
  repeat match goal with
  | |- (if ?t then _ else _) = _ -> _ => destruct t eqn:?
  end; intros H; try discriminate; try (injection H as <-; reflexivity).
  - destruct b as [|[|lo [|hi [|? ?]]] b]; try discriminate. injection H as <-; reflexivity.
  - injection H as <-. cbn. symmetry. match goal with H : (_ =? _)%string = true |- _ => idtac end.
    match goal with H : (m =? "least_squares")%string = true |- _ => apply String.eqb_eq in H; exact H end.
  - destruct b as [|[|lo [|hi [|? ?]]] b]; try discriminate. injection H as <-; reflexivity.
Qed.

Lemma solve_root_method {N} dflt m x0 (b : bounds_arg N) opts c :
  solve_root dflt m x0 b opts = Ok c ->
  call_method c = m \/
  (call_method c = "bisect"%string /\ x0 = XNone /\ In m point_methods) \/
  (call_method c = "least_squares"%string /\ (exists n v, x0 = XVec n v /\ 1 < n) /\
   In m ["brentq"; "bisect"]%string).
Proof.
  unfold solve_root. destruct (smem m supported_methods) eqn:Es; [|discriminate].
  unfold fallback_x0. destruct (is_none_x0 x0 && smem m needs_x0) eqn:E0.
  - apply andb_true_iff in E0. destruct E0 as [Ex Em]. destruct x0 as [|n v]; [|discriminate].
    apply smem_In in Em.
    destruct (is_bnone b); cbn [rbind]; [discriminate|].
    unfold fallback_size. cbn [x0_size]. cbn [Nat.ltb Nat.leb andb].
    destruct (wrap_bounds b) as [[t bl]|e]; cbn [rbind fst snd]; [|discriminate].
    unfold fallback_bounds.
    destruct (existsb _ bl) eqn:Eb; cbn [andb].
    + cbn [smem existsb]. cbn [rbind]. discriminate.
    + cbn [rbind]. destruct (check_pairs t bl) as [ps|e]; cbn [rbind]; [|discriminate].
      intros H. apply dispatch_method in H. right; left. split; [exact H|]. split; [reflexivity|exact Em].
  - cbn [rbind]. unfold fallback_size.
    destruct (Nat.ltb 1 (x0_size x0) && smem m ["brentq"; "bisect"]%string) eqn:E1.
    + apply andb_true_iff in E1. destruct E1 as [El Em].
      destruct (wrap_bounds b) as [[t bl]|e]; cbn [rbind fst snd]; [|discriminate].
      unfold fallback_bounds.
      replace (smem "least_squares"%string ["brentq"; "bisect"]%string) with false by reflexivity.
      rewrite andb_false_r. cbn [rbind].
      destruct (check_pairs t bl) as [ps|e]; cbn [rbind]; [|discriminate].
      intros H. apply dispatch_method in H. right; right. split; [exact H|].
      split; [|apply smem_In; exact Em].
      apply Nat.ltb_lt in El.
      destruct x0 as [|n v]; cbn [x0_size] in El; [lia|]. exists n, v. split; [reflexivity|exact El].
    + destruct (wrap_bounds b) as [[t bl]|e]; cbn [rbind fst snd]; [|discriminate].
      unfold fallback_bounds.
      destruct (existsb _ bl) eqn:Eb; cbn [andb].
      * destruct (check_pairs_none t bl Eb) as [e He]. rewrite He.
        destruct (smem m ["brentq"; "bisect"]%string); [destruct (is_none_x0 x0)|]; cbn [rbind]; discriminate.
      * cbn [rbind]. destruct (check_pairs t bl) as [ps|e]; cbn [rbind]; [|discriminate].
        intros H. apply dispatch_method in H. left; exact H.
Qed.

Lemma solve_root_bracket {N} dflt m x0 lo hi opts c :
  (m = "bisect"%string \/ m = "brentq"%string) -> (@x0_size N x0 <= 1) ->
  solve_root dflt m x0 (BFlat [lo; hi]) opts = Ok c ->
  exists o, c = CallBracket m lo hi o.
Proof.
  intros Hm Hx. apply Nat.ltb_ge in Hx.
  unfold solve_root, fallback_x0, fallback_size, fallback_bounds. rewrite Hx.
  destruct Hm as [-> | ->]; cbn; rewrite ?andb_false_r; cbn; intros H; injection H as <-; eexists; reflexivity.
Qed.

Lemma solve_root_no_bounds {N} dflt m (x0 : x0_arg N) opts :
  exists e, solve_root dflt m x0 BNone opts = Err e.
Proof.
  unfold solve_root. destruct (smem m supported_methods); [|eexists; reflexivity].
  unfold fallback_x0. destruct (is_none_x0 x0 && smem m needs_x0); cbn; eexists; reflexivity.
Qed.

Lemma solve_root_hybr_broyden {N} dflt m x0 (b : bounds_arg N) opts :
  m = "hybr_broyden1"%string \/ m = "hybr_broyden2"%string ->
  In m known_methods /\ exists e, solve_root dflt m x0 b opts = Err e.
Proof.
  intros Hm. split.
  - destruct Hm as [-> | ->]; apply smem_In; reflexivity.
  - destruct (solve_root dflt m x0 b opts) as [c|e] eqn:E; [|eexists; reflexivity].
    exfalso. unfold solve_root in E.
    assert (Es : smem m supported_methods = true) by (destruct Hm as [-> | ->]; reflexivity).
    rewrite Es in E. unfold fallback_x0 in E.
    replace (smem m needs_x0) with false in E by (destruct Hm as [-> | ->]; reflexivity).
    rewrite andb_false_r in E. cbn [rbind] in E. unfold fallback_size in E.
    replace (smem m ["brentq"; "bisect"]%string) with false in E by (destruct Hm as [-> | ->]; reflexivity).
    rewrite andb_false_r in E.
    destruct (wrap_bounds b) as [[t bl]|e]; cbn [rbind fst snd] in E; [|discriminate].
    unfold fallback_bounds in E.
    replace (smem m ["brentq"; "bisect"]%string) with false in E by (destruct Hm as [-> | ->]; reflexivity).
    rewrite andb_false_r in E. cbn [rbind] in E.
    destruct (check_pairs t bl) as [ps|e]; cbn [rbind] in E; [|discriminate].
    destruct Hm as [-> | ->]; cbn in E; discriminate.
Qed.

(** minimisers drop the bounds of a one-dimensional problem *)
Lemma solve_root_min_bounds {N} (dflt : string -> dict N) m x0 lo hi opts :
  In m ["TNC"; "L-BFGS-B"; "SLSQP"]%string ->
  solve_root dflt m x0 (BFlat [lo; hi]) opts
  = Ok (CallMinimize m x0 None (merge_opts (dflt m) opts)).
Proof.
  intros [<-|[<-|[<-|[]]]]; unfold solve_root, fallback_x0, fallback_size, fallback_bounds; cbn;
    rewrite andb_false_r; cbn; rewrite andb_false_r; reflexivity.
Qed.

Lemma dupdate_get {A} (d e : dict A) k :
  NoDup (dkeys e) ->
  dget (dupdate d e) k = match dget e k with Some v => Some v | None => dget d k end.
Proof.
  unfold dupdate. revert d. induction e as [|[a v] e IH]; intros d Hnd; cbn; [reflexivity|].
  inversion Hnd as [|? ? Hna Hnd']; subst. rewrite IH by exact Hnd'.
  destruct (String.eqb_spec k a) as [->|Hk].
  - destruct (dget e a) as [w|] eqn:E.
    + exfalso. apply Hna. apply dget_In in E. change a with (fst (a, w)). apply in_map, E.
    + apply dget_dset_same.
  - destruct (dget e k); [reflexivity|]. apply dget_dset_other. congruence.
Qed.

Lemma filter_dget {A} (d : dict A) p k v :
  dget d k = Some v -> p k = true -> dget (filter (fun kv => p (fst kv)) d) k = Some v.
Proof.
  induction d as [|[a w] d IH]; cbn; [discriminate|].
  destruct (String.eqb_spec k a) as [->|Hn].
  - intros H Hp. rewrite Hp. cbn. rewrite String.eqb_refl. exact H.
  - intros H Hp. destruct (p a); cbn; [|apply IH; assumption].
    apply String.eqb_neq in Hn. rewrite Hn. apply IH; assumption.
Qed.

Lemma NoDup_filter_keys {A} (d : dict A) p :
  NoDup (dkeys d) -> NoDup (dkeys (filter (fun kv => p (fst kv)) d)).
Proof.
  induction d as [|[a w] d IH]; cbn; intros H; [constructor|].
  inversion H as [|? ? Hna Hnd]; subst. destruct (p a); cbn; [|apply IH; exact Hnd].
  constructor; [|apply IH; exact Hnd].
  intros Hi. apply Hna. unfold dkeys in *. apply in_map_iff in Hi. destruct Hi as (x & Ex & Hx).
  apply filter_In in Hx. rewrite <- Ex. apply in_map. tauto.
Qed.

Lemma merge_opts_user {N} (dflt opts : dict N) k v :
  NoDup (dkeys opts) -> dget opts k = Some v -> dget (merge_opts dflt opts) k = Some v.
Proof. intros Hn Hk. unfold merge_opts. rewrite dupdate_get by exact Hn. rewrite Hk. reflexivity. Qed.

Lemma merge_bracket_user {N} (dflt opts : dict N) k v :
  NoDup (dkeys opts) -> In k ["xtol"; "rtol"; "maxiter"; "full_output"; "disp"]%string ->
  dget opts k = Some v -> dget (merge_bracket_opts dflt opts) k = Some v.
Proof.
  intros Hn Hi Hk. unfold merge_bracket_opts. rewrite dupdate_get by (apply (NoDup_filter_keys opts (fun k => smem k bracket_opts)); exact Hn).
  rewrite (filter_dget opts (fun k => smem k bracket_opts) k v Hk); [reflexivity|].
  apply smem_In. exact Hi.
Qed.

Lemma dispatch_opts {N} (dflt : string -> dict N) m x0 b opts c k v :
  NoDup (dkeys opts) -> In k ["xtol"; "rtol"; "maxiter"; "full_output"; "disp"]%string ->
  dispatch dflt m x0 b opts = Ok c -> dget opts k = Some v -> dget (call_opts c) k = Some v.
Proof.
  intros Hn Hi. unfold dispatch.
  repeat match goal with
  | |- (if ?t then _ else _) = _ -> _ => destruct t eqn:?
  end; intros H Hk; try discriminate;
  try (injection H as <-; cbn [call_opts]; apply merge_opts_user; assumption).
  - destruct b as [|[|lo [|hi [|? ?]]] b]; try discriminate. injection H as <-. apply merge_bracket_user; assumption.
  - destruct b as [|[|lo [|hi [|? ?]]] b]; try discriminate. injection H as <-. apply merge_bracket_user; assumption.
Qed.

Lemma solve_root_opts {N} dflt m x0 (b : bounds_arg N) opts c k v :
  NoDup (dkeys opts) -> In k ["xtol"; "rtol"; "maxiter"; "full_output"; "disp"]%string ->
  solve_root dflt m x0 b opts = Ok c -> dget opts k = Some v -> dget (call_opts c) k = Some v.
Proof.
  intros Hn Hi H Hk. unfold solve_root in H.
  destruct (smem m supported_methods); [|discriminate].
  destruct (fallback_x0 m x0 b) as [m1|e]; cbn [rbind] in H; [|discriminate].
  destruct (wrap_bounds b) as [[t bl]|e]; cbn [rbind fst snd] in H; [|discriminate].
  destruct (fallback_bounds _ x0 bl) as [m3|e]; cbn [rbind] in H; [|discriminate].
  destruct (check_pairs t bl) as [ps|e]; cbn [rbind] in H; [|discriminate].
  eapply dispatch_opts; eassumption.
Qed.

(** ** C03, rounding: for a negative point the relative step is the absolute 2*eps *)
Lemma cd_float_lost :
  cd_xp_float f_1em5 f_m10 = cd_xm_float f_1em5 f_m10.
Proof. vm_compute. reflexivity. Qed.

(** a listed scalar method with a proper bracket, and every other listed method with a
    start point and bounds, does run *)
Lemma solve_root_runs {N} (dflt : string -> dict N) m n v lo hi opts :
  In m known_methods -> m <> "hybr_broyden1"%string -> m <> "hybr_broyden2"%string ->
  n <= 1 ->
  exists c, solve_root dflt m (XVec n v) (BFlat [lo; hi]) opts = Ok c /\ call_method c = m.
Proof.
  intros Hm H1 H2 Hn. apply Nat.ltb_ge in Hn.
  cbn in Hm.
  repeat (destruct Hm as [<-|Hm]; [
    try congruence; unfold solve_root, fallback_x0, fallback_size, fallback_bounds; cbn [x0_size];
    rewrite Hn; cbn; eexists; split; reflexivity|]).
  destruct Hm.
Qed.
