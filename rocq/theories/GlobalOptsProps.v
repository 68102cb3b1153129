(** C113-C114: the options of a fit and the optimiser that runs it. *)
From Coq Require Import QArith.
From Verif Require Import Base BaseFacts Num FitSetupModel GlobalOptsModel.
Open Scope nat_scope.
Open Scope string_scope.

(** * Specification *)
(** what an optimiser should receive under the name [k]: what the user wrote, or else the default *)
Definition chosen (user defaults : dict gval) (k : string) : option gval :=
  match dget user k with Some v => Some v | None => dget defaults k end.
(** the four names that have to do with the intermediate file *)
Definition file_names : list string := ["obj_cut"; "filename"; "write_intermediate_file"; "callback"].
(** the user asks for the intermediate file *)
Definition wants_file (g : dict gval) : bool :=
  dmem g "obj_cut" || dmem g "filename" || match dget g "write_intermediate_file" with Some v => truthy v | None => false end.
(** [a] is written before [b] in the dictionary *)
Definition before (d : dict gval) (a b : string) : Prop :=
  exists d1 d2, d = (d1 ++ d2)%list /\ In a (dkeys d1) /\ In b (dkeys d2).
(** a number above one *)
Definition many (v : gval) : Prop := exists x, v = GNum x /\ nlt (Fin 1) x = true.

(** * Lemmas *)
Lemma smem_In x l : smem x l = true <-> In x l.
Proof.
  unfold smem. rewrite existsb_exists. split.
  - intros (y & Hy & E). apply String.eqb_eq in E. subst. exact Hy.
  - intros H. exists x. split; [exact H|apply String.eqb_refl].
Qed.
Lemma smem_false x l : smem x l = false <-> ~ In x l.
Proof.
  split; intros H.
  - intros Hi. apply smem_In in Hi. congruence.
  - destruct (smem x l) eqn:E; [|reflexivity]. apply smem_In in E. tauto.
Qed.
Lemma ddel_In {A} (d : dict A) k x : In x (dkeys (ddel d k)) <-> In x (dkeys d) /\ x <> k.
Proof.
  induction d as [|[a b] d IH]; cbn [ddel dkeys map fst In]; [tauto|].
  destruct (String.eqb_spec k a) as [->|Hn].
  - unfold dkeys in IH. rewrite IH. intuition congruence.
  - cbn [map fst In]. unfold dkeys in IH. rewrite IH. intuition congruence.
Qed.
Lemma ddel_app {A} (d1 d2 : dict A) k : ddel (d1 ++ d2)%list k = (ddel d1 k ++ ddel d2 k)%list.
Proof. induction d1 as [|[a b] d1 IH]; [reflexivity|]. cbn. rewrite IH. destruct (String.eqb k a); reflexivity. Qed.
Lemma NoDup_ddel {A} (d : dict A) k : NoDup (dkeys d) -> NoDup (dkeys (ddel d k)).
Proof.
  induction d as [|[a b] d IH]; intros H; [constructor|].
  inversion H as [|? ? Hna Hnd]; subst. cbn [ddel]. destruct (String.eqb k a); [apply IH, Hnd|].
  cbn [dkeys map fst]. constructor; [|apply IH, Hnd]. intros Hi. apply ddel_In in Hi. tauto.
Qed.

Lemma intermediate_spec g k :
  dget (intermediate_file g) k =
  if smem k ["obj_cut"; "filename"] then None
  else if String.eqb k "write_intermediate_file" then if wants_file g then None else dget g k
  else if String.eqb k "callback" then if wants_file g then Some (GCallback (dget g "obj_cut") (dget g "filename")) else dget g k
  else dget g k.
Proof.
  unfold intermediate_file, wants_file, dmem.
  assert (E1 : forall v : gval, dget (dset (ddel g "obj_cut") "write_intermediate_file" v) "filename" = dget g "filename").
  { intros v. rewrite dget_dset_other by discriminate. apply dget_ddel_other. discriminate. }
  destruct (dget g "obj_cut") as [cut|] eqn:Ec; cbn [orb].
  - rewrite E1. destruct (dget g "filename") as [f|] eqn:Ef.
    + rewrite dget_dset_same. cbn [truthy].
      unfold smem; cbn [existsb].
      destruct (String.eqb_spec k "callback") as [->|Hc].
      { cbn. rewrite dget_dset_same. reflexivity. }
      rewrite dget_dset_other by congruence.
      destruct (String.eqb_spec k "write_intermediate_file") as [->|Hw].
      { cbn. apply dget_ddel_same. }
      rewrite dget_ddel_other by congruence. rewrite dget_dset_other by congruence.
      destruct (String.eqb_spec k "filename") as [->|Hf]. { cbn. apply dget_ddel_same. }
      rewrite dget_ddel_other by congruence. rewrite dget_dset_other by congruence.
      destruct (String.eqb_spec k "obj_cut") as [->|Ho]. { cbn. apply dget_ddel_same. }
      cbn. apply dget_ddel_other. congruence.
    + rewrite dget_dset_same. cbn [truthy].
      unfold smem; cbn [existsb].
      destruct (String.eqb_spec k "callback") as [->|Hc].
      { cbn. rewrite dget_dset_same. reflexivity. }
      rewrite dget_dset_other by congruence.
      destruct (String.eqb_spec k "write_intermediate_file") as [->|Hw].
      { cbn. apply dget_ddel_same. }
      rewrite dget_ddel_other by congruence. rewrite dget_dset_other by congruence.
      destruct (String.eqb_spec k "obj_cut") as [->|Ho]. { cbn. apply dget_ddel_same. }
      rewrite dget_ddel_other by congruence.
      destruct (String.eqb_spec k "filename") as [->|Hf]; cbn; [exact Ef|reflexivity].
  - destruct (dget g "filename") as [f|] eqn:Ef; cbn [orb].
    + rewrite dget_dset_same. cbn [truthy].
      unfold smem; cbn [existsb].
      destruct (String.eqb_spec k "callback") as [->|Hc].
      { cbn. rewrite dget_dset_same. reflexivity. }
      rewrite dget_dset_other by congruence.
      destruct (String.eqb_spec k "write_intermediate_file") as [->|Hw].
      { cbn. apply dget_ddel_same. }
      rewrite dget_ddel_other by congruence. rewrite dget_dset_other by congruence.
      destruct (String.eqb_spec k "filename") as [->|Hf]. { cbn. apply dget_ddel_same. }
      rewrite dget_ddel_other by congruence.
      destruct (String.eqb_spec k "obj_cut") as [->|Ho]; cbn; [exact Ec|reflexivity].
    + unfold smem; cbn [existsb].
      assert (Z : dget g k = if (String.eqb k "obj_cut" || (String.eqb k "filename" || false))%bool then None else dget g k).
      { destruct (String.eqb_spec k "obj_cut") as [->|Ho]; [exact Ec|].
        destruct (String.eqb_spec k "filename") as [->|Hf]; [exact Ef|reflexivity]. }
      destruct (dget g "write_intermediate_file") as [w|] eqn:Ew; cbn [orb].
      * destruct (truthy w).
        -- destruct (String.eqb_spec k "callback") as [->|Hc].
           { cbn. rewrite dget_dset_same. reflexivity. }
           rewrite dget_dset_other by congruence.
           destruct (String.eqb_spec k "write_intermediate_file") as [->|Hw]. { cbn. apply dget_ddel_same. }
           rewrite dget_ddel_other by congruence. exact Z.
        -- rewrite Z at 1. destruct (_ || _)%bool; [reflexivity|]. destruct (String.eqb k "write_intermediate_file"), (String.eqb k "callback"); reflexivity.
      * rewrite Z at 1. destruct (_ || _)%bool; [reflexivity|]. destruct (String.eqb k "write_intermediate_file"), (String.eqb k "callback"); reflexivity.
Qed.

Lemma intermediate_NoDup g : NoDup (dkeys g) -> NoDup (dkeys (intermediate_file g)).
Proof.
  intros H. unfold intermediate_file.
  destruct (dget g "obj_cut") as [cut|]; cbv iota beta;
    match goal with |- context [dget ?x "filename"] => destruct (dget x "filename") as [f|] end; cbv iota beta;
    match goal with |- context [dget ?x "write_intermediate_file"] => destruct (dget x "write_intermediate_file") as [w|] end;
    try (destruct (truthy w));
    repeat first [exact H | apply NoDup_dset | apply NoDup_ddel].
Qed.

Lemma before_ddel d a b k : before d a b -> k <> a -> k <> b -> before (ddel d k) a b.
Proof.
  intros (d1 & d2 & -> & Ha & Hb) Na Nb.
  exists (ddel d1 k), (ddel d2 k). split; [apply ddel_app|].
  split; apply ddel_In; split; congruence.
Qed.
Lemma before_dset d a b k v : before d a b -> before (dset d k v) a b.
Proof.
  intros (d1 & d2 & -> & Ha & Hb).
  assert (F : (exists e, dset (d1 ++ d2)%list k v = (e ++ d2)%list /\ In a (dkeys e))
              \/ (exists e, dset (d1 ++ d2)%list k v = (d1 ++ e)%list /\ In b (dkeys e))).
  { destruct (in_dec string_dec k (dkeys d1)) as [Hi|Hn].
    - left. exists (dset d1 k v). split.
      + clear -Hi. induction d1 as [|[x y] d1 IH]; [destruct Hi|]. cbn in *. destruct (String.eqb_spec k x); [reflexivity|].
        cbn. f_equal. apply IH. destruct Hi as [E|Hi]; [congruence|exact Hi].
      + apply dkeys_dset. right. exact Ha.
    - right. exists (dset d2 k v). split.
      + clear -Hn. induction d1 as [|[x y] d1 IH]; [reflexivity|]. cbn in *. destruct (String.eqb_spec k x); [exfalso; apply Hn; left; congruence|].
        cbn. f_equal. apply IH. tauto.
      + apply dkeys_dset. right. exact Hb. }
  destruct F as [(e & E & Hi)|(e & E & Hi)]; rewrite E; [exists e, d2|exists d1, e]; repeat split; assumption.
Qed.
Lemma before_intermediate g : before g "workers" "MultiprocessingObject" -> before (intermediate_file g) "workers" "MultiprocessingObject".
Proof.
  intros H. unfold intermediate_file.
  destruct (dget g "obj_cut") as [cut|]; cbv iota beta;
    match goal with |- context [dget ?x "filename"] => destruct (dget x "filename") as [f|] end; cbv iota beta;
    match goal with |- context [dget ?x "write_intermediate_file"] => destruct (dget x "write_intermediate_file") as [w|] end;
    try (destruct (truthy w));
    repeat first [exact H | apply before_dset | apply before_ddel; [|discriminate|discriminate]].
Qed.

Lemma put_plain_spec skip l : forall acc k, NoDup (dkeys l) ->
  dget (fold_left (put_plain skip) l acc) k = if smem k skip then dget acc k else chosen l acc k.
Proof.
  unfold chosen. induction l as [|[x v] l IH]; intros acc k H.
  - cbn. destruct (smem k skip); reflexivity.
  - inversion H as [|? ? Hna Hnd]; subst. cbn [fold_left]. rewrite IH by exact Hnd. unfold put_plain. cbn [fst snd dget].
    destruct (smem k skip) eqn:Ek.
    + destruct (smem x skip) eqn:Ex; [reflexivity|]. apply dget_dset_other. intros ->. congruence.
    + destruct (String.eqb_spec k x) as [->|Hn].
      * rewrite Ek. replace (dget l x) with (@None gval) by (symmetry; apply dget_None; exact Hna). apply dget_dset_same.
      * destruct (dget l k); [reflexivity|]. destruct (smem x skip); [reflexivity|]. apply dget_dset_other. congruence.
Qed.

Lemma put_parallel_spec opts skip l : forall c c' k, NoDup (dkeys l) ->
  foldM (put_parallel opts skip) c l = Ok c' -> k <> "workers" ->
  dget (kw c') k = if smem k ("MultiprocessingObject" :: skip) then dget (kw c) k else chosen l (kw c) k.
Proof.
  unfold chosen. induction l as [|[x v] l IH]; intros c c' k H E Nk.
  - cbn in E. injection E as <-. cbn [dget]. destruct (smem k _); reflexivity.
  - inversion H as [|? ? Hna Hnd]; subst. cbn [foldM] in E.
    destruct (put_parallel opts skip c (x, v)) as [c1|] eqn:E1; [|discriminate]. cbn [rbind] in E.
    rewrite (IH _ _ _ Hnd E Nk). unfold put_parallel in E1. cbn [fst snd] in E1. cbn [dget].
    destruct (String.eqb_spec x "MultiprocessingObject") as [->|Nx].
    + assert (Ek : dget (kw c1) k = dget (kw c) k).
      { destruct (match dget opts "workers" with Some w => above_one w | None => Ok false end) as [fl|]; [|discriminate].
        cbn [rbind] in E1. destruct v; try discriminate. destruct (_ && _)%bool; injection E1 as <-; [|reflexivity].
        cbn [kw]. apply dget_dset_other. congruence. }
      rewrite Ek. destruct (smem k ("MultiprocessingObject" :: skip)) eqn:Es; [reflexivity|].
      destruct (String.eqb_spec k "MultiprocessingObject") as [->|]; [discriminate Es|reflexivity].
    + destruct (smem x skip) eqn:Ex.
      * injection E1 as <-. destruct (smem k ("MultiprocessingObject" :: skip)) eqn:Es; [reflexivity|].
        destruct (String.eqb_spec k x) as [->|]; [|reflexivity].
        exfalso. apply smem_false in Es. apply Es. right. apply smem_In, Ex.
      * injection E1 as <-. cbn [kw]. destruct (smem k ("MultiprocessingObject" :: skip)) eqn:Es.
        -- apply dget_dset_other. intros ->. apply smem_In in Es. apply smem_false in Ex. destruct Es as [E0|Es]; [congruence|tauto].
        -- destruct (String.eqb_spec k x) as [->|Hn].
           ++ replace (dget l x) with (@None gval) by (symmetry; apply dget_None; exact Hna). apply dget_dset_same.
           ++ destruct (dget l k); [reflexivity|]. apply dget_dset_other. congruence.
Qed.

(** without a multiprocessing object *)
Lemma put_parallel_plain opts skip l : forall c, NoDup (dkeys l) -> dget l "MultiprocessingObject" = None ->
  foldM (put_parallel opts skip) c l = Ok {| kw := fold_left (put_plain skip) l (kw c); stripped := stripped c |}.
Proof.
  induction l as [|[x v] l IH]; intros c H N.
  - cbn. destruct c; reflexivity.
  - inversion H as [|? ? Hna Hnd]; subst. cbn [foldM]. cbn [dget] in N.
    destruct (String.eqb_spec "MultiprocessingObject" x) as [Ex|Nx]; [discriminate|].
    unfold put_parallel at 1. cbn [fst snd]. destruct (String.eqb_spec x "MultiprocessingObject"); [congruence|].
    destruct (smem x skip) eqn:Ex; cbn [rbind]; rewrite IH by assumption; cbn [fold_left kw stripped]; unfold put_plain at 3; cbn [fst snd]; rewrite Ex; reflexivity.
Qed.

(** with one, and workers above one *)
Lemma put_parallel_pool opts skip l n w : forall c c', NoDup (dkeys l) ->
  foldM (put_parallel opts skip) c l = Ok c' ->
  dget l "MultiprocessingObject" = Some (GMp n) -> (1 < n)%Z -> dget opts "workers" = Some w -> many w ->
  stripped c' = true /\ (~ In "workers" (dkeys l) -> dget (kw c') "workers" = Some GPoolMap).
Proof.
  assert (K : forall l c c', foldM (put_parallel opts skip) c l = Ok c' -> ~ In "MultiprocessingObject" (dkeys l) ->
              stripped c' = stripped c /\ (~ In "workers" (dkeys l) -> dget (kw c') "workers" = dget (kw c) "workers")).
  { clear. induction l as [|[x v] l IH]; intros c c' E N.
    - cbn in E. injection E as <-. split; reflexivity.
    - cbn [foldM] in E. destruct (put_parallel opts skip c (x, v)) as [c1|] eqn:E1; [|discriminate]. cbn [rbind] in E.
      cbn in N. destruct (IH _ _ E ltac:(tauto)) as (A & B). unfold put_parallel in E1. cbn [fst snd] in E1.
      destruct (String.eqb_spec x "MultiprocessingObject") as [->|Nx]; [tauto|].
      destruct (smem x skip); injection E1 as <-.
      + split; [exact A|]. intros Hw. apply B. cbn in Hw. tauto.
      + split; [exact A|]. intros Hw. cbn in Hw. rewrite B by tauto. cbn [kw]. apply dget_dset_other. tauto. }
  induction l as [|[x v] l IH]; intros c c' H E G N W M; [discriminate|].
  inversion H as [|? ? Hna Hnd]; subst. cbn [foldM] in E.
  destruct (put_parallel opts skip c (x, v)) as [c1|] eqn:E1; [|discriminate]. cbn [rbind] in E. cbn [dget] in G.
  destruct (String.eqb_spec "MultiprocessingObject" x) as [<-|Nx].
  - injection G as ->. unfold put_parallel in E1. cbn [fst snd] in E1. rewrite String.eqb_refl in E1. rewrite W in E1.
    destruct M as (q & -> & Hq). cbn [above_one rbind] in E1. rewrite Hq in E1. rewrite (proj2 (Z.ltb_lt _ _) N) in E1. cbn in E1.
    injection E1 as <-. destruct (K _ _ _ E Hna) as (A & B). split; [exact A|]. intros Hw. cbn in Hw. rewrite B by tauto.
    cbn [kw]. apply dget_dset_same.
  - destruct (IH _ _ Hnd E G N W M) as (A & B). split; [exact A|]. intros Hw. apply B. cbn in Hw. tauto.
Qed.

Lemma foldM_app {A B} (f : B -> A -> result B) l1 : forall l2 b, foldM f b (l1 ++ l2)%list = let* b1 := foldM f b l1 in foldM f b1 l2.
Proof. induction l1 as [|x l1 IH]; intros l2 b; [reflexivity|]. cbn. destruct (f b x); cbn; [apply IH|reflexivity]. Qed.

Lemma pool_before opts skip l n w c c' : NoDup (dkeys l) -> before l "workers" "MultiprocessingObject" ->
  foldM (put_parallel opts skip) c l = Ok c' ->
  dget l "MultiprocessingObject" = Some (GMp n) -> (1 < n)%Z -> dget opts "workers" = Some w -> many w ->
  stripped c' = true /\ dget (kw c') "workers" = Some GPoolMap.
Proof.
  intros H (d1 & d2 & -> & Ha & Hb) E G N W M. rewrite foldM_app in E.
  destruct (foldM _ c d1) as [c1|] eqn:E1; [|discriminate]. cbn [rbind] in E.
  unfold dkeys in H. rewrite map_app in H.
  assert (H2 : NoDup (dkeys d2)) by (revert H; generalize (map fst d1); fold (dkeys d2); intros r; induction r as [|y r IHr]; [exact (fun Z => Z)|intros Z; inversion Z; auto]).
  assert (G2 : dget d2 "MultiprocessingObject" = Some (GMp n)).
  { apply In_dget; [exact H2|]. apply dget_In in G. apply in_app_or in G. destruct G as [G|G]; [|exact G].
    exfalso. apply in_map with (f := fst) in G. cbn in G. clear -H G Hb.
    apply in_split in Hb. destruct Hb as (a & b & E). fold (dkeys d2) in H. rewrite E in H.
    apply NoDup_remove_2 with (l := (map fst d1 ++ a)%list) (l' := b) (a := "MultiprocessingObject").
    - rewrite <- app_assoc. exact H.
    - rewrite <- app_assoc. apply in_or_app. left. exact G. }
  destruct (put_parallel_pool _ _ _ _ _ _ _ H2 E G2 N W M) as (A & B). split; [exact A|]. apply B.
  intros Hw. fold (dkeys d1) (dkeys d2) in H. clear -H Ha Hw.
  apply in_split in Hw. destruct Hw as (a & b & E). rewrite E in H.
  apply NoDup_remove_2 with (l := (dkeys d1 ++ a)%list) (l' := b) (a := "workers").
  - rewrite <- app_assoc. exact H.
  - rewrite <- app_assoc. apply in_or_app. left. exact Ha.
Qed.

(** * C113 *)
(** differential_evolution: every option that is not about the intermediate file, the workers or
    the constraints reaches scipy as the user wrote it, or as its default (init = "random") *)
Theorem C113_differential_evolution fs g cs c k :
  NoDup (dkeys g) -> differential_evolution fs g cs = Ok c ->
  ~ In k ("MultiprocessingObject" :: "workers" :: "constraints" :: file_names) ->
  dget (kw c) k = chosen g [("init", GStr "random")] k.
Proof.
  intros H E Nk. unfold differential_evolution in E.
  destruct (foldM _ _ _) as [c1|] eqn:E1; [|discriminate]. cbn [rbind] in E.
  assert (Nk' : k <> "workers") by (intros ->; apply Nk; right; left; reflexivity).
  pose proof (put_parallel_spec _ _ _ _ _ k (intermediate_NoDup _ H) E1 Nk') as S.
  assert (F : smem k ["MultiprocessingObject"; "obj_cut"; "filename"; "write_intermediate_file"] = false).
  { apply smem_false. intros Hi. apply Nk. cbn in *. tauto. }
  rewrite F in S.
  assert (F2 : dget (intermediate_file g) k = dget g k).
  { rewrite intermediate_spec.
    replace (smem k ["obj_cut"; "filename"]) with false by (symmetry; apply smem_false; intros Hi; apply Nk; cbn in *; tauto).
    destruct (String.eqb_spec k "write_intermediate_file"); [exfalso; subst k; apply Nk; cbn; tauto|].
    destruct (String.eqb_spec k "callback"); [exfalso; subst k; apply Nk; cbn; tauto|reflexivity]. }
  unfold chosen in *. rewrite F2 in S. cbn [kw] in S. rewrite <- S.
  destruct cs as [cs|]; [|injection E as <-; reflexivity].
  destruct (initialize_constraints fs "class" cs); [|discriminate]. injection E as <-. cbn [kw].
  apply dget_dset_other. intros <-. apply Nk. cbn. tauto.
Qed.

(** and of the intermediate file's names only the callback does, exactly when the user asks for
    the file *)
Theorem C113_differential_evolution_file fs g cs c :
  NoDup (dkeys g) -> differential_evolution fs g cs = Ok c ->
  dget (kw c) "obj_cut" = None /\ dget (kw c) "filename" = None /\ dget (kw c) "write_intermediate_file" = None /\
  dget (kw c) "MultiprocessingObject" = None /\
  dget (kw c) "callback" = (if wants_file g then Some (GCallback (dget g "obj_cut") (dget g "filename")) else dget g "callback").
Proof.
  intros H E. unfold differential_evolution in E.
  destruct (foldM _ _ _) as [c1|] eqn:E1; [|discriminate]. cbn [rbind] in E.
  assert (D : forall k, k <> "constraints" -> dget (kw c) k = dget (kw c1) k).
  { intros k Hk. destruct cs as [cs|]; [|injection E as <-; reflexivity].
    destruct (initialize_constraints fs "class" cs); [|discriminate]. injection E as <-. cbn [kw]. apply dget_dset_other. congruence. }
  pose proof (fun k => put_parallel_spec _ _ _ _ _ k (intermediate_NoDup _ H) E1) as S.
  rewrite !D by discriminate.
  rewrite (S "obj_cut"), (S "filename"), (S "write_intermediate_file"), (S "MultiprocessingObject"), (S "callback") by discriminate.
  unfold chosen. rewrite (intermediate_spec g "callback"). cbn [kw].
  repeat split; try reflexivity. cbn. destruct (wants_file g); [reflexivity|].
  destruct (dget g "callback"); reflexivity.
Qed.

(** without a multiprocessing object the workers are the user's and the data sets keep theirs; with
    one of several cores and workers above one, written in this order, the pool is handed over *)
Theorem C113_workers fs g c :
  NoDup (dkeys g) -> differential_evolution fs g None = Ok c ->
  (dget g "MultiprocessingObject" = None -> dget (kw c) "workers" = dget g "workers" /\ stripped c = false) /\
  (forall n w, dget g "MultiprocessingObject" = Some (GMp n) -> (1 < n)%Z -> dget g "workers" = Some w -> many w ->
    before g "workers" "MultiprocessingObject" ->
    dget (kw c) "workers" = Some GPoolMap /\ stripped c = true).
Proof.
  intros H E. unfold differential_evolution in E.
  destruct (foldM _ _ _) as [c1|] eqn:E1; [|discriminate]. cbn [rbind] in E. injection E as <-.
  assert (I : forall k, ~ In k file_names -> dget (intermediate_file g) k = dget g k).
  { intros k Nk. rewrite intermediate_spec.
    replace (smem k ["obj_cut"; "filename"]) with false by (symmetry; apply smem_false; intros Hi; apply Nk; cbn in *; tauto).
    destruct (String.eqb_spec k "write_intermediate_file"); [exfalso; subst k; apply Nk; cbn; tauto|].
    destruct (String.eqb_spec k "callback"); [exfalso; subst k; apply Nk; cbn; tauto|reflexivity]. }
  assert (Im : dget (intermediate_file g) "MultiprocessingObject" = dget g "MultiprocessingObject") by (apply I; cbn; intuition discriminate).
  assert (Iw : dget (intermediate_file g) "workers" = dget g "workers") by (apply I; cbn; intuition discriminate).
  split.
  - intros N. rewrite (put_parallel_plain _ _ _ _ (intermediate_NoDup _ H)) in E1 by congruence.
    injection E1 as <-. cbn [kw stripped]. split; [|reflexivity]. rewrite put_plain_spec by apply intermediate_NoDup, H.
    cbn. unfold chosen. rewrite Iw. destruct (dget g "workers"); reflexivity.
  - intros n w G N W M B.
    destruct (pool_before _ _ _ n w _ _ (intermediate_NoDup _ H) (before_intermediate _ B) E1) as (A1 & A2); auto; congruence.
Qed.
(** written the other way round, the pool is lost again: the integer goes to scipy, which starts
    processes of its own *)
Theorem C113_workers_refuted :
  exists g c, NoDup (dkeys g) /\ differential_evolution [] g None = Ok c /\
    dget g "MultiprocessingObject" = Some (GMp 4) /\ dget g "workers" = Some (GNum (Fin 4)) /\
    dget (kw c) "workers" = Some (GNum (Fin 4)) /\ stripped c = true.
Proof.
  exists [("MultiprocessingObject", GMp 4); ("workers", GNum (Fin 4))]. eexists. split.
  { repeat constructor; cbn; intuition discriminate. }
  split; [reflexivity|]. repeat split; reflexivity.
Qed.

(** shgo: every option but the multiprocessing object and the intermediate file's *)
Theorem C113_shgo fs g m cs kws mm k :
  NoDup (dkeys g) -> shgo fs g m cs = Ok (kws, mm) ->
  k <> "constraints" ->
  dget kws k = if smem k ["MultiprocessingObject"; "obj_cut"; "filename"; "write_intermediate_file"] then None
               else chosen g [("sampling_method", GStr "sobol")] k.
Proof.
  intros H E Nk. unfold shgo in E. destruct (minimizer m) as [mm0|]; [|discriminate]. cbn [rbind] in E.
  assert (S := put_plain_spec ["MultiprocessingObject"; "obj_cut"; "filename"; "write_intermediate_file"] g [("sampling_method", GStr "sobol")] k H).
  assert (R : dget kws k = dget (fold_left (put_plain ["MultiprocessingObject"; "obj_cut"; "filename"; "write_intermediate_file"]) g [("sampling_method", GStr "sobol")]) k).
  { destruct cs as [cs|].
    - destruct (initialize_constraints fs "dict" cs); [|discriminate]. cbn [rbind] in E.
      destruct (with_constraints mm0); [|discriminate]. injection E as <- <-. apply dget_dset_other. congruence.
    - injection E as <- <-. reflexivity. }
  rewrite R, S. destruct (smem k _) eqn:Es; [|reflexivity].
  apply smem_In in Es. cbn in Es. cbn [dget].
  destruct (String.eqb_spec k "sampling_method") as [->|]; [|reflexivity]. intuition discriminate.
Qed.

(** brute: every option but the multiprocessing object, with Ns = 5 and finish = minimize as
    defaults; the full output is always asked for *)
Theorem C113_brute g c k :
  NoDup (dkeys g) -> brute g = Ok c -> k <> "MultiprocessingObject" -> k <> "workers" ->
  dget (kw c) k = if String.eqb k "full_output" then Some (GBool true)
                  else chosen g [("Ns", GNum (Fin 5)); ("finish", GFun "minimize")] k.
Proof.
  intros H E Nm Nw. unfold brute in E. destruct (foldM _ _ _) as [c1|] eqn:E1; [|discriminate]. cbn [rbind] in E.
  injection E as <-. cbn [kw]. destruct (String.eqb_spec k "full_output") as [->|Nf]; [apply dget_dset_same|].
  rewrite dget_dset_other by congruence. rewrite (put_parallel_spec _ _ _ _ _ k H E1 Nw).
  replace (smem k ["MultiprocessingObject"]) with false; [reflexivity|].
  symmetry. apply smem_false. cbn. intuition congruence.
Qed.

(** the local minimiser: the method and the options the user gives, over the defaults nelder-mead
    and maxiter = 50 *)
Theorem C113_minimizer m meth opts :
  NoDup (dkeys m) -> (forall d, dget m "options" = Some (GDict d) -> NoDup (dkeys d)) ->
  minimizer m = Ok (meth, opts) ->
  meth = match dget m "method" with Some v => v | None => GStr "nelder-mead" end /\
  (forall k, dget opts k = chosen (match dget m "options" with Some (GDict d) => d | _ => [] end) [("maxiter", GNum (Fin 50))] k) /\
  (dget m "options" = None \/ exists d, dget m "options" = Some (GDict d)).
Proof.
  unfold minimizer. generalize (GStr "nelder-mead") ([("maxiter", GNum (Fin 50))] : dict gval).
  induction m as [|[x v] m IH]; intros m0 o0 H Hd E.
  - cbn in E. injection E as <- <-. cbn. split; [reflexivity|]. split; [reflexivity|left; reflexivity].
  - inversion H as [|? ? Hna Hnd]; subst. cbn [foldM] in E.
    match type of E with context [put_minimizer ?a ?b] => destruct (put_minimizer a b) as [[m1 o1]|] eqn:E1 end; [|discriminate]. cbn [rbind] in E.
    unfold put_minimizer in E1. cbn [fst snd] in E1. cbn [dget] in *.
    destruct (String.eqb_spec x "method") as [->|Nm].
    + injection E1 as <- <-. destruct (IH v o0 Hnd Hd E) as (A & B & C). split; [|split; [exact B|exact C]].
      rewrite A. change (String.eqb "method" "method") with true. cbv iota.
      replace (dget m "method") with (@None gval) by (symmetry; apply dget_None, Hna). reflexivity.
    + destruct (String.eqb_spec "method" x) as [|]; [congruence|].
      destruct (String.eqb_spec x "options") as [->|No].
      * destruct v as [| | | |d| | | | | | |]; try discriminate. injection E1 as <- <-.
        change (String.eqb "options" "options") with true in *. cbv iota in *.
        assert (No : dget m "options" = None) by (apply dget_None, Hna).
        destruct (IH m0 (fold_left (fun acc e => dset acc (fst e) (snd e)) d o0) Hnd ltac:(rewrite No; discriminate) E) as (A & B & C).
        split; [exact A|]. split; [|right; exists d; reflexivity].
        intros k. rewrite B, No. unfold chosen at 1. cbn [dget].
        pose proof (put_plain_spec [] d o0 k (Hd d eq_refl)) as S. cbn [smem existsb] in S. exact S.
      * destruct (String.eqb_spec "options" x) as [|]; [congruence|]. injection E1 as <- <-.
        apply IH; assumption.
Qed.

(** basinhopping: every option that is not about the intermediate file, the step or the minimiser *)
Theorem C113_basinhopping bounds g m kws k :
  NoDup (dkeys g) -> basinhopping bounds g m = Ok kws ->
  ~ In k ("MultiprocessingObject" :: "take_step" :: "accept_test" :: "minimizer_kwargs" :: file_names) ->
  dget kws k = chosen g [("niter", GNum (Fin 10)); ("T", GNum (Fin (1 # 2))); ("niter_success", GNum (Fin 3))] k.
Proof.
  intros H E Nk. unfold basinhopping in E. destruct (minimizer m) as [mm|]; [|discriminate]. cbn [rbind] in E.
  destruct bounds as [|b bs]; [discriminate|]. cbv zeta in E.
  match type of E with context [dset ?K "take_step" _] => set (kw0 := K) in E end.
  match type of E with context [dset kw0 "take_step" ?S] => set (st := S) in E end.
  assert (K0 : dget kw0 k = chosen g [("niter", GNum (Fin 10)); ("T", GNum (Fin (1 # 2))); ("niter_success", GNum (Fin 3))] k).
  { subst kw0. rewrite put_plain_spec by apply intermediate_NoDup, H.
    replace (smem k ["MultiprocessingObject"]) with false by (symmetry; apply smem_false; intros Hi; apply Nk; cbn in *; tauto).
    unfold chosen. rewrite intermediate_spec.
    replace (smem k ["obj_cut"; "filename"]) with false by (symmetry; apply smem_false; intros Hi; apply Nk; cbn in *; tauto).
    destruct (String.eqb_spec k "write_intermediate_file"); [exfalso; subst k; apply Nk; cbn; tauto|].
    destruct (String.eqb_spec k "callback"); [exfalso; subst k; apply Nk; cbn; tauto|reflexivity]. }
  assert (N1 : "take_step" <> k) by (intros <-; apply Nk; cbn; tauto).
  assert (N2 : "accept_test" <> k) by (intros <-; apply Nk; cbn; tauto).
  assert (N3 : "minimizer_kwargs" <> k) by (intros <-; apply Nk; cbn; tauto).
  rewrite <- K0.
  destruct (dget (dset kw0 "take_step" st) "minimizer_kwargs") as [u|].
  - destruct u; try discriminate. cbn [rbind fst snd] in E. match type of E with context [dmem ?x "accept_test"] => destruct (dmem x "accept_test") end; [discriminate|].
    injection E as <-. rewrite !dget_dset_other by assumption. rewrite dget_ddel_other by assumption.
    apply dget_dset_other. assumption.
  - cbn [rbind fst snd] in E. match type of E with context [dmem ?x "accept_test"] => destruct (dmem x "accept_test") end; [discriminate|].
    injection E as <-. rewrite !dget_dset_other by assumption. reflexivity.
Qed.
(** the step uses the upper bounds and the user's step size (default 0.1), the test of acceptance
    the bounds, and the intermediate file's callback is set exactly when the user asks for it *)
Theorem C113_basinhopping_step bounds g m kws :
  NoDup (dkeys g) -> basinhopping bounds g m = Ok kws ->
  dget kws "take_step" = Some (GStep (map snd bounds) (match dget g "stepsize" with Some s => s | None => GNum (Fin (1 # 10)) end)) /\
  dget kws "accept_test" = Some (GBounds bounds) /\
  dget kws "obj_cut" = None /\ dget kws "filename" = None /\ dget kws "MultiprocessingObject" = None /\
  dget kws "callback" = (if wants_file g then Some (GCallback (dget g "obj_cut") (dget g "filename")) else dget g "callback") /\
  dget kws "write_intermediate_file" = (if wants_file g then None else dget g "write_intermediate_file") /\
  (forall meth opts, minimizer m = Ok (meth, opts) -> dget g "minimizer_kwargs" = None ->
    dget kws "minimizer_kwargs" = Some (GDict [("method", meth); ("options", GDict opts)])).
Proof.
  intros H E. unfold basinhopping in E. destruct (minimizer m) as [mm|]; [|discriminate]. cbn [rbind] in E.
  destruct bounds as [|b bs]; [discriminate|]. cbv zeta in E.
  set (kw0 := fold_left (put_plain ["MultiprocessingObject"]) (intermediate_file g)
              [("niter", GNum (Fin 10)); ("T", GNum (Fin (1 # 2))); ("niter_success", GNum (Fin 3))]) in *.
  assert (K0 : forall k, dget kw0 k = if smem k ["MultiprocessingObject"] then dget [("niter", GNum (Fin 10)); ("T", GNum (Fin (1 # 2))); ("niter_success", GNum (Fin 3))] k
      else chosen (intermediate_file g) [("niter", GNum (Fin 10)); ("T", GNum (Fin (1 # 2))); ("niter_success", GNum (Fin 3))] k)
    by (intros k; apply put_plain_spec, intermediate_NoDup, H).
  assert (Es : dget kw0 "stepsize" = dget g "stepsize").
  { rewrite K0. cbn. unfold chosen. rewrite intermediate_spec. cbn. destruct (dget g "stepsize"); reflexivity. }
  rewrite Es in E. set (st := GStep (map snd (b :: bs)) _) in *.
  assert (D : forall k, "take_step" <> k -> "minimizer_kwargs" <> k -> "accept_test" <> k -> dget kws k = dget kw0 k).
  { intros k N1 N3 N2. destruct (dget (dset kw0 "take_step" st) "minimizer_kwargs") as [u|].
    - destruct u; try discriminate. cbn [rbind fst snd] in E. match type of E with context [dmem ?x "accept_test"] => destruct (dmem x "accept_test") end; [discriminate|].
      injection E as <-. rewrite !dget_dset_other by assumption. rewrite dget_ddel_other by assumption.
      apply dget_dset_other. assumption.
    - cbn [rbind fst snd] in E. match type of E with context [dmem ?x "accept_test"] => destruct (dmem x "accept_test") end; [discriminate|].
      injection E as <-. rewrite !dget_dset_other by assumption. reflexivity. }
  assert (T : dget kws "take_step" = Some st /\ dget kws "accept_test" = Some (GBounds (b :: bs)) /\
              (dget g "minimizer_kwargs" = None -> dget kws "minimizer_kwargs" = Some (GDict [("method", fst mm); ("options", GDict (snd mm))]))).
  { assert (Em : dget (dset kw0 "take_step" st) "minimizer_kwargs" = dget g "minimizer_kwargs").
    { rewrite dget_dset_other by discriminate. rewrite K0. cbn. unfold chosen. rewrite intermediate_spec. cbn.
      destruct (dget g "minimizer_kwargs"); reflexivity. }
    rewrite Em in E. destruct (dget g "minimizer_kwargs") as [u|].
    - destruct u; try discriminate. cbn [rbind fst snd] in E. match type of E with context [dmem ?x "accept_test"] => destruct (dmem x "accept_test") end; [discriminate|].
      injection E as <-. repeat split.
      + rewrite !dget_dset_other by discriminate. rewrite dget_ddel_other by discriminate. apply dget_dset_same.
      + rewrite dget_dset_other by discriminate. apply dget_dset_same.
      + discriminate.
    - cbn [rbind fst snd] in E. match type of E with context [dmem ?x "accept_test"] => destruct (dmem x "accept_test") end; [discriminate|].
      injection E as <-. repeat split.
      + rewrite !dget_dset_other by discriminate. apply dget_dset_same.
      + rewrite dget_dset_other by discriminate. apply dget_dset_same.
      + intros _. apply dget_dset_same. }
  destruct T as (T1 & T2 & T3). split; [exact T1|]. split; [exact T2|].
  rewrite !D by discriminate. rewrite !K0. cbn [smem existsb String.eqb]. unfold chosen. rewrite !intermediate_spec.
  repeat split; try reflexivity.
  - cbn. destruct (wants_file g); [reflexivity|]. destruct (dget g "callback"); reflexivity.
  - cbn. destruct (wants_file g); [reflexivity|]. destruct (dget g "write_intermediate_file"); reflexivity.
  - intros meth opts Em G. injection Em as ->. apply T3, G.
Qed.
(** what counts as a switch that is off: False, None, an empty text, zero, an empty dictionary or tuple *)
Definition off (v : gval) : Prop :=
  v = GBool false \/ v = GNone \/ v = GStr "" \/ (exists q, v = GNum (Fin q) /\ (q == 0)%Q) \/ v = GDict [] \/ v = GBuilt [].
Theorem C113_file_switch g :
  wants_file g = true <->
  dget g "obj_cut" <> None \/ dget g "filename" <> None \/ exists v, dget g "write_intermediate_file" = Some v /\ ~ off v.
Proof.
  assert (T : forall v, truthy v = true <-> ~ off v).
  { intros v. unfold off. destruct v as [s|[q| | |]|b| |d|n| |f|c f|mg st|l|bb]; cbn [truthy];
      try (split; [intros _; intros [X|[X|[X|[(q' & X & _)|[X|X]]]]]; discriminate|reflexivity]).
    - destruct (String.eqb_spec s "") as [->|N]; cbn; split; try discriminate; try reflexivity.
      + intros X. exfalso. apply X. tauto.
      + intros _ [X|[X|[X|[(q' & X & _)|[X|X]]]]]; congruence.
    - destruct (Qeq_bool q 0) eqn:E; cbn; split; try discriminate; try reflexivity.
      + intros X. exfalso. apply X. right; right; right; left. exists q. split; [reflexivity|apply Qeq_bool_eq, E].
      + intros _ [X|[X|[X|[(q' & X & Z)|[X|X]]]]]; try discriminate. injection X as <-. apply Qeq_bool_iff in Z. congruence.
    - destruct b; split; try discriminate; try reflexivity.
      + intros _ [X|[X|[X|[(q' & X & _)|[X|X]]]]]; congruence.
      + intros X. exfalso. apply X. tauto.
    - split; [discriminate|]. intros X. exfalso. apply X. tauto.
    - destruct d; split; try discriminate; try reflexivity.
      + intros X. exfalso. apply X. tauto.
      + intros _ [X|[X|[X|[(q' & X & _)|[X|X]]]]]; congruence.
    - destruct l; split; try discriminate; try reflexivity.
      + intros X. exfalso. apply X. tauto.
      + intros _ [X|[X|[X|[(q' & X & _)|[X|X]]]]]; congruence. }
  unfold wants_file, dmem. destruct (dget g "obj_cut"); cbn [orb]; [split; [intros _; left; discriminate|reflexivity]|].
  destruct (dget g "filename"); cbn [orb]; [split; [intros _; right; left; discriminate|reflexivity]|].
  destruct (dget g "write_intermediate_file") as [v|].
  - rewrite T. split; [intros N; right; right; exists v; split; [reflexivity|exact N]|].
    intros [X|[X|(w & E & N)]]; [tauto|tauto|]. injection E as ->. exact N.
  - split; [discriminate|]. intros [X|[X|(w & E & N)]]; [tauto|tauto|discriminate].
Qed.
(** minimiser arguments written among the options of basinhopping win over those of minimizer_opts *)
Theorem C113_basinhopping_minimizer_kwargs bounds g m kws d meth opts :
  NoDup (dkeys g) -> basinhopping bounds g m = Ok kws -> minimizer m = Ok (meth, opts) ->
  dget g "minimizer_kwargs" = Some (GDict d) -> NoDup (dkeys d) ->
  exists mk, dget kws "minimizer_kwargs" = Some (GDict mk) /\
    forall k, dget mk k = chosen d [("method", meth); ("options", GDict opts)] k.
Proof.
  intros H E M G N. unfold basinhopping in E. rewrite M in E. cbn [rbind] in E.
  destruct bounds as [|b bs]; [discriminate|]. cbv zeta in E.
  match type of E with context [dget (dset ?K "take_step" ?S) "minimizer_kwargs"] =>
    replace (dget (dset K "take_step" S) "minimizer_kwargs") with (Some (GDict d)) in E end.
  - cbn [rbind fst snd] in E. match type of E with context [dmem ?x "accept_test"] => destruct (dmem x "accept_test") end; [discriminate|].
    injection E as <-. eexists. split; [apply dget_dset_same|]. intros k.
    pose proof (put_plain_spec [] d [("method", meth); ("options", GDict opts)] k N) as S. cbn [smem existsb] in S. exact S.
  - rewrite dget_dset_other by discriminate. rewrite put_plain_spec by apply intermediate_NoDup, H.
    cbn. unfold chosen. rewrite intermediate_spec. cbn. rewrite G. reflexivity.
Qed.
(** saying that no intermediate file is wanted leaves the switch among scipy's keywords, which has
    no such parameter *)
Theorem C113_basinhopping_refuted bounds g m kws :
  NoDup (dkeys g) -> basinhopping bounds g m = Ok kws ->
  dget g "obj_cut" = None -> dget g "filename" = None -> dget g "write_intermediate_file" = Some (GBool false) ->
  dget kws "write_intermediate_file" = Some (GBool false).
Proof.
  intros H E O F W. destruct (C113_basinhopping_step _ _ _ _ H E) as (_ & _ & _ & _ & _ & _ & S & _).
  rewrite S. unfold wants_file, dmem. rewrite O, F, W. reflexivity.
Qed.

(** * C114 *)
(** minimizer_opts: a fit that gives them runs only with the methods that take them ... *)
Theorem C114_minimizer_opts {A} method given (run : A) :
  global_minimization method (fit_passes given) run =
  if smem method ["shgo"; "grid_minimization"; "basinhopping"] then Ok run
  else if smem method ["single_objective"; "differential_evolution"; "brute"] then (if given then Err TypeError else Ok run)
  else Err ImportError.
Proof.
  unfold global_minimization, keywords_of, smem. cbn [existsb].
  destruct (String.eqb_spec method "single_objective") as [->|]; [destruct given; reflexivity|].
  destruct (String.eqb_spec method "differential_evolution") as [->|]; [destruct given; reflexivity|].
  destruct (String.eqb_spec method "shgo") as [->|]; [destruct given; reflexivity|].
  destruct (String.eqb_spec method "grid_minimization") as [->|]; [destruct given; reflexivity|].
  destruct (String.eqb_spec method "brute") as [->|]; [destruct given; reflexivity|].
  destruct (String.eqb_spec method "basinhopping") as [->|]; [destruct given; reflexivity|].
  reflexivity.
Qed.
(** ... and that is not the case of the default method *)
Theorem C114_minimizer_opts_refuted {A} (run : A) :
  global_minimization "differential_evolution" (fit_passes true) run = Err TypeError.
Proof. rewrite C114_minimizer_opts. reflexivity. Qed.

(** constraints: a fit passes none to any method; written among the options they reach scipy's
    differential_evolution exactly as the user wrote them, not converted *)
Theorem C114_constraints_refuted given :
  ~ In "constraints" (fit_passes given) /\
  forall fs g c v, NoDup (dkeys g) -> differential_evolution fs g None = Ok c ->
    dget g "constraints" = Some v -> dget (kw c) "constraints" = Some v.
Proof.
  split; [destruct given; cbn; intuition discriminate|].
  intros fs g c v H E G. unfold differential_evolution in E.
  destruct (foldM _ _ _) as [c1|] eqn:E1; [|discriminate]. cbn [rbind] in E. injection E as <-.
  rewrite (put_parallel_spec _ _ _ _ _ "constraints" (intermediate_NoDup _ H) E1 ltac:(discriminate)).
  cbn. unfold chosen. rewrite intermediate_spec. cbn. rewrite G. reflexivity.
Qed.
(** a direct call with constraints does hand scipy the converted ones *)
Theorem C114_constraints fs g cs c b :
  differential_evolution fs g (Some cs) = Ok c -> initialize_constraints fs "class" cs = Ok b ->
  dget (kw c) "constraints" = Some (GBuilt b).
Proof.
  unfold differential_evolution. intros E B. destruct (foldM _ _ _) as [c1|]; [|discriminate]. cbn [rbind] in E.
  rewrite B in E. injection E as <-. apply dget_dset_same.
Qed.
(** with shgo the minimiser then is one that takes constraints ... *)
Theorem C114_shgo_constraints fs g m cs kws meth opts :
  shgo fs g m (Some cs) = Ok (kws, (meth, opts)) -> meth = GStr "COBYLA" \/ meth = GStr "SLSQP".
Proof.
  unfold shgo. destruct (minimizer m) as [mm|]; [|discriminate]. cbn [rbind].
  destruct (initialize_constraints fs "dict" cs); [|discriminate]. cbn [rbind].
  destruct (with_constraints mm) as [mm'|] eqn:E; [|discriminate]. cbn [rbind]. intros X. injection X as <- ->.
  unfold with_constraints in E.
  destruct (match fst mm with GStr s => smem s ["COBYLA"; "SLSQP"] | _ => false end) eqn:K.
  - injection E as ->. cbn [fst] in K. destruct meth; try discriminate. apply smem_In in K. cbn in K.
    destruct K as [K|[K|[]]]; subst; tauto.
  - destruct (forallb _ _); [|discriminate]. injection E as <- <-. tauto.
Qed.
(** ... unless an option of the first minimiser is not one of SLSQP's: the call raises RuntimeError
    instead of leaving that option out *)
Theorem C114_shgo_constraints_refuted fs g m cs b meth opts k :
  minimizer m = Ok (meth, opts) -> initialize_constraints fs "dict" cs = Ok b ->
  meth <> GStr "COBYLA" -> meth <> GStr "SLSQP" ->
  In k (dkeys opts) -> ~ In k ["ftol"; "eps"; "disp"; "maxiter"; "finite_diff_rel_step"] ->
  shgo fs g m (Some cs) = Err RuntimeError.
Proof.
  intros M B N1 N2 Hk Nk. unfold shgo. rewrite M. cbn [rbind]. rewrite B. cbn [rbind].
  unfold with_constraints. cbn [fst snd].
  replace (match meth with GStr s => smem s ["COBYLA"; "SLSQP"] | _ => false end) with false.
  - replace (forallb (fun k0 => smem k0 slsqp_options) (dkeys opts)) with false; [reflexivity|].
    symmetry. apply not_true_is_false. intros F. rewrite forallb_forall in F. apply Nk. apply smem_In. apply (F k Hk).
  - destruct meth; try reflexivity. symmetry. apply smem_false. cbn. intros [X|[X|[]]]; subst; congruence.
Qed.

(** single_objective: the options change nothing, the parameters are the guess and the value is the
    objective at the parameters it returns *)
Theorem C114_single_objective objective guess g g' :
  single_objective objective guess g = single_objective objective guess g' /\
  fst (single_objective objective guess g) = guess /\
  snd (single_objective objective guess g) = objective (fst (single_objective objective guess g)).
Proof. repeat split. Qed.
(** brute tries Ns^n points, and reports n*Ns: too few for two or more parameters, unless there
    are exactly two points along two axes *)
Theorem C114_brute_points_refuted n Ns : 2 <= n -> 2 <= Ns -> (n, Ns) <> (2, 2) -> brute_reported n Ns < Ns ^ n.
Proof.
  intros Hn HN NE. unfold brute_reported.
  assert (K : forall m, m + 3 < 2 ^ (m + 2)).
  { induction m as [|m IHm]; [cbn; lia|]. replace (S m + 2) with (S (m + 2)) by lia. rewrite Nat.pow_succ_r'. lia. }
  destruct n as [|[|n]]; [lia|lia|].
  destruct (Nat.eq_dec Ns 2) as [->|N2].
  - destruct n as [|n]; [congruence|]. pose proof (K n) as K2. replace (S (S (S n))) with (S (n + 2)) by lia.
    rewrite Nat.pow_succ_r'. lia.
  - assert (P : n + 2 < Ns ^ (n + 1)).
    { clear -N2 HN. induction n as [|n IH]; [cbn; lia|]. replace (S n + 1) with (S (n + 1)) by lia. rewrite Nat.pow_succ_r'. nia. }
    replace (S (S n)) with (S (n + 1)) by lia. rewrite Nat.pow_succ_r'. nia.
Qed.

(** * Cases *)
Definition ex_opts : dict gval := [("popsize", GNum (Fin 7)); ("filename", GStr "out.txt"); ("workers", GNum (Fin 4)); ("MultiprocessingObject", GMp 4)].
Example C113_case :
  NoDup (dkeys ex_opts) /\ before ex_opts "workers" "MultiprocessingObject" /\
  differential_evolution [] ex_opts None =
  Ok {| kw := [("init", GStr "random"); ("popsize", GNum (Fin 7)); ("workers", GPoolMap); ("callback", GCallback None (Some (GStr "out.txt")))]; stripped := true |}.
Proof.
  split; [repeat constructor; cbn; intuition discriminate|]. split.
  - exists [("popsize", GNum (Fin 7)); ("filename", GStr "out.txt"); ("workers", GNum (Fin 4))], [("MultiprocessingObject", GMp 4)].
    cbn. intuition.
  - reflexivity.
Qed.
Example C113_basinhopping_case :
  exists kws, basinhopping [(Fin 1, Fin 3)] [("niter", GNum (Fin 20)); ("write_intermediate_file", GBool false)]
    [("method", GStr "BFGS"); ("options", GDict [("gtol", GNum (Fin 1))])] = Ok kws /\
    dget kws "niter" = Some (GNum (Fin 20)) /\ dget kws "write_intermediate_file" = Some (GBool false) /\
    dget kws "minimizer_kwargs" = Some (GDict [("method", GStr "BFGS"); ("options", GDict [("maxiter", GNum (Fin 50)); ("gtol", GNum (Fin 1))])]).
Proof. eexists. split; [reflexivity|]. repeat split; reflexivity. Qed.
Definition ex_constraint : constraint :=
  {| c_function := Some "volume_linear"; c_args := Some [Fin 1; Fin 2]; c_type := Some "le"; c_kwargs := false |}.
Example C114_shgo_case :
  shgo ["volume_linear"] [] [] (Some [ex_constraint]) =
    Ok ([("sampling_method", GStr "sobol"); ("constraints", GBuilt [BDict "le" "volume_linear" [Fin 1; Fin 2]])],
        (GStr "SLSQP", [("maxiter", GNum (Fin 50))])) /\
  shgo ["volume_linear"] [] [("options", GDict [("xatol", GNum (Fin 1))])] (Some [ex_constraint]) = Err RuntimeError.
Proof. split; reflexivity. Qed.
Example C114_brute_case : brute_reported 3 5 = 15 /\ 5 ^ 3 = 125 /\
  exists c, brute [("Ns", GNum (Fin 7))] = Ok c /\ kw c = [("Ns", GNum (Fin 7)); ("finish", GFun "minimize"); ("full_output", GBool true)].
Proof. repeat split. eexists. split; reflexivity. Qed.

Print Assumptions C113_differential_evolution.
Print Assumptions C113_differential_evolution_file.
Print Assumptions C113_workers.
Print Assumptions C113_workers_refuted.
Print Assumptions C113_shgo.
Print Assumptions C113_brute.
Print Assumptions C113_minimizer.
Print Assumptions C113_basinhopping.
Print Assumptions C113_basinhopping_step.
Print Assumptions C113_file_switch.
Print Assumptions C113_basinhopping_minimizer_kwargs.
Print Assumptions C113_basinhopping_refuted.
Print Assumptions C114_minimizer_opts.
Print Assumptions C114_minimizer_opts_refuted.
Print Assumptions C114_constraints_refuted.
Print Assumptions C114_constraints.
Print Assumptions C114_shgo_constraints.
Print Assumptions C114_shgo_constraints_refuted.
Print Assumptions C114_single_objective.
Print Assumptions C114_brute_points_refuted.
