(** Proofs for C05 and C06. *)
From Verif Require Import Base BaseFacts ParallelModel ParallelSpec.

Section PoolProofs.
  Context {I O S : Type}.
  Variable step : S -> I -> S * result (list O).
  Variable f : I -> result (list O).
  Hypothesis Hst : stateless step f.

  Lemma run_list_stateless s l : snd (run_list step s l) = mapM f l.
  Proof.
    revert s. induction l as [|x xs IH]; intros s; cbn; [reflexivity|].
    pose proof (Hst s x) as Hx. destruct (step s x) as [s1 r]. cbn in Hx. subst r.
    destruct (f x) as [o|e]; cbn; [|reflexivity].
    specialize (IH s1). destruct (run_list step s1 xs) as [s2 r2]. cbn in IH. subst r2.
    destruct (mapM f xs); reflexivity.
  Qed.

  Lemma nth_slice {A} (v outs : list A) a cs j :
    length outs = Nat.min cs (length v - a) ->
    nth_error (firstn a v ++ outs ++ skipn (a + cs) v) j =
    if (a <=? j) && (j <? a + cs) then nth_error outs (j - a) else nth_error v j.
  Proof.
    intros Hl.
    destruct (Nat.leb_spec a j) as [Haj|Haj]; cbn [andb].
    - destruct (le_lt_dec (length v) a) as [Hva|Hva].
      + (* empty slice at the end *)
        assert (outs = []) by (destruct outs; [reflexivity|cbn in Hl; lia]). subst outs.
        rewrite firstn_all2 by lia. rewrite skipn_all2 by lia. rewrite !app_nil_r.
        replace (nth_error v j) with (@None A) by (symmetry; apply nth_error_None; lia).
        assert (Hn : forall n, nth_error (@nil A) n = None) by (intros []; reflexivity).
        rewrite Hn. destruct (_ : bool); reflexivity.
      + rewrite nth_error_app2 by (rewrite firstn_length; lia).
        rewrite firstn_length, Nat.min_l by lia.
        destruct (Nat.ltb_spec j (a + cs)) as [Hj|Hj].
        * destruct (le_lt_dec (length outs) (j - a)) as [Hg|Hg].
          -- rewrite nth_error_app2 by lia.
             rewrite skipn_all2 by lia.
             transitivity (@None A); [destruct (j - a - length outs); reflexivity|].
             symmetry. apply nth_error_None. lia.
          -- apply nth_error_app1. lia.
        * destruct (le_lt_dec (length v) (a + cs)) as [Hv|Hv].
          -- rewrite skipn_all2 by lia. rewrite app_nil_r.
             transitivity (@None A); [apply nth_error_None; lia|symmetry; apply nth_error_None; lia].
          -- rewrite nth_error_app2 by lia.
             rewrite <- (firstn_skipn (a + cs) v) at 2.
             rewrite nth_error_app2 by (rewrite firstn_length; lia).
             rewrite firstn_length, Nat.min_l by lia. f_equal. lia.
    - destruct (le_lt_dec (length v) j) as [Hv|Hv].
      + rewrite firstn_all2 by lia. assert (outs = []) by (destruct outs; [reflexivity|cbn in Hl; lia]).
        subst outs. rewrite skipn_all2 by lia. cbn. rewrite app_nil_r. reflexivity.
      + rewrite nth_error_app1 by (rewrite firstn_length; lia).
        rewrite <- (firstn_skipn a v) at 2. rewrite nth_error_app1 by (rewrite firstn_length; lia). reflexivity.
  Qed.

  Lemma length_slice {A} (v outs : list A) a cs :
    length outs = Nat.min cs (length v - a) ->
    length (firstn a v ++ outs ++ skipn (a + cs) v) = length v.
  Proof. intros H. rewrite !app_length, firstn_length, skipn_length, H. lia. Qed.

  Lemma length_chunk cs i (l : list I) : length (chunk cs i l) = Nat.min cs (length l - i * cs).
  Proof. unfold chunk. rewrite firstn_length, skipn_length. reflexivity. Qed.

  Lemma nth_chunk cs i (l : list I) j : j < cs -> nth_error (chunk cs i l) j = nth_error l (i * cs + j).
  Proof.
    intros Hj. unfold chunk.
    destruct (le_lt_dec (length l) (i * cs + j)) as [Hl|Hl].
    - transitivity (@None I); [|symmetry; apply nth_error_None; lia].
      apply nth_error_None. rewrite firstn_length, skipn_length. lia.
    - rewrite <- (firstn_skipn (i * cs) l) at 2.
      rewrite nth_error_app2 by (rewrite firstn_length; lia).
      rewrite firstn_length, Nat.min_l by lia. replace (i * cs + j - i * cs) with j by lia.
      rewrite <- (firstn_skipn cs (skipn (i * cs) l)) at 2.
      rewrite nth_error_app1; [reflexivity|]. rewrite firstn_length, skipn_length. lia.
  Qed.

  Lemma mapM_nth l ys j x : mapM f l = Ok ys -> nth_error l j = Some x ->
    exists o, f x = Ok o /\ nth_error ys j = Some o.
  Proof.
    intros H. apply mapM_Forall2 in H. revert j. induction H as [|a b l ys Hab H IH]; intros j Hj.
    - destruct j; discriminate.
    - destruct j as [|j]; cbn in *; [|apply IH; exact Hj]. injection Hj as <-. exists b; tauto.
  Qed.

  Lemma mapM_err l e : mapM f l = Err e -> exists x, In x l /\ f x = Err e.
  Proof.
    induction l as [|x xs IH]; cbn; [discriminate|].
    destruct (f x) as [o|e'] eqn:E; cbn.
    - destruct (mapM f xs) as [os|e'']; cbn; [discriminate|]. intros H; injection H as ->.
      destruct (IH eq_refl) as (y & Hy & Ey). exists y. split; [right; exact Hy|exact Ey].
    - intros H; injection H as ->. exists x. split; [left; reflexivity|exact E].
  Qed.

  Lemma mapM_ok l : (forall x, In x l -> exists o, f x = Ok o) -> exists ys, mapM f l = Ok ys.
  Proof.
    intros H. destruct (mapM f l) as [ys|e] eqn:E; [exists ys; reflexivity|].
    destruct (mapM_err l e E) as (x & Hx & Ex). destruct (H x Hx) as [o Ho]. congruence.
  Qed.

  Variable cs : nat.
  Hypothesis Hcs : 0 < cs.
  Variable inputs : list I.

  Definition PInv (p : pool O S) (done : list nat) : Prop :=
    length (slots p) = length inputs /\
    (failed p = None -> forall j x i, nth_error inputs j = Some x -> In i done ->
        i * cs <= j < i * cs + cs ->
        exists o, f x = Ok o /\ nth_error (slots p) j = Some (Some o)) /\
    (forall e, failed p = Some e -> exists x, In x inputs /\ exists e', f x = Err e').

  Lemma PInv_start s0 : PInv (pool_start s0 inputs) [].
  Proof.
    unfold PInv, pool_start; cbn. rewrite map_length. split; [reflexivity|]. split.
    - intros _ j x i _ [].
    - discriminate.
  Qed.

  Lemma PInv_deliver p done w i : PInv p done -> PInv (deliver step cs inputs p (w, i)) (done ++ [i]).
  Proof.
    intros (Hl & Hok & Hf). unfold deliver.
    pose proof (run_list_stateless (workers p w) (chunk cs i inputs)) as Hr.
    destruct (run_list step (workers p w) (chunk cs i inputs)) as [s' r]. cbn in Hr. subst r.
    destruct (mapM f (chunk cs i inputs)) as [outs|e] eqn:Em.
    - assert (Hlo : length (map Some outs) = Nat.min cs (length (slots p) - i * cs)).
      { rewrite map_length. rewrite (mapM_length _ _ _ Em), length_chunk, Hl. reflexivity. }
      unfold PInv; cbn [slots failed]. split; [|split].
      + rewrite (length_slice (slots p) (map Some outs) (i * cs) cs Hlo). exact Hl.
      + intros Hfail j x i' Hj Hi' Hr.
        rewrite (nth_slice (slots p) (map Some outs) (i * cs) cs j Hlo).
        destruct (Nat.leb_spec (i * cs) j) as [H1|H1]; cbn [andb];
          [destruct (Nat.ltb_spec j (i * cs + cs)) as [H2|H2]|].
        * assert (Hc : nth_error (chunk cs i inputs) (j - i * cs) = Some x).
          { rewrite nth_chunk by lia. replace (i * cs + (j - i * cs)) with j by lia. exact Hj. }
          destruct (mapM_nth _ _ _ _ Em Hc) as (o & Ho & Hn). exists o. split; [exact Ho|].
          rewrite nth_error_map, Hn. reflexivity.
        * apply in_app_or in Hi'. destruct Hi' as [Hi'|[<-|[]]]; [|lia].
          apply (Hok Hfail j x i' Hj Hi' Hr).
        * apply in_app_or in Hi'. destruct Hi' as [Hi'|[<-|[]]]; [|lia].
          apply (Hok Hfail j x i' Hj Hi' Hr).
      + exact Hf.
    - unfold PInv; cbn [slots failed]. split; [exact Hl|]. split.
      + intros Hfail. destruct (failed p); discriminate.
      + intros e' _. destruct (mapM_err _ _ Em) as (x & Hx & Ex).
        exists x. split; [|exists e; exact Ex]. unfold chunk in Hx.
        rewrite <- (firstn_skipn (i * cs) inputs). apply in_or_app. right.
        rewrite <- (firstn_skipn cs (skipn (i * cs) inputs)). apply in_or_app. left. exact Hx.
  Qed.

  Lemma PInv_run sched p done : PInv p done ->
    PInv (fold_left (deliver step cs inputs) sched p) (done ++ map snd sched).
  Proof.
    revert p done. induction sched as [|[w i] sched IH]; intros p done H; cbn [fold_left map snd].
    - rewrite app_nil_r. exact H.
    - replace (done ++ i :: map snd sched) with ((done ++ [i]) ++ map snd sched)
        by (rewrite <- app_assoc; reflexivity).
      apply IH. apply PInv_deliver. exact H.
  Qed.

  Lemma all_some_spec (l : list (option (list O))) rows :
    Forall2 (fun s r => s = Some r) l rows -> all_some l = Some rows.
  Proof. induction 1 as [|s r l rows E H IH]; cbn; [reflexivity|]. subst s. rewrite IH. reflexivity. Qed.

  Lemma Forall2_nth {A B} (P : A -> B -> Prop) l l' :
    length l = length l' ->
    (forall j x y, nth_error l j = Some x -> nth_error l' j = Some y -> P x y) -> Forall2 P l l'.
  Proof.
    revert l'. induction l as [|x l IH]; intros [|y l'] Hl H; try discriminate; constructor.
    - apply (H 0); reflexivity.
    - apply IH; [cbn in Hl; lia|]. intros j a b Ha Hb. apply (H (Datatypes.S j)); assumption.
  Qed.

  (** the pool's outcome, complete schedules *)
  Lemma pool_outcome s0 sched :
    complete_schedule cs (length inputs) sched ->
    match mapM f inputs with
    | Ok rows => pool_job step s0 cs inputs sched = Ok (Cols (zip_star rows))
    | Err _ => exists e, pool_job step s0 cs inputs sched = Err e
    end.
  Proof.
    intros (_ & Hcov). unfold pool_job, pool_run.
    pose proof (PInv_run sched _ _ (PInv_start s0)) as (Hl & Hok & Hf).
    cbn [app] in *. set (p := fold_left _ _ _) in *.
    destruct (mapM f inputs) as [rows|e] eqn:Em.
    - destruct (failed p) as [e|] eqn:Ef.
      + destruct (Hf e eq_refl) as (x & Hx & e' & Ex).
        apply In_nth_error in Hx. destruct Hx as [j Hj].
        destruct (mapM_nth _ _ _ _ Em Hj) as (o & Ho & _). congruence.
      + rewrite (all_some_spec (slots p) rows); [reflexivity|].
        apply Forall2_nth; [rewrite Hl; symmetry; eapply mapM_length; exact Em|].
        intros j s r Hs Hr.
        assert (Hj : j < length inputs).
        { rewrite <- Hl. apply nth_error_Some. congruence. }
        destruct (nth_error inputs j) as [x|] eqn:Hx; [|apply nth_error_None in Hx; lia].
        destruct (mapM_nth _ _ _ _ Em Hx) as (o & Ho & Hro).
        assert (Hdm := Nat.div_mod j cs ltac:(lia)).
        assert (Hmb := Nat.mod_upper_bound j cs ltac:(lia)).
        destruct (Hok eq_refl j x (j / cs) Hx) as (o' & Ho' & Hs').
        { apply Hcov. nia. }
        { nia. }
        congruence.
    - destruct (failed p) as [e'|] eqn:Ef; [exists e'; reflexivity|].
      exfalso. destruct (mapM_err _ _ Em) as (x & Hx & Ex).
      apply In_nth_error in Hx. destruct Hx as [j Hj].
      assert (Hjl : j < length inputs) by (apply nth_error_Some; congruence).
      assert (Hdm := Nat.div_mod j cs ltac:(lia)).
      assert (Hmb := Nat.mod_upper_bound j cs ltac:(lia)).
      destruct (Hok eq_refl j x (j / cs) Hj) as (o' & Ho' & _).
      { apply Hcov. nia. }
      { nia. }
      congruence.
  Qed.

  Lemma serial_outcome s0 :
    serial_job step s0 inputs =
    match mapM f inputs with Ok rows => Ok (np_transpose rows) | Err e => Err e end.
  Proof. unfold serial_job. rewrite run_list_stateless. reflexivity. Qed.
End PoolProofs.

(** transposition *)
Lemma heads_uniform {O} (rows : list (list O)) k :
  (forall r, In r rows -> length r = S k) ->
  exists h t, heads rows = Some (h, t) /\ length h = length rows /\ length t = length rows /\
    (forall r, In r t -> length r = k) /\
    (forall i r, nth_error rows i = Some r ->
       exists x r', r = x :: r' /\ nth_error h i = Some x /\ nth_error t i = Some r').
Proof.
  induction rows as [|r rows IH]; intros H; cbn.
  - exists [], []. split; [reflexivity|]. split; [reflexivity|]. split; [reflexivity|]. split.
    + intros r [].
    + intros i r Hi; destruct i; discriminate.
  - destruct r as [|x r]; [specialize (H [] (or_introl eq_refl)); discriminate|].
    destruct IH as (h & t & E & Hh & Ht & Hk & Hn); [intros r' Hr'; apply H; right; exact Hr'|].
    rewrite E. exists (x :: h), (r :: t). split; [reflexivity|]. cbn. split; [lia|]. split; [lia|]. split.
    + intros r' [<-|Hr']; [|apply Hk; exact Hr']. specialize (H (x :: r) (or_introl eq_refl)). cbn in H; lia.
    + intros [|i] r' Hi; cbn in *.
      * injection Hi as <-. exists x, r. tauto.
      * apply Hn, Hi.
Qed.

Lemma zipn_uniform {O} k (rows : list (list O)) :
  (forall r, In r rows -> length r = k) ->
  length (zipn k rows) = k /\
  (forall j col, nth_error (zipn k rows) j = Some col -> length col = length rows) /\
  (forall i j r o, nth_error rows i = Some r -> nth_error r j = Some o ->
     exists col, nth_error (zipn k rows) j = Some col /\ nth_error col i = Some o).
Proof.
  revert rows. induction k as [|k IH]; intros rows H; cbn [zipn].
  - split; [reflexivity|]. split; [intros j col Hj; destruct j; discriminate|].
    intros i j r o Hi Hj. apply nth_error_In in Hi. specialize (H r Hi).
    destruct r; [destruct j; discriminate|discriminate].
  - destruct (heads_uniform rows k H) as (h & t & E & Hh & Ht & Hk & Hn). rewrite E.
    destruct (IH t Hk) as (I1 & I2 & I3). cbn. split; [lia|]. split.
    + intros [|j] col Hj; cbn in Hj; [injection Hj as <-; exact Hh|].
      rewrite <- Ht. apply (I2 j col Hj).
    + intros i [|j] r o Hi Hj; destruct (Hn i r Hi) as (x & r' & -> & Hx & Hr'); cbn in *.
      * injection Hj as <-. exists h. tauto.
      * apply (I3 i j r' o Hr' Hj).
Qed.

Lemma forallb_uniform {O} (rows : list (list O)) k :
  (forall r, In r rows -> length r = k) -> forallb (fun r' => Nat.eqb (length r') k) rows = true.
Proof. intros H. apply forallb_forall. intros r Hr. apply Nat.eqb_eq, H, Hr. Qed.

Lemma transpose_agree {O} (rows : list (list O)) k :
  (forall r, In r rows -> length r = k) -> np_transpose rows = Cols (zip_star rows).
Proof.
  intros H. unfold np_transpose, zip_star. destruct rows as [|r rows]; [reflexivity|].
  assert (Hr : length r = k) by (apply H; left; reflexivity). rewrite Hr.
  rewrite forallb_uniform by exact H. reflexivity.
Qed.

Lemma pool_equals_serial {I O S} (step : S -> I -> S * result (list O)) f s0 s1 cs inputs sched k :
  stateless step f -> complete_schedule cs (length inputs) sched ->
  (forall x row, In x inputs -> f x = Ok row -> length row = k) ->
  (forall x, In x inputs -> exists row, f x = Ok row) ->
  exists c, pool_job step s0 cs inputs sched = Ok (Cols c) /\
            serial_job step s1 inputs = Ok (Cols c) /\
            (inputs <> [] -> columns_of f inputs k c).
Proof.
  intros Hst Hsched Hk Hok.
  destruct (mapM_ok f inputs Hok) as [rows Em].
  pose proof (pool_outcome step f Hst cs (proj1 Hsched) inputs s0 sched Hsched) as Hp.
  rewrite Em in Hp.
  assert (Hw : forall r, In r rows -> length r = k).
  { intros r Hr. apply In_nth_error in Hr. destruct Hr as [i Hi].
    assert (Hli : i < length inputs).
    { rewrite <- (mapM_length _ _ _ Em). apply nth_error_Some. congruence. }
    destruct (nth_error inputs i) as [x|] eqn:Hx; [|apply nth_error_None in Hx; lia].
    destruct (mapM_nth f inputs rows i x Em Hx) as (o & Ho & Hr).
    assert (o = r) by congruence. subst. apply (Hk x); [eapply nth_error_In; exact Hx|exact Ho]. }
  exists (zip_star rows). split; [exact Hp|]. split.
  - rewrite (serial_outcome step f Hst). rewrite Em. rewrite (transpose_agree rows k Hw). reflexivity.
  - intros Hne. assert (Hz : zip_star rows = zipn k rows).
    { unfold zip_star. destruct rows as [|r rows].
      - apply mapM_length in Em. destruct inputs; [congruence|discriminate].
      - rewrite (Hw r) by (left; reflexivity). reflexivity. }
    rewrite Hz. destruct (zipn_uniform k rows Hw) as (I1 & I2 & I3). split; [exact I1|]. split.
    + intros j col Hj. rewrite (I2 j col Hj). eapply mapM_length; exact Em.
    + intros i j x row o Hx Hrow Ho. destruct (mapM_nth f inputs rows i x Em Hx) as (o' & Ho' & Hr).
      assert (o' = row) by congruence. subst. apply (I3 i j row o Hr Ho).
Qed.

Lemma pool_raises_iff {I O S} (step : S -> I -> S * result (list O)) f s0 s1 cs inputs sched :
  stateless step f -> complete_schedule cs (length inputs) sched ->
  ((exists e, pool_job step s0 cs inputs sched = Err e) <->
   (exists e, serial_job step s1 inputs = Err e)).
Proof.
  intros Hst Hsched. rewrite (serial_outcome step f Hst).
  pose proof (pool_outcome step f Hst cs (proj1 Hsched) inputs s0 sched Hsched) as Hp.
  destruct (mapM f inputs) as [rows|e]; split; intros [e' He']; try congruence.
  eexists; reflexivity.
Qed.

(** ** Logs *)
Section LogProofs.
  Context {L : Type}.

  Lemma fget_fset_same (fs : list (nat * list L)) p c : fget (fset fs p c) p = Some c.
  Proof.
    induction fs as [|[q c'] fs IH]; cbn; [rewrite Nat.eqb_refl; reflexivity|].
    destruct (Nat.eqb p q) eqn:E; cbn; rewrite E; [reflexivity|exact IH].
  Qed.
  Lemma fget_fset_other (fs : list (nat * list L)) p q c : p <> q -> fget (fset fs p c) q = fget fs q.
  Proof.
    intros Hn. induction fs as [|[r c'] fs IH]; cbn.
    - destruct (Nat.eqb_spec q p); [congruence|reflexivity].
    - destruct (Nat.eqb_spec p r); cbn.
      + subst. destruct (Nat.eqb_spec q r); [congruence|reflexivity].
      + destruct (Nat.eqb_spec q r); [reflexivity|exact IH].
  Qed.
  Lemma fget_fdel (fs : list (nat * list L)) p q :
    fget (fdel fs p) q = if Nat.eqb q p then None else fget fs q.
  Proof.
    induction fs as [|[r c] fs IH]; cbn; [destruct (Nat.eqb q p); reflexivity|].
    destruct (Nat.eqb_spec p r) as [->|Hpr]; cbn.
    - rewrite IH. destruct (Nat.eqb_spec q r); reflexivity.
    - rewrite IH. destruct (Nat.eqb_spec q r) as [->|]; [|reflexivity].
      destruct (Nat.eqb_spec r p); [congruence|reflexivity].
  Qed.
  Lemma content_fset_same (fs : list (nat * list L)) p c : content (fset fs p c) p = c.
  Proof. unfold content. rewrite fget_fset_same. reflexivity. Qed.
  Lemma content_fset_other (fs : list (nat * list L)) p q c : p <> q -> content (fset fs p c) q = content fs q.
  Proof. intros H. unfold content. rewrite fget_fset_other by exact H. reflexivity. Qed.

  Lemma logged_app p (m m' : list (nat * L)) : logged p (m ++ m') = logged p m ++ logged p m'.
  Proof.
    induction m as [|[q l] m IH]; cbn; [reflexivity|]. destruct (Nat.eqb p q); cbn; rewrite IH; reflexivity.
  Qed.
  Lemma logged_map p q (c : list L) :
    logged p (map (fun l => (q, l)) c) = if Nat.eqb p q then c else [].
  Proof.
    induction c as [|l c IH]; cbn; [destruct (Nat.eqb p q); reflexivity|].
    rewrite IH. destruct (Nat.eqb p q); reflexivity.
  Qed.
  Lemma emitted_app p (a b : list (logop L)) : emitted p (a ++ b) = emitted p a ++ emitted p b.
  Proof.
    induction a as [|o a IH]; cbn; [reflexivity|]. destruct o as [q l| | |]; try exact IH.
    destruct (Nat.eqb p q); cbn; rewrite IH; reflexivity.
  Qed.

  (** nothing lost, nothing duplicated, order kept: main log then file = emitted *)
  Definition LInv (main0 : list (nat * L)) (s : logs L) (ops : list (logop L)) :=
    forall p, logged p (mainlog s) ++ content (files s) p = logged p main0 ++ emitted p ops.

  Lemma consolidate_inv p (s : logs L) q :
    logged p (mainlog (consolidate1 s q)) ++ content (files (consolidate1 s q)) p
    = logged p (mainlog s) ++ content (files s) p.
  Proof.
    unfold consolidate1; cbn. rewrite logged_app, logged_map.
    destruct (Nat.eqb_spec p q) as [->|Hn].
    - rewrite content_fset_same, app_nil_r. reflexivity.
    - rewrite content_fset_other by congruence. rewrite app_nil_r. reflexivity.
  Qed.

  Lemma consolidate_all_inv pids : forall p (s : logs L),
    logged p (mainlog (consolidate pids s)) ++ content (files (consolidate pids s)) p
    = logged p (mainlog s) ++ content (files s) p.
  Proof.
    unfold consolidate. induction pids as [|q pids IH]; intros p s; cbn; [reflexivity|].
    rewrite IH. apply consolidate_inv.
  Qed.

  Lemma consolidate1_content (s : logs L) p q :
    content (files s) p = [] -> content (files (consolidate1 s q)) p = [].
  Proof.
    intros H. unfold consolidate1; cbn. destruct (Nat.eq_dec q p) as [->|Hn].
    - apply content_fset_same.
    - rewrite content_fset_other by exact Hn. exact H.
  Qed.

  Lemma consolidate_empties pids : forall (s : logs L) p,
    In p pids \/ content (files s) p = [] -> content (files (consolidate pids s)) p = [].
  Proof.
    unfold consolidate. induction pids as [|q pids IH]; intros s p H; cbn.
    - destruct H as [[]|H]; exact H.
    - apply IH. destruct H as [[->|H]|H].
      + right. unfold consolidate1; cbn. apply content_fset_same.
      + left; exact H.
      + right. apply consolidate1_content, H.
  Qed.

  Lemma content_init pids p : content (map (fun q => (q, @nil L)) pids) p = [].
  Proof.
    unfold content. induction pids as [|q pids IH]; cbn; [reflexivity|].
    destruct (Nat.eqb p q); [reflexivity|exact IH].
  Qed.

  Lemma logrun_inv pids (main0 : list (nat * L)) ops :
    (forall o, In o ops -> running o) -> LInv main0 (logrun pids (log_init pids main0) ops) ops.
  Proof.
    induction ops as [|o ops IH] using rev_ind; intros Hrun p.
    - cbn. rewrite content_init, !app_nil_r. reflexivity.
    - unfold logrun in *. rewrite fold_left_app. cbn [fold_left].
      set (s := fold_left (logstep pids) ops (log_init pids main0)) in *.
      assert (IH' : LInv main0 s ops) by (apply IH; intros x Hx; apply Hrun, in_or_app; left; exact Hx).
      assert (Ho : running o) by (apply Hrun, in_or_app; right; left; reflexivity).
      rewrite emitted_app. specialize (IH' p). destruct o as [q l| | |]; cbn [logstep].
      + unfold worker_log; cbn. destruct (Nat.eqb_spec p q) as [->|Hn].
        * rewrite content_fset_same. rewrite !app_assoc. rewrite IH'. reflexivity.
        * rewrite content_fset_other by congruence. rewrite app_nil_r. exact IH'.
      + rewrite consolidate_all_inv. cbn. rewrite app_nil_r. exact IH'.
      + cbn. rewrite app_nil_r. exact IH'.
      + destruct Ho.
  Qed.

  Lemma fold_fdel pids : forall (fs : list (nat * list L)) p, In p pids \/ fget fs p = None ->
    fget (fold_left fdel pids fs) p = None.
  Proof.
    induction pids as [|q pids IH]; intros fs p H; cbn.
    - destruct H as [[]|H]; exact H.
    - apply IH. rewrite fget_fdel. destruct (Nat.eqb_spec p q) as [->|Hn]; [right; reflexivity|].
      destruct H as [[H|H]|H]; [congruence|left; exact H|right; exact H].
  Qed.

  Lemma logs_complete pids (main0 : list (nat * L)) ops p :
    In p pids ->
    (forall o, In o ops -> running o) ->
    let s := logrun pids (log_init pids main0) (ops ++ [JobDone; EndPool]) in
    logged p (mainlog s) = logged p main0 ++ emitted p ops /\ fget (files s) p = None.
  Proof.
    intros Hp Hrun s. subst s. unfold logrun. rewrite fold_left_app. cbn [fold_left logstep].
    pose proof (logrun_inv pids main0 ops Hrun p) as Hi. unfold logrun in Hi.
    set (s := fold_left (logstep pids) ops (log_init pids main0)) in *.
    split.
    - cbn [remove_logs mainlog]. rewrite <- Hi. rewrite <- (consolidate_all_inv pids p s).
      rewrite (consolidate_empties pids s p) by (left; exact Hp). rewrite app_nil_r. reflexivity.
    - cbn [remove_logs files]. apply fold_fdel. left; exact Hp.
  Qed.
End LogProofs.

Lemma logs_lost_on_error :
  let s := logrun [7] (log_init [7] []) [WorkerLog 7 "boom"%string; JobRaised; EndPool] in
  emitted 7 [WorkerLog 7 "boom"%string; JobRaised; EndPool] = ["boom"%string] /\ mainlog s = [] /\ files s = [].
Proof. repeat split. Qed.

Lemma init_cores_spec cpu n :
  match init_cores cpu n with
  | Ok (mp, m) => (n = -1 /\ mp = true /\ m = Z.of_nat cpu)%Z \/ (1 < n /\ mp = true /\ m = n)%Z \/ (n = 1 /\ mp = false /\ m = 1)%Z
  | Err e => e = ValueError /\ (n < 1 /\ n <> -1)%Z
  end.
Proof.
  unfold init_cores. destruct (Z.eqb_spec n (-1)); [left; repeat split; assumption|].
  destruct (Z.ltb_spec 1 n); [right; left; repeat split; lia|].
  destruct (Z.eqb_spec n 1); [right; right; repeat split; lia|]. split; [reflexivity|lia].
Qed.
