(** C124: the association energy does not depend on the order in which components, groups and kinds of sites are
    listed. *)
From Coq Require Import Reals Lra Lia Permutation.
From Verif Require Import Base BaseFacts RSum OrderSpec EosToolboxModel AssocModel AssocProofs AssocProps XikaModel AssocIntModel AssocIntProps.
Open Scope R_scope.

(** A table with [n] rows and [m] columns; the number zero. *)
Definition table_of (n m : nat) (f : nat -> nat -> R) : list (list R) := map (fun i => map (f i) (seq 0 m)) (seq 0 n).
Definition is_zero (x : R) : bool := if Req_EM_T x 0 then true else false.

(** * The loop on fractions given site by site *)
Lemma fold_plus_tot {A} (f : A -> R) l a : fold_left (fun acc x => acc + f x) l a = a + tot (map f l).
Proof. revert a. induction l as [|x l IH]; intros a; cbn; [lra|]. rewrite IH. unfold tot. cbn. lra. Qed.
Lemma tot_perm l l' : Permutation l l' -> tot l = tot l'.
Proof. apply rsum_perm. Qed.
Lemma map_nth_seq {A B} (f : A -> B) (d : A) l : map (fun j => f (nth j l d)) (seq 0 (length l)) = map f l.
Proof.
  induction l as [|x l IH]; [reflexivity|]. cbn [length seq map nth]. f_equal. rewrite <- seq_shift, map_map. exact IH.
Qed.
Lemma rmax_fold l : forall x, In (fold_left Rmax l x) (x :: l) /\ forall y, In y (x :: l) -> y <= fold_left Rmax l x.
Proof.
  induction l as [|z l IH]; intros x; cbn [fold_left].
  - split; [left; reflexivity|]. intros y [->|[]]. lra.
  - destruct (IH (Rmax x z)) as [I B]. split.
    + destruct I as [<-|I]; [|right; right; exact I]. unfold Rmax. destruct (Rle_dec x z); [right; left|left]; reflexivity.
    + pose proof (Rmax_l x z). pose proof (Rmax_r x z). pose proof (B _ (or_introl eq_refl)).
      intros y [<-|[<-|Hy]]; [lra|lra|apply B; right; exact Hy].
Qed.
Lemma rmax_perm l l' : Permutation l l' -> rmax l = rmax l'.
Proof.
  intros P. destruct l as [|x l]; destruct l' as [|x' l'].
  - reflexivity.
  - apply Permutation_nil in P. discriminate.
  - apply Permutation_sym, Permutation_nil in P. discriminate.
  - cbn [rmax]. destruct (rmax_fold l x) as [I B]. destruct (rmax_fold l' x') as [I' B'].
    apply Rle_antisym; [apply B'; apply (Permutation_in _ P), I|apply B; apply (Permutation_in _ (Permutation_sym P)), I'].
Qed.
Lemma combine_map {A} (f g : A -> R) l : combine (map f l) (map g l) = map (fun s => (f s, g s)) l.
Proof. induction l as [|x l IH]; [reflexivity|]. cbn. f_equal. exact IH. Qed.
Lemma dist_map {A} (f g : A -> R) l : dist (map f l) (map g l) = tot (map (fun s => Rabs (f s - g s)) l).
Proof. unfold dist. rewrite combine_map, map_map. reflexivity. Qed.
Lemma damped_map {A} d (f g : A -> R) l : damped d (map f l) (map g l) = map (fun s => g s + d * (f s - g s)) l.
Proof. unfold damped. rewrite combine_map, map_map. reflexivity. Qed.

Lemma const_map {A} (c : R) (l : list A) : repeat c (length l) = map (fun _ => c) l.
Proof. induction l as [|x l IH]; [reflexivity|]. cbn. f_equal. exact IH. Qed.

Section Relabel.
  Variables (h : site -> site) (sites sites' : list site).
  Hypothesis P : Permutation (map h sites') sites.

  Lemma relabel_map (f : site -> R) (f' : site -> R) : (forall t, In t sites' -> f' t = f (h t)) ->
    Permutation (map f' sites') (map f sites).
  Proof.
    intros E. rewrite (map_ext_in f' (fun t => f (h t)) sites' E), <- map_map. apply Permutation_map, P.
  Qed.
  Definition fractions_agree (X X' : list R) : Prop := exists x x', X = map x sites /\ X' = map x' sites' /\ forall t, In t sites' -> x' t = x (h t).

  Section Step.
    Variables (step step' : list R -> list R).
    Hypothesis ST : forall X X', fractions_agree X X' -> fractions_agree (step X) (step' X').
    Lemma dist_agree X X' Y Y' : fractions_agree X X' -> fractions_agree Y Y' -> dist X Y = dist X' Y'.
    Proof.
      intros (x & x' & -> & -> & Ex) (y & y' & -> & -> & Ey). rewrite !dist_map. symmetry. apply tot_perm, relabel_map.
      intros t Ht. rewrite (Ex t Ht), (Ey t Ht). reflexivity.
    Qed.
    Lemma rmax_agree X X' : fractions_agree X X' -> rmax X = rmax X'.
    Proof. intros (x & x' & -> & -> & Ex). symmetry. apply rmax_perm, relabel_map. exact Ex. Qed.
    Lemma damped_agree d X X' Y Y' : fractions_agree X X' -> fractions_agree Y Y' -> fractions_agree (damped d X Y) (damped d X' Y').
    Proof.
      intros (x & x' & -> & -> & Ex) (y & y' & -> & -> & Ey). rewrite !damped_map.
      eexists _, _. split; [reflexivity|]. split; [reflexivity|]. intros t Ht. cbv beta. rewrite (Ex t Ht), (Ey t Ht). reflexivity.
    Qed.
    Lemma iterate_agree tol damp fuel : forall X X' o, fractions_agree X X' ->
      fractions_agree (fst (iterate step tol damp fuel X o)) (fst (iterate step' tol damp fuel X' o)) /\
      snd (iterate step tol damp fuel X o) = snd (iterate step' tol damp fuel X' o).
    Proof.
      induction fuel as [|fuel IH]; intros X X' o HX; [split; [exact HX|reflexivity]|].
      cbn [iterate]. assert (HS := ST X X' HX). rewrite (dist_agree _ _ _ _ HS HX), (rmax_agree _ _ HX).
      destruct (Rlt_dec (dist (step' X') X') tol); [split; [exact HX|reflexivity]|].
      destruct (Rgt_dec (dist (step' X') X' / rmax X') 1000); [apply IH, damped_agree; assumption|apply IH; exact HS].
    Qed.
  End Step.
  Lemma densities_agree step step' tol damp maxiter
    (ST : forall r p X X', fractions_agree X X' -> fractions_agree (step r p X) (step' r p X')) :
    forall rho r X X', fractions_agree X X' ->
    Forall2 (fun a b => fractions_agree (fst a) (fst b) /\ snd a = snd b) (densities step tol damp maxiter r rho X) (densities step' tol damp maxiter r rho X').
  Proof.
    induction rho as [|p rho IH]; intros r X X' HX; [constructor|]. cbn [densities].
    destruct (iterate_agree _ _ (ST r p) tol damp maxiter X X' 0 HX) as [E1 E2]. constructor; [split; assumption|]. apply IH. exact E1.
  Qed.

  Variables (xi xi' : nat -> R) (nu nu' nk nk' : nat -> nat -> R) (F F' : nat -> nat -> nat -> nat -> R) (g g' : nat -> nat -> nat -> R) (K K' : bonding).
  Hypothesis Ew : forall t, In t sites' ->
    xi' (comp_of t) = xi (comp_of (h t)) /\ nu' (comp_of t) (bead_of t) = nu (comp_of (h t)) (bead_of (h t)) /\ nk' (bead_of t) (type_of t) = nk (bead_of (h t)) (type_of (h t)).
  Hypothesis Ed : forall r s t, In s sites' -> In t sites' -> py_delta F' g' K' r s t = py_delta F g K r (h s) (h t).

  Lemma step_form ss x n0 k0 f0 g0 (k : bonding) (y : site -> R) r rho :
    py_step ss x n0 k0 f0 g0 k r rho (map y ss)
    = map (fun s => 1 / (1 + tot (map (fun t => per_nm3 * rho * x (comp_of t) * n0 (comp_of t) (bead_of t) * k0 (bead_of t) (type_of t) * y t * py_delta f0 g0 k r s t) ss))) ss.
  Proof.
    unfold py_step.
    rewrite <- (map_nth_seq (fun s => 1 / (1 + tot (map (fun t => per_nm3 * rho * x (comp_of t) * n0 (comp_of t) (bead_of t) * k0 (bead_of t) (type_of t) * y t * py_delta f0 g0 k r s t) ss))) (0, 0, 0)%nat ss).
    apply map_ext_in. intros ind Hi. f_equal. cbv zeta.
    rewrite (fold_plus_tot (fun jnd => per_nm3 * rho * x (comp_of (site_at ss jnd)) * n0 (comp_of (site_at ss jnd)) (bead_of (site_at ss jnd)) * k0 (bead_of (site_at ss jnd)) (type_of (site_at ss jnd)) * nth jnd (map y ss) 0 * py_delta f0 g0 k r (site_at ss ind) (site_at ss jnd))).
    f_equal. f_equal.
    rewrite <- (map_nth_seq (fun t => per_nm3 * rho * x (comp_of t) * n0 (comp_of t) (bead_of t) * k0 (bead_of t) (type_of t) * y t * py_delta f0 g0 k r (nth ind ss (0, 0, 0)%nat) t) (0, 0, 0)%nat ss).
    apply map_ext_in. intros j Hj. apply in_seq in Hj. unfold site_at.
    rewrite (nth_indep (map y ss) 0 (y (0, 0, 0)%nat)) by (rewrite map_length; lia). rewrite map_nth. reflexivity.
  Qed.
  Lemma step_agree r rho X X' : fractions_agree X X' -> fractions_agree (py_step sites xi nu nk F g K r rho X) (py_step sites' xi' nu' nk' F' g' K' r rho X').
  Proof.
    intros (x & x' & -> & -> & Ex). rewrite !step_form.
    eexists _, _. split; [reflexivity|]. split; [reflexivity|]. intros s Hs. cbv beta. do 2 f_equal.
    apply tot_perm, (relabel_map (fun t => per_nm3 * rho * xi (comp_of t) * nu (comp_of t) (bead_of t) * nk (bead_of t) (type_of t) * x t * py_delta F g K r (h s) t)). intros t Ht.
    destruct (Ew t Ht) as (-> & -> & ->). rewrite (Ex t Ht), (Ed r s t Hs Ht). reflexivity.
  Qed.
  Lemma energy_form ss x n0 k0 (y : site -> R) :
    assoc_energy ss x n0 k0 (map y ss)
    = tot (map (fun s => if Req_EM_T (k0 (bead_of s) (type_of s)) 0 then 0 else x (comp_of s) * n0 (comp_of s) (bead_of s) * k0 (bead_of s) (type_of s) * (ln (y s) + (1 - y s) / 2)) ss).
  Proof.
    unfold assoc_energy.
    rewrite <- (map_nth_seq (fun s => if Req_EM_T (k0 (bead_of s) (type_of s)) 0 then 0 else x (comp_of s) * n0 (comp_of s) (bead_of s) * k0 (bead_of s) (type_of s) * (ln (y s) + (1 - y s) / 2)) (0, 0, 0)%nat ss).
    assert (E : forall l a, (forall j, In j l -> (j < length ss)%nat) ->
      fold_left (fun acc ind => let s := site_at ss ind in
        if Req_EM_T (k0 (bead_of s) (type_of s)) 0 then acc
        else acc + x (comp_of s) * n0 (comp_of s) (bead_of s) * k0 (bead_of s) (type_of s) * (ln (nth ind (map y ss) 0) + (1 - nth ind (map y ss) 0) / 2)) l a
      = a + tot (map (fun j => let s := nth j ss (0, 0, 0)%nat in if Req_EM_T (k0 (bead_of s) (type_of s)) 0 then 0 else x (comp_of s) * n0 (comp_of s) (bead_of s) * k0 (bead_of s) (type_of s) * (ln (y s) + (1 - y s) / 2)) l)).
    { induction l as [|j l IH]; intros a Hl; cbn [fold_left map]; [unfold tot; cbn; lra|].
      rewrite IH by (intros; apply Hl; right; assumption). unfold tot at 2. cbn [fold_right]. fold tot. cbv zeta. unfold site_at.
      rewrite (nth_indep (map y ss) 0 (y (0, 0, 0)%nat)) by (rewrite map_length; apply Hl; left; reflexivity). rewrite map_nth.
      destruct (Req_EM_T _ 0); fold (tot (map (fun j => let s := nth j ss (0, 0, 0)%nat in if Req_EM_T (k0 (bead_of s) (type_of s)) 0 then 0 else x (comp_of s) * n0 (comp_of s) (bead_of s) * k0 (bead_of s) (type_of s) * (ln (y s) + (1 - y s) / 2)) l)); unfold tot; cbn; lra. }
    rewrite E by (intros j Hj; apply in_seq in Hj; lia). rewrite Rplus_0_l. reflexivity.
  Qed.
  Lemma energy_agree X X' : fractions_agree X X' -> assoc_energy sites' xi' nu' nk' X' = assoc_energy sites xi nu nk X.
  Proof.
    intros (x & x' & -> & -> & Ex). rewrite !energy_form. apply tot_perm.
    apply (relabel_map (fun s => if Req_EM_T (nk (bead_of s) (type_of s)) 0 then 0 else xi (comp_of s) * nu (comp_of s) (bead_of s) * nk (bead_of s) (type_of s) * (ln (x s) + (1 - x s) / 2))).
    intros t Ht. cbv beta. destruct (Ew t Ht) as (-> & -> & ->). rewrite (Ex t Ht). reflexivity.
  Qed.
  Lemma start_agree : fractions_agree (repeat (1 / 2) (length sites)) (repeat (1 / 2) (length sites')).
  Proof. exists (fun _ => 1 / 2), (fun _ => 1 / 2). split; [|split; [|reflexivity]]; apply const_map. Qed.
  Lemma energies_agree rho :
    map (fun X => assoc_energy sites' xi' nu' nk' (fst X)) (calc_Xika sites' xi' nu' nk' F' g' K' rho)
    = map (fun X => assoc_energy sites xi nu nk (fst X)) (calc_Xika sites xi nu nk F g K rho).
  Proof.
    unfold calc_Xika, py_calc_Xika.
    assert (D := densities_agree (py_step sites xi nu nk F g K) (py_step sites' xi' nu' nk' F' g' K') (1 / 10 ^ 12) (1 / 10) 500 step_agree rho 0%nat _ _ start_agree).
    induction D as [|a b l l' [E _] D IH]; [reflexivity|]. cbn [map]. rewrite IH. f_equal. apply energy_agree. exact E.
  Qed.
End Relabel.

(** * The lists of sites *)
Lemma NoDup_map_in {A B} (f : A -> B) l : (forall x y, In x l -> In y l -> f x = f y -> x = y) -> NoDup l -> NoDup (map f l).
Proof.
  intros I N. induction N as [|x l Nx N IH]; cbn; constructor.
  - intros H. apply in_map_iff in H. destruct H as (y & E & Hy). assert (y = x) by (apply I; [right; exact Hy|left; reflexivity|exact E]). subst y. contradiction.
  - apply IH. intros; apply I; try (right; assumption); assumption.
Qed.
Lemma nth_error_Some_lt {A} (l : list A) i x : nth_error l i = Some x -> (i < length l)%nat.
Proof. intros H. apply nth_error_Some. congruence. Qed.
Lemma nth_error_seq0 n i : (i < n)%nat -> nth_error (seq 0 n) i = Some i.
Proof. intros H. rewrite (nth_error_nth' _ 0%nat) by (rewrite seq_length; exact H). rewrite seq_nth by exact H. reflexivity. Qed.
Lemma table_row n m f i row : nth_error (table_of n m f) i = Some row -> (i < n)%nat /\ row = map (f i) (seq 0 m).
Proof.
  intros H. assert (L : (i < n)%nat) by (apply nth_error_Some_lt in H; unfold table_of in H; rewrite map_length, seq_length in H; exact H).
  split; [exact L|]. unfold table_of in H. rewrite nth_error_map, nth_error_seq0 in H by exact L. cbn in H. congruence.
Qed.
Lemma in_sites n m ns nu nk l : assoc_site_indices R is_zero (table_of m ns nk) (table_of n m nu) = Ok l ->
  NoDup l /\ forall i j k, In (i, j, k) l <-> (i < n)%nat /\ (j < m)%nat /\ (k < ns)%nat /\ nu i j <> 0 /\ nk j k <> 0.
Proof.
  intros H. destruct (C35_sites R is_zero _ _ l H) as [I [_ N]]. split; [exact N|]. intros i j k. rewrite I.
  assert (Z : forall x, is_zero x = false <-> x <> 0) by (intros x; unfold is_zero; destruct (Req_EM_T x 0); split; congruence).
  split.
  - intros (row & v & srow & c & H1 & H2 & H3 & H4 & H5 & H6).
    apply table_row in H1, H4. destruct H1 as [L1 ->], H4 as [L2 ->].
    assert (L3 : (j < m)%nat) by exact L2. assert (L4 : (k < ns)%nat) by (apply nth_error_Some_lt in H5; rewrite map_length, seq_length in H5; exact H5).
    rewrite nth_error_map, nth_error_seq0 in H2 by exact L3. rewrite nth_error_map, nth_error_seq0 in H5 by exact L4. cbn in H2, H5.
    injection H2 as <-. injection H5 as <-. rewrite Z in H3, H6. auto.
  - intros (L1 & L2 & L3 & N1 & N2). exists (map (nu i) (seq 0 m)), (nu i j), (map (nk j) (seq 0 ns)), (nk j k).
    unfold table_of. rewrite !nth_error_map, !nth_error_seq0 by assumption. cbn. rewrite !Z. repeat split; assumption.
Qed.
Lemma sites_ok n m ns nu nk : exists l, assoc_site_indices R is_zero (table_of m ns nk) (table_of n m nu) = Ok l.
Proof.
  apply C35_never_fails. intros row H. unfold table_of in *. rewrite map_length, seq_length. apply in_map_iff in H. destruct H as (i & <- & _). rewrite map_length, seq_length. lia.
Qed.

(** C124.  A mixture is listed a second time: component [i] of the second list is component [tau i] of the first, group [k]
    is group [sg k] and kind of site [a] is kind [pi a]; compositions, counts, energies, bonding volumes and distribution
    functions are those of the same things.  The association energies at all densities are equal, or the refusal is. *)
Theorem C124_order : forall tau sg pi n m ns xi xi' nu nu' nk nk' epsHB epsHB' gr gr' rc K4v K4v' K6v K6v' sites,
  relabelling n tau -> relabelling m sg -> relabelling ns pi ->
  (forall i, (i < n)%nat -> xi' i = xi (tau i)) ->
  (forall i k, (i < n)%nat -> (k < m)%nat -> nu' i k = nu (tau i) (sg k)) ->
  (forall k a, (k < m)%nat -> (a < ns)%nat -> nk' k a = nk (sg k) (pi a)) ->
  (forall k l a b, (k < m)%nat -> (l < m)%nat -> (a < ns)%nat -> (b < ns)%nat -> epsHB' k l a b = epsHB (sg k) (sg l) (pi a) (pi b)) ->
  (forall k l a b, (k < m)%nat -> (l < m)%nat -> (a < ns)%nat -> (b < ns)%nat -> K4v' k l a b = K4v (sg k) (sg l) (pi a) (pi b)) ->
  (forall i j k l a b, (i < n)%nat -> (j < n)%nat -> (k < m)%nat -> (l < m)%nat -> (a < ns)%nat -> (b < ns)%nat ->
     K6v' i j k l a b = K6v (tau i) (tau j) (sg k) (sg l) (pi a) (pi b)) ->
  (forall kind, (exists e, gr kind = Err e /\ gr' kind = Err e) \/
     exists g g', gr kind = Ok g /\ gr' kind = Ok g' /\ forall r i j, (i < n)%nat -> (j < n)%nat -> g' r i j = g r (tau i) (tau j)) ->
  assoc_site_indices R is_zero (table_of m ns nk) (table_of n m nu) = Ok sites ->
  exists sites', assoc_site_indices R is_zero (table_of m ns nk') (table_of n m nu') = Ok sites' /\
    length sites' = length sites /\
    forall rho T, Aassoc sites' xi' nu' nk' epsHB' gr' rc K4v' K6v' rho T = Aassoc sites xi nu nk epsHB gr rc K4v K6v rho T.
Proof.
  intros tau sg pi n m ns xi xi' nu nu' nk nk' epsHB epsHB' gr gr' rc K4v K4v' K6v K6v' sites Ht Hs Hp Ex En Ek Ee E4 E6 Eg Es.
  destruct (sites_ok n m ns nu' nk') as [sites' Es']. exists sites'. split; [exact Es'|].
  destruct (in_sites _ _ _ _ _ _ Es) as [N I]. destruct (in_sites _ _ _ _ _ _ Es') as [N' I'].
  set (h := fun s : site => (tau (comp_of s), sg (bead_of s), pi (type_of s))).
  destruct Ht as [Bt Jt] eqn:HT. destruct Hs as [Bs Js] eqn:HS. destruct Hp as [Bp Jp] eqn:HP.
  assert (P : Permutation (map h sites') sites).
  { apply NoDup_Permutation; [|exact N|].
    - apply NoDup_map_in; [|exact N']. intros [[i k] a] [[j l] b] H1 H2 E. apply I' in H1, H2. unfold h in E. cbn in E.
      injection E as E1 E2 E3. apply Jt in E1; try tauto. apply Js in E2; try tauto. apply Jp in E3; try tauto. congruence.
    - intros [[i k] a]. rewrite I. split.
      + intros H. apply in_map_iff in H. destruct H as ([[j l] b] & E & H). apply I' in H. unfold h in E. cbn in E. injection E as <- <- <-.
        destruct H as (H1 & H2 & H3 & H4 & H5). rewrite En in H4 by assumption. rewrite Ek in H5 by assumption. auto 6.
      + intros (H1 & H2 & H3 & H4 & H5).
        destruct (relabelling_onto n tau i Ht H1) as (j & Hj & <-). destruct (relabelling_onto m sg k Hs H2) as (l & Hl & <-). destruct (relabelling_onto ns pi a Hp H3) as (b & Hb & <-).
        apply in_map_iff. exists (j, l, b). split; [reflexivity|]. apply I'. rewrite En, Ek by assumption. auto 6. }
  split; [rewrite <- (Permutation_length P), map_length; reflexivity|].
  intros rho T. unfold Aassoc. destruct (Eg (ktype rc)) as [(e & -> & ->)|(g & g' & -> & -> & G)]; [reflexivity|]. cbn [rbind]. f_equal.
  apply (energies_agree h sites sites' P).
  - intros [[i k] a] H. apply I' in H. cbn. rewrite Ex, En, Ek by tauto. auto.
  - intros r [[i k] a] [[j l] b] H1 H2. apply I' in H1, H2. unfold py_delta, h. cbn [comp_of bead_of type_of fst snd].
    destruct rc; rewrite Ee, G by tauto; [rewrite E6 by tauto|rewrite E4 by tauto]; reflexivity.
Qed.
Print Assumptions C124_order.

(** With the association integral of the Mie variant the condition on the distribution functions holds, whatever the order of
    the groups in the averages. *)
Theorem C124_mie : forall tau sg pi n m ns xi xi' nu nu' nk nk' epsHB epsHB' K4v K4v' K6v K6v' sites
    d d' dkl dkl' xskl xskl' C eps eps' sig sig' sigma sigma',
  relabelling n tau -> relabelling m sg -> relabelling ns pi ->
  (forall i, (i < n)%nat -> xi' i = xi (tau i) /\ eps' i = eps (tau i) /\ sig' i = sig (tau i)) ->
  (forall i k, (i < n)%nat -> (k < m)%nat -> nu' i k = nu (tau i) (sg k)) ->
  (forall k l, (k < m)%nat -> (l < m)%nat -> xskl' k l = xskl (sg k) (sg l) /\ sigma' k l = sigma (sg k) (sg l)) ->
  (forall k a, (k < m)%nat -> (a < ns)%nat -> nk' k a = nk (sg k) (pi a)) ->
  (forall k l a b, (k < m)%nat -> (l < m)%nat -> (a < ns)%nat -> (b < ns)%nat ->
     epsHB' k l a b = epsHB (sg k) (sg l) (pi a) (pi b) /\ K4v' k l a b = K4v (sg k) (sg l) (pi a) (pi b)) ->
  assoc_site_indices R is_zero (table_of m ns nk) (table_of n m nu) = Ok sites ->
  exists sites', assoc_site_indices R is_zero (table_of m ns nk') (table_of n m nu') = Ok sites' /\
    forall rho T, exists A,
      Aassoc sites xi nu nk epsHB (calc_gr_assoc_mie m d dkl xskl C eps sig sigma rho T) false K4v K6v rho T = Ok A /\
      Aassoc sites' xi' nu' nk' epsHB' (calc_gr_assoc_mie m d' dkl' xskl' C eps' sig' sigma' rho T) false K4v' K6v' rho T = Ok A.
Proof.
  intros tau sg pi n m ns xi xi' nu nu' nk nk' epsHB epsHB' K4v K4v' K6v K6v' sites d d' dkl dkl' xskl xskl' C eps eps' sig sig' sigma sigma' Ht Hs Hp Ex En El Ek Ee Es.
  set (K0 := fun _ _ _ _ _ _ : nat => 0).
  assert (G : forall rho T (kind : string), (exists e, (if String.eqb kind "klab" then calc_gr_assoc_mie m d dkl xskl C eps sig sigma rho T kind else Err ValueError) = Err e /\
        (if String.eqb kind "klab" then calc_gr_assoc_mie m d' dkl' xskl' C eps' sig' sigma' rho T kind else Err ValueError) = Err e) \/
     exists g g', (if String.eqb kind "klab" then calc_gr_assoc_mie m d dkl xskl C eps sig sigma rho T kind else Err ValueError) = Ok g /\
        (if String.eqb kind "klab" then calc_gr_assoc_mie m d' dkl' xskl' C eps' sig' sigma' rho T kind else Err ValueError) = Ok g' /\
        forall r i j, (i < n)%nat -> (j < n)%nat -> g' r i j = g r (tau i) (tau j)).
  { intros rho T kind. destruct (String.eqb kind "klab") eqn:Ekd; [right|left; exists ValueError; split; reflexivity].
    apply String.eqb_eq in Ekd. subst kind. unfold calc_gr_assoc_mie. cbn [String.eqb].
    eexists _, _. split; [reflexivity|]. split; [reflexivity|]. intros r i j Hi Hj. cbv beta. rewrite !C115_polynomial.
    destruct (Ex i Hi) as (_ & -> & ->). destruct (Ex j Hj) as (_ & -> & ->). f_equal. unfold reduced_density.
    f_equal. symmetry. rewrite <- (sumn_perm m sg _ Hs). apply sumn_ext. intros k Hk. rewrite <- (sumn_perm m sg _ Hs). apply sumn_ext. intros l Hl.
    destruct (El k l Hk Hl) as [-> ->]. reflexivity. }
  destruct (C124_order tau sg pi n m ns xi xi' nu nu' nk nk' epsHB epsHB' (fun _ => Err ValueError) (fun _ => Err ValueError) false K4v K4v' K0 K0 sites Ht Hs Hp) as (sites' & Es' & _ & _);
    try assumption; try (intros; apply Ex; assumption); try (intros; apply Ee; assumption); try reflexivity.
  { intros kind. left. exists ValueError. split; reflexivity. }
  exists sites'. split; [exact Es'|]. intros rho T.
  destruct (C124_order tau sg pi n m ns xi xi' nu nu' nk nk' epsHB epsHB' _ _ false K4v K4v' K0 K0 sites Ht Hs Hp
     ltac:(intros; apply Ex; assumption) En Ek ltac:(intros; apply Ee; assumption) ltac:(intros; apply Ee; assumption) ltac:(reflexivity) (G rho T) Es) as (s2 & Es2 & _ & H).
  rewrite Es' in Es2. injection Es2 as <-. specialize (H rho T). unfold Aassoc in *. cbn [ktype String.eqb] in H.
  change (String.eqb "klab" "klab") with true in H. cbn match in H.
  unfold calc_gr_assoc_mie in *. cbn [ktype String.eqb rbind] in *. eexists. split; [reflexivity|]. exact H.
Qed.
Print Assumptions C124_mie.

(** * The parameters of the sites *)
(** Where a bead of the library speaks of two sites in both orders it says the same. *)
Definition site_orders_agree {V} (lib : dict (dict V)) (sites : list string) : Prop := forall bead d p s t v w,
  In p ["epsilonHB"; "K"; "rc"; "rd"]%string -> In s sites -> In t sites ->
  dget lib bead = Some d -> dget d (p ++ "-" ++ s ++ "-" ++ t)%string = Some v -> dget d (p ++ "-" ++ t ++ "-" ++ s)%string = Some w -> v = w.

Section Parameters.
  Variables (V : Type) (zero : V) (is0 : V -> bool) (eps_same : V -> V) (eps_mix : V -> V -> V -> V -> V) (K_mix r_mix : V -> V -> V).
  Hypothesis eps_mix_comm : forall x y u v, eps_mix x y u v = eps_mix y x v u.
  Hypothesis K_mix_comm : forall x y, K_mix x y = K_mix y x.
  Hypothesis r_mix_comm : forall x y, r_mix x y = r_mix y x.
  Variables (sg pi : nat -> nat) (beads beads' sites sites' : list string) (lib : library V) (nk nk' : nat -> nat -> V).
  Hypothesis Ob : same_in_order sg beads beads'.
  Hypothesis Os : same_in_order pi sites sites'.
  Hypothesis Ek : forall k a, (k < length beads)%nat -> (a < length sites)%nat -> nk' k a = nk (sg k) (pi a).
  Hypothesis Ol : site_orders_agree lib sites.

  Lemma nth_order {f} {l l' : list string} : same_in_order f l l' -> forall i, (i < length l)%nat -> nth i l' ""%string = nth (f i) l ""%string.
  Proof.
    intros (E & [B J] & H) i Hi. specialize (H i Hi). specialize (B i Hi).
    rewrite (nth_error_nth' l' ""%string) in H by lia. rewrite (nth_error_nth' l ""%string) in H by lia. congruence.
  Qed.
  Lemma param_order p i a b : In p ["epsilonHB"; "K"; "rc"; "rd"]%string -> (i < length beads)%nat -> (a < length sites)%nat -> (b < length sites)%nat ->
    param V beads' lib sites' p i a b = param V beads lib sites p (sg i) (pi a) (pi b).
  Proof.
    intros Hp Hi Ha Hb.
    assert (A : forall bs ss i a b, (forall d v w, dget lib (nth i bs ""%string) = Some d ->
        dget d (p ++ "-" ++ nth a ss "" ++ "-" ++ nth b ss "")%string = Some v -> dget d (p ++ "-" ++ nth b ss "" ++ "-" ++ nth a ss "")%string = Some w -> v = w) ->
      param V bs lib ss p i a b = match dget lib (nth i bs ""%string) with
        | Some d => match dget d (p ++ "-" ++ nth a ss "" ++ "-" ++ nth b ss "")%string with Some v => Some v | None => dget d (p ++ "-" ++ nth b ss "" ++ "-" ++ nth a ss "")%string end
        | None => None end).
    { clear. intros bs ss i a b H. unfold param. destruct (dget lib (nth i bs ""%string)) as [d|] eqn:D; [|reflexivity].
      destruct (Nat.le_ge_cases a b).
      - rewrite Nat.min_l, Nat.max_r by lia. reflexivity.
      - rewrite Nat.min_r, Nat.max_l by lia.
        destruct (dget d (p ++ "-" ++ nth b ss "" ++ "-" ++ nth a ss "")%string) as [v|] eqn:E1; destruct (dget d (p ++ "-" ++ nth a ss "" ++ "-" ++ nth b ss "")%string) as [w|] eqn:E2; try reflexivity.
        f_equal. symmetry. exact (H d w v eq_refl E2 E1). }
    assert (I1 : In (nth (pi a) sites ""%string) sites) by (apply nth_In, (proj1 (proj1 (proj2 Os))); exact Ha).
    assert (I2 : In (nth (pi b) sites ""%string) sites) by (apply nth_In, (proj1 (proj1 (proj2 Os))); exact Hb).
    rewrite !A.
    - rewrite (nth_order Ob i Hi), (nth_order Os a Ha), (nth_order Os b Hb). reflexivity.
    - intros d v w D E1 E2. exact (Ol _ _ _ _ _ _ _ Hp I1 I2 D E1 E2).
    - rewrite (nth_order Ob i Hi), (nth_order Os a Ha), (nth_order Os b Hb). intros d v w D E1 E2. exact (Ol _ _ _ _ _ _ _ Hp I1 I2 D E1 E2).
  Qed.
  Lemma has_order i a : (i < length beads)%nat -> (a < length sites)%nat -> has_sites V is0 nk' i a = has_sites V is0 nk (sg i) (pi a).
  Proof. intros Hi Ha. unfold has_sites. rewrite Ek by assumption. reflexivity. Qed.
  Lemma eqb_order {f} n : relabelling n f -> forall i j, (i < n)%nat -> (j < n)%nat -> Nat.eqb i j = Nat.eqb (f i) (f j).
  Proof. intros [B J] i j Hi Hj. destruct (Nat.eqb_spec i j) as [->|N]; [rewrite Nat.eqb_refl; reflexivity|]. destruct (Nat.eqb_spec (f i) (f j)) as [E|]; [|reflexivity]. apply J in E; auto. Qed.
  Let Lb := proj1 Ob. Let Ls := proj1 Os. Let Rb := proj1 (proj2 Ob). Let Rs := proj1 (proj2 Os).
  Lemma self_energy_order i a b : (i < length beads)%nat -> (a < length sites)%nat -> (b < length sites)%nat ->
    self_energy V zero is0 eps_same beads' lib sites' nk' i a b = self_energy V zero is0 eps_same beads lib sites nk (sg i) (pi a) (pi b).
  Proof. intros Hi Ha Hb. unfold self_energy. rewrite param_order, !has_order, (eqb_order _ Rs a b) by (assumption || (cbn; tauto)). reflexivity. Qed.
  Lemma self_length_order p i a b : In p ["epsilonHB"; "K"; "rc"; "rd"]%string -> (i < length beads)%nat -> (a < length sites)%nat -> (b < length sites)%nat ->
    self_length V zero is0 beads' lib sites' nk' p i a b = self_length V zero is0 beads lib sites nk p (sg i) (pi a) (pi b).
  Proof. intros Hp Hi Ha Hb. unfold self_length. rewrite !param_order, !has_order by (assumption || (cbn; tauto)). reflexivity. Qed.
  Lemma mixed_order u v i j a b : (i < length beads)%nat -> (j < length beads)%nat -> (a < length sites)%nat -> (b < length sites)%nat ->
    or_mixed V is0 nk' u v i j a b = or_mixed V is0 nk u v (sg i) (sg j) (pi a) (pi b).
  Proof. intros. unfold or_mixed. rewrite !has_order, (eqb_order _ Rb i j), (eqb_order _ Rs a b) by assumption. reflexivity. Qed.
  Lemma energy_order i j a b : (i < length beads)%nat -> (j < length beads)%nat -> (a < length sites)%nat -> (b < length sites)%nat ->
    expected_energy V zero is0 eps_same eps_mix beads' lib sites' nk' i j a b = expected_energy V zero is0 eps_same eps_mix beads lib sites nk (sg i) (sg j) (pi a) (pi b).
  Proof.
    intros Hi Hj Ha Hb. unfold expected_energy. rewrite !param_order, !self_energy_order, (eqb_order _ Rb i j) by (assumption || (cbn; tauto)).
    destruct (param V beads lib sites "epsilonHB" (sg i) (pi a) (pi a)); [|reflexivity]. destruct (param V beads lib sites "epsilonHB" (sg j) (pi b) (pi b)); [|reflexivity].
    apply mixed_order; assumption.
  Qed.
  Lemma length_order p mixf i j a b : In p ["epsilonHB"; "K"; "rc"; "rd"]%string -> (i < length beads)%nat -> (j < length beads)%nat -> (a < length sites)%nat -> (b < length sites)%nat ->
    expected_length V zero is0 beads' lib sites' nk' p mixf i j a b = expected_length V zero is0 beads lib sites nk p mixf (sg i) (sg j) (pi a) (pi b).
  Proof.
    intros Hp Hi Hj Ha Hb. unfold expected_length. rewrite !self_length_order, (eqb_order _ Rb i j) by assumption. apply mixed_order; assumption.
  Qed.
  (** a pair of sites of a bead, in whichever order *)
  Lemma pair_order (Q : nat -> nat -> nat -> Prop) (Q' : nat -> nat -> nat -> Prop) :
    (forall i a b, Q i a b <-> Q i b a) -> (forall i a b, Q' i a b <-> Q' i b a) ->
    (forall i a b, (i < length beads)%nat -> (a < length sites)%nat -> (b < length sites)%nat -> Q' i a b <-> Q (sg i) (pi a) (pi b)) ->
    (exists i a b, (i < length beads')%nat /\ (a <= b)%nat /\ (b < length sites')%nat /\ Q' i a b) <->
    (exists i a b, (i < length beads)%nat /\ (a <= b)%nat /\ (b < length sites)%nat /\ Q i a b).
  Proof.
    intros S S' E. split.
    - intros (i & a & b & Hi & Hab & Hb & H). rewrite Lb in Hi. rewrite Ls in Hb. apply E in H; try lia.
      assert (B1 := proj1 Rb i Hi). assert (B2 := proj1 Rs a ltac:(lia)). assert (B3 := proj1 Rs b Hb).
      destruct (Nat.le_ge_cases (pi a) (pi b)); [exists (sg i), (pi a), (pi b)|exists (sg i), (pi b), (pi a); rewrite S]; auto.
    - intros (i & a & b & Hi & Hab & Hb & H). destruct (relabelling_onto _ _ i Rb Hi) as (i' & Hi' & <-).
      destruct (relabelling_onto _ _ a Rs ltac:(lia)) as (a' & Ha' & <-). destruct (relabelling_onto _ _ b Rs Hb) as (b' & Hb' & <-).
      rewrite <- E in H by assumption. rewrite Lb, Ls. destruct (Nat.le_ge_cases a' b'); [exists i', a', b'|exists i', b', a'; rewrite S']; auto.
  Qed.
  Lemma param_sym bs ss p i a b : param V bs lib ss p i a b = param V bs lib ss p i b a.
  Proof. unfold param. rewrite (Nat.min_comm a b), (Nat.max_comm a b). reflexivity. Qed.
  Lemma any_given_order p : In p ["epsilonHB"; "K"; "rc"; "rd"]%string -> any_given V is0 beads' lib sites' nk' p <-> any_given V is0 beads lib sites nk p.
  Proof.
    intros Hp. assert (X := pair_order
      (fun i a b => has_sites V is0 nk i a = true /\ has_sites V is0 nk i b = true /\ exists v e, param V beads lib sites "epsilonHB" i a b = Some e /\ param V beads lib sites p i a b = Some v)
      (fun i a b => has_sites V is0 nk' i a = true /\ has_sites V is0 nk' i b = true /\ exists v e, param V beads' lib sites' "epsilonHB" i a b = Some e /\ param V beads' lib sites' p i a b = Some v)).
    cbv beta in X.
    lapply X; [clear X; intros X|intros i a b; rewrite (param_sym beads sites "epsilonHB" i a b), (param_sym beads sites p i a b); tauto].
    lapply X; [clear X; intros X|intros i a b; rewrite (param_sym beads' sites' "epsilonHB" i a b), (param_sym beads' sites' p i a b); tauto].
    lapply X; [clear X; intros X|intros i a b Hi Ha Hb; rewrite !param_order, !has_order by (assumption || (cbn; tauto)); tauto].
    unfold any_given. split; intros (i & a & b & v & e & H).
    - destruct (proj1 X) as (i' & a' & b' & H'); [exists i, a, b; intuition eauto|]. destruct H' as (H1 & H2 & H3 & H4 & H5 & v' & e' & H6 & H7). exists i', a', b', v', e'. auto 10.
    - destruct (proj2 X) as (i' & a' & b' & H'); [exists i, a, b; intuition eauto|]. destruct H' as (H1 & H2 & H3 & H4 & H5 & v' & e' & H6 & H7). exists i', a', b', v', e'. auto 10.
  Qed.
  Lemma refused_order : (exists i a b, refused_pair V is0 beads' lib sites' nk' i a b) <-> (exists i a b, refused_pair V is0 beads lib sites nk i a b).
  Proof.
    unfold refused_pair. apply (pair_order
      (fun i a b => has_sites V is0 nk i a = true /\ has_sites V is0 nk i b = true /\
         ((param V beads lib sites "epsilonHB" i a b <> None /\ param V beads lib sites "K" i a b = None /\ param V beads lib sites "rc" i a b = None) \/
          (param V beads lib sites "K" i a b <> None /\ param V beads lib sites "rc" i a b <> None) \/
          (param V beads lib sites "epsilonHB" i a b = None /\ (param V beads lib sites "K" i a b <> None \/ param V beads lib sites "rc" i a b <> None))))
      (fun i a b => has_sites V is0 nk' i a = true /\ has_sites V is0 nk' i b = true /\
         ((param V beads' lib sites' "epsilonHB" i a b <> None /\ param V beads' lib sites' "K" i a b = None /\ param V beads' lib sites' "rc" i a b = None) \/
          (param V beads' lib sites' "K" i a b <> None /\ param V beads' lib sites' "rc" i a b <> None) \/
          (param V beads' lib sites' "epsilonHB" i a b = None /\ (param V beads' lib sites' "K" i a b <> None \/ param V beads' lib sites' "rc" i a b <> None))))).
    - intros i a b. rewrite (param_sym beads sites "epsilonHB" i a b), (param_sym beads sites "K" i a b), (param_sym beads sites "rc" i a b). tauto.
    - intros i a b. rewrite (param_sym beads' sites' "epsilonHB" i a b), (param_sym beads' sites' "K" i a b), (param_sym beads' sites' "rc" i a b). tauto.
    - intros i a b Hi Ha Hb. rewrite !param_order, !has_order by (assumption || (cbn; tauto)). tauto.
  Qed.

  Hypothesis known : forall bead, In bead beads -> exists d, dget lib bead = Some d.
  Lemma known_1 : forall i, (i < length beads)%nat -> exists d, dget lib (nth i beads ""%string) = Some d.
  Proof. intros i Hi. apply known, nth_In. exact Hi. Qed.
  Lemma known_2 : forall i, (i < length beads')%nat -> exists d, dget lib (nth i beads' ""%string) = Some d.
  Proof. intros i Hi. rewrite Lb in Hi. rewrite (nth_order Ob i Hi). apply known_1. apply (proj1 Rb). exact Hi. Qed.

(** Without a cross library the parameters of every pair of sites, and the refusals, are the same in whatever order groups and
    kinds of sites are listed. *)
Theorem C125_parameters :
    (forall m, calc_assoc_matrices V zero is0 eps_same eps_mix K_mix r_mix beads lib [] sites nk = Ok m ->
     exists m', calc_assoc_matrices V zero is0 eps_same eps_mix K_mix r_mix beads' lib [] sites' nk' = Ok m' /\
       (fK V m' = fK V m /\ frc V m' = frc V m /\ frd V m' = frd V m) /\
       forall i j a b, (i < length beads)%nat -> (j < length beads)%nat -> (a < length sites)%nat -> (b < length sites)%nat ->
         eps V m' i j a b = eps V m (sg i) (sg j) (pi a) (pi b) /\
         (fK V m = true -> Kk V m' i j a b = Kk V m (sg i) (sg j) (pi a) (pi b)) /\
         (frc V m = true -> rc V m' i j a b = rc V m (sg i) (sg j) (pi a) (pi b)) /\
         (frd V m = true -> rd V m' i j a b = rd V m (sg i) (sg j) (pi a) (pi b))) /\
    (forall e, calc_assoc_matrices V zero is0 eps_same eps_mix K_mix r_mix beads lib [] sites nk = Err e ->
     calc_assoc_matrices V zero is0 eps_same eps_mix K_mix r_mix beads' lib [] sites' nk' = Err e).
  Proof.
    destruct (C75_refused V zero is0 eps_same eps_mix K_mix r_mix beads lib sites nk known_1 eps_mix_comm K_mix_comm r_mix_comm) as [B1 G1].
    destruct (C75_refused V zero is0 eps_same eps_mix K_mix r_mix beads' lib sites' nk' known_2 eps_mix_comm K_mix_comm r_mix_comm) as [B2 G2].
    rewrite refused_order, !any_given_order in B2, G2 by (cbn; tauto).
    set (bad := (exists i a b, refused_pair V is0 beads lib sites nk i a b) \/ _) in *.
    assert (D : bad \/ ~ bad) by apply Classical_Prop.classic.
    split.
    - intros m E. destruct D as [D|D]; [rewrite B1 in E by exact D; discriminate|]. destruct (G2 D) as [m' E']. exists m'. split; [exact E'|].
      destruct (C75_self_and_mixed V zero is0 eps_same eps_mix K_mix r_mix beads lib sites nk known_1 eps_mix_comm K_mix_comm r_mix_comm m E) as (M & F1 & F2 & F3).
      destruct (C75_self_and_mixed V zero is0 eps_same eps_mix K_mix r_mix beads' lib sites' nk' known_2 eps_mix_comm K_mix_comm r_mix_comm m' E') as (M' & F1' & F2' & F3').
      rewrite any_given_order in F1', F2', F3' by (cbn; tauto).
      assert (X : forall u v : bool, (u = true <-> v = true) -> u = v) by (intros [|] [|] [H1 H2]; auto; symmetry; auto).
      assert (X1 : fK V m' = fK V m) by (apply X; tauto). assert (X2 : frc V m' = frc V m) by (apply X; tauto). assert (X3 : frd V m' = frd V m) by (apply X; tauto).
      split; [auto|]. intros i j a b Hi Hj Ha Hb.
      destruct (M' i j a b) as (P1 & P2 & P3 & P4); try (rewrite ?Lb, ?Ls; assumption).
      destruct (M (sg i) (sg j) (pi a) (pi b)) as (Q1 & Q2 & Q3 & Q4); try (apply (proj1 Rb); assumption); try (apply (proj1 Rs); assumption).
      rewrite X1 in P2. rewrite X2 in P3. rewrite X3 in P4.
      split; [rewrite P1, Q1; apply energy_order; assumption|].
      split; [intros H; rewrite P2, Q2 by exact H; apply length_order; (assumption || (cbn; tauto))|].
      split; [intros H; rewrite P3, Q3 by exact H; apply length_order; (assumption || (cbn; tauto))|].
      intros H; rewrite P4, Q4 by exact H; apply length_order; (assumption || (cbn; tauto)).
    - intros e E. destruct D as [D|D]; [|destruct (G1 D) as [m E']; rewrite E' in E; discriminate]. rewrite (B1 D) in E. rewrite (B2 D). exact E.
  Qed.
End Parameters.
Print Assumptions C125_parameters.

(** With a cross library they are not: an energy given for W and E is used if E is listed before W and ignored otherwise. *)
Definition listed (beads : list string) : result (amat Z) :=
  calc_assoc_matrices Z 0%Z (Z.eqb 0) z_same z_mix z_mean z_mean beads AssocProps.two_beads
    [("W", [("E", [("epsilonHB-H-e", 150%Z); ("K-H-e", 6%Z)])])]%string ["H"; "e"]%string (fun _ _ => 1%Z).
Theorem C125_cross_library_refuted : exists m m', listed ["W"; "E"]%string = Ok m /\ listed ["E"; "W"]%string = Ok m' /\
  eps Z m 0%nat 1%nat 0%nat 1%nat = 0%Z /\ eps Z m' 1%nat 0%nat 0%nat 1%nat = 150%Z.
Proof.
  assert (H : match listed ["W"; "E"]%string with Ok m => eps Z m 0%nat 1%nat 0%nat 1%nat = 0%Z | Err _ => False end) by (vm_compute; reflexivity).
  assert (H' : match listed ["E"; "W"]%string with Ok m => eps Z m 1%nat 0%nat 0%nat 1%nat = 150%Z | Err _ => False end) by (vm_compute; reflexivity).
  destruct (listed ["W"; "E"]%string) as [m|]; [|destruct H]. destruct (listed ["E"; "W"]%string) as [m'|]; [|destruct H'].
  exists m, m'. auto.
Qed.
Print Assumptions C125_cross_library_refuted.

(** Two components of one group each, groups and components exchanged, and the two kinds of sites too. *)
Definition other (i : nat) : nat := match i with O => 1%nat | S O => 0%nat | _ => i end.
Lemma other_relabels : relabelling 2 other.
Proof. split; [intros [|[|i]] Hi; cbn; lia|]. intros [|[|i]] [|[|j]] Hi Hj; cbn; lia. Qed.
Definition alone (i k : nat) : R := if Nat.eqb i k then 1 else 0.
Definition counts (k a : nat) : R := match k, a with O, O => 1 | O, _ => 2 | _, O => 0 | _, _ => 1 end.
Example C124_case : exists sites, assoc_site_indices R is_zero (table_of 2 2 counts) (table_of 2 2 alone) = Ok sites /\
  relabelling 2 other /\ In (0, 0, 0)%nat sites /\ In (0, 0, 1)%nat sites /\ In (1, 1, 1)%nat sites /\ ~ In (1, 1, 0)%nat sites.
Proof.
  destruct (sites_ok 2 2 2 alone counts) as [l E]. exists l. split; [exact E|]. split; [exact other_relabels|]. destruct (in_sites _ _ _ _ _ _ E) as [_ I].
  rewrite !I. unfold alone, counts. cbn. repeat split; try lia; lra.
Qed.
Example C125_case : site_orders_agree AssocProps.two_beads ["H"; "e"]%string /\ same_in_order other ["W"; "E"]%string ["E"; "W"]%string /\
  exists m, run_two [] = Ok m.
Proof.
  split; [|split].
  - intros bead d p s t v w Hp Hs Ht Hd H1 H2. cbn in Hd. destruct (String.eqb bead "W"); [injection Hd as <-|destruct (String.eqb bead "E"); [injection Hd as <-|discriminate]];
      cbn in Hp, Hs, Ht; decompose [or] Hp; try contradiction; decompose [or] Hs; try contradiction; decompose [or] Ht; try contradiction; subst; cbn in H1, H2; congruence.
  - split; [reflexivity|]. split; [exact other_relabels|]. intros [|[|i]] Hi; cbn in *; [reflexivity|reflexivity|lia].
  - assert (H : match run_two [] with Ok _ => True | Err _ => False end) by (vm_compute; exact I). destruct (run_two []) as [m|]; [exists m; reflexivity|destruct H].
Qed.
