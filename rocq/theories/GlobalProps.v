(** The grid search (C57), the steps and the acceptance test of basin hopping (C58) and the file of
    intermediate results (C59). *)
From Verif Require Import Base BaseFacts Num NumFacts ToolboxModel FitObjModel FitObjProps FitSetupModel GlobalModel.
From Coq Require Import Lqa.
Open Scope nat_scope.
Open Scope string_scope.

(** ** C57 *)

(** Vocabulary.  A starting point as a list of coordinates *)
Definition coords (v : value num) : list num := match v with Scalar a => [a] | Arr l => l end.
(** the i-th of [Ns] equally spaced values from [lo] to [hi] *)
Definition spaced (Ns : nat) (b : Q * Q) (i : nat) : Q :=
  (fst b + inject_Z (Z.of_nat i) / inject_Z (Z.of_nat Ns - 1) * (snd b - fst b))%Q.
(** position of a grid point in the order in which the last coordinate runs fastest *)
Definition position (Ns : nat) (idx : list nat) : nat := fold_left (fun acc i => acc * Ns + i) idx 0.

Lemma axis_length Ns b : length (axis Ns b) = Ns.
Proof. unfold axis. rewrite map_length, seq_length. reflexivity. Qed.

Lemma axis_nth Ns b i : 2 <= Ns -> i < Ns -> exists q, nth_error (axis Ns b) i = Some (Fin q) /\ (q == spaced Ns b i)%Q.
Proof.
  intros H2 Hi. unfold axis. replace (Nat.eqb Ns 1) with false by (symmetry; apply Nat.eqb_neq; lia).
  eexists. split.
  - erewrite map_nth_error; [reflexivity|]. rewrite nth_error_nth' with (d := 0) by (rewrite seq_length; exact Hi).
    rewrite seq_nth by exact Hi. reflexivity.
  - unfold spaced. cbn [Nat.add]. 
    assert (HN : ~ (inject_Z (Z.of_nat Ns - 1) == 0)%Q).
    { unfold Qeq, inject_Z. cbn. lia. }
    field. exact HN.
Qed.

Lemma flat_map_nth {A B} (f : A -> list B) (l : list A) m i j a : (forall x, In x l -> length (f x) = m) ->
  nth_error l i = Some a -> j < m -> nth_error (flat_map f l) (i * m + j) = nth_error (f a) j.
Proof.
  revert i. induction l as [|x l IH]; intros i H Hi Hj; [destruct i; discriminate|].
  cbn [flat_map]. destruct i as [|i].
  - cbn in Hi. injection Hi as ->. rewrite nth_error_app1; [reflexivity|]. rewrite H by (left; reflexivity). exact Hj.
  - cbn in Hi. rewrite nth_error_app2; rewrite H by (left; reflexivity); [|lia].
    replace (S i * m + j - m) with (i * m + j) by lia. apply IH; [|exact Hi|exact Hj]. intros y Hy. apply H. right. exact Hy.
Qed.

Lemma cartesian_length Ns (bounds : list (Q * Q)) : length (cartesian (map (axis Ns) bounds)) = Ns ^ length bounds.
Proof.
  induction bounds as [|b bounds IH]; [reflexivity|]. cbn [map cartesian length Nat.pow].
  assert (forall (l : list num) c, length (flat_map (fun x => map (cons x) c) l) = length l * length (c : list (list num))) as G.
  { induction l as [|x l IHl]; intros c; [reflexivity|]. cbn. rewrite app_length, map_length, IHl. reflexivity. }
  rewrite G, axis_length, IH. reflexivity.
Qed.

Lemma position_acc Ns idx : forall acc, fold_left (fun acc i => acc * Ns + i) idx acc = acc * Ns ^ length idx + position Ns idx.
Proof.
  unfold position. induction idx as [|i idx IH]; intros acc; cbn [fold_left length Nat.pow]; [lia|].
  rewrite IH, (IH (0 * Ns + i)). nia.
Qed.
Lemma position_bound Ns idx : Forall (fun i => i < Ns) idx -> position Ns idx < Ns ^ length idx.
Proof.
  induction idx as [|i idx IH]; intros H; [cbn; lia|]. inversion H; subst.
  unfold position. cbn [fold_left length Nat.pow]. rewrite position_acc. specialize (IH H3). nia.
Qed.

Lemma cartesian_nth Ns : 2 <= Ns -> forall bounds idx, length idx = length bounds -> Forall (fun i => i < Ns) idx ->
  exists p, nth_error (cartesian (map (axis Ns) bounds)) (position Ns idx) = Some p /\
            Forall2 (fun c bi => exists q, c = Fin q /\ (q == spaced Ns (fst bi) (snd bi))%Q) p (combine bounds idx).
Proof.
  intros H2. induction bounds as [|b bounds IH]; intros [|i idx] HL HF; try discriminate.
  - exists []. split; [reflexivity|constructor].
  - injection HL as HL. inversion HF as [|? ? Hi HF']; subst.
    destruct (IH idx HL HF') as (p & Hp & HP). destruct (axis_nth Ns b i H2 Hi) as (q & Hq & Eq).
    exists (Fin q :: p). split.
    + cbn [map cartesian]. unfold position. cbn [fold_left]. rewrite position_acc.
      replace (0 * Ns + i) with i by lia.
      rewrite (flat_map_nth _ _ (Ns ^ length idx) i (position Ns idx) (Fin q)).
      * erewrite map_nth_error by exact Hp. reflexivity.
      * intros x _. rewrite map_length, cartesian_length, HL. reflexivity.
      * exact Hq.
      * apply position_bound, HF'.
    + cbn [combine]. constructor; [exists q; split; [reflexivity|exact Eq]|exact HP].
Qed.

(** C57: the grid is the full Cartesian product: it has Ns^N points, and for every choice of one of the
    Ns equally spaced values of each parameter the point made of them is in it, at its position. *)
Theorem C57_full_grid : forall Ns bounds, 2 <= Ns -> bounds <> [] ->
  length (grid Ns bounds) = Ns ^ length bounds /\
  forall idx, length idx = length bounds -> Forall (fun i => i < Ns) idx ->
    exists p, nth_error (grid Ns bounds) (position Ns idx) = Some p /\
      Forall2 (fun c bi => exists q, c = Fin q /\ (q == spaced Ns (fst bi) (snd bi))%Q) (coords p) (combine bounds idx).
Proof.
  intros Ns bounds H2 Hb. assert (HG : grid Ns bounds = match bounds with [b] => map Scalar (axis Ns b) | _ => map Arr (cartesian (map (axis Ns) bounds)) end) by reflexivity.
  destruct bounds as [|b [|b2 bounds]]; [congruence| |].
  - rewrite HG. split; [rewrite map_length, axis_length; cbn; lia|].
    intros [|i [|j idx]] HL HF; try discriminate. inversion HF; subst.
    destruct (axis_nth Ns b i H2 H1) as (q & Hq & Eq). exists (Scalar (Fin q)). split.
    + unfold position. cbn [fold_left]. replace (0 * Ns + i) with i by lia. erewrite map_nth_error by exact Hq. reflexivity.
    + cbn. constructor; [|constructor]. exists q. split; [reflexivity|exact Eq].
  - rewrite HG. split; [rewrite map_length; apply cartesian_length|].
    intros idx HL HF. destruct (cartesian_nth Ns H2 (b :: b2 :: bounds) idx HL HF) as (p & Hp & HP).
    exists (Arr p). split; [|exact HP]. erewrite map_nth_error by exact Hp. reflexivity.
Qed.
Print Assumptions C57_full_grid.

(** *** The best candidate *)
Lemma npow8_inf a : a = PInf \/ a = NInf -> npow a 8 = PInf.
Proof. intros [->| ->]; reflexivity. Qed.
Lemma nmul_1000 a : a = PInf \/ a = NInf -> nmul (Fin 1000) a = a.
Proof. intros [->| ->]; reflexivity. Qed.

Lemma penalties_defined : forall (ps : list num) (bounds : list (Q * Q)) t, existsb is_nan ps = false -> t <> NInf -> t <> NaN ->
  match penalties t ps (map (fun b => (Fin (fst b), Fin (snd b))) bounds) with Ok v => v <> NInf /\ v <> NaN | Err e => e = IndexError end.
Proof.
  induction ps as [|p ps IH]; intros bounds t Hn H1 H2; cbn [penalties]; [split; assumption|].
  cbn [existsb] in Hn. apply orb_false_iff in Hn. destruct Hn as [Hp Hn].
  destruct bounds as [|[lo hi] bounds]; cbn [map fst snd]; [reflexivity|].
  assert (forall x, exists v, npow (nmul (Fin 1000) (nsub p (Fin x))) 8 = v /\ v <> NInf /\ v <> NaN) as HX.
  { intros x. destruct p as [q| | |]; [|exists PInf; split; [reflexivity|split; discriminate]|exists PInf; split; [reflexivity|split; discriminate]|discriminate].
    cbn [nsub nneg nadd nmul]. destruct (pow8 (1000 * (q + - x))%Q) as (y & -> & _). exists (Fin y). split; [reflexivity|split; discriminate]. }
  assert (forall v, v <> NInf -> v <> NaN -> nadd t v <> NInf /\ nadd t v <> NaN) as HA.
  { intros v V1 V2. destruct t, v; cbn; try congruence; split; discriminate. }
  destruct (nlt p (Fin lo)).
  - destruct (HX lo) as (v & -> & V1 & V2). destruct (HA v V1 V2). apply IH; assumption.
  - destruct (nlt (Fin hi) p).
    + destruct (HX hi) as (v & -> & V1 & V2). destruct (HA v V1 V2). apply IH; assumption.
    + apply IH; assumption.
Qed.

(** the objective the fit minimises, at a list of all fitted parameters *)
Definition fit_objective (datasets : list (list num -> result num)) (nnames : nat) (bounds : list (Q * Q)) (ps : list num) : result num :=
  compute_obj datasets nnames (map (fun b => (Fin (fst b), Fin (snd b))) bounds) ps None.

Lemma compute_obj_defined datasets n bounds ps f v :
  (forall d l, In d datasets -> d l <> Ok NInf) ->
  compute_obj datasets n (map (fun b => (Fin (fst b), Fin (snd b))) bounds) ps f = Ok v -> v <> NInf /\ v <> NaN.
Proof.
  intros HD. unfold compute_obj.
  destruct (if Nat.eqb (length ps) n then Ok ps else _) as [params|]; [|discriminate]. cbn [rbind].
  destruct (Nat.ltb (length params) n); [discriminate|].
  destruct (existsb is_nan params) eqn:En; [intros H; injection H as <-; split; discriminate|].
  set (values := map _ datasets).
  assert (HN : nansum values <> NInf /\ nansum values <> NaN).
  { apply not_nan_nsum. intros x Hx. apply in_map_iff in Hx. destruct Hx as (y & <- & Hy). apply in_map_iff in Hy. destruct Hy as (d & <- & Hd).
    specialize (HD d params Hd). destruct (d params) as [w|e]; [|split; discriminate]. destruct w; cbn; split; congruence. }
  destruct HN as [H1 H2]. pose proof (penalties_defined params bounds (nansum values) En H1 H2) as HP.
  destruct (penalties _ params _) as [t|]; [|discriminate]. cbn [rbind].
  intros H. injection H as <-. destruct (_ && _); [split; discriminate|exact HP].
Qed.

Lemma pick_spec (l : list (list num * num)) : forall b, snd b <> NaN -> Forall (fun c => snd c <> NaN) l ->
  exists pre c post, b :: l = (pre ++ c :: post)%list /\ fold_left pick l b = c /\
    Forall (fun x => nlt (snd c) (snd x) = true) pre /\ Forall (fun x => nle (snd c) (snd x) = true) post.
Proof.
  induction l as [|x l IH]; intros b Hb HF; cbn [fold_left].
  - exists [], b, []. repeat split; constructor.
  - inversion HF as [|? ? Hx HF']; subst. unfold pick at 2. destruct (nlt (snd x) (snd b)) eqn:E.
    + destruct (IH x Hx HF') as (pre & c & post & H1 & H2 & H3 & H4). exists (b :: pre), c, post.
      rewrite H1. repeat split; try assumption. constructor; [|exact H3].
      assert (HC : nle (snd c) (snd x) = true).
      { destruct pre as [|p pre]; cbn in H1; injection H1 as -> H1.
        - destruct (snd c); try congruence; cbn; try reflexivity. apply Qle_bool_iff. apply Qle_refl.
        - inversion H3; subst. apply nlt_le. assumption. }
      exact (nle_nlt_trans _ _ _ HC E).
    + assert (E' : nle (snd b) (snd x) = true) by (apply nlt_false_nle; assumption).
      destruct (IH b Hb HF') as (pre & c & post & H1 & H2 & H3 & H4).
      destruct pre as [|p pre]; cbn in H1; injection H1 as -> H1.
      * exists [], c, (x :: post). subst l. repeat split; try assumption. constructor; [exact E'|exact H4].
      * exists (p :: x :: pre), c, post. subst l. repeat split; try assumption.
        inversion H3; subst. constructor; [assumption|]. constructor; [|assumption].
        eapply nlt_nle_trans; eassumption.
Qed.

(** Where the minimisation from [start] with the parameters [frozen] ends: undefined parameters if it fails *)
Definition converged (solve : string -> option (value num) -> value num -> result (list num)) (m : string)
    (frozen : option (value num)) (start : value num) : list num :=
  match solve m frozen start with Ok r => r | Err _ => repeat NaN (length (coords start)) end.
(** The candidate that belongs to a grid point: without split the end of the minimisation from there; with
    split the grid point holds the first parameters, the others are minimised from the initial guess. *)
Definition grid_candidate solve m (guess : list num) (split : nat) (x : value num) : list num :=
  if Nat.eqb split 0 then converged solve m None x
  else (coords x ++ converged solve m (Some x) (Arr (skipn split guess)))%list.
(** The candidate that belongs to an initial guess of the user. *)
Definition guess_candidate solve m (split : nat) (x : list num) : list num :=
  if Nat.eqb split 0 then converged solve m None (Arr x)
  else (firstn split x ++ converged solve m (Some (Arr (firstn split x))) (Arr (skipn split x)))%list.
(** The method: the one the user names, else least_squares *)
Definition method_of (mo : min_opts) : string := match mo_method mo with Some m => m | None => "least_squares" end.

(** The outcome [o] is the candidate of one start, with the objective at its parameters, no candidate has a
    smaller objective and those before it have a larger one. *)
Definition best_of {A} (objective : list num -> result num) (candidate : A -> list num) (starts : list A) (o : outcome) : Prop :=
  o_nit o = length starts /\
  exists k start, nth_error starts k = Some start /\ o_x o = candidate start /\ objective (o_x o) = Ok (o_fun o) /\
    forall j s, nth_error starts j = Some s ->
      exists f, objective (candidate s) = Ok f /\ nle (o_fun o) f = true /\ (j < k -> nlt (o_fun o) f = true).

Lemma job_result (datasets : list (list num -> result num)) (bounds : list (Q * Q)) solve (initial : bool) (split : nat) (m : string)
    (n : nat) (x0 start : value num) (frozen : option (value num)) (r : value num) (f : num) (row : list num) :
  (if Nat.eqb split 0 then frozen = None
   else frozen = Some (if initial then Arr (firstn split (coords x0)) else x0) /\ (initial = true -> exists l, x0 = Arr l)) ->
  grid_wrapper datasets n bounds solve m (start, frozen) = Ok (r, f) ->
  whole initial split n x0 r = Ok row ->
  row = (if Nat.eqb split 0 then converged solve m None start
         else ((if initial then firstn split (coords x0) else coords x0) ++ converged solve m frozen start)%list) /\
  fit_objective datasets n bounds row = Ok f.
Proof.
  intros HF. unfold grid_wrapper.
  set (r0 := match solve m frozen start with Ok r => Arr r | Err _ => _ end).
  assert (HR : forall l, r0 = Arr l -> l = converged solve m frozen start).
  { intros l E. unfold converged. unfold r0 in E. destruct (solve m frozen start); [injection E as <-; reflexivity|].
    destruct start; [discriminate|injection E as <-; reflexivity]. }
  clearbody r0. destruct (objective datasets n bounds r0 frozen) as [f0|] eqn:EO; [|discriminate]. cbn [rbind].
  intros H. injection H as <- <-. unfold objective in EO. destruct r0 as [|l]; [discriminate|].
  pose proof (HR l eq_refl) as El. unfold whole. cbn [as_list rbind].
  destruct (Nat.eqb split 0).
  - subst frozen. cbn [rbind] in EO. intros H. injection H as <-. split; [exact El|exact EO].
  - destruct HF as [-> HI]. destruct (as_list x0) as [l0|] eqn:E0; [|discriminate]. cbn [rbind].
    assert (EX : coords x0 = l0) by (destruct x0; [discriminate|injection E0 as <-; reflexivity]).
    rewrite EX in *. set (front := if initial then firstn split l0 else l0) in *.
    assert (HA : as_list (if initial then Arr (firstn split l0) else x0) = Ok front).
    { unfold front. destruct initial; [reflexivity|exact E0]. }
    destruct (Nat.eqb_spec (length (front ++ l)) n) as [HL|]; [|discriminate]. intros H. injection H as <-.
    split; [rewrite El; reflexivity|].
    unfold fit_objective. destruct (Nat.eqb_spec (length l) n) as [Hn|Hn].
    + assert (front = []) as -> by (rewrite app_length in HL; destruct front; [reflexivity|cbn in HL; lia]). exact EO.
    + rewrite HA in EO. cbn [rbind] in EO. unfold compute_obj in EO |- *. rewrite HL, Nat.eqb_refl. cbn [rbind].
      destruct (Nat.eqb_spec (length l) n) as [|_]; [contradiction|]. exact EO.
Qed.

Lemma Forall2_nth {A B} (P : A -> B -> Prop) l l' : Forall2 P l l' -> forall k a, nth_error l k = Some a -> exists b, nth_error l' k = Some b /\ P a b.
Proof. intros H. induction H as [|x y l l' Hx H IH]; intros [|k] a E; try discriminate; cbn in *; [injection E as <-; eauto|apply IH, E]. Qed.
Lemma nth_error_combine {A B} (l : list A) (l' : list B) : forall k a b, nth_error l k = Some a -> nth_error l' k = Some b -> nth_error (combine l l') k = Some (a, b).
Proof. revert l'. induction l as [|x l IH]; intros [|y l'] [|k] a b E F; try discriminate; cbn in *; [congruence|]. apply IH; assumption. Qed.
Lemma nth_combine_inv {A B} (l : list A) (l' : list B) : forall k p, nth_error (combine l l') k = Some p -> nth_error l k = Some (fst p) /\ nth_error l' k = Some (snd p).
Proof. revert l'. induction l as [|x l IH]; intros [|y l'] [|k] p E; try discriminate; cbn in *; [injection E as <-; auto|]. apply IH; assumption. Qed.

(** what a granted grid search returns, in terms of its jobs *)
Lemma grid_best (datasets : list (list num -> result num)) (bounds : list (Q * Q)) solve functions guess initial Ns split constraints mo o
    {A} (starts : list A) (as_job : A -> value num * (value num * option (value num))) (cand : A -> list num) :
  (forall d l, In d datasets -> d l <> Ok NInf) ->
  grid_jobs bounds guess initial Ns split = map as_job starts ->
  (forall x r f row, In x starts -> grid_wrapper datasets (length guess) bounds solve (method_of mo) (snd (as_job x)) = Ok (r, f) ->
     whole (match initial with Some _ => true | None => false end) split (length guess) (fst (as_job x)) r = Ok row ->
     row = cand x /\ fit_objective datasets (length guess) bounds row = Ok f) ->
  grid_minimization datasets (length guess) bounds solve functions guess initial Ns split constraints mo = Ok o ->
  best_of (fit_objective datasets (length guess) bounds) cand starts o.
Proof.
  intros HD HJ HC. unfold grid_minimization.
  destruct (match constraints with None => Ok tt | Some c => _ end); [|discriminate]. cbn [rbind].
  destruct (minimizer_method mo) as [m|] eqn:Em; [|discriminate]. cbn [rbind].
  assert (m = method_of mo) as ->.
  { unfold minimizer_method in Em. destruct (mo_options mo) as [[|]|]; try discriminate; injection Em as <-; reflexivity. }
  rewrite HJ. set (ini := match initial with Some _ => true | None => false end) in *.
  destruct (mapM _ (map as_job starts)) as [outs|] eqn:EM; [|discriminate]. cbn [rbind].
  destruct (mapM _ (combine _ outs)) as [rows|] eqn:ER; [|discriminate]. cbn [rbind].
  pose proof (mapM_length _ _ _ EM) as LM. pose proof (mapM_length _ _ _ ER) as LR.
  apply mapM_Forall2 in EM. apply mapM_Forall2 in ER.
  rewrite combine_length, LM, Nat.min_id, !map_length in LR. rewrite map_length in LM.
  set (cands := combine rows (map snd outs)).
  assert (LC : length cands = length starts) by (unfold cands; rewrite combine_length, map_length, LM, LR; apply Nat.min_id).
  assert (HK : forall k x, nth_error starts k = Some x -> exists f, nth_error cands k = Some (cand x, f) /\ fit_objective datasets (length guess) bounds (cand x) = Ok f).
  { intros k x Hx. assert (Hj : nth_error (map as_job starts) k = Some (as_job x)) by (apply map_nth_error, Hx).
    destruct (Forall2_nth _ _ _ EM k _ Hj) as ([r f] & Ho & Hw).
    destruct (Forall2_nth _ _ _ ER k _ (nth_error_combine _ _ k _ _ Hj Ho)) as (row & Hr & Hwh). cbn [fst snd] in Hwh.
    destruct (HC x r f row (nth_error_In _ _ Hx) Hw Hwh) as [-> Hf]. exists f. split; [|exact Hf].
    unfold cands. apply nth_error_combine; [exact Hr|]. erewrite map_nth_error by exact Ho. reflexivity. }
  assert (HNn : Forall (fun c => snd c <> NaN) cands).
  { apply Forall_forall. intros c Hc. apply In_nth_error in Hc. destruct Hc as (k & Hk).
    destruct (nth_error starts k) as [x|] eqn:Ex.
    - destruct (HK k x Ex) as (f & E & Hf). rewrite E in Hk. injection Hk as <-. cbn. unfold fit_objective in Hf. apply (compute_obj_defined _ _ _ _ _ _ HD Hf).
    - apply nth_error_None in Ex. assert (k < length cands) by (apply nth_error_Some; congruence). lia. }
  clearbody cands. destruct cands as [|c cs]; [discriminate|]. intros H. injection H as <-.
  inversion HNn as [|? ? Hc HNs]; subst.
  assert (EF : fold_left pick cs (pick c c) = fold_left pick cs c).
  { unfold pick. rewrite nlt_irrefl. reflexivity. }
  cbn [fold_left]. rewrite EF.
  destruct (pick_spec cs c Hc HNs) as (pre & b & post & E1 & E2 & E3 & E4). rewrite E2. rewrite E1 in *.
  unfold best_of. cbn [o_nit o_x o_fun]. split; [apply map_length|].
  exists (length pre). destruct (nth_error starts (length pre)) as [x|] eqn:Ex.
  2: { apply nth_error_None in Ex. rewrite <- LC, app_length in Ex. cbn in Ex. lia. }
  assert (Eb : nth_error (pre ++ b :: post) (length pre) = Some b) by (rewrite nth_error_app2 by lia; rewrite Nat.sub_diag; reflexivity).
  destruct (HK _ x Ex) as (f & Hf1 & Hf2). rewrite Eb in Hf1. injection Hf1 as ->. cbn [fst snd] in *.
  exists x. split; [reflexivity|]. split; [reflexivity|]. split; [exact Hf2|].
  intros j s Hs. destruct (HK j s Hs) as (g & Hg1 & Hg2). exists g. split; [exact Hg2|].
  destruct (Nat.lt_trichotomy j (length pre)) as [Hlt|[->|Hgt]].
  - rewrite nth_error_app1 in Hg1 by exact Hlt. rewrite Forall_forall in E3. specialize (E3 _ (nth_error_In _ _ Hg1)). cbn in E3.
    split; [apply nlt_le, E3|intros _; exact E3].
  - rewrite Eb in Hg1. injection Hg1 as E <-. split; [|lia].
    destruct f; cbn; try reflexivity; [apply Qle_bool_iff, Qle_refl|].
    exfalso. rewrite Forall_forall in HNn. apply (HNn (cand x, NaN)); [|reflexivity]. apply nth_error_In with (n := length pre). rewrite Eb. reflexivity.
  - rewrite nth_error_app2 in Hg1 by lia. destruct (j - length pre) as [|d] eqn:Ed; [lia|]. cbn in Hg1.
    rewrite Forall_forall in E4. specialize (E4 _ (nth_error_In _ _ Hg1)). cbn in E4. split; [exact E4|lia].
Qed.

(** C57: a granted grid search returns the first candidate with the least objective, and this objective
    is the one at the returned parameters. *)
Theorem C57_best : forall datasets bounds solve functions guess Ns split constraints mo o,
  (forall d l, In d datasets -> d l <> Ok NInf) ->
  grid_minimization datasets (length guess) bounds solve functions guess None Ns split constraints mo = Ok o ->
  best_of (fit_objective datasets (length guess) bounds) (grid_candidate solve (method_of mo) guess split)
    (grid Ns (if Nat.eqb split 0 then bounds else firstn split bounds)) o.
Proof.
  intros datasets bounds solve functions guess Ns split constraints mo o HD.
  apply grid_best with (as_job := fun x => (x, if Nat.eqb split 0 then (x, None) else (Arr (skipn split guess), Some x))); [exact HD| |].
  - unfold grid_jobs. destruct (Nat.eqb split 0); reflexivity.
  - intros x r f row _ H1 H2. cbn [fst snd] in *. unfold grid_candidate. 
    pose proof (job_result datasets bounds solve false split (method_of mo) (length guess) x) as HJ.
    destruct (Nat.eqb split 0) eqn:Es.
    + exact (HJ x None r f row eq_refl H1 H2).
    + apply (HJ (Arr (skipn split guess)) (Some x) r f row); [split; [reflexivity|discriminate]|exact H1|exact H2].
Qed.
Print Assumptions C57_best.

Theorem C57_best_of_guesses : forall datasets bounds solve functions guess guesses Ns split constraints mo o,
  (forall d l, In d datasets -> d l <> Ok NInf) ->
  grid_minimization datasets (length guess) bounds solve functions guess (Some guesses) Ns split constraints mo = Ok o ->
  best_of (fit_objective datasets (length guess) bounds) (guess_candidate solve (method_of mo) split) guesses o.
Proof.
  intros datasets bounds solve functions guess guesses Ns split constraints mo o HD.
  apply grid_best with (as_job := fun x => (Arr x, if Nat.eqb split 0 then (Arr x, None) else (Arr (skipn split x), Some (Arr (firstn split x))))); [exact HD| |].
  - reflexivity.
  - intros x r f row _ H1 H2. cbn [fst snd] in *. unfold guess_candidate.
    pose proof (job_result datasets bounds solve true split (method_of mo) (length guess) (Arr x)) as HJ. cbn [coords] in HJ.
    destruct (Nat.eqb split 0) eqn:Es.
    + exact (HJ (Arr x) None r f row eq_refl H1 H2).
    + apply (HJ (Arr (skipn split x)) (Some (Arr (firstn split x))) r f row); [split; [reflexivity|intros _; exists x; reflexivity]|exact H1|exact H2].
Qed.
Print Assumptions C57_best_of_guesses.

(** *** When a grid search is granted *)
Lemma penalties_ok : forall (ps : list num) (bounds : list (Q * Q)) t, length ps = length bounds ->
  exists v, penalties t ps (map (fun b => (Fin (fst b), Fin (snd b))) bounds) = Ok v.
Proof.
  induction ps as [|p ps IH]; intros [|b bounds] t H; try discriminate; [eexists; reflexivity|].
  injection H as H. cbn [penalties map]. apply IH, H.
Qed.
Lemma compute_obj_ok datasets n bounds ps fr :
  length bounds = n -> (length ps = n \/ exists f, fr = Some f /\ length (f ++ ps)%list = n) ->
  exists v, compute_obj datasets n (map (fun b => (Fin (fst b), Fin (snd b))) bounds) ps fr = Ok v.
Proof.
  intros HB H. unfold compute_obj.
  assert (exists params, (if Nat.eqb (length ps) n then Ok ps else match fr with Some f => Ok (f ++ ps)%list | None => Err ValueError end) = Ok params /\ length params = n) as (params & -> & HL).
  { destruct (Nat.eqb_spec (length ps) n) as [E|E]; [exists ps; auto|]. destruct H as [H|(f & -> & H)]; [contradiction|]. eauto. }
  cbn [rbind]. rewrite HL, Nat.ltb_irrefl. destruct (existsb is_nan params); [eexists; reflexivity|].
  match goal with |- context [penalties ?t ?p ?b] => destruct (penalties_ok params bounds t ltac:(lia)) as (v & ->) end. eexists; reflexivity.
Qed.
Lemma mapM_total {A B} (f : A -> result B) l : (forall x, In x l -> exists y, f x = Ok y) -> exists ys, mapM f l = Ok ys.
Proof.
  induction l as [|x l IH]; intros H; [exists []; reflexivity|]. cbn. destruct (H x (or_introl eq_refl)) as (y & ->). cbn.
  destruct IH as (ys & ->); [intros; apply H; right; assumption|]. eexists; reflexivity.
Qed.

Lemma cartesian_row_length axes p : In p (cartesian axes) -> length p = length axes.
Proof.
  revert p. induction axes as [|a axes IH]; intros p H; cbn in H; [destruct H as [<-|[]]; reflexivity|].
  apply in_flat_map in H. destruct H as (x & _ & H). apply in_map_iff in H. destruct H as (q & <- & Hq). cbn. rewrite (IH q Hq). reflexivity.
Qed.

(** C57: with at least two parameters on the grid, no options for the minimiser and a minimiser that returns
    as many parameters as it is given (or fails), the grid search is granted whatever the minimisations do. *)
Theorem C57_granted_partial : forall datasets bounds solve functions guess Ns split mo,
  (forall m fr start r, solve m fr start = Ok r -> length r = length (coords start)) ->
  length bounds = length guess -> 2 <= length bounds -> 1 <= Ns -> split = 0 \/ 2 <= split <= length bounds ->
  mo_options mo = None \/ mo_options mo = Some [] ->
  exists o, grid_minimization datasets (length guess) bounds solve functions guess None Ns split None mo = Ok o.
Proof.
  intros datasets bounds solve functions guess Ns split mo HS HB H2 HN Hs Hm. unfold grid_minimization. cbn [rbind].
  assert (minimizer_method mo = Ok (method_of mo)) as -> by (unfold minimizer_method; destruct Hm as [->| ->]; reflexivity). cbn [rbind].
  set (jobs := grid_jobs bounds guess None Ns split).
  assert (HJ : forall j, In j jobs -> exists l, fst j = Arr l /\ length l = (if Nat.eqb split 0 then length guess else split) /\
             snd j = (if Nat.eqb split 0 then (Arr l, None) else (Arr (skipn split guess), Some (Arr l)))).
  { intros j Hj. unfold jobs, grid_jobs in Hj.
    assert (HG : forall bs, 2 <= length bs -> forall x, In x (grid Ns bs) -> exists l, x = Arr l /\ length l = length bs).
    { intros bs Hbs x Hx. unfold grid in Hx. destruct bs as [|b1 [|b2 bs]]; cbn [length] in Hbs; try lia.
      apply in_map_iff in Hx. destruct Hx as (l & <- & Hl). apply cartesian_row_length in Hl. rewrite map_length in Hl. eauto. }
    destruct (Nat.eqb_spec split 0) as [->|Hne].
    - apply in_map_iff in Hj. destruct Hj as (x & <- & Hx). destruct (HG _ H2 x Hx) as (l & -> & Hl). exists l. rewrite <- HB. auto.
    - apply in_map_iff in Hj. destruct Hj as (x & <- & Hx).
      assert (Hf : length (firstn split bounds) = split) by (rewrite firstn_length; lia).
      destruct (HG (firstn split bounds) ltac:(lia) x Hx) as (l & -> & Hl). exists l. rewrite <- Hf at 2. auto. }
  assert (HW : forall j, In j jobs -> exists r f, grid_wrapper datasets (length guess) bounds solve (method_of mo) (snd j) = Ok (Arr r, f) /\
             length r = (if Nat.eqb split 0 then length guess else length guess - split)).
  { intros j Hj. destruct (HJ j Hj) as (l & _ & Hl & ->). destruct (Nat.eqb_spec split 0) as [->|Hne].
    - unfold grid_wrapper.
      assert (exists r, match solve (method_of mo) None (Arr l) with Ok r => Arr r | Err _ => Arr (repeat NaN (length l)) end = Arr r /\ length r = length guess) as (r & -> & Hr).
      { destruct (solve (method_of mo) None (Arr l)) as [r|] eqn:E; [exists r; apply HS in E; cbn in E; split; [reflexivity|lia]|]. eexists. split; [reflexivity|]. rewrite repeat_length. exact Hl. }
      cbn [objective]. cbn [rbind]. destruct (compute_obj_ok datasets (length guess) bounds r None HB (or_introl Hr)) as (v & ->). cbn. eauto.
    - unfold grid_wrapper.
      assert (exists r, match solve (method_of mo) (Some (Arr l)) (Arr (skipn split guess)) with Ok r => Arr r | Err _ => Arr (repeat NaN (length (skipn split guess))) end = Arr r /\ length r = length guess - split) as (r & -> & Hr).
      { destruct (solve (method_of mo) _ _) as [r|] eqn:E; [exists r; apply HS in E; cbn in E; rewrite skipn_length in E; split; [reflexivity|lia]|]. eexists. split; [reflexivity|]. rewrite repeat_length, skipn_length. reflexivity. }
      cbn [objective]. cbn [as_list rbind]. destruct (Nat.eqb_spec (length r) (length guess)) as [E|E]; [lia|]. cbn [rbind].
      destruct (compute_obj_ok datasets (length guess) bounds r (Some l) HB) as (v & ->).
      { right. exists l. split; [reflexivity|]. rewrite app_length. lia. }
      cbn. eauto. }
  destruct (mapM_total (fun j => grid_wrapper datasets (length guess) bounds solve (method_of mo) (snd j)) jobs) as (outs & EO).
  { intros j Hj. destruct (HW j Hj) as (r & f & E & _). eauto. }
  rewrite EO. cbn [rbind]. pose proof (mapM_length _ _ _ EO) as LO. apply mapM_Forall2 in EO.
  destruct (mapM_total (fun jo : value num * (value num * option (value num)) * (value num * num) => whole false split (length guess) (fst (fst jo)) (fst (snd jo))) (combine jobs outs)) as (rows & ER).
  { intros [j o] Hjo. apply In_nth_error in Hjo. destruct Hjo as (k & Hk). apply nth_combine_inv in Hk. cbn [fst snd] in *. destruct Hk as [Hk1 Hk2].
    destruct (Forall2_nth _ _ _ EO k j Hk1) as (o' & Ho' & Ew). rewrite Hk2 in Ho'. injection Ho' as <-.
    pose proof (nth_error_In _ _ Hk1) as Hj. destruct (HW j Hj) as (r & f & Er & Hr). rewrite Er in Ew. injection Ew as <-.
    destruct (HJ j Hj) as (l & -> & Hl & _). cbn [fst]. unfold whole. cbn [as_list rbind].
    destruct (Nat.eqb_spec split 0); [eauto|]. rewrite app_length. replace (Nat.eqb (length l + length r) (length guess)) with true by (symmetry; apply Nat.eqb_eq; lia). eauto. }
  rewrite ER. cbn [rbind]. pose proof (mapM_length _ _ _ ER) as LR. rewrite combine_length, LO, Nat.min_id in LR.
  assert (HL : 1 <= length jobs).
  { unfold jobs, grid_jobs. destruct (Nat.eqb split 0); rewrite map_length.
    - destruct bounds as [|b1 [|b2 bs]]; cbn [length] in H2; try lia. unfold grid. rewrite map_length, cartesian_length. 
      assert (Ns ^ length (b1 :: b2 :: bs) <> 0) by (apply Nat.pow_nonzero; lia). lia.
    - assert (forall bs, 1 <= length (grid Ns bs)) as G; [|apply G]. intros [|b1 [|b2 bs]]; unfold grid; rewrite map_length; [cbn; lia|rewrite axis_length; exact HN|].
      rewrite cartesian_length. assert (Ns ^ length (b1 :: b2 :: bs) <> 0) by (apply Nat.pow_nonzero; lia). lia. }
  destruct (combine rows (map snd outs)) as [|c cs] eqn:EC; [|eexists; reflexivity].
  apply (f_equal (@length _)) in EC. rewrite combine_length, map_length, LR, LO, Nat.min_id in EC. rewrite EC in HL. inversion HL.
Qed.
Print Assumptions C57_granted_partial.

(** C57 fails for a grid of one parameter: if one of its minimisations fails, the whole search fails; *)
Theorem C57_one_parameter_refuted : forall datasets b solve functions guess Ns constraints mo x,
  In x (axis Ns b) -> (exists e, solve (method_of mo) None (Scalar x) = Err e) ->
  exists e, grid_minimization datasets (length guess) [b] solve functions guess None Ns 0 constraints mo = Err e.
Proof.
  intros datasets b solve functions guess Ns constraints mo x Hx (e & He). unfold grid_minimization.
  destruct (match constraints with None => Ok tt | Some c => _ end); [|eexists; reflexivity]. cbn [rbind].
  destruct (minimizer_method mo) as [m|] eqn:Em; [|eexists; reflexivity]. cbn [rbind].
  assert (m = method_of mo) as ->.
  { unfold minimizer_method in Em. destruct (mo_options mo) as [[|]|]; try discriminate; injection Em as <-; reflexivity. }
  set (jobs := grid_jobs _ _ _ _ _).
  assert (In (Scalar x, (Scalar x, None)) jobs) as Hj.
  { unfold jobs, grid_jobs, grid. cbn [Nat.eqb]. rewrite map_map. apply in_map_iff. exists x. split; [reflexivity|exact Hx]. }
  destruct (mapM _ jobs) as [outs|] eqn:EM; [|eexists; reflexivity]. exfalso.
  apply mapM_Forall2 in EM. apply In_nth_error in Hj. destruct Hj as (k & Hk).
  destruct (Forall2_nth _ _ _ EM k _ Hk) as (y & _ & Hy). cbn [snd] in Hy. unfold grid_wrapper in Hy. rewrite He in Hy. discriminate.
Qed.
Print Assumptions C57_one_parameter_refuted.

(** for a split after the first parameter: it always fails, whatever the data and the minimiser; *)
Theorem C57_split_one_refuted : forall datasets bounds solve functions guess Ns constraints mo,
  length bounds = length guess -> bounds <> [] ->
  (forall m fr start r, solve m fr start = Ok r -> length r = length (coords start)) ->
  exists e, grid_minimization datasets (length guess) bounds solve functions guess None Ns 1 constraints mo = Err e.
Proof.
  intros datasets bounds solve functions guess Ns constraints mo HB Hb HS. unfold grid_minimization.
  destruct (match constraints with None => Ok tt | Some c => _ end); [|eexists; reflexivity]. cbn [rbind].
  destruct (minimizer_method mo) as [m|]; [|eexists; reflexivity]. cbn [rbind].
  destruct bounds as [|b bounds]; [congruence|]. destruct guess as [|g guess]; [discriminate|].
  unfold grid_jobs. cbn [Nat.eqb firstn grid]. rewrite map_map.
  destruct (axis Ns b) as [|x l]; [eexists; reflexivity|]. cbn [map mapM snd].
  match goal with |- context [grid_wrapper ?a ?n ?b ?c ?d ?e] => assert (grid_wrapper a n b c d e = Err TypeError) as -> end; [|eexists; reflexivity].
  unfold grid_wrapper. cbn [skipn]. destruct (solve m (Some (Scalar x)) (Arr guess)) as [r|] eqn:E.
  - apply HS in E. cbn [coords] in E. cbn [objective]. destruct (Nat.eqb_spec (length r) (length (g :: guess))) as [E2|E2]; [cbn in E2; lia|]. reflexivity.
  - cbn [objective]. rewrite repeat_length. destruct (Nat.eqb_spec (length guess) (length (g :: guess))) as [E2|E2]; [cbn in E2; lia|]. reflexivity.
Qed.
Print Assumptions C57_split_one_refuted.

(** and for every non-empty dictionary of options of the minimiser. *)
Theorem C57_options_refuted : forall datasets n bounds solve functions guess initial Ns split mo kv opts,
  mo_options mo = Some (kv :: opts) ->
  grid_minimization datasets n bounds solve functions guess initial Ns split None mo = Err KeyError.
Proof. intros datasets n bounds solve functions guess initial Ns split mo kv opts H. unfold grid_minimization, minimizer_method. rewrite H. reflexivity. Qed.
Print Assumptions C57_options_refuted.

(** C57, failures: when no minimisation succeeds the search reports success with undefined parameters. *)
Theorem C57_all_failed_refuted : forall datasets bounds solve functions guess Ns mo o,
  (forall d l, In d datasets -> d l <> Ok NInf) -> 1 <= length bounds ->
  (forall fr start, exists e, solve (method_of mo) fr start = Err e) ->
  grid_minimization datasets (length guess) bounds solve functions guess None Ns 0 None mo = Ok o ->
  o_success o = true /\ o_fun o = PInf /\ o_x o <> [] /\ Forall (fun x => x = NaN) (o_x o).
Proof.
  intros datasets bounds solve functions guess Ns mo o HD Hb HS H.
  assert (o_success o = true) as Hsucc.
  { unfold grid_minimization in H. cbn [rbind] in H. destruct (minimizer_method mo); [|discriminate]. cbn [rbind] in H.
    destruct (mapM _ _); [|discriminate]. cbn [rbind] in H. destruct (mapM _ _); [|discriminate]. cbn [rbind] in H.
    destruct (combine _ _); [discriminate|]. injection H as <-. reflexivity. }
  split; [exact Hsucc|]. destruct (C57_best _ _ _ _ _ _ _ _ _ _ HD H) as (_ & k & x & Hk & Ex & Ho & _).
  unfold grid_candidate in Ex. cbn [Nat.eqb] in Ex. unfold converged in Ex. destruct (HS None x) as (e & He). rewrite He in Ex.
  assert (HL : 1 <= length (coords x)).
  { apply nth_error_In in Hk. unfold grid in Hk. cbn [Nat.eqb] in Hk. destruct bounds as [|b1 [|b2 bs]]; [cbn in Hb; lia| |].
    - apply in_map_iff in Hk. destruct Hk as (y & <- & _). cbn. lia.
    - apply in_map_iff in Hk. destruct Hk as (y & <- & Hy). apply cartesian_row_length in Hy. cbn [coords]. rewrite Hy. cbn. lia. }
  assert (HF : Forall (fun y => y = NaN) (o_x o)) by (rewrite Ex; apply Forall_forall; intros y Hy; apply repeat_spec in Hy; exact Hy).
  assert (HNn : existsb is_nan (o_x o) = true) by (rewrite Ex; destruct (length (coords x)); [lia|reflexivity]).
  split; [|split; [|exact HF]].
  - unfold fit_objective, compute_obj in Ho. destruct (Nat.eqb (length (o_x o)) (length guess)); [|discriminate]. cbn [rbind] in Ho.
    destruct (Nat.ltb _ _); [discriminate|]. rewrite HNn in Ho. injection Ho as <-. reflexivity.
  - rewrite Ex. destruct (length (coords x)); [lia|discriminate].
Qed.
Print Assumptions C57_all_failed_refuted.

(** C56, grid search: accepted constraints have no effect on it. *)
Theorem C56_grid_ignores_refuted : forall datasets n bounds solve functions guess initial Ns split c built mo,
  initialize_constraints functions "dict" c = Ok built ->
  grid_minimization datasets n bounds solve functions guess initial Ns split (Some c) mo =
  grid_minimization datasets n bounds solve functions guess initial Ns split None mo.
Proof. intros datasets n bounds solve functions guess initial Ns split c built mo H. unfold grid_minimization. rewrite H. reflexivity. Qed.
Print Assumptions C56_grid_ignores_refuted.

(** A concrete case: two parameters, one data set (the size of the sum of the parameters), a minimiser that
    halves them. *)
Definition ex_data (l : list num) : result num := Ok (nabs (nsum l)).
Definition ex_solve (m : string) (fr : option (value num)) (x : value num) : result (list num) := Ok (map (fun a => nmul a (Fin (1 # 2))) (coords x)).
Example C57_example :
  (forall d l, In d [ex_data] -> d l <> Ok NInf) /\
  (forall m fr start r, ex_solve m fr start = Ok r -> length r = length (coords start)) /\
  exists o, grid_minimization [ex_data] 2 [(-4, 5); (-10, 10)]%Q ex_solve [] [Fin 3; Fin 8] None 3 0 None {| mo_method := None; mo_options := None |} = Ok o /\
    o_nit o = 9 /\ neqb (o_fun o) (Fin (1 # 4)) = true /\ position 3 [1; 2] = 5.
Proof.
  split; [|split].
  - intros d l [<-|[]]. unfold ex_data. intros E. injection E as E. destruct (nsum l); discriminate.
  - intros m fr start r H. injection H as <-. apply map_length.
  - eexists. split; [vm_compute; reflexivity|]. split; [reflexivity|]. split; [vm_compute; reflexivity|reflexivity].
Qed.

(** ** C58 *)

(** every parameter inside its bounds *)
Definition feasible (bounds : list (num * num)) (x : list num) : Prop :=
  Forall2 (fun p b => nle (fst b) p = true /\ nle p (snd b) = true) x bounds.

(** C58: the bounds test accepts exactly the candidates with every parameter inside its bounds and a finite
    objective.  (It can be applied to candidates with one value per bound.) *)
Theorem C58_acceptance : forall bounds x f, length x = length bounds ->
  exists b, basin_bounds bounds x f = Ok b /\ (b = true <-> feasible bounds x /\ exists q, f = Fin q).
Proof.
  intros bounds x f HL. unfold basin_bounds. rewrite HL, Nat.eqb_refl. cbn [negb]. eexists. split; [reflexivity|].
  assert (HF : feasible bounds x <-> forallb (fun p => nle (fst p) (snd (snd p))) (combine x bounds) = true /\
                                    forallb (fun p => nle (fst (snd p)) (fst p)) (combine x bounds) = true).
  { unfold feasible. revert bounds HL. induction x as [|a x IH]; intros [|b bounds] HL; try discriminate.
    - split; [split; reflexivity|constructor].
    - injection HL as HL. specialize (IH bounds HL). cbn [combine forallb fst snd]. rewrite !andb_true_iff. split.
      + intros H. inversion H; subst. destruct IH as [IH _]. destruct (IH H5). tauto.
      + intros [[H1 H2] [H3 H4]]. constructor; [tauto|]. apply IH. tauto. }
  assert (HQ : nlt (nabs f) PInf && negb (is_nan f) = true <-> exists q, f = Fin q).
  { destruct f; cbn; split; intros H; try discriminate; try (destruct H as (q' & H); discriminate); eauto. }
  rewrite <- !andb_assoc. rewrite andb_true_iff, andb_true_iff, HQ, HF. tauto.
Qed.
Print Assumptions C58_acceptance.

(** The point of attempt [j]: each coordinate moved by its draw, a fraction of magnitude times step size *)
Definition proposal (mags : list num) (stepsize : num) (draw : nat -> nat -> num) (x : list num) (j : nat) : list num :=
  map (fun iam => nadd (fst (snd iam)) (nmul (draw j (fst iam)) (nmul (snd (snd iam)) stepsize))) (combine (seq 0 (length x)) (combine x mags)).
(** no coordinate below zero *)
Definition non_negative (x : list num) : Prop := Forall (fun a => nlt a (Fin 0) = false) x.

Lemma basin_move_spec : forall x mags u, length x = length mags -> length u = length mags ->
  exists b, basin_move x mags u = Ok (map (fun p => nadd (fst p) (snd p)) (combine x u), b) /\
    (b = true <-> non_negative (map (fun p => nadd (fst p) (snd p)) (combine x u))).
Proof.
  unfold non_negative. induction x as [|a x IH]; intros [|m mags] [|d u] H1 H2; try discriminate; cbn [basin_move combine map fst snd].
  - eexists. split; [reflexivity|]. split; [intros _; constructor|reflexivity].
  - injection H1 as H1. injection H2 as H2. destruct (IH mags u H1 H2) as (b & -> & Hb). cbn [rbind fst snd]. eexists. split; [reflexivity|].
    rewrite andb_true_iff, negb_true_iff, Hb. split; [intros [? ?]; constructor; assumption|intros H; inversion H; subst; auto].
Qed.

Lemma proposal_eq mags stepsize draw x j : length x = length mags ->
  map (fun p => nadd (fst p) (snd p)) (combine x (map (fun im => nmul (draw j (fst im)) (nmul (snd im) stepsize)) (combine (seq 0 (length mags)) mags)))
  = proposal mags stepsize draw x j.
Proof.
  intros H. unfold proposal. rewrite H. generalize 0 as s. revert mags H. induction x as [|a x IH]; intros [|m mags] H s; try discriminate; [reflexivity|].
  injection H as H. cbn [length seq combine map fst snd]. rewrite IH by exact H. reflexivity.
Qed.

Lemma attempts_spec mags stepsize draw x : length x = length mags -> forall n j last,
  exists r, basin_attempts n j x last mags stepsize draw = Ok r /\
    ((exists k, k < n /\ r = proposal mags stepsize draw x (j + k) /\ non_negative r /\
        forall i, i < k -> ~ non_negative (proposal mags stepsize draw x (j + i))) \/
     ((forall k, k < n -> ~ non_negative (proposal mags stepsize draw x (j + k))) /\
      r = match n with O => last | S n' => proposal mags stepsize draw x (j + n') end)).
Proof.
  intros HL. induction n as [|n IH]; intros j last; cbn [basin_attempts].
  - exists last. split; [reflexivity|]. right. split; [intros; lia|reflexivity].
  - destruct (basin_move_spec x mags (map (fun im => nmul (draw j (fst im)) (nmul (snd im) stepsize)) (combine (seq 0 (length mags)) mags)) HL) as (b & -> & Hb).
    { rewrite map_length, combine_length, seq_length. apply Nat.min_id. }
    cbn [rbind fst snd]. rewrite (proposal_eq mags stepsize draw x j HL) in *. destruct b.
    + exists (proposal mags stepsize draw x j). split; [reflexivity|]. left. exists 0. rewrite Nat.add_0_r.
      split; [lia|]. split; [reflexivity|]. split; [apply Hb; reflexivity|lia].
    + assert (HN : ~ non_negative (proposal mags stepsize draw x j)) by (intros H; apply Hb in H; discriminate).
      destruct (IH (S j) (proposal mags stepsize draw x j)) as (r & -> & HR). exists r. split; [reflexivity|].
      destruct HR as [(k & Hk & Er & Hnn & Hlt)|[Hall Er]].
      * left. exists (S k). replace (j + S k) with (S j + k) by lia. split; [lia|]. split; [exact Er|]. split; [exact Hnn|].
        intros [|i] Hi; [rewrite Nat.add_0_r; exact HN|]. replace (j + S i) with (S j + i) by lia. apply Hlt. lia.
      * right. split.
        -- intros [|k] Hk; [rewrite Nat.add_0_r; exact HN|]. replace (j + S k) with (S j + k) by lia. apply Hall. lia.
        -- rewrite Er. destruct n as [|n]; [rewrite Nat.add_0_r; reflexivity|]. f_equal. lia.
Qed.

(** C58: whatever the random draws, the proposed step is the first of at most 1000 attempts without a
    negative coordinate; only if all 1000 have one, the last of them is proposed. *)
Theorem C58_step : forall mags stepsize draw x, length x = length mags ->
  exists r, basin_step mags stepsize draw x = Ok r /\
    ((exists k, k < 1000 /\ r = proposal mags stepsize draw x k /\ non_negative r /\
        forall i, i < k -> ~ non_negative (proposal mags stepsize draw x i)) \/
     ((forall k, k < 1000 -> ~ non_negative (proposal mags stepsize draw x k)) /\ r = proposal mags stepsize draw x 999)).
Proof.
  intros mags stepsize draw x HL. unfold basin_step. destruct (attempts_spec mags stepsize draw x HL 1000 0 x) as (r & -> & H).
  exists r. split; [reflexivity|]. exact H.
Qed.
Print Assumptions C58_step.

(** Every attempt stays within magnitude times step size of the current point. *)
Theorem C58_step_size : forall mags stepsize draw x j r i a m q,
  length x = length mags -> proposal mags stepsize draw x j = r ->
  nth_error x i = Some (Fin a) -> nth_error mags i = Some (Fin m) -> stepsize = Fin q -> (0 <= m)%Q -> (0 <= q)%Q ->
  (exists d, draw j i = Fin d /\ -(1) <= d /\ d <= 1)%Q ->
  exists b, nth_error r i = Some (Fin b) /\ (a - m * q <= b)%Q /\ (b <= a + m * q)%Q.
Proof.
  intros mags stepsize draw x j r i a m q HL <- Ha Hm -> Hm0 Hq0 (d & Hd & D1 & D2). unfold proposal.
  assert (Hi : i < length x) by (apply nth_error_Some; congruence).
  assert (Hs : nth_error (seq 0 (length x)) i = Some i).
  { rewrite nth_error_nth' with (d := 0) by (rewrite seq_length; exact Hi). rewrite seq_nth by exact Hi. reflexivity. }
  erewrite map_nth_error; [|apply nth_error_combine; [exact Hs|apply nth_error_combine; [exact Ha|exact Hm]]].
  cbn [fst snd]. rewrite Hd. cbn [nmul nadd]. eexists. split; [reflexivity|].
  assert (0 <= m * q)%Q by nra. split; nra.
Qed.
Print Assumptions C58_step_size.

(** Both cases of C58_step occur: draws that succeed at the third attempt, and draws that never do. *)
Example C58_example :
  basin_step [Fin 10; Fin 4] (Fin (1 # 2)) (fun j i => if Nat.ltb j 2 then Fin (-1) else Fin (1 # 2)) [Fin 3; Fin 1]
    = Ok [Fin (3 + (1 # 2) * (10 * (1 # 2))); Fin (1 + (1 # 2) * (4 * (1 # 2)))] /\
  exists a b, basin_step [Fin 10; Fin 4] (Fin (1 # 2)) (fun j i => Fin (-1)) [Fin 3; Fin 1] = Ok [Fin a; Fin b] /\ (a < 0)%Q.
Proof. split; [reflexivity|]. do 2 eexists. split; [vm_compute; reflexivity|]. reflexivity. Qed.

(** ** C59 *)

(** Vocabulary: a report is worth a line if its convergence (differential evolution) or objective (basin hopping)
    is below the cut-off, or if basin hopping accepted it *)
Definition worth (cut : num) (r : report) : bool :=
  match r with RDiff _ c => nlt c cut | RBasin _ f accepted => accepted || nlt f cut | ROther => false end.
(** the lines one run adds: those of the reports that pass the cut-off, numbered by report, in order *)
Fixpoint added (line : nat -> report -> string) (cut : num) (n : nat) (rs : list report) : string :=
  match rs with
  | [] => ""
  | r :: rs' => (if worth cut r then line n r else "") ++ added line cut (S n) rs'
  end.
(** the header: that of the first report that passes; none if there is none *)
Fixpoint headed (header : report -> string) (cut : num) (rs : list report) : option string :=
  match rs with
  | [] => None
  | r :: rs' => if worth cut r then Some (header r) else headed header cut rs'
  end.
Definition understood (r : report) : Prop := r <> ROther.
(** [c'] is [c] with something appended *)
Definition extends (c c' : string) : Prop := exists more, c' = c ++ more.

Lemma sapp_assoc (a b c : string) : (a ++ b) ++ c = a ++ b ++ c.
Proof. induction a as [|x a IH]; cbn; [reflexivity|]. now rewrite IH. Qed.
Lemma sapp_nil (a : string) : a ++ "" = a.
Proof. induction a as [|x a IH]; cbn; [reflexivity|]. now rewrite IH. Qed.
Lemma extends_refl c : extends c c.
Proof. exists "". symmetry. apply sapp_nil. Qed.
Lemma extends_trans a b c : extends a b -> extends b c -> extends a c.
Proof. intros (x & ->) (y & ->). exists (x ++ y). apply sapp_assoc. Qed.
Lemma substring_prefix (s : string) : forall n, extends (substring 0 n s) s.
Proof.
  induction s as [|a s IH]; intros [|n]; cbn; try (exists ""; reflexivity).
  - exists (String a s). reflexivity.
  - destruct (IH n) as (m & E). exists m. cbn. now rewrite <- E.
Qed.

(** nothing that is in a file of [d] is lost in [d'] *)
Definition preserved (d d' : directory) : Prop :=
  forall f c, dget d f = Some c -> exists c', dget d' f = Some c' /\ extends c c'.
Lemma preserved_refl d : preserved d d.
Proof. intros f c H. exists c. split; [exact H|apply extends_refl]. Qed.
Lemma preserved_trans a b c : preserved a b -> preserved b c -> preserved a c.
Proof.
  intros H1 H2 f x Hx. destruct (H1 f x Hx) as (y & Hy & E). destruct (H2 f y Hy) as (z & Hz & E'). exists z.
  split; [exact Hz|exact (extends_trans _ _ _ E E')].
Qed.
Lemma append_preserved d f s : preserved d (exec d (Append f s)).
Proof.
  intros g c H. cbn. destruct (String.eqb_spec f g) as [->|Hn].
  - rewrite H. eexists. split; [apply dget_dset_same|]. exists s. reflexivity.
  - exists c. split; [rewrite dget_dset_other by congruence; exact H|apply extends_refl].
Qed.
Lemma truncate_new d f : exists_file d f = false -> preserved d (exec d (Truncate f)).
Proof.
  unfold exists_file, dmem. intros Hf g c H. cbn. exists c. split; [|apply extends_refl].
  rewrite dget_dset_other; [exact H|]. intros ->. rewrite H in Hf. discriminate.
Qed.

Section Disk.
  Variable header : report -> string.
  Variable line : nat -> report -> string.

  (** the system calls of one report: a truncation, if any, comes first and creates the file *)
  Definition safe_prims (d : directory) (ps : list prim) : Prop :=
    exists f rest, (forall p, In p rest -> exists s, p = Append f s) /\
      (ps = rest \/ (ps = (Truncate f :: rest)%list /\ exists_file d f = false)).
  Lemma report_safe d cut file n r ps : report_prims header line d cut file n r = Ok ps -> safe_prims d ps.
  Proof.
    unfold report_prims. destruct (passes cut r) as [[|]|]; [| |discriminate]; intros H; injection H as <-.
    - exists file. destruct (exists_file d file) eqn:E.
      + exists [Append file (line n r)]. split; [intros p [<-|[]]; eauto|left; reflexivity].
      + exists [Append file (header r); Append file (line n r)]. split; [intros p [<-|[<-|[]]]; eauto|right; auto].
    - exists file, []. split; [intros p []|left; reflexivity].
  Qed.
  Lemma appends_preserved f rest : (forall p, In p rest -> exists s, p = Append f s) -> forall d, preserved d (fold_left exec rest d).
  Proof.
    induction rest as [|p rest IH]; intros H d; cbn [fold_left]; [apply preserved_refl|].
    destruct (H p (or_introl eq_refl)) as (s & ->). eapply preserved_trans; [apply append_preserved|]. apply IH. intros; apply H; right; assumption.
  Qed.
  Lemma In_firstn' {A} (x : A) n l : In x (firstn n l) -> In x l.
  Proof. revert n. induction l as [|a l IH]; intros [|n] H; cbn in *; try tauto. destruct H as [->|H]; [left; reflexivity|right; eapply IH, H]. Qed.
  Lemma safe_crash d ps c : safe_prims d ps -> preserved d (exec_crash d ps c).
  Proof.
    intros (f & rest & HR & HP). unfold exec_crash.
    assert (H1 : preserved d (fold_left exec (firstn (full c) ps) d)).
    { destruct HP as [->|[-> HE]].
      - apply appends_preserved with f. intros p Hp. apply HR. eapply In_firstn', Hp.
      - destruct (full c) as [|k]; cbn [firstn fold_left]; [apply preserved_refl|].
        eapply preserved_trans; [apply truncate_new, HE|]. apply appends_preserved with f. intros p Hp. apply HR. eapply In_firstn', Hp. }
    destruct (nth_error ps (full c)) as [[g|g s]|]; [exact H1| |exact H1]. eapply preserved_trans; [exact H1|apply append_preserved].
  Qed.
  Lemma safe_full d ps : safe_prims d ps -> preserved d (fold_left exec ps d).
  Proof.
    intros (f & rest & HR & [->|[-> HE]]); [apply appends_preserved with f, HR|]. cbn [fold_left].
    eapply preserved_trans; [apply truncate_new, HE|]. apply appends_preserved with f, HR.
  Qed.
  Lemma reports_preserved cut file rs : forall d n, preserved d (fst (reports header line d cut file n rs)).
  Proof.
    induction rs as [|r rs IH]; intros d n; cbn [reports]; [apply preserved_refl|].
    destruct (report_prims header line d cut file n r) as [ps|] eqn:E; [|apply preserved_refl].
    eapply preserved_trans; [eapply safe_full, report_safe, E|apply IH].
  Qed.
  Lemma session_preserved d s : preserved d (run_session header line d s).
  Proof.
    unfold run_session. pose proof (reports_preserved (s_cut s) (choose_file d (s_name s)) (s_reports s) d 0) as H.
    destruct (reports header line d (s_cut s) (choose_file d (s_name s)) 0 (s_reports s)) as [d' [n|e]]; cbn [fst] in H; [|exact H].
    destruct (s_crash s) as [[r c]|]; [|exact H].
    destruct (report_prims header line d' (s_cut s) (choose_file d (s_name s)) n r) as [ps|] eqn:E; [|exact H].
    eapply preserved_trans; [exact H|]. eapply safe_crash, report_safe, E.
  Qed.

  (** C59: over any history of runs, each with any name, any reports and a crash anywhere, every file keeps
      what is in it; things are only appended. *)
Theorem C59_nothing_lost : forall d l f c, dget d f = Some c ->
    exists c', dget (history header line d l) f = Some c' /\ extends c c'.
  Proof.
    intros d l. change (preserved d (history header line d l)). unfold history. revert d.
    induction l as [|s l IH]; intros d; cbn [fold_left]; [apply preserved_refl|]. eapply preserved_trans; [apply session_preserved|apply IH].
  Qed.

  Lemma one_report d cut file n r : understood r ->
    exists ps, report_prims header line d cut file n r = Ok ps /\
      let d' := fold_left exec ps d in
      (forall g, g <> file -> dget d' g = dget d g) /\
      dget d' file = match passes cut r with
                     | Some true => Some ((match dget d file with Some c => c | None => header r end) ++ line n r)
                     | _ => dget d file end.
  Proof.
    intros Hu. unfold report_prims. destruct (passes cut r) as [[|]|] eqn:E.
    - eexists. split; [reflexivity|]. cbn zeta. unfold exists_file, dmem. destruct (dget d file) as [c|] eqn:Ef; cbn [app fold_left exec].
      + rewrite Ef. split; [intros g Hg; apply dget_dset_other; congruence|apply dget_dset_same].
      + rewrite !dget_dset_same. split; [intros g Hg; rewrite !dget_dset_other by congruence; reflexivity|]. reflexivity.
    - eexists. split; [reflexivity|]. cbn. auto.
    - destruct r; try discriminate. exfalso. apply Hu. reflexivity.
  Qed.

  Lemma reports_spec cut file rs : Forall understood rs -> forall d n,
    snd (reports header line d cut file n rs) = Ok (n + length rs) /\
    let d' := fst (reports header line d cut file n rs) in
    (forall g, g <> file -> dget d' g = dget d g) /\
    dget d' file = match dget d file with
                   | Some c => Some (c ++ added line cut n rs)
                   | None => option_map (fun h => h ++ added line cut n rs) (headed header cut rs) end.
  Proof.
    induction rs as [|r rs IH]; intros HU d n; cbn [reports].
    - cbn. split; [f_equal; lia|]. split; [reflexivity|]. destruct (dget d file); [rewrite sapp_nil|]; reflexivity.
    - inversion HU as [|? ? Hr HU']; subst. destruct (one_report d cut file n r Hr) as (ps & -> & Ho & Hf).
      destruct (IH HU' (fold_left exec ps d) (S n)) as (I1 & I2 & I3). cbn zeta in *. split; [rewrite I1; cbn; f_equal; lia|].
      split; [intros g Hg; rewrite I2, Ho by exact Hg; reflexivity|]. rewrite I3, Hf. cbn [added headed].
      assert (W : forall A (a b : A), (if worth cut r then a else b) = match passes cut r with Some true => a | _ => b end).
      { intros A a b. destruct r as [x v|x v acc|]; cbn [worth passes]; [destruct (nlt v cut)|destruct (acc || nlt v cut)|]; reflexivity. }
      rewrite !W. clear W.
      destruct (passes cut r) as [[|]|].
      + rewrite sapp_assoc. destruct (dget d file) as [c|]; reflexivity.
      + cbn. destruct (dget d file); reflexivity.
      + cbn. destruct (dget d file); reflexivity.
  Qed.

  (** C59: a run without crash appends exactly the lines of the reports that pass, once and in order, to the
      file chosen at the start, after a header if the file is new, and touches no other file. *)
Theorem C59_once_in_order : forall d name cut rs, Forall understood rs ->
    let file := choose_file d name in
    let d' := run_session header line d {| s_name := name; s_cut := cut; s_reports := rs; s_crash := None |} in
    (forall g, g <> file -> dget d' g = dget d g) /\
    dget d' file = match dget d file with
                   | Some c => Some (c ++ added line cut 0 rs)
                   | None => option_map (fun h => h ++ added line cut 0 rs) (headed header cut rs) end.
  Proof.
    intros d name cut rs HU. cbn zeta. unfold run_session. cbn [s_name s_cut s_reports s_crash].
    destruct (reports_spec cut (choose_file d name) rs HU d 0) as (_ & H1 & H2). cbn zeta in *.
    destruct (reports header line d cut (choose_file d name) 0 rs) as [d' [n|e]]; split; assumption.
  Qed.

  (** C59, crash: during any report the file holds everything of the reports before and nothing but a
      beginning of what the interrupted report adds; no other file is touched. *)
Theorem C59_crash : forall d name cut rs r c, Forall understood rs -> understood r ->
    let file := choose_file d name in
    let before := run_session header line d {| s_name := name; s_cut := cut; s_reports := rs; s_crash := None |} in
    let after := run_session header line d {| s_name := name; s_cut := cut; s_reports := (rs ++ [r])%list; s_crash := None |} in
    let d' := run_session header line d {| s_name := name; s_cut := cut; s_reports := rs; s_crash := Some (r, c) |} in
    (forall g, g <> file -> dget d' g = dget d g) /\
    match dget d' file with
    | None => dget before file = None
    | Some x => (forall b, dget before file = Some b -> extends b x) /\
                (exists a, dget after file = Some a /\ extends x a)
    end.
  Proof.
    intros d name cut rs r c HU Hr. cbn zeta. unfold run_session. cbn [s_name s_cut s_reports s_crash].
    set (file := choose_file d name). clearbody file.
    destruct (reports_spec cut file rs HU d 0) as (H0 & H1 & H2). cbn zeta in *.
    assert (HA : forall rs d n, Forall understood rs ->
      fst (reports header line d cut file n (rs ++ [r])) = fst (reports header line (fst (reports header line d cut file n rs)) cut file (n + length rs) [r]) /\
      exists m, snd (reports header line d cut file n (rs ++ [r])) = Ok m).
    { clear -Hr. induction rs as [|x rs IH]; intros d n HU; cbn [app].
      - cbn [reports length fst]. rewrite Nat.add_0_r. destruct (one_report d cut file n r Hr) as (ps & E & _). rewrite E. split; [reflexivity|eexists; reflexivity].
      - inversion HU; subst. cbn [reports]. destruct (one_report d cut file n x H1) as (ps & E & _). rewrite E.
        destruct (IH (fold_left exec ps d) (S n) H2) as [-> E2]. split; [|exact E2]. cbn [length]. replace (n + S (length rs)) with (S n + length rs) by lia. reflexivity. }
    destruct (HA rs d 0 HU) as [HA1 (m & HA2)].
    destruct (reports header line d cut file 0 (rs ++ [r])) as [da ra]. cbn [fst snd] in HA1, HA2. subst ra.
    destruct (reports header line d cut file 0 rs) as [d1 r1]. cbn [fst snd] in *. subst r1.
    destruct (one_report d1 cut file (0 + length rs) r Hr) as (ps & E & Ho & Hf). cbn [reports fst] in HA1. rewrite E in *. cbn [fst] in HA1. subst da.
    assert (HFULL : length ps <= full c -> exec_crash d1 ps c = fold_left exec ps d1).
    { intros HL. unfold exec_crash. rewrite firstn_all2 by exact HL. apply nth_error_None in HL. rewrite HL. reflexivity. }
    change (0 + length rs) with (length rs) in *. cbn zeta in *. remember (fold_left exec ps d1) as da eqn:Eda. clear Eda.
    assert (HDONE : length ps <= full c -> passes cut r = Some true ->
      (forall g, g <> file -> dget (exec_crash d1 ps c) g = dget d g) /\
      match dget (exec_crash d1 ps c) file with
      | None => dget d1 file = None
      | Some x => (forall b, dget d1 file = Some b -> extends b x) /\ (exists a, dget da file = Some a /\ extends x a) end).
    { intros HL Hp. rewrite (HFULL HL). rewrite Hp in Hf. split; [intros g Hg; rewrite Ho by exact Hg; apply H1, Hg|]. rewrite Hf.
      split; [intros b Hb; rewrite Hb; eexists; reflexivity|]. eexists. split; [reflexivity|apply extends_refl]. }
    unfold report_prims in E.
    destruct (passes cut r) as [[|]|] eqn:Epass; [| |discriminate]; injection E as <-.
    - unfold exists_file, dmem in *. destruct (dget d1 file) as [b|] eqn:Eb; cbn [app length] in *.
      + destruct (Nat.le_gt_cases 1 (full c)) as [HL|HL]; [apply HDONE; [exact HL|reflexivity]|].
        unfold exec_crash. replace (full c) with 0 by lia. cbn [firstn fold_left nth_error exec]. rewrite Eb.
        split; [intros g Hg; rewrite dget_dset_other by congruence; apply H1, Hg|]. rewrite dget_dset_same.
        split; [intros b' Hb'; injection Hb' as <-; eexists; reflexivity|]. eexists. split; [exact Hf|].
        destruct (substring_prefix (line (length rs) r) (chars c)) as (m' & Em). exists m'. rewrite sapp_assoc, <- Em. reflexivity.
      + destruct (Nat.le_gt_cases 3 (full c)) as [HL|HL]; [apply HDONE; [exact HL|reflexivity]|].
        unfold exec_crash. destruct (full c) as [|[|[|k]]]; [| | |lia]; cbn [firstn fold_left nth_error exec].
        * rewrite Eb. split; [exact H1|reflexivity].
        * rewrite dget_dset_same. split; [intros g Hg; rewrite !dget_dset_other by congruence; apply H1, Hg|]. rewrite dget_dset_same.
          split; [discriminate|]. eexists. split; [exact Hf|]. cbn [append].
          destruct (substring_prefix (header r) (chars c)) as (m' & Em). exists (m' ++ line (length rs) r). rewrite <- sapp_assoc, <- Em. reflexivity.
        * rewrite !dget_dset_same. split; [intros g Hg; rewrite !dget_dset_other by congruence; apply H1, Hg|].
          split; [discriminate|]. eexists. split; [exact Hf|]. cbn [append].
          destruct (substring_prefix (line (length rs) r) (chars c)) as (m' & Em). exists m'. rewrite sapp_assoc, <- Em. reflexivity.
    - unfold exec_crash. rewrite firstn_nil. cbn [fold_left]. assert (nth_error (@nil prim) (full c) = None) as -> by (destruct (full c); reflexivity).
      split; [exact H1|]. destruct (dget d1 file) as [b|]; [|reflexivity].
      split; [intros b' Hb'; injection Hb' as <-; apply extends_refl|]. eexists. split; [exact Hf|apply extends_refl].
  Qed.
End Disk.
Print Assumptions C59_nothing_lost.
Print Assumptions C59_once_in_order.
Print Assumptions C59_crash.

(** The names tried: the one asked for, then with 0_ to 19_ in front *)
Definition tried (name : string) : list string := name :: map (fun i => i ++ "_" ++ name) twenty.
Definition asked (name : option string) : string := match name with Some f => f | None => "parameters.txt" end.

Lemma free_name_spec d old l : forall last, (exists i, In i l /\ dget d (i ++ "_" ++ old) = None) ->
  In (free_name d old last l) (map (fun i => i ++ "_" ++ old) l) /\ dget d (free_name d old last l) = None.
Proof.
  induction l as [|i l IH]; intros last (k & Hk & E); [destruct Hk|]. cbn [free_name map]. unfold exists_file, dmem.
  destruct (dget d (i ++ "_" ++ old)) as [c|] eqn:Ei; [|split; [left; reflexivity|exact Ei]].
  destruct (IH (i ++ "_" ++ old)) as [H1 H2]; [|split; [right; exact H1|exact H2]].
  exists k. destruct Hk as [->|Hk]; [congruence|]. auto.
Qed.

(** C59: as long as one of the 21 names is free the file is a new one, so that results of earlier runs are in
    other files; it is the name asked for if that is free. *)
Theorem C59_new_file : forall d name, (exists f, In f (tried (asked name)) /\ dget d f = None) ->
  In (choose_file d name) (tried (asked name)) /\ dget d (choose_file d name) = None /\
  (dget d (asked name) = None -> choose_file d name = asked name).
Proof.
  intros d name (f & Hf & E). unfold choose_file. fold (asked name). unfold exists_file, dmem.
  destruct (dget d (asked name)) as [c|] eqn:Ea; [|split; [left; reflexivity|]; split; [exact Ea|reflexivity]].
  destruct Hf as [<-|Hf]; [congruence|]. apply in_map_iff in Hf. destruct Hf as (i & <- & Hi).
  destruct (free_name_spec d (asked name) twenty (asked name) (ex_intro _ i (conj Hi E))) as [H1 H2].
  split; [right; exact H1|]. split; [exact H2|discriminate].
Qed.
Print Assumptions C59_new_file.

(** C59 fails when all 21 names are taken: the run appends to the last of them, and if that ends in an
    unfinished line, left by a crash, the first result becomes part of that line. *)
Definition ex_header (r : report) : string := "# n" ++ String (Ascii.ascii_of_nat 10) "".
Definition ex_line (n : nat) (r : report) : string := "new result" ++ String (Ascii.ascii_of_nat 10) "".
Lemma last_cons {A} (l : list A) : forall x d, List.last (x :: l) d = List.last l x.
Proof. induction l as [|y l IH]; intros x d; [reflexivity|]. change (List.last (x :: y :: l) d) with (List.last (y :: l) d). rewrite !IH. reflexivity. Qed.
Theorem C59_line_continued_refuted : forall d c,
  (forall f, In f (tried "parameters.txt") -> dget d f <> None) ->
  dget d "19_parameters.txt" = Some c ->
  let s := {| s_name := None; s_cut := PInf; s_reports := []; s_crash := Some (RDiff [Fin 1] (Fin 1), {| full := 0; chars := 3 |}) |} in
  let s' := {| s_name := None; s_cut := PInf; s_reports := [RDiff [Fin 2] (Fin 1)]; s_crash := None |} in
  dget (history ex_header ex_line d [s; s']) "19_parameters.txt" = Some ((c ++ "new") ++ ex_line 0 (RDiff [Fin 2] (Fin 1))).
Proof.
  intros d c HT HC. cbn zeta. unfold history. cbn [fold_left].
  assert (HFN : forall d last l, (forall i, In i l -> dget d (i ++ "_" ++ "parameters.txt") <> None) ->
            free_name d "parameters.txt" last l = List.last (map (fun i => i ++ "_" ++ "parameters.txt") l) last).
  { clear. intros d last l. revert last. induction l as [|i l IH]; intros last H; [reflexivity|]. cbn [free_name map].
    pose proof (H i (or_introl eq_refl)) as Hi. unfold exists_file, dmem. destruct (dget d (i ++ "_" ++ "parameters.txt")); [|congruence].
    rewrite IH by (intros; apply H; right; assumption). symmetry. apply last_cons. }
  assert (HCH : forall d, (forall f, In f (tried "parameters.txt") -> dget d f <> None) -> choose_file d None = "19_parameters.txt").
  { intros d0 H0. unfold choose_file, exists_file, dmem. pose proof (H0 _ (or_introl eq_refl)) as Hp. destruct (dget d0 "parameters.txt"); [|congruence].
    rewrite HFN; [reflexivity|]. intros i Hi. apply H0. right. apply in_map_iff. eauto. }
  unfold run_session at 2. cbn [s_name s_cut s_reports s_crash reports]. rewrite (HCH d HT).
  unfold report_prims. cbn [passes nlt]. unfold exists_file, dmem. rewrite HC. cbn [app]. unfold exec_crash. cbn [full firstn fold_left nth_error chars exec]. rewrite HC.
  set (d1 := dset d _ _).
  assert (HT1 : forall f, In f (tried "parameters.txt") -> dget d1 f <> None).
  { intros f Hf. unfold d1. destruct (String.eqb_spec "19_parameters.txt" f) as [<-|Hn]; [rewrite dget_dset_same; discriminate|].
    rewrite dget_dset_other by exact Hn. apply HT, Hf. }
  unfold run_session. cbn [s_name s_cut s_reports s_crash reports]. rewrite (HCH d1 HT1).
  unfold report_prims. cbn [passes nlt]. unfold exists_file, dmem. unfold d1 at 1 2. rewrite dget_dset_same. cbn [app fold_left exec].
  rewrite dget_dset_same. unfold d1. rewrite dget_dset_same. reflexivity.
Qed.
Print Assumptions C59_line_continued_refuted.

(** C59 fails for two fits in one directory: each looks for the file before it creates it, and one that
    looked before the other has written empties the file with the other's results. *)
Theorem C59_two_processes_refuted : forall header line d cut r1 r2 p1 p2 file,
  dget d file = None -> passes cut r1 = Some true -> passes cut r2 = Some true ->
  report_prims header line d cut file 0 r1 = Ok p1 ->
  report_prims header line d cut file 0 r2 = Ok p2 ->
  (* the second fit writes, then the first one, which looked at the same directory *)
  dget (fold_left exec p2 d) file = Some (header r2 ++ line 0 r2) /\
  dget (fold_left exec p1 (fold_left exec p2 d)) file = Some (header r1 ++ line 0 r1).
Proof.
  intros header line d cut r1 r2 p1 p2 file Hd H1 H2. unfold report_prims. rewrite H1, H2. unfold exists_file, dmem. rewrite Hd.
  intros E1 E2. injection E1 as <-. injection E2 as <-. cbn [app fold_left exec]. rewrite !dget_dset_same. split; reflexivity.
Qed.
Print Assumptions C59_two_processes_refuted.

Example C59_example :
  let d := [("parameters.txt", "old"); ("0_parameters.txt", "older")] in
  let s := {| s_name := None; s_cut := Fin 5; s_reports := [RBasin [Fin 1] (Fin 3) false; RBasin [Fin 2] (Fin 9) false; RBasin [Fin 3] (Fin 9) true]; s_crash := None |} in
  Forall understood (s_reports s) /\
  history ex_header ex_line d [s] = [("parameters.txt", "old"); ("0_parameters.txt", "older");
     ("1_parameters.txt", ex_header ROther ++ ex_line 0 ROther ++ ex_line 2 ROther)].
Proof. split; [repeat constructor; discriminate|vm_compute; reflexivity]. Qed.
