(** Properties of the equilibrium relations and fugacity-coefficient wrappers. *)
From Coq Require Import SpecFloat Lqa Lia.
From Verif Require Import Base BaseFacts Num NumFacts ToolboxModel PhaseEqModel.
Open Scope Q_scope.

Definition fin (l : list Q) : list num := map Fin l.
Definition qsum (l : list Q) : Q := fold_right Qplus 0 l.

(** The two phases of the relation  x_i phi_i(x) = y_i phi_i(y). *)
Definition known (phase : string) (phil phiv : list Q) : list Q := if String.eqb phase "vapor"%string then phil else phiv.
Definition wanted (phase : string) (phil phiv : list Q) : list Q := if String.eqb phase "vapor"%string then phiv else phil.

Lemma nsum_fin l : nsum (fin l) = Fin (qsum l).
Proof. induction l as [|a l IH]; [reflexivity|].
  change (nsum (fin (a :: l))) with (nadd (Fin a) (nsum (fin l))). rewrite IH. reflexivity. Qed.

Lemma not_nan_fin l : existsb is_nan (fin l) = false.
Proof. induction l; auto. Qed.

Lemma neqb_one q : neqb (Fin q) (Fin 1) = true <-> q == 1.
Proof. apply Qeq_bool_iff. Qed.

Definition quot (x a b : list Q) : list Q :=
  map (fun p => fst (fst p) * snd (fst p) / snd p) (combine (combine x a) b).

Lemma mapM_seq_shift {A B} (f : nat -> result B) (l : list A) k :
  mapM f (seq k (length l)) = mapM (fun i => f (k + i)%nat) (seq 0 (length l)).
Proof.
  revert f k. induction (length l) as [|n IH]; intros f k; [reflexivity|].
  assert (E : forall (g : nat -> result B) (s : list nat), mapM g (map S s) = mapM (fun i => g (S i)) s).
  { clear. intros g s. induction s as [|a s IH]; [reflexivity|]. cbn. now rewrite IH. }
  cbn [seq mapM]. rewrite Nat.add_0_r.
  rewrite <- (seq_shift n k), <- (seq_shift n 0), !E, (IH (fun i => f (S i)) k).
  rewrite (mapM_ext (fun i => f (k + S i)%nat) (fun i => f (S (k + i)))); [reflexivity|].
  intros i _. f_equal. lia.
Qed.

Lemma ratio_ok (xs as_ bs : list Q) :
  length as_ = length xs -> length bs = length xs -> Forall (fun b => 0 < b) bs ->
  exists ys, mapM (ratio_at (fin xs) (fin as_) (fin bs)) (seq 0 (length (fin xs))) = Ok (fin ys) /\
    Forall2 (fun y q => y == q) ys (quot xs as_ bs).
Proof.
  revert as_ bs. induction xs as [|x xs IH]; intros [|a as_] [|b bs] La Lb Fb; try discriminate.
  - exists []. split; constructor.
  - inversion Fb as [|? ? Hb Fb']; subst.
    destruct (IH as_ bs) as (ys & E & F); [cbn in *; congruence..|assumption|].
    unfold fin. cbn [map length seq mapM].
    assert (E0 : exists y, ratio_at (Fin x :: map Fin xs) (Fin a :: map Fin as_) (Fin b :: map Fin bs) 0 = Ok (Fin y) /\ y == x * a / b).
    { unfold ratio_at, at_. cbn [nth_error rbind neqb]. destruct (Qeq_bool x 0) eqn:Ex.
      - exists 0. split; [reflexivity|]. apply Qeq_bool_iff in Ex. rewrite Ex. field. lra.
      - cbn [rbind nmul ndiv]. destruct (Qeq_bool b 0) eqn:Eb; [apply Qeq_bool_iff in Eb; lra|].
        eexists; split; reflexivity. }
    destruct E0 as (y & E0 & Hy). rewrite E0. cbn [rbind].
    rewrite (mapM_seq_shift _ (map Fin xs) 1).
    rewrite (mapM_ext _ (ratio_at (fin xs) (fin as_) (fin bs))) by reflexivity.
    unfold fin in E |- *. rewrite E. exists (y :: ys). split; [reflexivity|]. constructor; assumption.
Qed.

Lemma zip_map (xs as_ bs : list Q) :
  length as_ = length xs -> length bs = length xs -> Forall (fun b => 0 < b) bs ->
  map (fun p => ndiv (fst p) (snd p)) (combine (map (fun p => nmul (fst p) (snd p)) (combine (fin xs) (fin as_))) (fin bs))
    = fin (quot xs as_ bs).
Proof.
  revert as_ bs. induction xs as [|x xs IH]; intros [|a as_] [|b bs] La Lb Fb; try discriminate; [reflexivity|].
  inversion Fb as [|? ? Hb Fb']; subst.
  change (fin (quot (x :: xs) (a :: as_) (b :: bs))) with (Fin (x * a / b) :: fin (quot xs as_ bs)).
  rewrite <- (IH as_ bs) by (cbn in *; congruence || assumption).
  cbn [fin map combine fst snd nmul ndiv]. destruct (Qeq_bool b 0) eqn:Eb; [apply Qeq_bool_iff in Eb; lra|]. reflexivity.
Qed.

Lemma zip_ok (xs as_ bs : list Q) :
  length as_ = length xs -> length bs = length xs -> Forall (fun b => 0 < b) bs ->
  (let* a := zipv nmul (fin xs) (fin as_) in zipv ndiv a (fin bs)) = Ok (fin (quot xs as_ bs)).
Proof.
  intros La Lb Fb. rewrite <- (zip_map xs as_ bs La Lb Fb). unfold zipv.
  assert (L : forall l, length (fin l) = length l) by (intros; apply map_length).
  rewrite !L, La, Nat.eqb_refl. cbn [rbind].
  rewrite map_length, combine_length, !L, La, Lb, Nat.min_id, Nat.eqb_refl. reflexivity.
Qed.

Lemma nansum_fin l : nansum (fin l) = Fin (qsum l).
Proof.
  unfold nansum. rewrite <- nsum_fin. f_equal. unfold fin. rewrite map_map. reflexivity.
Qed.

Lemma qsum_eq a b : Forall2 (fun y q => y == q) a b -> qsum a == qsum b.
Proof. induction 1; [reflexivity|]. cbn. rewrite H. unfold qsum in IHForall2. rewrite IHForall2. reflexivity. Qed.

Lemma phase_cases phase : smem phase ["vapor"%string; "liquid"%string] = true -> phase = "vapor"%string \/ phase = "liquid"%string.
Proof. intros H. apply smem_In in H. destruct H as [<-|[<-|[]]]; auto. Qed.

Lemma quot_nth xs as_ bs :
  length as_ = length xs -> length bs = length xs ->
  forall i x a b, nth_error xs i = Some x -> nth_error as_ i = Some a -> nth_error bs i = Some b ->
  nth_error (quot xs as_ bs) i = Some (x * a / b).
Proof.
  revert as_ bs. induction xs as [|x0 xs IH]; intros [|a0 as_] [|b0 bs] La Lb [|i] x a b; cbn; intros; try discriminate.
  - congruence.
  - apply IH; auto.
Qed.

Lemma Forall2_len {A B} (R : A -> B -> Prop) l1 l2 : Forall2 R l1 l2 -> length l1 = length l2.
Proof. induction 1; cbn; congruence. Qed.

Lemma Forall2_nth {A B} (R : A -> B -> Prop) l1 l2 : Forall2 R l1 l2 ->
  forall i a, nth_error l1 i = Some a -> exists b, nth_error l2 i = Some b /\ R a b.
Proof. induction 1; intros [|i] c; cbn; intros E; try discriminate; [injection E as <-; eauto|eauto]. Qed.

(** C38: for a composition summing to one and positive fugacity coefficients the new mole
    fractions satisfy the equilibrium relation component by component and are not negative,
    and the objective is their sum minus one, so it is zero exactly when they sum to one. *)
Theorem C38_trial_composition : forall phase xs phil phiv,
  phase = "vapor"%string \/ phase = "liquid"%string ->
  length phil = length xs -> length phiv = length xs ->
  Forall (fun x => 0 <= x) xs -> qsum xs == 1 ->
  Forall (fun p => 0 < p) phil -> Forall (fun p => 0 < p) phiv ->
  exists ys obj,
    calc_new_mole_fractions (fin xs) (fin phil) (fin phiv) (Some phase) = Ok (fin ys) /\
    equilibrium_objective (fin xs) (fin phil) (fin phiv) (Some phase) = Ok (Fin obj) /\
    length ys = length xs /\
    (forall i y x k w, nth_error ys i = Some y -> nth_error xs i = Some x ->
       nth_error (known phase phil phiv) i = Some k -> nth_error (wanted phase phil phiv) i = Some w ->
       0 <= y /\ y * w == x * k) /\
    obj == qsum ys - 1 /\ (obj == 0 <-> qsum ys == 1).
Proof.
  intros phase xs phil phiv Hp Ll Lv Fx Sx Fl Fv.
  assert (K : forall as_ bs, length as_ = length xs -> length bs = length xs ->
     Forall (fun p => 0 < p) as_ -> Forall (fun p => 0 < p) bs ->
     forall ys, Forall2 (fun y q => y == q) ys (quot xs as_ bs) ->
     length ys = length xs /\
     (forall i y x k w, nth_error ys i = Some y -> nth_error xs i = Some x ->
       nth_error as_ i = Some k -> nth_error bs i = Some w -> 0 <= y /\ y * w == x * k)).
  { intros as_ bs La Lb Fa Fb ys F. split.
    - rewrite (Forall2_len _ _ _ F). unfold quot. rewrite map_length, !combine_length, La, Lb, !Nat.min_id. reflexivity.
    - intros i y x k w Ey Ex Ek Ew. destruct (Forall2_nth _ _ _ F i y Ey) as (q & Eq & Hq).
      rewrite (quot_nth xs as_ bs La Lb i x k w Ex Ek Ew) in Eq. injection Eq as <-.
      rewrite Forall_forall in Fx, Fa, Fb.
      specialize (Fx x (nth_error_In _ _ Ex)). specialize (Fa k (nth_error_In _ _ Ek)). specialize (Fb w (nth_error_In _ _ Ew)).
      cbn beta in *. rewrite Hq. split.
      + apply Qle_shift_div_l; [assumption|]. nra.
      + field. lra. }
  assert (C : check_fractions (Some phase) (fin xs) (fin phil) (fin phiv) = Ok tt).
  { unfold check_fractions. rewrite nsum_fin, !not_nan_fin.
    assert (E1 : neqb (Fin (qsum xs)) (Fin 1) = true) by (now apply neqb_one). rewrite E1.
    destruct Hp as [->| ->]; reflexivity. }
  unfold calc_new_mole_fractions, equilibrium_objective. rewrite C. cbn [rbind].
  destruct Hp as [->| ->]; unfold known, wanted; cbn [String.eqb Ascii.eqb Bool.eqb].
  - destruct (ratio_ok xs phil phiv Ll Lv Fv) as (ys & E & F).
    pose proof (zip_ok xs phil phiv Ll Lv Fv) as Z.
    exists ys, (qsum (quot xs phil phiv) - 1).
    split; [exact E|]. split.
    + destruct (zipv nmul (fin xs) (fin phil)) as [a|]; [|discriminate Z]. cbn [rbind] in Z |- *. rewrite Z. cbn [rbind].
      rewrite nansum_fin. reflexivity.
    + destruct (K phil phiv Ll Lv Fl Fv ys F) as [K1 K2]. split; [exact K1|]. split; [exact K2|].
      pose proof (qsum_eq _ _ F). split; [lra|]. split; intros; lra.
  - destruct (ratio_ok xs phiv phil Lv Ll Fl) as (ys & E & F).
    pose proof (zip_ok xs phiv phil Lv Ll Fl) as Z.
    exists ys, (qsum (quot xs phiv phil) - 1).
    split; [exact E|]. split.
    + destruct (zipv nmul (fin xs) (fin phiv)) as [a|]; [|discriminate Z]. cbn [rbind] in Z |- *. rewrite Z. cbn [rbind].
      rewrite nansum_fin. reflexivity.
    + destruct (K phiv phil Lv Ll Fv Fl ys F) as [K1 K2]. split; [exact K1|]. split; [exact K2|].
      pose proof (qsum_eq _ _ F). split; [lra|]. split; intros; lra.
Qed.

(** C38, refusals: no phase, an unknown phase, fractions that do not sum to one, or an
    undefined fugacity coefficient. *)
Theorem C38_refused : forall phase x phil phiv,
  (forall ph, phase = Some ph -> ph <> "vapor"%string /\ ph <> "liquid"%string) \/
  neqb (nsum x) (Fin 1) = false \/ In NaN phil \/ In NaN phiv ->
  calc_new_mole_fractions x phil phiv phase = Err ValueError /\
  equilibrium_objective x phil phiv phase = Err ValueError.
Proof.
  intros phase x phil phiv H.
  assert (C : check_fractions phase x phil phiv = Err ValueError).
  { unfold check_fractions. destruct phase as [ph|]; [|reflexivity].
    destruct (smem ph ["vapor"%string; "liquid"%string]) eqn:Es; cbn [negb]; [|reflexivity].
    destruct (neqb (nsum x) (Fin 1)) eqn:En; cbn [negb]; [|reflexivity].
    destruct (existsb is_nan phiv) eqn:Ev; [reflexivity|].
    destruct (existsb is_nan phil) eqn:El; [reflexivity|]. exfalso.
    destruct H as [H|[H|[H|H]]].
    - destruct (H ph eq_refl) as [H1 H2]. destruct (phase_cases _ Es); contradiction.
    - discriminate.
    - assert (existsb is_nan phil = true) by (apply existsb_exists; exists NaN; auto). congruence.
    - assert (existsb is_nan phiv = true) by (apply existsb_exists; exists NaN; auto). congruence. }
  unfold calc_new_mole_fractions, equilibrium_objective. rewrite C. split; reflexivity.
Qed.

Example C38_example :
  calc_new_mole_fractions (fin [1#4; 3#4]) (fin [2; 1]) (fin [1; 1]) (Some "vapor"%string) = Ok (fin [2 # 4; 3 # 4]) /\
  equilibrium_objective (fin [1#4; 3#4]) (fin [2; 1]) (fin [1; 1]) (Some "vapor"%string) = Ok (Fin (4 # 16)).
Proof. split; reflexivity. Qed.

(** C78: in binary64 a composition that adds up to one as written can be refused: 0.7, 0.2
    and 0.1 (the floats nearest to those decimals) sum to 0.9999999999999999. *)
Definition f07 := S754_finite false 6305039478318694 (-53).
Definition f02 := S754_finite false 7205759403792794 (-55).
Definition f01 := S754_finite false 7205759403792794 (-56).
(** |m * 2^e - d| is at most half a unit in the last place *)
Definition nearest (f : spec_float) (d : Q) : Prop :=
  match f with
  | S754_finite false m e => Qabs (inject_Z (Zpos m) * Qpower 2 e - d) <= Qpower 2 (e - 1)
  | _ => False
  end.
Theorem C78_sum_check_refuted :
  exists (fs : list spec_float) (ds : list Q),
    Forall2 nearest fs ds /\ Forall (fun d => 0 < d) ds /\ qsum ds == 1 /\ sum_is_one fs = false.
Proof.
  exists [f07; f02; f01], [7#10; 2#10; 1#10].
  repeat split; repeat constructor; try (unfold nearest, f07, f02, f01; vm_compute; discriminate); vm_compute; reflexivity.
Qed.
(** The same three fractions in another order are accepted. *)
Example C78_other_order : sum_is_one [f01; f02; f07] = true /\ sum_is_one [f07; f02; f01] = false.
Proof. split; vm_compute; reflexivity. Qed.

(** C41 *)
Section C41.
  Variable vapor_density liquid_density : num -> list num -> result (num * nat).
  Variable phi : num -> num -> list num -> result (list num).
Theorem C41_vapor : forall P yi rho flag,
  vapor_density P yi = Ok (rho, flag) ->
  (flag = 4%nat -> calc_vapor_fugacity_coefficient vapor_density phi P yi = Ok (repeat (Fin 1) (length yi), Fin 0, flag)) /\
  (flag = 3%nat -> length yi = 2%nat ->
     calc_vapor_fugacity_coefficient vapor_density phi P yi = Ok (repeat NaN (length yi), rho, flag)) /\
  (flag <> 3%nat -> flag <> 4%nat ->
     calc_vapor_fugacity_coefficient vapor_density phi P yi =
       match phi P rho yi with Ok p => Ok (p, rho, flag) | Err e => Err e end).
Proof.
  intros P yi rho flag E. unfold calc_vapor_fugacity_coefficient. rewrite E. cbn [rbind].
  split; [|split].
  - intros ->. cbn. do 3 f_equal. induction yi as [|a l IH] in |- *; [reflexivity|]. cbn. f_equal. exact IH.
  - intros -> L. rewrite L. reflexivity.
  - intros H3 H4. unfold is_ideal, is_failed. apply Nat.eqb_neq in H3, H4. rewrite H3, H4.
    destruct (phi P rho yi); reflexivity.
Qed.

Theorem C41_liquid : forall P xi rho flag,
  liquid_density P xi = Ok (rho, flag) ->
  (flag = 3%nat -> length xi = 2%nat ->
     calc_liquid_fugacity_coefficient liquid_density phi P xi = Ok (repeat NaN (length xi), rho, flag)) /\
  (flag <> 3%nat ->
     calc_liquid_fugacity_coefficient liquid_density phi P xi =
       match phi P rho xi with Ok p => Ok (p, rho, flag) | Err e => Err e end).
Proof.
  intros P xi rho flag E. unfold calc_liquid_fugacity_coefficient. rewrite E. cbn [rbind].
  split.
  - intros -> L. rewrite L. reflexivity.
  - intros H3. unfold is_failed. apply Nat.eqb_neq in H3. rewrite H3. destruct (phi P rho xi); reflexivity.
Qed.
End C41.

(** C41 is false for a system that is not binary: a failed density always gives two
    undefined coefficients; and the liquid wrapper has no ideal-gas case, so with the
    ideal-gas flag it evaluates the equation of state at the undefined density. *)
Theorem C41_failed_refuted : forall vd ld phi P xi rho,
  vd P xi = Ok (rho, 3%nat) -> ld P xi = Ok (rho, 3%nat) -> length xi <> 2%nat ->
  exists pv pl, calc_vapor_fugacity_coefficient vd phi P xi = Ok (pv, rho, 3%nat) /\
                calc_liquid_fugacity_coefficient ld phi P xi = Ok (pl, rho, 3%nat) /\
                length pv <> length xi /\ length pl <> length xi.
Proof.
  intros vd ld phi P xi rho Ev El L. exists [NaN; NaN], [NaN; NaN].
  unfold calc_vapor_fugacity_coefficient, calc_liquid_fugacity_coefficient. rewrite Ev, El. cbn.
  repeat split; congruence.
Qed.
Theorem C41_liquid_ideal_refuted :
  exists ld phi P xi,
    ld P xi = Ok (NaN, 4%nat) /\
    calc_liquid_fugacity_coefficient ld phi P xi <> Ok (repeat (Fin 1) (length xi), Fin 0, 4%nat).
Proof.
  exists (fun _ _ => Ok (NaN, 4%nat)), (fun _ rho xi => Ok (map (fun _ => rho) xi)), (Fin 100), [Fin (1#2); Fin (1#2)].
  split; [reflexivity|]. cbn. discriminate.
Qed.
Example C41_example :
  calc_vapor_fugacity_coefficient (fun _ _ => Ok (NaN, 4%nat)) (fun _ _ _ => Err RuntimeError) (Fin 100) [Fin (1#3); Fin (1#3); Fin (1#3)]
    = Ok ([Fin 1; Fin 1; Fin 1], Fin 0, 4%nat).
Proof. reflexivity. Qed.

Print Assumptions C38_trial_composition.
Print Assumptions C38_refused.
Print Assumptions C78_sum_check_refuted.
Print Assumptions C41_vapor.
Print Assumptions C41_liquid.
Print Assumptions C41_failed_refuted.
Print Assumptions C41_liquid_ideal_refuted.
