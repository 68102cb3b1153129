(** Properties of the saturation state (C100). *)
From Coq Require Import Lqa Lia.
From Verif Require Import Base BaseFacts Num NumFacts PhaseEqProps InnerModel SatModel InnerProps.
Open Scope Q_scope.

(** ** The limits of the search *)

(** [i] is where the pressures first rise *)
Definition rises_at (Pl : list Q) (i : nat) : Prop :=
  (exists a b, nth_error Pl i = Some a /\ nth_error Pl (S i) = Some b /\ a < b) /\
  (forall j a b, (j < i)%nat -> nth_error Pl j = Some a -> nth_error Pl (S j) = Some b -> b <= a).

Lemma first_rise_ok Pl : forall k i, (exists j, (k <= j)%nat /\ rises_at Pl (j - k)) ->
  first_rise k (fin Pl) = Ok i -> (k <= i)%nat /\ rises_at Pl (i - k).
Proof.
  induction Pl as [|a Pl IH]; intros k i (j & Lj & R) H; [discriminate|]. destruct Pl as [|b Pl]; [discriminate|].
  change (first_rise k (fin (a :: b :: Pl))) with (if nlt (Fin 0) (nsub (Fin b) (Fin a)) then Ok k else first_rise (S k) (fin (b :: Pl))) in H.
  destruct (nlt (Fin 0) (nsub (Fin b) (Fin a))) eqn:D.
  - injection H as <-. split; [lia|]. rewrite Nat.sub_diag. split; [|intros; lia]. apply nlt_fin in D. cbn in D. exists a, b. repeat split. lra.
  - apply nlt_fin_false in D. assert (b <= a) by lra.
    assert (N : j <> k).
    { intros ->. rewrite Nat.sub_diag in R. destruct R as ((x & y & Hx & Hy & L) & _). cbn in Hx, Hy. injection Hx as <-. injection Hy as <-. lra. }
    destruct (IH (S k) i) as (Li & (x & y & Hx & Hy & L) & B).
    + exists j. split; [lia|]. destruct R as ((x & y & Hx & Hy & L) & B). replace (j - k)%nat with (S (j - S k)) in * by lia.
      split; [exists x, y; auto|]. intros m x' y' Lm Hx' Hy'. apply (B (S m) x' y'); auto. lia.
    + exact H.
    + split; [lia|]. replace (i - k)%nat with (S (i - S k)) by lia. split; [exists x, y; auto|].
      intros m x' y' Lm Hx' Hy'. destruct m as [|m]; [cbn in Hx', Hy'; injection Hx' as <-; injection Hy' as <-; assumption|].
      apply (B m x' y'); auto. lia.
Qed.

Lemma first_rise_exists Pl : forall k j, rises_at Pl j -> exists i, first_rise k (fin Pl) = Ok i.
Proof.
  induction Pl as [|a Pl IH]; intros k j ((x & y & Hx & Hy & L) & B); [destruct j; discriminate|].
  destruct Pl as [|b Pl]; [destruct j as [|[|]]; discriminate|].
  change (first_rise k (fin (a :: b :: Pl))) with (if nlt (Fin 0) (nsub (Fin b) (Fin a)) then Ok k else first_rise (S k) (fin (b :: Pl))).
  destruct (nlt (Fin 0) (nsub (Fin b) (Fin a))) eqn:D; [eauto|]. apply nlt_fin_false in D.
  destruct j as [|j]; [cbn in Hx, Hy; injection Hx as <-; injection Hy as <-; lra|].
  apply (IH (S k) j). split; [exists x, y; auto|]. intros m x' y' Lm Hx' Hy'. apply (B (S m) x' y'); auto. lia.
Qed.

Lemma argmax_from_spec l : forall best ab i, (ab < i)%nat -> forall pre, length pre = i -> nth_error (pre ++ l) ab = Some best ->
  (forall j a, (j < i)%nat -> nth_error (pre ++ l) j = Some a -> a <= best) ->
  let k := argmax_from (Fin best) ab i (fin l) in
  exists m, nth_error (pre ++ l) k = Some m /\ (ab <= k)%nat /\ best <= m /\ (k = ab \/ best < m) /\ forall j a, nth_error (pre ++ l) j = Some a -> a <= m.
Proof.
  induction l as [|x l IH]; intros best ab i Lab pre Lp Hb Hm; cbn [fin map argmax_from].
  - exists best. split; [exact Hb|]. split; [lia|]. split; [lra|]. split; [auto|]. intros j a Hj. apply (Hm j a); [|exact Hj].
    assert (j < length (pre ++ []))%nat by (apply nth_error_Some; congruence). rewrite app_nil_r in H. lia.
  - assert (Ex : nth_error (pre ++ x :: l) i = Some x) by (rewrite nth_error_app2, Lp, Nat.sub_diag by lia; reflexivity).
    assert (Sp : pre ++ x :: l = (pre ++ [x]) ++ l) by now rewrite <- app_assoc.
    destruct (nlt (Fin best) (Fin x)) eqn:D; fold (fin l).
    + apply nlt_fin in D. destruct (IH x i (S i)) with (pre := pre ++ [x]) as (m & Hk & Lk & Lm & _ & Ha).
      * lia.
      * rewrite app_length. cbn. lia.
      * rewrite <- Sp. exact Ex.
      * intros j a Lj Hj. rewrite <- Sp in Hj. destruct (Nat.eq_dec j i) as [->|N]; [rewrite Ex in Hj; injection Hj as <-; lra|].
        assert (a <= best) by (apply (Hm j); [lia|exact Hj]). lra.
      * rewrite <- Sp in *. exists m. split; [exact Hk|]. split; [lia|]. split; [lra|]. split; [right; lra|exact Ha].
    + apply nlt_fin_false in D. destruct (IH best ab (S i)) with (pre := pre ++ [x]) as (m & Hk & Lk & Lm & C & Ha).
      * lia.
      * rewrite app_length. cbn. lia.
      * rewrite <- Sp. exact Hb.
      * intros j a Lj Hj. rewrite <- Sp in Hj. destruct (Nat.eq_dec j i) as [->|N]; [rewrite Ex in Hj; injection Hj as <-; lra|].
        apply (Hm j); [lia|exact Hj].
      * rewrite <- Sp in *. exists m. auto.
Qed.

Lemma nth_error_skipn {A} (l : list A) i j : nth_error (skipn i l) j = nth_error l (i + j).
Proof. revert i. induction l as [|a l IH]; intros [|i]; cbn; auto. destruct j; reflexivity. Qed.
Lemma nth_error_firstn {A} (l : list A) k j : (j < k)%nat -> nth_error (firstn k l) j = nth_error l j.
Proof. revert k j. induction l as [|a l IH]; intros [|k] [|j] H; cbn; auto; try lia. apply IH. lia. Qed.
Lemma skipn_fin l i : skipn i (fin l) = fin (skipn i l).
Proof. unfold fin. rewrite skipn_map. reflexivity. Qed.
Lemma firstn_fin l i : firstn i (fin l) = fin (firstn i l).
Proof. unfold fin. rewrite firstn_map. reflexivity. Qed.

(** C100: as soon as the pressures rise somewhere the limits exist.  The upper one is the largest pressure after the first rise, the
    lower one the smallest pressure between the two, or the smallest pressure allowed if that one is larger. *)
Theorem C100_window : forall Pl pc j, rises_at Pl j ->
  exists i low top, window (fin Pl) (Fin pc) = Ok (Fin low, Fin top) /\ rises_at Pl i /\
    (exists k, (i < k)%nat /\ nth_error Pl k = Some top /\ (forall m a, (i <= m)%nat -> nth_error Pl m = Some a -> a <= top) /\
      exists least, (exists m, (i <= m < k)%nat /\ nth_error Pl m = Some least) /\
        (forall m a, (i <= m < k)%nat -> nth_error Pl m = Some a -> least <= a) /\
        pc <= low /\ least <= low /\ (low = pc \/ low = least)).
Proof.
  intros Pl pc j R. destruct (first_rise_exists Pl 0 j R) as (i & Ei).
  destruct (first_rise_ok Pl 0 i) as (_ & Ri); [exists j; rewrite Nat.sub_0_r; split; [lia|exact R]|exact Ei|]. rewrite Nat.sub_0_r in Ri.
  pose proof Ri as ((a & b & Ha & Hb & L) & _).
  unfold window. rewrite Ei. cbn [rbind]. rewrite skipn_fin.
  assert (Sk : exists l, skipn i Pl = a :: b :: l).
  { pose proof (nth_error_skipn Pl i 0) as S0. pose proof (nth_error_skipn Pl i 1) as S1. rewrite Nat.add_0_r, Ha in S0. rewrite Nat.add_1_r, Hb in S1.
    destruct (skipn i Pl) as [|a' [|b' l]]; try discriminate. cbn in S0, S1. exists l. congruence. }
  destruct Sk as (l & Sk).
  assert (Ns : forall m, nth_error (a :: b :: l) m = nth_error Pl (i + m)) by (intros m; rewrite <- Sk; apply nth_error_skipn).
  rewrite Sk. cbn [fin map argmax]. fold (fin (b :: l)). cbn [rbind].
  destruct (argmax_from_spec (b :: l) a 0 1) with (pre := [a]) as (top & Ht & _ & Lt & C & Mt).
  { lia. } { reflexivity. } { reflexivity. }
  { intros m x Lm Hm. assert (m = 0)%nat by lia. subst m. cbn in Hm. injection Hm as <-. lra. }
  cbn [app] in *. change (Fin b :: map Fin l) with (fin (b :: l)). set (k := argmax_from (Fin a) 0 1 (fin (b :: l))) in *.
  assert (Kpos : (0 < k)%nat).
  { destruct (Nat.eq_dec k 0) as [E|N]; [|lia]. rewrite E in Ht. cbn in Ht. injection Ht as <-.
    pose proof (Mt 1%nat b eq_refl). lra. }
  assert (Et : nth_error (fin Pl) (k + i) = Some (Fin top)).
  { unfold fin. rewrite nth_error_map, Nat.add_comm, <- Ns, Ht. reflexivity. }
  rewrite Et. cbn [rbind]. change (Fin a :: fin (b :: l)) with (fin (a :: b :: l)). rewrite firstn_fin.
  assert (Ne : exists l', firstn k (a :: b :: l) = a :: l') by (destruct k; [lia|]; cbn; eauto).
  destruct Ne as (l' & Ne). unfold amin. destruct (pymin (fin (firstn k (a :: b :: l)))) as [m|] eqn:Em; [|rewrite Ne in Em; discriminate].
  destruct (pymin_In _ _ Em) as (Im & Mm). unfold fin in Im. apply in_map_iff in Im as (least & <- & Il). cbn [rbind].
  assert (Mm' : forall x, In x (firstn k (a :: b :: l)) -> least <= x).
  { intros x Hx. apply nle_fin. apply Mm; [|apply in_map; exact Hx]. apply Forall_forall. intros y Hy. apply in_map_iff in Hy as (? & <- & _). discriminate. }
  assert (Kl : (k < length (a :: b :: l))%nat) by (apply nth_error_Some; congruence).
  exists i. destruct (nlt (Fin pc) (Fin least)) eqn:D.
  - apply nlt_fin in D. exists least, top. split; [reflexivity|]. split; [exact Ri|]. exists (k + i)%nat. split; [lia|].
    split; [unfold fin in Et; rewrite nth_error_map in Et; destruct (nth_error Pl (k + i)); [injection Et as <-; reflexivity|discriminate]|].
    split; [intros m x Lm Hm; apply (Mt (m - i)%nat); rewrite Ns; replace (i + (m - i))%nat with m by lia; exact Hm|].
    exists least. split.
    { apply In_nth_error in Il as (n & Hn). exists (i + n)%nat.
      assert (Ln : (n < k)%nat). { assert (n < length (firstn k (a :: b :: l)))%nat by (apply nth_error_Some; congruence). rewrite firstn_length in H. lia. }
      split; [lia|]. rewrite nth_error_firstn in Hn by assumption. rewrite <- Ns. exact Hn. }
    split; [|repeat split; auto; lra].
    intros m x Lm Hm. apply Mm'. apply (nth_error_In _ (m - i)). rewrite nth_error_firstn by lia. rewrite Ns. replace (i + (m - i))%nat with m by lia. exact Hm.
  - apply nlt_fin_false in D. exists pc, top. split; [reflexivity|]. split; [exact Ri|]. exists (k + i)%nat. split; [lia|].
    split; [unfold fin in Et; rewrite nth_error_map in Et; destruct (nth_error Pl (k + i)); [injection Et as <-; reflexivity|discriminate]|].
    split; [intros m x Lm Hm; apply (Mt (m - i)%nat); rewrite Ns; replace (i + (m - i))%nat with m by lia; exact Hm|].
    exists least. split.
    { apply In_nth_error in Il as (n & Hn). exists (i + n)%nat.
      assert (Ln : (n < k)%nat). { assert (n < length (firstn k (a :: b :: l)))%nat by (apply nth_error_Some; congruence). rewrite firstn_length in H. lia. }
      split; [lia|]. rewrite nth_error_firstn in Hn by assumption. rewrite <- Ns. exact Hn. }
    split; [|repeat split; auto; lra].
    intros m x Lm Hm. apply Mm'. apply (nth_error_In _ (m - i)). rewrite nth_error_firstn by lia. rewrite Ns. replace (i + (m - i))%nat with m by lia. exact Hm.
Qed.

Section Sat.
  Variable vlist : list num.
  Variable fit_curve : list num -> curve.
  Variable line : list num -> num * num.
  Variable bounded : list num -> num -> num -> result num.
  Variable density : num -> num -> num -> num -> result num.
  Variable coefficients : num -> result unit.
  Variable eps : num.
  Notation saturation := (calc_saturation vlist fit_curve line bounded density coefficients eps).

(** C100: either all three values are reported or none. *)
Theorem C100_all_or_none : forall xi Pl tol pc P rl rv, saturation xi Pl tol pc = Ok (P, rl, rv) ->
  (P = NaN /\ rl = NaN /\ rv = NaN) \/
  exists low top o, window Pl pc = Ok (low, top) /\ nlt top low = false /\ bounded Pl low top = Ok P /\
    objective_saturation vlist fit_curve line P Pl = Ok o /\ nlt o tol = true /\
    densities fit_curve line density eps P (shifted Pl P) = Ok (rl, rv).
Proof.
  intros xi Pl tol pc P rl rv H. unfold calc_saturation in H.
  destruct (negb (Nat.eqb (length (filter (fun x => negb (neqb x (Fin 0))) xi)) 1)).
  { destruct (negb (Nat.eqb (length (filter (fun x => nlt (Fin (1#10)) x) xi)) 1)); discriminate. }
  destruct (Nat.ltb (length (extrema_of fit_curve Pl)) 2 || any_nan (roots_of fit_curve Pl)).
  - cbn [rbind] in H. ok H. injection H as <- <- <-. auto.
  - destruct (window Pl pc) as [(low & top)|] eqn:W; cbn [rbind] in H; [|discriminate].
    destruct (nlt top low) eqn:T; [discriminate|]. destruct (bounded Pl low top) as [s|] eqn:B; cbn [rbind] in H; [|discriminate].
    destruct (objective_saturation vlist fit_curve line s Pl) as [o|] eqn:O; cbn [rbind] in H; [|discriminate].
    destruct (nlt o tol) eqn:C.
    + destruct (densities fit_curve line density eps s (shifted Pl s)) as [(dl & dv)|] eqn:D; cbn [rbind fst snd] in H; [|discriminate].
      ok H. injection H as <- <- <-. right. exists low, top, o. auto 10.
    + cbn [rbind] in H. ok H. injection H as <- <- <-. auto.
Qed.

  (** The spline through the pressures shifted down by s encloses the area of the unshifted curve minus the rectangle. *)
  Variable area : Q -> Q -> Q.
  Definition below (Pl : list Q) (s : Q) : list num := fin (map (fun p => p - s) Pl).
  Definition faithful (Pl : list Q) : Prop :=
    (forall a b c, area a b + area b c == area a c) /\
    (forall s a b, exists q, c_integral (fit_curve (below Pl s)) (Fin a) (Fin b) = Fin q /\ q == area a b - s * (b - a)).
  Lemma below_shifted Pl s : shifted (fin Pl) (Fin s) = below Pl s.
  Proof. unfold shifted, below, fin. rewrite !map_map. reflexivity. Qed.

(** C100: a reported saturation pressure lies between the limits of the search, the densities belong to the first and the third volume at
    which the isotherm has that pressure, and the areas the isotherm encloses above and below it are equal (Maxwell) within the
    tolerance.  Three such volumes are assumed; with two the area beyond the last volume is only estimated. *)
Theorem C100_equal_area : forall xi Pl tol pc P rl rv r0 r1 r2 rest,
  faithful Pl -> (forall low top s, bounded (fin Pl) low top = Ok s -> nle low s = true /\ nle s top = true) ->
  saturation xi (fin Pl) (Fin tol) pc = Ok (Fin P, rl, rv) ->
  c_roots (fit_curve (below Pl P)) = fin (r0 :: r1 :: r2 :: rest) -> 0 < r0 -> r0 < r1 -> r1 < r2 ->
  (exists low top, window (fin Pl) pc = Ok (low, top) /\ nle low (Fin P) = true /\ nle (Fin P) top = true) /\
  (exists dl dv, rl = Fin dl /\ rv = Fin dv /\ dl * r0 == 1 /\ dv * r2 == 1 /\ dv < dl) /\
  (area r0 r2 - P * (r2 - r0)) * (area r0 r2 - P * (r2 - r0)) < tol.
Proof.
  intros xi Pl tol pc P rl rv r0 r1 r2 rest (Add & Int) Bd H Hr L0 L1 L2.
  destruct (C100_all_or_none _ _ _ _ _ _ _ H) as [(E & _)|(low & top & o & W & T & B & O & C & D)]; [discriminate|].
  assert (Hr' : roots_of fit_curve (shifted (fin Pl) (Fin P)) = fin (r0 :: r1 :: r2 :: rest)).
  { rewrite below_shifted. unfold roots_of, any_nan, below. rewrite not_nan_fin. exact Hr. }
  clear Hr. rename Hr' into Hr. rewrite below_shifted in *.
  split; [exists low, top; split; [exact W|exact (Bd _ _ _ B)]|]. split.
  - unfold densities in D. rewrite Hr in D. unfold fin in D. cbn [length map Nat.eqb rbind ndiv] in D.
    destruct (Qeq_bool r0 0) eqn:Z0; [apply Qeq_bool_iff in Z0; lra|]. destruct (Qeq_bool r2 0) eqn:Z2; [apply Qeq_bool_iff in Z2; lra|].
    injection D as <- <-. exists (1 / r0), (1 / r2). repeat split; try (field; lra).
    apply Qlt_shift_div_l; [lra|]. assert (E : 1 / r2 * r0 == r0 / r2) by (field; lra). rewrite E.
    apply Qlt_shift_div_r; lra.
  - unfold objective_saturation in O. rewrite below_shifted, Hr in O. unfold fin in O. cbn [map] in O.
    destruct (Int P r0 r1) as (q1 & E1 & Q1). destruct (Int P r1 r2) as (q2 & E2 & Q2). rewrite E1, E2 in O. cbn [nadd nmul] in O.
    injection O as <-. apply nlt_fin in C. pose proof (Add r0 r1 r2) as A.
    assert (E : q1 + q2 == area r0 r2 - P * (r2 - r0)) by (rewrite Q1, Q2; lra). rewrite <- E. exact C.
Qed.

(** C100 is false of low pressures: if the largest pressure after the first rise is below the smallest one the search allows (1 Pa unless
    another is given), a ValueError is raised although the component may have a saturation pressure. *)
Theorem C100_low_pressure_refuted : forall x Pl tol pc j, neqb x (Fin 0) = false -> rises_at Pl j ->
  (forall m a, nth_error Pl m = Some a -> (j <= m)%nat -> a < pc) ->
  (2 <= length (extrema_of fit_curve (fin Pl)))%nat -> any_nan (roots_of fit_curve (fin Pl)) = false ->
  saturation [x] (fin Pl) tol (Fin pc) = Err ValueError.
Proof.
  intros x Pl tol pc j X R Low E N. destruct (C100_window Pl pc j R) as (i & low & top & W & Ri & k & Lk & Hk & _ & least & _ & _ & Pc & _).
  assert (Eij : (j <= i)%nat).
  { destruct (Nat.le_gt_cases j i) as [|G]; [assumption|]. destruct R as (_ & B). destruct Ri as ((a & b & Ha & Hb & L) & _).
    pose proof (B i a b G Ha Hb). lra. }
  unfold calc_saturation. cbn [filter]. rewrite X. cbn [negb length Nat.eqb filter].
  assert (E' : Nat.ltb (length (extrema_of fit_curve (fin Pl))) 2 = false) by (apply Nat.ltb_ge; exact E).
  rewrite E', N. cbn [orb]. rewrite W. cbn [rbind].
  assert (T : nlt (Fin top) (Fin low) = true) by (apply nlt_fin; assert (top < pc) by (apply (Low k); [exact Hk|lia]); lra).
  rewrite T. reflexivity.
Qed.

(** C100 for mixtures: refused; and when one component dominates it is the message itself that fails. *)
Theorem C100_mixture : forall xi Pl tol pc, length (filter (fun x => negb (neqb x (Fin 0))) xi) <> 1%nat ->
  saturation xi Pl tol pc = Err (if Nat.eqb (length (filter (fun x => nlt (Fin (1#10)) x) xi)) 1 then TypeError else ValueError).
Proof.
  intros xi Pl tol pc N. unfold calc_saturation. rewrite (proj2 (Nat.eqb_neq _ _) N). cbn [negb].
  destruct (Nat.eqb (length (filter (fun x => nlt (Fin (1#10)) x) xi)) 1); reflexivity.
Qed.

(** C100 above the critical point: without two extrema nothing is reported, provided that coefficients at a pressure of NaN can be computed. *)
Theorem C100_supercritical : forall x Pl tol pc, neqb x (Fin 0) = false ->
  (length (c_extrema (fit_curve Pl)) < 2)%nat \/ any_nan Pl = true ->
  saturation [x] Pl tol pc = (let* _ := coefficients NaN in Ok (NaN, NaN, NaN)).
Proof.
  intros x Pl tol pc X H. unfold calc_saturation. cbn [filter]. rewrite X. cbn [negb length Nat.eqb filter].
  assert (B : Nat.ltb (length (extrema_of fit_curve Pl)) 2 || any_nan (roots_of fit_curve Pl) = true).
  { destruct H as [H|H].
    - assert (Nat.ltb (length (extrema_of fit_curve Pl)) 2 = true); [|now rewrite H0].
      apply Nat.ltb_lt. unfold extrema_of. rewrite firstn_length. lia.
    - unfold roots_of. rewrite H. apply orb_true_r. }
  rewrite B. reflexivity.
Qed.
End Sat.

(** ** A concrete isotherm: pressures 5, 1, 3, 0 at the volumes 1, 2, 3, 4.  Its area between two volumes is taken from a curve
    with constant mean pressure 2, which crosses 2 at 3/2, 5/2 and 7/2. *)
Definition demo_P : list Q := [5; 1; 3; 0].
Definition shift_of (l : list num) : Q := match l with Fin a :: _ => 5 - a | _ => 0 end.
Definition demo_fit (l : list num) : curve := {| c_roots := fin [3#2; 5#2; 7#2]; c_extrema := fin [2; 3];
  c_integral := fun a b => match a, b with Fin a, Fin b => Fin ((2 - shift_of l) * (b - a)) | _, _ => NaN end |}.
Definition demo_sat := calc_saturation (fin [1; 2; 3; 4]) demo_fit (fun _ => (Fin 1, Fin 1)) (fun _ _ _ => Ok (Fin 2)) (fun s _ _ _ => Ok s) (fun _ => Ok tt) (Fin (1#1000)).
Example C100_example : rises_at demo_P 1 /\
  demo_sat [Fin 1] (fin demo_P) (Fin (1#1000000)) (Fin 1) = Ok (Fin 2, Fin (2#3), Fin (2#7)) /\
  c_roots (demo_fit (below demo_P 2)) = fin [3#2; 5#2; 7#2] /\
  faithful demo_fit (fun a b => 2 * (b - a)) demo_P.
Proof.
  split; [split|]; [exists 1, 3; repeat split|intros [|j] a b L Ha Hb; [injection Ha as <-; injection Hb as <-; discriminate|lia]|].
  split; [vm_compute; reflexivity|]. split; [reflexivity|]. split; [intros; ring|].
  intros s a b. eexists. split; [reflexivity|]. cbn. ring.
Qed.
Example C100_low_pressure_example : rises_at [1#2; -1; 1#2; 0] 1 /\
  demo_sat [Fin 1] (fin [1#2; -1; 1#2; 0]) (Fin (1#1000000)) (Fin 1) = Err ValueError.
Proof.
  split; [split|]; [exists (-1), (1#2); repeat split|intros [|j] a b L Ha Hb; [injection Ha as <-; injection Hb as <-; discriminate|lia]|].
  vm_compute. reflexivity.
Qed.

Print Assumptions C100_window.
Print Assumptions C100_all_or_none.
Print Assumptions C100_equal_area.
Print Assumptions C100_low_pressure_refuted.
Print Assumptions C100_mixture.
Print Assumptions C100_supercritical.
