(** Proofs about the SAFT-gamma-SW formulas: averages, derivatives, absent components. *)
From Coq Require Import Reals Lra Lia DecimalString DecimalNat.
From Coquelicot Require Import Coquelicot.
From Verif Require Import Base BaseFacts RSum IOModel EosToolboxModel EosToolboxProofs CombiningModel
  SaftToolboxModel SwModel.
Open Scope R_scope.

Lemma nat_str_inj i j : nat_str i = nat_str j -> i = j.
Proof.
  assert (H : forall k, exists d, NilZero.uint_of_string (nat_str k) = Some d /\ Nat.of_uint d = k).
  { intros k. unfold nat_str. destruct (Decimal.uint_eq_dec (Nat.to_uint k) Decimal.Nil) as [E|E].
    - rewrite E. exists (Decimal.D0 Decimal.Nil). split; [reflexivity|].
      pose proof (Unsigned.of_to k) as O. rewrite E in O. exact O.
    - exists (Nat.to_uint k). split; [apply NilZero.usu; exact E|apply Unsigned.of_to]. }
  intros E. destruct (H i) as [d [D1 D2]], (H j) as [d' [D1' D2']]. rewrite E in D1. congruence.
Qed.

Lemma dget_dummy n ps i : (i < n)%nat ->
  dget (dummy_library n ps) (nat_str i) = Some (map (fun pf => (fst pf, snd pf i)) ps).
Proof.
  intros Hi. unfold dummy_library.
  assert (G : forall l, In i l -> dget (map (fun i => (nat_str i, map (fun pf : string * (nat -> R) => (fst pf, snd pf i)) ps)) l) (nat_str i)
      = Some (map (fun pf => (fst pf, snd pf i)) ps)).
  { induction l as [|a l IH]; intros Hin; [destruct Hin|]. cbn [map dget].
    destruct (String.eqb_spec (nat_str i) (nat_str a)) as [E|E].
    - apply nat_str_inj in E. subst a. reflexivity.
    - apply IH. destruct Hin as [->|Hin]; [congruence|exact Hin]. }
  apply G. apply in_seq. lia.
Qed.

(** the diagonal of the matrices holds the bead values, whatever the rules *)
Lemma cross_diag V (zero : V) rule beads lib keys cl m :
  cross_interaction_from_dict V zero rule beads lib keys cl = Ok m ->
  forall key k b, In key keys -> nth_error beads k = Some b ->
  exists bd, dget lib b = Some bd /\ dget bd key = Some (m key k k).
Proof.
  intros H. unfold cross_interaction_from_dict in H.
  destruct (set_diagonals V zero beads lib keys) as [m0|] eqn:D; cbn [rbind] in H; [|discriminate].
  destruct (diagonals_spec V zero rule beads lib keys m0 D) as [_ D2].
  assert (E : forall key k, m key k k = m0 key k k).
  { revert H. apply (foldM_inv (fun mm => forall key k, mm key k k = m0 key k k)); [reflexivity|].
    intros acc [i j] acc' Hin A. apply upper_pairs_In in Hin. cbn [fst snd].
    apply (foldM_inv (fun mm => forall key k, mm key k k = m0 key k k)); [exact A|].
    clear acc acc' A. intros acc key acc' _ A H. unfold pair_entry in H.
    destruct (nth_error beads i) as [bi|]; [|discriminate]. destruct (nth_error beads j) as [bj|]; [|discriminate].
    assert (U : forall mm key' v a b, (a = i /\ b = j) \/ (a = j /\ b = i) -> (forall key k, mm key k k = m0 key k k) ->
                forall key k, mset V mm key' a b v key k k = m0 key k k).
    { intros mm key' v a b Hab Hm key1 k. rewrite mset_other; [apply Hm|]. lia. }
    match type of H with rbind ?X _ = _ => destruct X as [m1|] eqn:E1; cbn [rbind] in H; [|discriminate] end.
    injection H as <-. apply U; [right; split; reflexivity|].
    destruct (cross_get cl bi bj key); [injection E1 as <-; apply U; auto|].
    destruct (cross_get cl bj bi key); [injection E1 as <-; apply U; auto|].
    destruct (let* bd1 := dfetch lib bi in let* bd2 := dfetch lib bj in rule key bd1 bd2) as [tmp|]; [|discriminate].
    revert E1. apply (foldM_inv (fun mm => forall key k, mm key k k = m0 key k k)); [exact A|].
    intros a [k v] a' _ Ha. unfold write_rule. cbn [fst snd]. destruct (smem k keys); [|discriminate].
    intros E; injection E as <-. apply U; [right; auto|]. apply U; [left; auto|]. exact Ha. }
  intros key k b Hk Hb. destruct (D2 k b key Hk Hb) as [bd [L F]]. exists bd. split; [exact L|]. rewrite E. exact F.
Qed.

Lemma averaged_diag mapsci rules n m nu V Sk mats avg :
  averaged mapsci rules n m nu V Sk mats = Ok avg -> forall i, (i < n)%nat ->
  avg "sigma"%string i i = sigma_ii m nu V Sk (mats "sigma"%string) i /\
  avg "lambda"%string i i = mean_ii m nu V Sk (mats "lambda"%string) i /\
  avg "epsilon"%string i i = mean_ii m nu V Sk (mats "epsilon"%string) i.
Proof.
  intros H i Hi. unfold averaged in H.
  assert (L : nth_error (dummy_labels n) i = Some (nat_str i)).
  { unfold dummy_labels. apply map_nth_error. rewrite nth_error_nth' with (d := O) by (rewrite seq_length; exact Hi).
    rewrite seq_nth by exact Hi. reflexivity. }
  pose proof (cross_diag R 0 _ _ _ _ _ _ H) as D.
  assert (Get : forall key, In key sw_keys -> exists bd, dget _ (nat_str i) = Some bd /\ dget bd key = Some (avg key i i))
    by (intros key Hk; exact (D key i (nat_str i) Hk L)).
  clear D H. repeat split.
  - destruct (Get "sigma"%string) as [bd [A B]]; [cbn; tauto|]. rewrite dget_dummy in A by exact Hi.
    injection A as <-. cbn [map dget fst snd String.eqb Ascii.eqb Bool.eqb] in B. congruence.
  - destruct (Get "lambda"%string) as [bd [A B]]; [cbn; tauto|]. rewrite dget_dummy in A by exact Hi.
    injection A as <-. cbn [map dget fst snd String.eqb Ascii.eqb Bool.eqb] in B. congruence.
  - destruct (Get "epsilon"%string) as [bd [A B]]; [cbn; tauto|]. rewrite dget_dummy in A by exact Hi.
    injection A as <-. cbn [map dget fst snd String.eqb Ascii.eqb Bool.eqb] in B. congruence.
Qed.

(** ** Group fractions of a molecule *)
Section Fractions.
  Variables (m : nat) (nu : nat -> nat -> R) (V Sk : nat -> R) (i : nat).
  Hypothesis Hnu : forall k, (k < m)%nat -> 0 <= nu i k.
  Hypothesis HV : forall k, (k < m)%nat -> 0 < V k /\ 0 < Sk k.
  Hypothesis Hex : exists k, (k < m)%nat /\ 0 < nu i k.
  Notation z := (zki m nu V Sk i).

  Lemma zden_pos : 0 < sumn m (fun l => nu i l * V l * Sk l).
  Proof.
    destruct Hex as [k [Hk Pk]]. apply (sumn_pos m _ k).
    - intros l Hl. destruct (HV l Hl). apply Rmult_le_pos; [apply Rmult_le_pos|]; auto; lra.
    - exact Hk.
    - destruct (HV k Hk). apply Rmult_lt_0_compat; [apply Rmult_lt_0_compat|]; assumption.
  Qed.
  Lemma zki_nonneg k : (k < m)%nat -> 0 <= z k.
  Proof.
    intros Hk. unfold zki. destruct (HV k Hk). apply Rmult_le_pos.
    - apply Rmult_le_pos; [apply Rmult_le_pos|]; auto; lra.
    - left. apply Rinv_0_lt_compat. exact zden_pos.
  Qed.
  Lemma zki_sum : sumn m z = 1.
  Proof.
    unfold zki. unfold Rdiv. rewrite (sumn_scal_r m (/ sumn m (fun l => nu i l * V l * Sk l)) (fun k => nu i k * V k * Sk k)).
    apply Rinv_r. pose proof zden_pos. lra.
  Qed.
  Lemma zki_absent k : nu i k = 0 -> z k = 0.
  Proof. intros E. unfold zki. rewrite E. unfold Rdiv. ring. Qed.

  Lemma weighted_between (f : nat -> R) lo hi :
    (forall k, (k < m)%nat -> nu i k <> 0 -> lo <= f k <= hi) -> lo <= sumn m (fun k => z k * f k) <= hi.
  Proof.
    intros H. assert (T : forall k, (k < m)%nat -> z k * lo <= z k * f k <= z k * hi).
    { intros k Hk. destruct (Req_EM_T (nu i k) 0) as [E|E].
      - rewrite (zki_absent k E). lra.
      - pose proof (zki_nonneg k Hk). destruct (H k Hk E). split; apply Rmult_le_compat_l; assumption. }
    split.
    - replace lo with (sumn m (fun k => z k * lo)) by (rewrite sumn_scal_r, zki_sum; ring).
      apply sumn_le. intros k Hk. apply T; exact Hk.
    - replace hi with (sumn m (fun k => z k * hi)) by (rewrite sumn_scal_r, zki_sum; ring).
      apply sumn_le. intros k Hk. apply T; exact Hk.
  Qed.

  Lemma mean_between (e : nat -> nat -> R) lo hi :
    (forall k l, (k < m)%nat -> (l < m)%nat -> nu i k <> 0 -> nu i l <> 0 -> lo <= e k l <= hi) ->
    lo <= mean_ii m nu V Sk e i <= hi.
  Proof.
    intros H. unfold mean_ii.
    rewrite (sumn_ext m _ (fun k => z k * sumn m (fun l => z l * e k l))).
    2:{ intros k _. rewrite <- sumn_scal. apply sumn_ext. intros l _. ring. }
    apply weighted_between. intros k Hk Nk. apply weighted_between. intros l Hl Nl. apply H; assumption.
  Qed.

  Lemma cube_root x : 0 < x -> Rpower (x ^ 3) (1 / 3) = x.
  Proof.
    intros Hx. rewrite <- (Rpower_pow 3 x Hx). rewrite Rpower_mult.
    replace (INR 3 * (1 / 3)) with 1 by (cbn; lra). apply Rpower_1; exact Hx.
  Qed.
  Lemma cube_le a b : 0 <= a -> a <= b -> a ^ 3 <= b ^ 3.
  Proof. intros Ha Hb. apply pow_incr. split; assumption. Qed.
  Lemma sigma_between (sg : nat -> nat -> R) lo hi : 0 < lo ->
    (forall k, (k < m)%nat -> nu i k <> 0 -> lo <= sg k k <= hi) ->
    lo <= sigma_ii m nu V Sk sg i <= hi.
  Proof.
    intros Hlo H. unfold sigma_ii.
    assert (Hhi : lo <= hi). { destruct Hex as [k [Hk Pk]]. destruct (H k Hk ltac:(lra)). lra. }
    destruct (weighted_between (fun k => sg k k ^ 3) (lo ^ 3) (hi ^ 3)) as [A B].
    { intros k Hk Nk. destruct (H k Hk Nk). split; apply cube_le; lra. }
    assert (0 < lo ^ 3) by (apply pow_lt; exact Hlo).
    split.
    - rewrite <- (cube_root lo Hlo) at 1. apply Rle_Rpower_l; [lra|]. split; assumption.
    - rewrite <- (cube_root hi ltac:(lra)). apply Rle_Rpower_l; [lra|]. split; [lra|assumption].
  Qed.
End Fractions.

(** ** Derivatives *)
Lemma zeta_eff_derive l z : is_derive (zeta_eff l) z (dzeta_eff l z).
Proof.
  unfold zeta_eff, dzeta_eff. destruct (Req_EM_T l 0).
  - apply (is_derive_const (V := R_NormedModule) 0 z).
  - auto_derive; [exact I|]. ring.
Qed.
Lemma g0HS_derive e : e < 1 -> is_derive g0HS e (dg0HS e).
Proof.
  intros H. unfold g0HS, dg0HS. auto_derive; [assert (0 < 1 - e) by lra; apply pow_lt with (n := 3%nat) in H0; cbn in H0; lra|].
  field. lra.
Qed.
Lemma zeta_eff_dlambda l z : l <> 0 -> is_derive (fun x => zeta_eff x z) l (dzeta_dlambda l z).
Proof.
  intros N. apply (is_derive_ext_loc (fun l => z * ckl0 l + z * z * ckl1 l + z * z * z * ckl2 l)).
  - exists (mkposreal (Rabs l) (Rabs_pos_lt l N)). intros y Hy. cbn in Hy. unfold ball, AbsRing_ball, abs, minus, plus, opp in Hy; cbn in Hy.
    unfold zeta_eff. destruct (Req_EM_T y 0) as [E|]; [|reflexivity]. exfalso. subst y.
    replace (0 + - l) with (- l) in Hy by ring. rewrite Rabs_Ropp in Hy. lra.
  - unfold ckl0, ckl1, ckl2, dzeta_dlambda. auto_derive; [exact I|]. field.
Qed.

(** ** A component that is absent *)
Lemma sumn_pad m m' f : (m <= m')%nat -> (forall k, (m <= k)%nat -> (k < m')%nat -> f k = 0) -> sumn m' f = sumn m f.
Proof.
  intros Hm. induction Hm as [|m' Hm IH]; intros H; [reflexivity|]. cbn. rewrite IH by (intros; apply H; lia).
  rewrite (H m') by lia. ring.
Qed.
