(** C121 for bubble points: the search for a pressure bracket succeeds. *)
From Coq Require Import Lqa Lia.
From Verif Require Import Base BaseFacts Num NumFacts DensityModel PrangeModel PrangeProps PrangeFinds.
Open Scope Q_scope.

Section Bubble.
  Context {G : Type}.
  Variable liq : num -> result (bool * nat).
  Variable vapc : G -> num -> result (G * found).
  Variable well : num -> num -> result (num * num).
  Variable o : pr_opts.
  Variable draw : nat -> num.
  Variable Pl Pa Pt : Q.
  Variable v : Q -> Q.
  Hypothesis F : bubbles liq vapc Pl Pa Pt v.
  Variable mx mn tol : Q.
  Hypothesis FC : factors o mx mn.
  Hypothesis Tol : o_ptol o = Fin tol.

  Lemma falls p q : 0 < p -> 0 < q -> v q < v p -> p < q.
  Proof.
    intros Hp Hq H. destruct (Qlt_le_dec p q) as [L|L]; [exact L|]. apply Qle_lteq in L.
    destruct L as [L|L]; [pose proof (b_dec _ _ _ _ _ _ F q p Hq L)|pose proof (b_same _ _ _ _ _ _ F q p L)]; lra.
  Qed.
  Lemma sign q : 0 < v q \/ v q < 0.
  Proof. destruct (Q_dec (v q) 0) as [[H|H]|H]; [right|left|exfalso; exact (b_zero _ _ _ _ _ _ F q H)]; assumption. Qed.

  (** ** the search for the lower end, without limits *)
  Section Free.
    Hypothesis NoMin : o_Pmin o = None.
    Hypothesis NoMax : o_Pmax o = None.

    Definition Inv (s : pr_state G) : Prop := fcrit s = false /\ (exists b, pb s = Fin b /\ 0 < b).

    Lemma turn1_gas P0 P1 (s : pr_state G) q : p s = Fin q -> 0 < q -> q < Pl -> fmax s = false ->
      exists s', bubble_turn1 liq vapc o P0 P1 s = Go s' /\ fmin s' = true /\ fmax s' = false /\ fcrit s' = fcrit s /\ pa s' = Fin q /\ pb s' = pb s /\ p s' = Fin (mx * q).
    Proof.
      intros E Hq H Fx. unfold bubble_turn1. rewrite E. destruct (b_gas _ _ _ _ _ _ F q Hq H) as (l & -> & Hl). rewrite (not_liquid l Hl).
      destruct FC as (Emx & Hmx & _). unfold bubble_checks. sr. rewrite NoMin, NoMax, Emx, Fx, ?E. cbn [is_some orb andb nmul]. sr.
      rewrite Fx. cbn [andb]. sr. assert (0 < mx * q) by (apply Qmult_lt_0_compat; lra). rewrite leF by assumption.
      eexists. split; [reflexivity|]. sr. auto 10.
    Qed.
    Lemma turn1_gas_mid P0 P1 (s : pr_state G) b q : p s = Fin q -> 0 < q -> q < Pl -> fmax s = true -> pb s = Fin b -> q < b ->
      exists s', bubble_turn1 liq vapc o P0 P1 s = Go s' /\ fmin s' = true /\ fmax s' = true /\ fcrit s' = fcrit s /\ pa s' = Fin q /\ pb s' = Fin b /\
        p s' = midpoint (Fin q) (Fin b).
    Proof.
      intros E Hq H Fx B L. unfold bubble_turn1. rewrite E. destruct (b_gas _ _ _ _ _ _ F q Hq H) as (l & -> & Hl). rewrite (not_liquid l Hl).
      destruct FC as (Emx & Hmx & _). unfold bubble_checks. sr. rewrite NoMin, NoMax, Fx, ?E. cbn [is_some orb andb]. sr. rewrite Fx, B.
      destruct (mid_fin q b) as (m & Em & Hm). rewrite Em. cbn [orb andb]. rewrite (ltF m q), (ltF b m) by lra. cbn [orb andb]. sr. rewrite ?B, ?Em. rewrite leF by lra.
      eexists. split; [reflexivity|]. sr. rewrite ?B, ?Em, ?E. auto 10.
    Qed.
    Lemma turn1_break P0 P1 (s : pr_state G) q : p s = Fin q -> 0 < q -> Pl <= q -> 0 < v q ->
      exists s', bubble_turn1 liq vapc o P0 P1 s = Break s' /\ fmax s' = fmax s /\ fcrit s' = fcrit s /\ pa s' = Fin q /\ oa s' = Fin (v q) /\ pb s' = pb s.
    Proof.
      intros E Hq H Hv. unfold bubble_turn1. rewrite E. destruct (b_liq _ _ _ _ _ _ F q Hq H) as (l & -> & Hl). rewrite (is_liquid l Hl).
      destruct (b_vap _ _ _ _ _ _ F (g s) q Hq H) as (g' & f & -> & -> & Hf & -> & ->). rewrite (is_vapor _ Hf). cbn [andb negb]. rewrite (ltT _ _ Hv).
      eexists. split; [reflexivity|]. sr. rewrite ?E. auto 10.
    Qed.
    Lemma turn1_down P0 P1 (s : pr_state G) q : p s = Fin q -> 0 < q -> Pl <= q -> v q < 0 -> fmin s = false ->
      exists s', bubble_turn1 liq vapc o P0 P1 s = Go s' /\ fmin s' = false /\ fmax s' = true /\ fcrit s' = fcrit s /\ pb s' = Fin q /\ p s' = Fin (q * mn).
    Proof.
      intros E Hq H Hv Fm. unfold bubble_turn1. rewrite E. destruct (b_liq _ _ _ _ _ _ F q Hq H) as (l & -> & Hl). rewrite (is_liquid l Hl).
      destruct (b_vap _ _ _ _ _ _ F (g s) q Hq H) as (g' & f & -> & -> & Hf & -> & ->). rewrite (is_vapor _ Hf). cbn [andb negb].
      rewrite (ltF 0 (v q)), (ltT (v q) 0) by lra. destruct FC as (_ & _ & Emn & Hmn & _). assert (0 < q * mn) by (apply Qmult_lt_0_compat; lra).
      unfold bubble_checks, push_down. sr. rewrite Fm, NoMin, NoMax, Emn, ?E. cbn [is_some orb andb nmul]. sr.
      match goal with |- context [if nlt ?a ?b then _ else _] => destruct (nlt a b) end; sr; rewrite ?Fm; cbn [orb andb]; sr; rewrite leF by assumption;
        eexists; (split; [reflexivity|]); sr; rewrite ?E; auto 10.
    Qed.
    Lemma turn1_mid P0 P1 (s : pr_state G) a q : p s = Fin q -> 0 < q -> Pl <= q -> v q < 0 -> fmin s = true -> pa s = Fin a -> 0 < a -> a < q ->
      exists s', bubble_turn1 liq vapc o P0 P1 s = Go s' /\ fmin s' = true /\ fmax s' = true /\ fcrit s' = fcrit s /\ pa s' = Fin a /\ pb s' = Fin q /\
        p s' = midpoint (Fin a) (Fin q).
    Proof.
      intros E Hq H Hv Fm A Ha L. unfold bubble_turn1. rewrite E. destruct (b_liq _ _ _ _ _ _ F q Hq H) as (l & -> & Hl). rewrite (is_liquid l Hl).
      destruct (b_vap _ _ _ _ _ _ F (g s) q Hq H) as (g' & f & -> & -> & Hf & -> & ->). rewrite (is_vapor _ Hf). cbn [andb negb].
      rewrite (ltF 0 (v q)), (ltT (v q) 0) by lra.
      unfold bubble_checks. sr. rewrite Fm, NoMin, NoMax, ?E, ?A. cbn [is_some orb andb]. sr. rewrite ?Fm, ?E, ?A.
      destruct (mid_fin a q) as (m & Em & Hm). rewrite Em. cbn [orb andb]. rewrite (ltF m a), (ltF q m) by lra. cbn [orb andb]. sr. rewrite ?A, ?E, ?Em. rewrite leF by lra.
      eexists. split; [reflexivity|]. sr. rewrite ?A, ?E, ?Em. auto 10.
    Qed.

    (** what the lower search leaves: either an upper pressure that is too high, or the first one *)
    Definition left_ (P1 : Q) (s : pr_state G) : Prop :=
      fcrit s = false /\ exists a b, pa s = Fin a /\ oa s = Fin (v a) /\ 0 < a /\ Pl <= a /\ 0 < v a /\ pb s = Fin b /\ 0 < b /\
        (fmax s = true /\ v b < 0 \/ fmax s = false /\ b = P1).

    Lemma breaks P0 P1' P1 rest z (s : pr_state G) b q : p s = Fin q -> 0 < q -> Pl <= q -> 0 < v q -> fcrit s = false -> pb s = Fin b -> 0 < b ->
      (fmax s = true /\ v b < 0 \/ fmax s = false /\ b = P1) -> (2 <= rest)%nat ->
      exists s', bubble_loop1 liq vapc o P0 P1' rest z s = Ok s' /\ left_ P1 s' /\ pa s' = Fin q.
    Proof.
      intros E Hq H Hv Fc B Hb X HR. destruct rest as [|[|rest]]; try lia.
      destruct (turn1_break P0 P1' s q E Hq H Hv) as (s' & ET & Fx' & Fc' & A' & OA' & B').
      exists s'. split; [cbn [bubble_loop1]; rewrite ET; reflexivity|]. split; [|exact A']. split; [congruence|]. exists q, b. rewrite Fx', B'. auto 12.
    Qed.

    Lemma bisects_b : forall n rest z P0 P1' P1 (s : pr_state G) a b, (n + 2 <= rest)%nat -> fcrit s = false -> fmin s = true -> fmax s = true ->
      pa s = Fin a -> 0 < a -> a < Pl -> pb s = Fin b -> 0 < b -> v b < 0 -> b - a <= two n * (Pa - Pl) -> p s = midpoint (Fin a) (Fin b) ->
      exists s', bubble_loop1 liq vapc o P0 P1' rest z s = Ok s' /\ left_ P1 s'.
    Proof.
      destruct (b_low _ _ _ _ _ _ F) as (Hpa & Hl & Va).
      induction n as [|n IH]; intros [|rest] z P0 P1' P1 s a b HR Fc Fm Fx A Ha La B Hb Vb W Ep; try lia;
        destruct (mid_fin a b) as (m & Em & Hm); rewrite Em in Ep; pose proof (falls Pa b Hpa Hb ltac:(lra)) as Lb.
      - exfalso. cbn [two] in W. lra.
      - cbn [two] in W. assert (Hpos : 0 < m) by lra. destruct (Qlt_le_dec m Pl) as [L|L].
        + cbn [bubble_loop1]. destruct (turn1_gas_mid P0 P1' s b m Ep Hpos L Fx B ltac:(lra)) as (s' & -> & Fm' & Fx' & Fc' & A' & B' & P').
          rewrite Fc in Fc'. apply (IH rest (S z) P0 P1' P1 s' m b); auto; try lia; lra.
        + destruct (sign m) as [V|V].
          * destruct (breaks P0 P1' P1 (S rest) z s b m Ep Hpos L V Fc B Hb) as (s' & E' & L' & _); [left; auto|lia|]. eauto.
          * cbn [bubble_loop1]. destruct (turn1_mid P0 P1' s a m Ep Hpos L V Fm A Ha ltac:(lra)) as (s' & -> & Fm' & Fx' & Fc' & A' & B' & P').
            rewrite Fc in Fc'. apply (IH rest (S z) P0 P1' P1 s' a m); auto; try lia; lra.
    Qed.

    (** lowering the pressure *)
    Lemma lowers : forall n z P0 P1' P1 (s : pr_state G) b q, fcrit s = false -> fmin s = false -> fmax s = true -> pb s = Fin b -> 0 < b -> v b < 0 ->
      p s = Fin q -> 0 < q -> q < b -> q - Pa <= inject_Z (Z.of_nat n) * (Pa * (1 - mn)) ->
      exists N, forall rest, (N <= rest)%nat -> exists s', bubble_loop1 liq vapc o P0 P1' rest z s = Ok s' /\ left_ P1 s'.
    Proof.
      destruct (b_low _ _ _ _ _ _ F) as (Hpa & Hl & Va). pose proof FC as (_ & _ & _ & Hmn & Hmn1).
      assert (EASY : forall z P0 P1' P1 (s : pr_state G) b q, fcrit s = false -> fmin s = false -> fmax s = true -> pb s = Fin b -> 0 < b -> v b < 0 ->
         p s = Fin q -> 0 < q -> q < b -> q < Pl \/ 0 < v q ->
         exists N, forall rest, (N <= rest)%nat -> exists s', bubble_loop1 liq vapc o P0 P1' rest z s = Ok s' /\ left_ P1 s').
      { intros z P0 P1' P1 s b q Fc Fm Fx B Hb Vb Ep Hq Lq [L|V].
        - destruct (halvings (b - q) (Pa - Pl) ltac:(lra)) as [k Hk]. exists (k + 3)%nat. intros [|rest] HR; [lia|]. cbn [bubble_loop1].
          destruct (turn1_gas_mid P0 P1' s b q Ep Hq L Fx B Lq) as (s' & -> & Fm' & Fx' & Fc' & A' & B' & P'). rewrite Fc in Fc'.
          apply (bisects_b k rest (S z) P0 P1' P1 s' q b); auto; lia.
        - destruct (Qlt_le_dec q Pl) as [L|L].
          + destruct (halvings (b - q) (Pa - Pl) ltac:(lra)) as [k Hk]. exists (k + 3)%nat. intros [|rest] HR; [lia|]. cbn [bubble_loop1].
            destruct (turn1_gas_mid P0 P1' s b q Ep Hq L Fx B Lq) as (s' & -> & Fm' & Fx' & Fc' & A' & B' & P'). rewrite Fc in Fc'.
            apply (bisects_b k rest (S z) P0 P1' P1 s' q b); auto; lia.
          + exists 2%nat. intros rest HR. destruct (breaks P0 P1' P1 rest z s b q Ep Hq L V Fc B Hb) as (s' & E' & L' & _); [left; auto|lia|]. eauto. }
      induction n as [|n IH]; intros z P0 P1' P1 s b q Fc Fm Fx B Hb Vb Ep Hq Lq M;
        (destruct (sign q) as [V|V]; [eapply EASY; eauto|]); (destruct (Qlt_le_dec q Pl) as [L|L]; [eapply EASY; eauto|]).
      - exfalso. change (inject_Z (Z.of_nat 0)) with 0 in M. pose proof (falls Pa q Hpa Hq ltac:(lra)). lra.
      - destruct (turn1_down P0 P1' s q Ep Hq L V Fm) as (s' & ET & Fm' & Fx' & Fc' & B' & P'). rewrite Fc in Fc'.
        pose proof (falls Pa q Hpa Hq ltac:(lra)) as Lpa. rewrite inject_S in M.
        assert (X : Pa * (1 - mn) <= q * (1 - mn)) by (apply Qmult_le_compat_r; lra).
        assert (Y : q * (1 - mn) == q - q * mn) by ring. assert (Z : 0 < q * mn) by (apply Qmult_lt_0_compat; lra).
        assert (W : 0 < q * (1 - mn)) by (apply Qmult_lt_0_compat; lra).
        destruct (IH (S z) P0 P1' P1 s' q (q * mn)) as [N HN]; auto; [lra|lra|].
        exists (S N). intros [|rest] HR; [lia|]. cbn [bubble_loop1]. rewrite ET. apply HN. lia.
    Qed.

    (** raising it: the first pressures give a vapor *)
    Lemma raises_b d : 0 < d -> forall n z P0 P1' P1 (s : pr_state G) a q, fcrit s = false -> fmax s = false -> pb s = Fin P1 -> 0 < P1 ->
      fmin s = true -> pa s = Fin a -> 0 < a -> a < Pl -> a < q -> p s = Fin q -> 0 < q -> d <= (mx - 1) * q -> Pl - q <= inject_Z (Z.of_nat n) * d ->
      exists N, forall rest, (N <= rest)%nat -> exists s', bubble_loop1 liq vapc o P0 P1' rest z s = Ok s' /\ left_ P1 s'.
    Proof.
      intros Hd. destruct (b_low _ _ _ _ _ _ F) as (Hpa & Hl & Va). pose proof FC as (_ & Hmx & _).
      assert (EASY : forall z P0 P1' P1 (s : pr_state G) a q, fcrit s = false -> fmax s = false -> pb s = Fin P1 -> 0 < P1 ->
         fmin s = true -> pa s = Fin a -> 0 < a -> a < Pl -> a < q -> p s = Fin q -> 0 < q -> Pl <= q ->
         exists N, forall rest, (N <= rest)%nat -> exists s', bubble_loop1 liq vapc o P0 P1' rest z s = Ok s' /\ left_ P1 s').
      { intros z P0 P1' P1 s a q Fc Fx B HP1 Fm A Ha La Laq Ep Hq L. destruct (sign q) as [V|V].
        - exists 2%nat. intros rest HR. destruct (breaks P0 P1' P1 rest z s P1 q Ep Hq L V Fc B HP1) as (s' & E' & L' & _); [right; auto|lia|]. eauto.
        - destruct (halvings (q - a) (Pa - Pl) ltac:(lra)) as [k Hk]. exists (k + 3)%nat. intros [|rest] HR; [lia|]. cbn [bubble_loop1].
          destruct (turn1_mid P0 P1' s a q Ep Hq L V Fm A Ha Laq) as (s' & -> & Fm' & Fx' & Fc' & A' & B' & P'). rewrite Fc in Fc'.
          apply (bisects_b k rest (S z) P0 P1' P1 s' a q); auto; lia. }
      induction n as [|n IH]; intros z P0 P1' P1 s a q Fc Fx B HP1 Fm A Ha La Laq Ep Hq Dq M;
        (destruct (Qlt_le_dec q Pl) as [L|L]; [|eapply EASY; eauto]).
      - exfalso. change (inject_Z (Z.of_nat 0)) with 0 in M. lra.
      - pose proof (turn1_gas P0 P1' s q Ep Hq L Fx) as (s' & ET & Fm' & Fx' & Fc' & A' & B' & P'). rewrite Fc in Fc'. rewrite B in B'.
        rewrite inject_S in M. assert (E : (mx - 1) * q == mx * q - q) by ring.
        assert (Hp' : 0 < mx * q) by (apply Qmult_lt_0_compat; lra).
        assert (D' : d <= (mx - 1) * (mx * q)). { apply Qle_trans with (1 := Dq). rewrite (Qmult_comm _ q), (Qmult_comm _ (mx * q)). apply Qmult_le_compat_r; lra. }
        destruct (IH (S z) P0 P1' P1 s' q (mx * q)) as [N HN]; auto; [lra|lra|].
        exists (S N). intros [|rest] HR; [lia|]. cbn [bubble_loop1]. rewrite ET. apply HN. lia.
    Qed.
  End Free.

  (** ** the search for the upper end *)
  Definition bubble_found (b : bracket G) : Prop := exists lo hi, brackets b lo hi /\ Pl <= lo /\ 0 < v lo /\ v hi < 0.

  Lemma upper_found z prev (s : pr_state G) b q : p s = Fin q -> 0 < q -> Pl <= q -> v q < 0 -> pb s = Fin b -> b <= q ->
    exists s', bubble_turn2 liq vapc well o draw z prev s = (Found s', prev) /\
      (if Qlt_le_dec b q then pa s' = Fin b /\ oa s' = ob s else pa s' = pa s /\ oa s' = oa s) /\ pb s' = Fin q /\ ob s' = Fin (v q).
  Proof.
    intros E Hq H Hv B L. unfold bubble_turn2. rewrite E. destruct (b_liq _ _ _ _ _ _ F q Hq H) as (l & -> & _).
    destruct (b_vap _ _ _ _ _ _ F (g s) q Hq H) as (g' & f & -> & -> & Hf & -> & ->). rewrite (is_vapor _ Hf). cbn [negb orb]. rewrite (ltT _ _ Hv).
    eexists. split; [reflexivity|]. sr. rewrite B, E. destruct (Qlt_le_dec b q) as [X|X]; [rewrite (ltT _ _ X)|rewrite (ltF _ _ X)]; sr; rewrite ?B, ?E; auto.
  Qed.

  Section Free2.
    Hypothesis NoMax : o_Pmax o = None.
    Lemma upper_up z prev (s : pr_state G) a b q : p s = Fin q -> 0 < q -> Pl <= q -> 0 < v q -> fmax s = false ->
      pa s = Fin a -> oa s = Fin (v a) -> 0 < a -> a < q -> pb s = Fin b ->
      (z = O /\ b = q /\ tol <= q - a \/ z <> O /\ b < q /\ 0 < b /\ prev = Fin (v b) /\ ob s = Fin (v b) /\ tol <= q - b) ->
      exists s' r, bubble_turn2 liq vapc well o draw z prev s = (More s', Fin (v q)) /\ fmax s' = false /\
        (pa s' = Fin (if z then a else b) /\ oa s' = Fin (v (if z then a else b))) /\ pb s' = Fin q /\ ob s' = Fin (v q) /\ p s' = Fin r /\ mx * q <= r.
    Proof.
      intros E Hq H Hv Fx A OA Ha La B Z. unfold bubble_turn2. rewrite E. destruct (b_liq _ _ _ _ _ _ F q Hq H) as (l & -> & _).
      destruct (b_vap _ _ _ _ _ _ F (g s) q Hq H) as (g' & f & -> & -> & Hf & -> & ->). rewrite (is_vapor _ Hf). cbn [negb orb]. rewrite (ltF (v q) 0) by lra.
      destruct FC as (Emx & Hmx & _ & _ & _). rewrite NoMax, Emx. cbn [is_some]. assert (Hp : 0 < mx * q) by (apply Qmult_lt_0_compat; lra).
      destruct Z as [(-> & -> & Ht)|(Hz & Lb & Hb & -> & OB & Ht)].
      - cbn [Nat.ltb Nat.leb andb]. sr. rewrite Fx, B, E, (ltF q q) by lra. sr. unfold guess. sr. rewrite A, OA, ?E.
        pose proof (b_dec _ _ _ _ _ _ F a q Ha La).
        destruct (root_fin a (v a) q (v q) La) as [t ->]; [lra|]. cbn [nmul]. destruct (nanmax_fin t (mx * q)) as [r [-> Hr]].
        unfold upper_checks, nsub. sr. rewrite A, Tol. cbn [nneg nadd nabs]. rewrite leF by lra. rewrite ltF by (rewrite Qabs_pos; lra).
        eexists. exists r. split; [reflexivity|]. sr. rewrite ?A, ?OA. repeat (split; [solve [auto]|]). exact Hr.
      - destruct z as [|z]; [contradiction|]. cbn [Nat.ltb Nat.leb andb]. sr.
        pose proof (b_dec _ _ _ _ _ _ F b q Hb Lb) as I. cbn [nmul]. rewrite (ltF ((11 # 10) * v b)) by lra.
        rewrite Fx, B, E, (ltT b q Lb). sr. unfold guess. sr. rewrite ?B, ?OB, ?E.
        destruct (root_fin b (v b) q (v q) Lb) as [t ->]; [lra|]. cbn [nmul]. destruct (nanmax_fin t (mx * q)) as [r [-> Hr]].
        unfold upper_checks, nsub. sr. rewrite ?B, Tol. cbn [nneg nadd nabs]. rewrite leF by lra. rewrite ltF by (rewrite Qabs_pos; lra).
        eexists. exists r. split; [reflexivity|]. sr. rewrite ?B, ?OB. repeat (split; [solve [auto]|]). exact Hr.
    Qed.

    Lemma found_at z prev (s : pr_state G) a b q : p s = Fin q -> 0 < q -> Pl <= q -> v q < 0 -> pa s = Fin a -> oa s = Fin (v a) -> 0 < a -> Pl <= a -> 0 < v a ->
      pb s = Fin b -> (b = q \/ b < q /\ 0 < b /\ Pl <= b /\ ob s = Fin (v b) /\ 0 < v b) ->
      forall rest, (2 <= rest)%nat -> exists br, bubble_loop2 liq vapc well o draw rest z prev s = Ok br /\ bubble_found br.
    Proof.
      intros E Hq Hl Hv A OA Ha Hla Va B Z rest HR. destruct rest as [|[|rest]]; try lia.
      destruct (upper_found z prev s b q E Hq Hl Hv B ltac:(destruct Z as [->|[]]; lra)) as (s' & ET & X & B' & OB').
      change (bubble_loop2 liq vapc well o draw (S (S rest)) z prev s) with
        (match bubble_turn2 liq vapc well o draw z prev s with (Fails e, _) => Err e | (More s0, prev0) => bubble_loop2 liq vapc well o draw (S rest) (S z) prev0 s0
         | (NotFound, _) => Ok no_bracket
         | (Found s0, _) => Ok {| br_lo := pa s0; br_hi := pb s0; br_guess := guess s0; br_global := Some (g s0) |} end). rewrite ET.
      eexists. split; [reflexivity|].
      assert (Y : exists a', pa s' = Fin a' /\ oa s' = Fin (v a') /\ 0 < a' /\ Pl <= a' /\ 0 < v a').
      { destruct (Qlt_le_dec b q) as [L|L]; destruct X as [A' OA'].
        - destruct Z as [->|(_ & Hb & Hlb & OB & Vb)]; [lra|]. exists b. rewrite A', OA', OB. auto.
        - exists a. rewrite A', OA'. auto. }
      destruct Y as (a' & A' & OA' & Ha' & Hla' & Va'). pose proof (falls a' q Ha' Hq ltac:(lra)) as L.
      exists a', q. split; [|auto]. unfold brackets, guess. cbn [br_lo br_hi br_guess]. rewrite A', OA', B', OB'. repeat (split; [solve [auto]|]).
      destruct (root_inside a' (v a') q (v q) L) as (r & -> & R1 & R2); [right; split; lra|]. exists r. split; [reflexivity|]. lra.
    Qed.

    Lemma climbs d : 0 < d -> tol <= d -> forall n z prev (s : pr_state G) a b q, pa s = Fin a -> oa s = Fin (v a) -> 0 < a -> Pl <= a -> 0 < v a -> a < q ->
      d <= (mx - 1) * q -> pb s = Fin b -> p s = Fin q -> fmax s = false -> Pt - q <= inject_Z (Z.of_nat n) * d ->
      (z = O /\ b = q /\ (tol <= q - a \/ v q < 0) \/ z <> O /\ b < q /\ 0 < b /\ Pl <= b /\ prev = Fin (v b) /\ ob s = Fin (v b) /\ 0 < v b /\ tol <= q - b) ->
      forall rest, (n + 2 <= rest)%nat -> exists br, bubble_loop2 liq vapc well o draw rest z prev s = Ok br /\ bubble_found br.
    Proof.
      intros Hd Htd. destruct (b_high _ _ _ _ _ _ F) as (Hpt & Vt). destruct FC as (_ & Hmx & _).
      induction n as [|n IH]; intros z prev s a b q A OA Ha Hla Va La Dq B Ep Fx M Z rest HR; assert (Hq : 0 < q) by lra; assert (Hlq : Pl <= q) by lra;
        (destruct (sign q) as [V|V]; [|apply (found_at z prev s a b q); auto; try lia;
           destruct Z as [(-> & -> & _)|(_ & Lb & Hb & Hlb & _ & OB & Vb & _)]; [left; reflexivity|right; auto]]).
      - exfalso. change (inject_Z (Z.of_nat 0)) with 0 in M. pose proof (falls q Pt Hq Hpt ltac:(lra)). lra.
      - assert (Z' : z = O /\ b = q /\ tol <= q - a \/ z <> O /\ b < q /\ 0 < b /\ prev = Fin (v b) /\ ob s = Fin (v b) /\ tol <= q - b).
        { destruct Z as [(-> & -> & [T|W])|(Hz & Lb & Hb & Hlb & Epv & OB & Vb & T)]; [left; auto|lra|right; auto 10]. }
        destruct (upper_up z prev s a b q Ep Hq Hlq V Fx A OA Ha La B Z') as (s' & r & ET & F' & [A' OA'] & B' & OB' & P' & Hr).
        assert (E : (mx - 1) * q == mx * q - q) by ring. assert (Hqr : q + d <= r) by lra. rewrite inject_S in M.
        set (a' := if z then a else b) in *.
        assert (H' : 0 < a' /\ Pl <= a' /\ 0 < v a' /\ a' < r).
        { subst a'. destruct Z as [(-> & -> & _)|(Hz & Lb & Hb & Hlb & _ & _ & Vb & _)]; [repeat split; try assumption; lra|].
          destruct z; [contradiction|]. repeat split; try assumption; lra. }
        destruct H' as (Ha' & Hla' & Va' & La').
        assert (Dr : d <= (mx - 1) * r). { apply Qle_trans with (1 := Dq). rewrite (Qmult_comm _ q), (Qmult_comm _ r). apply Qmult_le_compat_r; lra. }
        destruct rest as [|rest]; [lia|]. cbn [bubble_loop2]. rewrite ET.
        apply (IH (S z) (Fin (v q)) s' a' q r A' OA' Ha' Hla' Va' La' Dr B' P' F'); [lra| |lia]. right. repeat split; auto; lra.
    Qed.
  End Free2.

  Lemma bubble_success P0 P1 g0 : o_Pmin o = None -> o_Pmax o = None -> starts o P0 P1 -> 0 < P1 -> 0 < tol -> tol <= (mx - 1) * P0 ->
    (Pl <= P0 /\ P0 + tol <= P1 \/ v P1 < 0) ->
    exists N, forall maxiter, (N <= maxiter)%nat -> exists br, calc_Prange_xi liq vapc well o draw maxiter g0 = Ok br /\ bubble_found br.
  Proof.
    intros NM NX [I H0] H1 Ht Htd HS. destruct (b_low _ _ _ _ _ _ F) as (Hpa & Hl & Va). destruct (b_high _ _ _ _ _ _ F) as (Hpt & Vt).
    pose proof FC as (Emx & Hmx & _ & Hmn & Hmn1). assert (Hd : 0 < (mx - 1) * P0) by (apply Qmult_lt_0_compat; lra).
    set (s0 := {| pa := Fin P0; pb := Fin P1; oa := Fin 0; ob := Fin 0; fmin := false; fmax := false; fcrit := false;
                  fliq := false; fvap := false; obj := None; g := g0; p := Fin P0 |} : pr_state G).
    assert (L1 : exists N, forall rest, (N <= rest)%nat -> exists s', bubble_loop1 liq vapc o (Fin P0) (Fin P1) rest 0 s0 = Ok s' /\ left_ P1 s' /\
              (v P1 < 0 \/ pa s' = Fin P0)).
    { destruct (Qlt_le_dec P0 Pl) as [L|L].
      - destruct HS as [[HS _]|HS]; [lra|]. destruct (turn1_gas NM NX (Fin P0) (Fin P1) s0 P0 eq_refl H0 L eq_refl) as (s1 & ET & Fm & Fx & Fc & A & B & P').
        assert (E : (mx - 1) * P0 == mx * P0 - P0) by ring. assert (Hp : 0 < mx * P0) by (apply Qmult_lt_0_compat; lra).
        assert (D' : (mx - 1) * P0 <= (mx - 1) * (mx * P0)). { rewrite (Qmult_comm _ P0), (Qmult_comm _ (mx * P0)). apply Qmult_le_compat_r; lra. }
        destruct (archimedes (Pl - mx * P0) _ Hd) as [n Hn].
        destruct (raises_b NM NX _ Hd n 1 (Fin P0) (Fin P1) P1 s1 P0 (mx * P0)) as [N HN]; auto; [lra|].
        exists (S N). intros [|rest] HR; [lia|]. cbn [bubble_loop1]. rewrite ET. destruct (HN rest ltac:(lia)) as (s' & -> & HL). exists s'. auto.
      - destruct (sign P0) as [V|V].
        + exists 2%nat. intros rest HR. destruct (breaks (Fin P0) (Fin P1) P1 rest 0 s0 P1 P0) as (s' & -> & HL & A'); auto. exists s'. auto.
        + assert (V1 : v P1 < 0).
          { destruct HS as [[_ HS]|HS]; [|exact HS]. pose proof (b_dec _ _ _ _ _ _ F P0 P1 H0 ltac:(lra)). lra. }
          destruct (turn1_down NM NX (Fin P0) (Fin P1) s0 P0 eq_refl H0 L V eq_refl) as (s1 & ET & Fm & Fx & Fc & B & P').
          assert (Y : P0 * (1 - mn) == P0 - P0 * mn) by ring. assert (Z : 0 < P0 * mn) by (apply Qmult_lt_0_compat; lra).
          assert (W : 0 < P0 * (1 - mn)) by (apply Qmult_lt_0_compat; lra). assert (W' : 0 < Pa * (1 - mn)) by (apply Qmult_lt_0_compat; lra).
          destruct (archimedes (P0 * mn - Pa) _ W') as [n Hn].
          destruct (lowers NM NX n 1 (Fin P0) (Fin P1) P1 s1 P0 (P0 * mn)) as [N HN]; auto; [lra|].
          exists (S N). intros [|rest] HR; [lia|]. cbn [bubble_loop1]. rewrite ET. destruct (HN rest ltac:(lia)) as (s' & -> & HL). exists s'. auto. }
    destruct L1 as [N HN]. destruct (archimedes (Pt - P1) _ Hd) as [n Hn]. exists (N + n + 2)%nat. intros maxiter HM.
    unfold calc_Prange_xi. rewrite I. cbn [rbind]. destruct (HN maxiter ltac:(lia)) as (s' & E' & (Fc & a & b & A & OA & Ha & Hla & Hva & B & Hb & X) & Y).
    fold s0. rewrite E'. cbn [rbind]. rewrite A, B.
    assert (Lab : a < b).
    { destruct X as [[_ Vb]|[_ ->]]; [apply falls; auto; lra|]. destruct Y as [V1|Y]; [apply falls; auto; lra|].
      rewrite Y in A. assert (P0 = a) as <- by congruence. destruct HS as [[_ HS]|HS]; [lra|apply falls; auto; lra]. }
    rewrite (leF b a Lab). sr. destruct (sign b) as [Vb|Vb].
    - destruct X as [[_ Vb']|[Fx ->]]; [lra|]. destruct Y as [V1|Y]; [lra|]. rewrite Y in A. assert (P0 = a) as <- by congruence. destruct HS as [[_ HS]|HS]; [|lra].
      assert (Dr : (mx - 1) * P0 <= (mx - 1) * P1). { rewrite (Qmult_comm _ P0), (Qmult_comm _ P1). apply Qmult_le_compat_r; lra. }
      eapply (climbs NX _ Hd Htd n 0) with (a := P0) (b := P1) (q := P1); sr; auto; [|lia]. left. split; [reflexivity|]. split; [reflexivity|]. left. lra.
    - eapply found_at with (a := a) (b := b) (q := b); sr; auto; [lra|lia].
  Qed.

  (** limits given by the user around the bubble pressure are the bracket *)
  Lemma bubble_limits a b g0 maxiter : o_Pmin o = Some (Fin a) -> o_Pmax o = Some (Fin b) -> 0 < a -> Pl <= a -> 0 < v a -> 0 < b -> v b < 0 -> (2 <= maxiter)%nat ->
    exists br, calc_Prange_xi liq vapc well o draw maxiter g0 = Ok br /\ brackets br a b.
  Proof.
    intros NM NX Ha Hla Va Hb Vb HM. pose proof (falls a b Ha Hb ltac:(lra)) as L. unfold calc_Prange_xi, initial_range. rewrite NM, NX. cbn [rbind]. rewrite (ltF b a) by lra.
    cbn [rbind]. destruct maxiter as [|[|m]]; try lia.
    match goal with |- context [bubble_loop1 ?ll ?ww ?oo ?aa ?bb (S (S m)) 0 ?x] => destruct (turn1_break aa bb x a eq_refl Ha Hla Va) as (s' & ET & Fx & Fc & A & OA & B);
      replace (bubble_loop1 ll ww oo aa bb (S (S m)) 0 x) with (Ok s') by (cbn [bubble_loop1]; rewrite ET; reflexivity) end.
    sr. cbn [rbind]. rewrite A, B, (leF b a L). sr.
    match goal with |- context [bubble_loop2 _ _ _ _ _ _ 0 ?prev ?x] => destruct (upper_found 0 prev x b b B Hb ltac:(lra) Vb B ltac:(lra)) as (s2 & ET2 & X & B2 & OB2) end.
    destruct (Qlt_le_dec b b) as [Z|_]; [lra|]. destruct X as [A2 OA2]. sr. rewrite A in A2. rewrite OA in OA2.
    cbn [bubble_loop2]. rewrite ET2. eexists. split; [reflexivity|]. unfold brackets, guess. cbn [br_lo br_hi br_guess]. rewrite A2, OA2, B2, OB2.
    repeat (split; [solve [auto]|]). destruct (root_inside a (v a) b (v b) L) as (r & -> & R1 & R2); [right; split; lra|]. exists r. split; [reflexivity|]. lra.
  Qed.
  (** a bubble pressure below the user's minimum is refused *)
  Lemma bubble_below a g0 maxiter P1 : o_Pmin o = Some (Fin a) -> initial_range o = Ok (Fin a, P1) -> 0 < a -> Pl <= a -> v a < 0 -> (0 < maxiter)%nat ->
    calc_Prange_xi liq vapc well o draw maxiter g0 = Err ValueError.
  Proof.
    intros NM I Ha Hla Va HM. unfold calc_Prange_xi. rewrite I. cbn [rbind]. destruct maxiter as [|m]; try lia. cbn [bubble_loop1].
    match goal with |- context [bubble_turn1 ?ll ?ww ?oo ?aa ?bb ?x] => assert (ET : bubble_turn1 ll ww oo aa bb x = Raise ValueError) end; [|rewrite ET; reflexivity].
    unfold bubble_turn1. sr. destruct (b_liq _ _ _ _ _ _ F a Ha Hla) as (l & -> & Hl). rewrite (is_liquid l Hl).
    destruct (b_vap _ _ _ _ _ _ F g0 a Ha Hla) as (g' & f & -> & -> & Hf & -> & ->). rewrite (is_vapor _ Hf). cbn [andb negb].
    rewrite (ltF 0 (v a)), (ltT (v a) 0) by lra. unfold bubble_checks. sr. rewrite NM. cbn [is_some orb andb]. sr.
    destruct (mid_fin a a) as (m' & Em & Hm). rewrite ?Em. rewrite (ltF m' a), (ltF a m') by lra. cbn [orb]. rewrite andb_false_r. sr. rewrite ?Em. rewrite leF by lra.
    cbn [neqb andb]. replace (Qeq_bool a m') with true; [reflexivity|]. symmetry. apply Qeq_bool_iff. lra.
  Qed.
End Bubble.
