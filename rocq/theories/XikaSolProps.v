(** C117: the association mass balance has exactly one solution, successive substitution converges
    to it, and how close the computed fractions are. *)
From Coq Require Import Reals Lra Psatz.
From Coquelicot Require Import Coquelicot.
From Verif Require Import Base RSum XikaModel XikaProps.
Open Scope R_scope.

Lemma one_over x : 1 / x = / x.
Proof. unfold Rdiv. apply Rmult_1_l. Qed.
(** * The map of the mass balance on functions of an index below [n] *)
Section Map.
  Variables (n : nat) (A : nat -> nat -> R).
  Hypothesis A_nonneg : forall s t, (s < n)%nat -> (t < n)%nat -> 0 <= A s t.
  Definition load (X : nat -> R) (s : nat) : R := sumn n (fun t => A s t * X t).
  Definition Fm (X : nat -> R) (s : nat) : R := / (1 + load X s).
  Definition le_n (X Y : nat -> R) : Prop := forall s, (s < n)%nat -> X s <= Y s.
  Definition pos_n (X : nat -> R) : Prop := forall s, (s < n)%nat -> 0 < X s.
  Definition nonneg_n (X : nat -> R) : Prop := forall s, (s < n)%nat -> 0 <= X s.

  Lemma sumn_mono m f g : (forall t, (t < m)%nat -> f t <= g t) -> sumn m f <= sumn m g.
  Proof.
    induction m as [|m IH]; intros H; cbn; [lra|]. pose proof (H m ltac:(lia)). assert (sumn m f <= sumn m g) by (apply IH; intros; apply H; lia). lra.
  Qed.
  Lemma load_nonneg X s : (s < n)%nat -> nonneg_n X -> 0 <= load X s.
  Proof. intros Hs HX. apply sumn_nonneg. intros t Ht. apply Rmult_le_pos; auto. Qed.
  Lemma load_mono X Y s : (s < n)%nat -> le_n X Y -> load X s <= load Y s.
  Proof. intros Hs H. apply sumn_mono. intros t Ht. apply Rmult_le_compat_l; auto. Qed.
  Lemma load_scale X Y r s : (s < n)%nat -> (forall t, (t < n)%nat -> Y t <= r * X t) -> load Y s <= r * load X s.
  Proof.
    intros Hs H. unfold load. rewrite <- sumn_scal. apply sumn_mono. intros t Ht.
    replace (r * (A s t * X t)) with (A s t * (r * X t)) by ring. apply Rmult_le_compat_l; auto.
  Qed.
  Lemma Fm_range X s : (s < n)%nat -> nonneg_n X -> 0 < Fm X s <= 1.
  Proof.
    intros Hs HX. unfold Fm. pose proof (load_nonneg X s Hs HX). split; [apply Rinv_0_lt_compat; lra|].
    apply Rle_trans with (/ 1); [apply Rinv_le_contravar; lra|rewrite Rinv_1; lra].
  Qed.
  Lemma Fm_anti X Y : nonneg_n X -> le_n X Y -> le_n (Fm Y) (Fm X).
  Proof.
    intros HX H s Hs. unfold Fm. pose proof (load_nonneg X s Hs HX). pose proof (load_mono X Y s Hs H). apply Rinv_le_contravar; lra.
  Qed.
  Lemma argmax m (f : nat -> R) : (0 < m)%nat -> exists s0, (s0 < m)%nat /\ forall s, (s < m)%nat -> f s <= f s0.
  Proof.
    induction m as [|m IH]; [lia|]. intros _. destruct m as [|m].
    - exists 0%nat. split; [lia|]. intros s Hs. replace s with 0%nat by lia. lra.
    - destruct (IH ltac:(lia)) as (s0 & H0 & M). destruct (Rle_lt_dec (f (S m)) (f s0)) as [L|L].
      + exists s0. split; [lia|]. intros s Hs. destruct (Nat.eq_dec s (S m)) as [->|]; [exact L|apply M; lia].
      + exists (S m). split; [lia|]. intros s Hs. destruct (Nat.eq_dec s (S m)) as [->|]; [lra|]. pose proof (M s ltac:(lia)). lra.
  Qed.

  (** Nearly a solution: X within a factor (1 +- delta) of F X; Y a solution; row sums at most S.
      Then X and Y agree within the factor 1 / (1 - delta (1 + S)). *)
  Lemma near X Y S delta : pos_n X -> (forall s, (s < n)%nat -> X s <= 1) -> pos_n Y ->
    (forall s, (s < n)%nat -> Y s = Fm Y s) ->
    (forall s, (s < n)%nat -> load X s <= S /\ load Y s <= S) -> 0 <= delta -> delta * (1 + S) < 1 -> 0 <= S ->
    (forall s, (s < n)%nat -> (1 - delta) * Fm X s <= X s <= (1 + delta) * Fm X s) ->
    forall s, (s < n)%nat -> (1 - delta * (1 + S)) * X s <= Y s /\ (1 - delta * (1 + S)) * Y s <= X s.
  Proof.
    intros PX X1 PY EY HS Hd Hk HS0 Hn s Hs.
    assert (n0 : (0 < n)%nat) by lia.
    destruct (argmax n (fun s => X s / Y s) n0) as (s0 & H0 & M0).
    destruct (argmax n (fun s => Y s / X s) n0) as (s1 & H1 & M1).
    set (r := X s0 / Y s0) in *. set (q := Y s1 / X s1) in *.
    assert (XY : forall t, (t < n)%nat -> X t <= r * Y t).
    { intros t Ht. specialize (M0 t Ht). pose proof (PY t Ht). apply Rmult_le_compat_r with (r := Y t) in M0; [|lra].
      replace (X t / Y t * Y t) with (X t) in M0 by (field; lra). exact M0. }
    assert (YX : forall t, (t < n)%nat -> Y t <= q * X t).
    { intros t Ht. specialize (M1 t Ht). pose proof (PX t Ht). apply Rmult_le_compat_r with (r := X t) in M1; [|lra].
      replace (Y t / X t * X t) with (Y t) in M1 by (field; lra). exact M1. }
    pose proof (PX s0 H0) as PX0. pose proof (PY s0 H0) as PY0. pose proof (PX s1 H1) as PX1. pose proof (PY s1 H1) as PY1.
    assert (Er : X s0 = r * Y s0) by (unfold r; field; lra).
    assert (Eq : Y s1 = q * X s1) by (unfold q; field; lra).
    assert (Pr : 0 < r) by (unfold r; apply Rdiv_lt_0_compat; assumption).
    assert (Pq : 0 < q) by (unfold q; apply Rdiv_lt_0_compat; assumption).
    assert (NX : nonneg_n X) by (intros t Ht; specialize (PX t Ht); lra).
    assert (NY : nonneg_n Y) by (intros t Ht; specialize (PY t Ht); lra).
    (* r (1 + load X) <= (1 + delta) (1 + q load X) *)
    assert (Ir : r * (1 + load X s0) <= (1 + delta) * (1 + q * load X s0)).
    { pose proof (proj2 (Hn s0 H0)) as U. pose proof (load_scale X Y q s0 H0 YX) as L. pose proof (load_nonneg X s0 H0 NX) as L1. pose proof (load_nonneg Y s0 H0 NY) as L2.
      pose proof (EY s0 H0) as E. unfold Fm in U, E.
      assert (E' : Y s0 * (1 + load Y s0) = 1) by (rewrite E at 1; field; lra).
      assert (U' : X s0 * (1 + load X s0) <= 1 + delta).
      { apply Rmult_le_compat_r with (r := 1 + load X s0) in U; [|lra]. replace ((1 + delta) * / (1 + load X s0) * (1 + load X s0)) with (1 + delta) in U by (field; lra). exact U. }
      rewrite Er in U'.
      assert (Z : r * (1 + load X s0) * (Y s0 * (1 + load Y s0)) <= (1 + delta) * (1 + load Y s0)).
      { replace (r * (1 + load X s0) * (Y s0 * (1 + load Y s0))) with ((r * Y s0 * (1 + load X s0)) * (1 + load Y s0)) by ring.
        apply Rmult_le_compat_r; lra. }
      rewrite E' in Z. rewrite Rmult_1_r in Z. apply Rle_trans with (1 := Z). apply Rmult_le_compat_l; lra. }
    assert (Iq : (1 - delta) * (q * (1 + load Y s1)) <= 1 + r * load Y s1).
    { pose proof (proj1 (Hn s1 H1)) as U. pose proof (load_scale Y X r s1 H1 XY) as L. pose proof (load_nonneg X s1 H1 NX) as L1. pose proof (load_nonneg Y s1 H1 NY) as L2.
      pose proof (EY s1 H1) as E. unfold Fm in U, E.
      assert (E' : Y s1 * (1 + load Y s1) = 1) by (rewrite E at 1; field; lra).
      assert (U' : 1 - delta <= X s1 * (1 + load X s1)).
      { apply Rmult_le_compat_r with (r := 1 + load X s1) in U; [|lra]. replace ((1 - delta) * / (1 + load X s1) * (1 + load X s1)) with (1 - delta) in U by (field; lra). exact U. }
      assert (Z : (1 - delta) * (q * (1 + load Y s1)) <= X s1 * (1 + load X s1) * (q * (1 + load Y s1))) by (apply Rmult_le_compat_r; [apply Rmult_le_pos; lra|exact U']).
      replace (X s1 * (1 + load X s1) * (q * (1 + load Y s1))) with ((q * X s1) * (1 + load Y s1) * (1 + load X s1)) in Z by ring.
      rewrite <- Eq, E', Rmult_1_l in Z. lra. }
    set (k := delta * (1 + S)) in *.
    (* the larger of the two ratios is at most 1 / (1 - k) *)
    assert (B : (1 - k) * r <= 1 /\ (1 - k) * q <= 1).
    { destruct (HS s0 H0) as (S1 & _). destruct (HS s1 H1) as (_ & S2).
      pose proof (load_nonneg X s0 H0 NX) as L1. pose proof (load_nonneg Y s1 H1 NY) as L2.
      assert (Dk : delta <= k) by (unfold k; nra).
      assert (kk : k = delta + delta * S) by (unfold k; ring).
      set (a := load X s0) in *. set (b := load Y s1) in *. clearbody a b k r q.
      destruct (Rle_lt_dec q r) as [C|C].
      - (* r largest *)
        assert (Z : (1 - k) * r <= 1).
        { destruct (Rle_lt_dec r 1) as [R1|R1]; [nra|].
          assert (r * (1 + a) <= (1 + delta) * (1 + r * a)) by (apply Rle_trans with (1 := Ir); apply Rmult_le_compat_l; [lra|]; nra).
          (* r <= 1 + delta + delta r a *)
          assert (r <= 1 + delta + delta * (r * a)) by nra.
          assert (r * a <= r * S) by nra.
          assert (r <= 1 + delta + delta * (r * S)) by nra.
          (* (1 - delta S) r <= 1 + delta ; (1 - delta - delta S) r <= 1 since delta r >= delta *)
          nra. }
        split; [exact Z|]. assert (0 <= 1 - k) by lra. nra.
      - assert (Z : (1 - k) * q <= 1).
        { destruct (Rle_lt_dec q 1) as [R1|R1]; [nra|].
          assert ((1 - delta) * (q * (1 + b)) <= 1 + q * b) by nra.
          assert (q <= 1 + delta * q + delta * (q * b)) by nra.
          assert (q * b <= q * S) by nra. nra. }
        split; [|exact Z]. assert (0 <= 1 - k) by lra. nra. }
    destruct B as (B1 & B2). pose proof (XY s Hs) as P1. pose proof (YX s Hs) as P2. pose proof (PX s Hs) as Q1. pose proof (PY s Hs) as Q2.
    assert (0 <= 1 - k) by lra. split.
    - apply Rle_trans with ((1 - k) * (r * Y s)); [apply Rmult_le_compat_l; lra|]. rewrite <- Rmult_assoc. nra.
    - apply Rle_trans with ((1 - k) * (q * X s)); [apply Rmult_le_compat_l; lra|]. rewrite <- Rmult_assoc. nra.
  Qed.

  Lemma row_bound : exists S, 0 <= S /\ forall X s, (forall t, (t < n)%nat -> 0 <= X t <= 1) -> (s < n)%nat -> load X s <= S.
  Proof.
    destruct n as [|m] eqn:En.
    - exists 0. split; [lra|]. intros; lia.
    - rewrite <- En in *. destruct (argmax n (fun s => sumn n (A s))) as (s0 & H0 & M); [lia|].
      exists (sumn n (A s0)). split; [apply sumn_nonneg; auto|]. intros X s HX Hs. apply Rle_trans with (sumn n (A s)); [|apply M, Hs].
      apply sumn_mono. intros t Ht. specialize (HX t Ht). pose proof (A_nonneg s t Hs Ht). nra.
  Qed.

  (** at most one solution *)
  Lemma unique X Y : pos_n X -> pos_n Y -> (forall s, (s < n)%nat -> X s = Fm X s) -> (forall s, (s < n)%nat -> Y s = Fm Y s) ->
    forall s, (s < n)%nat -> X s = Y s.
  Proof.
    intros PX PY EX EY s Hs. destruct row_bound as (S & S0 & HS).
    assert (RX : forall t, (t < n)%nat -> 0 <= X t <= 1).
    { intros t Ht. split; [left; apply PX, Ht|]. rewrite EX by exact Ht. apply Fm_range; [exact Ht|]. intros u Hu. left. apply PX, Hu. }
    assert (RY : forall t, (t < n)%nat -> 0 <= Y t <= 1).
    { intros t Ht. split; [left; apply PY, Ht|]. rewrite EY by exact Ht. apply Fm_range; [exact Ht|]. intros u Hu. left. apply PY, Hu. }
    destruct (near X Y S 0) with (s := s) as (P1 & P2); auto; try lra.
    - intros t Ht. apply RX, Ht.
    - intros t Ht. rewrite <- EX by exact Ht. lra.
  Qed.

  (** ** Successive substitution *)
  Fixpoint iterF (k : nat) (X : nat -> R) : nat -> R := match k with O => X | S k' => Fm (iterF k' X) end.
  Definition one : nat -> R := fun _ => 1.
  (** from above and from below *)
  Definition up (k : nat) := iterF (2 * k) one.
  Definition down (k : nat) := iterF (2 * k + 1) one.
  Lemma iter_range k X : (forall t, (t < n)%nat -> 0 <= X t <= 1) -> forall s, (s < n)%nat -> 0 <= iterF k X s <= 1.
  Proof.
    induction k as [|k IH]; intros HX s Hs; cbn; [apply HX, Hs|].
    destruct (Fm_range (iterF k X) s Hs) as (P & Q); [|lra]. intros t Ht. apply (IH HX t Ht).
  Qed.
  Lemma one_range t : (t < n)%nat -> 0 <= one t <= 1.
  Proof. unfold one. lra. Qed.
  Lemma up_S k : up (S k) = Fm (down k).
  Proof. unfold up, down. replace (2 * S k)%nat with (S (2 * k + 1)) by lia. reflexivity. Qed.
  Lemma down_F k : down k = Fm (up k).
  Proof. unfold up, down. replace (2 * k + 1)%nat with (S (2 * k)) by lia. reflexivity. Qed.
  Lemma up_nonneg k : nonneg_n (up k).
  Proof. intros s Hs. apply (iter_range (2 * k) one one_range s Hs). Qed.
  Lemma down_nonneg k : nonneg_n (down k).
  Proof. intros s Hs. apply (iter_range (2 * k + 1) one one_range s Hs). Qed.
  Lemma up_decr k : le_n (up (S k)) (up k).
  Proof.
    induction k as [|k IH].
    - intros s Hs. apply (iter_range 2 one one_range s Hs).
    - rewrite (up_S (S k)), (up_S k). apply Fm_anti; [apply down_nonneg|]. rewrite (down_F k), (down_F (S k)). apply Fm_anti; [apply up_nonneg|exact IH].
  Qed.
  Lemma down_incr k : le_n (down k) (down (S k)).
  Proof. rewrite (down_F k), (down_F (S k)). apply Fm_anti; [apply up_nonneg|apply up_decr]. Qed.
  Lemma down_up k : le_n (down k) (up k).
  Proof.
    induction k as [|k IH].
    - intros s Hs. apply (iter_range 1 one one_range s Hs).
    - rewrite (down_F (S k)), (up_S k). apply Fm_anti; [apply down_nonneg|].
      (* down k <= up (S k) = F (down k) : since down k = F (up k) and down k <= up k *)
      rewrite (down_F k) at 1. apply Fm_anti; [apply down_nonneg|exact IH].
  Qed.
  Lemma sandwich X : (forall t, (t < n)%nat -> 0 <= X t <= 1) ->
    forall k m, (2 * k + 1 <= m)%nat -> le_n (down k) (iterF m X) /\ le_n (iterF m X) (up k).
  Proof.
    intros HX. induction k as [|k IH]; intros m Hm.
    - destruct m as [|m]; [lia|]. split.
      + rewrite down_F. apply Fm_anti; [intros t Ht; apply (iter_range m X HX t Ht)|]. intros t Ht. apply (iter_range m X HX t Ht).
      + intros t Ht. apply (iter_range (S m) X HX t Ht).
    - destruct m as [|[|m]]; [lia|lia|].
      assert (Nn : forall j, nonneg_n (iterF j X)) by (intros j t Ht; apply (iter_range j X HX t Ht)).
      assert (U1 : forall j, (2 * k + 2 <= j)%nat -> le_n (iterF j X) (up (S k))).
      { intros [|j] Hj; [lia|]. rewrite up_S. cbn [iterF]. apply Fm_anti; [apply down_nonneg|]. apply IH. lia. }
      split; [|apply U1; lia].
      rewrite down_F. cbn [iterF]. apply Fm_anti; [apply (Nn (S m))|]. apply (U1 (S m)). lia.
  Qed.
  (** limits *)
  Lemma lim_load (Xk : nat -> nat -> R) (L : nat -> R) s : (forall t, (t < n)%nat -> is_lim_seq (fun k => Xk k t) (L t)) ->
    is_lim_seq (fun k => load (Xk k) s) (load L s).
  Proof.
    intros H. unfold load. clear A_nonneg. revert H. induction n as [|m IH]; intros H; cbn [sumn]; [apply is_lim_seq_const|].
    apply is_lim_seq_plus'; [apply IH; intros t Ht; apply H; lia|].
    apply (is_lim_seq_scal_l (fun k => Xk k m) (A s m) (L m)). apply H. lia.
  Qed.
  Lemma lim_Fm (Xk : nat -> nat -> R) (L : nat -> R) s : (s < n)%nat -> nonneg_n L -> (forall t, (t < n)%nat -> is_lim_seq (fun k => Xk k t) (L t)) ->
    is_lim_seq (fun k => Fm (Xk k) s) (Fm L s).
  Proof.
    intros Hs HL H. unfold Fm. pose proof (load_nonneg L s Hs HL).
    apply (is_lim_seq_inv (fun k => 1 + load (Xk k) s) (1 + load L s)).
    - apply is_lim_seq_plus'; [apply is_lim_seq_const|apply lim_load, H].
    - intros E. injection E as E. lra.
  Qed.
  Lemma limits : exists Y, pos_n Y /\ (forall s, (s < n)%nat -> Y s <= 1 /\ Y s = Fm Y s) /\
    (forall s, (s < n)%nat -> is_lim_seq (fun k => up k s) (Y s) /\ is_lim_seq (fun k => down k s) (Y s)).
  Proof.
    set (U := fun s => real (Lim_seq (fun k => up k s))). set (L := fun s => real (Lim_seq (fun k => down k s))).
    assert (HU : forall s, (s < n)%nat -> is_lim_seq (fun k => up k s) (U s)).
    { intros s Hs. apply Lim_seq_correct'. apply ex_finite_lim_seq_decr with (M := 0).
      - intros k. apply up_decr, Hs.
      - intros k. apply up_nonneg, Hs. }
    assert (HL : forall s, (s < n)%nat -> is_lim_seq (fun k => down k s) (L s)).
    { intros s Hs. apply Lim_seq_correct'. apply ex_finite_lim_seq_incr with (M := 1).
      - intros k. apply down_incr, Hs.
      - intros k. apply (iter_range (2 * k + 1) one one_range s Hs). }
    assert (PL : pos_n L).
    { intros s Hs. assert (D0 : 0 < down 0 s) by (rewrite down_F; apply Fm_range; [exact Hs|apply up_nonneg]).
      apply Rlt_le_trans with (1 := D0).
      assert (C := is_lim_seq_incr_compare (fun k => down k s) (L s) (HL s Hs) (fun k => down_incr k s Hs) 0%nat). exact C. }
    assert (LU : le_n L U).
    { intros s Hs. assert (C := is_lim_seq_le (fun k => down k s) (fun k => up k s) (L s) (U s) (fun k => down_up k s Hs) (HL s Hs) (HU s Hs)). exact C. }
    assert (PU : pos_n U) by (intros s Hs; pose proof (PL s Hs); pose proof (LU s Hs); lra).
    assert (EL : forall s, (s < n)%nat -> L s = Fm U s).
    { intros s Hs. assert (C : is_lim_seq (fun k => down k s) (Fm U s)).
      { apply is_lim_seq_ext with (fun k => Fm (up k) s); [intros k; rewrite down_F; reflexivity|].
        apply lim_Fm; [exact Hs| |exact HU]. intros t Ht. left. apply PU, Ht. }
      apply is_lim_seq_unique in C. assert (D := HL s Hs). apply is_lim_seq_unique in D. rewrite D in C. injection C as C. exact C. }
    assert (EU : forall s, (s < n)%nat -> U s = Fm L s).
    { intros s Hs. assert (C : is_lim_seq (fun k => up (S k) s) (Fm L s)).
      { apply is_lim_seq_ext with (fun k => Fm (down k) s); [intros k; rewrite up_S; reflexivity|].
        apply lim_Fm; [exact Hs| |exact HL]. intros t Ht. left. apply PL, Ht. }
      apply (is_lim_seq_incr_1 (fun k => up k s)) in C. apply is_lim_seq_unique in C. assert (D := HU s Hs). apply is_lim_seq_unique in D. rewrite D in C. injection C as C. exact C. }
    (* U = L *)
    assert (E : forall s, (s < n)%nat -> U s = L s).
    { intros s Hs. destruct (argmax n (fun s => U s / L s) ltac:(lia)) as (s0 & H0 & M). set (r := U s0 / L s0) in *.
      assert (UL : forall t, (t < n)%nat -> U t <= r * L t).
      { intros t Ht. specialize (M t Ht). pose proof (PL t Ht). apply Rmult_le_compat_r with (r := L t) in M; [|lra].
        replace (U t / L t * L t) with (U t) in M by (field; lra). exact M. }
      pose proof (PL s0 H0) as P0. assert (Er : U s0 = r * L s0) by (unfold r; field; lra).
      assert (NL : nonneg_n L) by (intros t Ht; left; apply PL, Ht). assert (NU : nonneg_n U) by (intros t Ht; left; apply PU, Ht).
      pose proof (load_nonneg L s0 H0 NL) as L1. pose proof (load_nonneg U s0 H0 NU) as L2. pose proof (load_scale L U r s0 H0 UL) as L3.
      pose proof (EL s0 H0) as E1. pose proof (EU s0 H0) as E2. unfold Fm in E1, E2.
      assert (E1' : L s0 * (1 + load U s0) = 1) by (rewrite E1 at 1; field; lra).
      assert (E2' : U s0 * (1 + load L s0) = 1) by (rewrite E2 at 1; field; lra).
      assert (R1 : r <= 1).
      { rewrite Er in E2'.
        (* r L (1 + lL) = L (1 + lU) so r (1 + lL) = 1 + lU <= 1 + r lL *)
        assert (Z : r * (1 + load L s0) = 1 + load U s0) by (apply Rmult_eq_reg_l with (L s0); [|lra]; lra). nra. }
      pose proof (UL s Hs). pose proof (LU s Hs). pose proof (PL s Hs). nra. }
    exists U. split; [exact PU|]. split.
    - intros s Hs. split.
      + rewrite EU by exact Hs. apply Fm_range; [exact Hs|]. intros t Ht. left. apply PL, Ht.
      + rewrite E at 1 by exact Hs. apply EL, Hs.
    - intros s Hs. split; [apply HU, Hs|]. rewrite E by exact Hs. apply HL, Hs.
  Qed.
  Lemma converges X Y : (forall t, (t < n)%nat -> 0 <= X t <= 1) -> pos_n Y -> (forall s, (s < n)%nat -> Y s = Fm Y s) ->
    forall s, (s < n)%nat -> is_lim_seq (fun k => iterF k X s) (Y s).
  Proof.
    intros HX PY EY s Hs. destruct limits as (Z & PZ & EZ & LZ).
    assert (E : Y s = Z s) by (apply unique; auto; intros t Ht; apply EZ, Ht). rewrite E.
    destruct (LZ s Hs) as (LU & LD). apply is_lim_seq_spec in LU. apply is_lim_seq_spec in LD. apply is_lim_seq_spec.
    intros eps. destruct (LU eps) as (N1 & B1). destruct (LD eps) as (N2 & B2). set (k := (N1 + N2)%nat).
    exists (2 * k + 1)%nat. intros m Hm. destruct (sandwich X HX k m Hm) as (S1 & S2). specialize (S1 s Hs). specialize (S2 s Hs).
    specialize (B1 k ltac:(unfold k; lia)). specialize (B2 k ltac:(unfold k; lia)).
    apply Rabs_def2 in B1. apply Rabs_def2 in B2. apply Rabs_def1; lra.
  Qed.
End Map.

(** * C117 *)
(** ** Specification *)
(** A list of positive fractions, one per site, that satisfies the law of mass action: each fraction is
    one over one plus the weighted number of unbonded partners. *)
Definition mass_action (sites : list site) xi nu nk (strength : site -> site -> R) (rho : R) (Y : list R) : Prop :=
  length Y = length sites /\ (forall y, In y Y -> 0 < y) /\
  forall s y, In (s, y) (combine sites Y) -> y = 1 / (1 + partners sites xi nu nk strength rho Y s).
(** [k] rounds of replacing every fraction by what the law of mass action gives with the others *)
Definition substituted (sites : list site) xi nu nk (strength : site -> site -> R) (rho : R) (k : nat) (X : list R) : list R :=
  Nat.iter k (fun X => map (fun s => 1 / (1 + partners sites xi nu nk strength rho X s)) sites) X.

(** ** Lists and functions *)
Section Lists.
  Variables (sites : list site) (xi : nat -> R) (nu nk : nat -> nat -> R) (strength : site -> site -> R) (rho : R).
  Hypothesis (Hr : 0 <= rho) (Hx : forall i, 0 <= xi i) (Hn : forall i k, 0 <= nu i k) (Hk : forall k a, 0 <= nk k a)
    (Hs : forall s t, In s sites -> In t sites -> 0 <= strength s t).
  Notation n := (length sites).
  Notation at_ := (site_at sites).
  Definition wt (t : site) : R := per_nm3 * rho * (xi (comp_of t) * nu (comp_of t) (bead_of t) * nk (bead_of t) (type_of t)).
  Definition Amat (i j : nat) : R := wt (at_ j) * strength (at_ i) (at_ j).
  Lemma at_in i : (i < n)%nat -> In (at_ i) sites.
  Proof. intros H. apply nth_In, H. Qed.
  Lemma Amat_nonneg i j : (i < n)%nat -> (j < n)%nat -> 0 <= Amat i j.
  Proof.
    intros Hi Hj. unfold Amat, wt. assert (0 < per_nm3) by (unfold per_nm3; lra).
    apply Rmult_le_pos; [|apply Hs; apply at_in; assumption]. apply Rmult_le_pos; [apply Rmult_le_pos; lra|].
    apply Rmult_le_pos; [apply Rmult_le_pos|]; auto.
  Qed.
  Lemma tot_sumn (f : nat -> R) m : tot (map f (seq 0 m)) = sumn m f.
  Proof. induction m as [|m IH]; [reflexivity|]. rewrite seq_S, map_app, tot_app, IH. cbn. lra. Qed.
  Lemma partners_load X i : length X = n -> partners sites xi nu nk strength rho X (at_ i) = load n Amat (fun j => nth j X 0) i.
  Proof.
    intros L. unfold partners, load.
    transitivity (tot (map (fun j => Amat i j * nth j X 0) (seq 0 n))); [|apply tot_sumn]. f_equal.
    rewrite <- (map_seq_combine (0, 0, 0)%nat 0 (fun (t : site) x => let '(j, l, b) := t in per_nm3 * rho * (xi j * nu j l * nk l b) * x
       * strength (at_ i) t)) by (symmetry; exact L).
    apply map_ext. intros j. unfold Amat, wt. change (nth j sites (0, 0, 0)%nat) with (at_ j).
    destruct (at_ j) as [[c l] b]. unfold comp_of, bead_of, type_of. cbn [fst snd]. ring.
  Qed.
  Lemma nth_map_sites (h : site -> R) i : (i < n)%nat -> nth i (map h sites) 0 = h (at_ i).
  Proof. intros H. rewrite (nth_indep _ 0 (h (0, 0, 0)%nat)) by (rewrite map_length; exact H). apply map_nth. Qed.
  Lemma mass_action_iff Y : length Y = n ->
    (mass_action sites xi nu nk strength rho Y <->
     pos_n n (fun j => nth j Y 0) /\ forall i, (i < n)%nat -> nth i Y 0 = Fm n Amat (fun j => nth j Y 0) i).
  Proof.
    intros L. split.
    - intros (_ & P & E). split.
      + intros i Hi. apply P, nth_In. lia.
      + intros i Hi. unfold Fm. rewrite <- partners_load by exact L. rewrite <- one_over. apply E.
        change (In (nth i sites (0, 0, 0)%nat, nth i Y 0) (combine sites Y)). rewrite <- (combine_nth sites Y i (0, 0, 0)%nat 0) by (symmetry; exact L). apply nth_In. rewrite combine_length. lia.
    - intros (P & E). split; [exact L|]. split.
      + intros y Hy. destruct (In_nth Y y 0 Hy) as (i & Hi & <-). apply P. lia.
      + intros s y Hin. destruct (In_nth _ _ ((0, 0, 0)%nat, 0) Hin) as (i & Hi & Ei). rewrite combine_length in Hi.
        rewrite combine_nth in Ei by (symmetry; exact L). injection Ei as <- <-.
        rewrite E by lia. unfold Fm. change (nth i sites (0, 0, 0)%nat) with (at_ i). rewrite partners_load by exact L. rewrite one_over. reflexivity.
  Qed.
  Lemma load_ext X Y i : (forall j, (j < n)%nat -> X j = Y j) -> load n Amat X i = load n Amat Y i.
  Proof. intros H. apply sumn_ext. intros j Hj. rewrite H by exact Hj. reflexivity. Qed.
  Lemma substituted_iterF k X : length X = n -> length (substituted sites xi nu nk strength rho k X) = n /\
    forall i, (i < n)%nat -> nth i (substituted sites xi nu nk strength rho k X) 0 = iterF n Amat k (fun j => nth j X 0) i.
  Proof.
    intros L. induction k as [|k (IH1 & IH2)]; [split; [exact L|reflexivity]|].
    unfold substituted in *. cbn [Nat.iter nat_rect] in *. cbn [iterF]. split; [apply map_length|]. intros i Hi.
    rewrite nth_map_sites by exact Hi. unfold Fm. rewrite partners_load by exact IH1. rewrite one_over. f_equal. f_equal. apply load_ext, IH2.
  Qed.
End Lists.
Lemma list_of_fun (m : nat) (f : nat -> R) : exists l, length l = m /\ forall i, (i < m)%nat -> nth i l 0 = f i.
Proof.
  exists (map f (seq 0 m)). split; [rewrite map_length; apply seq_length|]. intros i Hi.
  rewrite (nth_indep _ 0 (f 0%nat)) by (rewrite map_length, seq_length; exact Hi). rewrite map_nth, seq_nth by exact Hi. reflexivity.
Qed.

(** ** Existence and uniqueness *)
Theorem C117_one_solution : forall sites xi nu nk strength rho,
  0 <= rho -> (forall i, 0 <= xi i) -> (forall i k, 0 <= nu i k) -> (forall k a, 0 <= nk k a) ->
  (forall s t, In s sites -> In t sites -> 0 <= strength s t) ->
  exists Y, mass_action sites xi nu nk strength rho Y /\ (forall y, In y Y -> y <= 1) /\
    forall Z, mass_action sites xi nu nk strength rho Z -> Z = Y.
Proof.
  intros sites xi nu nk strength rho Hr Hx Hn Hk Hs.
  pose proof (Amat_nonneg sites xi nu nk strength rho Hr Hx Hn Hk Hs) as NA.
  destruct (limits (length sites) (Amat sites xi nu nk strength rho) NA) as (y & Py & Ey & _).
  destruct (list_of_fun (length sites) y) as (Y & LY & NY).
  assert (MY : mass_action sites xi nu nk strength rho Y).
  { apply (mass_action_iff sites xi nu nk strength rho Y LY). split.
    - intros i Hi. rewrite NY by exact Hi. apply Py, Hi.
    - intros i Hi. rewrite NY by exact Hi. rewrite (proj2 (Ey i Hi)) at 1. unfold Fm. f_equal. f_equal.
      apply load_ext. intros j Hj. symmetry. apply NY, Hj. }
  exists Y. split; [exact MY|]. split.
  - intros v Hv. destruct (In_nth Y v 0 Hv) as (i & Hi & <-). rewrite LY in Hi. rewrite NY by exact Hi. apply Ey, Hi.
  - intros Z MZ. pose proof (proj1 MZ) as LZ. apply nth_ext with 0 0; [congruence|]. intros i Hi. rewrite LZ in Hi.
    apply (mass_action_iff sites xi nu nk strength rho Y LY) in MY. apply (mass_action_iff sites xi nu nk strength rho Z LZ) in MZ.
    exact (unique (length sites) _ NA (fun j => nth j Z 0) (fun j => nth j Y 0) (proj1 MZ) (proj1 MY) (proj2 MZ) (proj2 MY) i Hi).
Qed.
Print Assumptions C117_one_solution.

(** ** Successive substitution converges to it from every start *)
Theorem C117_substitution_converges : forall sites xi nu nk strength rho X Y,
  0 <= rho -> (forall i, 0 <= xi i) -> (forall i k, 0 <= nu i k) -> (forall k a, 0 <= nk k a) ->
  (forall s t, In s sites -> In t sites -> 0 <= strength s t) ->
  length X = length sites -> (forall x, In x X -> 0 <= x <= 1) -> mass_action sites xi nu nk strength rho Y ->
  forall i, (i < length sites)%nat ->
    is_lim_seq (fun k => nth i (substituted sites xi nu nk strength rho k X) 0) (nth i Y 0).
Proof.
  intros sites xi nu nk strength rho X Y Hr Hx Hn Hk Hs LX RX MY i Hi.
  pose proof (Amat_nonneg sites xi nu nk strength rho Hr Hx Hn Hk Hs) as NA. pose proof (proj1 MY) as LY.
  apply (mass_action_iff sites xi nu nk strength rho Y LY) in MY.
  apply is_lim_seq_ext with (fun k => iterF (length sites) (Amat sites xi nu nk strength rho) k (fun j => nth j X 0) i).
  - intros k. symmetry. apply (substituted_iterF sites xi nu nk strength rho k X LX). exact Hi.
  - apply (converges (length sites) _ NA (fun j => nth j X 0) (fun j => nth j Y 0)); [|apply MY|apply MY|exact Hi].
    intros t Ht. apply RX, nth_In. lia.
Qed.
Print Assumptions C117_substitution_converges.
(** the step of the code is one such substitution *)
Theorem C117_step : forall sites xi nu nk F g K r rho X, length X = length sites ->
  py_step sites xi nu nk F g K r rho X = substituted sites xi nu nk (py_delta F g K r) rho 1 X.
Proof. intros. rewrite py_step_spec by assumption. reflexivity. Qed.
Print Assumptions C117_step.

(** ** How close the computed fractions are when the error is below the tolerance *)
Theorem C117_accuracy : forall sites xi nu nk F g K rho,
  (forall i, 0 <= xi i) -> (forall i k, 0 <= nu i k) -> (forall k a, 0 <= nk k a) ->
  (forall r p, nth_error rho r = Some p -> 0 <= p) ->
  (forall r s t, In s sites -> In t sites -> 0 <= py_delta F g K r s t) ->
  forall r p X err Y S,
    nth_error rho r = Some p -> nth_error (calc_Xika sites xi nu nk F g K rho) r = Some (X, err) -> err < 1 / 10 ^ 12 ->
    mass_action sites xi nu nk (py_delta F g K r) p Y ->
    (forall s, In s sites -> partners sites xi nu nk (py_delta F g K r) p (map (fun _ => 1) sites) s <= S) ->
    (1 + S) ^ 2 < 10 ^ 12 ->
    forall i, (i < length sites)%nat ->
      (1 - (1 + S) ^ 2 / 10 ^ 12) * nth i X 0 <= nth i Y 0 /\ (1 - (1 + S) ^ 2 / 10 ^ 12) * nth i Y 0 <= nth i X 0.
Proof.
  intros sites xi nu nk F g K rho Hx Hn Hk Hr Hd r p X err Y S Hp Hres Herr MY HS Hsmall i Hi.
  destruct (C34_fractions sites xi nu nk F g K rho Hx Hn Hk Hr Hd) as (_ & C). destruct (C r p X err Hp Hres) as (LX & RX & RE).
  specialize (RE Herr). pose proof (Hr r p Hp) as Hp0.
  set (st := py_delta F g K r) in *.
  pose proof (Amat_nonneg sites xi nu nk st p Hp0 Hx Hn Hk (Hd r)) as NA. pose proof (proj1 MY) as LY.
  apply (mass_action_iff sites xi nu nk st p Y LY) in MY. destruct MY as (PY & EY).
  set (A := Amat sites xi nu nk st p) in *. set (n := length sites) in *.
  set (x := fun j => nth j X 0). set (y := fun j => nth j Y 0) in *.
  assert (Rx : forall j, (j < n)%nat -> 0 < x j <= 1) by (intros j Hj; apply RX, nth_In; lia).
  assert (Ry : forall j, (j < n)%nat -> 0 < y j <= 1).
  { intros j Hj. split; [apply PY, Hj|]. unfold y. rewrite EY by exact Hj. apply Fm_range; [exact NA|exact Hj|]. intros t Ht. left. apply PY, Ht. }
  assert (B1 : forall z j, (forall t, (t < n)%nat -> 0 <= z t <= 1) -> (j < n)%nat -> load n A z j <= S).
  { intros z j Hz Hj. apply Rle_trans with (partners sites xi nu nk st p (map (fun _ => 1) sites) (site_at sites j)).
    - rewrite partners_load by apply map_length. apply load_mono; [exact NA|exact Hj|]. intros t Ht.
      rewrite nth_map_sites by exact Ht. apply Hz, Ht.
    - apply HS. apply nth_In, Hj. }
  assert (S0 : 0 <= S).
  { apply Rle_trans with (load n A x i); [apply load_nonneg; [exact NA|exact Hi|]; intros t Ht; left; apply Rx, Ht|].
    apply B1; [|exact Hi]. intros t Ht. pose proof (Rx t Ht). lra. }
  assert (E0 : forall j, (j < n)%nat -> Rabs (Fm n A x j - x j) <= 1 / 10 ^ 12).
  { intros j Hj. apply Rle_trans with err; [|lra]. rewrite <- RE. unfold mass_balance_error, Fm.
    assert (PL := partners_load sites xi nu nk st p X j LX). fold A n x in PL. rewrite <- PL. rewrite <- one_over.
    assert (Hin : In (site_at sites j, x j) (combine sites X)).
    { unfold x, site_at. rewrite <- (combine_nth sites X j (0, 0, 0)%nat 0) by (symmetry; exact LX). apply nth_In. rewrite combine_length. fold n. lia. }
    set (h := fun q : site * R => Rabs (1 / (1 + partners sites xi nu nk st p X (fst q)) - snd q)).
    change (h (site_at sites j, x j) <= tot (map h (combine sites X))).
    revert Hin. generalize (combine sites X) as l. intros l. induction l as [|a l IH]; intros Hin; [contradiction|].
    cbn [map]. change (tot (h a :: map h l)) with (h a + tot (map h l)).
    assert (0 <= h a) by (unfold h; apply Rabs_pos).
    assert (0 <= tot (map h l)) by (apply tot_nonneg; intros w Hw; apply in_map_iff in Hw; destruct Hw as (q & <- & _); unfold h; apply Rabs_pos).
    destruct Hin as [->|Hin]; [lra|]. specialize (IH Hin). lra. }
  set (delta := (1 + S) / 10 ^ 12).
  assert (T0 : 0 < 10 ^ 12) by (apply pow_lt; lra).
  assert (D0 : 0 <= delta) by (unfold delta; apply Rdiv_le_0_compat; lra).
  assert (Ek : delta * (1 + S) = (1 + S) ^ 2 / 10 ^ 12) by (unfold delta; field; lra).
  rewrite <- Ek. apply (near n A NA x y S delta); try assumption.
  - intros j Hj. apply Rx, Hj.
  - intros j Hj. apply Rx, Hj.
  - intros j Hj. split; apply B1; try exact Hj; intros t Ht; [pose proof (Rx t Ht)|pose proof (Ry t Ht)]; lra.
  - rewrite Ek. apply Rmult_lt_reg_r with (10 ^ 12); [exact T0|]. field_simplify; lra.
  - intros j Hj. specialize (E0 j Hj). apply Rabs_le_between in E0.
    assert (Fl : 1 / 10 ^ 12 <= delta * Fm n A x j).
    { unfold Fm, delta. assert (0 <= load n A x j) by (apply load_nonneg; [exact NA|exact Hj|]; intros t Ht; left; apply Rx, Ht).
      assert (load n A x j <= S) by (apply B1; [|exact Hj]; intros t Ht; pose proof (Rx t Ht); lra).
      apply Rmult_le_reg_r with (10 ^ 12 * (1 + load n A x j)); [apply Rmult_lt_0_compat; lra|].
      replace (1 / 10 ^ 12 * (10 ^ 12 * (1 + load n A x j))) with (1 + load n A x j) by (field; lra).
      replace ((1 + S) / 10 ^ 12 * / (1 + load n A x j) * (10 ^ 12 * (1 + load n A x j))) with (1 + S) by (field; lra). lra. }
    split; lra.
Qed.
Print Assumptions C117_accuracy.

(** ** 500 iterations are not always enough, and nothing says so *)
(** One self-bonding site whose exact unbonded fraction is 1/901. *)
Definition strong : R := 810900.
Definition bond (x : R) : R := 1 / (1 + strong * x).
Lemma bond_anti x y : 0 <= x -> x <= y -> bond y <= bond x.
Proof.
  intros Hx H. unfold bond, strong. apply Rmult_le_compat_l; [lra|]. apply Rinv_le_contravar; lra.
Qed.
Lemma bond_two x : 0 <= x -> 1 / 901 - bond (bond x) = 900 / 901 * (1 - bond (bond x)) * (1 / 901 - x).
Proof.
  intros H. unfold bond, strong. field. split; nra.
Qed.
Lemma plain_round step x f o : (forall z, step [z] = [bond z]) -> 0 < x -> 1 / 10000 <= Rabs (bond x - x) -> Rabs (bond x - x) <= 1000 * x ->
  iterate step (1 / 10 ^ 12) (1 / 10) (S f) [x] o = iterate step (1 / 10 ^ 12) (1 / 10) f [bond x] (Rabs (bond x - x) + 0).
Proof.
  intros Hst Px Big Small. assert (Tol : 1 / 10 ^ 12 <= 1 / 100000) by (simpl; lra).
  cbn [iterate]. rewrite Hst. unfold dist. cbn [combine map fst snd tot fold_right].
  destruct (Rlt_dec (Rabs (bond x - x) + 0) (1 / 10 ^ 12)) as [C|_]; [lra|].
  destruct (Rgt_dec ((Rabs (bond x - x) + 0) / rmax [x]) 1000) as [C|_]; [|reflexivity].
  cbn [rmax fold_left] in C. exfalso. apply Rgt_lt in C. apply Rmult_lt_compat_r with (r := x) in C; [|exact Px].
  replace ((Rabs (bond x - x) + 0) / x * x) with (Rabs (bond x - x)) in C by (field; lra). lra.
Qed.
Lemma stuck_inner m : forall step x d o,
  (forall z, step [z] = [bond z]) ->
  36 / 1000000 <= x -> x <= 1 / 901 - d -> 0 < d -> 3 / 5000 <= (900 / 901) ^ (2 * m) * d ->
  exists y o', iterate step (1 / 10 ^ 12) (1 / 10) (2 * m + 1) [x] o = ([y], o') /\ 2 / 901 <= y.
Proof.
  assert (Tol : 1 / 10 ^ 12 <= 1 / 10000) by (simpl; lra).
  assert (Low : forall x d, 36 / 1000000 <= x -> x <= 1 / 901 - d -> 3 / 5000 <= d ->
    2 / 901 <= bond x /\ bond x <= 34 / 1000 /\ 1 / 10000 <= Rabs (bond x - x) /\ Rabs (bond x - x) <= 1000 * x).
  { intros x d H1 H2 H3.
    assert (B1 : 2 / 901 <= bond x).
    { apply Rle_trans with (bond (1 / 901 - 3 / 5000)); [unfold bond, strong; apply Rmult_le_reg_r with (1 + 810900 * (1 / 901 - 3 / 5000)); [lra|]; field_simplify; lra|].
      apply bond_anti; lra. }
    assert (B2 : bond x <= 34 / 1000).
    { apply Rle_trans with (bond (36 / 1000000)); [apply bond_anti; lra|]. unfold bond, strong. apply Rmult_le_reg_r with (1 + 810900 * (36 / 1000000)); [lra|]. field_simplify; lra. }
    split; [exact B1|]. split; [exact B2|]. rewrite Rabs_right by lra. split; lra. }
  assert (High : forall x', 2 / 901 <= x' -> x' <= 34 / 1000 ->
    36 / 1000000 <= bond x' /\ 1 / 10000 <= Rabs (bond x' - x') /\ Rabs (bond x' - x') <= 1000 * x').
  { intros x' H1 H2.
    assert (B1 : bond x' <= 1 / 901).
    { apply Rle_trans with (bond (1 / 901)); [apply bond_anti; lra|]. unfold bond, strong. apply Rmult_le_reg_r with (1 + 810900 * (1 / 901)); [lra|]. field_simplify; lra. }
    assert (B2 : 36 / 1000000 <= bond x').
    { apply Rle_trans with (bond (34 / 1000)); [|apply bond_anti; lra]. unfold bond, strong. apply Rmult_le_reg_r with (1 + 810900 * (34 / 1000)); [lra|]. field_simplify; lra. }
    split; [exact B2|]. rewrite Rabs_left1 by lra. split; lra. }
  induction m as [|m IH]; intros step x d o Hst Hlo Hhi Hd Hbig.
  - cbn [Nat.mul Nat.add]. rewrite pow_O, Rmult_1_l in Hbig. destruct (Low x d Hlo Hhi Hbig) as (L1 & L2 & L3 & L4).
    rewrite plain_round by (try exact Hst; lra). cbn [iterate]. exists (bond x). eexists. split; [reflexivity|exact L1].
  - assert (Dd : 3 / 5000 <= d).
    { apply Rle_trans with (1 := Hbig). assert ((900 / 901) ^ (2 * S m) <= 1).
      { rewrite <- (pow1 (2 * S m)). apply pow_incr. lra. }
      nra. }
    replace (2 * S m + 1)%nat with (S (S (2 * m + 1))) by lia.
    destruct (Low x d Hlo Hhi Dd) as (L1 & L2 & L3 & L4). destruct (High (bond x) L1 L2) as (U1 & U2 & U3).
    rewrite plain_round by (try exact Hst; lra). rewrite plain_round by (try exact Hst; lra).
    apply (IH step (bond (bond x)) ((900 / 901) ^ 2 * d)); [exact Hst|exact U1| |apply Rmult_lt_0_compat; [apply pow_lt; lra|exact Hd]|].
    + assert (E := bond_two x ltac:(lra)).
      assert (bond (bond x) <= 1 / 901).
      { apply Rle_trans with (bond (1 / 901)); [apply bond_anti; lra|]. unfold bond, strong. apply Rmult_le_reg_r with (1 + 810900 * (1 / 901)); [lra|]. field_simplify; lra. }
      assert ((900 / 901) ^ 2 * d <= 900 / 901 * (1 - bond (bond x)) * (1 / 901 - x)).
      { cbn [pow]. rewrite Rmult_1_r. apply Rmult_le_compat; try nra. }
      lra.
    + replace (2 * S m)%nat with (2 * m + 2)%nat in Hbig by lia. rewrite pow_add in Hbig. lra.
Qed.
Lemma pow_bound : 57 / 100 <= (900 / 901) ^ (2 * 248).
Proof.
  assert (I : forall k, 1 - INR k / 901 <= (900 / 901) ^ k).
  { induction k as [|k IH]; [cbn; lra|]. rewrite S_INR. cbn [pow]. assert (0 <= INR k) by apply pos_INR.
    assert (P : 0 <= (900 / 901) ^ k) by (apply pow_le; lra).
    assert ((900 / 901) ^ k <= 1) by (rewrite <- (pow1 k); apply pow_incr; lra). lra. }
  replace (2 * 248)%nat with (31 * 16)%nat by reflexivity. rewrite pow_mult.
  specialize (I 31%nat). replace (INR 31) with 31 in I by (cbn; lra).
  apply Rle_trans with ((1 - 31 / 901) ^ 16); [simpl; lra|]. apply pow_incr. lra.
Qed.
Lemma damped_round step x f o : (forall z, step [z] = [bond z]) -> 0 < x -> 1 / 10000 <= Rabs (bond x - x) -> 1000 * x < Rabs (bond x - x) ->
  iterate step (1 / 10 ^ 12) (1 / 10) (S f) [x] o = iterate step (1 / 10 ^ 12) (1 / 10) f [x + 1 / 10 * (bond x - x)] (Rabs (bond x - x) + 0).
Proof.
  intros Hst Px Big Small. assert (Tol : 1 / 10 ^ 12 <= 1 / 100000) by (simpl; lra).
  cbn [iterate]. rewrite Hst. unfold dist, damped. cbn [combine map fst snd tot fold_right].
  destruct (Rlt_dec (Rabs (bond x - x) + 0) (1 / 10 ^ 12)) as [C|_]; [lra|].
  destruct (Rgt_dec ((Rabs (bond x - x) + 0) / rmax [x]) 1000) as [_|C]; [reflexivity|].
  cbn [rmax fold_left] in C. exfalso. apply C. apply Rlt_gt. apply Rmult_lt_reg_r with x; [exact Px|].
  replace ((Rabs (bond x - x) + 0) / x * x) with (Rabs (bond x - x)) by (field; lra). lra.
Qed.
Lemma stuck step : (forall z, step [z] = [bond z]) ->
  exists y o, iterate step (1 / 10 ^ 12) (1 / 10) 500 [1 / 2] 0 = ([y], o) /\ 2 / 901 <= y.
Proof.
  intros Hst. change 500%nat with (S (S (S (2 * 248 + 1)))).
  assert (B0 : bond (1 / 2) = 1 / 405451) by (unfold bond, strong; lra).
  rewrite plain_round; [|exact Hst|lra|rewrite B0, Rabs_left by lra; lra|rewrite B0, Rabs_left by lra; lra]. rewrite B0.
  assert (B1 : bond (1 / 405451) = 405451 / 1216351) by (unfold bond, strong; lra).
  rewrite damped_round; [|exact Hst|lra|rewrite B1, Rabs_right by lra; lra|rewrite B1, Rabs_right by lra; lra]. rewrite B1.
  set (x2 := 1 / 405451 + 1 / 10 * (405451 / 1216351 - 1 / 405451)).
  assert (X2 : 3333 / 100000 <= x2 <= 3334 / 100000) by (unfold x2; lra).
  assert (B : 36 / 1000000 <= bond x2 <= 37 / 1000000).
  { split.
    - apply Rle_trans with (bond (3334 / 100000)); [|apply bond_anti; lra]. unfold bond, strong. lra.
    - apply Rle_trans with (bond (3333 / 100000)); [apply bond_anti; lra|]. unfold bond, strong. lra. }
  rewrite plain_round; [|exact Hst|lra|rewrite Rabs_left by lra; lra|rewrite Rabs_left by lra; lra].
  apply (stuck_inner 248 step (bond x2) (1 / 901 - 37 / 1000000)); [exact Hst|lra|lra|lra|].
  pose proof pow_bound. nra.
Qed.

(** For a strong enough bond the loop stops after 500 rounds at more than twice the exact fraction. *)
Theorem C117_500_rounds_refuted : exists sites xi nu nk F g K rho X err Y,
  (forall i, 0 <= xi i) /\ (forall i k, 0 <= nu i k) /\ (forall k a, 0 <= nk k a) /\ 0 < rho /\
  (forall s t, In s sites -> In t sites -> 0 <= py_delta F g K 0 s t) /\
  calc_Xika sites xi nu nk F g K [rho] = [([X], err)] /\
  mass_action sites xi nu nk (py_delta F g K 0) rho [Y] /\ 0 < Y <= 1 /\ 2 * Y <= X.
Proof.
  set (K := K4 (fun _ _ _ _ => strong / per_nm3)).
  set (one1 := fun _ : nat => 1). set (one2 := fun _ _ : nat => 1). set (F := fun _ _ _ _ : nat => 1). set (g := fun _ _ _ : nat => 1).
  assert (P3 : 0 < per_nm3) by (unfold per_nm3; lra).
  assert (P : forall z s, partners [(0, 0, 0)%nat] one1 one2 one2 (py_delta F g K 0) 1 [z] s = strong * z).
  { intros z [[a b] c]. unfold partners. cbn [combine map tot fold_right fst snd]. unfold py_delta, K, F, g, one1, one2. field. lra. }
  assert (St : forall z, py_step [(0, 0, 0)%nat] one1 one2 one2 F g K 0 1 [z] = [bond z]).
  { intros z. rewrite py_step_spec by reflexivity. cbn [map]. rewrite P. reflexivity. }
  destruct (stuck _ St) as (y & o & E & B).
  exists [(0, 0, 0)%nat], one1, one2, one2, F, g, K, 1, y, o, (1 / 901).
  assert (D : forall s t, 0 <= py_delta F g K 0 s t).
  { intros s t. unfold py_delta, K, F, g. unfold strong. assert (0 < 810900 / per_nm3) by (apply Rdiv_lt_0_compat; lra). lra. }
  split; [unfold one1; intros; lra|]. split; [unfold one2; intros; lra|]. split; [unfold one2; intros; lra|]. split; [lra|].
  split; [intros; apply D|]. split.
  { unfold calc_Xika, py_calc_Xika. cbn [densities length repeat]. f_equal. exact E. }
  split.
  { split; [reflexivity|]. split.
    - intros v [<-|[]]. lra.
    - intros s v [Hin|[]]. injection Hin as <- <-. rewrite P. unfold strong. lra. }
  split; lra.
Qed.
Print Assumptions C117_500_rounds_refuted.

(** ** Non-vacuity: two sites A and B that bond with each other; half of them are free, the code finds
    it and the accuracy theorem applies with S = 2. *)
Example C117_nonvacuous :
  let sites := [(0, 0, 0); (0, 0, 1)]%nat in
  let F := fun _ _ a b : nat => if Nat.eqb a b then 0 else 2 / per_nm3 in
  let K := K4 (fun _ _ _ _ => 1) in let g := fun _ _ _ : nat => 1 in
  let o1 := fun _ : nat => 1 in let o2 := fun _ _ : nat => 1 in
  mass_action sites o1 o2 o2 (py_delta F g K 0) 1 [1 / 2; 1 / 2] /\
  calc_Xika sites o1 o2 o2 F g K [1] = [([1 / 2; 1 / 2], 0)] /\
  (forall s, In s sites -> partners sites o1 o2 o2 (py_delta F g K 0) 1 (map (fun _ => 1) sites) s <= 2).
Proof.
  intros sites F K g o1 o2. assert (P3 : 0 < per_nm3) by (unfold per_nm3; lra).
  assert (Pp : forall a b s, In s sites -> partners sites o1 o2 o2 (py_delta F g K 0) 1 [a; b] s = 2 * (if Nat.eqb (snd s) 0 then b else a)).
  { intros a b s [<-|[<-|[]]]; unfold partners, sites; cbn [combine map fst snd tot fold_right]; unfold py_delta, K, F, g, o1, o2; cbn; field; lra. }
  split; [|split].
  - split; [reflexivity|]. split; [intros y [<-|[<-|[]]]; lra|].
    intros s y H. rewrite Pp by exact (in_combine_l _ _ _ _ H). destruct H as [H|[H|[]]]; injection H as <- <-; cbn; lra.
  - assert (St : py_step sites o1 o2 o2 F g K 0 1 [1 / 2; 1 / 2] = [1 / 2; 1 / 2]).
    { rewrite py_step_spec by reflexivity. cbn [map sites]. rewrite !Pp by (cbn; auto). cbn. f_equal; [lra|]. f_equal. lra. }
    assert (D : dist [1 / 2; 1 / 2] [1 / 2; 1 / 2] = 0).
    { unfold dist. cbn [combine map fst snd tot fold_right]. replace (1 / 2 - 1 / 2) with 0 by lra. rewrite Rabs_R0. lra. }
    assert (T : 0 < 1 / 10 ^ 12) by (apply Rdiv_lt_0_compat; [lra|apply pow_lt; lra]).
    assert (I : forall f o, iterate (py_step sites o1 o2 o2 F g K 0 1) (1 / 10 ^ 12) (1 / 10) (S f) [1 / 2; 1 / 2] o = ([1 / 2; 1 / 2], 0)).
    { intros f o. cbn [iterate]. rewrite St, D. destruct (Rlt_dec 0 (1 / 10 ^ 12)) as [_|C]; [reflexivity|contradiction]. }
    exact (f_equal (fun p => [p]) (I 499%nat 0)).
  - intros s Hs. cbn [map sites]. fold sites. rewrite Pp by exact Hs. destruct (Nat.eqb (snd s) 0); lra.
Qed.
