(** Specification vocabulary and lemmas for C121: fluids whose bubble (dew) pressure can be
    found by comparing one objective at different pressures. *)
From Coq Require Import Lqa Lia Qround.
From Verif Require Import Base BaseFacts Num NumFacts DensityModel PrangeModel PrangeProps.
Open Scope Q_scope.

(** A fluid with a bubble point: above [Pl] the liquid exists and an equilibrium vapor is found,
    with an objective [v] that falls as the pressure rises, is positive at [Pa], negative at
    [Pt], and zero at no pressure that is tried; below [Pl] only vapor is found. *)
Record bubbles {G} (liq : num -> result (bool * nat)) (vapc : G -> num -> result (G * found))
    (Pl Pa Pt : Q) (v : Q -> Q) : Prop := {
  b_liq : forall q, 0 < q -> Pl <= q -> exists l, liq (Fin q) = Ok (false, l) /\ (l = 1 \/ l = 2)%nat;
  b_gas : forall q, 0 < q -> q < Pl -> exists l, liq (Fin q) = Ok (false, l) /\ (l = 0 \/ l = 3 \/ l = 4)%nat;
  b_vap : forall g q, 0 < q -> Pl <= q -> exists g' f, vapc g (Fin q) = Ok (g', f) /\ f_nan f = false /\
            (f_flag f = 0 \/ f_flag f = 2 \/ f_flag f = 4)%nat /\ f_same f = false /\ f_obj f = Fin (v q);
  b_dec : forall p q, 0 < p -> p < q -> v q < v p;
  b_same : forall p q, p == q -> v p == v q;
  b_zero : forall q, ~ v q == 0;
  b_low : 0 < Pa /\ Pl < Pa /\ 0 < v Pa;
  b_high : 0 < Pt /\ v Pt < 0 }.

(** A fluid with a dew point: up to [Pv] the vapor exists; an equilibrium liquid is found at
    every pressure, with an objective [v] that rises with the pressure and is positive at
    [Pw], below [Pv]. *)
Record dews {G} (vap : num -> result (bool * nat)) (liqc : G -> num -> result (G * found))
    (Pw Pv : Q) (v : Q -> Q) : Prop := {
  d_vap : forall q, 0 < q -> q <= Pv -> exists l, vap (Fin q) = Ok (false, l) /\ (l = 0 \/ l = 2 \/ l = 4)%nat;
  d_liq : forall q, 0 < q -> Pv < q -> exists l, vap (Fin q) = Ok (false, l) /\ (l = 1 \/ l = 3)%nat;
  d_com : forall g q, 0 < q -> exists g' f, liqc g (Fin q) = Ok (g', f) /\ f_nan f = false /\ f_same f = false /\ f_obj f = Fin (v q);
  d_inc : forall p q, 0 < p -> p < q -> v p < v q;
  d_win : 0 < Pw /\ Pw < Pv /\ 0 < v Pw }.

(** factors by which a pressure is raised or lowered, and the pressures the search begins with *)
Definition factors (o : pr_opts) (mx mn : Q) : Prop := o_maxfactor o = Fin mx /\ 1 < mx /\ o_minfactor o = Fin mn /\ 0 < mn /\ mn < 1.
Definition starts (o : pr_opts) (P0 P1 : Q) : Prop := initial_range o = Ok (Fin P0, Fin P1) /\ 0 < P0.

(** the bracket and the pressure suggested within *)
Definition brackets {G} (b : bracket G) (lo hi : Q) : Prop :=
  br_lo b = Fin lo /\ br_hi b = Fin hi /\ 0 < lo /\ lo < hi /\ exists r, br_guess b = Fin r /\ lo <= r /\ r <= hi.

Lemma ltT a b : a < b -> nlt (Fin a) (Fin b) = true. Proof. apply nlt_fin. Qed.
Lemma ltF a b : b <= a -> nlt (Fin a) (Fin b) = false. Proof. apply nlt_fin_false. Qed.
Lemma leF a b : b < a -> nle (Fin a) (Fin b) = false.
Proof. intros H. cbn. destruct (Qle_bool a b) eqn:E; [|reflexivity]. apply Qle_bool_iff in E. lra. Qed.
Lemma leT a b : a <= b -> nle (Fin a) (Fin b) = true. Proof. intros H. cbn. apply Qle_bool_iff. exact H. Qed.
Lemma mid_fin a b : exists m, midpoint (Fin a) (Fin b) = Fin m /\ m == (1#2) * (a + b).
Proof.
  unfold midpoint, nsub. cbn [nneg nadd ndiv]. change (Qeq_bool 2 0) with false. cbn [nadd]. eexists. split; [reflexivity|].
  rewrite half. lra.
Qed.
Lemma root_fin a x b y : a < b -> ~ x == y -> exists r, root_of_line (Fin a) (Fin x) (Fin b) (Fin y) = Fin r.
Proof.
  intros H N. unfold root_of_line, nsub. cbn [nneg nadd ndiv].
  destruct (Qeq_bool (b + - a) 0) eqn:E; [apply Qeq_bool_iff in E; lra|]. cbn [nmul nneg nadd ndiv].
  destruct (Qeq_bool ((y + - x) / (b + - a)) 0) eqn:E2; [|eexists; reflexivity].
  exfalso. apply Qeq_bool_iff in E2. apply N. assert (y + - x == ((y + - x) / (b + - a)) * (b + - a)) as Z by (field; lra).
  rewrite E2 in Z. lra.
Qed.
Lemma nanmax_fin x y : exists r, nanmax2 (Fin x) (Fin y) = Fin r /\ y <= r.
Proof. unfold nanmax2. cbn [is_nan]. destruct (nlt (Fin x) (Fin y)) eqn:E; eexists; (split; [reflexivity|]); [lra|]. apply nlt_fin_false in E. exact E. Qed.
Lemma archimedes x d : 0 < d -> exists n : nat, x <= inject_Z (Z.of_nat n) * d.
Proof.
  intros Hd. set (z := Qceiling (x / d)). exists (Z.to_nat z).
  assert (x / d <= inject_Z (Z.of_nat (Z.to_nat z))) as H.
  { apply Qle_trans with (inject_Z z); [apply Qle_ceiling|]. rewrite <- Zle_Qle. lia. }
  assert (x == x / d * d) as -> by (field; lra). apply Qmult_le_compat_r; [exact H|lra].
Qed.
Lemma inject_S n : inject_Z (Z.of_nat (S n)) == inject_Z (Z.of_nat n) + 1.
Proof. rewrite Nat2Z.inj_succ. unfold Z.succ. rewrite inject_Z_plus. reflexivity. Qed.
Fixpoint two (n : nat) : Q := match n with O => 1 | S n => 2 * two n end.
Lemma two_ge n : inject_Z (Z.of_nat n) <= two n.
Proof.
  assert (1 <= two n /\ inject_Z (Z.of_nat n) <= two n) as [_ H]; [|exact H]. induction n as [|n [IH1 IH2]]; [cbn; split; [lra|discriminate]|].
  rewrite inject_S. cbn [two]. split; lra.
Qed.
Lemma halvings x d : 0 < d -> exists n : nat, x <= two n * d.
Proof.
  intros Hd. destruct (archimedes x d Hd) as [n H]. exists n. apply Qle_trans with (1 := H). apply Qmult_le_compat_r; [apply two_ge|lra].
Qed.
Lemma is_liquid l : (l = 1 \/ l = 2)%nat -> liquid_flag l = true. Proof. intros [-> | ->]; reflexivity. Qed.
Lemma not_liquid l : (l = 0 \/ l = 3 \/ l = 4)%nat -> liquid_flag l = false. Proof. intros [->|[-> | ->]]; reflexivity. Qed.
Lemma is_vapor l : (l = 0 \/ l = 2 \/ l = 4)%nat -> vapor_flag l = true. Proof. intros [->|[-> | ->]]; reflexivity. Qed.
Lemma not_vapor l : (l = 1 \/ l = 3)%nat -> vapor_flag l = false. Proof. intros [-> | ->]; reflexivity. Qed.
