(** C39: properties of the sampled isotherm. *)
From Coq Require Import Qround Sorting.Sorted Lqa Lia.
From Verif Require Import Base BaseFacts Num NumFacts IsothermModel.
Open Scope Q_scope.

Fixpoint pow2 (n : nat) : Q := match n with O => 1 | S k => 2 * pow2 k end.
Lemma pow2_pos n : 0 < pow2 n.
Proof. induction n; cbn; lra. Qed.

Definition increasing (l : list Q) : Prop := StronglySorted Qlt l.

Lemma sorted_app (l1 l2 : list Q) :
  increasing l1 -> increasing l2 -> (forall a b, In a l1 -> In b l2 -> a < b) -> increasing (l1 ++ l2).
Proof.
  induction l1 as [|a l1 IH]; intros S1 S2 H; [exact S2|]. inversion S1; subst. cbn. constructor.
  - apply IH; auto. intros x y Hx Hy. apply H; [now right|assumption].
  - apply Forall_app. split; [assumption|]. apply Forall_forall. intros b Hb. apply H; [now left|assumption].
Qed.

Lemma sorted_skipn (l : list Q) k : increasing l -> increasing (skipn k l).
Proof. revert l; induction k; intros [|a l] H; cbn; auto; try constructor. inversion H; subst; auto. Qed.

Lemma sorted_rev_inv (l : list Q) : increasing l -> Forall (fun x => 0 < x) l -> increasing (map inv (rev l)).
Proof.
  induction l as [|a l IH]; intros S F; [constructor|]. inversion S; inversion F; subst.
  cbn [rev]. rewrite map_app. apply sorted_app; [auto|repeat constructor|].
  intros x y Hx [<-|[]]. apply in_map_iff in Hx. destruct Hx as (b & <- & Hb). apply in_rev in Hb.
  rewrite Forall_forall in H2. specialize (H2 b Hb). unfold inv.
  apply Qlt_shift_div_r; [lra|]. setoid_replace (1 / a * b) with (b / a) by (field; lra).
  apply Qlt_shift_div_l; [assumption|lra].
Qed.

Lemma sorted_affine (f : nat -> Q) k n : (forall i j, (i < j)%nat -> f i < f j) -> increasing (map f (seq k n)).
Proof.
  intros Hf. revert k. induction n as [|n IH]; intros k; [constructor|]. cbn. constructor; [apply IH|].
  apply Forall_forall. intros x Hx. apply in_map_iff in Hx. destruct Hx as (j & <- & Hj). apply in_seq in Hj. apply Hf. lia.
Qed.

Lemma of_nat_lt i j : (i < j)%nat -> inject_Z (Z.of_nat i) < inject_Z (Z.of_nat j).
Proof. intros. rewrite <- Zlt_Qlt. lia. Qed.

Lemma of_nat_le i j : (i <= j)%nat -> inject_Z (Z.of_nat i) <= inject_Z (Z.of_nat j).
Proof. intros. rewrite <- Zle_Qle. lia. Qed.

Lemma affine_lt a d i j : 0 < d -> (i < j)%nat ->
  a + inject_Z (Z.of_nat i) * d < a + inject_Z (Z.of_nat j) * d.
Proof.
  intros Hd Hij. pose proof (Qmult_lt_compat_r _ _ d Hd (of_nat_lt i j Hij)). lra.
Qed.

Lemma affine_ge a d i : 0 < d -> a <= a + inject_Z (Z.of_nat i) * d.
Proof.
  intros Hd. pose proof (of_nat_le 0 i ltac:(lia)) as H0. change (inject_Z (Z.of_nat 0)) with 0 in H0.
  pose proof (Qmult_le_0_compat _ d H0 (Qlt_le_weak _ _ Hd)). lra.
Qed.

Lemma arange_spec a b d l : 0 < d -> arange a b d = Ok l ->
  increasing l /\ Forall (fun x => a <= x /\ x < b) l.
Proof.
  intros Hd E. unfold arange in E. destruct (Qeq_bool d 0); [discriminate|]. injection E as <-. split.
  - apply sorted_affine. intros i j Hij. apply affine_lt; assumption.
  - apply Forall_forall. intros x Hx. apply in_map_iff in Hx. destruct Hx as (i & <- & Hi). apply in_seq in Hi.
    split; [apply affine_ge; assumption|].
    assert (Hz : (Z.of_nat i <= Qceiling ((b - a) / d) - 1)%Z) by lia.
    rewrite Zle_Qle in Hz. pose proof (Qceiling_lt ((b - a) / d)) as Hc.
    assert (Hl : inject_Z (Z.of_nat i) < (b - a) / d) by lra.
    assert (Hm : inject_Z (Z.of_nat i) * d < (b - a) / d * d) by (apply Qmult_lt_compat_r; assumption).
    setoid_replace ((b - a) / d * d) with (b - a) in Hm by (field; lra). lra.
Qed.

Lemma all_but_last_linspace a b m :
  all_but_last (linspace a b (S (S m))) =
  map (fun i => a + inject_Z (Z.of_nat i) * ((b - a) / inject_Z (Z.of_nat (S m)))) (seq 0 (S m)).
Proof.
  unfold all_but_last, linspace. rewrite map_length, seq_length.
  replace (S (S m) - 1)%nat with (S m) by lia. rewrite (seq_S (S m) 0), map_app.
  rewrite firstn_app, map_length, seq_length, Nat.sub_diag, firstn_O, app_nil_r.
  apply firstn_all2. rewrite map_length, seq_length. lia.
Qed.

Lemma half r : r / 2 == (1 # 2) * r.
Proof. field. Qed.

Lemma below_spec r n : 0 < r ->
  let l := all_but_last (linspace (r / 2) r n) in
  increasing l /\ Forall (fun x => r / 2 <= x /\ x < r) l /\
  (length l <= n - 1)%nat /\ ((2 <= n)%nat -> exists l', l = (r / 2 + 0 * ((r - r / 2) / inject_Z (Z.of_nat (n - 1)))) :: l').
Proof.
  intros Hr l. subst l. pose proof (half r) as Hh. destruct n as [|[|m]].
  - split; [constructor|split; [constructor|split; [cbn; lia|intros; lia]]].
  - split; [constructor|split; [constructor|split; [cbn; lia|intros; lia]]].
  - rewrite all_but_last_linspace.
    assert (Hm : 0 < inject_Z (Z.of_nat (S m))) by (apply (of_nat_lt 0 (S m)); lia).
    assert (Hs : 0 < (r - r / 2) / inject_Z (Z.of_nat (S m))) by (apply Qlt_shift_div_l; [assumption|]; lra).
    set (s := (r - r / 2) / inject_Z (Z.of_nat (S m))) in *.
    split; [|split; [|split]].
    + apply sorted_affine. intros i j Hij. apply affine_lt; assumption.
    + apply Forall_forall. intros x Hx. apply in_map_iff in Hx. destruct Hx as (i & <- & Hi). apply in_seq in Hi.
      split; [apply affine_ge; assumption|].
      assert (Hi2 : inject_Z (Z.of_nat i) < inject_Z (Z.of_nat (S m))) by (apply of_nat_lt; lia).
      assert (Hp : inject_Z (Z.of_nat (S m)) * s == r - r / 2) by (unfold s; field; lra).
      pose proof (Qmult_lt_compat_r _ _ s Hs Hi2). lra.
    + rewrite map_length, seq_length. lia.
    + intros _. cbn [seq map]. replace (S (S m) - 1)%nat with (S m) by lia. fold s. eexists. reflexivity.
Qed.

(** *** the density grid *)
Lemma last_above_lt lim l : forall i f k, last_above lim i l f = Some k ->
  (forall j, f = Some j -> (j < i)%nat) -> (k < i + length l)%nat.
Proof.
  induction l as [|a l IH]; cbn; intros i f k E Hf.
  - specialize (Hf k E). lia.
  - apply IH in E; [lia|]. intros j. destruct (Qle_bool a lim); intros Ej; [specialize (Hf j Ej); lia|].
    injection Ej as <-. lia.
Qed.

Lemma inv_pos q : 0 < q -> 0 < inv q.
Proof. intros. unfold inv. apply Qlt_shift_div_l; lra. Qed.

Lemma inv_inv q : 0 < q -> inv (inv q) == q.
Proof. intros. unfold inv. field. lra. Qed.

Lemma inv_compat a b : a == b -> inv a == inv b.
Proof. intros H. unfold inv. rewrite H. reflexivity. Qed.

Lemma inv_anti a b : 0 < a -> a < b -> inv b < inv a.
Proof.
  intros Ha Hb. unfold inv. apply Qlt_shift_div_r; [lra|].
  setoid_replace (1 / a * b) with (b / a) by (field; lra). apply Qlt_shift_div_l; lra.
Qed.

Lemma skipn_in {A} k (l : list A) x : In x (skipn k l) -> In x l.
Proof. revert l; induction k; intros [|a l]; cbn; auto. Qed.

Lemma sorted_skipn_gt (l : list Q) k r : increasing l -> nth_error l k = Some r ->
  forall x, In x (skipn (S k) l) -> r < x.
Proof.
  revert l. induction k as [|k IH]; intros [|a l] S E x Hx; try discriminate; inversion S; subst; cbn in E.
  - injection E as <-. cbn in Hx. rewrite Forall_forall in H2. auto.
  - cbn in Hx. eapply IH; eauto.
Qed.

Lemma grid_spec o top rho : 0 < top -> 0 < min_density_fraction o ->
  0 < density_increment o -> 0 < max_volume_increment o ->
  density_grid o top = Ok rho ->
  increasing rho /\ Forall (fun x => top * min_density_fraction o <= x /\ x < top) rho /\ rho <> [].
Proof.
  intros Ht Hf Hd Hv E. unfold density_grid in E.
  set (minrho := top * min_density_fraction o) in *.
  assert (Hm : 0 < minrho) by (unfold minrho; nra).
  destruct (arange minrho top (density_increment o)) as [rho0|] eqn:Ea; [|discriminate]. cbn [rbind] in E.
  destruct (arange_spec _ _ _ _ Hd Ea) as [S0 F0].
  destruct (Qeq_bool minrho 0) eqn:E0; [discriminate|].
  destruct (vspace rho0) as [|v0 vs] eqn:Ev; [discriminate|].
  destruct (last_above _ 0 (v0 :: vs) None) as [k|] eqn:Ek.
  2:{ injection E as <-. split; [assumption|]. split; [assumption|]. intros ->. discriminate. }
  destruct (nth_error rho0 (S k)) as [r|] eqn:Er; [|discriminate].
  assert (Hr : minrho <= r /\ r < top).
  { rewrite Forall_forall in F0. apply F0. eapply nth_error_In. eassumption. }
  destruct (arange (inv r) (inv minrho) (max_volume_increment o)) as [vg|] eqn:Eg; [|discriminate].
  cbn [rbind] in E. injection E as <-. destruct (arange_spec _ _ _ _ Hv Eg) as [S1 F1].
  assert (Hr0 : 0 < r) by lra.
  assert (P1 : Forall (fun x => 0 < x) vg).
  { eapply Forall_impl; [|exact F1]. cbn. intros x [Hx _]. pose proof (inv_pos r Hr0). lra. }
  assert (B1 : forall x, In x (map inv (rev vg)) -> minrho <= x /\ x <= r).
  { intros x Hx. apply in_map_iff in Hx. destruct Hx as (v & <- & Hin). apply in_rev in Hin.
    rewrite Forall_forall in F1, P1. specialize (F1 v Hin). specialize (P1 v Hin). cbn in F1, P1. destruct F1 as [Fa Fb]. split.
    - pose proof (inv_anti v (inv minrho) P1 Fb) as Hx. rewrite (inv_inv minrho Hm) in Hx. lra.
    - destruct (Qlt_le_dec (inv r) v) as [Hx|Hx].
      + pose proof (inv_anti (inv r) v (inv_pos r Hr0) Hx) as Hy. rewrite (inv_inv r Hr0) in Hy. lra.
      + assert (Hq : v == inv r) by lra. apply inv_compat in Hq. rewrite (inv_inv r Hr0) in Hq. lra. }
  replace (k + 2)%nat with (S (S k)) by lia.
  split; [|split].
  - apply sorted_app.
    + apply sorted_rev_inv; assumption.
    + apply sorted_skipn; assumption.
    + intros a b Ha Hb. apply B1 in Ha. pose proof (sorted_skipn_gt rho0 (S k) r S0 Er b Hb). lra.
  - apply Forall_app. split.
    + apply Forall_forall. intros x Hx. apply B1 in Hx. lra.
    + apply Forall_forall. intros x Hx. rewrite Forall_forall in F0. apply F0. eapply skipn_in. eassumption.
  - intros C. apply app_eq_nil in C. destruct C as [C1 C2]. apply map_eq_nil in C1.
    apply (f_equal (@rev Q)) in C1. rewrite rev_involutive in C1. cbn in C1. subst vg.
    unfold arange in Eg. destruct (Qeq_bool (max_volume_increment o) 0); [discriminate|]. injection Eg as Eg.
    apply map_eq_nil in Eg.
    assert (Hn : (Z.to_nat (Qceiling ((inv minrho - inv r) / max_volume_increment o)) <> 0)%nat).
    { assert (Hlt : minrho < r).
      { (* the first grid density is minrho and r comes later *)
        unfold arange in Ea. destruct (Qeq_bool (density_increment o) 0); [discriminate|]. injection Ea as Ea.
        rewrite <- Ea in Er.
        rewrite nth_error_map in Er. destruct (nth_error (seq 0 _) (S k)) as [i|] eqn:Ei; [|discriminate].
        cbn in Er. injection Er as <-.
        assert (i = S k).
        { apply nth_error_nth with (d := O) in Ei as Ei2. rewrite seq_nth in Ei2; [lia|].
          assert (S k < length (seq 0 (Z.to_nat (Qceiling ((top - minrho) / density_increment o)))))%nat
            by (apply nth_error_Some; congruence). rewrite seq_length in H. exact H. }
        subst i. pose proof (affine_lt minrho _ 0 (S k) Hd ltac:(lia)) as Hk.
        change (inject_Z (Z.of_nat 0)) with 0 in Hk. lra. }
      pose proof (inv_anti minrho r Hm Hlt) as Hi.
      assert (Hq : 0 < (inv minrho - inv r) / max_volume_increment o) by (apply Qlt_shift_div_l; lra).
      pose proof (Qle_ceiling ((inv minrho - inv r) / max_volume_increment o)) as Hc.
      assert (Hz : 0 < inject_Z (Qceiling ((inv minrho - inv r) / max_volume_increment o))) by lra.
      rewrite <- (Zlt_Qlt 0) in Hz. lia. }
    destruct (Z.to_nat _) in Eg, Hn; [congruence|discriminate].
Qed.

(** *** the extension *)
Section Ext.
  Variable press : Q -> num.
  Lemma extend_spec n npts pmin top : forall lo rho P rho' P' r0 tl,
    0 < lo -> increasing rho -> P = map press rho -> Forall (fun x => lo <= x /\ x < top) rho ->
    rho = r0 :: tl ->
    extend press n npts pmin rho P = Ok (rho', P') ->
    increasing rho' /\ P' = map press rho' /\
    Forall (fun x => lo <= x * pow2 n /\ 0 < x /\ x < top) rho' /\
    (length rho' <= length rho + n * (npts - 1))%nat /\
    exists r tl', rho' = r :: tl' /\
      ((2 <= npts)%nat -> ngt (press r) (Fin pmin) = false \/ r * pow2 n == r0).
  Proof.
    induction n as [|n IH]; intros lo rho P rho' P' r0 tl Hlo HS HP F Er E.
    - cbn in E. injection E as <- <-. split; [assumption|]. split; [assumption|]. split; [|split].
      + eapply Forall_impl; [|exact F]. cbn. intros x [A B]. split; [|split]; lra.
      + lia.
      + exists r0, tl. split; [assumption|]. intros _. right. cbn [pow2]. lra.
    - subst rho P. cbn [extend map] in E. pose proof (half r0) as Hh0. pose proof (half lo) as Hh1.
      inversion F as [|? ? Hr0 F']; subst. cbn beta in Hr0.
      assert (Hrp : 0 < r0) by lra.
      destruct (ngt (press r0) (Fin pmin)) eqn:Ep.
      + destruct (below_spec r0 npts Hrp) as (S1 & F1 & L1 & N1).
        set (tmp := all_but_last (linspace (r0 / 2) r0 npts)) in *.
        assert (Hh : exists h t, tmp ++ r0 :: tl = h :: t /\ ((2 <= npts)%nat -> h * 2 == r0)).
        { destruct tmp as [|h t] eqn:Et.
          - exists r0, tl. split; [reflexivity|]. intros Hn. destruct (N1 Hn) as (l' & El). discriminate.
          - exists h, (t ++ r0 :: tl). split; [reflexivity|]. intros Hn. destruct (N1 Hn) as (l' & El).
            injection El as -> _. field. assert (0 < inject_Z (Z.of_nat (npts - 1))) by (apply (of_nat_lt 0); lia). lra. }
        destruct Hh as (h & t & Eh & Hh).
        apply (IH (lo / 2) _ _ _ _ h t) in E.
        * destruct E as (A & B & C & D & r & tl' & Er' & G). split; [assumption|]. split; [assumption|]. split; [|split].
          -- eapply Forall_impl; [|exact C]. cbn beta. intros x (X1 & X2 & X3). cbn [pow2]. split; [|split]; [|assumption..].
             setoid_replace (x * (2 * pow2 n)) with (2 * (x * pow2 n)) by ring. lra.
          -- rewrite app_length in D. cbn [length] in *. cbn [Nat.mul]. lia.
          -- exists r, tl'. split; [assumption|]. intros Hn. destruct (G Hn) as [G'|G']; [now left|right].
             cbn [pow2]. setoid_replace (r * (2 * pow2 n)) with (r * pow2 n * 2) by ring. rewrite G'. auto.
        * lra.
        * apply sorted_app; [assumption|assumption|]. intros a b Ha Hb. rewrite Forall_forall in F1. specialize (F1 a Ha).
          destruct Hb as [<-|Hb]; [lra|]. inversion HS; subst. rewrite Forall_forall in H2. specialize (H2 b Hb). lra.
        * rewrite map_app. reflexivity.
        * apply Forall_app. split.
          -- eapply Forall_impl; [|exact F1]. cbn beta. intros x [A B]. lra.
          -- eapply Forall_impl; [|exact F]. cbn beta. intros x [A B]. lra.
        * exact Eh.
      + injection E as <- <-. split; [assumption|]. split; [reflexivity|]. split; [|split].
        * eapply Forall_impl; [|exact F]. cbn beta. intros x [A B]. split; [|split]; try lra.
          assert (1 <= pow2 (S n)).
          { clear. induction (S n) as [|k IHk]; cbn [pow2]; lra. }
          assert (Hx : 0 <= x) by lra. pose proof (Qmult_le_compat_r _ _ x H Hx). rewrite (Qmult_comm x). lra.
        * apply Nat.le_add_r.
        * exists r0, tl. split; [reflexivity|]. intros _. now left.
  Qed.
End Ext.

Lemma map_rev_inv_sorted rho : increasing rho -> Forall (fun x => 0 < x) rho -> increasing (map inv (rev rho)).
Proof. apply sorted_rev_inv. Qed.

(** A sampled point: a volume and the pressure of the equation of state at its reciprocal. *)
Definition on_isotherm (press : Q -> num) (v : Q) (p : num) : Prop :=
  exists rho, 0 < rho /\ v * rho == 1 /\ p = press rho.

(** C39: with positive options, whenever the isotherm is returned
    - there is at least one point, volumes are strictly increasing and every pressure belongs to its volume;
    - every volume is above the reciprocal of the maximum density [top] and at most
      2^maxiter times the reciprocal of the minimum density;
    - if the pressure at the largest volume is still above pressure_min, then the
      range was extended maxiter times: the largest volume is above 2^maxiter / top;
    - the number of points is at most max_array_length plus maxiter extensions. *)
Theorem C39_isotherm : forall dmax press o xi vs ps,
  0 < min_density_fraction o -> min_density_fraction o < 1 ->
  0 < density_increment o -> 0 < max_volume_increment o ->
  pressure_vs_volume_arrays dmax press o xi = Ok (vs, ps) ->
  exists top, top_density dmax o = Ok top /\ 0 < top /\ top <= 100000 /\
    vs <> [] /\
    increasing vs /\
    Forall2 (on_isotherm press) vs ps /\
    Forall (fun v => 1 < v * top /\ v * (top * min_density_fraction o) <= pow2 (maxiter o)) vs /\
    ((2 <= extended_npts o)%nat -> ngt (last ps NaN) (Fin (pressure_min o)) = true -> pow2 (maxiter o) < last vs 0 * top) /\
    (length vs <= max_array_length o + maxiter o * (extended_npts o - 1))%nat.
Proof.
  intros dmax press o xi vs ps Hf Hf1 Hd Hv E. unfold pressure_vs_volume_arrays in E.
  destruct (existsb is_nan xi); [discriminate|].
  destruct (top_density dmax o) as [top|] eqn:Et; [|discriminate]. cbn [rbind] in E.
  destruct (Qle_bool (density_increment o) (top - top * min_density_fraction o)) eqn:Er; [|discriminate].
  cbn [negb] in E. apply Qle_bool_iff in Er.
  destruct (density_grid o top) as [rho|] eqn:Eg; [|discriminate]. cbn [rbind] in E.
  destruct (Nat.ltb (max_array_length o) (length rho)) eqn:El; [discriminate|]. apply Nat.ltb_ge in El.
  destruct (extend press _ _ _ rho _) as [[rho' P']|] eqn:Ee; [|discriminate]. cbn [rbind fst snd] in E. injection E as <- <-.
  assert (Ht : 0 < top).
  { destruct (Qlt_le_dec 0 top) as [H|H]; [assumption|]. exfalso.
    assert (top * (1 - min_density_fraction o) <= 0).
    { rewrite <- (Qmult_0_l (1 - min_density_fraction o)). apply Qmult_le_compat_r; lra. }
    lra. }
  assert (Ht5 : top <= 100000).
  { unfold top_density in Et. destruct (match max_density o with None => _ | Some m => _ end) as [[q| | |]|]; try discriminate.
    cbn [rbind] in Et. destruct (Qle_bool q 100000) eqn:Eq; [|discriminate]. injection Et as <-. now apply Qle_bool_iff. }
  destruct (grid_spec o top rho Ht Hf Hd Hv Eg) as (S0 & F0 & N0).
  destruct rho as [|r0 tl]; [congruence|].
  assert (Hm : 0 < top * min_density_fraction o).
  { rewrite <- (Qmult_0_l (min_density_fraction o)). apply Qmult_lt_compat_r; assumption. }
  destruct (extend_spec press _ _ _ top _ _ _ _ _ r0 tl Hm S0 eq_refl F0 eq_refl Ee) as (S1 & P1 & F1 & L1 & r & tl' & Er' & G).
  assert (Hpos : Forall (fun x => 0 < x) rho') by (eapply Forall_impl; [|exact F1]; cbn beta; tauto).
  exists top. split; [reflexivity|]. split; [assumption|]. split; [assumption|].
  split; [|split; [|split; [|split; [|split]]]].
  - subst rho'. cbn [rev]. rewrite map_app. intros C. apply app_eq_nil in C. destruct C; discriminate.
  - apply sorted_rev_inv; assumption.
  - subst P'. rewrite <- map_rev. clear -Hpos. apply Forall_rev in Hpos. induction Hpos; cbn [map]; constructor; [|assumption].
    exists x. split; [assumption|]. split; [|reflexivity]. unfold inv. field. lra.
  - apply Forall_forall. intros v Hx. apply in_map_iff in Hx. destruct Hx as (x & <- & Hx). apply in_rev in Hx.
    rewrite Forall_forall in F1. specialize (F1 x Hx). cbn beta in F1. destruct F1 as (A & B & C). unfold inv. split.
    + setoid_replace (1 / x * top) with (top / x) by (field; lra). apply Qlt_shift_div_l; lra.
    + setoid_replace (1 / x * (top * min_density_fraction o)) with ((top * min_density_fraction o) / x) by (field; lra).
      apply Qle_shift_div_r; [assumption|]. rewrite (Qmult_comm (pow2 _) x). exact A.
  - intros Hn Hp. subst rho' P'. cbn [map rev] in *. rewrite last_last in Hp. rewrite map_app. cbn [map].
    rewrite last_last. destruct (G Hn) as [G'|G']; [congruence|].
    inversion Hpos as [|? ? Hr ?]; subst. inversion F0 as [|? ? Hr0 ?]; subst. cbn beta in Hr0. unfold inv.
    setoid_replace (1 / r * top) with (top / r) by (field; lra). apply Qlt_shift_div_l; [assumption|].
    rewrite Qmult_comm, G'. lra.
  - rewrite map_length, rev_length. cbn [length] in *. lia.
Qed.

(** *** spacing of the volumes *)
Section Steps.
  Variable R : Q -> Q -> Prop.
  Lemma steps_app l1 l2 : Sorted R l1 -> Sorted R l2 ->
    (forall x y l1' l2', l1 = l1' ++ [x] -> l2 = y :: l2' -> R x y) -> Sorted R (l1 ++ l2).
  Proof.
    induction l1 as [|a l1 IH]; intros H1 H2 H; [exact H2|]. inversion H1; subst. cbn. constructor.
    - apply IH; auto. intros x y l1' l2' -> ->. eapply (H x y (a :: l1') l2'); reflexivity.
    - destruct l1 as [|b l1]; cbn.
      + destruct l2 as [|c l2]; constructor. eapply (H a c [] l2); reflexivity.
      + constructor. match goal with H : HdRel _ _ (_ :: _) |- _ => inversion H; assumption end.
  Qed.
  Lemma steps_nth l : Sorted R l -> forall i a b, nth_error l i = Some a -> nth_error l (S i) = Some b -> R a b.
  Proof.
    induction 1 as [|a l S IH H]; intros [|i] x y Hx Hy; try discriminate; cbn in *.
    - injection Hx as <-. destruct l as [|b l]; [discriminate|]. injection Hy as <-. inversion H; assumption.
    - eapply IH; eassumption.
  Qed.
  Lemma steps_of l : (forall i a b, nth_error l i = Some a -> nth_error l (S i) = Some b -> R a b) -> Sorted R l.
  Proof.
    induction l as [|a l IH]; intros H; [constructor|]. constructor.
    - apply IH. intros i. apply (H (S i)).
    - destruct l as [|b l]; constructor. apply (H O); reflexivity.
  Qed.
End Steps.
Lemma vspace_nth l : forall i a b, nth_error l i = Some a -> nth_error l (S i) = Some b -> nth_error (vspace l) i = Some (inv a - inv b).
Proof.
  induction l as [|x l IH]; intros [|i] a b Ha Hb; try discriminate.
  - destruct l as [|y l]; [discriminate|]. cbn in Ha, Hb. injection Ha as <-. injection Hb as <-. reflexivity.
  - destruct l as [|y l]; [destruct i; discriminate|]. apply (IH i a b Ha Hb).
Qed.
Lemma last_above_rest lim l : forall i f res, last_above lim i l f = res ->
  forall j a, nth_error l j = Some a -> (forall k, res = Some k -> (k < i + j)%nat) -> a <= lim.
Proof.
  induction l as [|x l IH]; intros i f res E j a Ha Hk; [destruct j; discriminate|]. cbn in E. destruct j as [|j]; cbn in Ha.
  - injection Ha as ->. destruct (Qle_bool a lim) eqn:Ea; [apply Qle_bool_iff; exact Ea|]. exfalso.
    assert (G : exists k, res = Some k /\ (i <= k)%nat).
    { subst res. clear. assert (X : forall l n i, (n <= i)%nat -> exists k, last_above lim i l (Some n) = Some k /\ (n <= k)%nat).
      { induction l0 as [|y l0 IH]; intros n i0 Hn; cbn; [eauto|]. destruct (Qle_bool y lim); [apply IH; lia|].
        destruct (IH i0 (S i0) ltac:(lia)) as [k [-> Hk]]. exists k. split; [reflexivity|lia]. }
      apply X. lia. }
    destruct G as [k [-> G]]. specialize (Hk k eq_refl). lia.
  - apply (IH _ _ _ E j a Ha). intros k Hr. specialize (Hk k Hr). lia.
Qed.
Lemma arange_nth a b d l i x : arange a b d = Ok l -> nth_error l i = Some x -> x = a + inject_Z (Z.of_nat i) * d.
Proof.
  unfold arange. destruct (Qeq_bool d 0); [discriminate|]. intros E Hx. injection E as <-.
  rewrite nth_error_map in Hx. destruct (nth_error (seq 0 _) i) as [j|] eqn:Ej; [|discriminate]. injection Hx as <-.
  assert (j = i).
  { apply nth_error_nth with (d := O) in Ej as Ej2. assert (L : (i < length (seq 0 (Z.to_nat (Qceiling ((b - a) / d)))))%nat) by (apply nth_error_Some; congruence).
    rewrite seq_length in L. rewrite seq_nth in Ej2 by exact L. lia. }
  subst. reflexivity.
Qed.
Lemma nth_skipn {A} (l : list A) : forall k i, nth_error (skipn k l) i = nth_error l (k + i).
Proof. induction l as [|a l IH]; intros [|k] i; cbn; try reflexivity; [destruct i; reflexivity|apply IH]. Qed.

Lemma grid_steps o top rho : 0 < top -> 0 < min_density_fraction o ->
  0 < density_increment o -> 0 < max_volume_increment o -> density_grid o top = Ok rho ->
  Sorted (fun a b => inv a - inv b <= max_volume_increment o) rho /\
  exists r0 tl, rho = r0 :: tl /\ inv (top * min_density_fraction o) - inv r0 <= max_volume_increment o.
Proof.
  intros Ht Hf Hd Hv E. pose proof (grid_spec o top rho Ht Hf Hd Hv E) as [_ [_ NE]]. unfold density_grid in E.
  set (minrho := top * min_density_fraction o) in *. set (dv := max_volume_increment o) in *.
  assert (Hm : 0 < minrho) by (unfold minrho; nra).
  destruct (arange minrho top (density_increment o)) as [rho0|] eqn:Ea; [|discriminate]. cbn [rbind] in E.
  destruct (Qeq_bool minrho 0); [discriminate|].
  destruct (vspace rho0) as [|v0 vs] eqn:Ev; [discriminate|].
  destruct (last_above dv 0 (v0 :: vs) None) as [k|] eqn:Ek.
  - destruct (nth_error rho0 (S k)) as [r|] eqn:Er; [|discriminate].
    destruct (arange (inv r) (inv minrho) dv) as [vg|] eqn:Eg; [|discriminate]. cbn [rbind] in E. injection E as <-.
    destruct (arange_spec _ _ _ _ Hd Ea) as [_ F0]. destruct (arange_spec _ _ _ _ Hv Eg) as [_ F1].
    assert (Hr : 0 < r). { rewrite Forall_forall in F0. destruct (F0 r (nth_error_In _ _ Er)). lra. }
    assert (P1 : forall x, In x vg -> 0 < x). { intros x Hx. rewrite Forall_forall in F1. destruct (F1 x Hx). pose proof (inv_pos r Hr). lra. }
    replace (k + 2)%nat with (S (S k)) in * by lia.
    assert (TAIL : forall i a b, (k < i)%nat -> nth_error rho0 i = Some a -> nth_error rho0 (S i) = Some b -> inv a - inv b <= dv).
    { intros i a b Hi Ha Hb. pose proof (vspace_nth _ _ _ _ Ha Hb) as Hn. rewrite Ev in Hn.
      apply (last_above_rest dv _ _ _ _ Ek i _ Hn). intros j Hj. injection Hj as <-. lia. }
    split.
    + apply steps_app.
      * (* the evenly spaced volumes *)
        assert (G : Sorted (fun a b => inv a - inv b <= dv) (map inv (rev vg))).
        { assert (X : forall l, (forall i a b, nth_error l i = Some a -> nth_error l (S i) = Some b -> b - a <= dv) -> (forall x, In x l -> 0 < x) ->
             Sorted (fun a b => inv a - inv b <= dv) (map inv (rev l))).
          { induction l as [|a l IH]; intros H P; [constructor|]. cbn [rev]. rewrite map_app. apply steps_app.
            - apply IH; [intros i; apply (H (S i))|intros x Hx; apply P; right; exact Hx].
            - repeat constructor.
            - intros x y l1' l2' E1 E2. injection E2 as <- <-. destruct l as [|b l]; [destruct l1'; discriminate|].
              cbn [rev] in E1. rewrite map_app in E1. apply app_inj_tail in E1. destruct E1 as [_ <-].
              rewrite (inv_inv b), (inv_inv a) by (apply P; cbn; auto). apply (H O); reflexivity. }
          apply X; [|exact P1]. intros i a b Ha Hb. rewrite (arange_nth _ _ _ _ _ _ Eg Ha), (arange_nth _ _ _ _ _ _ Eg Hb).
          replace (Z.of_nat (S i)) with (Z.of_nat i + 1)%Z by lia. rewrite inject_Z_plus. change (inject_Z 1) with 1. lra. }
        exact G.
      * apply steps_of. intros i a b Ha Hb. rewrite nth_skipn in Ha, Hb. apply (TAIL (S (S k) + i)%nat); [lia|exact Ha|].
        replace (S (S (S k) + i)) with (S (S k) + S i)%nat by lia. exact Hb.
      * intros x y l1' l2' E1 E2. destruct vg as [|v vg]; [destruct l1'; discriminate|].
        cbn [rev] in E1. rewrite map_app in E1. apply app_inj_tail in E1. destruct E1 as [_ <-].
        rewrite (inv_inv v) by (apply P1; left; reflexivity).
        pose proof (arange_nth _ _ _ _ O v Eg eq_refl) as Hv0. change (inject_Z (Z.of_nat 0)) with 0 in Hv0.
        assert (Hy : nth_error rho0 (S (S k)) = Some y).
        { pose proof (nth_skipn rho0 (S (S k)) O) as X. rewrite E2, Nat.add_0_r in X. symmetry. exact X. }
        pose proof (TAIL (S k) r y ltac:(lia) Er Hy) as Z. rewrite Hv0. lra.
    + destruct vg as [|v vg'] eqn:Evg.
      * (* impossible: no evenly spaced volume *)
        exfalso. rewrite <- Evg in *.
        assert (Hlt : minrho < r).
        { rewrite (arange_nth _ _ _ _ _ _ Ea Er). pose proof (affine_lt minrho (density_increment o) 0 (S k) Hd ltac:(lia)) as Hk.
          change (inject_Z (Z.of_nat 0)) with 0 in Hk. lra. }
        unfold arange in Eg. destruct (Qeq_bool dv 0); [discriminate|]. injection Eg as Eg. rewrite Evg in Eg. apply map_eq_nil in Eg.
        pose proof (inv_anti minrho r Hm Hlt) as Hi.
        assert (Hq : 0 < (inv minrho - inv r) / dv) by (apply Qlt_shift_div_l; lra).
        pose proof (Qle_ceiling ((inv minrho - inv r) / dv)) as Hc.
        assert (Hz : 0 < inject_Z (Qceiling ((inv minrho - inv r) / dv))) by lra.
        rewrite <- (Zlt_Qlt 0) in Hz. destruct (Z.to_nat _) eqn:En in Eg; [lia|discriminate].
      * rewrite <- Evg in *.
        destruct (rev vg) as [|w ws] eqn:Ew; [apply (f_equal (@length Q)) in Ew; rewrite rev_length, Evg in Ew; discriminate|].
        cbn [map app]. exists (inv w). eexists. split; [reflexivity|].
        assert (Evg2 : vg = rev ws ++ [w]) by (rewrite <- (rev_involutive vg), Ew; reflexivity).
        assert (Hw : nth_error vg (length ws) = Some w).
        { rewrite Evg2. rewrite nth_error_app2 by (rewrite rev_length; lia). rewrite rev_length, Nat.sub_diag. reflexivity. }
        assert (Len : length vg = S (length ws)) by (rewrite Evg2, app_length, rev_length; cbn; lia).
        rewrite (inv_inv w) by (apply P1; eapply nth_error_In; exact Hw).
        rewrite (arange_nth _ _ _ _ _ _ Eg Hw). unfold arange in Eg. destruct (Qeq_bool dv 0); [discriminate|]. injection Eg as Eg.
        rewrite <- Eg, map_length, seq_length in Len.
        assert (Z1 : (Qceiling ((inv minrho - inv r) / dv) = Z.of_nat (length ws) + 1)%Z) by lia.
        pose proof (Qle_ceiling ((inv minrho - inv r) / dv)) as Hc. rewrite Z1, inject_Z_plus in Hc. change (inject_Z 1) with 1 in Hc.
        pose proof (Qmult_le_compat_r _ _ dv Hc ltac:(lra)) as Hm2.
        setoid_replace ((inv minrho - inv r) / dv * dv) with (inv minrho - inv r) in Hm2 by (field; lra). lra.
  - injection E as <-. split.
    + apply steps_of. intros i a b Ha Hb. pose proof (vspace_nth _ _ _ _ Ha Hb) as Hn. rewrite Ev in Hn.
      apply (last_above_rest dv _ _ _ _ Ek i _ Hn). intros j Hj. discriminate.
    + destruct rho0 as [|r0 tl]; [contradiction|]. exists r0, tl. split; [reflexivity|].
      pose proof (arange_nth _ _ _ _ O r0 Ea eq_refl) as H0. change (inject_Z (Z.of_nat 0)) with 0 in H0.
      assert (H1 : r0 == minrho) by (rewrite H0; lra). apply inv_compat in H1. lra.
Qed.
Lemma extend_suffix press n : forall npts pmin rho P rho' P', extend press n npts pmin rho P = Ok (rho', P') -> exists pre, rho' = pre ++ rho.
Proof.
  induction n as [|n IH]; intros npts pmin rho P rho' P' E; cbn [extend] in E.
  - injection E as <- <-. exists []. reflexivity.
  - destruct P as [|p0 P]; [discriminate|]. destruct rho as [|r0 rho]; [discriminate|].
    destruct (ngt p0 (Fin pmin)).
    + apply IH in E. destruct E as [pre ->]. eexists. rewrite app_assoc. reflexivity.
    + injection E as <- <-. exists []. reflexivity.
Qed.
Lemma increasing_nth (l : list Q) : increasing l -> forall i j a b, (i <= j)%nat -> nth_error l i = Some a -> nth_error l j = Some b -> a <= b.
Proof.
  induction 1 as [|x l S IH F]; intros i j a b Hij Ha Hb; [destruct i; discriminate|].
  destruct i as [|i], j as [|j]; cbn in *; try lia.
  - injection Ha as <-. injection Hb as <-. lra.
  - injection Ha as <-. rewrite Forall_forall in F. specialize (F b (nth_error_In _ _ Hb)). lra.
  - apply (IH i j a b); [lia|assumption..].
Qed.

(** C39, spacing: up to the reciprocal of the minimum density, neighbouring volumes are at
    most max_volume_increment apart. *)
Theorem C39_spacing : forall dmax press o xi vs ps top i v w,
  0 < min_density_fraction o -> min_density_fraction o < 1 ->
  0 < density_increment o -> 0 < max_volume_increment o ->
  pressure_vs_volume_arrays dmax press o xi = Ok (vs, ps) -> top_density dmax o = Ok top ->
  nth_error vs i = Some v -> nth_error vs (S i) = Some w -> w * (top * min_density_fraction o) <= 1 ->
  w - v <= max_volume_increment o.
Proof.
  intros dmax press o xi vs ps top i v w Hf Hf1 Hd Hv E Et Hi Hw Hb. unfold pressure_vs_volume_arrays in E.
  destruct (existsb is_nan xi); [discriminate|]. rewrite Et in E. cbn [rbind] in E.
  destruct (Qle_bool (density_increment o) (top - top * min_density_fraction o)) eqn:Er; [|discriminate].
  cbn [negb] in E. apply Qle_bool_iff in Er.
  destruct (density_grid o top) as [rho|] eqn:Eg; [|discriminate]. cbn [rbind] in E.
  destruct (Nat.ltb (max_array_length o) (length rho)); [discriminate|].
  destruct (extend press (maxiter o) (extended_npts o) (pressure_min o) rho (map press rho)) as [[rho' P']|] eqn:Ex; [|discriminate].
  cbn [rbind fst snd] in E. injection E as <- <-.
  assert (Ht : 0 < top). { destruct (Qlt_le_dec 0 top) as [H|H]; [exact H|]. nra. }
  assert (Hm : 0 < top * min_density_fraction o) by nra.
  destruct (grid_spec o top rho Ht Hf Hd Hv Eg) as (S1 & F1 & _).
  destruct (grid_steps o top rho Ht Hf Hd Hv Eg) as (G1 & r0 & tl & Erho & G2).
  pose proof (extend_spec press (maxiter o) (extended_npts o) (pressure_min o) top _ _ _ _ _ _ _ Hm S1 eq_refl F1 Erho Ex) as (S2 & _ & F2 & _).
  destruct (extend_suffix _ _ _ _ _ _ _ _ Ex) as [pre Epre].
  rewrite nth_error_map in Hi, Hw.
  destruct (nth_error (rev rho') i) as [x|] eqn:Nx; [|discriminate]. injection Hi as <-.
  destruct (nth_error (rev rho') (S i)) as [y|] eqn:Ny; [|discriminate]. injection Hw as <-.
  assert (Len : (S i < length rho')%nat) by (rewrite <- rev_length; apply nth_error_Some; congruence).
  assert (REV : forall k z, (k < length rho')%nat -> nth_error (rev rho') k = Some z -> nth_error rho' (length rho' - S k) = Some z).
  { intros k z Hk Hz. apply nth_error_nth with (d := z) in Hz. rewrite rev_nth in Hz by exact Hk. transitivity (Some (nth (length rho' - S k) rho' z)); [apply nth_error_nth'; lia|f_equal; exact Hz]. }
  apply REV in Nx; [|lia]. apply REV in Ny; [|lia]. set (j := (length rho' - S (S i))%nat) in *.
  replace (length rho' - S i)%nat with (S j) in Nx by lia.
  assert (Px : 0 < x /\ 0 < y).
  { rewrite Forall_forall in F2. destruct (F2 x (nth_error_In _ _ Nx)) as (_ & ? & _). destruct (F2 y (nth_error_In _ _ Ny)) as (_ & ? & _). split; assumption. }
  destruct Px as [Px Py].
  destruct (Nat.lt_ge_cases j (length pre)) as [Hj|Hj].
  - assert (N0 : nth_error rho' (length pre) = Some r0).
    { rewrite Epre, nth_error_app2, Nat.sub_diag, Erho by lia. reflexivity. }
    assert (Hx : x <= r0) by (apply (increasing_nth rho' S2 (S j) (length pre)); [lia|assumption..]).
    assert (Ix : inv r0 <= inv x).
    { destruct (Qlt_le_dec x r0) as [H|H]; [apply Qlt_le_weak, inv_anti; assumption|]. assert (Q : x == r0) by lra. apply inv_compat in Q. lra. }
    assert (Iy : inv y <= inv (top * min_density_fraction o)).
    { unfold inv at 2. apply Qle_shift_div_l; [exact Hm|exact Hb]. }
    lra.
  - apply (steps_nth _ _ G1 (j - length pre)%nat y x).
    + rewrite Epre, nth_error_app2 in Ny by exact Hj. exact Ny.
    + rewrite Epre, nth_error_app2 in Nx by lia. replace (S (j - length pre)) with (S j - length pre)%nat by lia. exact Nx.
Qed.
Print Assumptions C39_spacing.

(** C39, refusals: undefined mole fractions, a maximum density that is infeasible or undefined, or a
    range smaller than the increment. *)
Theorem C39_refused : forall dmax press o xi,
  In NaN xi \/
  (exists m, (max_density o = Some m /\ neqb m (Fin 0) = false \/
              (max_density o = None \/ max_density o = Some (Fin 0)) /\ dmax = Ok m) /\
     (m = NaN \/ m = PInf \/
      exists q, m = Fin q /\ (100000 < q \/ q - q * min_density_fraction o < density_increment o))) ->
  pressure_vs_volume_arrays dmax press o xi = Err ValueError.
Proof.
  intros dmax press o xi H. unfold pressure_vs_volume_arrays.
  destruct H as [H|(m & Hm & H)].
  - assert (E : existsb is_nan xi = true) by (apply existsb_exists; exists NaN; auto). rewrite E. reflexivity.
  - destruct (existsb is_nan xi); [reflexivity|]. unfold top_density.
    assert (E : match max_density o with None => dmax | Some m0 => if neqb m0 (Fin 0) then dmax else Ok m0 end = Ok m).
    { destruct Hm as [[-> ->]|[[-> | ->] ->]]; reflexivity. }
    rewrite E. cbn [rbind]. destruct H as [->|[->|(q & -> & H)]]; [reflexivity..|].
    destruct (Qle_bool q 100000) eqn:Eq; [|reflexivity]. cbn [rbind]. apply Qle_bool_iff in Eq.
    destruct H as [H|H]; [lra|]. apply Qle_bool_false in H. rewrite H. reflexivity.
Qed.

Lemma vspace_length l : length (vspace l) = (length l - 1)%nat.
Proof. induction l as [|a [|b l] IH]; [reflexivity..|]. cbn [vspace length] in *. rewrite IH. lia. Qed.

Lemma arange_ok a b d : 0 < d -> exists l, arange a b d = Ok l /\
  length l = Z.to_nat (Qceiling ((b - a) / d)).
Proof.
  intros Hd. unfold arange. destruct (Qeq_bool d 0) eqn:E; [apply Qeq_bool_iff in E; lra|].
  eexists. split; [reflexivity|]. rewrite map_length, seq_length. reflexivity.
Qed.

Lemma ceil_count x : 0 <= x -> inject_Z (Z.of_nat (Z.to_nat (Qceiling x))) < x + 1.
Proof.
  intros H. pose proof (Qceiling_lt x) as Hc. pose proof (Qle_ceiling x) as Hd.
  assert (Hz : inject_Z 0 <= inject_Z (Qceiling x)) by (change (inject_Z 0) with 0; lra).
  rewrite <- Zle_Qle in Hz. rewrite Z2Nat.id by exact Hz.
  unfold Z.sub in Hc. rewrite inject_Z_plus in Hc. change (inject_Z (- (1))) with (-(1)) in Hc. lra.
Qed.

Lemma grid_ok o top : 0 < top -> 0 < min_density_fraction o -> 0 < density_increment o ->
  0 < max_volume_increment o -> density_increment o < top - top * min_density_fraction o ->
  exists rho, density_grid o top = Ok rho /\
    inject_Z (Z.of_nat (length rho)) <=
      (top - top * min_density_fraction o) / density_increment o + 1
      + (/ (top * min_density_fraction o) / max_volume_increment o + 1).
Proof.
  intros Ht Hf Hd Hv Hr. unfold density_grid. set (minrho := top * min_density_fraction o) in *.
  assert (Hm : 0 < minrho) by (unfold minrho; nra).
  destruct (arange_ok minrho top _ Hd) as (rho0 & E0 & L0). rewrite E0. cbn [rbind].
  destruct (arange_spec _ _ _ _ Hd E0) as [S0 F0].
  destruct (Qeq_bool minrho 0) eqn:Eq; [apply Qeq_bool_iff in Eq; lra|].
  assert (H1 : 1 < (top - minrho) / density_increment o) by (apply Qlt_shift_div_l; lra).
  assert (L2 : (2 <= length rho0)%nat).
  { rewrite L0. pose proof (Qle_ceiling ((top - minrho) / density_increment o)) as Hc.
    assert (Hz : inject_Z 1 < inject_Z (Qceiling ((top - minrho) / density_increment o)))
      by (change (inject_Z 1) with 1; lra).
    rewrite <- Zlt_Qlt in Hz. lia. }
  assert (B0 : inject_Z (Z.of_nat (length rho0)) < (top - minrho) / density_increment o + 1).
  { rewrite L0. apply ceil_count. lra. }
  assert (B1 : 0 < / minrho / max_volume_increment o).
  { apply Qlt_shift_div_l; [exact Hv|]. pose proof (Qinv_lt_0_compat minrho Hm). lra. }
  destruct (vspace rho0) as [|v0 vs] eqn:Ev.
  { pose proof (vspace_length rho0) as HL. rewrite Ev in HL. cbn in HL. lia. }
  destruct (last_above _ 0 (v0 :: vs) None) as [k|] eqn:Ek.
  2:{ eexists. split; [reflexivity|]. lra. }
  assert (Hk : (S k < length rho0)%nat).
  { apply last_above_lt in Ek; [|discriminate]. rewrite <- Ev, vspace_length in Ek. lia. }
  destruct (nth_error rho0 (S k)) as [r|] eqn:Er.
  2:{ apply nth_error_None in Er. lia. }
  assert (Hrr : minrho <= r /\ r < top).
  { rewrite Forall_forall in F0. apply F0. eapply nth_error_In. eassumption. }
  destruct (arange_ok (inv r) (inv minrho) _ Hv) as (vg & E1 & L1). rewrite E1. cbn [rbind].
  eexists. split; [reflexivity|]. rewrite app_length, map_length, rev_length, skipn_length, L1.
  assert (Hi : inv r <= inv minrho).
  { destruct (Qlt_le_dec minrho r) as [Hx|Hx].
    - pose proof (inv_anti _ _ Hm Hx). lra.
    - assert (Hq : r == minrho) by lra. apply inv_compat in Hq. lra. }
  assert (Hx : 0 <= (inv minrho - inv r) / max_volume_increment o) by (apply Qle_shift_div_l; lra).
  pose proof (ceil_count _ Hx) as Hc.
  assert (Hy : (inv minrho - inv r) / max_volume_increment o <= / minrho / max_volume_increment o).
  { assert (Hp : 0 < inv r) by (apply inv_pos; lra).
    assert (Hmm : inv minrho == / minrho) by (unfold inv; field; lra).
    apply Qmult_le_compat_r; [lra|]. apply Qlt_le_weak, Qinv_lt_0_compat, Hv. }
  rewrite Nat2Z.inj_add, inject_Z_plus.
  assert (Hs : inject_Z (Z.of_nat (length rho0 - (k + 2))) <= inject_Z (Z.of_nat (length rho0)))
    by (apply of_nat_le; lia).
  lra.
Qed.

Lemma extend_ok press n npts pmin : forall rho P, rho <> [] -> P <> [] ->
  exists r, extend press n npts pmin rho P = Ok r.
Proof.
  induction n as [|n IH]; intros rho P Hr HP; [eexists; reflexivity|].
  destruct rho as [|r0 rho]; [congruence|]. destruct P as [|p0 P]; [congruence|]. cbn [extend].
  destruct (ngt p0 (Fin pmin)); [|eexists; reflexivity].
  apply IH; intros C; apply app_eq_nil in C; destruct C; discriminate.
Qed.

(** C39, when the isotherm is returned: with positive increments and a positive fraction, every
    maximum density whose range is larger than the increment gives an isotherm, provided that the
    longest array allowed holds the two grids; a range of exactly one increment is refused. *)
Theorem C39_accepted : forall dmax press o xi q,
  ~ In NaN xi ->
  (max_density o = Some (Fin q) \/ (max_density o = None \/ max_density o = Some (Fin 0)) /\ dmax = Ok (Fin q)) ->
  0 < q -> q <= 100000 -> 0 < min_density_fraction o -> 0 < density_increment o -> 0 < max_volume_increment o ->
  (density_increment o < q - q * min_density_fraction o ->
   (q - q * min_density_fraction o) / density_increment o + / (q * min_density_fraction o) / max_volume_increment o + 2
     <= inject_Z (Z.of_nat (max_array_length o)) ->
   exists vs ps, pressure_vs_volume_arrays dmax press o xi = Ok (vs, ps)) /\
  (density_increment o < q - q * min_density_fraction o ->
   (exists vs ps, pressure_vs_volume_arrays dmax press o xi = Ok (vs, ps)) \/
   pressure_vs_volume_arrays dmax press o xi = Err ValueError) /\
  (density_increment o == q - q * min_density_fraction o ->
   pressure_vs_volume_arrays dmax press o xi = Err ValueError).
Proof.
  intros dmax press o xi q Hn Hm Hq Hq2 Hf Hd Hv.
  assert (En : existsb is_nan xi = false).
  { apply not_true_is_false. intros C. apply existsb_exists in C. destruct C as (x & Hin & Hx).
    destruct x; try discriminate. contradiction. }
  assert (Et : top_density dmax o = Ok q).
  { unfold top_density.
    assert (E : match max_density o with None => dmax | Some m0 => if neqb m0 (Fin 0) then dmax else Ok m0 end = Ok (Fin q)).
    { destruct Hm as [->|[[-> | ->] ->]]; try reflexivity. cbn [neqb].
      destruct (Qeq_bool q 0) eqn:E; [apply Qeq_bool_iff in E; lra|reflexivity]. }
    rewrite E. cbn [rbind]. apply Qle_bool_iff in Hq2. rewrite Hq2. reflexivity. }
  unfold pressure_vs_volume_arrays. rewrite En, Et. cbn [rbind].
  assert (G : density_increment o < q - q * min_density_fraction o ->
    Qle_bool (density_increment o) (q - q * min_density_fraction o) = true).
  { intros H. apply Qle_bool_iff. lra. }
  split; [|split].
  - intros Hr HL. rewrite (G Hr). cbn [negb].
    destruct (grid_ok o q Hq Hf Hd Hv Hr) as (rho & Eg & Lg). rewrite Eg. cbn [rbind].
    destruct (grid_spec _ _ _ Hq Hf Hd Hv Eg) as (_ & _ & Hne).
    destruct (Nat.ltb (max_array_length o) (length rho)) eqn:El.
    { apply Nat.ltb_lt in El. apply of_nat_lt in El. lra. }
    destruct (extend_ok press (maxiter o) (extended_npts o) (pressure_min o) rho (map press rho)) as [e ->].
    { exact Hne. } { intros C. apply map_eq_nil in C. contradiction. }
    cbn [rbind]. eexists _, _. reflexivity.
  - intros Hr. rewrite (G Hr). cbn [negb].
    destruct (grid_ok o q Hq Hf Hd Hv Hr) as (rho & Eg & Lg). rewrite Eg. cbn [rbind].
    destruct (grid_spec _ _ _ Hq Hf Hd Hv Eg) as (_ & _ & Hne).
    destruct (Nat.ltb (max_array_length o) (length rho)); [right; reflexivity|left].
    destruct (extend_ok press (maxiter o) (extended_npts o) (pressure_min o) rho (map press rho)) as [e ->].
    { exact Hne. } { intros C. apply map_eq_nil in C. contradiction. }
    cbn [rbind]. eexists _, _. reflexivity.
  - intros Hr. assert (E : Qle_bool (density_increment o) (q - q * min_density_fraction o) = true)
      by (apply Qle_bool_iff; lra).
    rewrite E. cbn [negb]. unfold density_grid.
    destruct (arange_ok (q * min_density_fraction o) q _ Hd) as (rho0 & E0 & L0). rewrite E0. cbn [rbind].
    destruct (Qeq_bool (q * min_density_fraction o) 0) eqn:Eq; [apply Qeq_bool_iff in Eq; nra|].
    assert (H1 : (q - q * min_density_fraction o) / density_increment o == 1).
    { rewrite <- Hr. field. lra. }
    rewrite (Qceiling_comp _ _ H1) in L0. change (Z.to_nat (Qceiling 1)) with 1%nat in L0.
    destruct rho0 as [|a [|b t]]; [discriminate| |discriminate]. reflexivity.
Qed.
Print Assumptions C39_accepted.

(** A run with four densities in volume-controlled spacing and an extension. *)
Definition ex_opts := {| min_density_fraction := 1#10; density_increment := 3; max_volume_increment := 1#4;
  pressure_min := 1; maxiter := 1; extended_npts := 3; max_density := None; max_array_length := 100 |}.
Example C39_example :
  match pressure_vs_volume_arrays (Ok (Fin 10)) (fun r => Fin (2 * r)) ex_opts [Fin 1] with
  | Ok (vs, ps) => forallb (fun p => Qeq_bool (fst p) (snd p)) (combine vs [1#7; 1#4; 2#4; 3#4; 1; 3#2]) = true /\ length vs = 6%nat
  | Err _ => False
  end.
Proof. vm_compute. split; reflexivity. Qed.

Print Assumptions C39_isotherm.
Print Assumptions C39_refused.

(** The hypotheses of [C39_accepted] are met by the run above. *)
Example C39_accepted_nonvacuous :
  exists vs ps, pressure_vs_volume_arrays (Ok (Fin 10)) (fun r => Fin (2 * r)) ex_opts [Fin 1] = Ok (vs, ps).
Proof.
  apply (C39_accepted (Ok (Fin 10)) (fun r => Fin (2 * r)) ex_opts [Fin 1] 10); cbn.
  - intros [C|[]]. discriminate.
  - right. split; [left|]; reflexivity.
  - reflexivity. - discriminate. - reflexivity. - reflexivity. - reflexivity. - reflexivity. - discriminate.
Qed.
