(** Property theorem C68: numerical partial-density derivatives. *)
From Verif Require Import Base PartialDensityModel.
From Coq Require Import Reals Lra Psatz.
From Coquelicot Require Import Coquelicot.
Open Scope R_scope.

(** The function of the partial densities that the caller's function represents: its
    value at total density sum(rho_j) and mole fractions rho_j / sum(rho_j), with the
    density of component [i] set to [r] and the others kept. *)
Definition along (func : R -> R -> list R -> R) (T : R) (rhos : list R) (i : nat) (r : R) : R :=
  let rs := firstn i rhos ++ r :: skipn (S i) rhos in
  func (fold_right Rplus 0 rs) T (map (fun x => x / fold_right Rplus 0 rs) rs).

Lemma adjust_split i f l d : (i < length l)%nat ->
  adjust i f l = firstn i l ++ f (nth i l d) :: skipn (S i) l.
Proof.
  revert i. induction l as [|x xs IH]; intros i H; cbn in H; [lia|].
  destruct i as [|i]; [reflexivity|]. cbn [adjust firstn nth skipn app]. rewrite (IH i) by lia. reflexivity.
Qed.

Lemma pd_plain_eq func eps xi rho T dy i :
  (i < length xi)%nat -> rho <> 0 -> nth i xi 0 <> 0 ->
  let rhos := map (fun x => rho * x) xi in
  let r := rho * nth i xi 0 in
  pd_plain func eps xi rho T dy i = (along func T rhos i (r + dy) - along func T rhos i (r - dy)) / (2 * dy).
Proof.
  intros Hi Hr Hx rhos r. unfold pd_plain. destruct (Req_EM_T (nth i xi 0) 0); [contradiction|].
  assert (Hl : (i < length rhos)%nat) by (unfold rhos; rewrite map_length; exact Hi).
  assert (Hn : nth i rhos 0 = r).
  { unfold rhos, r. rewrite (nth_indep _ 0 ((fun x => rho * x) 0)) by exact Hl. rewrite map_nth. reflexivity. }
  assert (Hrn : r <> 0) by (apply Rmult_integral_contrapositive; split; assumption).
  fold rhos. rewrite !(adjust_split i _ rhos 0) by exact Hl. rewrite Hn.
  destruct (Req_EM_T r 0); [contradiction|]. unfold along, wrapper, rsum. reflexivity.
Qed.

Lemma pd_log_eq func eps xi rho T dy i :
  (i < length xi)%nat -> rho <> 0 -> nth i xi 0 <> 0 ->
  let rhos := map (fun x => rho * x) xi in
  let r := rho * nth i xi 0 in
  pd_log func eps xi rho T dy i
    = (along func T rhos i (r * exp dy) - along func T rhos i (r * exp (- dy))) / (2 * dy) / r.
Proof.
  intros Hi Hr Hx rhos r. unfold pd_log. destruct (Req_EM_T (nth i xi 0) 0); [contradiction|].
  assert (Hl : (i < length rhos)%nat) by (unfold rhos; rewrite map_length; exact Hi).
  assert (Hn : nth i rhos 0 = r).
  { unfold rhos, r. rewrite (nth_indep _ 0 ((fun x => rho * x) 0)) by exact Hl. rewrite map_nth. reflexivity. }
  fold rhos. rewrite !(adjust_split i _ rhos 0) by exact Hl. rewrite Hn. unfold along, wrapper, rsum. reflexivity.
Qed.

(** C68, meaning: entry [i] is the central difference quotient of the function of
    component [i]'s density alone, all other densities fixed; in the logarithm of that
    density when the log method is chosen.  An absent component gets machine epsilon. *)
Theorem C68_difference_quotient : forall func eps xi rho T dy lg i,
  (i < length xi)%nat -> rho <> 0 ->
  let rhos := map (fun x => rho * x) xi in
  let r := rho * nth i xi 0 in
  let d := nth i (partial_density_central_difference func eps xi rho T dy lg) 0 in
  (nth i xi 0 = 0 -> d = eps) /\
  (nth i xi 0 <> 0 ->
     d = if lg then (along func T rhos i (r * exp dy) - along func T rhos i (r * exp (- dy))) / (2 * dy) / r
         else (along func T rhos i (r + dy) - along func T rhos i (r - dy)) / (2 * dy)).
Proof.
  intros func eps xi rho T dy lg i Hi Hr rhos r d.
  assert (E : d = if lg then pd_log func eps xi rho T dy i else pd_plain func eps xi rho T dy i).
  { unfold d, partial_density_central_difference.
    set (f := fun k => if lg then pd_log func eps xi rho T dy k else pd_plain func eps xi rho T dy k).
    rewrite (nth_indep _ 0 (f O)) by (rewrite map_length, seq_length; exact Hi).
    rewrite map_nth. rewrite seq_nth by exact Hi. unfold f. reflexivity. }
  split.
  - intros Hx. rewrite E. unfold pd_log, pd_plain. destruct (Req_EM_T (nth i xi 0) 0); [|contradiction].
    destruct lg; reflexivity.
  - intros Hx. rewrite E. destruct lg; [apply pd_log_eq|apply pd_plain_eq]; assumption.
Qed.
Print Assumptions C68_difference_quotient.

(** Taylor remainder of the central difference *)
Lemma central_error f r h H M :
  0 < h < H ->
  (forall t, r - H < t < r + H -> forall k, (k <= 3)%nat -> ex_derive_n f k t) ->
  (forall t, r - h <= t <= r + h -> Rabs (Derive_n f 3 t) <= M) ->
  Rabs ((f (r + h) - f (r - h)) / (2 * h) - Derive f r) <= M * h ^ 2 / 6.
Proof.
  intros Hh D B.
  destruct (Taylor_Lagrange f 2 r (r + h)) as [z1 [[Hz1 Hz1'] E1]]; [lra|intros; apply D; [lra|assumption]|].
  set (g := fun x => f (- x)).
  assert (L : forall t n, - r - H < t < - r + H -> (n <= 3)%nat ->
     locally (- t) (fun y => forall k, (k <= n)%nat -> ex_derive_n f k y)).
  { intros t n Ht Hn.
    assert (P : 0 < Rmin (- t - (r - H)) (r + H - - t)) by (apply Rmin_glb_lt; lra).
    exists (mkposreal _ P). intros y Hy k Hk. apply D; [|lia].
    apply Rabs_lt_between in Hy. cbn in Hy.
    unfold minus, plus, opp in Hy; cbn in Hy.
    pose proof (Rmin_l (- t - (r - H)) (r + H - - t)). pose proof (Rmin_r (- t - (r - H)) (r + H - - t)). lra. }
  destruct (Taylor_Lagrange g 2 (- r) (- r + h)) as [z2 [[Hz2 Hz2'] E2]]; [lra| |].
  { intros t Ht k Hk. apply ex_derive_n_comp_opp. apply L; [lra|exact Hk]. }
  assert (G : forall t n, - r - H < t < - r + H -> (n <= 3)%nat -> Derive_n g n t = (-1) ^ n * Derive_n f n (- t)).
  { intros t n Ht Hn. apply Derive_n_comp_opp. apply L; assumption. }
  assert (E2' : f (r - h) = f r - h * Derive f r + h ^ 2 / 2 * Derive_n f 2 r - h ^ 3 / 6 * Derive_n f 3 (- z2)).
  { replace (r - h) with (- (- r + h)) by ring. change (f (- (- r + h))) with (g (- r + h)). rewrite E2.
    cbn [sum_f_R0]. rewrite !G by (try lra; lia). rewrite Ropp_involutive.
    change (Derive_n f 0 r) with (f r). change (Derive_n f 1 r) with (Derive f r).
    replace (- r + h - - r) with h by ring. cbn [fact INR Nat.mul Nat.add]. cbn. field. }
  assert (E1' : f (r + h) = f r + h * Derive f r + h ^ 2 / 2 * Derive_n f 2 r + h ^ 3 / 6 * Derive_n f 3 z1).
  { rewrite E1. cbn [sum_f_R0]. replace (r + h - r) with h by ring.
    change (Derive_n f 0 r) with (f r). change (Derive_n f 1 r) with (Derive f r).
    cbn [fact INR Nat.mul Nat.add]. cbn. field. }
  rewrite E1', E2'.
  match goal with |- Rabs ?x <= _ => replace x with (h ^ 2 / 12 * (Derive_n f 3 z1 + Derive_n f 3 (- z2))) by (field; lra) end.
  assert (P : 0 < h ^ 2 / 12) by (pose proof (pow_lt h 2); lra).
  rewrite Rabs_mult, (Rabs_pos_eq (h ^ 2 / 12)) by lra.
  assert (B1 := B z1 ltac:(lra)). assert (B2 := B (- z2) ltac:(lra)).
  pose proof (Rabs_triang (Derive_n f 3 z1) (Derive_n f 3 (- z2))).
  apply Rle_trans with (h ^ 2 / 12 * (2 * M)); [apply Rmult_le_compat_l; lra|right; field].
Qed.

(** C68, accuracy: with the plain method the error against the true partial derivative
    is at most M h^2 / 6, where M bounds the third derivative on the interval used. *)
Theorem C68_error_bound : forall func eps xi rho T dy i H M,
  (i < length xi)%nat -> rho <> 0 -> nth i xi 0 <> 0 ->
  let f := along func T (map (fun x => rho * x) xi) i in
  let r := rho * nth i xi 0 in
  0 < dy < H ->
  (forall t, r - H < t < r + H -> forall k, (k <= 3)%nat -> ex_derive_n f k t) ->
  (forall t, r - dy <= t <= r + dy -> Rabs (Derive_n f 3 t) <= M) ->
  Rabs (nth i (partial_density_central_difference func eps xi rho T dy false) 0 - Derive f r) <= M * dy ^ 2 / 6.
Proof.
  intros func eps xi rho T dy i H M Hi Hr Hx f r Hd D B.
  destruct (C68_difference_quotient func eps xi rho T dy false i Hi Hr) as [_ E]. rewrite (E Hx).
  apply (central_error f r dy H M Hd D B).
Qed.
Print Assumptions C68_error_bound.

(** Non-vacuity: a van-der-Waals-like energy A = rho^2 x_0 x_1 + rho; its derivative in
    rho_0 at (1, 3) is 3 + 1. *)
Example C68_case : forall eps dy, 0 < dy -> 
  nth 0 (partial_density_central_difference (fun rho _ x => rho * rho * nth 0 x 0 * nth 1 x 0 + rho) eps [1/4; 3/4] 4 300 dy false) 0 = 4
  \/ dy >= 4.
Proof.
  intros eps dy Hd. destruct (Rlt_dec dy 4) as [L|L]; [left|right; lra].
  assert (H0 : nth 0 [1 / 4; 3 / 4] 0 <> 0) by (cbn; lra).
  destruct (C68_difference_quotient (fun rho _ x => rho * rho * nth 0 x 0 * nth 1 x 0 + rho) eps [1/4; 3/4] 4 300 dy false 0)
    as [_ E]; [cbn; lia|lra|]. rewrite (E H0). unfold along. cbn.
  replace (4 * (1 / 4) + dy + (4 * (3 / 4) + 0)) with (4 + dy) by field.
  replace (4 * (1 / 4) - dy + (4 * (3 / 4) + 0)) with (4 - dy) by field.
  field. lra.
Qed.
