(** Properties of the consistency tests (C105, C106), of the mixture fugacity coefficient (C107) and of activity coefficients (C108) *)
From Coq Require Import Reals Lra Lia.
From Coquelicot Require Import Coquelicot.
From Verif Require Import Base EosToolboxModel RSum PRModel PRSpec PRProofs PRProps PRThermo GibbsDuhemProps
  PartialDensityModel SaftEosModel ConsistModel.
Open Scope R_scope.

(** ** Specification *)
(** [test], as a function of the step, gives results that approach [l] when the step is reduced *)
Definition approaches (test : R -> result R) (l : R) : Prop :=
  forall eps, 0 < eps -> exists d, 0 < d /\ forall h, 0 < h < d -> exists r, test h = Ok r /\ Rabs (r - l) < eps.
(** sum of a list *)
Definition total_of (l : list R) : R := fold_right Rplus 0 l.
(** sum of x_i ln phi_i *)
Definition mixture_log (xi v : list R) : R := total_of (map (fun p => fst p * ln (snd p)) (combine xi v)).

Lemma approaches_formula test f l : (exists d, 0 < d /\ forall h, 0 < h < d -> test h = Ok (f h)) ->
  filterlim f (at_right 0) (locally l) -> approaches test l.
Proof.
  intros (d0 & Hd0 & Ht) Hf eps He. destruct (Hf (ball l (mkposreal eps He))) as (d1 & H1).
  { apply locally_ball. }
  exists (Rmin d0 d1). split; [apply Rmin_pos; [assumption|apply cond_pos]|].
  intros h (Hh & Hd). exists (f h). split; [apply Ht; split; [assumption|]; eapply Rlt_le_trans; [exact Hd|apply Rmin_l]|].
  apply H1; [|exact Hh]. change (Rabs (h - 0) < d1). rewrite Rminus_0_r, Rabs_pos_eq by lra. eapply Rlt_le_trans; [exact Hd|apply Rmin_r].
Qed.

(** the symmetric difference quotient of a derivable function *)
Lemma symmetric_quotient f x l : is_derive f x l -> filterlim (fun h => (f (x + h) - f (x - h)) / (2 * h)) (at_right 0) (locally l).
Proof.
  intros H. apply is_derive_Reals in H. intros P (e & He).
  assert (He2 : 0 < e / 2) by (pose proof (cond_pos e); lra).
  destruct (H (e / 2) He2) as (d & Hd). exists d. intros h Hb Hh. apply He.
  assert (Hh' : Rabs h < d) by (change (Rabs (h - 0) < d) in Hb; rewrite Rminus_0_r in Hb; exact Hb).
  change (Rabs ((f (x + h) - f (x - h)) / (2 * h) - l) < e).
  pose proof (Hd h (Rgt_not_eq _ _ Hh) Hh') as A.
  assert (Nh : - h <> 0) by lra.
  pose proof (Hd (- h) Nh) as B. rewrite Rabs_Ropp in B. specialize (B Hh'). 
  replace (x + - h) with (x - h) in B by ring.
  replace ((f (x + h) - f (x - h)) / (2 * h) - l) with (/ 2 * (((f (x + h) - f x) / h - l) + ((f (x - h) - f x) / - h - l))) by (field; lra).
  rewrite Rabs_mult, (Rabs_pos_eq (/ 2)) by lra.
  pose proof (Rabs_triang ((f (x + h) - f x) / h - l) ((f (x - h) - f x) / - h - l)). lra.
Qed.

Lemma lim_shift f c l : filterlim f (at_right 0) (locally l) -> filterlim (fun h => c - f h) (at_right 0) (locally (c - l)).
Proof.
  intros H. apply (filterlim_comp _ _ _ f (fun y => c - y) _ (locally l)); [exact H|].
  apply (ex_derive_continuous (fun y => c - y)). auto_derive. exact I.
Qed.

(** ** Values of the tests *)
Lemma mixture_log_weighted xi v : length xi = length v -> weighted xi v = Ok (mixture_log xi v).
Proof. intros E. unfold weighted. rewrite E, Nat.eqb_refl. reflexivity. Qed.

Lemma test_1_value phi P T xi rho h v1 v2 : xi <> [] -> phi (P + h) rho xi T = Ok v1 -> phi (P - h) rho xi T = Ok v2 ->
  length v1 = length xi -> length v2 = length xi ->
  fugacity_test_1 phi P T xi rho h = Ok ((mixture_log xi v1 - mixture_log xi v2) / (2 * h) - (P / (rho * T * Rgas) - 1) / P).
Proof.
  intros N E1 E2 L1 L2. destruct xi as [|x xi]; [congruence|]. unfold fugacity_test_1, mixture_fugacity_coefficient. cbn [mapM].
  rewrite E1, E2. cbn [rbind]. rewrite !mixture_log_weighted by congruence. reflexivity.
Qed.

Lemma mixture_log_map xi f g : (forall i, (i < length xi)%nat -> ln (f i) = g i) ->
  mixture_log xi (map f (seq 0 (length xi))) = sumn (length xi) (fun i => nth i xi 0 * g i).
Proof.
  intros H. rewrite sumn_list. unfold mixture_log, total_of. f_equal.
  assert (G : forall k l, (forall i, (i < length l)%nat -> ln (f (k + i)%nat) = g (k + i)%nat) ->
    map (fun p => fst p * ln (snd p)) (combine l (map f (seq k (length l)))) = map (fun i => nth (i - k) l 0 * g i) (seq k (length l))).
  { intros k l; revert k; induction l as [|a l IH]; intros k Hl; [reflexivity|]. cbn [length seq map combine fst snd].
    rewrite Nat.sub_diag. cbn [nth]. pose proof (Hl 0%nat) as H0. rewrite Nat.add_0_r in H0. rewrite H0 by (cbn; lia). f_equal.
    rewrite IH by (intros i Hi; replace (S k + i)%nat with (k + S i)%nat by lia; apply Hl; cbn; lia).
    apply map_ext_in. intros i Hi. apply in_seq in Hi. replace (i - k)%nat with (S (i - S k)) by lia. reflexivity. }
  rewrite (G 0%nat xi) by exact H. apply map_ext_in. intros i _. now rewrite Nat.sub_0_r.
Qed.

(** C105, the first test on a Peng-Robinson object: the residual vanishes with the step - at every density, whether or not it
    belongs to the pressure. *)
Theorem C105_peng_robinson : forall beads lib cl s T s1 P xi rho,
  let n := length beads in let x := fun i => nth i xi 0 in
  init beads lib cl = Ok s -> at_temperature s T = Ok s1 -> length xi = n -> (0 < n)%nat ->
  0 < T -> 0 < P -> total n x = 1 ->
  (forall k, (k < n)%nat -> 0 <= pr_ai s1 k * pr_alpha s1 k) ->
  0 < rho -> 0 < covolume n (pr_bi s1) x -> covolume n (pr_bi s1) x * rho < 1 ->
  attraction n (pair_attraction s1) x <> 0 ->
  approaches (fugacity_test_1 (pr_phi s) P T xi rho) 0.
Proof.
  intros beads lib cl s T s1 P xi rho n x HI HT Ln N0 HTp HP HN Hnn HRho Hb Hbr Ha.
  destruct (init_symmetric beads lib cl s T s1 HI HT) as [EB Sy]. fold n in Sy.
  pose proof Rgas_pos as HR. assert (Ht : 0 < Rgas * T) by (apply Rmult_lt_0_compat; lra).
  set (b := covolume n (pr_bi s1) x) in *. set (a := attraction n (pair_attraction s1) x) in *.
  set (K := a / b * / (2 * sqrt 2 * (Rgas * T)) * ln ((/ rho + (1 + sqrt 2) * b) / (/ rho + (1 - sqrt 2) * b))).
  assert (Hv : 0 < / rho - b).
  { apply (Rmult_lt_reg_r rho); [exact HRho|]. rewrite Rmult_minus_distr_r, Rinv_l by lra. lra. }
  assert (V : forall p, 0 < p -> exists v, pr_phi s p rho xi T = Ok v /\ length v = length xi /\
     mixture_log xi v = - K + (p / (Rgas * T) * / rho - 1) - ln p + ln (Rgas * T) - ln (/ rho - b)).
  { intros p Hp. unfold pr_phi, PRModel.fugacity_coefficient. rewrite HT. cbn [rbind fst snd]. rewrite EB. fold n. rewrite <- Ln.
    eexists. split; [reflexivity|]. split; [now rewrite map_length, seq_length|].
    rewrite (mixture_log_map xi _ (fun i => ln_phi s1 (length xi) p rho T x i)) by (intros; apply ln_exp). rewrite Ln.
    pose proof (weighted_ln_phi s1 n p rho T x x Hp HTp Hnn) as W. cbv zeta in W. rewrite mix_a_attraction, mix_b_covolume in W. fold a b in W.
    assert (C : sumn n (fun i => x i * row n (pair_attraction s1) x i) = a).
    { unfold a, attraction, row. apply sumn_ext. intros i _. rewrite <- sumn_scal. apply sumn_ext. intros; ring. }
    rewrite C in W. unfold total in HN. rewrite HN in W. fold K in W.
    change (fun i => nth i xi 0 * ln_phi s1 n p rho T x i) with (fun i => x i * ln_phi s1 n p rho T x i). rewrite W.
    replace (p / (Rgas * T) * / rho - b * (p / (Rgas * T))) with (p * / (Rgas * T) * (/ rho - b)) by (unfold Rdiv; ring).
    rewrite ln_mult, ln_mult, ln_Rinv; try lra; try (apply Rinv_0_lt_compat; lra); try (apply Rmult_lt_0_compat; [lra|apply Rinv_0_lt_compat; lra]).
    field. repeat split; lra. }
  apply (approaches_formula _ (fun h => 1 / P - (ln (P + h) - ln (P - h)) / (2 * h))).
  - exists P. split; [exact HP|]. intros h (Hh & HhP).
    destruct (V (P + h)) as (v1 & E1 & L1 & M1); [lra|]. destruct (V (P - h)) as (v2 & E2 & L2 & M2); [lra|].
    rewrite (test_1_value _ _ _ _ _ _ v1 v2); auto; [|intros ->; cbn in Ln; lia]. apply f_equal. rewrite M1, M2. field. repeat split; lra.
  - pose proof (symmetric_quotient ln P (1 / P)) as Q.
    assert (D : is_derive ln P (1 / P)) by (auto_derive; [exact HP|field; lra]).
    specialize (Q D). replace 0 with (1 / P - 1 / P) at 2 by ring.
    apply (lim_shift (fun h => (ln (P + h) - ln (P - h)) / (2 * h)) (1 / P) (1 / P)). exact Q.
Qed.

(** ... on a SAFT object, with any residual energy whatever, it does not: it approaches - 1 / (rho R T).  The test as coded
    differentiates at a fixed density, where the pressure enters through ln Z only. *)
Theorem C105_saft_refuted : forall eps ncomp ares P T xi rho dy log_method,
  length xi = ncomp -> (0 < ncomp)%nat -> total_of xi = 1 -> 0 < T -> 0 < P -> 0 < rho ->
  approaches (fugacity_test_1 (fun p r x t => SaftEosModel.fugacity_coefficient eps ncomp ares p r x t dy log_method) P T xi rho)
    (- / (rho * Rgas * T)).
Proof.
  intros eps ncomp ares P T xi rho dy lm Ln N0 HN HT HP HRho.
  pose proof Rgas_pos as HR. assert (EcR : c_R = Rgas) by (unfold c_R, Rgas; field).
  assert (Ht : 0 < rho * T * c_R) by (rewrite EcR; repeat apply Rmult_lt_0_compat; lra).
  set (d := partial_density_central_difference ares eps xi rho T dy true).
  assert (Ld : length d = length xi) by (unfold d, partial_density_central_difference; now rewrite map_length, seq_length).
  set (K := total_of (map (fun p => fst p * (ares rho T xi + rho * snd p)) (combine xi d))).
  assert (V : forall p, 0 < p -> exists v, SaftEosModel.fugacity_coefficient eps ncomp ares p rho xi T dy lm = Ok v /\ length v = length xi /\
     mixture_log xi v = K - ln (p / (rho * T * c_R))).
  { intros p Hp. unfold SaftEosModel.fugacity_coefficient. rewrite Ln, Nat.eqb_refl. cbn [negb].
    unfold check_rho. cbn [existsb]. destruct (Rlt_dec rho 0) as [X|_]; [lra|]. cbn [orb rbind]. fold d.
    eexists. split; [reflexivity|]. split; [now rewrite map_length, <- Ln|].
    set (z := ln (p / (rho * T * c_R))). unfold K, mixture_log.
    assert (G : forall (l d : list R), length d = length l -> total_of (map (fun p => fst p * ln (snd p)) (combine l (map (fun q => exp (ares rho T xi + rho * q - z)) d)))
       = total_of (map (fun p => fst p * (ares rho T xi + rho * snd p)) (combine l d)) - total_of l * z).
    { induction l as [|y l IH]; intros [|q d'] Hl; cbn in Hl; try discriminate; [cbn; ring|].
      cbn [map combine total_of fold_right fst snd]. fold (total_of). change (fold_right Rplus 0) with total_of. rewrite IH by lia. rewrite ln_exp. ring. }
    rewrite (G xi d Ld), HN. ring. }
  apply (approaches_formula _ (fun h => - / (rho * Rgas * T) - ((ln (P + h) - ln (P - h)) / (2 * h) - 1 / P))).
  - exists P. split; [exact HP|]. intros h (Hh & HhP).
    destruct (V (P + h)) as (v1 & E1 & L1 & M1); [lra|]. destruct (V (P - h)) as (v2 & E2 & L2 & M2); [lra|].
    rewrite (test_1_value _ _ _ _ _ _ v1 v2); auto; [|intros ->; cbn in Ln; lia]. apply f_equal. rewrite M1, M2.
    unfold Rdiv at 2 3. rewrite !ln_mult; try lra; try (apply Rinv_0_lt_compat; lra). rewrite EcR. field. repeat split; lra.
  - assert (D : is_derive ln P (1 / P)) by (auto_derive; [exact HP|field; lra]).
    pose proof (symmetric_quotient ln P (1 / P) D) as Q.
    replace (locally (- / (rho * Rgas * T))) with (locally (- / (rho * Rgas * T) + 1 / P - 1 / P)) by (f_equal; ring).
    apply (filterlim_ext (fun h => (- / (rho * Rgas * T) + 1 / P) - (ln (P + h) - ln (P - h)) / (2 * h))); [intros; ring|].
    apply (lim_shift (fun h => (ln (P + h) - ln (P - h)) / (2 * h))). exact Q.
Qed.

(** ** The second test *)
Lemma test_2_value phi P T xi rho h n0 y1 y2 : xi <> [] -> 0 < h < n0 ->
  log_phi_at phi n0 (n0 + h) P rho xi T = Ok y1 -> log_phi_at phi n0 (n0 - h) P rho xi T = Ok y2 ->
  length y1 = length xi -> length y2 = length xi ->
  fugacity_test_2 phi P T xi rho h n0 =
    Ok (total_of (map (fun p => fst p * snd p) (combine xi y1)) - total_of (map (fun p => fst p * snd p) (combine xi y2))).
Proof.
  intros N (Hh & Hn) E1 E2 L1 L2. unfold fugacity_test_2. destruct (Rle_dec n0 h) as [X|_]; [lra|].
  destruct xi as [|x xi]; [congruence|]. rewrite E1, E2. cbn [rbind]. apply f_equal.
  rewrite app_length, L1, L2. replace (length (x :: xi) + length (x :: xi))%nat with (length (x :: xi) * 2)%nat by lia.
  rewrite Nat.div_mul by lia. rewrite <- L1 at 1 2. rewrite firstn_app, skipn_app, Nat.sub_diag, firstn_all, skipn_all. cbn [firstn skipn app].
  rewrite app_nil_r. change rsum with total_of.
  assert (G : forall l a b, length a = length l -> length b = length l ->
    total_of (map (fun p => fst p * snd p) (combine l (map (fun p => (fst p - snd p) / (2 * h)) (combine a b)))) * 2 * h =
    total_of (map (fun p => fst p * snd p) (combine l a)) - total_of (map (fun p => fst p * snd p) (combine l b))).
  { clear - Hh. induction l as [|z l IH]; intros [|u a] [|v b] La Lb; cbn in La, Lb; try discriminate; [cbn; ring|].
    cbn [combine map total_of fold_right fst snd]. change (fold_right Rplus 0) with total_of.
    rewrite !Rmult_plus_distr_r, IH by lia. field. lra. }
  apply G; assumption.
Qed.

(** the composition when the amount of the first component is changed, the total amount being [u] instead of [n0] *)
Definition composition_at (n0 : R) (xi : list R) (u : R) : list R :=
  map (fun i => (nth i xi 0 * n0 + (if Nat.eqb i 0 then u - n0 else 0)) / u) (seq 0 (length xi)).

Lemma moved_value n0 xi u : total_of xi = 1 -> 0 <= nth 0 xi 0 * n0 + (u - n0) -> moved n0 u xi = Ok (composition_at n0 xi u).
Proof.
  intros HN Hp. unfold moved. destruct xi as [|x xs]; [cbn in HN; lra|]. cbn [map nth] in *.
  destruct (Rlt_dec (x * n0 + (u - n0)) 0) as [X|_]; [lra|]. apply f_equal.
  assert (S : forall l, rsum (map (fun x => x * n0) l) = total_of l * n0).
  { induction l as [|y l IH]; cbn; [ring|]. change (fold_right Rplus 0 (map (fun x => x * n0) l)) with (rsum (map (fun x => x * n0) l)).
    rewrite IH. unfold total_of. ring. }
  assert (E : rsum (x * n0 + (u - n0) :: map (fun x => x * n0) xs) = u).
  { cbn [rsum fold_right]. change (fold_right Rplus 0 (map (fun x => x * n0) xs)) with (rsum (map (fun x => x * n0) xs)). rewrite S.
    cbn in HN. change (fold_right Rplus 0 xs) with (total_of xs) in HN. replace (total_of xs) with (1 - x) by lra. ring. }
  rewrite E. unfold composition_at. cbn [length seq map nth Nat.eqb]. f_equal.
  rewrite <- seq_shift, !map_map. cbn [nth Nat.eqb]. clear.
  induction xs as [|y xs IH] using rev_ind; [reflexivity|].
  rewrite app_length, Nat.add_comm. cbn [length Nat.add]. rewrite seq_S, !map_app. cbn [map Nat.add]. f_equal.
  - rewrite IH. apply map_ext_in. intros i Hi. apply in_seq in Hi. now rewrite app_nth1 by lia.
  - rewrite app_nth2, Nat.sub_diag by lia. cbn. f_equal. f_equal. ring.
Qed.
Lemma composition_at_nth n0 xi u i : (i < length xi)%nat ->
  nth i (composition_at n0 xi u) 0 = (nth i xi 0 * n0 + (if Nat.eqb i 0 then u - n0 else 0)) / u.
Proof.
  intros Hi. unfold composition_at.
  rewrite (nth_indep _ 0 ((nth (length xi) xi 0 * n0 + (if Nat.eqb (length xi) 0 then u - n0 else 0)) / u)) by now rewrite map_length, seq_length.
  rewrite (map_nth (fun i => (nth i xi 0 * n0 + (if Nat.eqb i 0 then u - n0 else 0)) / u)). now rewrite seq_nth by exact Hi.
Qed.
Lemma composition_at_start n0 xi : n0 <> 0 -> composition_at n0 xi n0 = xi.
Proof.
  intros H. apply (nth_ext _ _ 0 0); unfold composition_at; [now rewrite map_length, seq_length|].
  intros i Hi. rewrite map_length, seq_length in Hi. fold (composition_at n0 xi n0). rewrite composition_at_nth by exact Hi.
  destruct (Nat.eqb i 0); field; exact H.
Qed.

(** the weighted sum of logarithms, as a sum over indices *)
Lemma weighted_sum xi f : total_of (map (fun p => fst p * snd p) (combine xi (map f (seq 0 (length xi))))) = sumn (length xi) (fun i => nth i xi 0 * f i).
Proof.
  rewrite sumn_list. unfold total_of. f_equal.
  assert (G : forall k l, map (fun p => fst p * snd p) (combine l (map f (seq k (length l)))) = map (fun i => nth (i - k) l 0 * f i) (seq k (length l))).
  { intros k l; revert k; induction l as [|a l IH]; intros k; [reflexivity|]. cbn [length seq map combine fst snd].
    rewrite Nat.sub_diag. cbn [nth]. f_equal. rewrite IH.
    apply map_ext_in. intros i Hi. apply in_seq in Hi. replace (i - k)%nat with (S (i - S k)) by lia. reflexivity. }
  rewrite (G 0%nat xi). apply map_ext_in. intros i _. now rewrite Nat.sub_0_r.
Qed.

Lemma test_2_functions phi P T xi rho n0 (lnphi : R -> nat -> R) : xi <> [] -> total_of xi = 1 -> 0 < n0 -> 0 < nth 0 xi 0 ->
  (exists d, 0 < d /\ forall u, Rabs (u - n0) < d ->
     exists v, phi P rho (composition_at n0 xi u) T = Ok v /\ map ln v = map (lnphi u) (seq 0 (length xi))) ->
  let f u := sumn (length xi) (fun i => nth i xi 0 * lnphi u i) in
  exists d, 0 < d /\ forall h, 0 < h < d -> fugacity_test_2 phi P T xi rho h n0 = Ok (f (n0 + h) - f (n0 - h)).
Proof.
  intros Nx HN Hn Hx (d & Hd & Hphi) f. exists (Rmin d (Rmin n0 (nth 0 xi 0 * n0))).
  assert (Hxn : 0 < nth 0 xi 0 * n0) by now apply Rmult_lt_0_compat.
  split; [repeat apply Rmin_pos; assumption|]. intros h (Hh & Hm).
  pose proof (Rmin_l d (Rmin n0 (nth 0 xi 0 * n0))). pose proof (Rmin_r d (Rmin n0 (nth 0 xi 0 * n0))).
  pose proof (Rmin_l n0 (nth 0 xi 0 * n0)). pose proof (Rmin_r n0 (nth 0 xi 0 * n0)).
  assert (V : forall u, Rabs (u - n0) = h -> log_phi_at phi n0 u P rho xi T = Ok (map (lnphi u) (seq 0 (length xi)))).
  { intros u Hu. destruct (Hphi u) as (v & Ev & El); [lra|]. unfold log_phi_at. rewrite moved_value; [|exact HN|].
    - cbn [rbind]. rewrite Ev. cbn [rbind]. now rewrite El.
    - pose proof (Rle_abs (- (u - n0))) as A. rewrite Rabs_Ropp in A. lra. }
  rewrite (test_2_value phi P T xi rho h n0 (map (lnphi (n0 + h)) (seq 0 (length xi))) (map (lnphi (n0 - h)) (seq 0 (length xi)))); auto.
  - now rewrite !weighted_sum.
  - split; lra.
  - apply V. replace (n0 + h - n0) with h by ring. apply Rabs_pos_eq. lra.
  - apply V. replace (n0 - h - n0) with (- h) by ring. rewrite Rabs_Ropp. apply Rabs_pos_eq. lra.
  - now rewrite map_length, seq_length.
  - now rewrite map_length, seq_length.
Qed.

(** What the second test computes at a given step, and when it refuses the step. *)
Theorem C106_value : forall phi P T xi rho step n0, xi <> [] -> total_of xi = 1 -> 0 < step ->
  (forall v1 v2, step < n0 -> step <= nth 0 xi 0 * n0 ->
     phi P rho (composition_at n0 xi (n0 + step)) T = Ok v1 -> phi P rho (composition_at n0 xi (n0 - step)) T = Ok v2 ->
     length v1 = length xi -> length v2 = length xi ->
     fugacity_test_2 phi P T xi rho step n0 = Ok (mixture_log xi v1 - mixture_log xi v2)) /\
  (n0 <= step -> fugacity_test_2 phi P T xi rho step n0 = Err ValueError) /\
  (forall v1, nth 0 xi 0 * n0 < step < n0 -> 0 <= nth 0 xi 0 -> phi P rho (composition_at n0 xi (n0 + step)) T = Ok v1 ->
     fugacity_test_2 phi P T xi rho step n0 = Err ValueError).
Proof.
  intros phi P T xi rho step n0 Nx HN Hs. split; [|split].
  - intros v1 v2 Hn Hx E1 E2 L1 L2.
    rewrite (test_2_value phi P T xi rho step n0 (map ln v1) (map ln v2)).
    + assert (M : forall v, total_of (map (fun p => fst p * snd p) (combine xi (map ln v))) = mixture_log xi v); [|now rewrite !M].
      intros v. unfold mixture_log. f_equal. clear. revert v. induction xi as [|x xi IH]; intros [|a v]; cbn; try reflexivity.
      now rewrite IH.
    + exact Nx.
    + lra.
    + unfold log_phi_at. rewrite moved_value by (assumption || lra). cbn [rbind]. rewrite E1. reflexivity.
    + unfold log_phi_at. rewrite moved_value by (assumption || lra). cbn [rbind]. rewrite E2. reflexivity.
    + now rewrite map_length.
    + now rewrite map_length.
  - intros H. unfold fugacity_test_2. destruct (Rle_dec n0 step); [reflexivity|contradiction].
  - intros v1 (Hx & Hn) Hp E1. unfold fugacity_test_2. destruct (Rle_dec n0 step); [reflexivity|]. destruct xi as [|x xs]; [congruence|].
    set (xi := x :: xs) in *. unfold log_phi_at at 1.
    assert (0 <= nth 0 xi 0 * n0) by (apply Rmult_le_pos; lra).
    rewrite moved_value by (assumption || lra). cbn [rbind]. rewrite E1. cbn [rbind].
    unfold log_phi_at, moved, xi. cbn [map nth]. cbn [xi nth] in Hx.
    destruct (Rlt_dec (x * n0 + (n0 - step - n0)) 0) as [_|N]; [reflexivity|lra].
Qed.

(** C106 is false: the second test multiplies the derivative by twice the step again, so that its result vanishes with the step
    for all fugacity coefficients that depend continuously on the composition, consistent or not. *)
Theorem C106_vanishes_refuted : forall phi P T xi rho n0 (lnphi : R -> nat -> R),
  xi <> [] -> total_of xi = 1 -> 0 < n0 -> 0 < nth 0 xi 0 ->
  (exists d, 0 < d /\ forall u, Rabs (u - n0) < d ->
     exists v, phi P rho (composition_at n0 xi u) T = Ok v /\ map ln v = map (lnphi u) (seq 0 (length xi))) ->
  (forall i, (i < length xi)%nat -> continuous (fun u => lnphi u i) n0) ->
  approaches (fun h => fugacity_test_2 phi P T xi rho h n0) 0.
Proof.
  intros phi P T xi rho n0 lnphi Nx HN Hn Hx Hphi Hc.
  pose proof (test_2_functions phi P T xi rho n0 lnphi Nx HN Hn Hx Hphi) as Ht. cbv zeta in Ht.
  set (f := fun u => sumn (length xi) (fun i => nth i xi 0 * lnphi u i)) in *.
  assert (Cf : continuous f n0).
  { unfold f. clear - Hc. induction (length xi) as [|n IH]; cbn [sumn].
    - apply continuous_const.
    - apply (continuous_plus (fun u => sumn n (fun i => nth i xi 0 * lnphi u i)) (fun u => nth n xi 0 * lnphi u n)).
      + apply IH. intros i Hi. apply Hc. lia.
      + apply (continuous_scal_r (nth n xi 0) (fun u => lnphi u n)). apply Hc. lia. }
  apply (approaches_formula _ (fun h => f (n0 + h) - f (n0 - h)) 0 Ht).
  assert (C : continuous (fun h => f (n0 + h) - f (n0 - h)) 0).
  { apply (continuous_minus (fun h => f (n0 + h)) (fun h => f (n0 - h))).
    - apply (continuous_comp (fun h => n0 + h) f); [|rewrite Rplus_0_r; exact Cf].
      apply (ex_derive_continuous (fun h => n0 + h)). auto_derive. exact I.
    - apply (continuous_comp (fun h => n0 - h) f); [|rewrite Rminus_0_r; exact Cf].
      apply (ex_derive_continuous (fun h => n0 - h)). auto_derive. exact I. }
  unfold continuous in C. rewrite Rplus_0_r, Rminus_0_r, Rminus_eq_0 in C.
  eapply filterlim_filter_le_1; [|exact C].
  intros Q (e & He). exists e. intros y Hy _. now apply He.
Qed.

(** for instance at a mixture where the sum of x_i dln phi_i / dn_1 is 1/4 *)
Theorem C106_refuted : exists phi P T xi rho n0 (lnphi : R -> nat -> R),
  total_of xi = 1 /\ 0 < n0 /\
  (forall u i, (i < length xi)%nat -> exists v, phi P rho (composition_at n0 xi u) T = Ok v /\ length v = length xi /\ lnphi u i = ln (nth i v 0)) /\
  is_derive (fun u => sumn (length xi) (fun i => nth i xi 0 * lnphi u i)) n0 (1 / 4) /\
  approaches (fun h => fugacity_test_2 phi P T xi rho h n0) 0.
Proof.
  set (phi := fun (_ _ : R) (x : list R) (_ : R) => Ok [exp (nth 0 x 0); 1]).
  set (lnphi := fun u i => match i with O => (1 / 2 * 1 + (u - 1)) / u | _ => 0 end).
  exists phi, 1, 1, [1/2; 1/2], 1, 1, lnphi. split; [cbn; lra|]. split; [lra|]. split; [|split].
  - intros u i Hi. exists [exp (nth 0 (composition_at 1 [1/2; 1/2] u) 0); 1]. split; [reflexivity|]. split; [reflexivity|].
    rewrite composition_at_nth by (cbn; lia). destruct i as [|[|i]]; cbn in *; [now rewrite ln_exp|now rewrite ln_1|lia].
  - cbn [length sumn nth lnphi]. auto_derive; [lra|]. field.
  - apply C106_vanishes_refuted with (lnphi := lnphi); [discriminate|cbn; lra|lra|cbn; lra| |].
    + exists 1. split; [lra|]. intros u _. eexists. split; [reflexivity|]. cbn [map length seq].
      rewrite composition_at_nth by (cbn; lia). cbn [nth Nat.eqb lnphi]. now rewrite ln_exp, ln_1.
    + intros [|i] Hi; cbn [lnphi]; [|apply continuous_const].
      apply (ex_derive_continuous (fun u => (1 / 2 * 1 + (u - 1)) / u)). auto_derive. lra.
Qed.

(** ... divided by twice the step, it is the test intended, and a Peng-Robinson object passes it at every state. *)
Theorem C106_peng_robinson : forall beads lib cl s T s1 P xi rho n0,
  let n := length beads in let x := fun i => nth i xi 0 in
  init beads lib cl = Ok s -> at_temperature s T = Ok s1 -> length xi = n ->
  0 < T -> 0 < P -> total_of xi = 1 -> 0 < nth 0 xi 0 -> 0 < n0 ->
  (forall k, (k < n)%nat -> 0 <= pr_ai s1 k * pr_alpha s1 k) ->
  0 < rho -> 0 < covolume n (pr_bi s1) x -> covolume n (pr_bi s1) x * rho < 1 ->
  attraction n (pair_attraction s1) x <> 0 ->
  outcome (PRModel.pressure s (rho :: nil) T x) = Ok (P :: nil) ->
  approaches (fun h => let* r := fugacity_test_2 (pr_phi s) P T xi rho h n0 in Ok (r / (2 * h))) 0.
Proof.
  intros beads lib cl s T s1 P xi rho n0 n x HI HT Ln HTp HP HN Hx Hn Hnn HRho Hb Hbr Ha Hpr.
  destruct (init_symmetric beads lib cl s T s1 HI HT) as [EB _].
  assert (Nx : xi <> []) by (intros ->; cbn in HN; lra).
  set (path := fun u i => nth i (composition_at n0 xi u) 0).
  assert (Ex : path n0 = x) by (unfold path, x; rewrite composition_at_start by lra; reflexivity).
  assert (Hv : exists v, forall i, (i < n)%nat -> is_derive (fun u => path u i) n0 (v i)).
  { exists (fun i => ((if Nat.eqb i 0 then 1 else 0) * n0 - nth i xi 0 * n0) / n0 ^ 2). intros i Hi.
    apply (is_derive_ext (fun u => (nth i xi 0 * n0 + (if Nat.eqb i 0 then u - n0 else 0)) / u)).
    - intros u. symmetry. apply composition_at_nth. lia.
    - destruct (Nat.eqb i 0); auto_derive; try lra; field; lra. }
  destruct Hv as (v & Hv).
  assert (HN' : total n (path n0) = 1).
  { rewrite Ex. unfold total, x. rewrite <- HN, <- Ln. pose proof (weighted_sum xi (fun _ => 1)) as W.
    rewrite (sumn_ext _ (fun i => nth i xi 0) (fun i => nth i xi 0 * 1)) by (intros; ring). rewrite <- W. f_equal. clear.
    assert (G : forall k l, map (fun p => fst p * snd p) (combine l (map (fun _ => 1) (seq k (length l)))) = l).
    { intros k l; revert k; induction l as [|a l IH]; intros k; [reflexivity|]. cbn. rewrite IH. f_equal. ring. }
    apply G. }
  destruct (C104_gibbs_duhem beads lib cl s T s1 P path (fun _ => rho) n0 v 0 HI HT HTp HP HN' Hnn HRho) as (lnphi & Hl & Hd);
    try (rewrite Ex; assumption); auto.
  { apply (is_derive_const (V := R_NormedModule)). }
  fold n in Hl, Hd.
  destruct (test_2_functions (pr_phi s) P T xi rho n0 lnphi Nx HN Hn Hx) as (d & Hd0 & Ht).
  - exists 1. split; [lra|]. intros u _. unfold pr_phi, PRModel.fugacity_coefficient. rewrite HT. cbn [rbind fst snd]. rewrite EB. fold n.
    eexists. split; [reflexivity|]. rewrite Ln, map_map. apply map_ext_in. intros i Hi. apply in_seq in Hi.
    destruct (Hl u i) as (ph & Ep & ->); [lia|]. f_equal. unfold outcome_at, PRModel.fugacity_coefficient in Ep. rewrite HT in Ep.
    cbn [rbind snd] in Ep. rewrite EB in Ep. injection Ep as <-. reflexivity.
  - set (f := fun u => sumn n (fun i => path n0 i * lnphi u i)) in Hd.
    apply (approaches_formula _ (fun h => (f (n0 + h) - f (n0 - h)) / (2 * h))).
    + exists d. split; [exact Hd0|]. intros h Hh. rewrite (Ht h Hh). cbn [rbind]. rewrite Ln. unfold f. rewrite Ex. reflexivity.
    + apply symmetric_quotient. exact Hd.
Qed.

(** * C107: the mixture coefficient is the mole fraction average of ln phi_i; an array of states gives an array of them *)
(** the value at one state: the average of the logarithms of the coefficients *)
Definition average_at (phi : R -> R -> list R -> R -> result (list R)) (p t : R) (x : list R) (r m : R) : Prop :=
  exists v, phi p r x t = Ok v /\ length v = length x /\ m = mixture_log x v.

Lemma weighted_value xi v m : weighted xi v = Ok m <-> length v = length xi /\ m = mixture_log xi v.
Proof.
  unfold weighted. destruct (Nat.eqb_spec (length xi) (length v)) as [E|E]; split.
  - intros X. injection X as <-. split; [lia|reflexivity].
  - intros (_ & ->). reflexivity.
  - discriminate.
  - intros (A & _). lia.
Qed.
Lemma one_state phi p t x r m : (let* v := phi p r x t in weighted x v) = Ok m <-> average_at phi p t x r m.
Proof.
  unfold average_at. destruct (phi p r x t) as [v|e]; cbn [rbind].
  - rewrite weighted_value. split; [intros (L & E); now exists v|intros (w & E & L & M)]. injection E as <-. now split.
  - split; [discriminate|]. intros (v & E & _). discriminate.
Qed.
Lemma mapM_rel {A B} (f : A -> result B) (Q : A -> B -> Prop) : (forall a b, f a = Ok b <-> Q a b) ->
  forall l r, mapM f l = Ok r <-> Forall2 Q l r.
Proof.
  intros H. induction l as [|a l IH]; intros r; cbn [mapM].
  - split; [intros X; injection X as <-; constructor|intros X; inversion X; reflexivity].
  - destruct (f a) as [b|e] eqn:Ea; cbn [rbind].
    + destruct (mapM f l) as [bs|e] eqn:El; cbn [rbind].
      * split; [intros X; injection X as <-; constructor; [now apply H|now apply IH]|].
        intros X. inversion X as [|? b' ? bs' Q1 Q2]; subst. apply H in Q1. apply IH in Q2. congruence.
      * split; [discriminate|]. intros X. inversion X as [|? b' ? bs' Q1 Q2]; subst. apply IH in Q2. discriminate.
    + split; [discriminate|]. intros X. inversion X as [|? b' ? bs' Q1 Q2]; subst. apply H in Q1. congruence.
Qed.

Theorem C107_states : forall phi p t x r, x <> [] ->
  (forall m, mixture_fugacity_coefficient phi (One p) (One t) (OneX x) (One r) = Ok (One m) <-> average_at phi p t x r m) /\
  (forall ps ms, mixture_fugacity_coefficient phi (Many ps) (One t) (OneX x) (One r) = Ok (Many ms)
     <-> Forall2 (fun p m => average_at phi p t x r m) ps ms) /\
  (forall ts ms, mixture_fugacity_coefficient phi (One p) (Many ts) (OneX x) (One r) = Ok (Many ms)
     <-> Forall2 (fun t m => average_at phi p t x r m) ts ms) /\
  (forall rs ms, mixture_fugacity_coefficient phi (One p) (One t) (OneX x) (Many rs) = Ok (Many ms)
     <-> Forall2 (fun r m => average_at phi p t x r m) rs ms).
Proof.
  intros phi p t x r Nx. destruct x as [|x0 xs]; [congruence|]. set (x := x0 :: xs) in *.
  assert (G : forall {B} (e : result B) (f : B -> arg) y, (forall a b, f a = f b -> a = b) -> (let* l := e in Ok (f l)) = Ok (f y) <-> e = Ok y).
  { intros B [b|e] f y Hf; cbn [rbind]; [|split; discriminate]. split; intros X; injection X.
    - intros E. apply Hf in E. now subst.
    - intros ->. reflexivity. }
  repeat split; cbn [mixture_fugacity_coefficient]; unfold x at 1; fold x.
  all: try (intros H).
  - apply one_state. destruct (phi p r x t) as [v|e]; cbn [rbind] in *; [|discriminate].
    destruct (weighted x v) as [s|e]; cbn [rbind] in *; [|discriminate]. now injection H as ->.
  - apply one_state in H. destruct (phi p r x t) as [v|e]; cbn [rbind] in *; [|discriminate]. now rewrite H.
  - apply (G _ _ Many) in H; [|congruence]. revert H. apply mapM_rel. intros; apply one_state.
  - apply (G _ _ Many); [congruence|]. revert H. apply mapM_rel. intros; apply one_state.
  - apply (G _ _ Many) in H; [|congruence]. revert H. apply mapM_rel. intros; apply one_state.
  - apply (G _ _ Many); [congruence|]. revert H. apply mapM_rel. intros; apply one_state.
  - apply (G _ _ Many) in H; [|congruence]. revert H. apply mapM_rel. intros; apply one_state.
  - apply (G _ _ Many); [congruence|]. revert H. apply mapM_rel. intros; apply one_state.
Qed.

Definition arrays_in (a : arg) : nat := match a with Many _ => 1 | One _ => 0 end.
Theorem C107_one_array : forall phi P T xi rho,
  ((2 <= arrays_in P + arrays_in T + match xi with ManyX _ => 1 | OneX _ => 0 end + arrays_in rho)%nat -> xi <> OneX [] -> xi <> ManyX [] ->
    mixture_fugacity_coefficient phi P T xi rho = Err ValueError) /\
  (xi = OneX [] \/ xi = ManyX [] -> mixture_fugacity_coefficient phi P T xi rho = Err IndexError).
Proof.
  intros phi P T xi rho. split.
  - intros H N1 N2. revert H. destruct P, T, xi as [[|y ys]|[|y ys]], rho; cbn; intros H; try congruence; lia.
  - intros [-> | ->]; destruct P, T, rho; reflexivity.
Qed.

(** with an array of compositions every value is weighted with all compositions at once *)
Theorem C107_compositions : forall phi p t r rows vs,
  rows <> [] -> Forall2 (fun x v => phi p r x t = Ok v) rows vs ->
  (forall v, In v vs -> forall x, In x rows -> length v = length x) ->
  mixture_fugacity_coefficient phi (One p) (One t) (ManyX rows) (One r)
  = Ok (Many (map (fun v => total_of (map (fun x => mixture_log x v) rows)) vs)).
Proof.
  intros phi p t r rows vs N F L. destruct rows as [|x0 rows0] eqn:Er; [congruence|]. rewrite <- Er in *. clear N.
  assert (W : forall v, (forall x, In x rows -> length v = length x) -> weighted_all rows v = Ok (total_of (map (fun x => mixture_log x v) rows))).
  { intros v Hv. unfold weighted_all.
    assert (M : mapM (fun r => weighted r v) rows = Ok (map (fun x => mixture_log x v) rows)).
    { clear - Hv. induction rows as [|a l IH]; cbn [mapM map]; [reflexivity|].
      replace (weighted a v) with (Ok (mixture_log a v)) by (symmetry; apply weighted_value; split; [apply Hv; now left|reflexivity]).
      cbn [rbind]. rewrite IH by (intros; apply Hv; now right). reflexivity. }
    rewrite M. reflexivity. }
  cbn [mixture_fugacity_coefficient]. rewrite Er. rewrite <- Er.
  assert (M : mapM (fun x => let* v := phi p r x t in weighted_all rows v) rows
    = Ok (map (fun v => total_of (map (fun x => mixture_log x v) rows)) vs)).
  { assert (G : forall l vs, Forall2 (fun x v => phi p r x t = Ok v) l vs -> (forall v, In v vs -> forall x, In x rows -> length v = length x) ->
      mapM (fun x => let* v := phi p r x t in weighted_all rows v) l = Ok (map (fun v => total_of (map (fun x => mixture_log x v) rows)) vs)).
    { clear - W. intros l vs F. induction F as [|x v l vs E F IH]; intros L; cbn [mapM map]; [reflexivity|].
      rewrite E. cbn [rbind]. rewrite W by (apply L; now left). cbn [rbind]. rewrite IH by (intros; apply (L v0); [now right|assumption]). reflexivity. }
    now apply G. }
  rewrite M. reflexivity.
Qed.

(** so that, of any coefficients, they are not the averages at each composition *)
Theorem C107_compositions_refuted : exists phi p t r rows ms,
  mixture_fugacity_coefficient phi (One p) (One t) (ManyX rows) (One r) = Ok (Many ms) /\
  Forall (fun x => total_of x = 1) rows /\
  ~ Forall2 (fun x m => average_at phi p t x r m) rows ms.
Proof.
  exists (fun _ _ _ _ => Ok [exp 1; exp 1]), 1, 1, 1, [[1/2; 1/2]; [1/4; 3/4]].
  eexists. split; [|split].
  - apply C107_compositions with (vs := [[exp 1; exp 1]; [exp 1; exp 1]]); [discriminate|repeat constructor|].
    intros v [<-|[<-|[]]] x [<-|[<-|[]]]; reflexivity.
  - repeat constructor; cbn; lra.
  - intros H. inversion H as [|? ? ? ? (v & Ev & _ & Em) _]; subst. injection Ev as <-. revert Em. unfold mixture_log. cbn. rewrite !ln_exp. lra.
Qed.

(** * C108: activity coefficients *)
(** the pressure of the liquid by modified Raoult's law *)
Definition raoult (gamma xi ps : list R) (i : nat) : R := nth i gamma 0 * nth i xi 0 * nth i ps 0.
(** a composition that is all component [i] *)
Definition only (n i : nat) (x : list R) : Prop :=
  length x = n /\ forall j, (j < n)%nat -> nth j x 0 = if Nat.eqb j i then 1 else 0.

Lemma pure_only n i : only n i (pure n i).
Proof.
  unfold only, pure. split; [now rewrite map_length, seq_length|]. intros j Hj.
  rewrite (nth_indep _ 0 (if Nat.eqb n i then 1 else 0)) by now rewrite map_length, seq_length.
  rewrite (map_nth (fun j => if Nat.eqb j i then 1 else 0)). now rewrite seq_nth.
Qed.
Lemma nth_map_combine (f : R * (R * R) -> R) yi xi ps i : length yi = length xi -> length ps = length xi -> (i < length xi)%nat ->
  nth i (map f (combine yi (combine xi ps))) 0 = f (nth i yi 0, (nth i xi 0, nth i ps 0)).
Proof.
  revert xi ps i. induction yi as [|y yi IH]; intros [|x xi] [|q ps] i L1 L2 Hi; cbn in *; try lia.
  destruct i as [|i]; [reflexivity|]. apply IH; lia.
Qed.

Theorem C108_raoult : forall psat P T xi yi gamma ps,
  activity_coefficient psat P T xi yi = Ok (gamma, ps) ->
  length gamma = length xi /\ length ps = length xi /\ length yi = length xi /\
  (forall i, (i < length xi)%nat -> exists x, only (length xi) i x /\ psat T x = Ok (nth i ps 0)) /\
  (forall i, (i < length xi)%nat -> nth i xi 0 <> 0 -> nth i ps 0 <> 0 -> raoult gamma xi ps i = nth i yi 0 * P) /\
  ((forall i, (i < length xi)%nat -> 0 < nth i xi 0 /\ 0 < nth i ps 0) -> total_of yi = 1 ->
   sumn (length xi) (raoult gamma xi ps) = P).
Proof.
  intros psat P T xi yi gamma ps H. unfold activity_coefficient in H.
  destruct (mapM _ (seq 0 (length xi))) as [l|e] eqn:El; cbn [rbind] in H; [|discriminate].
  destruct (Nat.eqb_spec (length yi) (length xi)) as [E|E]; [|discriminate]. injection H as <- <-.
  assert (Ll : length l = length xi).
  { pose proof El as X. apply (mapM_rel _ (fun i r => psat T (pure (length xi) i) = Ok r)) in X; [|reflexivity].
    assert (G : forall (A B : Type) (Q : A -> B -> Prop) a b, Forall2 Q a b -> length a = length b) by (intros; induction H; cbn; congruence).
    apply G in X. now rewrite seq_length in X. }
  assert (Lg : length (map (fun p => fst p * P / (snd (snd p) * fst (snd p))) (combine yi (combine xi l))) = length xi).
  { rewrite map_length, !combine_length. lia. }
  assert (Rg : forall i, (i < length xi)%nat -> nth i xi 0 <> 0 -> nth i l 0 <> 0 ->
    raoult (map (fun p => fst p * P / (snd (snd p) * fst (snd p))) (combine yi (combine xi l))) xi l i = nth i yi 0 * P).
  { intros i Hi Hx Hl. unfold raoult. rewrite nth_map_combine by assumption. cbn [fst snd]. field. split; assumption. }
  repeat split; auto.
  - intros i Hi. exists (pure (length xi) i). split; [apply pure_only|].
    apply (mapM_rel _ (fun i r => psat T (pure (length xi) i) = Ok r)) in El; [|reflexivity].
    assert (G : forall k n l, Forall2 (fun i r => psat T (pure (length xi) i) = Ok r) (seq k n) l ->
      forall i, (i < n)%nat -> psat T (pure (length xi) (k + i)) = Ok (nth i l 0)).
    { clear. intros k n; revert k; induction n as [|n IH]; intros k l F i Hi; [lia|]. cbn [seq] in F.
      inversion F as [|? b ? bs Q1 Q2]; subst. destruct i as [|i]; [now rewrite Nat.add_0_r|].
      cbn [nth]. specialize (IH (S k) bs Q2 i ltac:(lia)). now replace (k + S i)%nat with (S k + i)%nat by lia. }
    exact (G 0%nat _ _ El i Hi).
  - intros Hp HN. rewrite (sumn_ext _ _ (fun i => P * nth i yi 0)).
    + rewrite sumn_scal. rewrite <- E.
      replace (sumn (length yi) (fun i => nth i yi 0)) with (total_of yi); [rewrite HN; ring|].
      pose proof (weighted_sum yi (fun _ => 1)) as W.
      rewrite (sumn_ext _ (fun i => nth i yi 0) (fun i => nth i yi 0 * 1)) by (intros; ring). rewrite <- W. unfold total_of. f_equal. clear.
      assert (G : forall k l, map (fun p => fst p * snd p) (combine l (map (fun _ => 1) (seq k (length l)))) = l).
      { intros k l; revert k; induction l as [|a l IH]; intros k; [reflexivity|]. cbn. rewrite IH. f_equal. ring. }
      now rewrite G.
    + intros i Hi. destruct (Hp i Hi). rewrite Rg by (assumption || lra). ring.
Qed.

(** * Concrete cases *)
Definition lib_two : EosToolboxModel.library R := [("X", [("ai", 1); ("bi", 1/10000)]); ("Y", [("ai", 4); ("bi", 1/5000)])]%string.

(** an equimolar mixture of two components meets the hypotheses of C104_gibbs_duhem, C105_peng_robinson and C106_peng_robinson *)
Example C106_case : exists s s1 P, let xi := [1/2; 1/2] in let x := fun i => nth i xi 0 in
  init ["X"; "Y"]%string lib_two [] = Ok s /\ at_temperature s 300 = Ok s1 /\ total_of xi = 1 /\ total 2 x = 1 /\
  (forall k, (k < 2)%nat -> 0 <= pr_ai s1 k * pr_alpha s1 k) /\
  0 < covolume 2 (pr_bi s1) x /\ covolume 2 (pr_bi s1) x * 1 < 1 /\
  attraction 2 (pair_attraction s1) x <> 0 /\
  outcome (PRModel.pressure s (1 :: nil) 300 x) = Ok (P :: nil) /\ 0 < P.
Proof.
  do 3 eexists. cbv zeta. split; [cbn -[IZR Rgas Rdiv Rmult Rplus Rminus pow sqrt]; reflexivity|].
  split; [cbn -[IZR Rgas Rdiv Rmult Rplus Rminus pow sqrt]; reflexivity|].
  split; [cbn; lra|]. split; [unfold total; cbn; lra|]. split.
  { intros [|[|k]] Hk; [| |lia]; cbn; lra. }
  split; [unfold covolume; cbn; lra|]. split; [unfold covolume; cbn; lra|]. split.
  { unfold attraction, pair_attraction. cbn. replace (1 * 1 * 1 * 1) with (1 * 1) by ring. rewrite sqrt_square by lra.
    replace (1 * 1 * 4 * 1) with (2 * 2) by ring. replace (4 * 1 * 1 * 1) with (2 * 2) by ring. replace (4 * 1 * 4 * 1) with (4 * 4) by ring.
    rewrite !sqrt_square by lra. lra. }
  split; [cbn -[IZR Rgas Rdiv Rmult Rplus Rminus pow sqrt pressure_formula mix_a mix_b]; reflexivity|].
  rewrite mix_a_attraction, mix_b_covolume. unfold attraction, pair_attraction, covolume. cbn.
  replace (1 * 1 * 1 * 1) with (1 * 1) by ring. rewrite sqrt_square by lra.
  replace (1 * 1 * 4 * 1) with (2 * 2) by ring. replace (4 * 1 * 1 * 1) with (2 * 2) by ring. replace (4 * 1 * 4 * 1) with (4 * 4) by ring.
  rewrite !sqrt_square by lra. unfold pressure_formula, Rgas. cbn [pow]. lra.
Qed.

(** ... and so does a path that enriches the mixture in the first component while the density changes *)
Example C104_case : let x := fun u i => match i with O => 1/2 + u | 1%nat => 1/2 - u | _ => 0 end in
  (forall i, x 0 i = nth i [1/2; 1/2] 0) /\
  (forall i, (i < 2)%nat -> is_derive (fun u => x u i) 0 (match i with O => 1 | _ => -1 end)) /\
  is_derive (fun u => 1 + 3 * u) 0 3.
Proof.
  cbv zeta. split; [|split].
  - intros [|[|[|i]]]; cbn; lra.
  - intros [|[|i]] Hi; [auto_derive; [exact I|ring]|auto_derive; [exact I|ring]|lia].
  - auto_derive; [exact I|ring].
Qed.

Example C107_case : mixture_fugacity_coefficient (fun p _ _ _ => Ok [exp p; exp (2 * p)]) (Many [1; 2]) (One 300) (OneX [1/4; 3/4]) (One 1)
  = Ok (Many [7/4; 7/2]).
Proof. cbn. rewrite !ln_exp. do 3 f_equal; [lra|]. f_equal. lra. Qed.

(** an ideal mixture: the coefficients are 1 *)
Example C108_case : activity_coefficient (fun _ x => Ok (100 * nth 0 x 0 + 50 * nth 1 x 0)) 75 300 [1/2; 1/2] [2/3; 1/3] = Ok ([1; 1], [100; 50]).
Proof. cbn. apply f_equal. f_equal; repeat (f_equal; try field). Qed.

Print Assumptions C104_gibbs_duhem.
Print Assumptions C105_peng_robinson.
Print Assumptions C105_saft_refuted.
Print Assumptions C106_vanishes_refuted.
Print Assumptions C106_value.
Print Assumptions C106_refuted.
Print Assumptions C106_peng_robinson.
Print Assumptions C107_states.
Print Assumptions C107_one_array.
Print Assumptions C107_compositions.
Print Assumptions C107_compositions_refuted.
Print Assumptions C108_raoult.
