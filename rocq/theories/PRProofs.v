(** Lemmas about the Peng-Robinson object: libraries, refresh and evaluation. *)
From Verif Require Import Base BaseFacts EosToolboxModel EosToolboxSpec EosToolboxProofs RSum PRModel PRSpec.
From Coq Require Import Reals Lra.
Open Scope R_scope.
Open Scope string_scope.

(** ** kij *)
Definition written (beads : list string) (cl : dict (dict (dict R))) (a b : nat) : option R :=
  match cross_entry cl (nth a beads "") (nth b beads "") with
  | Some v => Some v
  | None => cross_entry cl (nth b beads "") (nth a beads "")
  end.

Lemma kij_step_eq beads cl k ij a b :
  kij_step beads cl k ij a b =
  if (Nat.eqb (fst ij) a && Nat.eqb (snd ij) b) || (Nat.eqb (snd ij) a && Nat.eqb (fst ij) b)
  then match written beads cl (fst ij) (snd ij) with Some v => v | None => k a b end
  else k a b.
Proof.
  unfold kij_step, written, kset.
  destruct (cross_entry cl (nth (fst ij) beads "") (nth (snd ij) beads "")) as [v|].
  - destruct (_ || _)%bool; reflexivity.
  - destruct (cross_entry cl (nth (snd ij) beads "") (nth (fst ij) beads "")) as [v|];
      destruct (_ || _)%bool; reflexivity.
Qed.

Lemma written_none_sym beads cl a b : written beads cl a b = None -> written beads cl b a = None.
Proof.
  unfold written. destruct (cross_entry cl (nth a beads "") (nth b beads "")); [discriminate|].
  intros ->. reflexivity.
Qed.

Lemma touch_spec (ij : nat * nat) a b :
  (Nat.eqb (fst ij) a && Nat.eqb (snd ij) b) || (Nat.eqb (snd ij) a && Nat.eqb (fst ij) b) = true ->
  ij = (a, b) \/ ij = (b, a).
Proof.
  destruct ij as [i j]. cbn. intros H. apply orb_true_iff in H. destruct H as [H|H];
  apply andb_true_iff in H; destruct H as [H1 H2]; apply Nat.eqb_eq in H1, H2; subst; auto.
Qed.

Lemma kij_fold_agree beads cl a b : forall l k k',
  (k a b = k' a b \/ (In (a, b) l /\ written beads cl a b <> None)) ->
  fold_left (kij_step beads cl) l k a b = fold_left (kij_step beads cl) l k' a b.
Proof.
  induction l as [|ij l IH]; intros k k' H; cbn.
  - destruct H as [H|[[] _]]; exact H.
  - apply IH. rewrite !kij_step_eq. destruct H as [H|[[->|H] W]].
    + left. rewrite H. reflexivity.
    + left. cbn. rewrite !Nat.eqb_refl. cbn. destruct (written beads cl a b); [reflexivity|contradiction].
    + right. split; assumption.
Qed.

Lemma kij_fold_unwritten beads cl a b : written beads cl a b = None -> forall l k,
  fold_left (kij_step beads cl) l k a b = k a b.
Proof.
  intros W. induction l as [|ij l IH]; intros k; cbn; [reflexivity|]. rewrite IH, kij_step_eq.
  destruct (_ || _)%bool eqn:E; [|reflexivity]. destruct (touch_spec ij a b E) as [-> | ->]; cbn.
  - rewrite W. reflexivity.
  - rewrite (written_none_sym _ _ _ _ W). reflexivity.
Qed.

Lemma in_prod n a b : (a < n)%nat -> (b < n)%nat -> In (a, b) (list_prod (seq 0 n) (seq 0 n)).
Proof. intros A B. apply in_prod_iff. rewrite !in_seq. lia. Qed.

Lemma kij_refresh_agree beads cl k k' a b : (a < length beads)%nat -> (b < length beads)%nat ->
  (written beads cl a b = None -> k a b = k' a b) ->
  kij_refresh beads cl k a b = kij_refresh beads cl k' a b.
Proof.
  intros A B H. unfold kij_refresh. apply kij_fold_agree.
  destruct (written beads cl a b) eqn:E; [right|left; apply H; reflexivity].
  split; [apply in_prod; assumption|congruence].
Qed.

(** the value when each pair is stored in one order *)
Lemma cross_entry_eq cl a b : cross_entry cl a b = entry cl a b "kij".
Proof. reflexivity. Qed.

Lemma entry_has_pair cl a b p (v : R) : entry cl a b p = Some v -> has_pair cl a b.
Proof.
  unfold entry, has_pair. destruct (dget cl a) as [d|] eqn:E; [|discriminate].
  destruct (dget d b) as [e|] eqn:F; [|discriminate]. intros _. exists d, e. split; [reflexivity|exact F].
Qed.

Lemma pair_value_sym (cl : dict (dict (dict R))) a b p : one_order cl -> pair_value cl a b p = pair_value cl b a p.
Proof.
  intros O. unfold pair_value. destruct (string_dec a b) as [->|N]; [reflexivity|].
  destruct (entry cl a b p) as [v|] eqn:E1, (entry cl b a p) as [w|] eqn:E2; try reflexivity.
  exfalso. exact (O a b N (entry_has_pair _ _ _ _ _ E1) (entry_has_pair _ _ _ _ _ E2)).
Qed.

Definition kij_value (cl : dict (dict (dict R))) (a b : string) : R :=
  match pair_value cl a b "kij" with Some v => v | None => 0 end.

Lemma written_pair beads cl a b :
  written beads cl a b = pair_value cl (nth a beads "") (nth b beads "") "kij".
Proof. reflexivity. Qed.

Lemma kij_refresh_value beads cl a b : one_order cl -> (a < length beads)%nat -> (b < length beads)%nat ->
  kij_refresh beads cl (fun _ _ => 0) a b = kij_value cl (nth a beads "") (nth b beads "").
Proof.
  intros O A B. unfold kij_value. rewrite <- written_pair.
  destruct (written beads cl a b) as [v|] eqn:W.
  - unfold kij_refresh.
    assert (G : forall l k, (In (a, b) l \/ k a b = v) -> fold_left (kij_step beads cl) l k a b = v).
    { induction l as [|ij l IH]; intros k H; cbn; [destruct H as [[]|H]; exact H|].
      apply IH. rewrite kij_step_eq.
      destruct (_ || _)%bool eqn:E.
      - right. destruct (touch_spec ij a b E) as [-> | ->]; cbn; [rewrite W; reflexivity|].
        rewrite written_pair, pair_value_sym, <- written_pair, W by exact O. reflexivity.
      - destruct H as [[->|H]|H]; [|left; exact H|right; exact H].
        cbn in E. rewrite !Nat.eqb_refl in E. discriminate. }
    apply G. left. apply in_prod; assumption.
  - unfold kij_refresh. rewrite kij_fold_unwritten by exact W. reflexivity.
Qed.

(** the value in general: the bead listed later decides *)
Lemma list_prod_app {A B} (l1 l2 : list A) (l : list B) : list_prod (l1 ++ l2) l = (list_prod l1 l ++ list_prod l2 l)%list.
Proof. induction l1 as [|x xs IH]; [reflexivity|]. cbn. rewrite IH, app_assoc. reflexivity. Qed.

Lemma kij_fold_untouched beads cl a b : forall l k,
  (forall ij, In ij l -> ij <> (a, b) /\ ij <> (b, a)) ->
  fold_left (kij_step beads cl) l k a b = k a b.
Proof.
  induction l as [|ij l IH]; intros k H; cbn; [reflexivity|]. rewrite IH by (intros x Hx; apply H; right; exact Hx).
  rewrite kij_step_eq. destruct (_ || _)%bool eqn:E; [|reflexivity].
  destruct (H ij (or_introl eq_refl)) as [H1 H2]. destruct (touch_spec ij a b E); contradiction.
Qed.

Lemma kij_refresh_last beads cl a b : (a < length beads)%nat -> (b < length beads)%nat ->
  kij_refresh beads cl (fun _ _ => 0) a b =
  match written beads cl (Nat.max a b) (Nat.min a b) with Some v => v | None => 0 end.
Proof.
  intros A B. destruct (written beads cl (Nat.max a b) (Nat.min a b)) as [v|] eqn:W.
  - unfold kij_refresh. set (n := length beads) in *. set (M := Nat.max a b). set (m := Nat.min a b).
    assert (S1 : seq 0 n = (seq 0 M ++ M :: seq (S M) (n - S M))%list).
    { replace n with (M + S (n - S M))%nat at 1 by lia. rewrite seq_app. reflexivity. }
    assert (S2 : seq 0 n = (seq 0 m ++ m :: seq (S m) (n - S m))%list).
    { replace n with (m + S (n - S m))%nat at 1 by lia. rewrite seq_app. reflexivity. }
    rewrite S1 at 1. rewrite list_prod_app. cbn [list_prod]. rewrite S2 at 2. rewrite map_app. cbn [map].
    rewrite !fold_left_app. cbn [fold_left]. rewrite kij_fold_untouched.
    + rewrite kij_fold_untouched.
      * rewrite kij_step_eq. cbn [fst snd]. fold M m in W. rewrite W.
        assert (T : (Nat.eqb M a && Nat.eqb m b) || (Nat.eqb m a && Nat.eqb M b) = true).
        { destruct (Nat.le_ge_cases a b).
          - unfold M, m. rewrite Nat.max_r, Nat.min_l, !Nat.eqb_refl by lia. apply orb_true_r.
          - unfold M, m. rewrite Nat.max_l, Nat.min_r, !Nat.eqb_refl by lia. reflexivity. }
        rewrite T. reflexivity.
      * intros ij H. apply in_map_iff in H. destruct H as [x [<- Hx]]. apply in_seq in Hx.
        split; intros E; injection E as E1 E2; lia.
    + intros [x y] H. apply in_prod_iff in H. destruct H as [Hx _]. apply in_seq in Hx.
      split; intros E; injection E as E1 E2; lia.
  - unfold kij_refresh. apply kij_fold_unwritten.
    destruct (Nat.le_ge_cases a b).
    + rewrite Nat.max_r, Nat.min_l in W by lia. apply written_none_sym. exact W.
    + rewrite Nat.max_l, Nat.min_r in W by lia. exact W.
Qed.

Lemma kij_fold_sym beads cl : forall l k, (forall a b, k a b = k b a) ->
  forall a b, fold_left (kij_step beads cl) l k a b = fold_left (kij_step beads cl) l k b a.
Proof.
  induction l as [|ij l IH]; intros k H a b; cbn; [apply H|]. apply IH. intros x y. rewrite !kij_step_eq.
  rewrite (H x y). rewrite orb_comm, (andb_comm (Nat.eqb (snd ij) x)), (andb_comm (Nat.eqb (fst ij) x)).
  reflexivity.
Qed.

(** ** one bead's dictionary *)
(** [d] is what the object stores for a bead the user described by [u] *)
Definition stored (c g : bool) (d u : dict R) : Prop :=
  (forall k, k <> "kappa" -> k <> "ai" -> k <> "bi" -> dget d k = dget u k) /\
  (dget d "kappa" = dget u "kappa" \/ dget d "kappa" = kappa_of u) /\
  (if g then dget d "ai" = dget u "ai" /\ dget d "bi" = dget u "bi" /\ dget u "ai" <> None /\ dget u "bi" <> None
   else c = true /\ dget u "Tc" <> None /\ dget u "Pc" <> None /\ (dget u "ai" = None \/ dget u "bi" = None)).

(** ... after a refresh *)
Definition derived (d u : dict R) : Prop := dget d "kappa" = kappa_of u.

Lemma dget_dset_eq {A} (d : dict A) k v k' : dget (dset d k v) k' = if String.eqb k k' then Some v else dget d k'.
Proof.
  destruct (String.eqb_spec k k') as [<-|N]; [apply dget_dset_same|apply dget_dset_other; exact N].
Qed.

Lemma derive_bead_spec c g d u : stored c g d u ->
  exists d' ab, derive_bead c g d = Ok (d', ab) /\ stored c g d' u /\ derived d' u /\ ab_of Rgas u = Some ab.
Proof.
  intros [S1 [S2 S3]]. unfold derive_bead.
  set (d1 := match dget d "omega", dget d "kappa" with
            | Some w, None => dset d "kappa" (37464 / 100000 + 154226 / 100000 * w - 26992 / 100000 * w ^ 2)
            | _, _ => d end).
  assert (O : dget d "omega" = dget u "omega") by (apply S1; discriminate).
  assert (K : dget d1 "kappa" = kappa_of u).
  { unfold d1. rewrite O. destruct S2 as [S2|S2]; rewrite S2.
    - unfold kappa_of. destruct (dget u "kappa") as [k|] eqn:E.
      + destruct (dget u "omega"); rewrite S2; reflexivity.
      + destruct (dget u "omega") as [w|]; [rewrite dget_dset_same; f_equal; field|exact S2].
    - unfold kappa_of. destruct (dget u "kappa") as [k|] eqn:E.
      + assert (X : dget d "kappa" = Some k) by (rewrite S2; unfold kappa_of; rewrite E; reflexivity).
        destruct (dget u "omega"); exact X.
      + destruct (dget u "omega") as [w|] eqn:F.
        * rewrite S2. unfold kappa_of. rewrite E, F. reflexivity.
        * rewrite S2. unfold kappa_of. rewrite E, F. reflexivity. }
  assert (D1 : forall k, k <> "kappa" -> dget d1 k = dget d k).
  { intros k Hk. unfold d1. destruct (dget d "omega"), (dget d "kappa"); try reflexivity.
    apply dget_dset_other. congruence. }
  destruct g.
  - destruct S3 as [A [B [NA NB]]]. rewrite andb_false_r. cbn [rbind].
    unfold dfetch. rewrite !D1, A, B by discriminate.
    destruct (dget u "ai") as [a|] eqn:Ea; [|congruence]. destruct (dget u "bi") as [b|] eqn:Eb; [|congruence].
    cbn [rbind]. exists d1, (a, b). split; [reflexivity|]. split; [|split].
    + split; [|split; [right; exact K|]].
      * intros k H1 H2 H3. rewrite D1 by exact H1. apply S1; assumption.
      * rewrite !D1, A, B by discriminate. rewrite Ea, Eb. repeat split; congruence.
    + exact K.
    + unfold ab_of. rewrite Ea, Eb. reflexivity.
  - destruct S3 as [-> [NT [NP NAB]]]. cbn [andb negb].
    assert (T1 : dget d1 "Tc" = dget u "Tc") by (rewrite D1 by discriminate; apply S1; discriminate).
    assert (P1 : dget d1 "Pc" = dget u "Pc") by (rewrite D1 by discriminate; apply S1; discriminate).
    unfold dfetch. rewrite T1, P1.
    destruct (dget u "Tc") as [Tc|] eqn:ET; [|congruence]. destruct (dget u "Pc") as [Pc|] eqn:EP; [|congruence].
    cbn [rbind]. set (a := 45723553 / 100000000 * (Rgas * Tc) ^ 2 / Pc). set (b := 7779607 / 100000000 * (Rgas * Tc / Pc)).
    rewrite dget_dset_same. rewrite (dget_dset_other _ "bi" "ai") by discriminate. rewrite dget_dset_same. cbn [rbind].
    exists (dset (dset d1 "ai" a) "bi" b), (a, b). split; [reflexivity|].
    assert (K' : dget (dset (dset d1 "ai" a) "bi" b) "kappa" = kappa_of u).
    { rewrite !dget_dset_other by discriminate. exact K. }
    split; [|split].
    + split; [|split; [right; exact K'|]].
      * intros k H1 H2 H3. rewrite !dget_dset_other by congruence. rewrite D1 by exact H1. apply S1; assumption.
      * split; [reflexivity|]. rewrite ET, EP. split; [discriminate|]. split; [discriminate|exact NAB].
    + exact K'.
    + unfold ab_of. rewrite ET, EP.
      assert (X : (a, b) = (45723553 / 100000000 * Rgas * Rgas * Tc * Tc / Pc, 7779607 / 100000000 * Rgas * Tc / Pc)).
      { unfold a, b. f_equal; unfold Rdiv; ring. }
      destruct NAB as [-> | ->]; [rewrite X; reflexivity|]. destruct (dget u "ai"); rewrite X; reflexivity.
Qed.

(** ** the object *)
Definition holds (U lib : dict (dict R)) (fc fg : string -> bool) (extra : dict R -> dict R -> Prop) (b : string) : Prop :=
  exists d u, dget lib b = Some d /\ dget U b = Some u /\ stored (fc b) (fg b) d u /\ extra d u.
Definition no_extra (d u : dict R) : Prop := True.

Lemma derive_beads_spec U fc fg all : forall bs lib,
  incl bs all ->
  (forall b, In b all -> holds U lib fc fg no_extra b) ->
  exists lib' abs, derive_beads bs (map fc bs) (map fg bs) lib = Ok (lib', abs) /\
    (forall b, In b all -> holds U lib' fc fg no_extra b) /\
    (forall b, In b bs -> holds U lib' fc fg derived b) /\
    (forall b, ~ In b bs -> dget lib' b = dget lib b) /\
    Forall2 (fun b ab => exists u, dget U b = Some u /\ ab_of Rgas u = Some ab) bs abs.
Proof.
  induction bs as [|b bs IH]; intros lib I H.
  - exists lib, []. split; [reflexivity|]. split; [exact H|]. split; [intros b []|]. split; [reflexivity|constructor].
  - cbn [map derive_beads]. destruct (H b (I b (or_introl eq_refl))) as [d [u [E1 [E2 [S _]]]]].
    destruct (derive_bead_spec _ _ _ _ S) as [d' [ab [E3 [S' [D' A]]]]].
    unfold dfetch. rewrite E1. cbn [rbind]. rewrite E3. cbn [rbind fst snd].
    destruct (IH (dset lib b d')) as [lib' [abs [E4 [G1 [G2 [G3 G4]]]]]].
    { intros x Hx. apply I. right; exact Hx. }
    { intros x Hx. destruct (string_dec b x) as [<-|N].
      - exists d', u. rewrite dget_dset_same. repeat split; try assumption; apply S'.
      - destruct (H x Hx) as [d0 [u0 [F1 F2]]]. exists d0, u0. rewrite dget_dset_other by exact N. split; assumption. }
    rewrite E4. cbn [rbind fst snd]. exists lib', (ab :: abs). split; [reflexivity|].
    split; [exact G1|]. split; [|split].
    + intros x [<-|Hx]; [|apply G2; exact Hx].
      destruct (in_dec string_dec b bs) as [L|L]; [apply G2; exact L|].
      exists d', u. rewrite (G3 b L), dget_dset_same. split; [reflexivity|]. split; [exact E2|]. split; assumption.
    + intros x Hx. rewrite G3 by (intros Y; apply Hx; right; exact Y). apply dget_dset_other.
      intros ->. apply Hx; left; reflexivity.
    + constructor; [exists u; split; assumption|exact G4].
Qed.

(** the object's state agrees with the user's libraries [e]; derived entries may be
    out of date *)
Definition inv (s : pr) (e : eos_params R) : Prop :=
  ep_beads e = beads_of s /\ ep_types e = pr_types /\ ep_types (pr_par s) = pr_types /\
  ep_cross_library e = cross_of s /\
  (exists fc fg, pr_critical s = map fc (beads_of s) /\ pr_given s = map fg (beads_of s) /\
     forall b, In b (beads_of s) -> holds (ep_bead_library e) (lib_of s) fc fg no_extra b) /\
  (forall a b, (a < length (beads_of s))%nat -> (b < length (beads_of s))%nat ->
     written (beads_of s) (cross_of s) a b = None -> pr_kij s a b = 0).

(** ... and is up to date *)
Definition alpha_spec (U : dict (dict R)) (T : R) (b : string) : result R :=
  let* u := dfetch U b in alpha_of u T.
Definition fresh (s : pr) (e : eos_params R) : Prop :=
  inv s e /\
  (forall b, In b (beads_of s) -> exists d u, dget (lib_of s) b = Some d /\ dget (ep_bead_library e) b = Some u /\
     dget d "Tc" = dget u "Tc" /\ dget d "kappa" = kappa_of u) /\
  (forall i b, nth_error (beads_of s) i = Some b ->
     exists u, dget (ep_bead_library e) b = Some u /\ ab_of Rgas u = Some (pr_ai s i, pr_bi s i)) /\
  (forall a b, (a < length (beads_of s))%nat -> (b < length (beads_of s))%nat ->
     pr_kij s a b = kij_refresh (beads_of s) (cross_of s) (fun _ _ => 0) a b) /\
  match pr_T s with
  | None => True
  | Some T => exists al, mapM (alpha_spec (ep_bead_library e) T) (beads_of s) = Ok al /\
      forall i, (i < length (beads_of s))%nat -> pr_alpha s i = nth i al 0
  end.


Lemma alpha_entry_spec lib U T b d u : dget lib b = Some d -> dget U b = Some u ->
  dget d "Tc" = dget u "Tc" -> dget d "kappa" = kappa_of u -> alpha_entry lib T b = alpha_spec U T b.
Proof.
  intros E1 E2 ET EK. unfold alpha_entry, alpha_spec, dfetch, alpha_of. rewrite E1, E2. cbn [rbind].
  rewrite EK, ET. destruct (kappa_of u) as [k|]; [|reflexivity].
  destruct (dget u "Tc") as [Tc|]; cbn [rbind]; [|reflexivity]. f_equal. ring.
Qed.

Definition observables (s : pr) (e : eos_params R) (al : list R) : Prop :=
  beads_of s = ep_beads e /\
  (forall i b, nth_error (ep_beads e) i = Some b ->
     exists u, dget (ep_bead_library e) b = Some u /\ ab_of Rgas u = Some (pr_ai s i, pr_bi s i)) /\
  (forall a b, (a < length (ep_beads e))%nat -> (b < length (ep_beads e))%nat ->
     pr_kij s a b = kij_refresh (ep_beads e) (ep_cross_library e) (fun _ _ => 0) a b) /\
  forall i, (i < length (ep_beads e))%nat -> pr_alpha s i = nth i al 0.

Lemma fresh_calc s e T : fresh s e ->
  match mapM (alpha_spec (ep_bead_library e) T) (ep_beads e) with
  | Err x => calc_temp_dependent s T = Err x
  | Ok al => exists s1, calc_temp_dependent s T = Ok s1 /\ fresh s1 e /\ observables s1 e al
  end.
Proof.
  intros F. pose proof F as [I [L [A [K _]]]]. destruct I as [I1 [I2 [I3 [I4 [I5 I6]]]]].
  unfold calc_temp_dependent.
  rewrite (mapM_ext (alpha_entry (lib_of s) T) (alpha_spec (ep_bead_library e) T)).
  2: { intros b Hb. destruct (L b Hb) as [d [u [E1 [E2 [E3 E4]]]]]. exact (alpha_entry_spec _ _ _ _ _ _ E1 E2 E3 E4). }
  rewrite I1. destruct (mapM (alpha_spec (ep_bead_library e) T) (beads_of s)) as [al|x] eqn:EM; cbn [rbind]; [|reflexivity].
  eexists. split; [reflexivity|]. split.
  - split; [|split; [|split; [|split]]]; cbn.
    + split; [exact I1|]. split; [exact I2|]. split; [exact I3|]. split; [exact I4|]. split; [exact I5|exact I6].
    + exact L.
    + exact A.
    + exact K.
    + exists al. split; [exact EM|reflexivity].
  - split; [cbn; symmetry; exact I1|]. rewrite I1, I4. split; [exact A|]. split; [exact K|]. reflexivity.
Qed.

(** evaluation of an up-to-date object: the values depend on the user's libraries only *)
Lemma fresh_at s e T : fresh s e ->
  match mapM (alpha_spec (ep_bead_library e) T) (ep_beads e) with
  | Err x => at_temperature s T = Err x
  | Ok al => exists s1, at_temperature s T = Ok s1 /\ fresh s1 e /\ observables s1 e al
  end.
Proof.
  intros F. pose proof (fresh_calc s e T F) as C. unfold at_temperature.
  destruct (pr_T s) as [T'|] eqn:ET; [|exact C]. destruct (Req_EM_T T T') as [<-|N]; [|exact C].
  pose proof F as [[I1 [I2 [I3 [I4 [I5 I6]]]]] [L [A [K X]]]]. rewrite ET in X. destruct X as [al [E Al]].
  rewrite I1, E. exists s. split; [reflexivity|]. split; [exact F|].
  split; [symmetry; exact I1|]. rewrite I1, I4. split; [exact A|]. split; [exact K|exact Al].
Qed.

Lemma inv_calc s e T s1 : inv s e -> calc_temp_dependent s T = Ok s1 -> inv s1 e.
Proof.
  intros I. unfold calc_temp_dependent. destruct (mapM _ _) as [al|]; cbn [rbind]; [|discriminate].
  intros E. injection E as <-. exact I.
Qed.
Lemma inv_at s e T s1 : inv s e -> at_temperature s T = Ok s1 -> inv s1 e.
Proof.
  intros I. unfold at_temperature. destruct (pr_T s) as [T'|]; [destruct (Req_EM_T T T')|];
    try (apply inv_calc; exact I). intros E; injection E as <-; exact I.
Qed.

Lemma Forall2_nth_error {A B} (P : A -> B -> Prop) l l' i x d :
  Forall2 P l l' -> nth_error l i = Some x -> P x (nth i l' d).
Proof.
  intros H. revert i. induction H as [|y z l l' Hyz H IH]; intros i E; [destruct i; discriminate|].
  destruct i as [|i]; cbn in *; [injection E as <-; exact Hyz|apply IH; exact E].
Qed.

Lemma refresh_pre s e : inv s e ->
  exists s1, fresh s1 e /\ pr_T s1 = None /\ beads_of s1 = beads_of s /\
    parameter_refresh s = match pr_T s with
                          | Some T => calc_temp_dependent s1 T
                          | None => Ok s1
                          end.
Proof.
  intros [I1 [I2 [I3 [I4 [[fc [fg [C1 [C2 H]]]] K]]]]]. unfold parameter_refresh. rewrite C1, C2.
  destruct (derive_beads_spec (ep_bead_library e) fc fg (beads_of s) (beads_of s) (lib_of s) (incl_refl _) H)
    as [lib' [abs [E [G1 [G2 [_ G4]]]]]].
  rewrite E. cbn [rbind fst snd].
  set (par := {| ep_beads := beads_of s; ep_types := ep_types (pr_par s);
                 ep_bead_library := lib'; ep_cross_library := cross_of s |}).
  exists {| pr_par := par; pr_critical := map fc (beads_of s); pr_given := map fg (beads_of s);
            pr_ai := fun i => fst (nth i abs (0, 0)); pr_bi := fun i => snd (nth i abs (0, 0));
            pr_alpha := pr_alpha s; pr_kij := kij_refresh (beads_of s) (cross_of s) (pr_kij s); pr_T := None |}.
  split; [|split; [reflexivity|split; [reflexivity|]]].
  - split; [|split; [|split; [|split]]].
    + split; [exact I1|]. split; [exact I2|]. split; [exact I3|]. split; [exact I4|]. split.
      * exists fc, fg. split; [reflexivity|]. split; [reflexivity|exact G1].
      * intros a b Ha Hb W. cbn in *. unfold kij_refresh. change (beads_of _) with (beads_of s) in W.
        change (cross_of _) with (cross_of s) in W. rewrite kij_fold_unwritten by exact W. apply K; assumption.
    + intros b Hb. destruct (G2 b Hb) as [d [u [E1 [E2 [[S1 _] D]]]]]. exists d, u.
      split; [exact E1|]. split; [exact E2|]. split; [apply S1; discriminate|exact D].
    + intros i b Hb. destruct (Forall2_nth_error _ _ _ i b (0, 0) G4 Hb) as [u [U1 U2]]. exists u.
      split; [exact U1|]. cbn. rewrite U2. destruct (nth i abs (0, 0)); reflexivity.
    + intros a b Ha Hb. cbn. change (beads_of _) with (beads_of s). change (cross_of _) with (cross_of s).
      apply kij_refresh_agree; [exact Ha|exact Hb|]. intros W. apply K; assumption.
    + exact I.
  - destruct (pr_T s) as [T|]; [|reflexivity].
    unfold calc_temp_dependent. reflexivity.
Qed.

Lemma refresh_spec s e s1 : inv s e -> parameter_refresh s = Ok s1 -> fresh s1 e.
Proof.
  intros I E. destruct (refresh_pre s e I) as [s2 [F [N [B E2]]]]. rewrite E2 in E.
  destruct (pr_T s) as [T|]; [|injection E as <-; exact F].
  pose proof (fresh_calc s2 e T F) as C. destruct (mapM _ _); [|congruence].
  destruct C as [s3 [C1 [C2 _]]]. congruence.
Qed.

(** ** construction *)
Lemma stored_refl (c g : bool) (u : dict R) :
  (if g then dget u "ai" <> None /\ dget u "bi" <> None
   else c = true /\ dget u "Tc" <> None /\ dget u "Pc" <> None /\ (dget u "ai" = None \/ dget u "bi" = None)) ->
  stored c g u u.
Proof.
  intros H. split; [reflexivity|]. split; [left; reflexivity|]. destruct g; [|exact H].
  split; [reflexivity|]. split; [reflexivity|exact H].
Qed.

Definition bead_ok (lib : dict (dict R)) (b : string) : Prop :=
  exists u ab, dget lib b = Some u /\ ab_of Rgas u = Some ab.

Definition flag_c (lib : dict (dict R)) (b : string) : bool :=
  match dget lib b with Some d => dmem d "Tc" && dmem d "Pc" | None => false end.
Definition flag_g (lib : dict (dict R)) (b : string) : bool :=
  match dget lib b with Some d => dmem d "ai" && dmem d "bi" | None => false end.

Lemma dmem_false {A} (d : dict A) k : dmem d k = false <-> dget d k = None.
Proof. unfold dmem. destruct (dget d k); split; congruence. Qed.
Lemma dmem_true {A} (d : dict A) k : dmem d k = true <-> dget d k <> None.
Proof. unfold dmem. destruct (dget d k); split; congruence. Qed.

Lemma bead_flags_spec lib b :
  match bead_flags lib b with
  | Ok f => f = (flag_c lib b, flag_g lib b) /\ bead_ok lib b
  | Err x => ~ bead_ok lib b /\ (x = KeyError \/ x = ValueError)
  end.
Proof.
  unfold bead_flags, flag_c, flag_g, bead_ok, dfetch, ab_of, dmem.
  destruct (dget lib b) as [d|]; cbn [rbind];
    [|split; [intros [u [ab [X _]]]; discriminate|left; reflexivity]].
  destruct (dget d "Tc") as [tc|] eqn:E1, (dget d "Pc") as [pc|] eqn:E2,
    (dget d "ai") as [a|] eqn:E3, (dget d "bi") as [b'|] eqn:E4; cbn;
    try (split; [reflexivity|]; exists d; eexists; split; [reflexivity|]; rewrite ?E1, ?E2, ?E3, ?E4; reflexivity);
    (split; [|right; reflexivity]; intros [u [ab [X Y]]]; injection X as <-; rewrite ?E1, ?E2, ?E3, ?E4 in Y; discriminate).
Qed.

Lemma init_spec beads lib cl :
  match init beads lib cl with
  | Ok s => fresh s {| ep_beads := beads; ep_types := pr_types; ep_bead_library := lib; ep_cross_library := cl |}
            /\ forall b, In b beads -> bead_ok lib b
  | Err x => (x = KeyError \/ x = ValueError) /\ exists b, In b beads /\ ~ bead_ok lib b
  end.
Proof.
  unfold init. set (e := {| ep_beads := beads; ep_types := pr_types; ep_bead_library := lib; ep_cross_library := cl |}).
  assert (M : match mapM (bead_flags lib) beads with
              | Ok fl => map fst fl = map (flag_c lib) beads /\ map snd fl = map (flag_g lib) beads /\
                         (forall b, In b beads -> bead_ok lib b)
              | Err x => (x = KeyError \/ x = ValueError) /\ exists b, In b beads /\ ~ bead_ok lib b
              end).
  { clear e. induction beads as [|b bs IH]; cbn [mapM].
    - split; [reflexivity|]. split; [reflexivity|intros b []].
    - pose proof (bead_flags_spec lib b) as B. destruct (bead_flags lib b) as [f|x]; cbn [rbind].
      + destruct B as [-> B]. destruct (mapM (bead_flags lib) bs) as [fl|x]; cbn [rbind].
        * destruct IH as [A1 [A2 A3]]. cbn [map fst snd]. rewrite A1, A2. split; [reflexivity|]. split; [reflexivity|].
          intros y [<-|Hy]; [exact B|apply A3; exact Hy].
        * destruct IH as [X [y [Y1 Y2]]]. split; [exact X|]. exists y. split; [right; exact Y1|exact Y2].
      + split; [tauto|]. exists b. split; [left; reflexivity|tauto]. }
  destruct (mapM (bead_flags lib) beads) as [fl|x]; cbn [rbind]; [|exact M].
  destruct M as [M1 [M2 M3]]. rewrite M1, M2.
  match goal with |- context [parameter_refresh ?s] => set (s0 := s) end.
  assert (I0 : inv s0 e).
  { split; [reflexivity|]. split; [reflexivity|]. split; [reflexivity|]. split; [reflexivity|]. split.
    - exists (flag_c lib), (flag_g lib). split; [reflexivity|]. split; [reflexivity|].
      intros b Hb. destruct (M3 b Hb) as [u [ab [U1 U2]]]. exists u, u. split; [exact U1|]. split; [exact U1|].
      split; [|exact I]. apply stored_refl. unfold flag_g, flag_c, dmem. rewrite U1. unfold ab_of in U2.
      destruct (dget u "ai"), (dget u "bi"), (dget u "Tc"), (dget u "Pc"); cbn; try discriminate;
        (split; [congruence|]); try congruence;
        (split; [congruence|]); (split; [congruence|]); tauto.
    - intros; reflexivity. }
  destruct (refresh_pre s0 e I0) as [s1 [F [_ [_ E]]]]. rewrite E. cbn. split; [exact F|exact M3].
Qed.

(** ** updates *)
Lemma list_index_spec x l k : list_index x l = Ok k -> nth_error l k = Some x.
Proof.
  revert k. induction l as [|y ys IH]; intros k; cbn; [discriminate|].
  destruct (String.eqb_spec x y) as [->|N]; [intros E; injection E as <-; reflexivity|].
  destruct (list_index x ys) as [j|]; cbn [rbind]; [|discriminate]. intros E; injection E as <-. cbn. apply IH. reflexivity.
Qed.

Lemma written_mono beads (e e' : eos_params R) p names v a b :
  update_parameter e p names v = Ok e' ->
  written beads (ep_cross_library e') a b = None -> written beads (ep_cross_library e) a b = None.
Proof.
  intros E. rewrite !written_pair. unfold pair_value.
  assert (M : forall x y q, entry (ep_cross_library e') x y q = None -> entry (ep_cross_library e) x y q = None).
  { intros x y q. unfold update_parameter in E.
    destruct (Nat.ltb 2 (length names)); [discriminate|].
    destruct (negb (forallb _ names)); [discriminate|]. destruct (negb (existsb _ _)); [discriminate|].
    destruct names as [|b0 [|b1 [|b2 r]]].
    - injection E as <-. tauto.
    - destruct (dget (ep_bead_library e) b0); injection E as <-; cbn; tauto.
    - assert (Aux : forall (f : dict R) z w,
        (forall t, entry (ep_cross_library e) z w t <> None -> dget f t <> None) ->
        forall D : dict (dict R), (match dget (ep_cross_library e) z with Some D0 => D = D0 | None => D = [] end) ->
        entry (dset (ep_cross_library e) z (dset D w f)) x y q = None -> entry (ep_cross_library e) x y q = None).
      { intros f z w Hf D HD. unfold entry at 1. rewrite dget_dset_eq.
        destruct (String.eqb_spec z x) as [<-|Nz]; [|unfold entry; tauto].
        rewrite dget_dset_eq. destruct (String.eqb_spec w y) as [<-|Nw].
        - intros Hq. destruct (entry (ep_cross_library e) z w q) eqn:EE; [|reflexivity].
          exfalso. apply (Hf q); congruence.
        - unfold entry. destruct (dget (ep_cross_library e) z) as [D0|]; [subst D; tauto|reflexivity]. }
      assert (Old : forall z w D d, dget (ep_cross_library e) z = Some D -> dget D w = Some d ->
         forall t, entry (ep_cross_library e) z w t <> None -> dget (dset d p v) t <> None).
      { intros z w D d E1 E2 t. unfold entry. rewrite E1, E2, dget_dset_eq. destruct (String.eqb p t); [discriminate|tauto]. }
      assert (Last : match dget (ep_cross_library e) b0 with
               | Some d0 =>
                   match dget d0 b1 with
                   | Some d => Ok (set_cross_lib R e (dset (ep_cross_library e) b0 (dset d0 b1 (dset d p v))))
                   | None => Ok (set_cross_lib R e (dset (ep_cross_library e) b0 (dset d0 b1 [(p, v)])))
                   end
               | None => Ok (set_cross_lib R e (dset (ep_cross_library e) b0 [(b1, [(p, v)])]))
               end = Ok e' -> entry (ep_cross_library e') x y q = None -> entry (ep_cross_library e) x y q = None).
      { destruct (dget (ep_cross_library e) b0) as [d0|] eqn:E0; [destruct (dget d0 b1) as [d|] eqn:E1|]; intros X; injection X as <-;
          cbn [ep_cross_library set_cross_lib].
        - apply (Aux _ b0 b1 (Old b0 b1 d0 d E0 E1)). rewrite E0; reflexivity.
        - apply (Aux _ b0 b1); [|rewrite E0; reflexivity].
          intros t. unfold entry. rewrite E0, E1. tauto.
        - change [(b1, [(p, v)])] with (dset (@nil (string * dict R)) b1 [(p, v)]).
          apply (Aux _ b0 b1); [|rewrite E0; reflexivity].
          intros t. unfold entry. rewrite E0. tauto. }
      destruct (dget (ep_cross_library e) b1) as [d1|] eqn:E1; [|apply Last; exact E].
      destruct (dget d1 b0) as [d|] eqn:E2; [|apply Last; exact E].
      injection E as <-. cbn [ep_cross_library set_cross_lib].
      apply (Aux _ b1 b0 (Old b1 b0 d1 d E1 E2)). rewrite E1; reflexivity.
    - injection E as <-. tauto. }
  destruct (entry (ep_cross_library e') (nth a beads "") (nth b beads "") "kij") eqn:X; [discriminate|].
  intros Y. rewrite (M _ _ _ X). apply M. exact Y.
Qed.

Lemma update_inv s e p names v s' : inv s e -> pr_update s p names v = Ok s' ->
  ~ (p = "omega" /\ length names = 1%nat) ->
  exists e', update_parameter e p names v = Ok e' /\ inv s' e'.
Proof.
  intros [I1 [I2 [I3 [I4 [[fc [fg [C1 [C2 H]]]] K]]]]] E NO. unfold pr_update in E.
  destruct (if smem p ["ai"; "bi"] then _ else _) as [blocked|] eqn:EB; cbn [rbind] in E; [|discriminate].
  destruct blocked; [discriminate|].
  destruct (update_parameter (pr_par s) p names v) as [par|] eqn:EU; cbn [rbind] in E; [|discriminate].
  injection E as <-.
  assert (EU0 := EU). unfold update_parameter in EU |- *.
  destruct (Nat.ltb 2 (length names)) eqn:L2; [discriminate|].
  change (ep_beads (pr_par s)) with (beads_of s) in EU. rewrite I1.
  destruct (forallb (fun b => smem b (beads_of s)) names) eqn:FB; cbn [negb] in *; [|discriminate].
  rewrite I3 in EU. rewrite I2.
  destruct (existsb (fun x => substring_in x p) pr_types) eqn:FT; cbn [negb] in *; [|discriminate].
  assert (NK : p <> "kappa") by (intros ->; vm_compute in FT; discriminate).
  destruct names as [|b [|b1 [|b2 r]]].
  - injection EU as <-. exists e. split; [reflexivity|]. unfold inv. cbn.
    split; [exact I1|]. split; [exact I2|]. split; [exact I3|]. split; [exact I4|].
    split; [exists fc, fg; split; [exact C1|split; [exact C2|exact H]]|exact K].
  - assert (Hb : In b (beads_of s)).
    { cbn in FB. rewrite andb_true_r in FB. apply smem_In. exact FB. }
    destruct (H b Hb) as [d [u [E1 [E2 [S _]]]]]. unfold lib_of in E1. rewrite E1 in EU. injection EU as <-. rewrite E2.
    eexists. split; [reflexivity|]. unfold inv. cbn.
    split; [exact I1|]. split; [exact I2|]. split; [exact I3|]. split; [exact I4|]. split; [|exact K].
    exists fc, fg. split; [exact C1|]. split; [exact C2|]. intros x Hx. unfold holds.
    change (lib_of _) with (dset (ep_bead_library (pr_par s)) b (dset d p v)).
    destruct (string_dec b x) as [<-|N].
    + exists (dset d p v), (dset u p v). rewrite !dget_dset_same. split; [reflexivity|]. split; [reflexivity|].
      split; [|exact I].
      assert (NO' : p <> "omega") by (intros ->; apply NO; split; reflexivity).
      assert (AB : (p = "ai" \/ p = "bi") -> fc b = false).
      { intros P. assert (SM : smem p ["ai"; "bi"] = true) by (destruct P as [-> | ->]; reflexivity). rewrite SM in EB.
        destruct (list_index b (beads_of s)) as [k|] eqn:EK; cbn [rbind] in EB; [|discriminate].
        injection EB as EB. apply list_index_spec in EK. rewrite C1 in EB.
        apply (map_nth_error fc) in EK. apply nth_error_nth with (d := false) in EK. congruence. }
      destruct S as [S1 [S2 S3]].
      assert (KO : kappa_of (dset u p v) = kappa_of u).
      { unfold kappa_of. rewrite !dget_dset_other by congruence. reflexivity. }
      split; [|split].
      * intros k H1 H2 H3. rewrite !dget_dset_eq. destruct (String.eqb p k); [reflexivity|]. apply S1; assumption.
      * rewrite KO, !dget_dset_other by congruence. exact S2.
      * destruct (fg b).
        -- rewrite !dget_dset_eq. destruct S3 as [A [B [NA NB]]].
           destruct (String.eqb p "ai"), (String.eqb p "bi"); repeat split; congruence.
        -- destruct S3 as [F [NT [NP NAB]]]. rewrite !dget_dset_eq.
           destruct (String.eqb_spec p "ai") as [->|N1]; [rewrite AB in F by tauto; discriminate|].
           destruct (String.eqb_spec p "bi") as [->|N2]; [rewrite AB in F by tauto; discriminate|].
           split; [exact F|]. destruct (String.eqb p "Tc"), (String.eqb p "Pc"); (split; [congruence|]); (split; [congruence|exact NAB]).
    + destruct (H x Hx) as [d0 [u0 [F1 F2]]]. exists d0, u0. unfold lib_of in F1.
      rewrite !dget_dset_other by exact N. split; [exact F1|exact F2].
  - assert (G : forall C, par = set_cross_lib R (pr_par s) C ->
        (forall x y, written (beads_of s) C x y = None -> written (beads_of s) (cross_of s) x y = None) ->
        inv {| pr_par := par; pr_critical := pr_critical s; pr_given := pr_given s; pr_ai := pr_ai s;
               pr_bi := pr_bi s; pr_alpha := pr_alpha s; pr_kij := pr_kij s; pr_T := pr_T s |} (set_cross_lib R e C)).
    { intros C -> W. unfold inv. cbn. split; [exact I1|]. split; [exact I2|]. split; [exact I3|]. split; [reflexivity|].
      split; [exists fc, fg; split; [exact C1|split; [exact C2|exact H]]|].
      intros x y Hx Hy W'. apply K; [exact Hx|exact Hy|]. apply W. exact W'. }
    assert (W : forall x y, written (beads_of s) (ep_cross_library par) x y = None ->
                written (beads_of s) (cross_of s) x y = None).
    { intros x y. apply (written_mono _ _ _ _ _ _ _ _ EU0). }
    rewrite I4. unfold cross_of in *.
    destruct (dget (ep_cross_library (pr_par s)) b1) as [d1|] eqn:X1;
      [destruct (dget d1 b) as [dd|] eqn:X2|];
      [|destruct (dget (ep_cross_library (pr_par s)) b) as [d0|] eqn:X3; [destruct (dget d0 b1) as [dd|] eqn:X4|]
       |destruct (dget (ep_cross_library (pr_par s)) b) as [d0|] eqn:X3; [destruct (dget d0 b1) as [dd|] eqn:X4|]];
      injection EU as <-; eexists; (split; [reflexivity|]); (apply G; [reflexivity|exact W]).
  - cbn in L2. discriminate.
Qed.
