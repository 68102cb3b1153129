(** C43 and C44: what bubble and dew point calculations report. *)
From Coq Require Import Lqa.
From Verif Require Import Base Num NumFacts BubbleDewModel.
Open Scope Q_scope.

Section Reports.
  Context {C : Type}.
  Variable norm : C -> C.
  Variable has_nan : C -> bool.
  Notation calc := (calc_pressure norm has_nan).

  Lemma objective_reports (pt : point (C := C)) st P st' v : nlt P (Fin 0) = false ->
    objective norm pt st P = (st', Ok v) ->
    exists c c' l, kept st = Some c /\ inner pt (tol_entry st) c P = (l, Ok c') /\
      kept st' = Some (norm c') /\ value pt P (norm c') = Ok v.
  Proof.
    intros H. unfold objective. rewrite H. destruct (kept st) as [c|]; [|discriminate].
    destruct (inner pt (tol_entry st) c P) as [l [c'|e]] eqn:E; [|discriminate].
    intros X. injection X as <- Hv. exists c, c', l. auto.
  Qed.

  (** C44: the composition a bubble point reports is the one the inner loop found at the
      reported pressure, normalised, and the reported objective is the one at that composition
      and pressure. *)
Theorem C44_bubble_converged : forall (pt : point (C := C)) st st' r,
    calc false pt st = (st', Ok r) -> nlt (r_P r) (Fin 0) = false ->
    exists t c c' l, inner pt t c (r_P r) = (l, Ok c') /\ r_comp r = norm c' /\
      value pt (r_P r) (r_comp r) = Ok (r_obj r) /\ kept st' = Some (r_comp r).
  Proof.
    intros pt st st' r E HP. unfold calc_pressure in E.
    destruct (raoult pt) as [c1|]; [|discriminate]. destruct (guess_of has_nan pt st) as [c0|]; [|discriminate].
    destruct (brackets pt (tol_entry st) (norm c0)) as [l [[[lo hi] est]|]]; [|discriminate].
    destruct (is_nan lo || is_nan hi); [discriminate|].
    destruct (run_solver _ _ _ _) as [st2 [P|]]; [|discriminate].
    destruct (own_flag pt P) as [fo|]; [|discriminate]. destruct (other_flag pt P (norm c0)) as [f|]; [|discriminate].
    destruct (objective norm pt _ P) as [st4 [v|]] eqn:Eo; [|discriminate].
    destruct (kept st4) as [rc|] eqn:Ek; [|discriminate]. injection E as <- <-. cbn [r_P r_comp r_obj] in *.
    destruct (objective_reports _ _ _ _ _ HP Eo) as (c & c' & l' & E1 & E2 & E3 & E4).
    rewrite Ek in E3. injection E3 as ->. eexists _, c, c', l'. split; [exact E2|]. split; [reflexivity|]. split; [exact E4|exact Ek].
  Qed.

  (** C44, the flag: it is the one of the guess the calculation started from, not of the
      composition reported. *)
Theorem C44_bubble_flag : forall (pt : point (C := C)) st st' r,
    calc false pt st = (st', Ok r) ->
    exists guess, guess_of has_nan pt st = Ok guess /\ other_flag pt (r_P r) (norm guess) = Ok (r_flag r).
  Proof.
    intros pt st st' r E. unfold calc_pressure in E.
    destruct (raoult pt) as [c1|]; [|discriminate]. destruct (guess_of has_nan pt st) as [c0|]; [|discriminate].
    destruct (brackets pt (tol_entry st) (norm c0)) as [l [[[lo hi] est]|]]; [|discriminate].
    destruct (is_nan lo || is_nan hi); [discriminate|].
    destruct (run_solver _ _ _ _) as [st2 [P|]]; [|discriminate].
    destruct (own_flag pt P) as [fo|]; [|discriminate]. destruct (other_flag pt P (norm c0)) as [f|] eqn:Ef; [|discriminate].
    destruct (objective norm pt _ P) as [st4 [v|]]; [|discriminate].
    destruct (kept st4) as [rc|]; [|discriminate]. injection E as <- <-. exists c0. split; [reflexivity|exact Ef].
  Qed.

  (** C43 is false, in every calculation: the composition a dew point reports is the guess it
      started from, i.e. the composition kept by the previous calculation or, in the first one,
      the estimate from the saturation pressures. *)
Theorem C43_dew_reports_guess_refuted : forall (pt : point (C := C)) st st' r,
    calc true pt st = (st', Ok r) ->
    (forall c, kept st = Some c -> has_nan c = false -> r_comp r = norm c) /\
    (kept st = None -> exists c, raoult pt = Ok c /\ r_comp r = norm c).
  Proof.
    intros pt st st' r E. unfold calc_pressure in E.
    destruct (raoult pt) as [c1|] eqn:Er; [|discriminate].
    destruct (guess_of has_nan pt st) as [c0|] eqn:Eg; [|discriminate].
    destruct (brackets pt (tol_entry st) (norm c0)) as [l [[[lo hi] est]|]]; [|discriminate].
    destruct (is_nan lo || is_nan hi); [discriminate|].
    destruct (run_solver _ _ _ _) as [st2 [P|]]; [|discriminate].
    destruct (own_flag pt P) as [fo|]; [|discriminate]. destruct (other_flag pt P (norm c0)) as [f|]; [|discriminate].
    destruct (objective norm pt _ P) as [st4 [v|]]; [|discriminate].
    injection E as <- <-. cbn [r_comp]. unfold guess_of in Eg. split.
    - intros c Hc Hn. rewrite Hc, Hn in Eg. injection Eg as ->. reflexivity.
    - intros Hk. rewrite Hk in Eg. exists c0. split; [congruence|reflexivity].
  Qed.

  (** What is proved of C43: the objective reported belongs to the composition kept at the end. *)
Theorem C43_objective_partial : forall (pt : point (C := C)) st st' r,
    calc true pt st = (st', Ok r) -> nlt (r_P r) (Fin 0) = false ->
    exists t c c' l, inner pt t c (r_P r) = (l, Ok c') /\ kept st' = Some (norm c') /\
      value pt (r_P r) (norm c') = Ok (r_obj r).
  Proof.
    intros pt st st' r E HP. unfold calc_pressure in E.
    destruct (raoult pt) as [c1|]; [|discriminate]. destruct (guess_of has_nan pt st) as [c0|]; [|discriminate].
    destruct (brackets pt (tol_entry st) (norm c0)) as [l [[[lo hi] est]|]]; [|discriminate].
    destruct (is_nan lo || is_nan hi); [discriminate|].
    destruct (run_solver _ _ _ _) as [st2 [P|]]; [|discriminate].
    destruct (own_flag pt P) as [fo|]; [|discriminate]. destruct (other_flag pt P (norm c0)) as [f|]; [|discriminate].
    destruct (objective norm pt _ P) as [st4 [v|]] eqn:Eo; [|discriminate].
    injection E as <- <-. cbn [r_P r_comp r_obj] in *.
    destruct (objective_reports _ _ _ _ _ HP Eo) as (c & c' & l' & E1 & E2 & E3 & E4).
    eexists _, c, c', l'. split; [exact E2|]. split; [exact E3|exact E4].
  Qed.

  (** ** Independence of earlier points *)
  (** The inner loop and the bracket do not depend on the composition they start from. *)
  Definition guess_free (pt : point (C := C)) : Prop :=
    (forall t c c' P, snd (inner pt t c P) = snd (inner pt t c' P)) /\
    (forall t c c', snd (brackets pt t c) = snd (brackets pt t c')).

  Lemma run_free (pt : point (C := C)) : guess_free pt -> forall s st1 st2,
    tol_entry st1 = tol_entry st2 -> kept st1 <> None -> kept st2 <> None ->
    snd (run_solver norm pt s st1) = snd (run_solver norm pt s st2) /\
    tol_entry (fst (run_solver norm pt s st1)) = tol_entry (fst (run_solver norm pt s st2)) /\
    kept (fst (run_solver norm pt s st1)) <> None /\ kept (fst (run_solver norm pt s st2)) <> None.
  Proof.
    intros [Hi _]. induction s as [P|e|P k IH]; intros st1 st2 Ht H1 H2; cbn [run_solver]; [auto|auto|].
    unfold objective. destruct (nlt P (Fin 0)); [apply IH; assumption|].
    destruct (kept st1) as [c1|] eqn:K1; [|contradiction]. destruct (kept st2) as [c2|] eqn:K2; [|contradiction].
    specialize (Hi (tol_entry st1) c1 c2 P). rewrite <- Ht.
    destruct (inner pt (tol_entry st1) c1 P) as [l1 r1], (inner pt (tol_entry st1) c2 P) as [l2 r2].
    cbn [snd] in Hi. subst r2. destruct r1 as [c'|e].
    - destruct (value pt P (norm c')) as [v|e]; cbn; [|repeat split; auto; discriminate].
      apply IH; cbn; try discriminate. reflexivity.
    - cbn. repeat split; auto; destruct l1, l2; discriminate.
  Qed.

  (** C44, independence: if the inner loop and the bracket do not depend on the guess, two
      calculations of one bubble point that both succeed agree on pressure, composition and
      objective, whatever was computed before. *)
Theorem C44_history_partial : forall (pt : point (C := C)) st1 st2 st1' st2' r1 r2,
    guess_free pt -> tol_entry st1 = tol_entry st2 ->
    calc false pt st1 = (st1', Ok r1) -> calc false pt st2 = (st2', Ok r2) ->
    nlt (r_P r1) (Fin 0) = false ->
    r_P r1 = r_P r2 /\ r_comp r1 = r_comp r2 /\ r_own r1 = r_own r2 /\ r_obj r1 = r_obj r2.
  Proof.
    intros pt st1 st2 st1' st2' r1 r2 F Ht E1 E2 HP. pose proof F as [Hi Hb]. unfold calc_pressure in E1, E2.
    destruct (raoult pt) as [cr|]; [|discriminate].
    destruct (guess_of has_nan pt st1) as [c1|]; [|discriminate]. destruct (guess_of has_nan pt st2) as [c2|]; [|discriminate].
    rewrite <- Ht in E2. specialize (Hb (tol_entry st1) (norm c1) (norm c2)).
    destruct (brackets pt (tol_entry st1) (norm c1)) as [l1 b1], (brackets pt (tol_entry st1) (norm c2)) as [l2 b2].
    cbn [snd] in Hb. subst b2. destruct b1 as [[[lo hi] est]|]; [|discriminate].
    destruct (is_nan lo || is_nan hi); [discriminate|].
    match type of E1 with context [run_solver norm pt ?s ?a] =>
      match type of E2 with context [run_solver norm pt s ?b] =>
        destruct (run_free pt F s a b) as (R1 & R2 & R3 & R4); [reflexivity|destruct l1; discriminate|destruct l2; discriminate|];
        destruct (run_solver norm pt s a) as [sa ra]; destruct (run_solver norm pt s b) as [sb rb] end end.
    cbn [fst snd] in *. subst rb. destruct ra as [P|]; [|discriminate].
    destruct (own_flag pt P) as [fo|]; [|discriminate].
    destruct (other_flag pt P (norm c1)) as [f1|]; [|discriminate]. destruct (other_flag pt P (norm c2)) as [f2|]; [|discriminate].
    destruct (objective norm pt _ P) as [s4 [v|]] eqn:O1 in E1; [|discriminate].
    destruct (objective norm pt _ P) as [s5 [w|]] eqn:O2 in E2; [|discriminate].
    destruct (kept s4) as [k1|] eqn:K1; [|discriminate]. destruct (kept s5) as [k2|] eqn:K2; [|discriminate].
    injection E1 as <- <-. injection E2 as <- <-. cbn [r_P r_comp r_own r_obj] in *.
    destruct (objective_reports _ _ _ _ _ HP O1) as (a1 & a1' & m1 & X1 & X2 & X3 & X4).
    destruct (objective_reports _ _ _ _ _ HP O2) as (a2 & a2' & m2 & Y1 & Y2 & Y3 & Y4).
    cbn [tol_entry kept] in *. rewrite <- R2 in Y2. specialize (Hi (tighten (tol_entry sa)) a1 a2 P).
    rewrite X2, Y2 in Hi. cbn [snd] in Hi. injection Hi as <-.
    assert (k1 = norm a1') by congruence. assert (k2 = norm a1') by congruence. subst.
    repeat split; congruence.
  Qed.

  (** The entry "tol" of the caller's options afterwards: tightened by every success. *)
Theorem C44_options_tightened : forall dew (pt : point (C := C)) st st' r,
    calc dew pt st = (st', Ok r) ->
    tol_entry st' = match tol_entry st with
                    | Some q => if nlt (Fin (1 # 10000000000)) q then Some (Fin (1 # 10000000000)) else Some q
                    | None => None end.
  Proof.
    assert (Ho : forall (pt : point (C := C)) st P, tol_entry (fst (objective norm pt st P)) = tol_entry st).
    { intros pt st P. unfold objective. destruct (nlt P (Fin 0)); [reflexivity|]. destruct (kept st); [|reflexivity].
      destruct (inner _ _ _ _) as [l [c'|]]; reflexivity. }
    assert (Hr : forall (pt : point (C := C)) s st, tol_entry (fst (run_solver norm pt s st)) = tol_entry st).
    { intros pt. induction s as [P|e|P k IH]; intros st; cbn [run_solver]; try reflexivity.
      specialize (Ho pt st P). destruct (objective norm pt st P) as [st' [v|]]; cbn [fst] in Ho; [rewrite IH; exact Ho|exact Ho]. }
    intros dew pt st st' r E. unfold calc_pressure in E.
    destruct (raoult pt) as [c1|]; [|discriminate]. destruct (guess_of has_nan pt st) as [c0|]; [|discriminate].
    destruct (brackets pt (tol_entry st) (norm c0)) as [l [[[lo hi] est]|]]; [|discriminate].
    destruct (is_nan lo || is_nan hi); [discriminate|].
    match type of E with context [run_solver norm pt ?s ?a] => specialize (Hr pt s a); destruct (run_solver norm pt s a) as [st2 [P|]] end; [|discriminate].
    destruct (own_flag pt P) as [fo|]; [|discriminate]. destruct (other_flag pt P (norm c0)) as [f|]; [|discriminate].
    cbn [fst tol_entry] in Hr.
    match type of E with context [objective norm pt ?s P] => specialize (Ho pt s P); destruct (objective norm pt s P) as [st4 [v|]] end; [|discriminate].
    cbn [fst tol_entry] in Ho.
    destruct (if dew then Some (norm c0) else kept st4); [|discriminate]. injection E as <- <-.
    rewrite Ho, Hr. reflexivity.
  Qed.

  (** the same point with another guess of the pressure *)
  Definition with_guess (pt : point (C := C)) (q : option num) : point := {|
    raoult := raoult pt; brackets := brackets pt; inner := inner pt; value := value pt; own_flag := own_flag pt;
    other_flag := other_flag pt; Pguess := q; solver := solver pt |}.
  (** the same point, the bracket search estimating the pressure as [q] *)
  Definition with_estimate (pt : point (C := C)) (q : num) : point := {|
    raoult := raoult pt;
    brackets := fun t c => match brackets pt t c with (l, Ok (lo, hi, _)) => (l, Ok (lo, hi, q)) | x => x end;
    inner := inner pt; value := value pt; own_flag := own_flag pt;
    other_flag := other_flag pt; Pguess := None; solver := solver pt |}.
  (** C44: a guess of the pressure that lies outside the bracket found is not used, one inside takes the
      place of the estimate. *)
Theorem C44_pressure_guess : forall dew (pt : point (C := C)) st q c0 l lo hi est,
    guess_of has_nan pt st = Ok c0 -> brackets pt (tol_entry st) (norm c0) = (l, Ok (lo, hi, est)) ->
    (nlt q lo = true \/ nlt hi q = true -> calc dew (with_guess pt (Some q)) st = calc dew (with_guess pt None) st) /\
    (nle lo q = true -> nle q hi = true -> calc dew (with_guess pt (Some q)) st = calc dew (with_estimate pt q) st).
  Proof.
    intros dew pt st q c0 l lo hi est Hg Hb. unfold calc_pressure.
    assert (G : forall pt' : point (C := C), raoult pt' = raoult pt -> guess_of has_nan pt' st = Ok c0).
    { intros pt' H. rewrite <- Hg. unfold guess_of. rewrite H. reflexivity. }
    assert (R : forall (pt1 pt2 : point (C := C)) s st, inner pt1 = inner pt2 -> value pt1 = value pt2 ->
                run_solver norm pt1 s st = run_solver norm pt2 s st).
    { intros pt1 pt2 s. induction s as [P|e|P k IH]; intros st0 H1 H2; cbn [run_solver]; try reflexivity.
      unfold objective. rewrite H1, H2. destruct (nlt P (Fin 0)); [apply IH; assumption|]. destruct (kept st0); [|reflexivity].
      destruct (inner pt2 (tol_entry st0) c P) as [l0 [c'|e]]; [|reflexivity].
      destruct (value pt2 P (norm c')); [|reflexivity]. apply IH; assumption. }
    assert (O : forall (pt1 pt2 : point (C := C)) st P, inner pt1 = inner pt2 -> value pt1 = value pt2 ->
                objective norm pt1 st P = objective norm pt2 st P).
    { intros pt1 pt2 st0 P H1 H2. unfold objective. rewrite H1, H2. reflexivity. }
    split.
    - intros Hout. change (raoult (with_guess pt (Some q))) with (raoult pt). change (raoult (with_guess pt None)) with (raoult pt).
      destruct (raoult pt) eqn:ER; [|reflexivity]. rewrite !G by exact ER. cbn [brackets with_guess]. rewrite Hb.
      destruct (is_nan lo || is_nan hi); [reflexivity|]. cbn [Pguess solver own_flag other_flag with_guess with_estimate].
      assert (E : nlt hi q || nlt q lo = true) by (apply orb_true_iff; tauto). rewrite E.
      rewrite (R (with_guess pt (Some q)) (with_guess pt None)) by reflexivity.
      destruct (run_solver _ _ _ _) as [st2 [P|]]; [|reflexivity].
      destruct (own_flag pt P); [|reflexivity]. destruct (other_flag pt P (norm c0)); [|reflexivity].
      rewrite (O (with_guess pt (Some q)) (with_guess pt None)) by reflexivity. reflexivity.
    - intros H1 H2. change (raoult (with_guess pt (Some q))) with (raoult pt). change (raoult (with_estimate pt q)) with (raoult pt).
      destruct (raoult pt) eqn:ER; [|reflexivity]. rewrite !G by exact ER. cbn [brackets with_guess with_estimate]. rewrite Hb.
      destruct (is_nan lo || is_nan hi); [reflexivity|]. cbn [Pguess solver own_flag other_flag with_guess with_estimate].
      assert (E : nlt hi q || nlt q lo = false).
      { apply orb_false_iff. split.
        - destruct (nlt hi q) eqn:F; [|reflexivity]. exact (eq_sym (eq_trans (eq_sym (nlt_irrefl hi)) (nlt_nle_trans _ _ _ F H2))).
        - destruct (nlt q lo) eqn:F; [|reflexivity]. exact (eq_sym (eq_trans (eq_sym (nlt_irrefl q)) (nlt_nle_trans _ _ _ F H1))). }
      rewrite E.
      rewrite (R (with_guess pt (Some q)) (with_estimate pt q)) by reflexivity.
      destruct (run_solver _ _ _ _) as [st2 [P|]]; [|reflexivity].
      destruct (own_flag pt P); [|reflexivity]. destruct (other_flag pt P (norm c0)); [|reflexivity].
      rewrite (O (with_guess pt (Some q)) (with_estimate pt q)) by reflexivity. reflexivity.
  Qed.
End Reports.

(** ** Concrete fluids: the composition is the fraction of the first component *)
(** An inner loop with two solutions, 1/4 and 3/4, that finds the nearer one. *)
Definition near (c : Q) : Q := if Qle_bool c (1#2) then 1#4 else 3#4.
Definition demo_point (guess : Q) : point (C := Q) := {|
  raoult := Ok guess;
  brackets := fun _ c => (None, Ok (Fin 1, Fin 9, Fin 5));
  inner := fun _ c _ => (None, Ok (near c));
  value := fun P c => Ok (nsub P (Fin 4));
  own_flag := fun _ => Ok 1%nat;
  other_flag := fun _ c => Ok (if Qle_bool c (1#2) then 0%nat else 1%nat);
  Pguess := None;
  solver := fun x0 lo hi => Ask x0 (fun v => Done (nsub x0 v)) |}.
Definition fresh : process Q := {| kept := None; tol_entry := Some (Fin (1#1000000)) |}.
Definition whole (c : Q) := c.
Definition comps (l : list (result (report (C := Q)))) := map (fun r => match r with Ok r => Some (r_comp r) | Err _ => None end) l.

Example C44_example : exists st r, calc_pressure whole (fun _ => false) false (demo_point (1#3)) fresh = (st, Ok r) /\
  neqb (r_P r) (Fin 4) = true /\ r_comp r = 1#4 /\ r_flag r = 0%nat.
Proof. eexists _, _. split; [vm_compute; reflexivity|]. repeat split; vm_compute; reflexivity. Qed.

(** C44 is false as stated: the same bubble point reports another composition after another
    point was computed. *)
Theorem C44_history_refuted :
  comps (snd (calc_pressures whole (fun _ => false) false [demo_point (1#3)] fresh)) = [Some (1#4)] /\
  comps (snd (calc_pressures whole (fun _ => false) false [demo_point (2#3); demo_point (1#3)] fresh)) = [Some (3#4); Some (3#4)].
Proof. split; vm_compute; reflexivity. Qed.

(** C43, a concrete case: two dew points whose inner loops find 1/4 from anywhere; the first
    reports the estimate 2/3, and both report something else than what was converged. *)
Definition dew_point (guess found : Q) : point (C := Q) := {|
  raoult := Ok guess; brackets := fun _ c => (None, Ok (Fin 1, Fin 9, Fin 5));
  inner := fun _ c _ => (None, Ok found); value := fun P c => Ok (nsub P (Fin 4));
  own_flag := fun _ => Ok 0%nat; other_flag := fun _ c => Ok 1%nat;
  Pguess := None; solver := fun x0 lo hi => Ask x0 (fun v => Done (nsub x0 v)) |}.
Theorem C43_dew_refuted :
  comps (snd (calc_pressures whole (fun _ => false) true [dew_point (2#3) (1#4); dew_point (2#3) (1#5)] fresh))
    = [Some (2#3); Some (1#4)].
Proof. vm_compute. reflexivity. Qed.

(** a point that meets [guess_free] *)
Example C44_guess_free : guess_free (dew_point (2#3) (1#4)).
Proof. split; reflexivity. Qed.

(** a guess of 20 lies outside the bracket (1, 9) of the demonstration point, a guess of 4 inside *)
Example C44_pressure_guess_case :
  guess_of (fun _ => false) (demo_point (1#3)) fresh = Ok (1#3) /\
  brackets (demo_point (1#3)) (tol_entry fresh) (whole (1#3)) = (None, Ok (Fin 1, Fin 9, Fin 5)) /\
  nlt (Fin 9) (Fin 20) = true /\ nle (Fin 1) (Fin 4) = true /\ nle (Fin 4) (Fin 9) = true.
Proof. repeat split. Qed.

Print Assumptions C44_bubble_converged.
Print Assumptions C44_pressure_guess.
Print Assumptions C44_bubble_flag.
Print Assumptions C43_dew_reports_guess_refuted.
Print Assumptions C43_objective_partial.
Print Assumptions C44_history_partial.
Print Assumptions C44_options_tightened.
Print Assumptions C44_history_refuted.
Print Assumptions C43_dew_refuted.
