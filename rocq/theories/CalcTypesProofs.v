(** Lemmas for CalcTypesProps. *)
From Verif Require Import Base BaseFacts Num ToolboxModel ToolboxSpec ToolboxProofs ParallelModel ParallelProofs CalcTypesModel CalcTypesSpec.
Open Scope nat_scope.

Lemma dget_app {A} (a b : dict A) k : dget (a ++ b) k = match dget a k with Some v => Some v | None => dget b k end.
Proof. induction a as [|[k' v] a IH]; cbn; [reflexivity|]. destruct (String.eqb k k'); [reflexivity|exact IH]. Qed.

Lemma wrap_rows_spec k sys sys1 : wrap_rows k sys = Ok sys1 -> rows_in k sys sys1.
Proof.
  unfold wrap_rows, rows_in. destruct (dget sys k) as [[a|l]|] eqn:E; [discriminate| |].
  - destruct l as [|[x|r] l]; [discriminate| |].
    + destruct (mapM as_num (ENum x :: l)) as [r|] eqn:Em; cbn [rbind]; [|discriminate].
      intros H; injection H as <-. split; [intros k' Hk; apply dget_dset_other; congruence|].
      left. exists r. apply mapM_Forall2 in Em. split; [inversion Em; discriminate|]. split; [|apply dget_dset_same].
      clear E. induction Em as [|e y es ys Hy _ IH]; [reflexivity|]. destruct e; cbn in Hy; [|discriminate].
      injection Hy as <-. cbn. f_equal. exact IH.
    + intros H; injection H as <-. split; [reflexivity|]. right. exists r, l. split; [reflexivity|exact E].
  - intros H; injection H as <-. split; [reflexivity|exact E].
Qed.

Lemma length_loop_NoDup {A} (d : dict (value A)) L keys : forall acc out,
  length_loop d L keys acc = Ok out -> NoDup (dkeys acc) -> NoDup (dkeys out).
Proof.
  induction keys as [|k ks IH]; intros acc out; cbn [length_loop]; [congruence|].
  destruct (dget d k); [|apply IH]. destruct (expand_entry L v); cbn [rbind]; [|discriminate].
  intros H Hn. eapply IH; [exact H|apply NoDup_dset, Hn].
Qed.
Lemma check_NoDup {A} (d : dict (value A)) keys lx out : check_length_dict d keys lx = Ok out -> NoDup (dkeys out).
Proof.
  unfold check_length_dict. destruct (target_length d keys lx); cbn [rbind]; [|discriminate].
  intros H. eapply length_loop_NoDup; [exact H|constructor].
Qed.
Lemma sd_NoDup {A} (d : dict (value A)) lx (kvs : list (string * value A)) : forall acc, NoDup (dkeys acc) ->
  NoDup (dkeys (fold_left (fun acc kv => if dmem d (fst kv) then acc else dset acc (fst kv) (default_value lx (snd kv))) kvs acc)).
Proof.
  induction kvs as [|kv kvs IH]; intros acc H; cbn [fold_left]; [exact H|]. apply IH.
  destruct (dmem d (fst kv)); [exact H|apply NoDup_dset, H].
Qed.
Lemma set_defaults_NoDup {A} (d : dict (value A)) keys values lx out :
  set_defaults d keys values lx = Ok out -> NoDup (dkeys d) -> NoDup (dkeys out).
Proof.
  unfold set_defaults. destruct (pair_defaults keys values); cbn [rbind]; [|discriminate].
  intros H Hn; injection H as <-. apply sd_NoDup, Hn.
Qed.
Lemma dkeys_as_values d : dkeys (as_values d) = dkeys d.
Proof. unfold dkeys, as_values. rewrite map_map. reflexivity. Qed.
Lemma dget_as_values d k : dget (as_values d) k = match dget d k with Some l => Some (Arr l) | None => None end.
Proof. induction d as [|[a l] d IH]; cbn; [reflexivity|]. destruct (String.eqb k a); [reflexivity|exact IH]. Qed.
Lemma dmem_td {d k} : dmem (as_values d) k = dmem d k.
Proof. unfold dmem. rewrite dget_as_values. destruct (dget d k); reflexivity. Qed.

Lemma with_defaults_get td keys defs n out : NoDup (dkeys td) -> with_defaults td keys defs n = Ok out ->
  (forall k v, dget td k = Some v -> dget out k = Some v) /\
  (forall k, dget td k = None -> listed_key keys k ->
     exists v w, listed_default keys (Arr defs) k v /\ stored_default (Some n) v w /\ dget out k = Some w).
Proof.
  intros Hn. unfold with_defaults. destruct (set_defaults td keys (Arr defs) (Some n)) as [d|] eqn:E; cbn [rbind]; [|discriminate].
  intros H; injection H as <-. pose proof (set_defaults_NoDup _ _ _ _ _ E Hn) as Hd.
  destruct (set_defaults_spec _ _ _ _ _ E) as (S1 & S2 & _). split.
  - intros k v Hk. rewrite dupdate_get by exact Hd. rewrite (S1 k v Hk). reflexivity.
  - intros k Hk Hl. destruct (S2 k Hk Hl) as (v & w & H1 & H2 & H3). exists v, w. split; [exact H1|]. split; [exact H2|].
    rewrite dupdate_get by exact Hd. rewrite H3. reflexivity.
Qed.

(** what thermo_dict holds after the length check *)
Lemma checked sys keys td0 : check_length_dict sys keys None = Ok td0 ->
  longest sys keys (first_len (as_values td0)) /\
  (forall k v, In k keys -> dget sys k = Some v -> exists l, dget td0 k = Some l /\ spread (first_len (as_values td0)) v l) /\
  (forall k, In k keys -> dget sys k = None -> dget td0 k = None) /\
  (forall k l, dget td0 k = Some l -> length l = first_len (as_values td0)).
Proof.
  intros H. pose proof (check_length_dict_spec sys keys None) as S. rewrite H in S.
  destruct (check_length_dict_lengths sys keys None td0 H) as (L' & HL' & Hlen).
  destruct S as (L & HL & S1 & S2). assert (L' = L) by (eapply target_length_same; eassumption). subst L'.
  assert (E : first_len (as_values td0) = L).
  { destruct HL as [(k & v & Hs & _) _]. destruct (S1 k v Hs) as (l & Hl & _).
    destruct td0 as [|[k0 l0] td]; [discriminate|]. cbn. apply (Hlen k0). cbn. rewrite String.eqb_refl. reflexivity. }
  rewrite E. split; [exact HL|]. split; [intros k v Hk Hv; apply S1; split; assumption|]. split; [|exact Hlen].
  intros k Hk Hn. apply S2. intros v [_ Hv]. congruence.
Qed.

Lemma item_td td k l i v : dget td k = Some (Arr l) -> item td k i = Ok v -> nth_error l i = Some v.
Proof. unfold item. intros ->. destruct (nth_error l i); [congruence|discriminate]. Qed.

(** the value used for a list is the one the user gave, or its default *)
Lemma used_value sys keys td0 ka defs td k dflt i v :
  check_length_dict sys keys None = Ok td0 -> In k keys ->
  with_defaults (as_values td0) ka defs (first_len (as_values td0)) = Ok td ->
  (dget sys k = None -> listed_key ka k /\ forall d, listed_default ka (Arr defs) k d ->
      d = Scalar dflt \/ d = Arr (repeat dflt (first_len (as_values td0)))) ->
  item td k i = Ok v ->
  value_at sys k (Some dflt) (first_len (as_values td0)) i v /\
  (exists l, entry td k = l /\ length l = first_len (as_values td0) /\ nth_error l i = Some v).
Proof.
  intros Hc Hk Hd Hdef Hi. destruct (checked _ _ _ Hc) as (_ & C1 & C2 & C3).
  assert (Hn : NoDup (dkeys (as_values td0))) by (rewrite dkeys_as_values; eapply check_NoDup, Hc).
  destruct (with_defaults_get _ _ _ _ _ Hn Hd) as [D1 D2]. unfold value_at.
  destruct (dget sys k) as [u|] eqn:Eu.
  - destruct (C1 k u Hk Eu) as (l & Hl & Hs).
    assert (Et : dget td k = Some (Arr l)) by (apply D1; rewrite dget_as_values, Hl; reflexivity).
    pose proof (item_td _ _ _ _ _ Et Hi) as Hnth. split; [exists l; split; assumption|].
    exists l. unfold entry. rewrite Et. split; [reflexivity|]. split; [eapply C3, Hl|exact Hnth].
  - destruct (Hdef eq_refl) as [Hl Hdd].
    destruct (D2 k) as (d & w & H1 & H2 & H3); [rewrite dget_as_values, (C2 k Hk Eu); reflexivity|exact Hl|].
    assert (Et : dget td k = Some (Arr (repeat dflt (first_len (as_values td0))))).
    { destruct (Hdd d H1) as [->| ->]; inversion H2; subst; exact H3. }
    pose proof (item_td _ _ _ _ _ Et Hi) as Hnth. split.
    + apply nth_error_In in Hnth. apply repeat_spec in Hnth. congruence.
    + eexists. unfold entry. rewrite Et. split; [reflexivity|]. split; [apply repeat_length|exact Hnth].
Qed.

(** *** running the points *)
Section Run.
  Context {G : Type} {I : Type}.
  Variable step : world G -> I -> world G * result (list elem).

  Lemma run_list_rows : forall ins w w' rows, run_list step w ins = (w', Ok rows) ->
    length rows = length ins /\
    forall i x, nth_error ins i = Some x -> exists wi row, wi = fst (run_list step w (firstn i ins)) /\
      snd (step wi x) = Ok row /\ nth_error rows i = Some row.
  Proof.
    induction ins as [|y ins IH]; intros w w' rows H; cbn [run_list] in H.
    - injection H as <- <-. split; [reflexivity|]. intros [|i] x Hx; discriminate.
    - destruct (step w y) as [w1 [o|e]] eqn:E; [|discriminate].
      destruct (run_list step w1 ins) as [w2 [os|e]] eqn:E2; [|discriminate]. injection H as <- <-.
      destruct (IH _ _ _ E2) as [L H]. split; [cbn; lia|]. intros [|i] x Hx; cbn in Hx.
      + injection Hx as ->. exists w, o. split; [reflexivity|]. rewrite E. split; reflexivity.
      + destruct (H i x Hx) as (wi & row & H1 & H2 & H3). exists wi, row. split; [|split; assumption].
        cbn [firstn run_list]. rewrite E. rewrite H1. destruct (run_list step w1 (firstn i ins)) as [w3 [r|e]]; reflexivity.
  Qed.

  Lemma dget_combine names (c : list (list elem)) j nm col : NoDup names ->
    nth_error names j = Some nm -> nth_error c j = Some col -> dget (combine names c) nm = Some col.
  Proof.
    intros Hn. revert c j. induction Hn as [|a names Ha Hn IH]; intros c j H1 H2; [destruct j; discriminate|].
    destruct c as [|c0 c]; [destruct j; discriminate|]. destruct j as [|j]; cbn in *.
    - injection H1 as ->. injection H2 as ->. rewrite String.eqb_refl. reflexivity.
    - destruct (String.eqb_spec nm a) as [->|]; [apply nth_error_In in H1; tauto|]. eapply IH; eassumption.
  Qed.

  Lemma dget_combine_col names (c : list (list elem)) nm l : dget (combine names c) nm = Some l -> exists j, nth_error c j = Some l.
  Proof.
    revert c. induction names as [|a names IH]; intros [|c0 c]; cbn; try discriminate.
    destruct (String.eqb nm a).
    - intros H; injection H as ->. exists 0. reflexivity.
    - intros H. destruct (IH c H) as [j Hj]. exists (S j). exact Hj.
  Qed.

  Lemma run_points_cells w ins names w' out :
    run_points step w ins names = (w', Ok out) -> NoDup names -> names <> [] ->
    (forall w x w1 row, step w x = (w1, Ok row) -> length row = length names) ->
    ins <> [] /\ full_columns out (length ins) /\
    forall i x, nth_error ins i = Some x -> exists wi row,
      wi = fst (run_list step w (firstn i ins)) /\ snd (step wi x) = Ok row /\ Forall2 (fun nm v => cell out nm i v) names row.
  Proof.
    intros H Hn Hne Hw. unfold run_points in H. destruct (run_list step w ins) as [w2 [rows|e]] eqn:E; [|discriminate].
    destruct (run_list_rows _ _ _ _ E) as [L HR]. injection H as <- H. cbn [rbind] in H.
    assert (U : forall r, In r rows -> length r = length names).
    { intros r Hr. apply In_nth_error in Hr. destruct Hr as [i Hi].
      assert (Hlt : i < length ins) by (rewrite <- L; apply nth_error_Some; congruence).
      destruct (nth_error ins i) as [x|] eqn:Ex; [|apply nth_error_None in Ex; lia].
      destruct (HR i x Ex) as (wi & row & _ & H1 & H2). assert (row = r) by congruence. subst.
      destruct (step wi x) as [w1 rr] eqn:Es. cbn in H1. subst rr. eapply Hw, Es. }
    assert (T : np_transpose rows = Cols (match rows with [] => [] | _ => zipn (length names) rows end)).
    { rewrite (transpose_agree rows (length names) U). unfold zip_star. destruct rows as [|r rows]; [reflexivity|].
      rewrite (U r) by (left; reflexivity). reflexivity. }
    rewrite T in H. destruct (zipn_uniform (length names) rows U) as (Z1 & Z2 & Z3).
    destruct rows as [|r0 rows'] eqn:Er.
    { exfalso. destruct names; [congruence|]. cbn in H. discriminate. }
    rewrite <- Er in *. rewrite Z1, Nat.eqb_refl in H. injection H as <-.
    split; [intros ->; rewrite Er in L; discriminate|]. split.
    - intros nm l Hl. apply dget_combine_col in Hl. destruct Hl as [j Hj]. rewrite (Z2 j l Hj). exact L.
    - intros i x Hx. destruct (HR i x Hx) as (wi & row & H1 & H2 & H3). exists wi, row. split; [exact H1|]. split; [exact H2|].
      assert (Lr : length row = length names) by (apply U; eapply nth_error_In, H3).
      assert (HF : forall j nm v, nth_error names j = Some nm -> nth_error row j = Some v -> cell (combine names (zipn (length names) rows)) nm i v).
      { intros j nm v Hj Hv. destruct (Z3 i j row v H3 Hv) as (col & Hc & Hi). exists col. split; [|exact Hi].
        eapply dget_combine; eassumption. }
      clear -Lr HF. set (D := combine names (zipn (length names) rows)) in *. clearbody D.
      revert row Lr HF. induction names as [|a names IH]; intros [|v row] Lr HF; cbn in Lr; try discriminate; constructor.
      + apply (HF 0); reflexivity.
      + apply IH; [lia|]. intros j nm v' H1 H2. apply (HF (S j)); assumption.
  Qed.
End Run.

Lemma mapM_at {A B} (f : A -> result B) l ys i x : mapM f l = Ok ys -> nth_error l i = Some x ->
  exists y, nth_error ys i = Some y /\ f x = Ok y.
Proof.
  intros H. apply mapM_Forall2 in H. revert i. induction H as [|a b l ys Hab H IH]; intros [|i] Hx; try discriminate; cbn in *.
  - injection Hx as <-. exists b. split; [reflexivity|exact Hab].
  - apply IH, Hx.
Qed.
Lemma mapM_seq {A} (f : nat -> result A) n ins : mapM f (seq 0 n) = Ok ins ->
  length ins = n /\ forall i, i < n -> exists x, nth_error ins i = Some x /\ f i = Ok x.
Proof.
  intros H. split; [rewrite (mapM_length _ _ _ H); apply seq_length|]. intros i Hi.
  apply (mapM_at _ _ _ i i H). rewrite nth_error_nth' with (d := 0) by (rewrite seq_length; exact Hi).
  rewrite seq_nth by exact Hi. reflexivity.
Qed.

(** options with one value per point *)
Lemma used_option sys op k n i v :
  check_length_dict sys ["Pguess"; "Pmin"; "Pmax"]%string (Some n) = Ok op -> In k ["Pguess"; "Pmin"; "Pmax"]%string ->
  opt_item op k i = Ok v -> option_at sys k n i v.
Proof.
  intros H Hk Hi. pose proof (check_length_dict_spec sys ["Pguess"; "Pmin"; "Pmax"]%string (Some n)) as S. rewrite H in S.
  destruct S as (L & HL & S1 & S2). cbn in HL. subst L. unfold option_at, opt_item in *.
  destruct (dget sys k) as [u|] eqn:E.
  - destruct (S1 k u (conj Hk E)) as (l & Hl & Hs). rewrite Hl in Hi. destruct (nth_error l i) as [x|] eqn:Ex; [|discriminate].
    injection Hi as <-. exists l, x. auto.
  - rewrite (S2 k) in Hi; [congruence|]. intros u [_ Hu]. congruence.
Qed.

(** *** what the preparations hand to the points *)
Ltac step_ok H := match type of H with
  | rbind ?r _ = Ok _ => let E := fresh "E" in let a := fresh "a" in destruct r as [a|] eqn:E; cbn [rbind] in H; [|discriminate H]
  end.
Ltac default_case := intros _; split; [cbn; tauto|]; intros ? (j & Hj1 & Hj2);
  do 4 (destruct j as [|j]; [cbn in Hj1, Hj2; try discriminate Hj1; injection Hj2 as <-; auto|]); destruct j; discriminate.

Lemma prep_flash_spec nc sys td ins : prep_flash nc sys = Ok (td, ins) ->
  nc = 2 /\ exists n, longest sys ["Tlist"; "Plist"]%string n /\ length ins = n /\
  forall i, i < n -> exists t p, nth_error ins i = Some (t, p) /\
    value_at sys "Tlist" (Some standard_temperature) n i t /\ value_at sys "Plist" (Some standard_pressure) n i p /\
    length (entry td "Tlist") = n /\ length (entry td "Plist") = n /\
    nth_error (entry td "Tlist") i = Some t /\ nth_error (entry td "Plist") i = Some p.
Proof.
  unfold prep_flash. intros H. step_ok H. step_ok H.
  destruct (Nat.eqb_spec nc 2) as [Hc|Hc]; cbn [negb] in H; [|discriminate]. step_ok H. injection H as <- <-.
  split; [exact Hc|]. destruct (checked _ _ _ E) as (HL & _). destruct (mapM_seq _ _ _ E1) as [Ln Hm].
  eexists. split; [exact HL|]. split; [exact Ln|]. intros i Hi. destruct (Hm i Hi) as (tp & Hx & Hf).
  step_ok Hf. step_ok Hf. injection Hf as <-. exists a2, a3. split; [exact Hx|].
  destruct (used_value _ _ _ _ _ _ "Tlist" standard_temperature i a2 E ltac:(cbn; tauto) E0 ltac:(default_case) E2) as (V1 & l1 & L1 & L2 & L3).
  destruct (used_value _ _ _ _ _ _ "Plist" standard_pressure i a3 E ltac:(cbn; tauto) E0 ltac:(default_case) E3) as (V2 & l2 & M1 & M2 & M3).
  subst l1 l2. split; [exact V1|]. split; [exact V2|]. split; [exact L2|]. split; [exact M2|]. split; assumption.
Qed.

Lemma prep_saturated_spec comp sys td ins : comp = "xilist"%string \/ comp = "yilist"%string ->
  prep_saturated comp sys = Ok (td, ins) ->
  dget sys comp <> None /\ exists sys1 n, rows_in comp sys sys1 /\ longest sys1 ["Tlist"%string; comp] n /\ length ins = n /\
  forall i, i < n -> exists t x g a b, nth_error ins i = Some (t, x, (g, a, b)) /\
    value_at sys1 "Tlist" (Some standard_temperature) n i t /\ value_at sys1 comp None n i x /\
    option_at sys1 "Pguess" n i g /\ option_at sys1 "Pmin" n i a /\ option_at sys1 "Pmax" n i b /\
    length (entry td "Tlist") = n /\ length (entry td comp) = n /\
    nth_error (entry td "Tlist") i = Some t /\ nth_error (entry td comp) i = Some x.
Proof.
  intros Hcomp. unfold prep_saturated. destruct (dget sys comp) as [u|] eqn:Eu; [|discriminate]. intros H.
  split; [discriminate|]. step_ok H. step_ok H. step_ok H. step_ok H. step_ok H. injection H as <- <-.
  pose proof (wrap_rows_spec _ _ _ E) as HR. destruct (checked _ _ _ E0) as (HL & _). destruct (mapM_seq _ _ _ E3) as [Ln Hm].
  exists a, (first_len (as_values a0)). split; [exact HR|]. split; [exact HL|]. split; [exact Ln|].
  intros i Hi. destruct (Hm i Hi) as (tp & Hx & Hf). step_ok Hf. step_ok Hf. step_ok Hf. injection Hf as <-.
  unfold limits_at in E6. step_ok E6. step_ok E6. step_ok E6. injection E6 as <-.
  exists a4, a5, a7, a8, a9. split; [exact Hx|].
  assert (Hcp : dget a comp <> None).
  { destruct HR as [_ HR]. rewrite Eu in HR. destruct u as [|l]; [contradiction|]. destruct HR as [(r & _ & _ & Hr)|(r & l' & _ & Hr)]; rewrite Hr; discriminate. }
  destruct (used_value _ _ _ _ _ _ "Tlist" standard_temperature i a4 E0 ltac:(cbn; tauto) E1
              ltac:(intros _; split; [reflexivity|]; intros d [_ Hd]; injection Hd as <-; auto) E4) as (V1 & l1 & L1 & L2 & L3).
  destruct (used_value _ _ _ _ _ _ comp standard_temperature i a5 E0 ltac:(cbn; tauto) E1 ltac:(intros X; exfalso; auto) E5) as (V2 & l2 & M1 & M2 & M3).
  subst l1 l2. split; [exact V1|]. split; [unfold value_at in *; destruct (dget a comp); [exact V2|contradiction]|].
  split; [eapply used_option; [exact E2|cbn; tauto|exact E7]|]. split; [eapply used_option; [exact E2|cbn; tauto|exact E8]|].
  split; [eapply used_option; [exact E2|cbn; tauto|exact E9]|]. split; [exact L2|]. split; [exact M2|]. split; assumption.
Qed.

Lemma prep_phase_spec optional comp nc sys td ins : comp = "xilist"%string \/ comp = "yilist"%string ->
  prep_phase optional comp nc sys = Ok (td, ins) ->
  exists sys1 n, rows_in comp sys sys1 /\ longest sys1 ["Tlist"%string; comp; "Plist"%string] n /\ length ins = n /\
  (dget sys comp = None -> nc <= 1) /\
  forall i, i < n -> exists p t x, nth_error ins i = Some (p, t, x) /\
    value_at sys1 "Plist" (Some standard_pressure) n i p /\ value_at sys1 "Tlist" (Some standard_temperature) n i t /\
    value_at sys1 comp (Some (ERow [Fin 1])) n i x /\
    length (entry td "Plist") = n /\ length (entry td "Tlist") = n /\ length (entry td comp) = n /\
    nth_error (entry td "Plist") i = Some p /\ nth_error (entry td "Tlist") i = Some t /\ nth_error (entry td comp) i = Some x.
Proof.
  intros Hcomp. unfold prep_phase. intros H. step_ok H.
  destruct (optional && negb (existsb (dmem a) ["Tlist"%string; comp; "Plist"%string])); [discriminate|].
  step_ok H. destruct (negb (dmem a0 comp) && Nat.ltb 1 nc) eqn:Eb; [discriminate|]. step_ok H. step_ok H. injection H as <- <-.
  pose proof (wrap_rows_spec _ _ _ E) as HR. destruct (checked _ _ _ E0) as (HL & _ & HN & _). destruct (mapM_seq _ _ _ E2) as [Ln Hm].
  exists a, (first_len (as_values a0)). split; [exact HR|]. split; [exact HL|]. split; [exact Ln|]. split.
  { intros Hnone. destruct HR as [_ HR]. rewrite Hnone in HR.
    assert (Hd : dmem a0 comp = false) by (unfold dmem; rewrite (HN comp ltac:(cbn; tauto) HR); reflexivity).
    rewrite Hd in Eb. cbn [negb andb] in Eb. apply Nat.ltb_ge in Eb. exact Eb. }
  intros i Hi. destruct (Hm i Hi) as (tp & Hx & Hf). step_ok Hf. step_ok Hf. step_ok Hf. injection Hf as <-.
  exists a3, a4, a5. split; [exact Hx|].
  destruct Hcomp as [-> | ->].
  - destruct (used_value _ _ _ _ _ _ "Plist" standard_pressure i a3 E0 ltac:(cbn; tauto) E1 ltac:(default_case) E3) as (V1 & l1 & L1 & L2 & L3).
    destruct (used_value _ _ _ _ _ _ "Tlist" standard_temperature i a4 E0 ltac:(cbn; tauto) E1 ltac:(default_case) E4) as (V2 & l2 & M1 & M2 & M3).
    destruct (used_value _ _ _ _ _ _ "xilist" (ERow [Fin 1]) i a5 E0 ltac:(cbn; tauto) E1 ltac:(default_case) E5) as (V3 & l3 & N1 & N2 & N3).
    subst l1 l2 l3. split; [exact V1|]. split; [exact V2|]. split; [exact V3|]. split; [exact L2|]. split; [exact M2|]. split; [exact N2|].
    split; [exact L3|]. split; assumption.
  - destruct (used_value _ _ _ _ _ _ "Plist" standard_pressure i a3 E0 ltac:(cbn; tauto) E1 ltac:(default_case) E3) as (V1 & l1 & L1 & L2 & L3).
    destruct (used_value _ _ _ _ _ _ "Tlist" standard_temperature i a4 E0 ltac:(cbn; tauto) E1 ltac:(default_case) E4) as (V2 & l2 & M1 & M2 & M3).
    destruct (used_value _ _ _ _ _ _ "yilist" (ERow [Fin 1]) i a5 E0 ltac:(cbn; tauto) E1 ltac:(default_case) E5) as (V3 & l3 & N1 & N2 & N3).
    subst l1 l2 l3. split; [exact V1|]. split; [exact V2|]. split; [exact V3|]. split; [exact L2|]. split; [exact M2|]. split; [exact N2|].
    split; [exact L3|]. split; assumption.
Qed.

Lemma prep_verify_spec nc sys td ins : prep_verify nc sys = Ok (td, ins) ->
  exists sys1 n, (match dget sys "xilist" with
                  | Some _ => rows_in "xilist" sys sys1
                  | None => nc = 2 /\ sys1 = dset sys "xilist" verify_rows end) /\
  longest sys1 ["Tlist"; "xilist"; "Plist"]%string n /\ length ins = n /\
  forall i, i < n -> exists p t x, nth_error ins i = Some (p, t, x) /\
    value_at sys1 "Plist" (Some standard_pressure) n i p /\ value_at sys1 "Tlist" (Some standard_temperature) n i t /\
    value_at sys1 "xilist" None n i x /\
    length (entry td "Plist") = n /\ length (entry td "Tlist") = n /\ length (entry td "xilist") = n /\
    nth_error (entry td "Plist") i = Some p /\ nth_error (entry td "Tlist") i = Some t /\ nth_error (entry td "xilist") i = Some x.
Proof.
  unfold prep_verify. intros H. step_ok H. step_ok H. step_ok H. step_ok H. injection H as <- <-.
  destruct (checked _ _ _ E0) as (HL & _). destruct (mapM_seq _ _ _ E2) as [Ln Hm].
  exists a, (first_len (as_values a0)).
  assert (HS : (match dget sys "xilist" with
                  | Some _ => rows_in "xilist" sys a
                  | None => nc = 2 /\ a = dset sys "xilist" verify_rows end) /\ dget a "xilist" <> None).
  { destruct (dget sys "xilist") as [u|] eqn:Eu.
    - pose proof (wrap_rows_spec _ _ _ E) as HR. split; [exact HR|]. destruct HR as [_ HR]. rewrite Eu in HR.
      destruct u as [|l]; [contradiction|]. destruct HR as [(r & _ & _ & Hr)|(r & l' & _ & Hr)]; rewrite Hr; discriminate.
    - destruct (Nat.eqb_spec nc 2); [|discriminate]. injection E as <-. rewrite dget_dset_same. split; [auto|discriminate]. }
  destruct HS as [HS Hx]. split; [exact HS|]. split; [exact HL|]. split; [exact Ln|].
  intros i Hi. destruct (Hm i Hi) as (tp & Hi' & Hf). step_ok Hf. step_ok Hf. step_ok Hf. injection Hf as <-.
  exists a3, a4, a5. split; [exact Hi'|].
  destruct (used_value _ _ _ _ _ _ "Plist" standard_pressure i a3 E0 ltac:(cbn; tauto) E1 ltac:(default_case) E3) as (V1 & l1 & L1 & L2 & L3).
  destruct (used_value _ _ _ _ _ _ "Tlist" standard_temperature i a4 E0 ltac:(cbn; tauto) E1 ltac:(default_case) E4) as (V2 & l2 & M1 & M2 & M3).
  destruct (used_value _ _ _ _ _ _ "xilist" standard_temperature i a5 E0 ltac:(cbn; tauto) E1 ltac:(intros X; exfalso; auto) E5) as (V3 & l3 & N1 & N2 & N3).
  subst l1 l2 l3. split; [exact V1|]. split; [exact V2|]. split; [unfold value_at in *; destruct (dget a "xilist"); [exact V3|contradiction]|].
  split; [exact L2|]. split; [exact M2|]. split; [exact N2|]. split; [exact L3|]. split; assumption.
Qed.

Lemma prep_saturation_spec sys td ins : prep_saturation sys = Ok (td, ins) -> ins <> [] ->
  exists sys1 n, rows_in "xilist" sys sys1 /\ longest sys1 ["Tlist"; "xilist"]%string n /\ length ins = n /\
  forall i, i < n -> exists t x, nth_error ins i = Some (t, x) /\
    value_at sys1 "Tlist" (Some standard_temperature) n i t /\ value_at sys1 "xilist" (Some (ERow [Fin 1])) n i x /\
    length (entry td "Tlist") = n /\ nth_error (entry td "Tlist") i = Some t.
Proof.
  unfold prep_saturation. intros H Hne. step_ok H. step_ok H. pose proof (wrap_rows_spec _ _ _ E) as HR.
  destruct (checked _ _ _ E0) as (HL & C1 & C2 & C3). destruct (dmem a0 "Tlist") eqn:ET.
  - step_ok H. step_ok H. injection H as <- <-. destruct (mapM_seq _ _ _ E2) as [Ln Hm].
    exists a, (first_len (as_values a0)). split; [exact HR|]. split; [exact HL|]. split; [exact Ln|].
    intros i Hi. destruct (Hm i Hi) as (tp & Hx & Hf). step_ok Hf. step_ok Hf. injection Hf as <-.
    exists a3, a4. split; [exact Hx|].
    destruct (used_value _ _ _ _ _ _ "Tlist" standard_temperature i a3 E0 ltac:(cbn; tauto) E1 ltac:(default_case) E3) as (V1 & l1 & L1 & L2 & L3).
    destruct (used_value _ _ _ _ _ _ "xilist" (ERow [Fin 1]) i a4 E0 ltac:(cbn; tauto) E1 ltac:(default_case) E4) as (V2 & _).
    subst l1. split; [exact V1|]. split; [exact V2|]. split; assumption.
  - assert (HT : dget a "Tlist" = None).
    { destruct (dget a "Tlist") as [u|] eqn:Eu; [|reflexivity]. destruct (C1 "Tlist"%string u ltac:(cbn; tauto) Eu) as (l & Hl & _).
      unfold dmem in ET. rewrite Hl in ET. discriminate. }
    assert (HX : exists u, dget a "xilist" = Some u).
    { destruct HL as [(k & v & [Hk Hv] & _) _]. cbn in Hk. destruct Hk as [<-|[<-|[]]]; [congruence|]. exists v. exact Hv. }
    destruct HX as [u HX]. destruct (C1 "xilist"%string u ltac:(cbn; tauto) HX) as (l & Hl & Hs).
    set (td1 := dset (as_values a0) "Tlist" (Arr [standard_temperature])) in *.
    assert (Hfl : first_len td1 = first_len (as_values a0)).
    { unfold td1. destruct a0 as [|[k0 l0] a0]; [discriminate|]. cbn [as_values map dset fst snd]. unfold dmem in ET. cbn [dget] in ET.
      destruct (String.eqb "Tlist" k0) eqn:Ek; [discriminate|reflexivity]. }
    rewrite Hfl in H. step_ok H. step_ok H. injection H as <- <-. destruct (mapM_seq _ _ _ E2) as [Ln Hm].
    assert (Hnd : NoDup (dkeys td1)) by (apply NoDup_dset; rewrite dkeys_as_values; eapply check_NoDup, E0).
    destruct (with_defaults_get _ _ _ _ _ Hnd E1) as [D1 D2].
    assert (G1 : dget a1 "Tlist" = Some (Arr [standard_temperature])) by (apply D1; apply dget_dset_same).
    assert (G2 : dget a1 "xilist" = Some (Arr l)).
    { apply D1. unfold td1. rewrite dget_dset_other by discriminate. rewrite dget_as_values, Hl. reflexivity. }
    set (n := first_len (as_values a0)) in *.
    assert (N1 : n = 1).
    { destruct n as [|[|n']]; [destruct a2; [congruence|discriminate Ln]|reflexivity|].
      exfalso. destruct (Hm 1) as (tp & _ & Hf); [lia|]. unfold item in Hf. rewrite G1 in Hf. discriminate. }
    exists a, n. split; [exact HR|]. split; [exact HL|]. split; [exact Ln|].
    intros i Hi. destruct (Hm i Hi) as (tp & Hx & Hf). step_ok Hf. step_ok Hf. injection Hf as <-.
    exists a3, a4. split; [exact Hx|]. pose proof (item_td _ _ _ _ _ G1 E3) as I1. pose proof (item_td _ _ _ _ _ G2 E4) as I2.
    unfold value_at. rewrite HT, HX. assert (i = 0) by lia. subst i. cbn in I1. injection I1 as <-.
    split; [reflexivity|]. split; [exists l; split; assumption|]. unfold entry. rewrite G1. split; [cbn; lia|reflexivity].
Qed.

Lemma prep_activity_spec nc sys m ins : prep_activity nc sys = Ok (m, ins) ->
  exists sys1 sys2 n, rows_in "xilist" sys sys1 /\ rows_in "yilist" sys1 sys2 /\
  longest sys2 ["Tlist"; "yilist"; "xilist"; "Plist"]%string n /\ length ins = n /\
  (dget sys2 "xilist" = None \/ dget sys2 "yilist" = None -> n <= nc) /\
  match m with
  | Dew => dget sys2 "xilist" = None /\ dget sys2 "yilist" <> None
  | Bubble => dget sys2 "xilist" <> None /\ dget sys2 "yilist" = None
  | FlashMode => dget sys2 "xilist" = None /\ dget sys2 "yilist" = None /\ dget sys2 "Plist" <> None
  | Standard => dget sys2 "xilist" <> None /\ dget sys2 "yilist" <> None
  end /\
  forall i, i < n -> exists t p x y g a b, nth_error ins i = Some (t, p, x, y, (g, a, b)) /\
    value_at sys2 "Tlist" (Some standard_temperature) n i t /\ value_at sys2 "Plist" (Some enan) n i p /\
    value_at sys2 "xilist" (Some enan) n i x /\ value_at sys2 "yilist" (Some enan) n i y /\
    option_at sys2 "Pguess" n i g /\ option_at sys2 "Pmin" n i a /\ option_at sys2 "Pmax" n i b.
Proof.
  unfold prep_activity. intros H. step_ok H. step_ok H. step_ok H.
  pose proof (wrap_rows_spec _ _ _ E) as HR. pose proof (wrap_rows_spec _ _ _ E0) as HR2.
  destruct (checked _ _ _ E1) as (HL & C1 & C2 & C3).
  assert (Hmem : forall k, In k ["Tlist"; "yilist"; "xilist"; "Plist"]%string ->
            if dmem a1 k then dget a0 k <> None else dget a0 k = None).
  { intros k Hk. unfold dmem. destruct (dget a0 k) as [u|] eqn:Eu.
    - destruct (C1 k u Hk Eu) as (l & -> & _). discriminate.
    - rewrite (C2 k Hk Eu). reflexivity. }
  pose proof (Hmem "xilist"%string ltac:(cbn; tauto)) as Mx. pose proof (Hmem "yilist"%string ltac:(cbn; tauto)) as My.
  pose proof (Hmem "Plist"%string ltac:(cbn; tauto)) as Mp.
  destruct (activity_mode (dmem a1 "xilist") (dmem a1 "yilist") (dmem a1 "Plist")) as [m'|] eqn:Em; [|discriminate].
  step_ok H. step_ok H. step_ok H. injection H as <- <-. destruct (mapM_seq _ _ _ E4) as [Ln Hm].
  exists a, a0, (first_len (as_values a1)). split; [exact HR|]. split; [exact HR2|]. split; [exact HL|]. split; [exact Ln|].
  assert (Hrep : forall k, dget a0 k = None -> In k ["yilist"; "xilist"]%string -> dget a2 k = Some (Arr (repeat enan nc))).
  { intros k Hk Hin. assert (Hn : NoDup (dkeys (as_values a1))) by (rewrite dkeys_as_values; eapply check_NoDup, E1).
    destruct (with_defaults_get _ _ _ _ _ Hn E2) as [_ D2].
    assert (Hk4 : In k ["Tlist"; "yilist"; "xilist"; "Plist"]%string) by (cbn in *; tauto).
    destruct (D2 k) as (d & w & H1 & H2 & H3); [rewrite dget_as_values, (C2 k Hk4 Hk); reflexivity|exact Hk4|].
    destruct H1 as (j & Hj1 & Hj2). cbn in Hin. destruct Hin as [<-|[<-|[]]];
      do 4 (destruct j as [|j]; [cbn in Hj1, Hj2; try discriminate Hj1; injection Hj2 as <-; inversion H2; subst; exact H3|]); destruct j; discriminate. }
  split.
  { intros Hor. destruct (first_len (as_values a1)) as [|n] eqn:En; [lia|]. destruct (Hm n) as (tp & _ & Hf); [lia|].
    step_ok Hf. step_ok Hf. step_ok Hf. step_ok Hf.
    destruct Hor as [Hor|Hor]; pose proof (Hrep _ Hor ltac:(cbn; tauto)) as Hr.
    - pose proof (item_td _ _ _ _ _ Hr E7) as I. assert (n < length (repeat enan nc)) by (apply nth_error_Some; congruence). rewrite repeat_length in *. lia.
    - pose proof (item_td _ _ _ _ _ Hr E8) as I. assert (n < length (repeat enan nc)) by (apply nth_error_Some; congruence). rewrite repeat_length in *. lia. }
  split.
  { unfold activity_mode in Em. destruct (dmem a1 "xilist"), (dmem a1 "yilist"), (dmem a1 "Plist"); cbn in Em; try discriminate; injection Em as <-; auto. }
  assert (Hnan : forall k i v l, dget a0 k = None -> In k ["yilist"; "xilist"]%string -> item a2 k i = Ok v -> l = v -> v = enan).
  { intros k i v l Hk Hin Hi _. pose proof (item_td _ _ _ _ _ (Hrep k Hk Hin) Hi) as I. apply nth_error_In, repeat_spec in I. exact I. }
  intros i Hi. destruct (Hm i Hi) as (tp & Hx & Hf). step_ok Hf. step_ok Hf. step_ok Hf. step_ok Hf. step_ok Hf. injection Hf as <-.
  unfold limits_at in E9. step_ok E9. step_ok E9. step_ok E9. injection E9 as <-.
  exists a5, a6, a7, a8, a10, a11, a12. split; [exact Hx|].
  destruct (used_value _ _ _ _ _ _ "Tlist" standard_temperature i a5 E1 ltac:(cbn; tauto) E2 ltac:(default_case) E5) as (V1 & _).
  destruct (used_value _ _ _ _ _ _ "Plist" enan i a6 E1 ltac:(cbn; tauto) E2 ltac:(default_case) E6) as (V2 & _).
  split; [exact V1|]. split; [exact V2|].
  split; [destruct (dget a0 "xilist") as [u|] eqn:Eu|].
  { apply (used_value _ _ _ _ _ _ "xilist" enan i a7 E1 ltac:(cbn; tauto) E2 ltac:(intros X; congruence) E7). }
  { unfold value_at. rewrite Eu. f_equal. symmetry. eapply Hnan; [exact Eu|cbn; tauto|exact E7|reflexivity]. }
  split; [destruct (dget a0 "yilist") as [u|] eqn:Eu|].
  { apply (used_value _ _ _ _ _ _ "yilist" enan i a8 E1 ltac:(cbn; tauto) E2 ltac:(intros X; congruence) E8). }
  { unfold value_at. rewrite Eu. f_equal. symmetry. eapply Hnan; [exact Eu|cbn; tauto|exact E8|reflexivity]. }
  split; [eapply used_option; [exact E3|cbn; tauto|exact E10]|]. split; [eapply used_option; [exact E3|cbn; tauto|exact E11]|].
  eapply used_option; [exact E3|cbn; tauto|exact E12].
Qed.

(** *** columns given by the user in front of the computed ones *)
Lemma cell_given given o nm i v l : dget given nm = Some l -> nth_error l i = Some v -> cell (given ++ o) nm i v.
Proof. intros H1 H2. exists l. rewrite dget_app, H1. auto. Qed.
Lemma cell_computed given o nm i v : dget given nm = None -> cell o nm i v -> cell (given ++ o) nm i v.
Proof. intros H1 (l & H2 & H3). exists l. rewrite dget_app, H1. auto. Qed.
Lemma full_app given o n : Forall (fun kv => length (snd kv) = n) given -> full_columns o n -> full_columns (given ++ o) n.
Proof.
  intros H1 H2 nm l. rewrite dget_app. destruct (dget given nm) as [l'|] eqn:E; [|apply H2].
  intros H; injection H as <-. apply dget_In in E. rewrite Forall_forall in H1. apply (H1 _ E).
Qed.
Lemma value_at_fun sys k d n i v v' : value_at sys k d n i v -> value_at sys k d n i v' -> v = v'.
Proof.
  unfold value_at. destruct (dget sys k); [|congruence]. intros (l & H1 & H2) (l' & H3 & H4).
  rewrite (spread_fun _ _ _ _ H1 H3) in H2. congruence.
Qed.
Lemma longest_unique (sys : lists) keys n m : longest sys keys n -> longest sys keys m -> n = m.
Proof.
  intros [(k & v & H1 & <-) H2] [(k' & v' & H3 & <-) H4]. specialize (H2 _ _ H3). specialize (H4 _ _ H1). lia.
Qed.
Lemma longest_ext (s1 s2 : lists) keys n : (forall k, dget s1 k = dget s2 k) -> longest s1 keys n -> longest s2 keys n.
Proof.
  intros H [(k & v & [H1 H2] & H3) H4]. split.
  - exists k, v. split; [split; [exact H1|rewrite <- H; exact H2]|exact H3].
  - intros k' v' [H5 H6]. apply (H4 k' v'). split; [exact H5|rewrite H; exact H6].
Qed.
Lemma rows_in_ext comp s1 s2 a1 a2 : (forall k, dget s1 k = dget s2 k) -> rows_in comp s1 a1 -> rows_in comp s2 a2 ->
  forall k, dget a1 k = dget a2 k.
Proof.
  intros H [A1 B1] [A2 B2] k. destruct (String.eqb_spec k comp) as [->|N]; [|rewrite A1, A2 by exact N; apply H].
  rewrite H in B1. destruct (dget s2 comp) as [[a|l]|]; [contradiction| |congruence].
  destruct B1 as [(r & Hr & -> & ->)|(r & l' & -> & ->)].
  - destruct B2 as [(r' & Hr' & Hm & ->)|(r' & l'' & Hm & ->)].
    + do 3 f_equal. f_equal. clear - Hm. revert r' Hm. induction r as [|x r IH]; intros [|x' r'] Hm; try discriminate; [reflexivity|].
      injection Hm as -> Hm. f_equal. apply IH, Hm.
    + destruct r; discriminate.
  - destruct B2 as [(r' & Hr' & Hm & ->)|(r' & l'' & Hm & ->)]; [|reflexivity]. destruct r'; discriminate.
Qed.
Lemma rows_in_fun comp s a1 a2 : rows_in comp s a1 -> rows_in comp s a2 -> forall k, dget a1 k = dget a2 k.
Proof. apply rows_in_ext. reflexivity. Qed.
Lemma value_at_ext s1 s2 k d n i v : (forall k, dget s1 k = dget s2 k) -> value_at s2 k d n i v <-> value_at s1 k d n i v.
Proof. intros H. unfold value_at. rewrite H. tauto. Qed.
Lemma option_at_ext s1 s2 k n i v : (forall k, dget s1 k = dget s2 k) -> option_at s2 k n i v <-> option_at s1 k n i v.
Proof. intros H. unfold option_at. rewrite H. tauto. Qed.
Lemma option_at_fun sys k n i v v' : option_at sys k n i v -> option_at sys k n i v' -> v = v'.
Proof.
  unfold option_at. destruct (dget sys k); [|congruence]. intros (l & x & H1 & H2 & ->) (l' & x' & H3 & H4 & ->).
  rewrite (spread_fun _ _ _ _ H1 H3) in H2. congruence.
Qed.
Lemma Forall2_impl_in {A B} (P Q : A -> B -> Prop) l l' : (forall a b, In a l -> P a b -> Q a b) -> Forall2 P l l' -> Forall2 Q l l'.
Proof. intros H F. induction F; constructor; auto using in_eq, in_cons. Qed.
Lemma cell_fun out nm i v v' : cell out nm i v -> cell out nm i v' -> v = v'.
Proof. intros (l & H1 & H2) (l' & H3 & H4). congruence. Qed.

Lemma given_ok {G} g (wr : world G * result output) w' out : with_given g wr = (w', Ok out) ->
  exists o, wr = (w', Ok o) /\ out = g ++ o.
Proof. destruct wr as [w [o|e]]; cbn; intros H; [|discriminate]. exists o. split; congruence. Qed.

(** whether a calculation over points raises depends on the points only *)
Section Total.
  Context {G I : Type}.
  Definition decided (step : world G -> I -> world G * result (list elem)) (bad : I -> option exn) (k : nat) : Prop :=
    forall w x, match bad x with
                | Some e => snd (step w x) = Err e
                | None => exists w1 row, step w x = (w1, Ok row) /\ length row = k
                end.
  Fixpoint first_bad (bad : I -> option exn) (ins : list I) : option exn :=
    match ins with [] => None | x :: ins' => match bad x with Some e => Some e | None => first_bad bad ins' end end.

  Lemma run_list_decided step bad k : decided step bad k -> forall ins w,
    match first_bad bad ins with
    | Some e => snd (run_list step w ins) = Err e
    | None => exists w' rows, run_list step w ins = (w', Ok rows) /\ length rows = length ins /\ forall r, In r rows -> length r = k
    end.
  Proof.
    intros D. induction ins as [|x ins IH]; intros w; cbn [first_bad run_list].
    - exists w, []. split; [reflexivity|]. split; [reflexivity|]. intros r [].
    - specialize (D w x). destruct (bad x) as [e|].
      + destruct (step w x) as [w1 [o|e']]; [discriminate|]. cbn in *. congruence.
      + destruct D as (w1 & row & -> & Hr). specialize (IH w1). destruct (first_bad bad ins) as [e|].
        * destruct (run_list step w1 ins) as [w2 [o|e']]; [discriminate|exact IH].
        * destruct IH as (w' & rows & -> & Hl & Hk). exists w', (row :: rows). split; [reflexivity|]. split; [cbn; lia|].
          intros r [<-|H]; [exact Hr|apply Hk, H].
  Qed.

  Definition verdict (bad : I -> option exn) (ins : list I) : option exn :=
    match first_bad bad ins with Some e => Some e | None => match ins with [] => Some ValueError | _ => None end end.

  Lemma run_points_decided step bad names : names <> [] -> decided step bad (length names) -> forall ins w,
    match verdict bad ins with
    | Some e => snd (run_points step w ins names) = Err e
    | None => exists w' out, run_points step w ins names = (w', Ok out)
    end.
  Proof.
    intros Hn D ins w. pose proof (run_list_decided _ _ _ D ins w) as H. unfold verdict, run_points.
    destruct (first_bad bad ins) as [e|].
    - destruct (run_list step w ins) as [w' [o|e']]; [discriminate|]. cbn in H. injection H as ->. reflexivity.
    - destruct H as (w' & rows & -> & Hl & Hk). destruct ins as [|x ins].
      + destruct rows; [|discriminate]. cbn. destruct names; [congruence|reflexivity].
      + cbn [rbind]. rewrite (transpose_agree rows _ Hk). unfold zip_star. destruct rows as [|r rows]; [discriminate|].
        rewrite (Hk r) by (left; reflexivity). destruct (zipn_uniform _ _ Hk) as (Z & _). rewrite Z, Nat.eqb_refl. eauto.
  Qed.
End Total.

(** two steps decided alike give calculations that are refused alike *)
Lemma run_points_same {G I} (s1 s2 : world G -> I -> world G * result (list elem)) bad names ins w1 w2 e :
  names <> [] -> decided s1 bad (length names) -> decided s2 bad (length names) ->
  snd (run_points s1 w1 ins names) = Err e -> snd (run_points s2 w2 ins names) = Err e.
Proof.
  intros Hn D1 D2 H. pose proof (run_points_decided _ _ _ Hn D1 ins w1) as V1. pose proof (run_points_decided _ _ _ Hn D2 ins w2) as V2.
  destruct (verdict bad ins) as [e'|]; [congruence|]. destruct V1 as (w' & out & E). rewrite E in H. discriminate.
Qed.
Lemma given_err {G} g (wr : world G * result output) e : snd (with_given g wr) = Err e <-> snd wr = Err e.
Proof. destruct wr as [w [o|e']]; cbn; split; intros H; try discriminate; injection H as ->; reflexivity. Qed.

Section Decided.
  Context {G O : Type}.
  Variable R : routines G O.
  Variable k : call_opts O.
  Definition none_bad {I} (_ : I) : option exn := None.

  Lemma saturated_decided dew : decided (saturated_point R dew k)
    (fun pt => match snd (fst pt) with ERow _ => None | ENum _ => Some TypeError end) 5.
  Proof.
    intros w [[t x] l]. cbn [fst snd]. destruct x as [x|r]; [reflexivity|]. unfold saturated_point. cbn [pure].
    destruct (Nat.eqb _ 1).
    - destruct (c_sat _ _ _ _ _) as [g [[[p a] b]|e]]; eexists _, _; split; reflexivity.
    - destruct (take_method w (k_method k)) as [m w1]. destruct dew.
      + destruct (c_dew _ _ _ _ _) as [g [[[[[p a] b] c] d]|e]]; eexists _, _; split; reflexivity.
      + destruct (c_bubble _ _ _ _ _) as [g [[[[[p a] b] c] d]|e]]; eexists _, _; split; reflexivity.
  Qed.
  Lemma activity_decided md : decided (activity_point R md k) none_bad 9.
  Proof.
    intros w [[[[t p] x] y] l]. cbn [none_bad]. unfold activity_point. destruct (take_method w (k_method k)) as [m w1].
    assert (F : forall w p x y fv fl ob bad, length bad = 9 -> exists w2 row,
      match activity R w k l m p t x y with
      | (w', Ok (gam, ps)) => (w', Ok [t; p; x; y; fv; fl; ob; ps; gam])
      | (w', Err _) => (w', Ok bad)
      end = (w2, Ok row) /\ length row = 9).
    { intros w2 p0 x0 y0 fv fl ob bad Hb. destruct (activity R w2 k l m p0 t x0 y0) as [w3 [[gam ps]|e]]; eexists _, _; split; try reflexivity; exact Hb. }
    destruct md.
    - destruct (c_dew _ _ _ _ _) as [g [[[[[p' a] b] c] d]|e]]; [apply F; reflexivity|eexists _, _; split; reflexivity].
    - destruct (c_bubble _ _ _ _ _) as [g [[[[[p' a] b] c] d]|e]]; [apply F; reflexivity|eexists _, _; split; reflexivity].
    - destruct (c_flash _ _ _ _ _) as [g [[[[[p' a] b] c] d]|e]]; [apply F; reflexivity|eexists _, _; split; reflexivity].
    - apply F; reflexivity.
  Qed.
  Lemma flash_decided : decided (flash_point R k) none_bad 5.
  Proof. intros w [t p]. cbn [none_bad]. unfold flash_point. destruct (c_flash _ _ _ _ _) as [g [[[[[p' a] b] c] d]|e]]; eexists _, _; split; reflexivity. Qed.
  Lemma saturation_decided : decided (saturation_point R k) none_bad 3.
  Proof.
    intros w [t x]. cbn [none_bad]. unfold saturation_point. destruct (c_sat _ _ _ _ _) as [g [[[p a] b]|e]]; [|eexists _, _; split; reflexivity].
    destruct p as [p|p]; [destruct (is_nan p)|]; eexists _, _; split; reflexivity.
  Qed.
  Lemma phase_decided liquid : decided (phase_point R liquid k) none_bad 3.
  Proof.
    intros w [[p t] x]. cbn [none_bad]. unfold phase_point.
    destruct ((if liquid then c_liquid R else c_vapor R) (glob w) p t x (k_rest k)) as [g [[[p' a] b]|e]]; eexists _, _; split; reflexivity.
  Qed.
  Lemma solubility_decided : decided (solubility_point R k) none_bad 3.
  Proof.
    intros w [[p t] x]. cbn [none_bad]. unfold solubility_point. destruct (c_ldensity _ _ _ _ _ _) as [g [[rho fl]|e]]; [|eexists _, _; split; reflexivity].
    destruct (c_hildebrand _ _ _ _ _ _) as [g' [d|e]]; eexists _, _; split; reflexivity.
  Qed.

  Lemma decided_width {I} (step : world G -> I -> world G * result (list elem)) bad n : decided step bad n ->
    forall w x w1 row, step w x = (w1, Ok row) -> length row = n.
  Proof.
    intros D w x w1 row E. specialize (D w x). destruct (bad x) as [e|]; [rewrite E in D; discriminate|].
    destruct D as (w2 & r & E2 & H). congruence.
  Qed.
End Decided.

(** *** activity coefficients *)
Lemma unit_row_pure n i : i < n -> pure_of n i (unit_row n i).
Proof.
  intros _. unfold unit_row. split; [rewrite map_length, seq_length; reflexivity|]. intros j Hj.
  rewrite nth_error_map, (nth_error_nth' _ 0) by (rewrite seq_length; exact Hj). rewrite seq_nth by exact Hj. reflexivity.
Qed.
Lemma gamma_list_spec p : forall xs ys ps, length ys = length xs -> length ps = length xs ->
  activity_of p ys ps xs (gamma_list p ys ps xs).
Proof.
  induction xs as [|x xs IH]; intros [|y ys] [|q ps] H1 H2; try discriminate.
  - repeat split. intros [|i]; discriminate.
  - injection H1 as H1. injection H2 as H2. destruct (IH ys ps H1 H2) as (L1 & L2 & L3 & H). cbn [gamma_list].
    split; [cbn; lia|]. split; [cbn; lia|]. split; [cbn; lia|]. intros [|i] y0 q0 x0; cbn [nth_error].
    + intros E1 E2 E3. injection E1 as <-. injection E2 as <-. injection E3 as <-. reflexivity.
    + apply H.
Qed.
Section Psat.
  Context {G O : Type}.
  Variable R : routines G O.
  Lemma psat_loop_spec k l m t n : forall is w,
    match snd (psat_loop R w k l m t n is) with
    | Ok ps => length ps = length is /\ forall j i, nth_error is j = Some i -> exists g q a b,
        nth_error ps j = Some q /\ snd (c_sat R g t (ERow (unit_row n i)) (opts_of k w l m)) = Ok (ENum q, a, b)
    | Err _ => exists i g, In i is /\ forall q a b, snd (c_sat R g t (ERow (unit_row n i)) (opts_of k w l m)) <> Ok (ENum q, a, b)
    end.
  Proof.
    induction is as [|i is IH]; intros w; cbn [psat_loop].
    - split; [reflexivity|]. intros [|j] i; discriminate.
    - destruct (c_sat R (glob w) t (ERow (unit_row n i)) (opts_of k w l m)) as [g r] eqn:E.
      destruct r as [[[[p|p] a] b]|e].
      + specialize (IH (put w g)). destruct (psat_loop R (put w g) k l m t n is) as [w' [ps|e]]; cbn [snd rbind] in *.
        * destruct IH as [L H]. split; [cbn; lia|]. intros [|j] i' Hj; cbn in Hj.
          -- injection Hj as <-. exists (glob w), p, a, b. rewrite E. split; reflexivity.
          -- exact (H j i' Hj).
        * destruct IH as (i' & g' & Hi & H). exists i', g'. split; [right; exact Hi|exact H].
      + cbn [snd]. exists i, (glob w). split; [left; reflexivity|]. rewrite E. discriminate.
      + cbn [snd]. exists i, (glob w). split; [left; reflexivity|]. rewrite E. discriminate.
  Qed.
End Psat.
