(** Property theorems C62 and C70. *)
From Verif Require Import Base BaseFacts EosToolboxModel LoggerModel.
Open Scope string_scope.

Definition is_console (h : handler) : bool := match h with Console => true | _ => false end.
Definition is_file (h : handler) : bool := match h with Console => false | _ => true end.
Definition count (p : handler -> bool) (l : list handler) : nat := length (filter p l).

(** no file handler was given a path that contains the word StreamHandler *)
Definition plain_name (l : logarg) : Prop := substring_in "StreamHandler" (file_name l) = false.

Definition configure (st : lstate) (cs : list (option bool * logarg)) : lstate :=
  fold_left (fun s c => initiate_logger s (fst c) (snd c)) cs st.

Lemma count_app p l1 l2 : count p (l1 ++ l2) = count p l1 + count p l2.
Proof. unfold count. rewrite filter_app, app_length. reflexivity. Qed.

Lemma last_index_spec {A} (p : A -> bool) l k acc :
  match last_index p l k acc with
  | None => acc = None /\ (forall x, In x l -> p x = false)
  | Some i => (exists j x, i = k + j /\ nth_error l j = Some x /\ p x = true) \/
              (acc = Some i /\ forall x, In x l -> p x = false)
  end.
Proof.
  revert k acc. induction l as [|x xs IH]; intros k acc; cbn.
  - destruct acc as [i|]; [right|]; (split; [reflexivity|intros ? []]).
  - specialize (IH (S k) (if p x then Some k else acc)).
    destruct (last_index p xs (S k) (if p x then Some k else acc)) as [i|].
    + destruct IH as [[j [y [-> [E P]]]]|[E P]].
      * left. exists (S j), y. split; [lia|]. split; assumption.
      * destruct (p x) eqn:Px.
        -- injection E as <-. left. exists 0, x. split; [lia|]. split; [reflexivity|exact Px].
        -- right. split; [exact E|]. intros z [<-|Hz]; [exact Px|apply P; exact Hz].
    + destruct IH as [E P]. destruct (p x) eqn:Px; [discriminate|]. split; [exact E|].
      intros z [<-|Hz]; [exact Px|apply P; exact Hz].
Qed.

Lemma count_zero p l : (forall x, In x l -> p x = false) -> count p l = 0.
Proof.
  intros H. unfold count. induction l as [|x xs IH]; [reflexivity|]. cbn.
  rewrite (H x) by (left; reflexivity). apply IH. intros y Hy. apply H; right; exact Hy.
Qed.
Lemma count_pos p l j x : nth_error l j = Some x -> p x = true -> 1 <= count p l.
Proof.
  revert j. induction l as [|y ys IH]; intros j E P; [destruct j; discriminate|].
  unfold count in *. cbn. destruct j as [|j]; cbn in E.
  - injection E as ->. rewrite P. cbn. lia.
  - specialize (IH j E P). destruct (p y); cbn; lia.
Qed.
Lemma count_remove p l j x : nth_error l j = Some x ->
  count p l = count p (remove_nth j l) + (if p x then 1 else 0).
Proof.
  revert j. induction l as [|y ys IH]; intros j E; [destruct j; discriminate|].
  destruct j as [|j]; cbn in E.
  - injection E as ->. unfold count. cbn. destruct (p x); cbn; lia.
  - specialize (IH j E). unfold count in *. cbn. destruct (p y); cbn; lia.
Qed.

Definition wf (st : lstate) : Prop :=
  count is_console (ls_handlers st) <= 1 /\ count is_file (ls_handlers st) <= 1 /\
  forall p, In (LogFile p) (ls_handlers st) -> substring_in "StreamHandler" p = false.

Lemma In_remove_nth {A} k (l : list A) x : In x (remove_nth k l) -> In x l.
Proof.
  revert k. induction l as [|y ys IH]; intros k H; [destruct k; destruct H|].
  destruct k as [|k]; cbn in *; [right; exact H|]. destruct H as [H|H]; [left; exact H|right; apply (IH k); exact H].
Qed.

Lemma looks_console_spec st h : wf st -> In h (ls_handlers st) -> looks_console h = is_console h.
Proof. intros [_ [_ W]] H. destruct h as [|p]; [reflexivity|]. cbn. apply W; exact H. Qed.

(** one configuration call *)
Lemma step_spec st console l : wf st -> plain_name l ->
  let st' := initiate_logger st console l in
  wf st' /\
  count is_console (ls_handlers st') = (match console with Some true => 1 | _ => 0 end) /\
  count is_file (ls_handlers st') = (match l with LNone => count is_file (ls_handlers st) | _ => 1 end).
Proof.
  intros W Hl. assert (W' := W). destruct W' as [W1 [W2 W3]].
  unfold initiate_logger.
  pose proof (last_index_spec looks_console (ls_handlers st) 0 None) as HC.
  pose proof (last_index_spec looks_file (ls_handlers st) 0 None) as HF.
  set (hc := last_index looks_console (ls_handlers st) 0 None) in *.
  set (hl := last_index looks_file (ls_handlers st) 0 None) in *.
  set (truthy := match console with Some true => true | _ => false end).
  set (hs1 := (match truthy, hc with
             | true, None => ls_handlers st ++ [Console]
             | true, Some _ => ls_handlers st
             | false, Some k => remove_nth k (ls_handlers st)
             | false, None => ls_handlers st end)%list).
  assert (A : count is_console hs1 = (if truthy then 1 else 0) /\ count is_file hs1 = count is_file (ls_handlers st) /\
              forall p, In (LogFile p) hs1 -> substring_in "StreamHandler" p = false).
  { assert (Z : hc = None -> count is_console (ls_handlers st) = 0).
    { intros E. rewrite E in HC. destruct HC as [_ HC]. apply count_zero. intros x Hx.
      rewrite <- (looks_console_spec st x W Hx). apply HC; exact Hx. }
    unfold hs1. destruct truthy; destruct hc as [k|].
    - split; [|split; [reflexivity|exact W3]].
      destruct HC as [[j [x [_ [E P]]]]|[E _]]; [|discriminate].
      assert (1 <= count is_console (ls_handlers st)); [|lia]. apply (count_pos _ _ j x E).
      rewrite <- (looks_console_spec st x W); [exact P|]. eapply nth_error_In; exact E.
    - rewrite !count_app, Z by reflexivity. split; [reflexivity|]. split; [cbn; lia|].
      intros p Hp. apply in_app_or in Hp. destruct Hp as [Hp|[Hp|[]]]; [apply W3; exact Hp|discriminate].
    - destruct HC as [[j [x [-> [E P]]]]|[E _]]; [|discriminate]. cbn [Nat.add].
      pose proof (count_remove is_console _ _ _ E) as C1. pose proof (count_remove is_file _ _ _ E) as C2.
      rewrite (looks_console_spec st x W) in P by (eapply nth_error_In; exact E).
      destruct x as [|q]; [|discriminate]. cbn in C1, C2.
      split; [lia|]. split; [lia|]. intros p Hp. apply W3. eapply In_remove_nth; exact Hp.
    - split; [apply Z; reflexivity|]. split; [reflexivity|exact W3]. }
  destruct A as [A1 [A2 A3]].
  assert (T : (if truthy then 1 else 0) = (match console with Some true => 1 | _ => 0 end)).
  { unfold truthy. destruct console as [[|]|]; reflexivity. }
  assert (F1 : forall i, hl = Some i -> count is_file (ls_handlers st) = 1).
  { intros i E. rewrite E in HF. destruct HF as [[j [x [_ [E' P]]]]|[E' _]]; [|discriminate].
    assert (1 <= count is_file (ls_handlers st)); [|lia]. apply (count_pos _ _ j x E'). destruct x; [discriminate|reflexivity]. }
  assert (F0 : hl = None -> count is_file (ls_handlers st) = 0).
  { intros E. rewrite E in HF. destruct HF as [_ HF]. apply count_zero. intros x Hx. specialize (HF x Hx).
    destruct x; [reflexivity|discriminate]. }
  assert (Same : match l with LNone => True | _ => exists i, hl = Some i end ->
     let st' := {| ls_handlers := hs1; ls_files := ls_files st |} in
     wf st' /\ count is_console (ls_handlers st') = (match console with Some true => 1 | _ => 0 end) /\
     count is_file (ls_handlers st') = (match l with LNone => count is_file (ls_handlers st) | _ => 1 end)).
  { intros Hhl st'. cbn [ls_handlers st']. split; [split; [|split]|split].
    - cbn [ls_handlers st']. rewrite A1. destruct truthy; lia.
    - cbn [ls_handlers st']. rewrite A2. exact W2.
    - exact A3.
    - rewrite A1. exact T.
    - rewrite A2. destruct l; [reflexivity| |]; destruct Hhl as [i Hi]; apply (F1 i); exact Hi. }
  assert (New : hl = None -> let st' := {| ls_handlers := hs1 ++ [LogFile (file_name l)];
                  ls_files := dset (ddel (ls_files st) (file_name l)) (file_name l) [] |}%list in
     wf st' /\ count is_console (ls_handlers st') = (match console with Some true => 1 | _ => 0 end) /\
     count is_file (ls_handlers st') = 1).
  { intros E st'. unfold wf. cbn [ls_handlers st']. rewrite !count_app, A1, A2, (F0 E). cbn.
    split; [split; [|split]|split].
    - destruct truthy; lia.
    - lia.
    - intros p Hp. apply in_app_or in Hp. destruct Hp as [Hp|[Hp|[]]]; [apply A3; exact Hp|]. injection Hp as <-. exact Hl.
    - rewrite Nat.add_0_r. exact T.
    - reflexivity. }
  destruct l; [apply Same; exact I| |]; destruct hl as [i|] eqn:E;
    try (apply Same; exists i; reflexivity); apply New; reflexivity.
Qed.

(** C62: after any history of configurations there is at most one handler of each
    kind, the console handler exists exactly if the last call asked for it, and the
    file handler exists exactly if some call mentioned log_file. *)
Theorem C62_handlers_partial : forall cs console l,
  (forall c, In c (cs ++ [(console, l)]) -> plain_name (snd c)) ->
  let st := configure {| ls_handlers := []; ls_files := [] |} (cs ++ [(console, l)]) in
  count is_console (ls_handlers st) = (match console with Some true => 1 | _ => 0 end) /\
  count is_file (ls_handlers st) =
    (if existsb (fun c => match snd c with LNone => false | _ => true end) (cs ++ [(console, l)]) then 1 else 0).
Proof.
  intros cs console l HP.
  assert (G : forall cs st, wf st -> (forall c, In c cs -> plain_name (snd c)) ->
     wf (configure st cs) /\ count is_file (ls_handlers (configure st cs)) =
       (if existsb (fun c => match snd c with LNone => false | _ => true end) cs then 1 else count is_file (ls_handlers st))).
  { clear. induction cs as [|c cs IH]; intros st W HP; [split; [exact W|reflexivity]|].
    destruct (step_spec st (fst c) (snd c) W (HP c (or_introl eq_refl))) as [W' [_ F]].
    destruct (IH _ W' (fun d Hd => HP d (or_intror Hd))) as [I1 I2]. split; [exact I1|].
    change (configure st (c :: cs)) with (configure (initiate_logger st (fst c) (snd c)) cs). rewrite I2, F. cbn.
    destruct (snd c); cbn; try reflexivity; destruct (existsb _ cs); reflexivity. }
  assert (W0 : wf {| ls_handlers := []; ls_files := [] |}).
  { split; [cbn; lia|]. split; [cbn; lia|intros ? []]. }
  assert (HP1 : forall c, In c cs -> plain_name (snd c)) by (intros c Hc; apply HP; apply in_or_app; left; exact Hc).
  destruct (G cs _ W0 HP1) as [W1 F1]. unfold configure in *. rewrite fold_left_app. cbn [fold_left fst snd].
  assert (HP2 : plain_name l) by (apply (HP (console, l)); apply in_or_app; right; left; reflexivity).
  destruct (step_spec _ console l W1 HP2) as [_ [C F]]. split; [exact C|]. rewrite F, F1, existsb_app. cbn.
  destruct (existsb _ cs), l; reflexivity.
Qed.
Print Assumptions C62_handlers_partial.

Example C62_case :
  ls_handlers (configure {| ls_handlers := []; ls_files := [] |}
    [(Some true, LNone); (Some true, LBool true); (Some false, LName "run.log"); (Some true, LNone)])
  = [LogFile "despasito.log"; Console] /\ plain_name (LName "run.log").
Proof. split; reflexivity. Qed.

(** C62, refuted: a call that does not mention the console removes its handler, and a
    log file cannot be switched off: False even switches it on. *)
Theorem C62_console_lost_refuted :
  exists st, count is_console (ls_handlers st) = 1 /\
    count is_console (ls_handlers (initiate_logger st None (LName "run.log"))) = 0.
Proof. exists {| ls_handlers := [Console]; ls_files := [] |}. split; reflexivity. Qed.
Print Assumptions C62_console_lost_refuted.
Theorem C62_log_file_off_refuted : forall console st,
  wf st -> count is_file (ls_handlers (initiate_logger st console (LBool false))) = 1.
Proof.
  intros console st W. destruct (step_spec st console (LBool false) W) as [_ [_ F]]; [reflexivity|]. exact F.
Qed.
Print Assumptions C62_log_file_off_refuted.

(** C62, refuted: a log file whose name contains StreamHandler is taken for the
    console; asking for the console is then ignored, and switching it off removes the
    file handler. *)
Theorem C62_name_confusion_refuted :
  let st := initiate_logger {| ls_handlers := []; ls_files := [] |} None (LName "StreamHandler.log") in
  count is_console (ls_handlers (initiate_logger st (Some true) LNone)) = 0 /\
  count is_file (ls_handlers (initiate_logger st (Some false) LNone)) = 0.
Proof. split; reflexivity. Qed.
Print Assumptions C62_name_confusion_refuted.

(** C62, the files: while a log file is in use nothing on disk changes; starting one
    empties the file of that name and touches no other. *)
Theorem C62_files : forall st console l,
  let files' := ls_files (initiate_logger st console l) in
  (l = LNone \/ (exists p, In (LogFile p) (ls_handlers st)) -> files' = ls_files st) /\
  (l <> LNone -> (forall p, ~ In (LogFile p) (ls_handlers st)) ->
     dget files' (file_name l) = Some [] /\
     forall f, f <> file_name l -> dget files' f = dget (ls_files st) f).
Proof.
  intros st console l. unfold initiate_logger.
  pose proof (last_index_spec looks_file (ls_handlers st) 0 None) as HF.
  destruct (last_index looks_file (ls_handlers st) 0 None) as [i|].
  - destruct HF as [[j [x [_ [E P]]]]|[E _]]; [|discriminate].
    split; [intros _; destruct l; reflexivity|]. intros _ N. destruct x as [|q]; [discriminate|].
    apply nth_error_In in E. destruct (N q E).
  - destruct HF as [_ HF]. split.
    + intros [->|[p Hp]]; [reflexivity|]. specialize (HF _ Hp). discriminate.
    + intros Hl _. destruct l as [|b|nm]; [congruence| |]; cbn [ls_files];
        (split; [apply dget_dset_same|]; intros f Hf; rewrite dget_dset_other by congruence; apply dget_ddel_other; congruence).
Qed.
Print Assumptions C62_files.
Example C62_files_case :
  ls_files (initiate_logger {| ls_handlers := []; ls_files := [("a.log", ["old"]); ("b.log", ["kept"])] |} None (LName "a.log"))
  = [("b.log", ["kept"]); ("a.log", [])].
Proof. reflexivity. Qed.

(** C70, proved part: from one -v on, more switches never print less, and the levels are
    those of the help text. *)
Theorem C70_verbosity_partial : 
  (forall v w, 1 <= v -> v <= w -> log_level w <= log_level v) /\
  log_level 1 = 30 /\ log_level 2 = 20 /\ forall v, 3 <= v -> log_level v = 10.
Proof.
  assert (E : forall v, 3 <= v -> log_level v = 10).
  { intros v H. unfold log_level. destruct (Nat.eqb_spec v 0); [lia|]. destruct (Nat.ltb_spec v 4); [|reflexivity].
    replace v with 3 by lia. reflexivity. }
  split; [|split; [reflexivity|split; [reflexivity|exact E]]].
  intros v w Hv Hw. destruct (le_lt_dec 3 w) as [L|L].
  - rewrite (E w L). destruct (le_lt_dec 3 v) as [L'|L']; [rewrite (E v L'); lia|].
    assert (v = 1 \/ v = 2) as [-> | ->] by lia; cbn; lia.
  - assert (v = 1 \/ v = 2) as [-> | ->] by lia; assert (w = 1 \/ w = 2) as [-> | ->] by lia; cbn; lia.
Qed.
Print Assumptions C70_verbosity_partial.

(** C70, refuted: asking once for more output gives less than asking not at all, and
    the --numba switch turns numba off (alone, it makes every run fail). *)
Theorem C70_verbosity_refuted : log_level 0 < log_level 1.
Proof. cbn. lia. Qed.
Print Assumptions C70_verbosity_refuted.
Theorem C70_numba_switch_refuted :
  method_from_switches true false false = Err ValueError /\
  exists ms, method_from_switches false false false = Ok ms /\ ms_numba ms = true.
Proof. split; [reflexivity|]. eexists. split; reflexivity. Qed.
Print Assumptions C70_numba_switch_refuted.
