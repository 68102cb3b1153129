(** Properties of a run from the command line or through [run] (C109-C112) *)
From Verif Require Import Base BaseFacts IOModel LoggerModel MainModel.
Open Scope nat_scope.
Open Scope string_scope.

(** ** Specification *)
(** the file the results go to: the one named in the input, if any *)
Inductive result_file : option json -> json -> Prop :=
| named_file s : s <> "" -> result_file (Some (JStr s)) (JStr s)
| default_file o : o = None \/ o = Some (JStr "") \/ o = Some (JAtom "null") -> result_file o (JStr "despasito_out.txt").

(** the options of the fit as a whole that concern the objective of each data set *)
Definition objective_option (k : string) : Prop := In k ["objective_method"; "nan_number"; "nan_ratio"].

(** a data set as it is fitted: its entries, except that the options of the whole fit come first, and the arguments of its equation of
    state have been replaced by the object *)
Definition prepared (args e e' : dict json) : Prop :=
  forall k,
    (k = "eos_dict" -> dget e' k = None) /\
    (forall v, objective_option k -> dget args k = Some v -> dget e' k = Some v) /\
    (k <> "eos_dict" -> (~ objective_option k \/ dget args k = None) -> dget e' k = dget e k).

(** a named data set and what is fitted for it: the same name, the entries above and the object made of its own arguments *)
Definition fitted_as {E} (initiate_eos : dict json -> result E) (args : dict json) (ke : string * dict json) (ks : string * (dict json * E)) : Prop :=
  fst ks = fst ke /\ prepared args (snd ke) (fst (snd ks)) /\
  exists d, dget (snd ke) "eos_dict" = Some (JDict d) /\ initiate_eos d = Ok (snd (snd ks)).

Section Runs.
  Context {E O F : Type}.
  Variable initiate_eos : dict json -> result E.
  Variable thermo : E -> dict json -> result O.
  Variable fit : dict (dict json * E) -> dict json -> result F.
  Variable write_thermo : json -> O -> json -> result unit.
  Variable write_fit : json -> F -> json * json -> result unit.
  Notation run := (MainModel.run initiate_eos thermo fit write_thermo write_fit).

Lemma prepare_set_spec args e e' obj : prepare_set initiate_eos args e = Ok (e', obj) ->
  prepared args e e' /\ exists d, dget e "eos_dict" = Some (JDict d) /\ initiate_eos d = Ok obj.
Proof.
  unfold prepare_set, dfetch. destruct (dget e "eos_dict") as [j|] eqn:Ee; cbn [rbind]; [|discriminate].
  destruct j as [| | |d]; try discriminate. destruct (initiate_eos d) as [o|x] eqn:Eo; cbn [rbind]; [|discriminate].
  intros H. injection H as <- <-. split; [|now exists d].
  set (step := fun (acc : dict json) (k : string) => match dget args k with Some v => dset acc k v | None => acc end).
  change (prepared args e (fold_left step fitting_opts (ddel e "eos_dict"))).
  assert (G : forall ks acc k, (forall v, In k ks -> dget args k = Some v -> dget (fold_left step ks acc) k = Some v) /\
    (~ In k ks \/ dget args k = None -> dget (fold_left step ks acc) k = dget acc k)).
  { clear. induction ks as [|q ks IH]; intros acc k; cbn [fold_left In]; [split; [tauto|reflexivity]|].
    destruct (IH (step acc q) k) as (A & B). split.
    - intros v [->|Hi] Hv; [|now apply A].
      destruct (in_dec string_dec k ks) as [Hk|Hk]; [now apply A|]. rewrite B by now left. unfold step. rewrite Hv. apply dget_dset_same.
    - intros Hn. rewrite B by tauto. unfold step. destruct (dget args q) as [v|] eqn:Eq; [|reflexivity].
      apply dget_dset_other. intros ->. destruct Hn as [Hn|Hn]; [tauto|congruence]. }
  intros k. destruct (G fitting_opts (ddel e "eos_dict") k) as (A & B). split; [|split].
  - intros ->. rewrite B; [apply dget_ddel_same|]. left. cbn. intuition discriminate.
  - exact A.
  - intros Hk Hn. rewrite B by exact Hn. apply dget_ddel_other. congruence.
Qed.

Lemma output_name_spec o j : result_file o j -> output_name o = j.
Proof.
  intros H. inversion H as [s N|o' H0]; subst; [|destruct H0 as [X|[X|X]]; subst; reflexivity]. cbn.
  destruct (String.eqb_spec s ""); [contradiction|reflexivity].
Qed.

Lemma mapM_sets args : forall l r, mapM (fun ke : string * dict json => let* s := prepare_set initiate_eos args (snd ke) in Ok (fst ke, s)) l = Ok r ->
  Forall2 (fitted_as initiate_eos args) l r.
Proof.
  induction l as [|[k e] l IH]; intros r H; cbn [mapM fst snd] in H.
  - injection H as <-. constructor.
  - destruct (prepare_set initiate_eos args e) as [[e' obj]|x] eqn:Ep; cbn [rbind] in H; [|discriminate].
    destruct (mapM _ l) as [rs|x]; cbn [rbind] in H; [|discriminate]. injection H as <-.
    constructor; [|now apply IH]. split; [reflexivity|]. now apply prepare_set_spec.
Qed.

(** ** C109 *)
Theorem C109_calculation : forall c p evs r, run (Ok c) (Some p) = (evs, r) ->
  dget (thermo_args c) "optimization_parameters" = None ->
  (forall s a f, ~ In (Fitted s a f) evs) /\ (forall f r n, ~ In (WroteFit f r n) evs) /\
  (forall eos args o, In (Calculated eos args o) evs ->
     args = thermo_args c /\ initiate_eos (eos_args c) = Ok eos /\ thermo eos args = Ok o) /\
  (forall file o t, In (WroteResult file o t) evs ->
     (exists eos args, In (Calculated eos args o) evs) /\ dget (thermo_args c) "calculation_type" = Some t /\
     (forall f, result_file (out_file c) f -> file = f)) /\
  (forall eos o t, initiate_eos (eos_args c) = Ok eos -> thermo eos (thermo_args c) = Ok o ->
     dget (thermo_args c) "calculation_type" = Some t ->
     In (Calculated eos (thermo_args c) o) evs /\
     (forall f, result_file (out_file c) f -> write_thermo f o t = Ok tt -> In (WroteResult f o t) evs)).
Proof.
  intros c p evs r H N. unfold MainModel.run in H. unfold dmem in H. rewrite N in H.
  destruct (initiate_eos (eos_args c)) as [eos|x] eqn:Ei.
  2: { injection H as <- <-. cbn. repeat split; intros; try tauto; congruence. }
  destruct (thermo eos (thermo_args c)) as [o|x] eqn:Et.
  2: { injection H as <- <-. cbn. repeat split; intros; try tauto; congruence. }
  assert (S : forall e : event E O F, In e (stop p) -> e = StoppedWorkers) by (intros e; destruct p; cbn; intuition).
  unfold dfetch in H.
  destruct (dget (thermo_args c) "calculation_type") as [t|] eqn:Ety; cbn [rbind] in H.
  2: { injection H as <- <-. cbn [app]. repeat split.
       - intros s a f [X|[X|X]]; [discriminate|discriminate|]. apply S in X. discriminate.
       - intros s a f [X|[X|X]]; [discriminate|discriminate|]. apply S in X. discriminate.
       - destruct H as [X|[X|X]]; [congruence|discriminate|]. apply S in X. discriminate.
       - destruct H as [X|[X|X]]; [congruence|discriminate|]. apply S in X. discriminate.
       - destruct H as [X|[X|X]]; [congruence|discriminate|]. apply S in X. discriminate.
       - destruct H as [X|[X|X]]; [discriminate|discriminate|]. apply S in X. discriminate.
       - destruct H as [X|[X|X]]; [discriminate|discriminate|]. apply S in X. discriminate.
       - destruct H as [X|[X|X]]; [discriminate|discriminate|]. apply S in X. discriminate.
       - discriminate.
       - discriminate. }
  destruct (write_thermo (output_name (out_file c)) o t) as [[]|x] eqn:Ew; cbn [rbind] in H; injection H as <- <-; cbn [app].
  - split; [intros s a f [X|[X|X]]; [discriminate|discriminate|]; apply S in X; discriminate|].
    split; [intros s a f [X|[X|X]]; [discriminate|discriminate|]; apply S in X; discriminate|].
    split; [intros e a o' [X|[X|X]]; [injection X as <- <- <-; auto|discriminate|apply S in X; discriminate]|].
    split.
    + intros f o' t' [X|[X|X]]; [discriminate| |apply S in X; discriminate]. injection X as <- <- <-.
      split; [exists eos, (thermo_args c); now left|]. split; [reflexivity|]. intros f Hf. now apply output_name_spec.
    + intros e o' t' Hi Ht Hty. injection Hi as <-. rewrite Et in Ht. injection Ht as <-. injection Hty as <-.
      split; [now left|]. intros f Hf _. right. left. now rewrite (output_name_spec _ _ Hf).
  - split; [intros s a f [X|[X|X]]; [discriminate|discriminate|]; apply S in X; discriminate|].
    split; [intros s a f [X|[X|X]]; [discriminate|discriminate|]; apply S in X; discriminate|].
    split; [intros e a o' [X|[X|X]]; [injection X as <- <- <-; auto|discriminate|apply S in X; discriminate]|].
    split.
    + intros f o' t' [X|[X|X]]; [discriminate|discriminate|apply S in X; discriminate].
    + intros e o' t' Hi Ht Hty. injection Hi as <-. rewrite Et in Ht. injection Ht as <-. injection Hty as <-.
      split; [now left|]. intros f Hf Hw. rewrite (output_name_spec _ _ Hf) in Ew. congruence.
Qed.

Theorem C109_fit : forall c p evs r, run (Ok c) (Some p) = (evs, r) ->
  dget (thermo_args c) "optimization_parameters" <> None ->
  (forall e a o, ~ In (Calculated e a o) evs) /\ (forall f o t, ~ In (WroteResult f o t) evs) /\
  (forall sets args f, In (Fitted sets args f) evs ->
     args = thermo_args c /\ fit sets args = Ok f /\
     Forall2 (fitted_as initiate_eos args) (exp_sets c) sets) /\
  (forall file f b n, In (WroteFit file f (b, n)) evs ->
     (exists sets args, In (Fitted sets args f) evs) /\ (forall g, result_file (out_file c) g -> file = g) /\
     exists d, dget (thermo_args c) "optimization_parameters" = Some (JDict d) /\ dget d "fit_bead" = Some b /\
       (dget d "fit_parameter_names" = Some n \/ exists s, dget d "fit_parameter_names" = Some (JStr s) /\ n = JList [JStr s])).
Proof.
  intros c p evs r H N. unfold MainModel.run in H. unfold dmem in H.
  destruct (dget (thermo_args c) "optimization_parameters") as [op|] eqn:Eop; [|congruence]. clear N.
  destruct (mapM _ (exp_sets c)) as [sets|x] eqn:Es.
  2: { injection H as <- <-. cbn. repeat split; intros; tauto. }
  apply mapM_sets in Es.
  destruct (fit sets (thermo_args c)) as [f|x] eqn:Ef.
  2: { injection H as <- <-. cbn. repeat split; intros; tauto. }
  assert (S : forall e : event E O F, In e (stop p) -> e = StoppedWorkers) by (intros e; destruct p; cbn; intuition).
  assert (One : evs = [Fitted sets (thermo_args c) f] ->
    (forall e a o, ~ In (Calculated e a o) evs) /\ (forall f o t, ~ In (WroteResult f o t) evs) /\
    (forall sets args f, In (Fitted sets args f) evs ->
     args = thermo_args c /\ fit sets args = Ok f /\
     Forall2 (fitted_as initiate_eos args) (exp_sets c) sets) /\
    (forall file f b n, ~ In (WroteFit file f (b, n)) evs)).
  { intros ->. split; [intros e a o [X|[]]; discriminate|]. split; [intros e a o [X|[]]; discriminate|].
    split; [|intros file g b n [X|[]]; discriminate]. intros s a g [X|[]]. injection X as <- <- <-. auto. }
  destruct (bead_and_names (thermo_args c)) as [[b n]|x] eqn:Ebn.
  2: { injection H as <- <-. destruct (One eq_refl) as (A & B & C & D). split; [exact A|]. split; [exact B|]. split; [exact C|].
       intros file g b n X. elim (D _ _ _ _ X). }
  destruct (write_fit (output_name (out_file c)) f (b, n)) as [[]|x] eqn:Ew.
  2: { injection H as <- <-. destruct (One eq_refl) as (A & B & C & D). split; [exact A|]. split; [exact B|]. split; [exact C|].
       intros file g b' n' X. elim (D _ _ _ _ X). }
  injection H as <- <-. cbn [app].
  split; [intros e a o [X|[X|X]]; [discriminate|discriminate|apply S in X; discriminate]|].
  split; [intros e a o [X|[X|X]]; [discriminate|discriminate|apply S in X; discriminate]|].
  split; [intros s a g [X|[X|X]]; [injection X as <- <- <-; auto|discriminate|apply S in X; discriminate]|].
  intros file g b' n' [X|[X|X]]; [discriminate| |apply S in X; discriminate]. injection X as <- <- <- <-.
  split; [exists sets, (thermo_args c); now left|]. split; [intros g Hg; now apply output_name_spec|].
  unfold bead_and_names, dfetch in Ebn. rewrite Eop in Ebn. cbn [rbind] in Ebn.
  destruct op as [| | |d]; try discriminate. exists d. split; [reflexivity|].
  destruct (dget d "fit_bead") as [b1|]; cbn [rbind] in Ebn; [|discriminate].
  destruct (dget d "fit_parameter_names") as [n1|]; cbn [rbind] in Ebn; [|discriminate].
  destruct n1 as [|s| |]; injection Ebn as -> <-; (split; [reflexivity|]); try (now left). right. now exists s.
Qed.

(** ** C110 *)
Theorem C110_result_kept : forall c p evs, run (Ok c) (Some p) = (evs, Ok tt) ->
  (dget (thermo_args c) "optimization_parameters" <> None -> exists file f n, In (WroteFit file f n) evs) /\
  (dget (thermo_args c) "optimization_parameters" = None ->
     exists o, (exists file t, In (WroteResult file o t) evs) \/ In (OnlyLogged o) evs).
Proof.
  intros c p evs H. unfold MainModel.run in H. unfold dmem in H.
  destruct (dget (thermo_args c) "optimization_parameters") as [op|] eqn:Eop; split; intros N; try congruence.
  - destruct (mapM _ (exp_sets c)) as [sets|x]; [|discriminate].
    destruct (fit sets (thermo_args c)) as [f|x]; [|discriminate].
    destruct (bead_and_names (thermo_args c)) as [bn|x]; [|discriminate].
    destruct (write_fit (output_name (out_file c)) f bn) as [u|x]; [|discriminate]. injection H as <-.
    do 3 eexists. right. left. reflexivity.
  - destruct (initiate_eos (eos_args c)) as [eos|x]; [|discriminate].
    destruct (thermo eos (thermo_args c)) as [o|x]; [|discriminate]. exists o.
    destruct (let* t := dfetch (thermo_args c) "calculation_type" in let* _ := write_thermo (output_name (out_file c)) o t in Ok t) as [t|x];
      injection H as <-; [left; do 2 eexists; right; left; reflexivity|right; right; left; reflexivity].
Qed.

(** after a run that ends without an error the workers, if there were any, are stopped, and that is the last thing done *)
Theorem C110_workers_stopped : forall c p evs, run (Ok c) (Some p) = (evs, Ok tt) ->
  if p then exists before, evs = (before ++ [StoppedWorkers])%list /\ ~ In StoppedWorkers before else ~ In StoppedWorkers evs.
Proof.
  intros c p evs H. unfold MainModel.run in H.
  assert (G : forall a b : event E O F, a <> StoppedWorkers -> b <> StoppedWorkers -> evs = ([a; b] ++ stop p)%list ->
    if p then exists before, evs = (before ++ [StoppedWorkers])%list /\ ~ In StoppedWorkers before else ~ In StoppedWorkers evs).
  { intros a b Na Nb ->. destruct p; cbn [stop]; [exists [a; b]; split; [reflexivity|]|]; cbn; intros X; intuition congruence. }
  destruct (dmem (thermo_args c) "optimization_parameters").
  - destruct (mapM _ (exp_sets c)) as [sets|x]; [|discriminate].
    destruct (fit sets (thermo_args c)) as [f|x]; [|discriminate].
    destruct (bead_and_names (thermo_args c)) as [bn|x]; [|discriminate].
    destruct (write_fit (output_name (out_file c)) f bn) as [u|x]; [|discriminate]. injection H as <-.
    eapply G; [| |reflexivity]; discriminate.
  - destruct (initiate_eos (eos_args c)) as [eos|x]; [|discriminate].
    destruct (thermo eos (thermo_args c)) as [o|x]; [|discriminate].
    destruct (let* t := dfetch (thermo_args c) "calculation_type" in let* _ := write_thermo (output_name (out_file c)) o t in Ok t) as [t|x];
      injection H as <-; eapply G; try reflexivity; discriminate.
Qed.

(** The first part fails: a calculation whose results cannot be written ends without an error and without a result file. *)
Theorem C110_write_failure_refuted : forall c p eos o t f e,
  dget (thermo_args c) "optimization_parameters" = None ->
  initiate_eos (eos_args c) = Ok eos -> thermo eos (thermo_args c) = Ok o ->
  dget (thermo_args c) "calculation_type" = Some t -> result_file (out_file c) f -> write_thermo f o t = Err e ->
  exists evs, run (Ok c) (Some p) = (evs, Ok tt) /\ forall file o t, ~ In (WroteResult file o t) evs.
Proof.
  intros c p eos o t f e N Ei Et Ety Hf Ew. unfold MainModel.run, dmem, dfetch. rewrite N, Ei, Et, Ety. cbn [rbind].
  rewrite (output_name_spec _ _ Hf), Ew. cbn [rbind]. eexists. split; [reflexivity|].
  intros file o' t' [X|[X|X]]; [discriminate|discriminate|]. destruct p; cbn in X; [destruct X as [X|[]]; discriminate|exact X].
Qed.

(** The second part fails: when a calculation or a fit fails, or a fit cannot be written, the workers go on. *)
Theorem C110_workers_refuted : forall c p evs e, run (Ok c) (Some p) = (evs, Err e) -> ~ In StoppedWorkers evs.
Proof.
  intros c p evs e H. unfold MainModel.run in H.
  destruct (dmem (thermo_args c) "optimization_parameters").
  - destruct (mapM _ (exp_sets c)) as [sets|x]; [|injection H as <- _; intros []].
    destruct (fit sets (thermo_args c)) as [f|x]; [|injection H as <- _; intros []].
    destruct (bead_and_names (thermo_args c)) as [bn|x]; [|injection H as <- _; intros [X|[]]; discriminate].
    destruct (write_fit (output_name (out_file c)) f bn) as [u|x]; [discriminate|injection H as <- _; intros [X|[]]; discriminate].
  - destruct (initiate_eos (eos_args c)) as [eos|x]; [|injection H as <- _; intros []].
    destruct (thermo eos (thermo_args c)) as [o|x]; [|injection H as <- _; intros []].
    destruct (let* t := dfetch (thermo_args c) "calculation_type" in let* _ := write_thermo (output_name (out_file c)) o t in Ok t) as [t|x];
      discriminate.
Qed.

(** ** C112: [run] with the arguments of its documentation, a file and a path, reads the input and fails, whatever it asks for *)
Theorem C112_documented_call_refuted : forall c, run (Ok c) None = ([], Err KeyError).
Proof. reflexivity. Qed.
End Runs.

(** ** C111: logging from the command line *)
(** a message of this level goes to the log file [name] *)
Definition to_file (name : string) (hs : list lhandler) : nat :=
  length (filter (fun h => match lh_file h with Some f => String.eqb f name | None => false end) hs).
Definition to_console (hs : list lhandler) : nat :=
  length (filter (fun h => match lh_file h with None => true | Some _ => false end) hs).
(** a new interpreter: no handlers *)
Definition fresh : loggers := {| root_handlers := []; own_handlers := []; own_level := 0 |}.

Theorem C111_log_file : forall a files name, a_log a = Some name ->
  exists l files', set_up fresh files a = Ok (l, files') /\
    (forall level, to_file name (written_by l level) = if Nat.leb (log_level (a_verbose a)) level then 1 else 0) /\
    (forall level other, other <> name -> to_file other (written_by l level) = 0) /\
    (forall f, f <> name -> (In f files' <-> In f files)) /\ In name files'.
Proof.
  intros a files name En. unfold set_up. rewrite En. cbn [fresh root_handlers own_handlers app].
  do 2 eexists. split; [reflexivity|]. split; [|split; [|split]].
  - intros level. unfold written_by. cbn [own_level own_handlers root_handlers].
    destruct (Nat.ltb_spec level (log_level (a_verbose a))) as [X|X].
    + destruct (Nat.leb_spec (log_level (a_verbose a)) level); [lia|reflexivity].
    + pose proof X as X'. apply Nat.leb_le in X'. rewrite X'.
      destruct (a_console a); cbn [app filter lh_level]; rewrite !X'; cbn [filter Nat.leb]; unfold to_file; cbn [filter lh_file];
        rewrite String.eqb_refl; reflexivity.
  - intros level other No. unfold written_by. cbn [own_level own_handlers root_handlers].
    destruct (Nat.ltb level (log_level (a_verbose a))); [reflexivity|].
    unfold to_file. destruct (a_console a); cbn [app filter lh_level];
      destruct (Nat.leb (log_level (a_verbose a)) level); cbn [filter Nat.leb lh_file];
      destruct (String.eqb_spec name other); try congruence; reflexivity.
  - intros f Nf. rewrite in_app_iff, filter_In. cbn. split.
    + intros [[H _]|[H|[]]]; [exact H|congruence].
    + intros H. left. split; [exact H|]. now destruct (String.eqb_spec f name).
  - apply in_app_iff. right. now left.
Qed.

(** Messages are printed on the console without "--console", and twice with it. *)
Theorem C111_console_refuted : forall a files name l files' level, a_log a = Some name ->
  set_up fresh files a = Ok (l, files') -> log_level (a_verbose a) <= level ->
  to_console (written_by l level) = if a_console a then 2 else 1.
Proof.
  intros a files name l files' level En H Hl. unfold set_up in H. rewrite En in H. cbn [fresh root_handlers own_handlers app] in H.
  injection H as <- _. unfold written_by. cbn [own_level own_handlers root_handlers].
  destruct (Nat.ltb_spec level (log_level (a_verbose a))); [lia|]. apply Nat.leb_le in Hl.
  unfold to_console. destruct (a_console a); cbn [app filter lh_level]; rewrite !Hl; reflexivity.
Qed.

(** "--log" without a name, which the parser accepts, ends the program with a TypeError. *)
Theorem C111_log_name_refuted : forall l files a, a_log a = parse_log LogBare -> set_up l files a = Err TypeError.
Proof. intros l files a E. unfold set_up. now rewrite E. Qed.

(** Whatever the verbosity, the log of a worker has nothing below a warning. *)
Theorem C111_workers_refuted : forall a files l files' name level, set_up fresh files a = Ok (l, files') ->
  written_by (worker_loggers name (worker_level l)) level = if Nat.leb 30 level then [{| lh_file := Some name; lh_level := 0 |}] else [].
Proof.
  intros a files l files' name level H. unfold set_up in H. destruct (a_log a); [|discriminate].
  cbn [fresh root_handlers own_handlers app] in H. injection H as <- _. unfold worker_level, worker_loggers, written_by.
  cbn [root_handlers fold_left lh_file own_level own_handlers app filter lh_level].
  destruct (Nat.ltb_spec level 30), (Nat.leb_spec 30 level); try lia; reflexivity.
Qed.

(** the names used without arguments *)
Theorem C111_default_names : forall a, a_input a = None -> input_name a = "input.json" /\ parse_log LogAbsent = Some "despasito.log".
Proof. intros a E. unfold input_name. now rewrite E. Qed.

(** ** Concrete cases *)
Definition case_data (opt : bool) : calc_data :=
  {| eos_args := [("beads", JList [])];
     thermo_args := if opt then [("optimization_parameters", JDict [("fit_bead", JStr "CH3"); ("fit_parameter_names", JStr "epsilon")]);
                                 ("nan_number", JAtom "7")]
                    else [("calculation_type", JStr "bubble_pressure")];
     exp_sets := if opt then [("A", [("eos_dict", JDict [("beads", JList [])]); ("nan_number", JAtom "1")])] else [];
     out_file := Some (JStr "out.txt") |}.

Example C109_case : run (fun d => Ok (length d)) (fun e d => Ok (e + length d)) (fun s d => Ok (length s)) (fun _ _ _ => Ok tt) (fun _ _ _ => Ok tt)
    (Ok (case_data false)) (Some true)
  = ([Calculated 1 [("calculation_type", JStr "bubble_pressure")] 2; WroteResult (JStr "out.txt") 2 (JStr "bubble_pressure"); StoppedWorkers], Ok tt).
Proof. reflexivity. Qed.
Example C109_fit_case : exists args,
  run (fun d => Ok (length d)) (fun e d => Ok (e + length d)) (fun s d => Ok (length s)) (fun _ _ _ => Ok tt) (fun _ _ _ => Ok tt)
    (Ok (case_data true)) (Some false)
  = ([Fitted [("A", ([("nan_number", JAtom "7")], 1))] args 1;
      WroteFit (JStr "out.txt") 1 (JStr "CH3", JList [JStr "epsilon"])], Ok tt).
Proof. eexists. reflexivity. Qed.
Example C110_case : exists evs,
  run (fun d => Ok (length d)) (fun e d => Ok (e + length d)) (fun s d => Ok (length s)) (fun _ _ _ => Err OSError) (fun _ _ _ => Ok tt)
    (Ok (case_data false)) (Some true) = (evs, Ok tt) /\ In (OnlyLogged 2) evs.
Proof. eexists. split; [reflexivity|]. cbn. auto. Qed.
Example C111_case : exists l files', set_up fresh ["despasito.log"; "x"]
    {| a_input := None; a_verbose := 3; a_log := parse_log LogAbsent; a_ncores := 4; a_path := "."; a_console := false |} = Ok (l, files') /\
  length (written_by l 10) = 2 /\ files' = ["x"; "despasito.log"].
Proof. do 2 eexists. split; [reflexivity|]. split; reflexivity. Qed.

Print Assumptions C109_calculation.
Print Assumptions C109_fit.
Print Assumptions C110_result_kept.
Print Assumptions C110_workers_stopped.
Print Assumptions C110_write_failure_refuted.
Print Assumptions C110_workers_refuted.
Print Assumptions C111_log_file.
Print Assumptions C111_console_refuted.
Print Assumptions C111_log_name_refuted.
Print Assumptions C111_workers_refuted.
Print Assumptions C111_default_names.
Print Assumptions C112_documented_call_refuted.
