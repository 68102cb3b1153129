(** C07-C11 and C64-C66: reading input files and writing results. *)
From Verif Require Import Base BaseFacts Num SortLib IOModel IOSpec IOProofs IOProofs2.
From Coq Require Import Ascii Permutation Sorted.
Open Scope nat_scope.

(** C07: every entry name has exactly one destination. *)
Theorem C07_one_destination k : exists d, goes_to k d /\ forall d', goes_to k d' -> d' = d.
Proof.
  destruct (destination_exists k) as [d H]. exists d. split; [exact H|].
  intros d' H'. exact (destination_unique k d' d H' H).
Qed.

(** C07: equation-of-state arguments.  An entry named eos_s (or eos, or a backend name)
    arrives under s unless another entry claims the same name; nothing else arrives. *)
Theorem C07_eos_arguments read_json path_join bead_data exp_file fname path kwargs r d0 :
  extract_calc_data read_json path_join bead_data exp_file fname path kwargs = Ok r ->
  read_json fname = Ok (JDict d0) -> NoDup (dkeys d0) ->
  (forall k v s, dget d0 k = Some v -> goes_to k (ToEos s) ->
     (forall k', In k' (dkeys d0) -> goes_to k' (ToEos s) -> k' = k) ->
     (k <> s -> In s ["numba"; "cython"; "python"]%string -> dget kwargs s = None) ->
     exists v', moved path_join path v v' /\ dget (eos_args r) s = Some v') /\
  (forall s v', dget (eos_args r) s = Some v' ->
     In s eos_base \/
     (In s ["numba"; "cython"; "python"]%string /\ dget kwargs s = Some v') \/
     exists k v, dget d0 k = Some v /\ moved path_join path v v' /\ goes_to k (ToEos s)).
Proof. exact (routing_eos read_json path_join bead_data exp_file fname path kwargs r d0). Qed.

(** C07: the libraries, the bead configuration and the output file.  Library names are looked up under the data path;
    without a bead configuration only a fit is accepted. *)
Theorem C07_libraries read_json path_join bead_data exp_file fname path kwargs r d0 :
  extract_calc_data read_json path_join bead_data exp_file fname path kwargs = Ok r ->
  read_json fname = Ok (JDict d0) ->
  (forall s, In s ["beads"; "molecular_composition"; "bead_library"; "cross_library"]%string -> ~ In ("eos_" ++ s)%string (dkeys d0)) ->
  (exists f lib, dget d0 "EOSgroup" = Some (JStr f) /\ read_json (path_join path f) = Ok lib /\
     dget (eos_args r) "bead_library" = Some lib) /\
  (dget d0 "EOScross" = None /\ dget (eos_args r) "cross_library" = None \/
   exists f lib, dget d0 "EOScross" = Some (JStr f) /\ read_json (path_join path f) = Ok lib /\
     dget (eos_args r) "cross_library" = Some lib) /\
  (dget d0 "bead_configuration" = None /\ In "optimization_parameters"%string (dkeys d0) /\
     dget (eos_args r) "beads" = None /\ dget (eos_args r) "molecular_composition" = None \/
   exists v v' names composition, dget d0 "bead_configuration" = Some v /\ moved path_join path v v' /\
     bead_data v' = Ok (names, composition) /\
     dget (eos_args r) "beads" = Some names /\ dget (eos_args r) "molecular_composition" = Some composition) /\
  (dget d0 "output_file" = None /\ out_file r = None \/
   exists v v', dget d0 "output_file" = Some v /\ moved path_join path v v' /\ out_file r = Some v').
Proof.
  intros H Hr Hown.
  assert (Ho : exists d, append_data_file_path path_join path d0 = Ok d /\ out_file r = dget d "output_file").
  { unfold extract_calc_data in H. rewrite Hr in H. cbn [rbind] in H.
    destruct (append_data_file_path path_join path d0) as [d|]; cbn [rbind] in H; [|discriminate]. exists d. split; [reflexivity|].
    destruct (eos_start read_json bead_data d) as [e0|]; cbn [rbind] in H; [|discriminate].
    destruct (fold_left route_entry d (e0, kwargs)) as [e1 t1]. destruct (fold_left move_backend backends (e1, t1)) as [e2 t2].
    destruct (dmem t2 "optimization_parameters").
    - destruct (process_param_fit_inputs bead_data exp_file t2) as [st|]; cbn [rbind] in H; [|discriminate].
      destruct (mapM _ (fst st)); cbn [rbind] in H; [|discriminate]. injection H as <-. reflexivity.
    - injection H as <-. reflexivity. }
  destruct Ho as (d' & Ed' & Eout).
  destruct (extract_shape read_json path_join bead_data exp_file fname path kwargs r H) as (d0' & d & eos0 & Hr' & Ed & Ee & Hargs & _).
  rewrite Hr in Hr'. injection Hr' as <-. rewrite Ed in Ed'. injection Ed' as <-.
  destruct (append_path_spec read_json path_join bead_data exp_file path d0 d Ed) as (Hk & Fw & Bw).
  assert (Keep : forall s, In s ["beads"; "molecular_composition"; "bead_library"; "cross_library"]%string -> dget (eos_args r) s = dget eos0 s).
  { intros s Hs. rewrite Hargs. destruct (fold_left route_entry d (eos0, kwargs)) as [e1 t1] eqn:E1.
    destruct (fold_move backends backends_nodup e1 t1) as [_ M]. rewrite M.
    assert (smem s backends = false) as -> by (cbn in Hs; intuition (subst; reflexivity)).
    change e1 with (fst (e1, t1)). rewrite <- E1. apply fold_route_eos_none. intros k Hk' Ht.
    assert (G : goes_to k (ToEos s)) by (apply goes_tgt; left; exact Ht). inversion G; subst.
    - apply (Hown s Hs). rewrite <- Hk. exact Hk'.
    - cbn in Hs. intuition discriminate.
    - cbn in Hs, H2. intuition (subst; discriminate). }
  assert (Lib : forall key, key = "EOSgroup"%string \/ key = "EOScross"%string ->
    (dget d0 key = None /\ dget d key = None) \/ (exists f, dget d0 key = Some (JStr f) /\ dget d key = Some (JStr (path_join path f)))).
  { unfold append_data_file_path in Ed.
    destruct (append_lib path_join path "EOSgroup" d0) as [d1|] eqn:E1; cbn [rbind] in Ed; [|discriminate].
    destruct (append_lib path_join path "EOScross" d1) as [d2|] eqn:E2; cbn [rbind] in Ed; [|discriminate].
    destruct (mapM_append read_json path_join bead_data exp_file path d2 d Ed) as (_ & G3 & G4).
    destruct (append_lib_spec path_join path _ _ _ E1) as [_ O1]. destruct (append_lib_spec path_join path _ _ _ E2) as [_ O2].
    assert (L : forall key da db, append_lib path_join path key da = Ok db ->
      (dget da key = None /\ dget db key = None) \/ (exists f, dget da key = Some (JStr f) /\ dget db key = Some (JStr (path_join path f)))).
    { intros key da db. unfold append_lib. destruct (dget da key) as [v|] eqn:Ev.
      - destruct v; cbn; try discriminate. intros X; injection X as <-. right. eexists. split; [reflexivity|]. apply dget_dset_same.
      - intros X; injection X as <-. left. auto. }
    assert (Last : forall key, (dget d2 key = None -> dget d key = None) /\ (forall f, dget d2 key = Some (JStr f) -> dget d key = Some (JStr f))).
    { intros key. split.
      - intros N. destruct (dget d key) as [v'|] eqn:Ev; [|reflexivity]. destruct (G4 key v' Ev) as (v & X & _). congruence.
      - intros f X. destruct (G3 key _ X) as (v' & Y & M). inversion M; subst. exact Y. }
    intros key [->| ->].
    - destruct (L _ _ _ E1) as [[A B]|(f & A & B)]; [left|right; exists f]; (split; [exact A|]).
      + apply Last. rewrite O2 by discriminate. exact B.
      + apply Last. rewrite O2 by discriminate. exact B.
    - rewrite <- (O1 "EOScross"%string) by discriminate. destruct (L _ _ _ E2) as [[A B]|(f & A & B)]; [left|right; exists f]; (split; [exact A|]); apply Last; exact B. }
  unfold eos_start in Ee.
  set (start := match dget d "bead_configuration" with Some _ => _ | None => _ end) in Ee.
  destruct start as [e0|] eqn:Es; cbn [rbind] in Ee; [|discriminate]. unfold start in Es. clear start.
  unfold dfetch in Ee. destruct (Lib "EOSgroup"%string (or_introl eq_refl)) as [[A B]|(f & A & B)]; rewrite B in Ee; cbn [rbind] in Ee; [discriminate|].
  destruct (read_json (path_join path f)) as [lib|] eqn:El; cbn [rbind] in Ee; [|discriminate].
  assert (Cross : (dget d0 "EOScross" = None /\ eos0 = dset e0 "bead_library" lib) \/
    exists c cross, dget d0 "EOScross" = Some (JStr c) /\ read_json (path_join path c) = Ok cross /\ eos0 = dset (dset e0 "bead_library" lib) "cross_library" cross).
  { destruct (Lib "EOScross"%string (or_intror eq_refl)) as [[C D]|(c & C & D)]; rewrite D in Ee.
    - left. injection Ee as <-. auto.
    - right. destruct (read_json (path_join path c)) as [cross|] eqn:Ec; cbn [rbind] in Ee; [|discriminate]. injection Ee as <-. eauto. }
  assert (Bd : (dget d0 "bead_configuration" = None /\ In "optimization_parameters"%string (dkeys d0) /\ e0 = []) \/
    exists v v' n c, dget d0 "bead_configuration" = Some v /\ moved path_join path v v' /\ bead_data v' = Ok (n, c) /\
      e0 = [("beads", n); ("molecular_composition", c)]%string).
  { destruct (dget d "bead_configuration") as [v'|] eqn:Ev.
    - destruct (Bw "bead_configuration"%string v') as (v & X & M); [discriminate|discriminate|exact Ev|].
      destruct (bead_data v') as [[n c]|] eqn:Eb; cbn [rbind fst snd] in Es; [|discriminate]. injection Es as <-. right. exists v, v', n, c. auto.
    - destruct (dmem d "optimization_parameters") eqn:Em; [|discriminate]. injection Es as <-. left.
      split; [destruct (dget d0 "bead_configuration") as [v|] eqn:X; [|reflexivity]; destruct (Fw "bead_configuration"%string v) as (v' & Y & _); [discriminate|discriminate|exact X|congruence]|].
      split; [|reflexivity]. rewrite <- Hk. apply dmem_dget in Em. destruct Em as [x Em].
      destruct (in_dec string_dec "optimization_parameters"%string (dkeys d)) as [I|N]; [exact I|]. apply dget_None in N. congruence. }
  split; [|split; [|split]].
  - exists f, lib. split; [exact A|]. split; [exact El|]. rewrite Keep by (cbn; tauto).
    destruct Cross as [[_ ->]|(c & cross & _ & _ & ->)]; [|rewrite dget_dset_other by discriminate]; apply dget_dset_same.
  - rewrite Keep by (cbn; tauto). destruct Cross as [[C ->]|(c & cross & C & D & ->)].
    + left. split; [exact C|]. rewrite dget_dset_other by discriminate. destruct Bd as [(_ & _ & ->)|(v & v' & n & c & _ & _ & _ & ->)]; reflexivity.
    + right. exists c, cross. split; [exact C|]. split; [exact D|]. apply dget_dset_same.
  - rewrite !Keep by (cbn; tauto).
    assert (Same : forall s, s = "beads"%string \/ s = "molecular_composition"%string -> dget eos0 s = dget e0 s).
    { intros s Hs. destruct Cross as [[_ ->]|(c & cross & _ & _ & ->)]; rewrite ?dget_dset_other; try reflexivity; destruct Hs as [->| ->]; discriminate. }
    rewrite !Same by tauto. destruct Bd as [(B1 & B2 & ->)|(v & v' & n & c & B1 & B2 & B3 & ->)]; [left; auto|right]. exists v, v', n, c. auto.
  - rewrite Eout. destruct (dget d0 "output_file") as [v|] eqn:Ev.
    + right. destruct (Fw "output_file"%string v) as (v' & X & M); [discriminate|discriminate|exact Ev|]. exists v, v'. auto.
    + left. split; [reflexivity|]. destruct (dget d "output_file") as [v'|] eqn:Ev'; [|reflexivity].
      destruct (Bw "output_file"%string v') as (v & X & _); [discriminate|discriminate|exact Ev'|congruence].
Qed.

(** C07: calculation arguments of a thermodynamic input. *)
Theorem C07_calculation_arguments read_json path_join bead_data exp_file fname path kwargs r d0 :
  extract_calc_data read_json path_join bead_data exp_file fname path kwargs = Ok r ->
  read_json fname = Ok (JDict d0) -> NoDup (dkeys d0) ->
  dget d0 "optimization_parameters" = None -> dget kwargs "optimization_parameters" = None ->
  (forall k v, dget d0 k = Some v -> goes_to k ToCalc ->
     exists v', moved path_join path v v' /\ dget (thermo_args r) k = Some v') /\
  (forall k v', dget (thermo_args r) k = Some v' ->
     (dget kwargs k = Some v' /\ ~ In k ["numba"; "cython"; "python"]%string) \/
     exists v, dget d0 k = Some v /\ moved path_join path v v' /\ goes_to k ToCalc) /\
  exp_sets r = [].
Proof. exact (routing_calc read_json path_join bead_data exp_file fname path kwargs r d0). Qed.

(** C07: a fitting input.  Data sets are separated from the other entries, and every data
    set gets the shared equation-of-state arguments it does not define itself. *)
Theorem C07_fitting_arguments read_json path_join bead_data exp_file fname path kwargs r d0 :
  extract_calc_data read_json path_join bead_data exp_file fname path kwargs = Ok r ->
  read_json fname = Ok (JDict d0) -> NoDup (dkeys d0) -> NoDup (dkeys kwargs) ->
  dmem d0 "optimization_parameters" = true ->
  (forall k v, dget d0 k = Some v -> goes_to k ToCalc -> ~ is_data_set v ->
     exists v', moved path_join path v v' /\ dget (thermo_args r) k = Some v' /\ dget (exp_sets r) k = None) /\
  (forall k v, dget d0 k = Some v -> goes_to k ToCalc -> is_data_set v ->
     exists v' m e e', moved path_join path v v' /\ v' = JDict m /\
       process_exp_data bead_data exp_file m = Ok e /\
       dget (exp_sets r) k = Some e' /\ dget (thermo_args r) k = None /\
       (forall x, x <> "eos_dict"%string -> dget e' x = dget e x) /\
       exists own shared, dget e' "eos_dict" = Some (JDict shared) /\
         (dget e "eos_dict" = None /\ own = [] \/ dget e "eos_dict" = Some (JDict own)) /\
         forall x, dget shared x = match dget own x with Some w => Some w | None => dget (eos_args r) x end).
Proof. exact (routing_fit read_json path_join bead_data exp_file fname path kwargs r d0). Qed.

(** C07: a data set holds what its entries add, in the order of the file; of two values for one name the last is kept. *)
Theorem C07_data_set bead_data exp_file m :
  (forall e, process_exp_data bead_data exp_file m = Ok e ->
     exists parts, Forall2 (adds bead_data exp_file) m parts /\ forall x, dget e x = dget (rev (concat parts)) x) /\
  (forall parts, Forall2 (adds bead_data exp_file) m parts -> exists e, process_exp_data bead_data exp_file m = Ok e).
Proof.
  assert (Up : forall f a x, dget (@dupdate json a f) x = match dget (rev f) x with Some v => Some v | None => dget a x end).
  { induction f as [|[k v] f IH]; intros a x; [reflexivity|]. unfold dupdate in *. cbn [fold_left rev fst snd]. rewrite IH.
    rewrite dget_app. destruct (dget (rev f) x); [reflexivity|]. cbn [dget]. destruct (String.eqb_spec x k) as [->|N].
    - rewrite dget_dset_same. rewrite ?String.eqb_refl. reflexivity.
    - rewrite dget_dset_other by congruence. destruct (String.eqb_spec k x); [congruence|reflexivity]. }
  assert (Step : forall acc kv acc1, exp_entry bead_data exp_file acc kv = Ok acc1 <->
            exists part, adds bead_data exp_file kv part /\ acc1 = dupdate acc part).
  { intros acc [k v] acc1. unfold exp_entry. split.
    - destruct (String.eqb_spec k "data_class_type") as [->|N1].
      { intros E. injection E as <-. exists [("data_class_type"%string, v)]. split; [apply adds_entry; discriminate|reflexivity]. }
      destruct (String.eqb_spec k "file") as [->|N2].
      { destruct (exp_file v) as [f|] eqn:Ef; cbn; [|discriminate]. intros E. injection E as <-. exists f. split; [apply adds_file; exact Ef|reflexivity]. }
      destruct (String.eqb_spec k "bead_configuration") as [->|N3].
      { destruct (bead_data v) as [[b c]|] eqn:Eb; cbn; [|discriminate]. intros E. injection E as <-. eexists. split; [apply adds_beads; exact Eb|reflexivity]. }
      intros E. injection E as <-. exists [(k, v)]. split; [apply adds_entry; assumption|reflexivity].
    - intros (part & A & ->). inversion A as [v0 f Ef|v0 b c Eb|k0 v0 N2 N3]; subst; cbn [String.eqb Ascii.eqb Bool.eqb].
      + rewrite Ef. reflexivity.
      + rewrite Eb. reflexivity.
      + destruct (String.eqb_spec k "data_class_type") as [->|N1]; [reflexivity|].
        destruct (String.eqb_spec k "file"); [contradiction|]. destruct (String.eqb_spec k "bead_configuration"); [contradiction|]. reflexivity. }
  assert (All : forall m acc,
    (forall e, foldM (exp_entry bead_data exp_file) acc m = Ok e ->
       exists parts, Forall2 (adds bead_data exp_file) m parts /\
         forall x, dget e x = match dget (rev (concat parts)) x with Some v => Some v | None => dget acc x end) /\
    (forall parts, Forall2 (adds bead_data exp_file) m parts -> exists e, foldM (exp_entry bead_data exp_file) acc m = Ok e)).
  { clear m. induction m as [|kv m IH]; intros acc; split.
    - intros e E. injection E as <-. exists []. split; [constructor|reflexivity].
    - intros parts _. exists acc. reflexivity.
    - intros e E. cbn in E. destruct (exp_entry bead_data exp_file acc kv) as [acc1|] eqn:E1; cbn in E; [|discriminate].
      apply Step in E1. destruct E1 as (part & A & ->). destruct (IH (dupdate acc part)) as [I _]. destruct (I e E) as (parts & F & G).
      exists (part :: parts). split; [constructor; assumption|]. intros x. rewrite G, Up. cbn [concat]. rewrite rev_app_distr, dget_app.
      destruct (dget (rev (concat parts)) x); reflexivity.
    - intros parts F. inversion F as [|? part ? rest A F']; subst. assert (E1 : exp_entry bead_data exp_file acc kv = Ok (dupdate acc part)) by (apply Step; eauto).
      cbn. rewrite E1. cbn. destruct (IH (dupdate acc part)) as [_ J]. eapply J; eassumption. }
  destruct (All m []) as [A B]. unfold process_exp_data. split; [|exact B].
  intros e E. destruct (A e E) as (parts & F & G). exists parts. split; [exact F|]. intros x. rewrite G. destruct (dget (rev (concat parts)) x); reflexivity.
Qed.
Example C07_data_set_case :
  process_exp_data (fun j => Ok (JList [j], JList [])) (fun _ => Ok [("T", JAtom "300"); ("delta", JAtom "1")]%string)
    [("data_class_type", JStr "TLVE"); ("file", JStr "d.csv"); ("bead_configuration", JStr "b"); ("delta", JAtom "2")]%string
  = Ok [("data_class_type", JStr "TLVE"); ("T", JAtom "300"); ("delta", JAtom "2");
        ("eos_dict", JDict [("beads", JList [JStr "b"]); ("molecular_composition", JList [])])]%string.
Proof. reflexivity. Qed.

(** A concrete input file. *)
Definition ex_read (f : string) : result json :=
  if String.eqb f "in.json" then Ok (JDict
    [("bead_configuration", JList []); ("EOSgroup", JStr "lib"); ("calculation_type", JStr "flash");
     ("eos_num_rings", JAtom "2"); ("eos", JStr "saft.gamma_mie"); ("numba", JAtom "true");
     ("set", JDict [("file", JStr "d.csv")])]%string)
  else if String.eqb f "p/lib" then Ok (JDict []) else Err OSError.
Definition ex_join (a b : string) : string := (a ++ "/" ++ b)%string.
Definition ex_beads (j : json) : result (json * json) := Ok (JList [JStr "CH3"%string], JList [j]).
Definition ex_exp (j : json) : result (dict json) := Ok [].
Example C07_case :
  extract_calc_data ex_read ex_join ex_beads ex_exp "in.json" "p" [("threads", JAtom "1")]%string = Ok
    {| eos_args := [("beads", JList [JStr "CH3"]); ("molecular_composition", JList [JList []]); ("bead_library", JDict []);
                    ("num_rings", JAtom "2"); ("eos", JStr "saft.gamma_mie"); ("numba", JAtom "true")]%string;
       thermo_args := [("threads", JAtom "1"); ("calculation_type", JStr "flash");
                       ("set", JDict [("file", JStr "p/d.csv")])]%string;
       exp_sets := []; out_file := None |}.
Proof. reflexivity. Qed.

(** The exception in C07 is real: with both eos and eos_eos present one of them is lost. *)
Theorem C07_same_name_lost : forall kwargs eos0,
  dget (fst (fold_left route_entry [("eos", JStr "a"); ("eos_eos", JStr "b")]%string (eos0, kwargs))) "eos" = Some (JStr "b").
Proof. intros kwargs eos0. cbn. rewrite BaseFacts.dget_dset_same. reflexivity. Qed.

(** C08, proved part: sorted distinct names; each entry is the number of beads, when no
    component names a bead twice. *)
Theorem C08_bead_matrix_partial comps beads M :
  process_bead_data comps = (beads, M) ->
  (forall c, In c comps -> NoDup (map fst c)) ->
  NoDup beads /\ StronglySorted (fun a b => String.leb a b = true) beads /\
  (forall b, In b beads <-> exists c q, In c comps /\ In (b, q) c) /\
  length M = length comps /\
  forall i c row, nth_error comps i = Some c -> nth_error M i = Some row ->
    length row = length beads /\
    forall k b, nth_error beads k = Some b ->
      exists q, nth_error row k = Some q /\ (q == count_bead b c)%Q.
Proof. exact (bead_data_spec comps beads M). Qed.

Example C08_case :
  process_bead_data [[("CH3", 2); ("CH2", 4)]; [("H2O", 1)]]%string%Q =
    (["CH2"; "CH3"; "H2O"]%string, [[4; 2; 0]; [0; 0; 1]]%Q).
Proof. reflexivity. Qed.

(** C08 is false when a component lists a bead twice: CH3, CH2, CH3 counts one CH3. *)
Theorem C08_repeated_bead_refuted :
  let c := [("CH3", 1); ("CH2", 1); ("CH3", 1)]%string%Q in
  process_bead_data [c] = (["CH2"; "CH3"]%string, [[1; 1]]%Q) /\ (count_bead "CH3" c == 2)%Q.
Proof. split; reflexivity. Qed.

(** C09, proved part: a file with other than one data row.  Columns whose header begins
    with x, y or z are grouped in file order, row per data point; the others keep their name. *)
Theorem C09_own_columns_partial names rows j k :
  NoDup names -> length rows <> 1 -> nth_error names j = Some k -> phase_letter k = false ->
  dget (process_exp_table names rows) k = Some (A1 (map (fun r => nth j r NaN) rows)).
Proof. exact (exp_own_column names rows j k). Qed.

Theorem C09_mole_fractions_partial names rows c :
  In c ["x"; "y"; "z"]%char -> length rows <> 1 ->
  dget (process_exp_table names rows) (String c "i") =
  match phase_idx c names with
  | [] => None
  | idx => Some (A2 (map (fun r => map (fun j => nth j r NaN) idx) rows))
  end.
Proof. exact (exp_phase_column names rows c). Qed.

Example C09_case :
  process_exp_table ["T"; "x1"; "x2"]%string [[Fin 300; Fin (1#4); Fin (3#4)]; [Fin 310; Fin (1#2); Fin (1#2)]] =
    [("T", A1 [Fin 300; Fin 310]); ("xi", A2 [[Fin (1#4); Fin (3#4)]; [Fin (1#2); Fin (1#2)]])]%string.
Proof. reflexivity. Qed.

(** C09 fails for a file with one data row: the mole fractions become a one-dimensional
    array, which a caller reads as two data points. *)
Theorem C09_single_row_refuted :
  process_exp_table ["T"; "x1"; "x2"]%string [[Fin 300; Fin (1#4); Fin (3#4)]] =
    [("T", A0 (Fin 300)); ("xi", A1 [Fin (1#4); Fin (3#4)])]%string.
Proof. reflexivity. Qed.

(** C09 fails for a column that merely begins with x, y or z: it is filed as a mole fraction. *)
Theorem C09_foreign_column_refuted :
  let d := process_exp_table ["yield"; "y1"]%string [[Fin 7; Fin (1#4)]; [Fin 8; Fin (1#2)]] in
  dget d "yield" = None /\ dget d "yi" = Some (A2 [[Fin 7; Fin (1#4)]; [Fin 8; Fin (1#2)]]).
Proof. split; reflexivity. Qed.

(** C10, proved part: beads kept, parameters kept and sorted without regard to case. *)
Theorem C10_parameters_saved {V} (lib : dict (dict V)) :
  dkeys (write_EOSparameters lib) = dkeys lib /\
  forall b d, dget lib b = Some d ->
    exists d', dget (write_EOSparameters lib) b = Some d' /\ Permutation d d' /\
      (NoDup (dkeys d) -> forall k, dget d' k = dget d k) /\
      StronglySorted (fun p q => String.leb (lower (fst p)) (lower (fst q)) = true) d'.
Proof. exact (write_params_spec lib). Qed.

(** C10: the file does not depend on the order in which a bead's parameters were inserted,
    when no two of its names differ only by case. *)
Theorem C10_insertion_order_partial {V} (lib1 lib2 : dict (dict V)) :
  Forall2 (fun p q => fst p = fst q /\ Permutation (snd p) (snd q) /\
                      NoDup (map (fun kv => lower (fst kv)) (snd p))) lib1 lib2 ->
  write_EOSparameters lib1 = write_EOSparameters lib2.
Proof. exact (write_params_canonical lib1 lib2). Qed.

(** C10 as stated is false: the beads themselves stay in insertion order, and so do
    parameter names that differ only by case. *)
Theorem C10_bead_order_refuted :
  let a := ("A", [("sigma", 1)])%string in let b := ("B", [("sigma", 2)])%string in
  Permutation [a; b] [b; a] /\ write_EOSparameters [a; b] <> write_EOSparameters [b; a].
Proof. split; [apply perm_swap|discriminate]. Qed.
Theorem C10_case_collision_refuted :
  let p := ("mass", 1)%string in let q := ("Mass", 2)%string in
  Permutation [p; q] [q; p] /\
  write_EOSparameters [("A", [p; q])]%string <> write_EOSparameters [("A", [q; p])]%string.
Proof. split; [apply perm_swap|discriminate]. Qed.

Example C10_case :
  write_EOSparameters [("A", [("sigma", 1); ("Epsilon", 2); ("mass", 3)])]%string =
    [("A", [("Epsilon", 2); ("mass", 3); ("sigma", 1)])]%string.
Proof. reflexivity. Qed.

(** C11: the table. *)
Theorem C11_result_table n d calctype :
  0 < n -> d <> [] ->
  (forall k v, In (k, v) d -> scalars n v \/ exists m, 0 < m /\ shaped n m v) ->
  exists t, writeout_thermo_dict d calctype = Ok t /\
    header t = flat_map (fun kv => names_of (fst kv) (snd kv)) d /\
    length (body t) = n /\
    forall p row, nth_error (body t) p = Some row ->
      row = flat_map (fun kv => value_at (snd kv) p) d /\ length row = length (header t).
Proof. exact (writeout_spec n d calctype). Qed.

(** C11: when one point of a vector result has another length (for example the fixed
    two-entry NaN filler of a failed vapour fugacity in a three-component system) no table
    is written at all. *)
Theorem C11_ragged_refused k v0 rest d calctype i l :
  1 < length v0 -> nth_error rest i = Some (C1 l) -> length l <> length v0 ->
  exists e, writeout_thermo_dict ((k, C1 v0 :: rest) :: d) calctype = Err e.
Proof. exact (ragged_refused k v0 rest d calctype i l). Qed.

Example C11_case :
  writeout_thermo_dict [("T", [C0 (Fin 300); C0 (Fin 310)]); ("yi", [C1 [Fin 1; Fin 2]; C1 [NaN; NaN]])]%string "flash" =
  Ok {| comment := "# This data was generated in DESPASITO using the thermodynamic ";
        header := ["T [K]"; "yi1"; "yi2"]%string; body := [[Fin 300; Fin 1; Fin 2]; [Fin 310; NaN; NaN]] |}.
Proof. reflexivity. Qed.

(** C64, proved part: without fit_bead or fit_parameter_names a fitting input is refused. *)
Theorem C64_missing_names_partial bead_data exp_file thermo st od :
  foldM (fit_entry bead_data exp_file) ([], []) thermo = Ok st ->
  dget (snd st) "optimization_parameters" = Some (JDict od) ->
  (process_param_fit_inputs bead_data exp_file thermo = Err ValueError <->
   dget od "fit_bead" = None \/ dget od "fit_parameter_names" = None).
Proof.
  intros Hf Ho. unfold process_param_fit_inputs. rewrite Hf. cbn [rbind]. unfold dfetch. rewrite Ho. cbn [rbind].
  unfold dmem. destruct (dget od "fit_bead"), (dget od "fit_parameter_names"); cbn; split; intros H;
    try discriminate; try reflexivity; try tauto; destruct H; discriminate.
Qed.

(** C64 is false for the data sets: an input with none is accepted. *)
Theorem C64_no_data_refuted bead_data exp_file :
  let o := ("optimization_parameters", JDict [("fit_bead", JStr "CO2"); ("fit_parameter_names", JList [])])%string in
  process_param_fit_inputs bead_data exp_file [o] = Ok ([], [o]).
Proof. reflexivity. Qed.

(** C65 is false: the first line of the table does not depend on the calculation type. *)
Theorem C65_calculation_type_missing_refuted d t1 t2 c1 c2 :
  writeout_thermo_dict d c1 = Ok t1 -> writeout_thermo_dict d c2 = Ok t2 -> t1 = t2.
Proof. unfold writeout_thermo_dict, comment_line. intros H1 H2. rewrite H1 in H2. injection H2 as ->. reflexivity. Qed.
Example C65_case : exists t, writeout_thermo_dict [("T", [C0 (Fin 1)])]%string "flash" = Ok t.
Proof. eexists; reflexivity. Qed.

(** C66: the fit report pairs each name with its value, in order. *)
Theorem C66_fit_report names vals :
  length names = length vals -> fit_lines names vals = Ok (combine names vals).
Proof. exact (fit_lines_ok names vals). Qed.
Theorem C66_fit_report_short names vals : length vals < length names -> fit_lines names vals = Err IndexError.
Proof. exact (fit_lines_short names vals). Qed.
Example C66_case : fit_lines ["epsilon"; "sigma"]%string [Fin 300; Fin 1] = Ok [("epsilon", Fin 300); ("sigma", Fin 1)]%string.
Proof. reflexivity. Qed.

Print Assumptions C07_one_destination.
Print Assumptions C07_eos_arguments.
Print Assumptions C07_calculation_arguments.
Print Assumptions C07_fitting_arguments.
Print Assumptions C07_libraries.
Print Assumptions C07_data_set.
Print Assumptions C08_bead_matrix_partial.
Print Assumptions C09_own_columns_partial.
Print Assumptions C09_mole_fractions_partial.
Print Assumptions C10_parameters_saved.
Print Assumptions C10_insertion_order_partial.
Print Assumptions C11_result_table.
Print Assumptions C11_ragged_refused.
Print Assumptions C64_missing_names_partial.
Print Assumptions C66_fit_report.
