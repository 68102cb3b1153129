(** What a fit does to the dictionaries of its caller (C60), and whether the options and weights given
    with a data set reach its calculations (C81).

    Readable from here: [world] holds the caller's three dictionaries; [fit] returns them as the call
    leaves them, with the outcome.  [finish], [check], [guess] and [minimise] stand for the remaining
    checks of the data sets, the equation of state and the optimiser. *)
From Verif Require Import Base BaseFacts Num NumFacts ToolboxModel ToolboxSpec ToolboxProofs ToolboxProps EosToolboxModel CalcTypesProofs FitSetupModel FitRunModel.
Open Scope nat_scope.
Open Scope string_scope.

(** ** C60 *)
Section Fit.
  Variable finish : data_class -> dict val -> result (nat * string).
  Variable check : string -> num * num -> result (num * num).
  Variable guess : string -> list string -> result num.
  Variable minimise : string -> list num -> list (num * num) -> string -> list string -> list instance -> dict val -> result (list num * num).
  Let run := fit finish check guess minimise.

  Lemma ddel_absent {A} (d : dict A) k : dget d k = None -> ddel d k = d.
  Proof.
    induction d as [|[a v] d IH]; cbn; [reflexivity|].
    destruct (String.eqb k a); [discriminate|]. intros H. rewrite IH by exact H. reflexivity.
  Qed.

  Lemma map_pair_id {A B} (l : list (A * B)) : map (fun kd => (fst kd, snd kd)) l = l.
  Proof. induction l as [|[a b] l IH]; cbn; [reflexivity|]. now rewrite IH. Qed.

  Lemma add_shared_none w : add_shared None [] w = w.
  Proof. destruct w as [o e g]. unfold add_shared. cbn. f_equal. apply map_pair_id. Qed.

  (** no data set of the list comes with weights *)
  Definition no_weights (l : list (string * dict val)) :=
    forall k d, In (k, d) l -> dget d "weights" = None.

  Lemma build_all_exp todo exp : no_weights todo -> fst (build_all finish todo exp) = exp.
  Proof.
    revert exp. induction todo as [|[k d] todo IH]; intros exp H; cbn [build_all]; [reflexivity|].
    destruct (dget d "data_class_type") as [ty|]; [|reflexivity].
    destruct (match ty with VStr s => class_of s | _ => None end) as [c|]; [|reflexivity].
    destruct (construct finish c d) as [w r].
    rewrite (H k d (or_introl eq_refl)). destruct r as [i|e]; [|reflexivity].
    specialize (IH exp (fun k d Hi => H k d (or_intror Hi))).
    destruct (build_all finish todo exp) as [e2 r2]. exact IH.
  Qed.

  (** C60, the part that holds: when the parameter names come as a list, no multiprocessing object and no
      further keywords are passed, global_opts names no method and no data set has weights, a fit leaves
      all three dictionaries as they were, whatever happens in it, so running it again does the same. *)
Theorem C60_unchanged_partial : forall w,
    (forall s, dget (w_opt w) "fit_parameter_names" <> Some (OStr s)) ->
    no_weights (w_exp w) ->
    dget (w_glob w) "method" = None ->
    fst (run None [] w) = w /\
    run None [] (fst (run None [] w)) = run None [] w.
  Proof.
    intros w Hn Hw Hm.
    assert (E : fst (run None [] w) = w).
    { unfold run, fit. rewrite add_shared_none.
      pose proof (build_all_exp (w_exp w) (w_exp w) Hw) as HB.
      pose proof (ddel_absent (w_glob w) "method" Hm) as HD.
      destruct w as [o e g]. cbn [w_opt w_exp w_glob] in *.
      destruct (dget o "fit_parameter_names") as [[l|s|l|]|] eqn:En; try reflexivity.
      2: { exfalso. exact (Hn s eq_refl). }
      destruct (consolidate_bounds o) as [[bs o']|x]; [|reflexivity].
      destruct e as [|[k0 d0] e']; [reflexivity|].
      destruct (dget d0 "eos_obj"); [|reflexivity].
      destruct (check_parameter_bounds check l bs); [|reflexivity].
      match goal with |- context [match ?s with Ok start => _ | Err e => _ end] => destruct s; [|reflexivity] end.
      destruct (build_all finish ((k0, d0) :: e') ((k0, d0) :: e')) as [ex built]. cbn [fst] in HB. subst ex.
      destruct built; [|reflexivity]. rewrite HD.
      match goal with |- context [match minimise ?a ?b ?c ?d ?e ?f ?g with _ => _ end] => destruct (minimise a b c d e f g) end; reflexivity. }
    split; [exact E|]. rewrite E. reflexivity.
  Qed.

  Lemma add_shared_get_glob mpo kwargs w k :
    k <> "MultiprocessingObject" -> dget (w_glob (add_shared mpo kwargs w)) k = dget (w_glob w) k.
  Proof. intros H. unfold add_shared. cbn. destruct mpo; [|reflexivity]. apply dget_dset_other. congruence. Qed.

  (** what a completed fit did *)
  Lemma run_ok mpo kwargs w w' r : run mpo kwargs w = (w', Ok r) ->
    exists start bounds bead l data,
      w_glob w' = ddel (w_glob (add_shared mpo kwargs w)) "method" /\
      minimise (match dget (w_glob w) "method" with Some (VStr m) => m | Some _ => "" | None => "differential_evolution" end)
        start bounds bead l data (w_glob w') = Ok r /\
      (dget (w_opt w') "fit_parameter_names" = Some (ONames l)).
  Proof.
    unfold run, fit. set (w1 := add_shared mpo kwargs w).
    assert (HG : dget (w_glob w1) "method" = dget (w_glob w) "method") by (apply add_shared_get_glob; discriminate).
    clearbody w1. destruct w1 as [o e g]. cbn [w_opt w_exp w_glob] in *.
    assert (forall l opt, dget opt "fit_parameter_names" = Some (ONames l) -> forall x,
      match consolidate_bounds opt with
      | Ok (bs, opt') =>
        match e with
        | [] => ({| w_opt := opt; w_exp := e; w_glob := g |}, Err IndexError)
        | (_, d0) :: _ =>
          match dget d0 "eos_obj" with
          | Some _ =>
            match check_parameter_bounds check l bs with
            | Ok bounds =>
              match match dget opt' "parameters_guess" with
                    | Some (ONums g) => if Nat.eqb (length g) (length l) then Ok g else Err ValueError
                    | Some _ => Err TypeError
                    | None => initial_guess guess (match dget opt "fit_bead" with Some (OStr b) => b | _ => "" end) l end with
              | Ok start =>
                let (exp, built) := build_all finish e e in
                match built with
                | Ok data =>
                    match minimise (match dget g "method" with Some (VStr m) => m | Some _ => "" | None => "differential_evolution" end) start bounds
                            (match dget opt "fit_bead" with Some (OStr b) => b | _ => "" end) l data (ddel g "method") with
                    | Ok r => ({| w_opt := opt; w_exp := exp; w_glob := ddel g "method" |}, Ok r)
                    | Err _ => ({| w_opt := opt; w_exp := exp; w_glob := ddel g "method" |}, Err TypeError)
                    end
                | Err e => ({| w_opt := opt; w_exp := exp; w_glob := g |}, Err e)
                end
              | Err x => ({| w_opt := opt; w_exp := e; w_glob := g |}, Err x)
              end
            | Err x => ({| w_opt := opt; w_exp := e; w_glob := g |}, Err x)
            end
          | None => ({| w_opt := opt; w_exp := e; w_glob := g |}, Err KeyError)
          end
        end
      | Err x => ({| w_opt := opt; w_exp := e; w_glob := g |}, Err x)
      end = (w', Ok x) -> exists start bounds bead l data,
      w_glob w' = ddel g "method" /\
      minimise (match dget (w_glob w) "method" with Some (VStr m) => m | Some _ => "" | None => "differential_evolution" end)
        start bounds bead l data (w_glob w') = Ok x /\
      (dget (w_opt w') "fit_parameter_names" = Some (ONames l))) as G.
    { intros l opt Hl x. destruct (consolidate_bounds opt) as [[bs o']|]; [|discriminate].
      destruct e as [|[k0 d0] e']; [discriminate|].
      destruct (dget d0 "eos_obj"); [|discriminate].
      destruct (check_parameter_bounds check l bs) as [bounds|]; [|discriminate].
      match goal with |- context [match ?s with Ok start => _ | Err e => _ end] => destruct s as [start|]; [|discriminate] end.
      destruct (build_all finish ((k0, d0) :: e') ((k0, d0) :: e')) as [ex built].
      destruct built as [data|]; [|discriminate]. rewrite HG.
      match goal with |- context [match minimise ?a ?b ?c ?d ?e ?f ?g with _ => _ end] => destruct (minimise a b c d e f g) eqn:Em end; [|discriminate].
      intros H. injection H as <- <-. cbn [w_glob w_opt]. do 5 eexists. repeat split; [exact Em|exact Hl]. }
    destruct (dget o "fit_parameter_names") as [[l|s|l|]|] eqn:En; try discriminate; intros H.
    - exact (G l o En r H).
    - exact (G [s] (dset o "fit_parameter_names" (ONames [s])) (dget_dset_same _ _ _) r H).
  Qed.

  (** C60 fails: a completed fit removes the method from the caller's global options, so the next fit
      with the same dictionaries runs the default method instead. *)
Theorem C60_method_lost_refuted : forall mpo kwargs mpo2 kwargs2 w w' r,
    run mpo kwargs w = (w', Ok r) ->
    dget (w_glob w') "method" = None /\
    forall w'' r', run mpo2 kwargs2 w' = (w'', Ok r') ->
      exists start bounds bead l data, minimise "differential_evolution" start bounds bead l data (w_glob w'') = Ok r'.
  Proof.
    intros mpo kwargs mpo2 kwargs2 w w' r H. pose proof (run_ok _ _ _ _ _ H) as (s & b & bd & l & da & E & _).
    assert (N : dget (w_glob w') "method" = None) by (rewrite E; apply dget_ddel_same).
    split; [exact N|]. intros w'' r' H'. pose proof (run_ok _ _ _ _ _ H') as (s2 & b2 & bd2 & l2 & da2 & E2 & M & _).
    rewrite N in M. do 5 eexists. exact M.
  Qed.

  (** C60 fails: the multiprocessing object of one fit stays in the caller's global options; the optimiser
      of a later fit that is given none still receives the old one. *)
Theorem C60_multiprocessing_kept_refuted : forall m kwargs kwargs2 w w' r,
    run (Some m) kwargs w = (w', Ok r) ->
    dget (w_glob w') "MultiprocessingObject" = Some m /\
    forall w'' r', run None kwargs2 w' = (w'', Ok r') ->
      exists method start bounds bead l data g,
        minimise method start bounds bead l data g = Ok r' /\ dget g "MultiprocessingObject" = Some m.
  Proof.
    intros m kwargs kwargs2 w w' r H. pose proof (run_ok _ _ _ _ _ H) as (s & b & bd & l & da & E & _).
    assert (N : dget (w_glob w') "MultiprocessingObject" = Some m).
    { rewrite E, dget_ddel_other by discriminate. unfold add_shared. cbn. apply dget_dset_same. }
    split; [exact N|]. intros w'' r' H'. pose proof (run_ok _ _ _ _ _ H') as (s2 & b2 & bd2 & l2 & da2 & E2 & M & _).
    do 7 eexists. split; [exact M|]. rewrite E2, dget_ddel_other by discriminate. exact N.
  Qed.

  (** C60 fails: a single parameter name given as a string is a list of one name afterwards. *)
Theorem C60_names_refuted : forall mpo kwargs w w' r s,
    dget (w_opt w) "fit_parameter_names" = Some (OStr s) ->
    run mpo kwargs w = (w', Ok r) ->
    dget (w_opt w') "fit_parameter_names" <> dget (w_opt w) "fit_parameter_names".
  Proof.
    intros mpo kwargs w w' r s Hs H. pose proof (run_ok _ _ _ _ _ H) as (? & b & bd & l & da & _ & _ & N).
    rewrite N, Hs. discriminate.
  Qed.
End Fit.
Print Assumptions C60_unchanged_partial.
Print Assumptions C60_method_lost_refuted.
Print Assumptions C60_multiprocessing_kept_refuted.
Print Assumptions C60_names_refuted.

(** A small instance: the data sets have 2 points, the optimiser returns its own name's length as objective. *)
Definition ex_finish (c : data_class) (d : dict val) : result (nat * string) := Ok (2, "").
Definition ex_check (p : string) (b : num * num) : result (num * num) := Ok b.
Definition ex_guess (p : string) (l : list string) : result num := Ok (Fin 1).
Definition ex_min (m : string) (s : list num) (b : list (num * num)) (bead : string) (l : list string) (d : list instance) (g : dict val)
  : result (list num * num) := Ok (s, Fin (inject_Z (Z.of_nat (String.length m)))).
Definition ex_world (weights : list (string * val)) (glob : dict val) : world :=
  {| w_opt := [("fit_bead", OStr "CH3"); ("fit_parameter_names", ONames ["epsilon"])];
     w_exp := [("Knapp", ("data_class_type", VStr "liquid_density") :: ("eos_obj", VObj 0) :: ("rhol", VObj 1) :: weights)];
     w_glob := glob |}.

Example C60_example :
  (* the same call twice gives two different optimisations *)
  (let r1 := fit ex_finish ex_check ex_guess ex_min None [] (ex_world [] [("method", VStr "basinhopping")]) in
   let r2 := fit ex_finish ex_check ex_guess ex_min None [] (fst r1) in
   snd r1 = Ok ([Fin 1], Fin 12) /\ snd r2 = Ok ([Fin 1], Fin 22)) /\
  (* and the hypotheses of the positive part are met by a complete fit *)
  (no_weights (w_exp (ex_world [] [])) /\ snd (fit ex_finish ex_check ex_guess ex_min None [] (ex_world [] [])) = Ok ([Fin 1], Fin 22)).
Proof.
  split; [split; vm_compute; reflexivity|split; [|vm_compute; reflexivity]].
  intros k d [H|[]]. injection H as <- <-. reflexivity.
Qed.

(** C60 fails: the weights dictionary of the caller is completed with ones. *)
Theorem C60_weights_refuted : exists finish check guess minimise w w' r,
  fit finish check guess minimise None [] w = (w', Ok r) /\
  dget (w_glob w) "method" = None /\
  exists d d', dget (w_exp w) "Knapp" = Some d /\ dget (w_exp w') "Knapp" = Some d' /\
    dget d "weights" = Some (VWeights []) /\
    dget d' "weights" = Some (VWeights [("rhol", Scalar (Fin 1)); ("phil", Scalar (Fin 1))]).
Proof.
  exists ex_finish, ex_check, ex_guess, ex_min, (ex_world [("weights", VWeights [])] []).
  eexists. eexists. split; [vm_compute; reflexivity|]. split; [reflexivity|].
  eexists. eexists. split; [reflexivity|]. split; [vm_compute; reflexivity|]. split; reflexivity.
Qed.
Print Assumptions C60_weights_refuted.

Lemma fit_exp finish check guess minimise mpo kwargs w :
  no_weights (w_exp (add_shared mpo kwargs w)) ->
  w_exp (fst (fit finish check guess minimise mpo kwargs w)) = w_exp (add_shared mpo kwargs w).
Proof.
  unfold fit. set (w1 := add_shared mpo kwargs w). clearbody w1. intros HW.
  pose proof (build_all_exp finish (w_exp w1) (w_exp w1) HW) as HB.
  destruct w1 as [o e g]. cbn [w_opt w_exp w_glob] in *.
  assert (HF : fst (build_all finish e e) = e) by exact HB. clear HB HW.
  destruct (dget o "fit_parameter_names") as [[l|s|l|]|]; try reflexivity;
  (match goal with |- context [consolidate_bounds ?o] => destruct (consolidate_bounds o) as [[bs o']|]; [|reflexivity] end);
  (destruct e as [|[k0 d0] e']; [reflexivity|]);
  (destruct (dget d0 "eos_obj"); [|reflexivity]);
  (match goal with |- context [check_parameter_bounds ?a ?b ?c] => destruct (check_parameter_bounds a b c); [|reflexivity] end);
  (match goal with |- context [match ?s with Ok start => _ | Err e => _ end] => destruct s; [|reflexivity] end);
  (destruct (build_all finish ((k0, d0) :: e') ((k0, d0) :: e')) as [ex built]; cbn [fst] in HF; subst ex);
  (destruct built; [|reflexivity]);
  (match goal with |- context [match minimise ?a ?b ?c ?d ?e ?f ?g with _ => _ end] => destruct (minimise a b c d e f g) end; reflexivity).
Qed.

(** C60 fails: a keyword passed to one fit is stored in the data sets and wins over a different value
    passed to a later fit. *)
Theorem C60_keywords_kept_refuted : forall finish check guess minimise k v v2 w key d,
  k <> "weights" -> no_weights (w_exp w) ->
  dget (w_exp w) key = Some d -> dget d k = None ->
  let w1 := fst (fit finish check guess minimise None [(k, v)] w) in
  let w2 := fst (fit finish check guess minimise None [(k, v2)] w1) in
  exists d2, dget (w_exp w2) key = Some d2 /\ dget d2 k = Some v.
Proof.
  intros finish check guess minimise k v v2 w key d Hk Hw Hd Hn. cbn zeta.
  pose (put := fun (x : val) (d : dict val) => if dmem d k then d else dset d k x).
  assert (forall x w, w_exp (add_shared None [(k, x)] w) = map (fun kd => (fst kd, put x (snd kd))) (w_exp w)) as EA by (intros; reflexivity).
  assert (forall x e, no_weights e -> no_weights (map (fun kd => (fst kd, put x (snd kd))) e)) as NW.
  { intros x e H a b Hi. apply in_map_iff in Hi. destruct Hi as ([a' b'] & E & Hi). cbn in E. injection E as <- <-.
    unfold put. destruct (dmem b' k); [apply (H a' b' Hi)|]. rewrite dget_dset_other by congruence. apply (H a' b' Hi). }
  assert (forall (f : dict val -> dict val) (e : dict (dict val)) x, dget e key = Some x -> dget (map (fun kd => (fst kd, f (snd kd))) e) key = Some (f x)) as GM.
  { intros f e x. induction e as [|[a b] e IH]; cbn; [discriminate|]. destruct (String.eqb key a); [|exact IH]. intros H. injection H as <-. reflexivity. }
  assert (E1 : w_exp (fst (fit finish check guess minimise None [(k, v)] w)) = map (fun kd => (fst kd, put v (snd kd))) (w_exp w)).
  { rewrite fit_exp; [apply EA|]. rewrite EA. apply NW, Hw. }
  rewrite fit_exp by (rewrite EA, E1; apply NW, NW, Hw). rewrite EA, E1.
  exists (put v2 (put v d)). split; [exact (GM (put v2) _ _ (GM (put v) _ _ Hd))|].
  unfold put at 2. unfold dmem at 1. rewrite Hn. unfold put, dmem. rewrite dget_dset_same. apply dget_dset_same.
Qed.
Print Assumptions C60_keywords_kept_refuted.

(** ** C81 *)
(** Defaults of the density search of a data set, from the documentation of the classes. *)
Definition documented_default (c : data_class) (k : string) : option num :=
  match c with
  | LiquidDensity | Flash =>
      if String.eqb k "min_density_fraction" then Some (Fin (1 # 300000))
      else if String.eqb k "density_increment" then Some (Fin 10)
      else if String.eqb k "max_volume_increment" then Some (Fin (1 # 10000)) else None
  | Saturation =>
      if String.eqb k "min_density_fraction" then Some (Fin (1 # 80000))
      else if String.eqb k "density_increment" then Some (Fin 10)
      else if String.eqb k "max_volume_increment" then Some (Fin (1 # 10000)) else None
  | TLVE | Solubility => None
  end.

Lemma density_default_get q k : dget (density_defaults q) k =
  (if String.eqb k "min_density_fraction" then Some (Fin q)
   else if String.eqb k "density_increment" then Some (Fin 10)
   else if String.eqb k "max_volume_increment" then Some (Fin (1 # 10000)) else None).
Proof. reflexivity. Qed.

(** C81: in every data class but TLVE, each density option given with the data set reaches the
    calculations with that value, and the others have the default. *)
Theorem C81_density_options_partial : forall finish c dd w i,
  c <> TLVE ->
  construct finish c dd = (w, Ok i) ->
  (forall u, dget dd "density_opts" = Some (VOpts u) -> NoDup (dkeys u) ->
     forall k, dget (i_opts i) k = match dget u k with Some v => Some v | None => documented_default c k end) /\
  (dget dd "density_opts" = None -> forall k, dget (i_opts i) k = documented_default c k).
Proof.
  intros finish c dd w i Hc. unfold construct.
  destruct (dget dd "eos_obj"); [|discriminate].
  destruct (finish c dd) as [[n calc]|]; [|discriminate].
  destruct (complete_weights c n _); [|discriminate].
  intros H. injection H as _ <-. cbn [i_opts]. split.
  - intros u Hu Hd k. rewrite Hu. unfold class_density_opts.
    destruct c; try congruence; try (rewrite (dupdate_get _ u k Hd), density_default_get; reflexivity).
    destruct (dget u k); reflexivity.
  - intros Hn k. rewrite Hn. destruct c; try congruence; reflexivity.
Qed.
Print Assumptions C81_density_options_partial.

(** C81 fails for TLVE: the options of the data set are dropped, whatever they are. *)
Theorem C81_TLVE_refuted : forall finish dd w i u,
  construct finish TLVE dd = (w, Ok i) ->
  dget dd "density_opts" = Some (VOpts u) ->
  forall k, dget (i_opts i) k = None.
Proof.
  intros finish dd w i u. unfold construct.
  destruct (dget dd "eos_obj"); [|discriminate].
  destruct (finish TLVE dd) as [[n calc]|]; [|discriminate].
  destruct (complete_weights TLVE n _); [|discriminate].
  intros H. injection H as _ <-. reflexivity.
Qed.
Print Assumptions C81_TLVE_refuted.

(** The weight the user gave for a calculated property: under the property's own name, or under the
    name of the data it is compared with. *)
Definition data_name (c : data_class) (prop : string) : option string :=
  match c with
  | Flash => if String.eqb prop "xilist" then Some "xi" else if String.eqb prop "yilist" then Some "yi" else None
  | Saturation => if String.eqb prop "Psat" then Some "P" else None
  | TLVE => if String.eqb prop "xilist" then Some "xi" else if String.eqb prop "yilist" then Some "yi"
            else if String.eqb prop "Plist" then Some "P" else None
  | LiquidDensity | Solubility => None
  end.
Definition given_weight (c : data_class) (dd : dict val) (w : dict (value num)) (prop : string) : option (value num) :=
  match data_name c prop with
  | Some a => match (if dmem dd a then dget w a else None) with Some v => Some v | None => dget w prop end
  | None => dget w prop
  end.
(** calculated properties compared with the data in each class; the composition a TLVE calculation
    starts from is not one *)
Definition compared (c : data_class) (calculation prop : string) : Prop :=
  match c with
  | LiquidDensity => prop = "rhol" \/ prop = "phil"
  | Flash => prop = "xilist" \/ prop = "yilist"
  | Saturation => prop = "rhol" \/ prop = "rhov" \/ prop = "Psat"
  | TLVE => prop = "Plist" \/ (prop = "xilist" /\ calculation <> "bubble_pressure") \/ (prop = "yilist" /\ calculation <> "dew_pressure")
  | Solubility => prop = "rhol" \/ prop = "delta"
  end.

Lemma rename_step (b : bool) (w : dict (value num)) a new k :
  a <> new -> k <> a ->
  dget (if b then match dget w a with Some v => dset (ddel w a) new v | None => w end else w) k =
  if String.eqb k new then match (if b then dget w a else None) with Some v => Some v | None => dget w k end
  else dget w k.
Proof.
  intros Hn Hk. destruct b; [|destruct (String.eqb k new); reflexivity].
  destruct (dget w a) as [v|]; [|destruct (String.eqb k new); reflexivity].
  destruct (String.eqb_spec k new) as [->|Hx]; [apply dget_dset_same|].
  rewrite dget_dset_other by congruence. apply dget_ddel_other. congruence.
Qed.

Lemma smem_filter_keys (dd : dict val) a : smem a template_keys = false ->
  smem a (filter (fun k => negb (smem k template_keys)) (dkeys dd)) = dmem dd a.
Proof.
  intros Ha. unfold dmem. induction dd as [|[b v] dd IH]; cbn [dkeys map filter dget fst]; [reflexivity|].
  destruct (String.eqb_spec a b) as [<-|Hn].
  - rewrite Ha. cbn [negb smem existsb]. unfold smem. cbn [existsb]. rewrite String.eqb_refl. reflexivity.
  - destruct (negb (smem b template_keys)); [|exact IH].
    unfold smem in *. cbn [existsb]. apply String.eqb_neq in Hn. rewrite Hn. exact IH.
Qed.

Lemma rename_get c dd w k : In k (result_keys c) ->
  dget (rename_weights c (filter (fun k => negb (smem k template_keys)) (dkeys dd)) w) k = given_weight c dd w k.
Proof.
  intros Hk. unfold rename_weights.
  destruct c; cbn [weight_renames fold_left fst snd]; rewrite ?smem_filter_keys by reflexivity.
  1: destruct Hk as [<-|[<-|[]]]; reflexivity.
  all: destruct Hk as [<-|Hk]; [|destruct Hk as [<-|Hk]; [|try destruct Hk as [<-|Hk]; try (exfalso; exact Hk)]].
  all: repeat (rewrite rename_step by discriminate); unfold given_weight, data_name.
  all: repeat match goal with |- context [String.eqb ?a ?b] => let x := eval vm_compute in (String.eqb a b) in change (String.eqb a b) with x end; cbv iota.
  all: try reflexivity.
  all: destruct (dget w "xi") eqn:?, (dget w "yi") eqn:?, (dget w "P") eqn:?; destruct (dmem dd "xi"), (dmem dd "yi"), (dmem dd "P").
  all: cbv iota; repeat (progress cbv iota || rewrite dget_dset_same || (rewrite dget_dset_other by discriminate) || (rewrite dget_ddel_other by discriminate)); reflexivity.
Qed.

Lemma NoDup_ddel {A} (d : dict A) k : NoDup (dkeys d) -> NoDup (dkeys (ddel d k)).
Proof.
  induction d as [|[a v] d IH]; cbn; intros H; [constructor|]. inversion H as [|? ? Hna Hnd]; subst.
  destruct (String.eqb k a); [apply IH, Hnd|]. cbn. constructor; [|apply IH, Hnd].
  intros Hi. apply Hna. clear - Hi. unfold dkeys in *. induction d as [|[b w] d IH]; cbn in *; [exact Hi|].
  destruct (String.eqb k b); [right; apply IH, Hi|]. cbn in Hi. destruct Hi as [->|Hi]; [left; reflexivity|right; apply IH, Hi].
Qed.
Lemma NoDup_dupdate {A} (d e : dict A) : NoDup (dkeys d) -> NoDup (dkeys (dupdate d e)).
Proof. unfold dupdate. revert d. induction e as [|kv e IH]; intros d H; cbn; [exact H|]. apply IH, NoDup_dset, H. Qed.
Lemma rename_NoDup c keys w : NoDup (dkeys w) -> NoDup (dkeys (rename_weights c keys w)).
Proof.
  unfold rename_weights. revert w. induction (weight_renames c) as [|r l IH]; intros w H; cbn; [exact H|].
  apply IH. destruct (smem (fst r) keys); [|exact H]. destruct (dget w (fst r)); [|exact H]. apply NoDup_dset, NoDup_ddel, H.
Qed.
Lemma dget_map_arr (d : dict (list num)) k :
  dget (map (fun kv => (fst kv, Arr (snd kv))) d) k = option_map Arr (dget d k).
Proof. induction d as [|[a l] d IH]; cbn; [reflexivity|]. destruct (String.eqb k a); [reflexivity|exact IH]. Qed.

(** C81, weights: every compared property of a data set has a weight; where the user gave one, it is
    that one, with as many values as there are data points, and elsewhere it is one. *)
Theorem C81_weights : forall finish c dd n calculation w0 w i,
  finish c dd = Ok (n, calculation) ->
  (dget dd "weights" = Some (VWeights w0) \/ (dget dd "weights" = None /\ w0 = [])) -> NoDup (dkeys w0) ->
  construct finish c dd = (w, Ok i) ->
  forall prop, compared c calculation prop ->
    match given_weight c dd w0 prop with
    | Some v => exists l, spread n v l /\ dget (i_weights i) prop = Some (Arr l)
    | None => dget (i_weights i) prop = Some (Scalar (Fin 1))
    end.
Proof.
  intros finish c dd n calculation w0 w i Hf Hw Hnd. unfold construct.
  destruct (dget dd "eos_obj"); [|discriminate]. rewrite Hf.
  assert (EW : match dget dd "weights" with Some (VWeights w) => w | _ => [] end = w0).
  { destruct Hw as [->|[-> ->]]; reflexivity. }
  rewrite EW. pose proof (rename_get c dd w0) as HG.
  set (w1 := rename_weights c _ w0) in *.
  assert (N1 : NoDup (dkeys w1)) by (apply rename_NoDup, Hnd). clearbody w1.
  unfold complete_weights.
  pose proof (C01_check_length_dict num w1 (result_keys c) (Some n)) as H1.
  pose proof (@check_NoDup num w1 (result_keys c) (Some n)) as HND.
  destruct (check_length_dict w1 (result_keys c) (Some n)) as [full|]; [|discriminate]. cbn [rbind]. specialize (HND full eq_refl).
  destruct H1 as (L & HL & HS & HN). cbn in HL. subst L.
  set (w2 := dupdate w1 _).
  assert (N2 : NoDup (dkeys w2)) by (apply NoDup_dupdate, N1).
  assert (G2 : forall k, dget w2 k = match dget full k with Some l => Some (Arr l) | None => dget w1 k end).
  { intros k. unfold w2. rewrite dupdate_get.
    - rewrite dget_map_arr. destruct (dget full k); reflexivity.
    - unfold dkeys. rewrite map_map. exact HND. }
  clearbody w2.
  pose proof (fun out => @C02_set_defaults num w2 (ManyKeys (result_keys c)) (Scalar (Scalar (Fin 1))) None out) as H2.
  pose proof (fun out => @set_defaults_NoDup num w2 (ManyKeys (result_keys c)) (Scalar (Scalar (Fin 1))) None out) as HN3.
  destruct (set_defaults w2 (ManyKeys (result_keys c)) (Scalar (Scalar (Fin 1))) None) as [w3|]; [|discriminate]. cbn [rbind].
  destruct (H2 w3 eq_refl) as (D1 & D2 & D3). specialize (HN3 w3 eq_refl N2).
  intros H. injection H as _ <-. cbn [i_weights]. intros prop Hp.
  assert (Hin : In prop (result_keys c)).
  { destruct c; cbn in Hp |- *; intuition (subst; tauto). }
  assert (HD : dget (drop_given c calculation (dupdate w2 w3)) prop = dget (dupdate w2 w3) prop).
  { unfold drop_given. destruct c; try reflexivity. cbn in Hp.
    destruct (String.eqb_spec calculation "bubble_pressure") as [->|Hb].
    - apply dget_ddel_other. intuition (subst; congruence).
    - destruct (String.eqb_spec calculation "dew_pressure") as [->|Hc]; [|reflexivity].
      apply dget_ddel_other. intuition (subst; congruence). }
  rewrite HD, dupdate_get by exact HN3. rewrite <- (HG prop Hin).
  destruct (dget w1 prop) as [u|] eqn:E1.
  - destruct (HS prop u (conj Hin E1)) as (l & El & Hs). exists l. split; [exact Hs|].
    rewrite (D1 prop (Arr l)); [reflexivity|]. rewrite G2, El. reflexivity.
  - assert (E2 : dget w2 prop = None).
    { rewrite G2, (HN prop), E1; [reflexivity|]. intros v' [_ Hv]. congruence. }
    destruct (D2 prop E2 Hin) as (v2 & x & [_ Ev] & Hs & ->). subst v2. inversion Hs; subst; reflexivity.
Qed.
Print Assumptions C81_weights.

(** columns of the data of each class whose weights are kept under another name *)
Definition weighed_column (c : data_class) (a : string) : Prop :=
  match c with
  | LiquidDensity => False
  | Flash => a = "xi" \/ a = "yi"
  | Saturation => a = "P"
  | TLVE => a = "xi" \/ a = "yi" \/ a = "P"
  | Solubility => a = "P"
  end.

Lemma rename_column c (dd : dict val) w a : weighed_column c a -> dmem dd a = true ->
  dget (rename_weights c (filter (fun k => negb (smem k template_keys)) (dkeys dd)) w) a = None.
Proof.
  intros Ha Hm. unfold rename_weights.
  destruct c; cbn in Ha; try tauto; cbn [weight_renames fold_left fst snd]; rewrite ?smem_filter_keys by reflexivity.
  all: repeat match goal with H : _ \/ _ |- _ => destruct H as [H|H] end; subst a; rewrite Hm.
  all: destruct (dmem dd "xi"), (dmem dd "yi"), (dmem dd "P"); try discriminate Hm.
  all: destruct (dget w "xi") eqn:?, (dget w "yi") eqn:?, (dget w "P") eqn:?; cbv iota.
  all: repeat (progress cbv iota || rewrite dget_ddel_same || (rewrite dget_dset_other by discriminate) || (rewrite dget_ddel_other by discriminate) ||
               match goal with H : dget _ _ = _ |- _ => rewrite H end); try reflexivity.
Qed.

(** C60 fails: once a data set has been read, the weights its caller gave under the name of a column of
    the data are no longer under that name in the caller's dictionary.  Those of the pressures of a set of
    solubility parameters are under "Plist" instead, where nothing uses them. *)
Theorem C60_weight_names_refuted : forall finish c dd w0 w i a,
  weighed_column c a -> dmem dd a = true ->
  dget dd "weights" = Some (VWeights w0) -> NoDup (dkeys w0) ->
  construct finish c dd = (w, Ok i) ->
  dget w a = None /\
  (c = Solubility -> forall v, dget w0 "P" = Some v -> dget w "Plist" = Some v /\ ~ compared c "" "Plist").
Proof.
  intros finish c dd w0 w i a Ha Hm Hw Hnd. unfold construct.
  destruct (dget dd "eos_obj") as [eos|]; [|discriminate]. destruct (finish c dd) as [[n calculation]|]; [|discriminate].
  rewrite Hw. pose proof (rename_column c dd w0 a Ha Hm) as HC.
  assert (HP : c = Solubility -> forall v, dget w0 "P" = Some v ->
             dget (rename_weights c (filter (fun k => negb (smem k template_keys)) (dkeys dd)) w0) "Plist" = Some v).
  { intros -> v Hv. cbn in Ha. subst a. unfold rename_weights. cbn [weight_renames fold_left fst snd].
    rewrite smem_filter_keys by reflexivity. rewrite Hm, Hv. apply dget_dset_same. }
  set (w1 := rename_weights c _ w0) in *.
  assert (N1 : NoDup (dkeys w1)) by (apply rename_NoDup, Hnd). clearbody w1.
  unfold complete_weights.
  pose proof (C01_check_length_dict num w1 (result_keys c) (Some n)) as H1.
  pose proof (@check_NoDup num w1 (result_keys c) (Some n)) as HND.
  destruct (check_length_dict w1 (result_keys c) (Some n)) as [full|]; [|discriminate]. cbn [rbind]. specialize (HND full eq_refl).
  destruct H1 as (L & HL & HS & HN). cbn in HL. subst L.
  set (w2 := dupdate w1 _).
  assert (N2 : NoDup (dkeys w2)) by (apply NoDup_dupdate, N1).
  assert (G2 : forall k, dget w2 k = match dget full k with Some l => Some (Arr l) | None => dget w1 k end).
  { intros k. unfold w2. rewrite dupdate_get.
    - rewrite dget_map_arr. destruct (dget full k); reflexivity.
    - unfold dkeys. rewrite map_map. exact HND. }
  clearbody w2.
  pose proof (fun out => @C02_set_defaults num w2 (ManyKeys (result_keys c)) (Scalar (Scalar (Fin 1))) None out) as H2.
  pose proof (fun out => @set_defaults_NoDup num w2 (ManyKeys (result_keys c)) (Scalar (Scalar (Fin 1))) None out) as HN3.
  destruct (set_defaults w2 (ManyKeys (result_keys c)) (Scalar (Scalar (Fin 1))) None) as [w3|]; [|discriminate]. cbn [rbind].
  destruct (H2 w3 eq_refl) as (D1 & D2 & D3). specialize (HN3 w3 eq_refl N2).
  intros H. injection H as <- _.
  assert (K : forall k, ~ In k (result_keys c) -> dget (dupdate w2 w3) k = dget w1 k).
  { intros k Hk. rewrite dupdate_get by exact HN3.
    assert (E2 : dget w2 k = dget w1 k) by (rewrite G2, (HN k); [reflexivity|intros v [Hv _]; exact (Hk Hv)]).
    destruct (dget w1 k) as [v|] eqn:E1.
    - rewrite (D1 k v E2). reflexivity.
    - rewrite (D3 k E2 Hk). exact E2. }
  split.
  - assert (Hx : ~ In a (result_keys c)).
    { destruct c; cbn in Ha |- *; intuition (subst; discriminate). }
    unfold drop_given. destruct c; try (rewrite K by exact Hx; exact HC).
    assert (a <> "xilist" /\ a <> "yilist") as [A1 A2] by (cbn in Ha; intuition (subst; discriminate)).
    destruct (String.eqb calculation "bubble_pressure"); [rewrite dget_ddel_other by congruence; rewrite K by exact Hx; exact HC|].
    destruct (String.eqb calculation "dew_pressure"); [rewrite dget_ddel_other by congruence|]; rewrite K by exact Hx; exact HC.
  - intros -> v Hv. split; [|cbn; intuition discriminate]. cbn [drop_given].
    rewrite K by (cbn; intuition discriminate). apply (HP eq_refl v Hv).
Qed.
Print Assumptions C60_weight_names_refuted.

Example C60_weight_names_case :
  let dd := [("data_class_type", VStr "solubility_parameter"); ("eos_obj", VObj 0); ("P", VObj 1); ("delta", VObj 2);
             ("weights", VWeights [("P", Scalar (Fin 3))])] in
  weighed_column Solubility "P" /\ dmem dd "P" = true /\
  exists w i, construct ex_finish Solubility dd = (w, Ok i) /\ dget w "P" = None /\ dget w "Plist" = Some (Scalar (Fin 3)).
Proof. split; [reflexivity|]. split; [reflexivity|]. eexists. eexists. split; [vm_compute; reflexivity|]. split; reflexivity. Qed.

Example C81_example :
  let dd := [("data_class_type", VStr "saturation_properties"); ("eos_obj", VObj 0); ("P", VObj 1); ("rhol", VObj 2);
             ("weights", VWeights [("P", Scalar (Fin 3))]); ("density_opts", VOpts [("density_increment", Fin 5)])] in
  exists i, snd (construct ex_finish Saturation dd) = Ok i /\
    dget (i_weights i) "Psat" = Some (Arr [Fin 3; Fin 3]) /\ dget (i_weights i) "rhov" = Some (Scalar (Fin 1)) /\
    dget (i_opts i) "density_increment" = Some (Fin 5) /\ dget (i_opts i) "min_density_fraction" = Some (Fin (1 # 80000)) /\
    compared Saturation "" "Psat".
Proof.
  eexists. split; [vm_compute; reflexivity|]. do 4 (split; [reflexivity|]). cbn. tauto.
Qed.
