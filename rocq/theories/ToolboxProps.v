(** Property theorems C01-C04. *)
From Verif Require Import Base BaseFacts ToolboxModel ToolboxSpec ToolboxProofs.
From Coq Require Import Reals Lra SpecFloat.

(** C01, complete characterisation: what a successful call returns and when a call
    is refused. *)
Theorem C01_check_length_dict : forall A (d : dict (value A)) keys lx,
  match check_length_dict d keys lx with
  | Ok out =>
      exists L, wanted_length d keys lx L /\
        (forall k v, supplied d keys k v -> exists l, dget out k = Some l /\ spread L v l) /\
        (forall k, (forall v, ~ supplied d keys k v) -> dget out k = None)
  | Err e => e = ValueError /\
      ((lx = None /\ forall k v, ~ supplied d keys k v) \/
       exists L, wanted_length d keys lx L /\ exists k v, supplied d keys k v /\ ~ fits L v)
  end.
Proof. exact @check_length_dict_spec. Qed.
Print Assumptions C01_check_length_dict.

Example C01_accepts : check_length_dict
    [("T", Scalar 300); ("P", Arr [1; 2; 3]); ("x", Arr [7])]%string ["T"; "P"; "x"; "y"]%string None
  = Ok [("T", [300; 300; 300]); ("P", [1; 2; 3]); ("x", [7; 7; 7])]%string.
Proof. reflexivity. Qed.
Example C01_rejects : check_length_dict
    [("T", Arr [1; 2]); ("P", Arr [1; 2; 3])]%string ["T"; "P"]%string None = Err ValueError.
Proof. reflexivity. Qed.

(** C01, lengths: every returned entry has the common length. *)
Theorem C01_equal_lengths : forall A (d : dict (value A)) keys lx out,
  check_length_dict d keys lx = Ok out ->
  exists L, wanted_length d keys lx L /\ forall k l, dget out k = Some l -> length l = L.
Proof. exact @check_length_dict_lengths. Qed.
Print Assumptions C01_equal_lengths.

(** C01, no spurious refusal. *)
Theorem C01_accepts_fitting : forall A (d : dict (value A)) keys lx L,
  wanted_length d keys lx L ->
  (forall k v, supplied d keys k v -> fits L v) ->
  exists out, check_length_dict d keys lx = Ok out.
Proof. exact @check_length_dict_accepts. Qed.
Print Assumptions C01_accepts_fitting.

Example C01_wanted : wanted_length [("T", Scalar 300); ("P", Arr [1; 2; 3])]%string ["T"; "P"]%string None 3.
Proof.
  split.
  - exists "P"%string, (Arr [1; 2; 3]). repeat split; cbn; tauto.
  - intros k v [[<-|[<-|[]]] H]; cbn in H; injection H as <-; cbn; lia.
Qed.

(** C02 *)
Theorem C02_set_defaults : forall A (d : dict (value A)) keys values lx out,
  set_defaults d keys values lx = Ok out ->
  (forall k v, dget d k = Some v -> dget out k = Some v) /\
  (forall k, dget d k = None -> listed_key keys k ->
     exists v w, listed_default keys values k v /\ stored_default lx v w /\ dget out k = Some w) /\
  (forall k, dget d k = None -> ~ listed_key keys k -> dget out k = None).
Proof. exact @set_defaults_spec. Qed.
Print Assumptions C02_set_defaults.

Theorem C02_set_defaults_idempotent : forall A (d : dict (value A)) keys values lx out,
  set_defaults d keys values lx = Ok out -> set_defaults out keys values lx = Ok out.
Proof. exact @set_defaults_idem. Qed.
Print Assumptions C02_set_defaults_idempotent.

Theorem C02_set_defaults_refusal : forall A (d : dict (value A)) keys values lx e,
  set_defaults d keys values lx = Err e ->
  e = ValueError /\
  match keys, values with
  | ManyKeys ks, Arr vs => length ks <> length vs
  | OneKey _, Arr vs => length vs <> 1
  | _, Scalar _ => False
  end.
Proof. exact @set_defaults_error. Qed.
Print Assumptions C02_set_defaults_refusal.

Example C02_case : set_defaults [("T", Scalar 300)]%string (ManyKeys ["T"; "P"]%string)
    (Arr [Scalar 1; Scalar 2]) (Some 3)
  = Ok [("T", Scalar 300); ("P", Arr [2; 2; 2])]%string.
Proof. reflexivity. Qed.

(** C03 *)
Theorem C03_central_difference_exact : forall eps a b c relative h xs,
  (0 < eps)%R -> (relative = true \/ h <> 0%R) ->
  central_difference eps (map (quad a b c)) relative h xs = map (quad' a b) xs.
Proof. exact central_difference_quadratic. Qed.
Print Assumptions C03_central_difference_exact.

Theorem C03_step_nonzero : forall eps relative h x,
  (0 < eps)%R -> (relative = true \/ h <> 0%R) -> cd_step eps relative h x <> 0%R.
Proof. exact cd_step_nonzero. Qed.
Print Assumptions C03_step_nonzero.

Theorem C03_difference_quotient : forall eps f relative h xs,
  central_difference eps (map f) relative h xs =
  map (fun x => let s := cd_step eps relative h x in ((f (x + s) - f (x - s)) / (2 * s))%R) xs.
Proof. exact central_difference_pointwise. Qed.
Print Assumptions C03_difference_quotient.

Example C03_case : (0 < / 4503599627370496)%R /\ (true = true \/ 1%R <> 0%R).
Proof. split; [lra|left; reflexivity]. Qed.

(** C63, finding in binary64: at x = -10 with the relative step 1e-5 both sample
    points round to the same number, so the routine returns 0 for every function. *)
Theorem C63_negative_point_refuted :
  exists step_size x, SFltb x (S754_zero false) = true /\
    SFltb (S754_zero false) step_size = true /\
    cd_xp_float step_size x = cd_xm_float step_size x.
Proof. exact (ex_intro _ f_1em5 (ex_intro _ f_m10 (conj eq_refl (conj eq_refl cd_float_lost)))). Qed.
Print Assumptions C63_negative_point_refuted.

(** C04 *)
Theorem C04_unknown_method : forall N dflt m x0 (b : bounds_arg N) opts,
  ~ In m known_methods -> solve_root dflt m x0 b opts = Err ValueError.
Proof. exact @solve_root_unknown. Qed.
Print Assumptions C04_unknown_method.

Example C04_unknown_case : ~ In "newton"%string known_methods.
Proof. apply smem_nIn. reflexivity. Qed.

(** C04, partial: whenever a solver is run it is the requested one or the
    documented fallback.  Missing: that a listed method always runs one (refuted below). *)
Theorem C04_method_honoured_partial : forall N dflt m x0 (b : bounds_arg N) opts c,
  solve_root dflt m x0 b opts = Ok c ->
  call_method c = m \/
  (call_method c = "bisect"%string /\ x0 = XNone /\ In m point_methods) \/
  (call_method c = "least_squares"%string /\ (exists n v, x0 = XVec n v /\ 1 < n) /\
   In m ["brentq"; "bisect"]%string).
Proof. exact @solve_root_method. Qed.
Print Assumptions C04_method_honoured_partial.

Example C04_fallback_case : solve_root (fun _ => []) "hybr" XNone (BFlat [Some 1; Some 2]) []
  = Ok (CallBracket "bisect" (Some 1) (Some 2) []).
Proof. reflexivity. Qed.

(** C04: with a scalar start point and a bracket, every listed method except
    hybr_broyden1/2 does run, under its own name. *)
Theorem C04_listed_method_runs : forall N (dflt : string -> dict N) m n v lo hi opts,
  In m known_methods -> m <> "hybr_broyden1"%string -> m <> "hybr_broyden2"%string ->
  n <= 1 ->
  exists c, solve_root dflt m (XVec n v) (BFlat [lo; hi]) opts = Ok c /\ call_method c = m.
Proof. exact @solve_root_runs. Qed.
Print Assumptions C04_listed_method_runs.

Theorem C04_bracket_ends : forall N dflt m x0 lo hi opts c,
  (m = "bisect"%string \/ m = "brentq"%string) -> (@x0_size N x0 <= 1) ->
  solve_root dflt m x0 (BFlat [lo; hi]) opts = Ok c ->
  exists o, c = CallBracket m lo hi o.
Proof. exact @solve_root_bracket. Qed.
Print Assumptions C04_bracket_ends.

Theorem C04_user_options_win : forall N dflt m x0 (b : bounds_arg N) opts c k v,
  NoDup (dkeys opts) -> In k ["xtol"; "rtol"; "maxiter"; "full_output"; "disp"]%string ->
  solve_root dflt m x0 b opts = Ok c -> dget opts k = Some v -> dget (call_opts c) k = Some v.
Proof. exact @solve_root_opts. Qed.
Print Assumptions C04_user_options_win.

Example C04_options_case :
  solve_root (fun _ => [("rtol", 7); ("maxiter", 100)]%string) "bisect" XNone
             (BFlat [Some 1; Some 2]) [("rtol", 3); ("other", 4)]%string
  = Ok (CallBracket "bisect" (Some 1) (Some 2) [("rtol", 3); ("maxiter", 100)]%string).
Proof. reflexivity. Qed.

(** C04, findings. *)
Theorem C04_listed_method_refuted : forall N dflt m x0 (b : bounds_arg N) opts,
  m = "hybr_broyden1"%string \/ m = "hybr_broyden2"%string ->
  In m known_methods /\ exists e, solve_root dflt m x0 b opts = Err e.
Proof. exact @solve_root_hybr_broyden. Qed.
Print Assumptions C04_listed_method_refuted.

Theorem C04_default_bounds_refuted : forall N dflt m (x0 : x0_arg N) opts,
  exists e, solve_root dflt m x0 BNone opts = Err e.
Proof. exact @solve_root_no_bounds. Qed.
Print Assumptions C04_default_bounds_refuted.

Theorem C04_scalar_bounds_dropped_refuted : forall N (dflt : string -> dict N) m x0 lo hi opts,
  In m ["TNC"; "L-BFGS-B"; "SLSQP"]%string ->
  solve_root dflt m x0 (BFlat [lo; hi]) opts
  = Ok (CallMinimize m x0 None (merge_opts (dflt m) opts)).
Proof. exact @solve_root_min_bounds. Qed.
Print Assumptions C04_scalar_bounds_dropped_refuted.

Theorem C04_documented_brent_refuted : forall N dflt x0 (b : bounds_arg N) opts,
  In "brent"%string documented_methods /\ solve_root dflt "brent" x0 b opts = Err ValueError.
Proof. exact (fun N dflt x0 b opts => conj (or_introl eq_refl) (eq_refl _)). Qed.
Print Assumptions C04_documented_brent_refuted.

(** C04: without bounds, which is the default, every call fails: with the announced error if a start point is missing too
    and the method needs one, else because the bounds are subscripted. *)
Theorem C04_default_bounds_error : forall N dflt m (x0 : x0_arg N) opts, In m known_methods ->
  (x0 = XNone /\ In m point_methods -> solve_root dflt m x0 BNone opts = Err ValueError) /\
  (~ (x0 = XNone /\ In m point_methods) -> solve_root dflt m x0 BNone opts = Err TypeError).
Proof.
  intros N dflt m x0 opts Hm. unfold solve_root. assert (smem m supported_methods = true) as -> by (apply smem_In; exact Hm).
  unfold fallback_x0. split.
  - intros [-> H]. assert (smem m needs_x0 = true) as -> by (apply smem_In; exact H). reflexivity.
  - intros H. destruct (is_none_x0 x0 && smem m needs_x0) eqn:E; [exfalso; apply H|reflexivity].
    apply andb_true_iff in E. destruct E as [E1 E2]. split; [destruct x0; [reflexivity|discriminate]|]. apply smem_In in E2. exact E2.
Qed.

(** C04: bounds of several variables.  A list of pairs reaches least squares as it is; the minimizers get the bounds of two
    variables; a tuple of pairs is refused; scipy's bracketing methods are given no option they do not know. *)
Theorem C04_several_bounds : forall N (dflt : string -> dict N) n v pairs opts,
  pairs <> [] -> Forall (fun p => length p = 2) pairs ->
  solve_root dflt "least_squares" (XVec n v) (BNested false (map Some pairs)) opts
    = Ok (CallLeastSquares (XVec n v) pairs (dupdate (dflt "least_squares"%string) opts)) /\
  (forall m, In m ["TNC"; "L-BFGS-B"; "SLSQP"]%string -> length pairs = 2 ->
     solve_root dflt m (XVec n v) (BNested false (map Some pairs)) opts
       = Ok (CallMinimize m (XVec n v) (Some pairs) (dupdate (dflt m) opts))) /\
  (forall m, In m known_methods -> solve_root dflt m (XVec n v) (BNested true (map Some pairs)) opts = Err TypeError).
Proof.
  intros N dflt n v pairs opts Hne Hp.
  assert (W : forall t, wrap_bounds (BNested t (map Some pairs)) = Ok (t, map Some pairs)) by (intros t; destruct pairs; [congruence|reflexivity]).
  assert (C : check_pairs false (map Some pairs) = Ok pairs).
  { clear - Hp. induction Hp as [|p l H Hl IH]; [reflexivity|]. cbn. rewrite H. cbn. rewrite IH. reflexivity. }
  assert (Ct : check_pairs true (map Some pairs) = Err TypeError) by (destruct pairs as [|p l]; [congruence|]; inversion Hp; subst; cbn; rewrite H1; reflexivity).
  assert (X : existsb (fun x : option (list (option N)) => match x with None => true | Some _ => false end) (map Some pairs) = false).
  { clear. induction pairs as [|p l IH]; [reflexivity|exact IH]. }
  split; [|split].
  - unfold solve_root. cbn [smem supported_methods existsb String.eqb Ascii.eqb Bool.eqb orb]. unfold fallback_x0. cbn [is_none_x0 andb rbind].
    unfold fallback_size. cbn [smem existsb String.eqb Ascii.eqb Bool.eqb orb]. rewrite andb_false_r, W. cbn [rbind fst snd].
    unfold fallback_bounds. rewrite X. cbn [andb rbind]. rewrite C. reflexivity.
  - intros m Hm L2. unfold solve_root.
    assert (smem m supported_methods = true) as -> by (cbn in Hm; intuition (subst; reflexivity)).
    unfold fallback_x0. cbn [is_none_x0 andb rbind]. unfold fallback_size.
    assert (smem m ["brentq"; "bisect"]%string = false) as S0 by (cbn in Hm; intuition (subst; reflexivity)).
    rewrite S0, andb_false_r, W. cbn [rbind fst snd]. unfold fallback_bounds. rewrite X. cbn [andb rbind]. rewrite C. cbn [rbind].
    unfold dispatch. rewrite L2. cbn in Hm; intuition (subst; reflexivity).
  - intros m Hm. unfold solve_root. assert (smem m supported_methods = true) as -> by (apply smem_In; exact Hm).
    unfold fallback_x0. cbn [is_none_x0 andb rbind]. rewrite W. cbn [rbind fst snd]. unfold fallback_bounds. rewrite X. cbn [andb rbind].
    rewrite Ct. reflexivity.
Qed.
Example C04_several_case : solve_root (fun _ => []) "TNC" (XVec 2 [5; 6]) (BNested false [Some [Some 1; Some 9]; Some [None; Some 8]]) []
  = Ok (CallMinimize "TNC" (XVec 2 [5; 6]) (Some [[Some 1; Some 9]; [None; Some 8]]) []).
Proof. reflexivity. Qed.

Theorem C04_bracket_options : forall N dflt m x0 (b : bounds_arg N) opts name lo hi o k,
  solve_root dflt m x0 b opts = Ok (CallBracket name lo hi o) -> In k (dkeys o) ->
  In k (dkeys (dflt name)) \/ In k ["xtol"; "rtol"; "maxiter"; "full_output"; "disp"]%string /\ In k (dkeys opts).
Proof.
  intros N dflt m x0 b opts name lo hi o k H Hk.
  assert (E : o = merge_bracket_opts (dflt name) opts).
  { unfold solve_root in H. destruct (smem m supported_methods); [|discriminate].
    destruct (fallback_x0 m x0 b) as [m1|]; [|discriminate]. cbn [rbind] in H. destruct (wrap_bounds b) as [tb|]; [|discriminate]. cbn [rbind] in H.
    destruct (fallback_bounds _ x0 (snd tb)) as [m3|]; [|discriminate]. cbn [rbind] in H.
    destruct (check_pairs (fst tb) (snd tb)) as [ps|]; [|discriminate]. cbn [rbind] in H. unfold dispatch in H.
    repeat match type of H with
           | (if ?c then _ else _) = _ => destruct c; [try discriminate|]
           | match ?l with _ => _ end = _ => destruct l; try discriminate
           end; try discriminate; injection H as <- <- <- <-; reflexivity. }
  subst o. unfold merge_bracket_opts, dupdate in Hk. revert Hk. generalize (dflt name) as d. clear H.
  induction opts as [|[k0 v0] opts IH]; intros d Hk; [left; exact Hk|]. cbn [filter fst] in Hk.
  destruct (smem k0 bracket_opts) eqn:S0.
  - cbn [fold_left fst snd] in Hk. apply IH in Hk. destruct Hk as [Hk|[Hk Hk2]]; [|right; split; [exact Hk|right; exact Hk2]].
    apply dkeys_dset in Hk. destruct Hk as [->|Hk]; [|left; exact Hk]. right. apply smem_In in S0. split; [exact S0|left; reflexivity].
  - apply IH in Hk. destruct Hk as [Hk|[Hk Hk2]]; [left; exact Hk|right; split; [exact Hk|right; exact Hk2]].
Qed.
Print Assumptions C04_default_bounds_error.
Print Assumptions C04_several_bounds.
Print Assumptions C04_bracket_options.
