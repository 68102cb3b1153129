(** C49, C51, C52 and C79: the calculations over state points. *)
From Coq Require Import Permutation.
From Verif Require Import Base BaseFacts Num ToolboxModel ToolboxSpec ToolboxProofs ParallelModel CalcTypesModel CalcTypesSpec CalcTypesProofs.
Open Scope nat_scope.

Ltac f2 := repeat match goal with
  | H : Forall2 _ (_ :: _) (_ :: _) |- _ => inversion H; subst; clear H
  | H : Forall2 _ [] [] |- _ => clear H
  end.
Ltac nodup := repeat constructor; cbn; intuition discriminate.
Ltac comp_cell := apply cell_computed; [reflexivity|assumption].

Section Points.
  Context {G O : Type}.
  Variable R : routines G O.
  Implicit Types (w : world G) (sys : lists) (k : call_opts O) (out : output).

  (** C79: every point of a flash is evaluated at the temperature and pressure given for it (or
      298.15 K and 101325 Pa), and reported in its place. *)
Theorem C79_flash : forall w sys k w' out, flash R w sys k = (w', Ok out) ->
    ncomp R = 2 /\ exists n, longest sys ["Tlist"; "Plist"]%string n /\ 0 < n /\ full_columns out n /\
    forall i, i < n -> exists t p g,
      value_at sys "Tlist" (Some ambient_T) n i t /\ value_at sys "Plist" (Some ambient_P) n i p /\
      cell out "T" i t /\ cell out "P" i p /\
      match snd (c_flash R g p t (k_rest k)) with
      | Ok (x, fl, y, fv, ob) => cell out "xi" i x /\ cell out "yi" i y /\ cell out "flagl" i fl /\ cell out "flagv" i fv /\ cell out "obj" i ob
      | Err _ => cell out "xi" i (ERow (repeat NaN 2)) /\ cell out "yi" i (ERow (repeat NaN 2)) /\
                 cell out "flagl" i (ENum (Fin 3)) /\ cell out "flagv" i (ENum (Fin 3)) /\ cell out "obj" i (ENum NaN)
      end.
  Proof.
    intros w sys k w' out H. unfold flash in H. destruct (prep_flash (ncomp R) sys) as [[td ins]|] eqn:P; [|discriminate].
    apply prep_flash_spec in P. destruct P as (Hc & n & HL & Ln & HP). split; [exact Hc|].
    apply given_ok in H. destruct H as (o & E & ->).
    destruct (run_points_cells _ _ _ _ _ _ E ltac:(nodup) ltac:(discriminate) (decided_width _ _ _ (flash_decided R k))) as (Hne & Hf & Hx).
    assert (H0 : 0 < n) by (destruct ins; [congruence|rewrite <- Ln; cbn; lia]).
    exists n. split; [exact HL|]. split; [exact H0|]. split.
    { destruct (HP 0 H0) as (t & p & _ & _ & _ & L1 & L2 & _). apply full_app; [|rewrite <- Ln; exact Hf].
      repeat constructor; assumption. }
    intros i Hi. destruct (HP i Hi) as (t & p & Hn & V1 & V2 & _ & _ & N1 & N2).
    destruct (Hx i _ Hn) as (wi & row & _ & Hs & HF). exists t, p, (glob wi). split; [exact V1|]. split; [exact V2|].
    split; [eapply cell_given; [reflexivity|exact N1]|]. split; [eapply cell_given; [reflexivity|exact N2]|].
    unfold flash_point in Hs. destruct (c_flash R (glob wi) p t (k_rest k)) as [g [[[[[x fl] y] fv] ob]|e]]; cbn [snd] in *; injection Hs as <-; f2.
    - repeat split; comp_cell.
    - unfold nan_row in *. rewrite Hc in *. repeat split; comp_cell.
  Qed.

  (** C79 for saturation properties *)
Theorem C79_saturation : forall w sys k w' out, saturation_properties R w sys k = (w', Ok out) ->
    exists sys1 n, rows_in "xilist" sys sys1 /\ longest sys1 ["Tlist"; "xilist"]%string n /\ 0 < n /\ full_columns out n /\
    forall i, i < n -> exists t x g o,
      value_at sys1 "Tlist" (Some ambient_T) n i t /\ value_at sys1 "xilist" (Some (ERow [Fin 1])) n i x /\
      cell out "T" i t /\ o_rest o = k_rest k /\
      match snd (c_sat R g t x o) with
      | Ok (ENum p, rl, rv) =>
          if is_nan p then cell out "Psat" i enan /\ cell out "rhol" i enan /\ cell out "rhov" i enan
          else cell out "Psat" i (ENum p) /\ cell out "rhol" i rl /\ cell out "rhov" i rv
      | _ => cell out "Psat" i enan /\ cell out "rhol" i enan /\ cell out "rhov" i enan
      end.
  Proof.
    intros w sys k w' out H. unfold saturation_properties in H. destruct (prep_saturation sys) as [[td ins]|] eqn:P; [|discriminate].
    apply given_ok in H. destruct H as (o & E & ->).
    destruct (run_points_cells _ _ _ _ _ _ E ltac:(nodup) ltac:(discriminate) (decided_width _ _ _ (saturation_decided R k))) as (Hne & Hf & Hx).
    apply prep_saturation_spec in P; [|exact Hne]. destruct P as (sys1 & n & HR & HL & Ln & HP).
    assert (H0 : 0 < n) by (destruct ins; [congruence|rewrite <- Ln; cbn; lia]).
    exists sys1, n. split; [exact HR|]. split; [exact HL|]. split; [exact H0|]. split.
    { destruct (HP 0 H0) as (t & p & _ & _ & _ & L1 & _). apply full_app; [|rewrite <- Ln; exact Hf]. repeat constructor; assumption. }
    intros i Hi. destruct (HP i Hi) as (t & x & Hn & V1 & V2 & _ & N1).
    destruct (Hx i _ Hn) as (wi & row & _ & Hs & HF). exists t, x, (glob wi), (opts_of k wi (None, None, None) (k_method k)).
    split; [exact V1|]. split; [exact V2|]. split; [eapply cell_given; [reflexivity|exact N1]|]. split; [reflexivity|].
    unfold saturation_point in Hs. destruct (c_sat R (glob wi) t x _) as [g [[[[p|p] rl] rv]|e]]; cbn [snd] in *.
    - destruct (is_nan p); injection Hs as <-; f2; repeat split; comp_cell.
    - injection Hs as <-; f2; repeat split; comp_cell.
    - injection Hs as <-; f2; repeat split; comp_cell.
  Qed.

  (** C79 for liquid and vapor properties *)
  Lemma phase_points liquid comp name rn pn fn w sys k w' out :
    comp = "xilist"%string \/ comp = "yilist"%string -> NoDup ["P"%string; "T"%string; name; rn; pn; fn] ->
    (match prep_phase false comp (ncomp R) sys with
     | Err e => (w, Err e)
     | Ok (td, ins) => with_given (phase_given comp name td) (run_points (phase_point R liquid k) w ins [rn; pn; fn])
     end) = (w', Ok out) ->
    (dget sys comp = None -> ncomp R <= 1) /\
    exists sys1 n, rows_in comp sys sys1 /\ longest sys1 ["Tlist"%string; comp; "Plist"%string] n /\ 0 < n /\ full_columns out n /\
    forall i, i < n -> exists t p x g,
      value_at sys1 "Tlist" (Some ambient_T) n i t /\ value_at sys1 "Plist" (Some ambient_P) n i p /\
      value_at sys1 comp (Some (ERow [Fin 1])) n i x /\ cell out "T" i t /\ cell out "P" i p /\ cell out name i x /\
      match snd ((if liquid then c_liquid R else c_vapor R) g p t x (k_rest k)) with
      | Ok (phi, rho, fl) => cell out rn i rho /\ cell out pn i phi /\ cell out fn i fl
      | Err _ => cell out rn i enan /\ cell out pn i (ERow (repeat NaN (ncomp R))) /\ cell out fn i (ENum (Fin 3))
      end.
  Proof.
    intros Hcomp Hnd H. destruct (prep_phase false comp (ncomp R) sys) as [[td ins]|] eqn:P; [|discriminate].
    apply prep_phase_spec in P; [|exact Hcomp]. destruct P as (sys1 & n & HR & HL & Ln & Hn1 & HP). split; [exact Hn1|].
    apply given_ok in H. destruct H as (o & E & ->).
    assert (Hnd3 : NoDup [rn; pn; fn]) by (inversion Hnd as [|? ? _ H1]; inversion H1 as [|? ? _ H2]; inversion H2; assumption).
    destruct (run_points_cells _ _ _ _ _ _ E Hnd3 ltac:(discriminate) (decided_width _ _ _ (phase_decided R k liquid))) as (Hne & Hf & Hx).
    assert (H0 : 0 < n) by (destruct ins; [congruence|rewrite <- Ln; cbn; lia]).
    exists sys1, n. split; [exact HR|]. split; [exact HL|]. split; [exact H0|]. split.
    { destruct (HP 0 H0) as (p & t & x & _ & _ & _ & _ & L1 & L2 & L3 & _). apply full_app; [|rewrite <- Ln; exact Hf]. repeat constructor; assumption. }
    intros i Hi. destruct (HP i Hi) as (p & t & x & Hn & V1 & V2 & V3 & _ & _ & _ & N1 & N2 & N3).
    destruct (Hx i _ Hn) as (wi & row & _ & Hs & HF). exists t, p, x, (glob wi). split; [exact V2|]. split; [exact V1|]. split; [exact V3|].
    assert (Q : forall a b, In a ["P"%string; "T"%string; name] -> In b [rn; pn; fn] -> String.eqb b a = false).
    { intros a b Ha Hb. apply String.eqb_neq. intros ->. revert Ha Hb Hnd. clear. intros Ha Hb Hnd.
      change ["P"%string; "T"%string; name; rn; pn; fn] with (["P"%string; "T"%string; name] ++ [rn; pn; fn]) in Hnd.
      apply in_split in Ha. destruct Ha as (l1 & l2 & E). rewrite E in Hnd. rewrite <- app_assoc in Hnd. cbn in Hnd.
      apply NoDup_remove_2 in Hnd. apply Hnd. apply in_or_app. right. apply in_or_app. right. exact Hb. }
    assert (Qn : forall nm, In nm [rn; pn; fn] -> dget (phase_given comp name td) nm = None).
    { intros nm Hnm. unfold phase_given. cbn [dget]. rewrite (Q "P"%string nm), (Q "T"%string nm), (Q name nm); cbn; auto. }
    assert (QT : String.eqb "T" "P" = false) by reflexivity.
    assert (Qx1 : String.eqb name "P" = false) by (apply String.eqb_neq; intros ->; inversion Hnd as [|? ? Hi1 _]; apply Hi1; cbn; auto).
    assert (Qx2 : String.eqb name "T" = false) by (apply String.eqb_neq; intros ->; inversion Hnd as [|? ? _ Hi1]; inversion Hi1 as [|? ? Hi2 _]; apply Hi2; cbn; auto).
    split; [eapply cell_given; [unfold phase_given; cbn [dget]; rewrite QT, String.eqb_refl; reflexivity|exact N2]|].
    split; [eapply cell_given; [unfold phase_given; cbn [dget]; rewrite String.eqb_refl; reflexivity|exact N1]|].
    split; [eapply cell_given; [unfold phase_given; cbn [dget]; rewrite Qx1, Qx2, String.eqb_refl; reflexivity|exact N3]|].
    unfold phase_point in Hs.
    destruct ((if liquid then c_liquid R else c_vapor R) (glob wi) p t x (k_rest k)) as [g [[[phi rho] fl]|e]]; cbn [snd] in *; injection Hs as <-; f2;
      (split; [|split]); (apply cell_computed; [apply Qn; cbn; tauto|assumption]).
  Qed.

Theorem C79_liquid : forall w sys k w' out, liquid_properties R w sys k = (w', Ok out) ->
    (dget sys "xilist" = None -> ncomp R <= 1) /\
    exists sys1 n, rows_in "xilist" sys sys1 /\ longest sys1 ["Tlist"; "xilist"; "Plist"]%string n /\ 0 < n /\ full_columns out n /\
    forall i, i < n -> exists t p x g,
      value_at sys1 "Tlist" (Some ambient_T) n i t /\ value_at sys1 "Plist" (Some ambient_P) n i p /\
      value_at sys1 "xilist" (Some (ERow [Fin 1])) n i x /\ cell out "T" i t /\ cell out "P" i p /\ cell out "xi" i x /\
      match snd (c_liquid R g p t x (k_rest k)) with
      | Ok (phi, rho, fl) => cell out "rhol" i rho /\ cell out "phil" i phi /\ cell out "flagl" i fl
      | Err _ => cell out "rhol" i enan /\ cell out "phil" i (ERow (repeat NaN (ncomp R))) /\ cell out "flagl" i (ENum (Fin 3))
      end.
  Proof.
    intros w sys k w' out H. apply (phase_points true "xilist" "xi" "rhol" "phil" "flagl" w sys k w' out); [auto|nodup|exact H].
  Qed.
Theorem C79_vapor : forall w sys k w' out, vapor_properties R w sys k = (w', Ok out) ->
    (dget sys "yilist" = None -> ncomp R <= 1) /\
    exists sys1 n, rows_in "yilist" sys sys1 /\ longest sys1 ["Tlist"; "yilist"; "Plist"]%string n /\ 0 < n /\ full_columns out n /\
    forall i, i < n -> exists t p y g,
      value_at sys1 "Tlist" (Some ambient_T) n i t /\ value_at sys1 "Plist" (Some ambient_P) n i p /\
      value_at sys1 "yilist" (Some (ERow [Fin 1])) n i y /\ cell out "T" i t /\ cell out "P" i p /\ cell out "yi" i y /\
      match snd (c_vapor R g p t y (k_rest k)) with
      | Ok (phi, rho, fl) => cell out "rhov" i rho /\ cell out "phiv" i phi /\ cell out "flagv" i fl
      | Err _ => cell out "rhov" i enan /\ cell out "phiv" i (ERow (repeat NaN (ncomp R))) /\ cell out "flagv" i (ENum (Fin 3))
      end.
  Proof.
    intros w sys k w' out H. apply (phase_points false "yilist" "yi" "rhov" "phiv" "flagv" w sys k w' out); [auto|nodup|exact H].
  Qed.

  (** C79 for the solubility parameter *)
Theorem C79_solubility : forall w sys k w' out, solubility_parameter R w sys k = (w', Ok out) ->
    (dget sys "xilist" = None -> ncomp R <= 1) /\
    exists sys1 n, rows_in "xilist" sys sys1 /\ longest sys1 ["Tlist"; "xilist"; "Plist"]%string n /\ 0 < n /\
    forall i, i < n -> exists t p x g g',
      value_at sys1 "Tlist" (Some ambient_T) n i t /\ value_at sys1 "Plist" (Some ambient_P) n i p /\
      value_at sys1 "xilist" (Some (ERow [Fin 1])) n i x /\ cell out "T" i t /\ cell out "P" i p /\ cell out "xi" i x /\
      match snd (c_ldensity R g p t x (k_rest k)) with
      | Ok (rho, fl) => match snd (c_hildebrand R g' rho x t (k_rest k)) with
                        | Ok d => cell out "rhol" i rho /\ cell out "delta" i d
                        | Err _ => cell out "rhol" i enan /\ cell out "delta" i enan
                        end
      | Err _ => cell out "rhol" i enan /\ cell out "delta" i enan
      end.
  Proof.
    intros w sys k w' out H. unfold solubility_parameter in H.
    destruct (prep_phase true "xilist" (ncomp R) sys) as [[td ins]|] eqn:P; [|discriminate].
    apply prep_phase_spec in P; [|auto]. destruct P as (sys1 & n & HR & HL & Ln & Hn1 & HP). split; [exact Hn1|].
    destruct (run_points _ w ins _) as [w2 [o|]] eqn:E; [|discriminate]. apply given_ok in H. destruct H as (o' & H & ->).
    cbn [rbind] in H. injection H as <- <-.
    destruct (run_points_cells _ _ _ _ _ _ E ltac:(nodup) ltac:(discriminate) (decided_width _ _ _ (solubility_decided R k))) as (Hne & Hf & Hx).
    assert (H0 : 0 < n) by (destruct ins; [congruence|rewrite <- Ln; cbn; lia]).
    exists sys1, n. split; [exact HR|]. split; [exact HL|]. split; [exact H0|].
    assert (DC : forall nm i v, nm <> "flagl"%string -> dget (phase_given "xilist" "xi" td) nm = None ->
               cell o nm i v -> cell (phase_given "xilist" "xi" td ++ ddel o "flagl") nm i v).
    { intros nm i v H1 H2 (l & H3 & H4). apply cell_computed; [exact H2|]. exists l. rewrite dget_ddel_other by congruence. auto. }
    intros i Hi. destruct (HP i Hi) as (p & t & x & Hn & V1 & V2 & V3 & _ & _ & _ & N1 & N2 & N3).
    destruct (Hx i _ Hn) as (wi & row & _ & Hs & HF). exists t, p, x, (glob wi), (fst (c_ldensity R (glob wi) p t x (k_rest k))).
    split; [exact V2|]. split; [exact V1|]. split; [exact V3|].
    split; [eapply cell_given; [reflexivity|exact N2]|]. split; [eapply cell_given; [reflexivity|exact N1]|].
    split; [eapply cell_given; [reflexivity|exact N3]|]. unfold solubility_point in Hs.
    destruct (c_ldensity R (glob wi) p t x (k_rest k)) as [g [[rho fl]|e]]; cbn [fst snd] in *.
    - destruct (c_hildebrand R g rho x t (k_rest k)) as [g' [d|e]]; cbn [snd] in *; injection Hs as <-; f2; split; apply DC; try discriminate; try reflexivity; assumption.
    - injection Hs as <-; f2; split; apply DC; try discriminate; try reflexivity; assumption.
  Qed.

  (** C79 and C50 for bubble and dew points: each point is evaluated at its own temperature,
      composition and limits.  Without an entry "method" in pressure_options, it is also evaluated with
      the method and the pressure_options the caller gave. *)
  Lemma take_method_press w m : no_method w -> take_method w m = (m, w).
  Proof. unfold no_method, take_method. destruct (press w) as [d|]; [|reflexivity]. intros ->. reflexivity. Qed.
  Lemma run_list_press {I} (step : world G -> I -> world G * result (list elem)) (Q : option (dict string)) :
    (forall w x, press w = Q -> press (fst (step w x)) = Q) -> forall ins w, press w = Q -> press (fst (run_list step w ins)) = Q.
  Proof.
    intros H. induction ins as [|x ins IH]; intros w Hw; [exact Hw|]. cbn [run_list]. specialize (H w x Hw).
    destruct (step w x) as [w1 [o|e]]; [|exact H]. specialize (IH w1 H). destruct (run_list step w1 ins) as [w2 [r|e]]; exact IH.
  Qed.
  Lemma no_method_press w Q : press w = Q -> match Q with Some d => dget d "method" = None | None => True end -> no_method w.
  Proof. intros <-. exact (fun h => h). Qed.
  Lemma saturated_press dew k w x : no_method w -> press (fst (saturated_point R dew k w x)) = press w.
  Proof.
    intros H. destruct x as [[t x] l]. unfold saturated_point. destruct (pure x) as [[|]|]; [| |reflexivity].
    - destruct (c_sat _ _ _ _ _) as [g [[[p a] b]|e]]; reflexivity.
    - rewrite (take_method_press _ _ H). destruct dew; [destruct (c_dew _ _ _ _ _) as [g [[[[[p a] b] c] d]|e]]|destruct (c_bubble _ _ _ _ _) as [g [[[[[p a] b] c] d]|e]]]; reflexivity.
  Qed.

  Lemma saturated_points dew comp oc pc w sys k w' out :
    (comp = "xilist" /\ oc = "xi" /\ pc = "yi" \/ comp = "yilist" /\ oc = "yi" /\ pc = "xi")%string ->
    (match prep_saturated comp sys with
     | Err e => (w, Err e)
     | Ok (td, ins) => with_given [("T"%string, entry td "Tlist"); (oc, entry td comp)]
          (run_points (saturated_point R dew k) w ins ["P"%string; pc; "flagv"%string; "flagl"%string; "obj"%string])
     end) = (w', Ok out) ->
    dget sys comp <> None /\
    (no_method w -> press w' = press w) /\
    exists sys1 n, rows_in comp sys sys1 /\ longest sys1 ["Tlist"%string; comp] n /\ 0 < n /\ full_columns out n /\
    forall i, i < n -> exists t r g pg pl ph m pr,
      let o := {| o_limits := (pg, pl, ph); o_method := m; o_press := pr; o_rest := k_rest k |} in
      value_at sys1 "Tlist" (Some ambient_T) n i t /\ value_at sys1 comp None n i (ERow r) /\
      option_at sys1 "Pguess" n i pg /\ option_at sys1 "Pmin" n i pl /\ option_at sys1 "Pmax" n i ph /\
      (no_method w -> m = k_method k /\ pr = press w) /\
      cell out "T" i t /\ cell out oc i (ERow r) /\
      let failed := cell out "P" i enan /\ cell out pc i (ERow (repeat NaN (length r))) /\
                    cell out "flagv" i (ENum (Fin 3)) /\ cell out "flagl" i (ENum (Fin 3)) /\ cell out "obj" i enan in
      if Nat.eqb (present r) 1 then
        match snd (c_sat R g t (ERow r) o) with
        | Ok (p, _, _) => cell out "P" i p /\ cell out pc i (ERow r) /\ cell out "flagv" i (ENum (Fin 0)) /\
                          cell out "flagl" i (ENum (Fin 1)) /\ cell out "obj" i (ENum (Fin 0))
        | Err _ => failed
        end
      else
        match snd ((if dew then c_dew R else c_bubble R) g (ERow r) t o) with
        | Ok (p, c, f1, f2, ob) => cell out "P" i p /\ cell out pc i c /\ cell out (if dew then "flagl" else "flagv")%string i f1 /\
                                   cell out (if dew then "flagv" else "flagl")%string i f2 /\ cell out "obj" i ob
        | Err _ => failed
        end.
  Proof.
    intros Hc H. destruct (prep_saturated comp sys) as [[td ins]|] eqn:P; [|discriminate].
    apply prep_saturated_spec in P; [|tauto]. destruct P as (Hcomp & sys1 & n & HR & HL & Ln & HP). split; [exact Hcomp|].
    apply given_ok in H. destruct H as (o & E & ->).
    assert (Hpress : no_method w -> forall j, press (fst (run_list (saturated_point R dew k) w (firstn j ins))) = press w).
    { intros Hnm j. apply run_list_press; [|reflexivity]. intros w0 x0 H0.
      rewrite <- H0. apply saturated_press. eapply no_method_press; [exact H0|exact Hnm]. }
    assert (Hnd : NoDup ["P"%string; pc; "flagv"%string; "flagl"%string; "obj"%string]) by (destruct Hc as [(_ & _ & ->)|(_ & _ & ->)]; nodup).
    split.
    { intros Hnm. unfold run_points in E. specialize (Hpress Hnm (length ins)). rewrite firstn_all in Hpress.
      destruct (run_list (saturated_point R dew k) w ins) as [w2 rows]. cbn [fst] in Hpress. injection E as <- _. exact Hpress. }
    destruct (run_points_cells _ _ _ _ _ _ E Hnd ltac:(discriminate) (decided_width _ _ _ (saturated_decided R k dew))) as (Hne & Hf & Hx).
    assert (H0 : 0 < n) by (destruct ins; [congruence|rewrite <- Ln; cbn; lia]).
    exists sys1, n. split; [exact HR|]. split; [exact HL|]. split; [exact H0|]. split.
    { destruct (HP 0 H0) as (t & x & ? & ? & ? & _ & _ & _ & _ & _ & _ & L1 & L2 & _). apply full_app; [|rewrite <- Ln; exact Hf]. repeat constructor; assumption. }
    intros i Hi. destruct (HP i Hi) as (t & x & pg & pl & ph & Hn & V1 & V2 & O1 & O2 & O3 & _ & _ & N1 & N2).
    destruct (Hx i _ Hn) as (wi & row & Hwi & Hs & HF).
    assert (Hw : no_method w -> press wi = press w) by (intros Hnm; rewrite Hwi; apply Hpress, Hnm).
    unfold saturated_point in Hs. destruct x as [x|r]; [discriminate Hs|]. cbn [pure] in Hs.
    assert (CT : cell ([("T"%string, entry td "Tlist"); (oc, entry td comp)] ++ o) "T" i t) by (eapply cell_given; [reflexivity|exact N1]).
    assert (CO : cell ([("T"%string, entry td "Tlist"); (oc, entry td comp)] ++ o) oc i (ERow r)).
    { eapply cell_given; [|exact N2]. destruct Hc as [(_ & -> & _)|(_ & -> & _)]; reflexivity. }
    assert (CC : forall nm v, In nm ["P"%string; pc; "flagv"%string; "flagl"%string; "obj"%string] -> cell o nm i v ->
                 cell ([("T"%string, entry td "Tlist"); (oc, entry td comp)] ++ o) nm i v).
    { intros nm v Hnm. apply cell_computed. cbn in Hnm.
      destruct Hc as [(_ & -> & ->)|(_ & -> & ->)]; intuition subst; reflexivity. }
    destruct (Nat.eqb (length (filter (fun v => negb (neqb v (Fin 0))) r)) 1) eqn:Ep.
    - exists t, r, (glob wi), pg, pl, ph, (k_method k), (press wi). cbn zeta. unfold present. rewrite Ep.
      split; [exact V1|]. split; [exact V2|]. split; [exact O1|]. split; [exact O2|]. split; [exact O3|].
      split; [intros Hnm; split; [reflexivity|apply Hw, Hnm]|]. split; [exact CT|]. split; [exact CO|].
      unfold opts_of in Hs. destruct (c_sat R (glob wi) t (ERow r) _) as [g [[[p a] b]|e]]; cbn [snd] in *; injection Hs as <-; f2;
        unfold nan_row, row_len in *; repeat split; (apply CC; [cbn; tauto|assumption]).
    - destruct (take_method wi (k_method k)) as [m w1] eqn:Et.
      assert (Hg : glob w1 = glob wi).
      { unfold take_method in Et. destruct (press wi) as [d|]; [destruct (dget d "method")|]; injection Et as <- <-; reflexivity. }
      exists t, r, (glob w1), pg, pl, ph, m, (press w1). cbn zeta. unfold present. rewrite Ep.
      split; [exact V1|]. split; [exact V2|]. split; [exact O1|]. split; [exact O2|]. split; [exact O3|].
      split.
      { intros Hnm. specialize (Hw Hnm). assert (Hnmi : no_method wi) by (eapply no_method_press; [exact Hw|exact Hnm]).
        rewrite (take_method_press _ _ Hnmi) in Et. injection Et as <- <-. split; [reflexivity|exact Hw]. }
      split; [exact CT|]. split; [exact CO|]. unfold opts_of in Hs. destruct dew.
      + destruct (c_dew R (glob w1) (ERow r) t _) as [g [[[[[p a] b] c] d]|e]]; cbn [snd] in *; injection Hs as <-; f2;
        unfold nan_row, row_len in *; repeat split; (apply CC; [cbn; tauto|assumption]).
      + destruct (c_bubble R (glob w1) (ERow r) t _) as [g [[[[[p a] b] c] d]|e]]; cbn [snd] in *; injection Hs as <-; f2;
        unfold nan_row, row_len in *; repeat split; (apply CC; [cbn; tauto|assumption]).
  Qed.

Theorem C79_bubble : forall w sys k w' out, bubble_pressure R w sys k = (w', Ok out) ->
    dget sys "xilist" <> None /\
    (no_method w -> press w' = press w) /\
    exists sys1 n, rows_in "xilist" sys sys1 /\ longest sys1 ["Tlist"; "xilist"]%string n /\ 0 < n /\ full_columns out n /\
    forall i, i < n -> exists t r g pg pl ph m pr,
      let o := {| o_limits := (pg, pl, ph); o_method := m; o_press := pr; o_rest := k_rest k |} in
      value_at sys1 "Tlist" (Some ambient_T) n i t /\ value_at sys1 "xilist" None n i (ERow r) /\
      option_at sys1 "Pguess" n i pg /\ option_at sys1 "Pmin" n i pl /\ option_at sys1 "Pmax" n i ph /\
      (no_method w -> m = k_method k /\ pr = press w) /\
      cell out "T" i t /\ cell out "xi" i (ERow r) /\
      let failed := cell out "P" i enan /\ cell out "yi" i (ERow (repeat NaN (length r))) /\
                    cell out "flagv" i (ENum (Fin 3)) /\ cell out "flagl" i (ENum (Fin 3)) /\ cell out "obj" i enan in
      if Nat.eqb (present r) 1 then
        match snd (c_sat R g t (ERow r) o) with
        | Ok (p, _, _) => cell out "P" i p /\ cell out "yi" i (ERow r) /\ cell out "flagv" i (ENum (Fin 0)) /\
                          cell out "flagl" i (ENum (Fin 1)) /\ cell out "obj" i (ENum (Fin 0))
        | Err _ => failed
        end
      else
        match snd (c_bubble R g (ERow r) t o) with
        | Ok (p, y, fv, fl, ob) => cell out "P" i p /\ cell out "yi" i y /\ cell out "flagv" i fv /\
                                   cell out "flagl" i fl /\ cell out "obj" i ob
        | Err _ => failed
        end.
  Proof. intros w sys k w' out H. apply (saturated_points false "xilist" "xi" "yi" w sys k w' out); [auto|exact H]. Qed.
Theorem C79_dew : forall w sys k w' out, dew_pressure R w sys k = (w', Ok out) ->
    dget sys "yilist" <> None /\
    (no_method w -> press w' = press w) /\
    exists sys1 n, rows_in "yilist" sys sys1 /\ longest sys1 ["Tlist"; "yilist"]%string n /\ 0 < n /\ full_columns out n /\
    forall i, i < n -> exists t r g pg pl ph m pr,
      let o := {| o_limits := (pg, pl, ph); o_method := m; o_press := pr; o_rest := k_rest k |} in
      value_at sys1 "Tlist" (Some ambient_T) n i t /\ value_at sys1 "yilist" None n i (ERow r) /\
      option_at sys1 "Pguess" n i pg /\ option_at sys1 "Pmin" n i pl /\ option_at sys1 "Pmax" n i ph /\
      (no_method w -> m = k_method k /\ pr = press w) /\
      cell out "T" i t /\ cell out "yi" i (ERow r) /\
      let failed := cell out "P" i enan /\ cell out "xi" i (ERow (repeat NaN (length r))) /\
                    cell out "flagv" i (ENum (Fin 3)) /\ cell out "flagl" i (ENum (Fin 3)) /\ cell out "obj" i enan in
      if Nat.eqb (present r) 1 then
        match snd (c_sat R g t (ERow r) o) with
        | Ok (p, _, _) => cell out "P" i p /\ cell out "xi" i (ERow r) /\ cell out "flagv" i (ENum (Fin 0)) /\
                          cell out "flagl" i (ENum (Fin 1)) /\ cell out "obj" i (ENum (Fin 0))
        | Err _ => failed
        end
      else
        match snd (c_dew R g (ERow r) t o) with
        | Ok (p, x, fl, fv, ob) => cell out "P" i p /\ cell out "xi" i x /\ cell out "flagl" i fl /\
                                   cell out "flagv" i fv /\ cell out "obj" i ob
        | Err _ => failed
        end.
  Proof. intros w sys k w' out H. apply (saturated_points true "yilist" "yi" "xi" w sys k w' out); [auto|exact H]. Qed.

  (** *** C49: no evaluation of a point makes the calculation fail *)
  (** Whether a calculation is refused, and with which error, does not depend on what happens at the
      points: another fluid, another history and other failing points give the same refusal. *)
  Definition refused_alike (f : routines G O -> world G -> lists -> call_opts O -> world G * result output) : Prop :=
    forall R' w w' sys k k' e, ncomp R' = ncomp R -> snd (f R w sys k) = Err e -> snd (f R' w' sys k') = Err e.

  Lemma saturated_refused dew k k' R' w w' g ins names e : names <> [] -> length names = 5 ->
    snd (with_given g (run_points (saturated_point R dew k) w ins names)) = Err e ->
    snd (with_given g (run_points (saturated_point R' dew k') w' ins names)) = Err e.
  Proof.
    intros Hn Hl. rewrite !given_err. apply run_points_same with (bad := fun pt => match snd (fst pt) with ERow _ => None | ENum _ => Some TypeError end); [exact Hn| |];
      rewrite Hl; apply saturated_decided.
  Qed.
Theorem C49_never_raises_partial :
    refused_alike bubble_pressure /\ refused_alike dew_pressure /\ refused_alike activity_coefficient /\
    refused_alike flash /\ refused_alike saturation_properties /\ refused_alike liquid_properties /\
    refused_alike vapor_properties /\ refused_alike solubility_parameter.
  Proof.
    repeat split; intros R' w w' sys k k' e Hc H.
    - unfold bubble_pressure in *. destruct (prep_saturated "xilist" sys) as [[td ins]|]; [|exact H].
      eapply saturated_refused; [discriminate|reflexivity|exact H].
    - unfold dew_pressure in *. destruct (prep_saturated "yilist" sys) as [[td ins]|]; [|exact H].
      eapply saturated_refused; [discriminate|reflexivity|exact H].
    - unfold activity_coefficient in *. rewrite Hc. destruct (prep_activity (ncomp R) sys) as [[m ins]|]; [|exact H].
      revert H. apply run_points_same with (bad := none_bad); [discriminate|apply activity_decided|apply activity_decided].
    - unfold flash in *. rewrite Hc. destruct (prep_flash (ncomp R) sys) as [[td ins]|]; [|exact H]. revert H. rewrite !given_err.
      apply run_points_same with (bad := none_bad); [discriminate|apply flash_decided|apply flash_decided].
    - unfold saturation_properties in *. destruct (prep_saturation sys) as [[td ins]|]; [|exact H]. revert H. rewrite !given_err.
      apply run_points_same with (bad := none_bad); [discriminate|apply saturation_decided|apply saturation_decided].
    - unfold liquid_properties in *. rewrite Hc. destruct (prep_phase false "xilist" (ncomp R) sys) as [[td ins]|]; [|exact H]. revert H. rewrite !given_err.
      apply run_points_same with (bad := none_bad); [discriminate|apply phase_decided|apply phase_decided].
    - unfold vapor_properties in *. rewrite Hc. destruct (prep_phase false "yilist" (ncomp R) sys) as [[td ins]|]; [|exact H]. revert H. rewrite !given_err.
      apply run_points_same with (bad := none_bad); [discriminate|apply phase_decided|apply phase_decided].
    - unfold solubility_parameter in *. rewrite Hc. destruct (prep_phase true "xilist" (ncomp R) sys) as [[td ins]|]; [|exact H].
      assert (Hr : forall (R0 : routines G O) w0 k0, snd (run_points (solubility_point R0 k0) w0 ins ["rhol"; "flagl"; "delta"]%string) = Err e <->
        snd (let (w1, r) := run_points (solubility_point R0 k0) w0 ins ["rhol"; "flagl"; "delta"]%string in
             with_given (phase_given "xilist" "xi" td) (w1, let* o := r in Ok (ddel o "flagl"))) = Err e).
      { intros R0 w0 k0. destruct (run_points _ w0 ins _) as [w1 [o|e1]]; cbn; split; intros X; try discriminate; exact X. }
      rewrite <- Hr in H |- *. revert H.
      apply run_points_same with (bad := none_bad); [discriminate|apply solubility_decided|apply solubility_decided].
  Qed.

  (** C49: results of a point are determined by the inputs of that point.  Two requests - one with
      failing points and one without, say - report the same for points with the same inputs, if the
      underlying calculations do not depend on what was computed before. *)
Theorem C49_isolated_partial : history_free R -> forall w1 w2 sys1 sys2 k w1' w2' out1 out2 n1 n2 i j,
    flash R w1 sys1 k = (w1', Ok out1) -> flash R w2 sys2 k = (w2', Ok out2) ->
    longest sys1 ["Tlist"; "Plist"]%string n1 -> longest sys2 ["Tlist"; "Plist"]%string n2 -> i < n1 -> j < n2 ->
    (forall t, value_at sys1 "Tlist" (Some ambient_T) n1 i t <-> value_at sys2 "Tlist" (Some ambient_T) n2 j t) ->
    (forall p, value_at sys1 "Plist" (Some ambient_P) n1 i p <-> value_at sys2 "Plist" (Some ambient_P) n2 j p) ->
    same_row ["T"; "P"; "xi"; "yi"; "flagl"; "flagv"; "obj"]%string out1 i out2 j.
  Proof.
    intros HF w1 w2 sys1 sys2 k w1' w2' out1 out2 n1 n2 i j E1 E2 L1 L2 Hi Hj HT HP.
    apply C79_flash in E1. apply C79_flash in E2. destruct E1 as (_ & m1 & M1 & _ & _ & E1). destruct E2 as (_ & m2 & M2 & _ & _ & E2).
    assert (m1 = n1) as -> by (eapply longest_unique; eassumption). assert (m2 = n2) as -> by (eapply longest_unique; eassumption).
    destruct (E1 i Hi) as (t & p & g & V1 & V2 & C1 & C2 & M). destruct (E2 j Hj) as (t' & p' & g' & V1' & V2' & C1' & C2' & M').
    apply HT in V1. apply HP in V2. pose proof (value_at_fun _ _ _ _ _ _ _ V1 V1'). pose proof (value_at_fun _ _ _ _ _ _ _ V2 V2'). subst t' p'.
    destruct HF as (_ & _ & _ & HF & _). rewrite (HF g' g p t (k_rest k)) in M'.
    destruct (snd (c_flash R g p t (k_rest k))) as [[[[[x fl] y] fv] ob]|e]; intros nm Hnm; cbn in Hnm; intuition subst; eauto.
  Qed.

  (** C49 for bubble and dew points *)
Theorem C49_isolated_bubble_partial : history_free R -> forall w1 w2 sys1 sys2 a1 a2 k w1' w2' out1 out2 n1 n2 i j,
    bubble_pressure R w1 sys1 k = (w1', Ok out1) -> bubble_pressure R w2 sys2 k = (w2', Ok out2) ->
    no_method w1 -> press w1 = press w2 ->
    rows_in "xilist" sys1 a1 -> rows_in "xilist" sys2 a2 ->
    longest a1 ["Tlist"; "xilist"]%string n1 -> longest a2 ["Tlist"; "xilist"]%string n2 -> i < n1 -> j < n2 ->
    (forall t, value_at a1 "Tlist" (Some ambient_T) n1 i t <-> value_at a2 "Tlist" (Some ambient_T) n2 j t) ->
    (forall x, value_at a1 "xilist" None n1 i x <-> value_at a2 "xilist" None n2 j x) ->
    (forall q v, In q ["Pguess"; "Pmin"; "Pmax"]%string -> option_at a1 q n1 i v <-> option_at a2 q n2 j v) ->
    same_row ["T"; "xi"; "P"; "yi"; "flagl"; "flagv"; "obj"]%string out1 i out2 j.
  Proof.
    intros HF w1 w2 sys1 sys2 a1 a2 k w1' w2' out1 out2 n1 n2 i j E1 E2 Nm Hpr R1 R2 L1 L2 Hi Hj HT HX HO.
    apply C79_bubble in E1. apply C79_bubble in E2.
    destruct E1 as (_ & _ & b1 & m1 & S1 & M1 & _ & _ & E1). destruct E2 as (_ & _ & b2 & m2 & S2 & M2 & _ & _ & E2).
    pose proof (rows_in_fun _ _ _ _ R1 S1) as F1. pose proof (rows_in_fun _ _ _ _ R2 S2) as F2.
    apply (longest_ext b1 a1) in M1; [|congruence]. apply (longest_ext b2 a2) in M2; [|congruence].
    assert (m1 = n1) as -> by (eapply longest_unique; eassumption). assert (m2 = n2) as -> by (eapply longest_unique; eassumption).
    assert (Nm2 : no_method w2) by (unfold no_method in *; rewrite <- Hpr; exact Nm).
    destruct (E1 i Hi) as (t & r & g & pg & pl & ph & m & pr & V1 & V2 & O1 & O2 & O3 & K & C1 & C2 & M).
    destruct (E2 j Hj) as (t' & r' & g' & pg' & pl' & ph' & m' & pr' & V1' & V2' & O1' & O2' & O3' & K' & C1' & C2' & M').
    destruct (K Nm) as [-> ->]. destruct (K' Nm2) as [-> ->].
    rewrite (value_at_ext a1 b1), HT, (value_at_ext b2 a2) in V1 by congruence.
    rewrite (value_at_ext a1 b1), HX, (value_at_ext b2 a2) in V2 by congruence.
    pose proof (value_at_fun _ _ _ _ _ _ _ V1 V1'). pose proof (value_at_fun _ _ _ _ _ _ _ V2 V2') as X. injection X as ->. subst t'.
    rewrite (option_at_ext a1 b1), HO, (option_at_ext b2 a2) in O1 by (congruence || (cbn; tauto)).
    rewrite (option_at_ext a1 b1), HO, (option_at_ext b2 a2) in O2 by (congruence || (cbn; tauto)).
    rewrite (option_at_ext a1 b1), HO, (option_at_ext b2 a2) in O3 by (congruence || (cbn; tauto)).
    rewrite (option_at_fun _ _ _ _ _ _ O1 O1'), (option_at_fun _ _ _ _ _ _ O2 O2'), (option_at_fun _ _ _ _ _ _ O3 O3') in M.
    destruct HF as (HS & HB & _). rewrite <- Hpr in M'. cbn zeta in M, M'. destruct (Nat.eqb (present r') 1).
    - match type of M with context [c_sat R g ?a ?b ?c] => rewrite (HS g g' a b c) in M end.
      destruct (snd (c_sat R g' _ _ _)) as [[[p x] y]|e]; intros nm Hnm; cbn in Hnm; intuition subst; eauto.
    - match type of M with context [c_bubble R g ?a ?b ?c] => rewrite (HB g g' a b c) in M end.
      destruct (snd (c_bubble R g' _ _ _)) as [[[[[p x] y] z] u]|e]; intros nm Hnm; cbn in Hnm; intuition subst; eauto.
  Qed.

  Lemma verify_rows_eleven : eleven_compositions verify_rows.
  Proof.
    exists (map (fun i => ((1 # 100) + inject_Z (Z.of_nat i) * (98 # 1000))%Q) (seq 0 11)).
    split; [reflexivity|]. split; [reflexivity|]. split; [reflexivity|]. split; [reflexivity|].
    intros i Hi. do 10 (destruct i as [|i]; [vm_compute; reflexivity|]). lia.
  Qed.

  (** C79 for the check of the equation of state.  Nothing is caught there: all points succeeded. *)
Theorem C79_verify : forall w sys k w' out, verify_eos R w sys k = (w', Ok out) ->
    (forall g p t x o cols, snd (c_verify R g p t x o) = Ok cols -> length cols = 8) ->
    exists sys1 n,
    match dget sys "xilist" with
    | Some _ => rows_in "xilist" sys sys1
    | None => ncomp R = 2 /\ exists v, eleven_compositions v /\ sys1 = dset sys "xilist" v
    end /\ longest sys1 ["Tlist"; "xilist"; "Plist"]%string n /\ 0 < n /\ full_columns out n /\
    forall i, i < n -> exists t p x g cols,
      value_at sys1 "Tlist" (Some ambient_T) n i t /\ value_at sys1 "Plist" (Some ambient_P) n i p /\
      value_at sys1 "xilist" None n i x /\ cell out "T" i t /\ cell out "P" i p /\ cell out "xi" i x /\
      snd (c_verify R g p t x (k_rest k)) = Ok cols /\
      Forall2 (fun nm v => cell out nm i v)
        ["residual_v1"; "residual_v2"; "flagv"; "log_phivi"; "residual_l1"; "residual_l2"; "flagl"; "log_phili"]%string cols.
  Proof.
    intros w sys k w' out H H8. unfold verify_eos in H. destruct (prep_verify (ncomp R) sys) as [[td ins]|] eqn:P; [|discriminate].
    apply prep_verify_spec in P. destruct P as (sys1 & n & HS & HL & Ln & HP).
    apply given_ok in H. destruct H as (o & E & ->).
    assert (HW : forall w x w1 row, verify_point R k w x = (w1, Ok row) -> length row = 8).
    { intros w0 [[p t] x] w1 row. unfold verify_point. specialize (H8 (glob w0) p t x (k_rest k)).
      destruct (c_verify R (glob w0) p t x (k_rest k)) as [g r]. cbn [snd] in H8. intros X. injection X as _ ->. apply H8. reflexivity. }
    destruct (run_points_cells _ _ _ _ _ _ E ltac:(nodup) ltac:(discriminate) HW) as (Hne & Hf & Hx).
    assert (H0 : 0 < n) by (destruct ins; [congruence|rewrite <- Ln; cbn; lia]).
    exists sys1, n. split.
    { destruct (dget sys "xilist"); [exact HS|]. destruct HS as [HS1 HS2]. split; [exact HS1|].
      exists verify_rows. split; [apply verify_rows_eleven|exact HS2]. }
    split; [exact HL|]. split; [exact H0|]. split.
    { destruct (HP 0 H0) as (p & t & x & _ & _ & _ & _ & L1 & L2 & L3 & _). apply full_app; [|rewrite <- Ln; exact Hf]. repeat constructor; assumption. }
    intros i Hi. destruct (HP i Hi) as (p & t & x & Hn & V1 & V2 & V3 & _ & _ & _ & N1 & N2 & N3).
    destruct (Hx i _ Hn) as (wi & row & _ & Hs & HF). exists t, p, x, (glob wi), row.
    split; [exact V2|]. split; [exact V1|]. split; [exact V3|].
    split; [eapply cell_given; [reflexivity|exact N2]|]. split; [eapply cell_given; [reflexivity|exact N1]|].
    split; [eapply cell_given; [reflexivity|exact N3]|]. unfold verify_point in Hs.
    destruct (c_verify R (glob wi) p t x (k_rest k)) as [g r]. cbn [snd] in *. split; [exact Hs|].
    revert HF. apply Forall2_impl_in. intros nm v Hin Hc. apply cell_computed; [|exact Hc].
    cbn in Hin. intuition subst; reflexivity.
  Qed.

  (** C49 is false for the check of the equation of state: one point whose evaluation raises makes the
      whole calculation raise, whatever the other points do. *)
Theorem C49_verify_refuted : forall w t1 t2 x p k e,
    (forall g, snd (c_verify R g p t1 (ERow x) (k_rest k)) = Err e) -> t1 <> t2 ->
    snd (verify_eos R w [("Tlist"%string, Arr [t1; t2]); ("xilist"%string, Arr [ERow x]); ("Plist"%string, Arr [p])] k) = Err e /\
    snd (verify_eos R w [("Tlist"%string, Arr [t2; t1]); ("xilist"%string, Arr [ERow x]); ("Plist"%string, Arr [p])] k)
      = match snd (c_verify R (glob w) p t2 (ERow x) (k_rest k)) with Ok _ => Err e | Err e' => Err e' end.
  Proof.
    intros w t1 t2 x p k e He _. split.
    - unfold verify_eos, prep_verify. cbn [dget String.eqb wrap_rows]. cbn. unfold run_points. cbn [run_list]. unfold verify_point at 1.
      specialize (He (glob w)). destruct (c_verify R (glob w) p t1 (ERow x) (k_rest k)) as [g r]. cbn [snd] in He. subst r. reflexivity.
    - unfold verify_eos, prep_verify. cbn [dget String.eqb wrap_rows]. cbn. unfold run_points. cbn [run_list]. unfold verify_point at 1.
      destruct (c_verify R (glob w) p t2 (ERow x) (k_rest k)) as [g [cols|e']]; [|reflexivity]. cbn [snd]. cbn [run_list]. unfold verify_point at 1.
      cbn [put glob]. specialize (He g). destruct (c_verify R g p t1 (ERow x) (k_rest k)) as [g' r]. cbn [snd] in He. subst r. reflexivity.
  Qed.

  (** *** C51 *)
  Definition equilibrium (m : mode) (g : G) (o : popts O) (rest : O) (t p x y : elem) : result (elem * elem * elem) :=
    match m with
    | Dew => match snd (c_dew R g y t o) with Ok (p', x', _, _, _) => Ok (p', x', y) | Err e => Err e end
    | Bubble => match snd (c_bubble R g x t o) with Ok (p', y', _, _, _) => Ok (p', x, y') | Err e => Err e end
    | FlashMode => match snd (c_flash R g p t rest) with Ok (x', _, y', _, _) => Ok (p, x', y') | Err e => Err e end
    | Standard => Ok (p, x, y)
    end.
  (** the mode follows from which of the lists are given *)
  Definition mode_of (sys : lists) (m : mode) : Prop :=
    match m with
    | Dew => dget sys "xilist" = None /\ dget sys "yilist" <> None
    | Bubble => dget sys "xilist" <> None /\ dget sys "yilist" = None
    | FlashMode => dget sys "xilist" = None /\ dget sys "yilist" = None /\ dget sys "Plist" <> None
    | Standard => dget sys "xilist" <> None /\ dget sys "yilist" <> None
    end.

  Lemma activity_spec w k l m p t x y w1 r : activity R w k l m p t x y = (w1, r) ->
    match r with
    | Ok (gam, ps) => exists q xs ys psl gs, p = ENum q /\ x = ERow xs /\ y = ERow ys /\ ps = ERow psl /\ gam = ERow gs /\
        activity_of q ys psl xs gs /\
        forall j, j < length xs -> exists rj g q' a b, pure_of (length xs) j rj /\ nth_error psl j = Some q' /\
          snd (c_sat R g t (ERow rj) (opts_of k w l m)) = Ok (ENum q', a, b)
    | Err _ => (forall q xs ys, p = ENum q -> x = ERow xs -> y = ERow ys -> length ys = length xs ->
                  exists j rj g, pure_of (length xs) j rj /\
                  forall q' a b, snd (c_sat R g t (ERow rj) (opts_of k w l m)) <> Ok (ENum q', a, b))
    end.
  Proof.
    intros H. unfold activity in H. destruct x as [x|xs]; [injection H as <- <-; discriminate|].
    pose proof (psat_loop_spec R k l m t (length xs) (seq 0 (length xs)) w) as S.
    destruct (psat_loop R w k l m t (length xs) (seq 0 (length xs))) as [w' [ps|e]]; cbn [snd rbind] in *; injection H as <- <-.
    - destruct S as [L S]. rewrite seq_length in L. destruct p as [q|?]; [|discriminate]. destruct y as [?|ys]; [discriminate|].
      destruct (Nat.eqb_spec (length ys) (length xs)) as [E|E].
      + exists q, xs, ys, ps, (gamma_list q ys ps xs). repeat (split; [reflexivity|]). split; [apply gamma_list_spec; congruence|].
        intros j Hj. destruct (S j j) as (g & q' & a & b & H1 & H2).
        { rewrite (nth_error_nth' _ 0) by (rewrite seq_length; exact Hj). rewrite seq_nth by exact Hj. reflexivity. }
        exists (unit_row (length xs) j), g, q', a, b. split; [apply unit_row_pure, Hj|]. split; assumption.
      + intros q' xs' ys' _ Hx Hy HL. injection Hx as <-. injection Hy as <-. contradiction.
    - intros q xs' ys' _ Hx _ _. injection Hx as <-. destruct S as (i & g & Hi & H). apply in_seq in Hi.
      exists i, (unit_row (length xs) i), g. split; [apply unit_row_pure; lia|exact H].
  Qed.

  (** C51: the mode is the one the given lists call for; the coefficients are y P / (Psat x) with the
      saturation pressures of the pure components; a point is undefined only if a calculation it
      needs failed. *)
Theorem C51_partial : forall w sys k w' out, activity_coefficient R w sys k = (w', Ok out) ->
    exists sys1 sys2 m n, rows_in "xilist" sys sys1 /\ rows_in "yilist" sys1 sys2 /\ mode_of sys2 m /\
    longest sys2 ["Tlist"; "yilist"; "xilist"; "Plist"]%string n /\ 0 < n /\ full_columns out n /\
    forall i, i < n -> exists t p x y g o,
      value_at sys2 "Tlist" (Some ambient_T) n i t /\ value_at sys2 "Plist" (Some enan) n i p /\
      value_at sys2 "xilist" (Some enan) n i x /\ value_at sys2 "yilist" (Some enan) n i y /\ o_rest o = k_rest k /\
      cell out "T" i t /\
      match equilibrium m g o (k_rest k) t p x y with
      | Err _ => cell out "gamma" i enan
      | Ok (p1, x1, y1) =>
          (exists q xs ys psl gs, p1 = ENum q /\ x1 = ERow xs /\ y1 = ERow ys /\ activity_of q ys psl xs gs /\
             (forall j, j < length xs -> exists rj g' q' a b, pure_of (length xs) j rj /\ nth_error psl j = Some q' /\
                snd (c_sat R g' t (ERow rj) o) = Ok (ENum q', a, b)) /\
             cell out "P" i p1 /\ cell out "xi" i x1 /\ cell out "yi" i y1 /\ cell out "Psat" i (ERow psl) /\ cell out "gamma" i (ERow gs))
          \/ (cell out "gamma" i enan /\
              forall q xs ys, p1 = ENum q -> x1 = ERow xs -> y1 = ERow ys -> length ys = length xs ->
                exists j rj g', pure_of (length xs) j rj /\ forall q' a b, snd (c_sat R g' t (ERow rj) o) <> Ok (ENum q', a, b))
      end.
  Proof.
    intros w sys k w' out E. unfold activity_coefficient in E. destruct (prep_activity (ncomp R) sys) as [[m ins]|] eqn:P; [|discriminate].
    apply prep_activity_spec in P. destruct P as (sys1 & sys2 & n & R1 & R2 & HL & Ln & _ & HM & HP).
    destruct (run_points_cells _ _ _ _ _ _ E ltac:(nodup) ltac:(discriminate) (decided_width _ _ _ (activity_decided R k m))) as (Hne & Hf & Hx).
    assert (H0 : 0 < n) by (destruct ins; [congruence|rewrite <- Ln; cbn; lia]).
    exists sys1, sys2, m, n. split; [exact R1|]. split; [exact R2|]. split; [exact HM|]. split; [exact HL|]. split; [exact H0|].
    split; [rewrite <- Ln; exact Hf|].
    intros i Hi. destruct (HP i Hi) as (t & p & x & y & pg & pl & ph & Hn & V1 & V2 & V3 & V4 & _).
    destruct (Hx i _ Hn) as (wi & row & _ & Hs & HF). unfold activity_point in Hs.
    destruct (take_method wi (k_method k)) as [mt w1] eqn:Et.
    exists t, p, x, y, (glob w1), (opts_of k w1 (pg, pl, ph) mt).
    split; [exact V1|]. split; [exact V2|]. split; [exact V3|]. split; [exact V4|]. split; [reflexivity|].
    assert (F : forall w2 p1 x1 y1 fv fl ob b1 b2 b3 b4 b5 b6 b7, press w2 = press w1 ->
      snd (match activity R w2 k (pg, pl, ph) mt p1 t x1 y1 with
           | (w', Ok (gam, ps)) => (w', Ok [t; p1; x1; y1; fv; fl; ob; ps; gam])
           | (w', Err _) => (w', Ok [t; b1; b2; b3; b4; b5; b6; b7; enan])
           end) = Ok row ->
      cell out "T" i t /\
      ((exists q xs ys psl gs, p1 = ENum q /\ x1 = ERow xs /\ y1 = ERow ys /\ activity_of q ys psl xs gs /\
             (forall j, j < length xs -> exists rj g' q' a b, pure_of (length xs) j rj /\ nth_error psl j = Some q' /\
                snd (c_sat R g' t (ERow rj) (opts_of k w1 (pg, pl, ph) mt)) = Ok (ENum q', a, b)) /\
             cell out "P" i p1 /\ cell out "xi" i x1 /\ cell out "yi" i y1 /\ cell out "Psat" i (ERow psl) /\ cell out "gamma" i (ERow gs))
          \/ (cell out "gamma" i enan /\
              forall q xs ys, p1 = ENum q -> x1 = ERow xs -> y1 = ERow ys -> length ys = length xs ->
                exists j rj g', pure_of (length xs) j rj /\ forall q' a b, snd (c_sat R g' t (ERow rj) (opts_of k w1 (pg, pl, ph) mt)) <> Ok (ENum q', a, b)))).
    { intros w2 p1 x1 y1 fv fl ob b1 b2 b3 b4 b5 b6 b7 Hw Ha.
      assert (EO : opts_of k w2 (pg, pl, ph) mt = opts_of k w1 (pg, pl, ph) mt) by (unfold opts_of; rewrite Hw; reflexivity).
      destruct (activity R w2 k (pg, pl, ph) mt p1 t x1 y1) as [w3 r] eqn:Ea. apply activity_spec in Ea. rewrite EO in Ea.
      destruct r as [[gam ps]|e].
      - destruct Ea as (q & xs & ys & psl & gs & -> & -> & -> & -> & -> & HA & HS). cbn [snd] in Ha. injection Ha as <-. f2.
        split; [assumption|]. left. exists q, xs, ys, psl, gs. repeat (split; [reflexivity|]). split; [exact HA|]. split; [exact HS|].
        repeat split; assumption.
      - cbn [snd] in Ha. injection Ha as <-. f2. split; [assumption|]. right. split; assumption. }
    unfold equilibrium. destruct m.
    - destruct (c_dew R (glob w1) y t _) as [g [[[[[p' a] b] c] d]|e]]; cbn [snd].
      + eapply F; [|exact Hs]. reflexivity.
      + cbn [snd] in Hs. injection Hs as <-. f2. split; assumption.
    - destruct (c_bubble R (glob w1) x t _) as [g [[[[[p' a] b] c] d]|e]]; cbn [snd].
      + eapply F; [|exact Hs]. reflexivity.
      + cbn [snd] in Hs. injection Hs as <-. f2. split; assumption.
    - destruct (c_flash R (glob w1) p t _) as [g [[[[[x' a] b] c] d]|e]]; cbn [snd].
      + eapply F; [|exact Hs]. reflexivity.
      + cbn [snd] in Hs. injection Hs as <-. f2. split; assumption.
    - eapply F; [|exact Hs]. reflexivity.
  Qed.

  (** C51: with no composition and no pressure the request is refused. *)
Theorem C51_refuses : forall w sys k,
    dget sys "xilist" = None -> dget sys "yilist" = None -> dget sys "Plist" = None ->
    snd (activity_coefficient R w sys k) = Err ValueError.
  Proof.
    intros w sys k Hx Hy Hp. unfold activity_coefficient.
    assert (prep_activity (ncomp R) sys = Err ValueError) as ->; [|reflexivity].
    unfold prep_activity, wrap_rows. rewrite Hx. cbn [rbind]. rewrite Hy. cbn [rbind].
    destruct (check_length_dict sys ["Tlist"; "yilist"; "xilist"; "Plist"]%string None) as [td|e] eqn:E; cbn [rbind].
    - destruct (checked _ _ _ E) as (_ & _ & C2 & _). unfold dmem. rewrite !C2 by (assumption || (cbn; tauto)). reflexivity.
    - pose proof (check_length_dict_spec sys ["Tlist"; "yilist"; "xilist"; "Plist"]%string None) as S.
      rewrite E in S. destruct S as [-> _]. reflexivity.
  Qed.

  (** C51 is false when a composition has to be calculated for more points than there are
      components: the request is never granted. *)
Theorem C51_many_points_refuted : forall w sys k w' out sys1 sys2 n,
    rows_in "xilist" sys sys1 -> rows_in "yilist" sys1 sys2 -> longest sys2 ["Tlist"; "yilist"; "xilist"; "Plist"]%string n ->
    dget sys2 "xilist" = None \/ dget sys2 "yilist" = None -> ncomp R < n ->
    activity_coefficient R w sys k <> (w', Ok out).
  Proof.
    intros w sys k w' out sys1 sys2 n R1 R2 HL Hn Hlt E. unfold activity_coefficient in E.
    destruct (prep_activity (ncomp R) sys) as [[m ins]|] eqn:P; [|discriminate].
    apply prep_activity_spec in P. destruct P as (a1 & a2 & n' & S1 & S2 & HL' & _ & HB & _).
    pose proof (rows_in_fun _ _ _ _ R1 S1) as F1.
    assert (F2 : forall q, dget sys2 q = dget a2 q).
    { apply (rows_in_ext _ sys1 a1 sys2 a2 F1 R2 S2). }
    apply (longest_ext a2 sys2) in HL'; [|congruence]. assert (n' = n) as -> by (eapply longest_unique; eassumption).
    rewrite <- !F2 in HB. specialize (HB Hn). lia.
  Qed.

  (** C79: the result holds these quantities, each once, and no others. *)
  Lemma run_points_keys {I} (step : world G -> I -> world G * result (list elem)) w ins names w' out :
    run_points step w ins names = (w', Ok out) -> map fst out = names.
  Proof.
    unfold run_points. destruct (run_list step w ins) as [w1 [rs|e]]; cbn [rbind]; intros E; [|discriminate].
    destruct (np_transpose rs) as [c|c]; [|discriminate]. destruct (Nat.eqb (length c) (length names)) eqn:L; [|discriminate].
    injection E as _ <-. apply Nat.eqb_eq in L. clear - L. revert c L. induction names as [|n ns IH]; intros [|x c] L; try discriminate; [reflexivity|].
    cbn. f_equal. apply IH. cbn in L. lia.
  Qed.
  Lemma given_keys given wr w' out : with_given given wr = (w', Ok out) ->
    exists o, wr = (w', Ok o) /\ map fst out = map fst given ++ map fst o.
  Proof.
    destruct wr as [w [o|e]]; cbn; intros E; [|discriminate]. injection E as <- <-. exists o. split; [reflexivity|]. apply map_app.
  Qed.
  Ltac listed := cbn [map fst app phase_given]; apply NoDup_Permutation; [nodup|nodup|intros c; cbn [In]; tauto].
Theorem C79_columns : forall w sys k w' out,
    let holds (f : world G -> lists -> call_opts O -> world G * result output) names := f w sys k = (w', Ok out) -> Permutation (map fst out) names in
    holds (bubble_pressure R) ["T"; "xi"; "P"; "yi"; "flagl"; "flagv"; "obj"]%string /\
    holds (dew_pressure R) ["T"; "xi"; "P"; "yi"; "flagl"; "flagv"; "obj"]%string /\
    holds (activity_coefficient R) ["T"; "xi"; "P"; "yi"; "flagl"; "flagv"; "obj"; "Psat"; "gamma"]%string /\
    holds (flash R) ["T"; "xi"; "P"; "yi"; "flagl"; "flagv"; "obj"]%string /\
    holds (saturation_properties R) ["T"; "Psat"; "rhol"; "rhov"]%string /\
    holds (liquid_properties R) ["P"; "T"; "xi"; "rhol"; "phil"; "flagl"]%string /\
    holds (vapor_properties R) ["P"; "T"; "yi"; "rhov"; "phiv"; "flagv"]%string /\
    holds (solubility_parameter R) ["P"; "T"; "xi"; "rhol"; "delta"]%string /\
    holds (verify_eos R) ["P"; "T"; "xi"; "residual_v1"; "residual_v2"; "flagv"; "log_phivi"; "residual_l1"; "residual_l2"; "flagl"; "log_phili"]%string.
  Proof.
    intros w sys k w' out holds. unfold holds. clear holds. repeat split; intros E.
    - unfold bubble_pressure in E. destruct (prep_saturated _ sys) as [[td ins]|]; [|discriminate].
      apply given_keys in E. destruct E as (o & E & ->). apply run_points_keys in E. rewrite E. listed.
    - unfold dew_pressure in E. destruct (prep_saturated _ sys) as [[td ins]|]; [|discriminate].
      apply given_keys in E. destruct E as (o & E & ->). apply run_points_keys in E. rewrite E. listed.
    - unfold activity_coefficient in E. destruct (prep_activity _ sys) as [[td ins]|]; [|discriminate].
      apply run_points_keys in E. rewrite E. listed.
    - unfold flash in E. destruct (prep_flash _ sys) as [[td ins]|]; [|discriminate].
      apply given_keys in E. destruct E as (o & E & ->). apply run_points_keys in E. rewrite E. listed.
    - unfold saturation_properties in E. destruct (prep_saturation sys) as [[td ins]|]; [|discriminate].
      apply given_keys in E. destruct E as (o & E & ->). apply run_points_keys in E. rewrite E. listed.
    - unfold liquid_properties in E. destruct (prep_phase _ _ _ sys) as [[td ins]|]; [|discriminate].
      apply given_keys in E. destruct E as (o & E & ->). apply run_points_keys in E. rewrite E. listed.
    - unfold vapor_properties in E. destruct (prep_phase _ _ _ sys) as [[td ins]|]; [|discriminate].
      apply given_keys in E. destruct E as (o & E & ->). apply run_points_keys in E. rewrite E. listed.
    - unfold solubility_parameter in E. destruct (prep_phase _ _ _ sys) as [[td ins]|]; [|discriminate].
      destruct (run_points _ w ins _) as [w1 [o1|e]] eqn:E1; [|discriminate]. apply run_points_keys in E1.
      apply given_keys in E. destruct E as (o & E & ->). cbn [rbind] in E. injection E as _ <-.
      destruct o1 as [|[k1 v1] [|[k2 v2] [|[k3 v3] [|]]]]; try discriminate. cbn [map fst] in E1. injection E1 as -> -> ->. cbn. listed.
    - unfold verify_eos in E. destruct (prep_verify _ sys) as [[td ins]|]; [|discriminate].
      apply given_keys in E. destruct E as (o & E & ->). apply run_points_keys in E. rewrite E. listed.
  Qed.
  (** *** C52 *)
  Variable other_attribute : string -> option (result output).
Theorem C52_thermo : forall w sys k,
    thermo R other_attribute w None sys k = (w, Err ValueError) /\
    (forall nm f w' out, calculation R nm = Some f -> f w sys k = (w', Ok out) ->
       thermo R other_attribute w (Some nm) sys k = (w', Ok out)) /\
    (forall nm f w' e, calculation R nm = Some f -> f w sys k = (w', Err e) ->
       thermo R other_attribute w (Some nm) sys k = (w', Err TypeError)) /\
    (forall nm, ~ In nm ["bubble_pressure"; "dew_pressure"; "activity_coefficient"; "flash"; "saturation_properties"; "liquid_properties";
                         "vapor_properties"; "solubility_parameter"; "verify_eos"]%string ->
       ~ In nm ["np"; "logging"; "calc"; "constants"; "gtb"; "logger"; "__name__"; "__doc__"; "__file__"]%string -> other_attribute nm = None ->
       thermo R other_attribute w (Some nm) sys k = (w, Err ImportError)).
  Proof.
    intros w sys k. split; [reflexivity|]. split; [|split].
    - intros nm f w' out Hc Hf. cbn [thermo]. rewrite Hc, Hf. reflexivity.
    - intros nm f w' e Hc Hf. cbn [thermo]. rewrite Hc, Hf. reflexivity.
    - intros nm H1 H2 H3. cbn [thermo].
      assert (calculation R nm = None) as ->.
      { destruct (calculation R nm) eqn:E; [|reflexivity]. exfalso. apply H1. apply dget_In in E. apply (in_map fst) in E. exact E. }
      assert (smem nm not_callable = false) as -> by (apply smem_nIn; exact H2). rewrite H3. reflexivity.
  Qed.
  (** C52: the calculation run is the one of that name, and no other *)
Theorem C52_names : forall nm f, calculation R nm = Some f ->
    (nm = "bubble_pressure" /\ f = bubble_pressure R \/ nm = "dew_pressure" /\ f = dew_pressure R \/
     nm = "activity_coefficient" /\ f = activity_coefficient R \/ nm = "flash" /\ f = flash R \/
     nm = "saturation_properties" /\ f = saturation_properties R \/ nm = "liquid_properties" /\ f = liquid_properties R \/
     nm = "vapor_properties" /\ f = vapor_properties R \/ nm = "solubility_parameter" /\ f = solubility_parameter R \/
     nm = "verify_eos" /\ f = verify_eos R)%string.
  Proof.
    intros nm f H. apply dget_In in H. cbn [In] in H. 
    repeat (destruct H as [H|H]; [injection H as <- <-; tauto|]). destruct H.
  Qed.
  (** C52 is false for names that are attributes of the module without being calculations *)
Theorem C52_attribute_refuted : forall w sys k,
    calculation R "calc" = None /\ snd (thermo R other_attribute w (Some "calc"%string) sys k) = Err TypeError.
  Proof. intros. split; reflexivity. Qed.

  (** C50 for a single mixture point: the bubble and the dew calculation use the "method" entry of the
      caller's pressure_options, and the other entries reach them. *)
Theorem C50_single_point_partial : forall w d v t r k,
    press w = Some d -> dget d "method" = Some v -> present r <> 1 ->
    exists pr, (forall q, q <> "method"%string -> dget pr q = dget d q) /\
    let o := {| o_limits := (None, None, None); o_method := Some v; o_press := Some pr; o_rest := k_rest k |} in
    (forall g p y fv fl ob, c_bubble R (glob w) (ERow r) t o = (g, Ok (p, y, fv, fl, ob)) ->
       exists w' out, bubble_pressure R w [("Tlist"%string, Arr [t]); ("xilist"%string, Arr [ERow r])] k = (w', Ok out) /\
         cell out "P" 0 p /\ cell out "yi" 0 y /\ cell out "obj" 0 ob) /\
    (forall g p x fl fv ob, c_dew R (glob w) (ERow r) t o = (g, Ok (p, x, fl, fv, ob)) ->
       exists w' out, dew_pressure R w [("Tlist"%string, Arr [t]); ("yilist"%string, Arr [ERow r])] k = (w', Ok out) /\
         cell out "P" 0 p /\ cell out "xi" 0 x /\ cell out "obj" 0 ob).
  Proof.
    intros w d v t r k Hp Hv Hr. exists (ddel d "method"). split.
    { intros q Hq. apply dget_ddel_other. congruence. }
    assert (Hpure : pure (ERow r) = Ok false).
    { unfold pure. change (Ok (Nat.eqb (present r) 1) = Ok false). f_equal. apply Nat.eqb_neq, Hr. }
    split.
    - intros g p y fv fl ob H. eexists _, _. split.
      { unfold bubble_pressure. cbn -[run_points]. unfold run_points. cbn [run_list]. unfold saturated_point at 1.
        rewrite Hpure. unfold take_method. rewrite Hp, Hv. cbn [glob]. unfold opts_of. cbn [press]. rewrite H. reflexivity. }
      split; [|split]; (eexists; split; reflexivity).
    - intros g p x fl fv ob H. eexists _, _. split.
      { unfold dew_pressure. cbn -[run_points]. unfold run_points. cbn [run_list]. unfold saturated_point at 1.
        rewrite Hpure. unfold take_method. rewrite Hp, Hv. cbn [glob]. unfold opts_of. cbn [press]. rewrite H. reflexivity. }
      split; [|split]; (eexists; split; reflexivity).
  Qed.
End Points.

(** *** concrete cases *)
(** A process without memory.  Bubble points report, as objective, 1 for the method "secant" and 0
    otherwise; points at 1 K raise. *)
Definition hot (t : elem) : bool := match t with ENum x => nlt (Fin 1) x | _ => false end.
Definition toy (nc : nat) : routines unit unit := {|
  ncomp := nc;
  c_sat := fun g t x o => (g, if hot t then Ok (ENum (Fin 2), ENum (Fin 30), ENum (Fin 4)) else Err RuntimeError);
  c_bubble := fun g x t o => (g, if hot t then Ok (t, x, ENum (Fin 0), ENum (Fin 1), ENum (Fin (match o_method o with Some "secant"%string => 1 | _ => 0 end)))
                                 else Err RuntimeError);
  c_dew := fun g y t o => (g, if hot t then Ok (t, y, ENum (Fin 1), ENum (Fin 0), ENum (Fin 0)) else Err RuntimeError);
  c_flash := fun g p t o => (g, if hot t then Ok (ERow [Fin (1#4); Fin (3#4)], ENum (Fin 1), ERow [Fin (2#3); Fin (1#3)], ENum (Fin 0), p) else Err RuntimeError);
  c_liquid := fun g p t x o => (g, if hot t then Ok (x, p, ENum (Fin 1)) else Err RuntimeError);
  c_vapor := fun g p t x o => (g, if hot t then Ok (x, p, ENum (Fin 0)) else Err RuntimeError);
  c_ldensity := fun g p t x o => (g, if hot t then Ok (ENum (Fin 7), ENum (Fin 1)) else Err RuntimeError);
  c_hildebrand := fun g r x t o => (g, Ok r);
  c_verify := fun g p t x o => (g, if hot t then Ok [p; p; t; x; p; p; t; x] else Err RuntimeError) |}.
Example toy_history_free nc : history_free (toy nc).
Proof. repeat split. Qed.
Definition T (l : list Q) : string * value elem := ("Tlist"%string, Arr (map (fun q => ENum (Fin q)) l)).
Definition P (l : list Q) : string * value elem := ("Plist"%string, Arr (map (fun q => ENum (Fin q)) l)).
Definition half : elem := ERow [Fin (1#2); Fin (1#2)].
Definition plain : call_opts unit := {| k_method := None; k_rest := tt |}.
Definition start : world unit := {| glob := tt; press := None |}.
Definition shared : world unit := {| glob := tt; press := Some [("method"%string, "secant"%string); ("xtol"%string, "1e-6"%string)] |}.
Definition col (r : result output) (nm : string) : option (list elem) := match r with Ok o => dget o nm | Err _ => None end.

Example C79_flash_example : let r := snd (flash (toy 2) start [T [300; 1; 350]%Q; P [5]%Q] plain) in
  col r "T" = Some [ENum (Fin 300); ENum (Fin 1); ENum (Fin 350)] /\ col r "P" = Some [ENum (Fin 5); ENum (Fin 5); ENum (Fin 5)] /\
  col r "flagl" = Some [ENum (Fin 1); flag3; ENum (Fin 1)] /\ col r "obj" = Some [ENum (Fin 5); enan; ENum (Fin 5)].
Proof. vm_compute. repeat split. Qed.
Example C79_bubble_example : let r := snd (bubble_pressure (toy 2) start [("xilist"%string, Arr [half]); T [300; 1]%Q] plain) in
  col r "P" = Some [ENum (Fin 300); enan] /\ col r "yi" = Some [half; ERow [NaN; NaN]] /\ col r "flagv" = Some [ENum (Fin 0); flag3].
Proof. vm_compute. repeat split. Qed.
Example C79_verify_example : let r := snd (verify_eos (toy 2) start [T [300]%Q] plain) in
  match col r "xi" with Some l => length l = 11 | None => False end.
Proof. vm_compute. reflexivity. Qed.
Example C79_solubility_example : let r := snd (solubility_parameter (toy 1) start [T [300; 1]%Q] plain) in
  col r "delta" = Some [ENum (Fin 7); enan] /\ col r "xi" = Some [ERow [Fin 1]; ERow [Fin 1]] /\ col r "P" = Some [ambient_P; ambient_P].
Proof. vm_compute. repeat split. Qed.
Example C51_example : let r := snd (activity_coefficient (toy 2) start [("xilist"%string, Arr [half]); T [300]%Q] plain) in
  match col r "gamma" with Some [ERow [Fin a; Fin b]] => (a == 150 /\ b == 150)%Q | _ => False end.
Proof. vm_compute. split; reflexivity. Qed.

(** C79 is false when only compositions are given to saturation_properties, which documents a default
    temperature, ... *)
Theorem C79_saturation_refuted : forall (R : routines unit unit) w k r1 r2,
  snd (saturation_properties R w [("xilist"%string, Arr [ERow r1; ERow r2])] k) = Err IndexError.
Proof. intros. reflexivity. Qed.
(** ... and when all of the lists are left to their defaults. *)
Theorem C79_defaults_refuted : forall (R : routines unit unit) w k, ncomp R = 1 ->
  snd (liquid_properties R w [] k) = Err ValueError /\ snd (vapor_properties R w [] k) = Err ValueError /\
  snd (saturation_properties R w [] k) = Err ValueError /\ snd (solubility_parameter R w [] k) = Err UnboundLocalError.
Proof. intros R w k H. unfold liquid_properties, vapor_properties, saturation_properties, solubility_parameter. rewrite H. repeat split. Qed.

(** C50 is false for an entry "method" in pressure_options: the first point takes it out of the
    caller's dictionary, and the later ones run without it although their inputs are the same. *)
Theorem C50_method_refuted : exists w' out,
  bubble_pressure (toy 2) shared [("xilist"%string, Arr [half; half]); T [300; 300]%Q] plain = (w', Ok out) /\
  history_free (toy 2) /\ press shared = Some [("method"%string, "secant"%string); ("xtol"%string, "1e-6"%string)] /\
  press w' = Some [("xtol"%string, "1e-6"%string)] /\
  cell out "obj" 0 (ENum (Fin 1)) /\ cell out "obj" 1 (ENum (Fin 0)).
Proof.
  eexists _, _. split; [vm_compute; reflexivity|]. split; [apply toy_history_free|]. split; [reflexivity|]. split; [reflexivity|].
  split; (eexists; split; [vm_compute; reflexivity|reflexivity]).
Qed.
(** the same dictionary, and what the next calculation with it sees *)
Theorem C50_next_call_refuted :
  let sys := [("xilist"%string, Arr [half]); T [300]%Q] in
  let w1 := fst (bubble_pressure (toy 2) shared sys plain) in
  col (snd (bubble_pressure (toy 2) shared sys plain)) "obj" = Some [ENum (Fin 1)] /\
  col (snd (bubble_pressure (toy 2) w1 sys plain)) "obj" = Some [ENum (Fin 0)].
Proof. vm_compute. split; reflexivity. Qed.

(** C51 is false for several points: a bubble mode request with three points of a binary. *)
Theorem C51_three_points_refuted : forall (R : routines unit unit) w k r1 r2 r3, ncomp R = 2 ->
  snd (activity_coefficient R w [("xilist"%string, Arr [ERow r1; ERow r2; ERow r3])] k) = Err IndexError.
Proof. intros R w k r1 r2 r3 H. unfold activity_coefficient. rewrite H. reflexivity. Qed.
(** C51 is false when both compositions are given without a pressure: the request is granted and the
    coefficients are undefined. *)
Theorem C51_no_pressure_refuted :
  col (snd (activity_coefficient (toy 2) start [("xilist"%string, Arr [half]); ("yilist"%string, Arr [half])] plain)) "gamma"
    = Some [ERow [NaN; NaN]].
Proof. vm_compute. reflexivity. Qed.

(** C49 is false for bubble points, whose starting composition is kept between points: with the
    model of calc_bubble_pressure, a point that fails changes what the next point reports. *)
From Verif Require Import BubbleDewModel BubbleDewProps.
Definition failing_point : point (C := Q) :=
  {| raoult := Ok (2#3); brackets := brackets (demo_point (2#3)); inner := inner (demo_point (2#3));
     value := value (demo_point (2#3)); own_flag := own_flag (demo_point (2#3)); other_flag := other_flag (demo_point (2#3));
     Pguess := None; solver := fun x0 lo hi => Ask x0 (fun v => Fail RuntimeError) |}.
Definition binary : routines (process Q) unit := {|
  ncomp := 2;
  c_sat := fun g t x o => (g, Err RuntimeError);
  c_bubble := fun g x t o =>
    let (g', r) := calc_pressure whole (fun _ => false) false (if hot t then demo_point (1#3) else failing_point) g in
    (g', match r with
         | Ok r => Ok (ENum (r_P r), ERow [Fin (r_comp r); Fin (1 - r_comp r)%Q], ENum (Fin 0), ENum (Fin 1), ENum (r_obj r))
         | Err e => Err e end);
  c_dew := fun g y t o => (g, Err RuntimeError);
  c_flash := fun g p t o => (g, Err RuntimeError);
  c_liquid := fun g p t x o => (g, Err RuntimeError);
  c_vapor := fun g p t x o => (g, Err RuntimeError);
  c_ldensity := fun g p t x o => (g, Err RuntimeError);
  c_hildebrand := fun g r x t o => (g, Err RuntimeError);
  c_verify := fun g p t x o => (g, Err RuntimeError) |}.
Theorem C49_bubble_refuted :
  let w := {| glob := fresh; press := None |} in
  col (snd (bubble_pressure binary w [("xilist"%string, Arr [half]); T [300]%Q] plain)) "yi"
    = Some [ERow [Fin (1#4); Fin (3#4)]] /\
  col (snd (bubble_pressure binary w [("xilist"%string, Arr [half]); T [1; 300]%Q] plain)) "yi"
    = Some [ERow [NaN; NaN]; ERow [Fin (3#4); Fin (1#4)]].
Proof. vm_compute. split; reflexivity. Qed.

(** the hypotheses of C50_single_point_partial are met by the dictionary of the examples *)
Example C50_single_point_case : exists d, press shared = Some d /\ dget d "method" = Some "secant"%string /\
  present [Fin (1#2); Fin (1#2)] <> 1%nat.
Proof. eexists. split; [reflexivity|]. split; [reflexivity|discriminate]. Qed.

Print Assumptions C79_flash.
Print Assumptions C50_single_point_partial.
Print Assumptions C79_saturation.
Print Assumptions C79_liquid.
Print Assumptions C79_vapor.
Print Assumptions C79_solubility.
Print Assumptions C79_bubble.
Print Assumptions C79_dew.
Print Assumptions C79_verify.
Print Assumptions C79_saturation_refuted.
Print Assumptions C79_defaults_refuted.
Print Assumptions C79_columns.
Print Assumptions C49_never_raises_partial.
Print Assumptions C49_isolated_partial.
Print Assumptions C49_isolated_bubble_partial.
Print Assumptions C49_verify_refuted.
Print Assumptions C49_bubble_refuted.
Print Assumptions C50_method_refuted.
Print Assumptions C50_next_call_refuted.
Print Assumptions C51_partial.
Print Assumptions C51_refuses.
Print Assumptions C51_many_points_refuted.
Print Assumptions C51_three_points_refuted.
Print Assumptions C51_no_pressure_refuted.
Print Assumptions C52_thermo.
Print Assumptions C52_names.
Print Assumptions C52_attribute_refuted.
