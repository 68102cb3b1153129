(** C121: when the search for a pressure bracket finds one. *)
From Coq Require Import Lqa Lia.
From Verif Require Import Base BaseFacts Num NumFacts DensityModel PrangeModel PrangeProps PrangeFinds PrangeDew PrangeBubble.
Open Scope Q_scope.

(** C121 for bubble points without limits: with enough iterations allowed, a bracket around the
    bubble pressure is found and the pressure suggested lies within. *)
Theorem C121_bubble : forall G (liq : num -> result (bool * nat)) (vapc : G -> num -> result (G * found)) well o draw Pl Pa Pt v mx mn tol P0 P1 g0,
  bubbles liq vapc Pl Pa Pt v -> factors o mx mn -> o_ptol o = Fin tol -> o_Pmin o = None -> o_Pmax o = None ->
  starts o P0 P1 -> 0 < P1 -> 0 < tol -> tol <= (mx - 1) * P0 ->
  (Pl <= P0 /\ P0 + tol <= P1 \/ v P1 < 0) ->
  exists N, forall maxiter, (N <= maxiter)%nat -> exists br lo hi,
    calc_Prange_xi liq vapc well o draw maxiter g0 = Ok br /\ brackets br lo hi /\ Pl <= lo /\ 0 < v lo /\ v hi < 0.
Proof.
  intros. destruct (bubble_success liq vapc well o draw Pl Pa Pt v ltac:(eassumption) mx mn tol ltac:(eassumption) ltac:(eassumption) P0 P1 g0) as [N HN]; try assumption.
  exists N. intros m Hm. destruct (HN m Hm) as (br & E & lo & hi & B & X). exists br, lo, hi. auto.
Qed.
Print Assumptions C121_bubble.

(** C121 for bubble points with limits around the bubble pressure: they are the bracket. *)
Theorem C121_bubble_limits : forall G (liq : num -> result (bool * nat)) (vapc : G -> num -> result (G * found)) well o draw Pl Pa Pt v a b g0 maxiter,
  bubbles liq vapc Pl Pa Pt v -> o_Pmin o = Some (Fin a) -> o_Pmax o = Some (Fin b) ->
  0 < a -> Pl <= a -> 0 < v a -> 0 < b -> v b < 0 -> (2 <= maxiter)%nat ->
  exists br, calc_Prange_xi liq vapc well o draw maxiter g0 = Ok br /\ brackets br a b.
Proof. intros. eapply bubble_limits; eassumption. Qed.
Print Assumptions C121_bubble_limits.

(** C121: a bubble pressure below the user's minimum is refused *)
Theorem C121_bubble_below_minimum : forall G (liq : num -> result (bool * nat)) (vapc : G -> num -> result (G * found)) well o draw Pl Pa Pt v a P1 g0 maxiter,
  bubbles liq vapc Pl Pa Pt v -> o_Pmin o = Some (Fin a) -> initial_range o = Ok (Fin a, P1) ->
  0 < a -> Pl <= a -> v a < 0 -> (0 < maxiter)%nat ->
  calc_Prange_xi liq vapc well o draw maxiter g0 = Err ValueError.
Proof. intros. eapply bubble_below; eassumption. Qed.
Print Assumptions C121_bubble_below_minimum.

(** C121 for dew points, if the first pressure tried lies below the dew pressure *)
Theorem C121_dew_partial : forall G (vap : num -> result (bool * nat)) (liqc : G -> num -> result (G * found)) o draw Pw Pv v mx mn P0 P1 g0,
  dews vap liqc Pw Pv v -> factors o mx mn -> o_Pmax o = None -> starts o P0 P1 -> P0 <= Pv -> v P0 < 0 ->
  exists N, forall maxiter, (N <= maxiter)%nat -> exists br lo hi,
    calc_Prange_yi vap liqc o draw maxiter g0 = Ok br /\ brackets br lo hi /\ v lo <= 0 /\ 0 < v hi /\ hi <= Pv.
Proof.
  intros. destruct (dew_success vap liqc o draw Pw Pv v ltac:(eassumption) mx mn ltac:(eassumption) ltac:(assumption) P0 P1 g0) as [N HN]; try assumption.
  exists N. intros m Hm. destruct (HN m Hm) as (br & E & lo & hi & B & X). exists br, lo, hi. auto.
Qed.
Print Assumptions C121_dew_partial.

(** C121, refuted for dew points otherwise: without limits, a first pressure above the dew
    pressure is never lowered, however many iterations are allowed, ... *)
Theorem C121_dew_low_refuted : forall G (vap : num -> result (bool * nat)) (liqc : G -> num -> result (G * found)) o draw Pw Pv v mx mn P0 P1 g0 maxiter,
  dews vap liqc Pw Pv v -> factors o mx mn -> o_Pmin o = None -> starts o P0 P1 -> Pw < P0 -> P0 <= Pv -> (0 < maxiter)%nat ->
  calc_Prange_yi vap liqc o draw maxiter g0 = Err ValueError.
Proof. intros. eapply dew_low; eassumption. Qed.
Print Assumptions C121_dew_low_refuted.
(** ... and one at which the vapor is not found ends in an UnboundLocalError. *)
Theorem C121_dew_liquid_refuted : forall G (vap : num -> result (bool * nat)) (liqc : G -> num -> result (G * found)) o draw Pw Pv v P0 P1 g0 maxiter,
  dews vap liqc Pw Pv v -> starts o P0 P1 -> Pv < P0 -> (0 < maxiter)%nat ->
  calc_Prange_yi vap liqc o draw maxiter g0 = Err UnboundLocalError.
Proof. intros. eapply dew_liquid; eassumption. Qed.
Print Assumptions C121_dew_liquid_refuted.

(** C121, refuted for bubble points when a pressure tried is exactly the bubble pressure *)
Theorem C121_bubble_exact_refuted : forall maxiter, (0 < maxiter)%nat ->
  calc_Prange_xi (fun _ => Ok (false, 1%nat)) (at_pressure_v (fun q => nsub (Fin 1000) q)) (fun _ _ => Err ValueError)
    (opts None None) (fun _ => Fin (1#2)) maxiter tt = Err ValueError.
Proof. intros [|m] H; [lia|]. reflexivity. Qed.
Print Assumptions C121_bubble_exact_refuted.

(** ** Concrete fluids *)
(** liquid from 500 Pa on, bubble pressure just above [c] *)
Definition demo_v (c q : Q) : Q := if Qlt_le_dec c q then c - 1 - q else c + 1 - q.
Definition demo_fluid (c : Q) (g : unit) (x : num) : result (unit * found) :=
  Ok (tt, {| f_nan := false; f_flag := 0; f_same := false; f_obj := match x with Fin q => Fin (demo_v c q) | _ => NaN end |}).
Definition demo_liq (x : num) : result (bool * nat) := Ok (false, if nlt x (Fin 500) then 0%nat else 1%nat).
Lemma demo_bubbles c : 500 < c -> bubbles demo_liq (demo_fluid c) 500 c (c + 1) (demo_v c).
Proof.
  intros Hc. split.
  - intros q _ H. exists 1%nat. unfold demo_liq. rewrite (ltF q 500 H). auto.
  - intros q _ H. exists 0%nat. unfold demo_liq. rewrite (ltT q 500 H). auto.
  - intros [] q _ _. eexists. eexists. split; [reflexivity|]. cbn. auto.
  - intros p q _ H. unfold demo_v. destruct (Qlt_le_dec c q), (Qlt_le_dec c p); lra.
  - intros p q H. unfold demo_v. destruct (Qlt_le_dec c q), (Qlt_le_dec c p); lra.
  - intros q. unfold demo_v. destruct (Qlt_le_dec c q); lra.
  - split; [lra|]. split; [exact Hc|]. unfold demo_v. destruct (Qlt_le_dec c c); lra.
  - split; [lra|]. unfold demo_v. destruct (Qlt_le_dec c (c + 1)); lra.
Qed.
Lemma default_factors lo hi : factors (opts lo hi) 2 (1#2). Proof. unfold factors. cbn. repeat split; lra. Qed.
Lemma default_starts : starts (opts None None) 1000 100000. Proof. split; [reflexivity|lra]. Qed.
(** 600 Pa is below the first pressure, 5000 Pa between the first two, 7 MPa above both *)
Example C121_bubble_case : forall c, c = 600 \/ c = 5000 \/ c = 7000000 ->
  exists N, forall maxiter, (N <= maxiter)%nat -> exists br lo hi,
    calc_Prange_xi demo_liq (demo_fluid c) (fun _ _ => Err ValueError) (opts None None) (fun _ => Fin (1#2)) maxiter tt = Ok br /\
    brackets br lo hi /\ 500 <= lo /\ 0 < demo_v c lo /\ demo_v c hi < 0.
Proof.
  intros c Hc. assert (500 < c) by (destruct Hc as [->|[-> | ->]]; lra).
  apply (C121_bubble unit demo_liq (demo_fluid c) _ (opts None None) _ 500 c (c + 1) (demo_v c) 2 (1#2) (1#100) 1000 100000 tt);
    try exact (demo_bubbles c ltac:(lra)); try exact (default_factors _ _); try exact default_starts; try reflexivity; try lra; left; split; lra.
Qed.
Example C121_bubble_limits_case : exists br,
  calc_Prange_xi demo_liq (demo_fluid 5000) (fun _ _ => Err ValueError) (opts (Some (Fin 900)) (Some (Fin 9000))) (fun _ => Fin (1#2)) 200 tt = Ok br /\ brackets br 900 9000.
Proof.
  apply (C121_bubble_limits unit demo_liq (demo_fluid 5000) _ _ _ 500 5000 5001 (demo_v 5000)); try reflexivity; try lra; try lia.
  apply (demo_bubbles 5000). lra.
Qed.
Example C121_bubble_below_minimum_case :
  calc_Prange_xi demo_liq (demo_fluid 600) (fun _ _ => Err ValueError) (opts (Some (Fin 900)) None) (fun _ => Fin (1#2)) 200 tt = Err ValueError.
Proof.
  apply (C121_bubble_below_minimum unit demo_liq (demo_fluid 600) _ _ _ 500 600 601 (demo_v 600) 900 (Fin 100000)); try reflexivity; try lra; try lia.
  apply (demo_bubbles 600). lra.
Qed.

(** dew pressure [c], the vapor persists up to [1.5 c] *)
Definition demo_dew (c : Q) (g : unit) (x : num) : result (unit * found) :=
  Ok (tt, {| f_nan := false; f_flag := 1; f_same := false; f_obj := nsub x (Fin c) |}).
Definition demo_vap (c : Q) (x : num) : result (bool * nat) := Ok (false, if nlt (Fin ((3#2) * c)) x then 1%nat else 0%nat).
Lemma demo_dews c : 0 < c -> dews (demo_vap c) (demo_dew c) ((5#4) * c) ((3#2) * c) (fun q => q + - c).
Proof.
  intros Hc. split.
  - intros q _ H. exists 0%nat. unfold demo_vap. rewrite (ltF _ q H). auto.
  - intros q _ H. exists 1%nat. unfold demo_vap. rewrite (ltT _ q H). auto.
  - intros [] q _. eexists. eexists. split; [reflexivity|]. cbn. auto.
  - intros p q _ H. lra.
  - repeat split; lra.
Qed.
Example C121_dew_case : forall c, c = 5000 \/ c = 7000000 ->
  exists N, forall maxiter, (N <= maxiter)%nat -> exists br lo hi,
    calc_Prange_yi (demo_vap c) (demo_dew c) (opts None None) (fun _ => Fin (1#2)) maxiter tt = Ok br /\
    brackets br lo hi /\ lo + - c <= 0 /\ 0 < hi + - c /\ hi <= (3#2) * c.
Proof.
  intros c Hc. assert (1000 < c) by (destruct Hc as [-> | ->]; lra).
  apply (C121_dew_partial unit (demo_vap c) (demo_dew c) (opts None None) _ ((5#4) * c) ((3#2) * c) (fun q => q + - c) 2 (1#2) 1000 100000 tt);
    try exact (demo_dews c ltac:(lra)); try exact (default_factors _ _); try exact default_starts; try reflexivity; lra.
Qed.
Example C121_dew_low_case : forall maxiter, (0 < maxiter)%nat ->
  calc_Prange_yi (demo_vap 700) (demo_dew 700) (opts None None) (fun _ => Fin (1#2)) maxiter tt = Err ValueError.
Proof.
  intros m Hm. eapply (C121_dew_low_refuted unit (demo_vap 700) (demo_dew 700) (opts None None) _ ((5#4) * 700) ((3#2) * 700) (fun q => q + - 700));
    try exact (demo_dews 700 ltac:(lra)); try exact (default_factors _ _); try exact default_starts; try reflexivity; try lra; assumption.
Qed.
Example C121_dew_liquid_case : forall maxiter, (0 < maxiter)%nat ->
  calc_Prange_yi (demo_vap 300) (demo_dew 300) (opts None None) (fun _ => Fin (1#2)) maxiter tt = Err UnboundLocalError.
Proof.
  intros m Hm. eapply (C121_dew_liquid_refuted unit (demo_vap 300) (demo_dew 300) (opts None None) _ ((5#4) * 300) ((3#2) * 300) (fun q => q + - 300));
    try exact (demo_dews 300 ltac:(lra)); try exact (default_factors _ _); try exact default_starts; try reflexivity; try lra; assumption.
Qed.
