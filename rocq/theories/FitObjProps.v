(** C53 and C54: the objective functions of a fit. *)
From Verif Require Import Base BaseFacts Num NumFacts FitObjModel.
From Coq Require Import Lqa.
Open Scope Q_scope.

(** *** Specification *)
(** one point of a data set: the calculated value ([None]: it could not be calculated), the
    reference value and the weight *)
Record datum := { calc : option Q; ref : Q; weight : Q }.
Definition given (d : datum) : num := match calc d with Some q => Fin q | None => NaN end.
(** references are not zero and weights are positive *)
Definition proper (d : datum) : Prop := ~ ref d == 0 /\ 0 < weight d.
Definition available (d : datum) : bool := match calc d with Some _ => true | None => false end.
Definition perfect (d : datum) : Prop := match calc d with Some q => q == ref d | None => True end.
Definition deviation (d : datum) : Q := match calc d with Some q => (q - ref d) / ref d | None => 0 end.
Definition qsum (l : list Q) : Q := fold_right Qplus 0 l.
Definition count (l : list datum) : Q := inject_Z (Z.of_nat (length l)).
(** the documented formulas, over the points that could be calculated *)
Definition formula (method : string) (l : list datum) : option Q :=
  if String.eqb method "average-squared-deviation" then Some (qsum (map (fun d => deviation d * deviation d * weight d) l) / count l)
  else if String.eqb method "sum-squared-deviation" then Some (qsum (map (fun d => deviation d * deviation d * weight d) l))
  else if String.eqb method "percent-absolute-average-deviation" then Some (qsum (map (fun d => Qabs (deviation d) * weight d) l) / count l * 100)
  else None.

Section Objective.
  Variable nexp : num -> num.
  Notation form := (obj_function_form nexp).
  Definition run (l : list datum) (method : string) (number ratio : Q) : result num :=
    form (map given l) (map (fun d => Fin (ref d)) l) (WMany (map (fun d => Fin (weight d)) l)) method (Fin number) (Fin ratio).

  Lemma nsum_fin (l : list Q) : exists v, nsum (map Fin l) = Fin v /\ v == qsum l.
  Proof.
    induction l as [|a l (v & IH & E)]; [exists 0; split; reflexivity|]. cbn. unfold nsum in IH. rewrite IH.
    exists (a + v). split; [reflexivity|]. rewrite E. reflexivity.
  Qed.
  Lemma qsum_ext {A} (f g : A -> Q) l : (forall x, In x l -> f x == g x) -> qsum (map f l) == qsum (map g l).
  Proof. induction l as [|a l IH]; intros H; cbn; [reflexivity|]. rewrite H by (left; reflexivity). rewrite IH by (intros; apply H; right; assumption). reflexivity. Qed.

  Lemma rel_datum d : proper d -> rel (given d, Fin (ref d)) = match calc d with Some q => Fin ((q - ref d) / ref d) | None => NaN end.
  Proof.
    intros [H _]. unfold rel, given. cbn [fst snd]. destruct (calc d) as [q|]; [|reflexivity].
    cbn. destruct (Qeq_bool (ref d) 0) eqn:E; [apply Qeq_bool_iff in E; contradiction|reflexivity].
  Qed.
  Lemma rels l : Forall proper l -> map rel (combine (map given l) (map (fun d => Fin (ref d)) l)) =
    map (fun d => match calc d with Some q => Fin ((q - ref d) / ref d) | None => NaN end) l.
  Proof.
    induction 1 as [|d l Hd _ IH]; [reflexivity|]. cbn [map combine]. rewrite IH, (rel_datum d Hd). reflexivity.
  Qed.
  Lemma kept l : Forall proper l -> filter (fun d => negb (is_nan d)) (map (fun d => match calc d with Some q => Fin ((q - ref d) / ref d) | None => NaN end) l)
    = map (fun d => Fin (deviation d)) (filter available l).
  Proof.
    induction 1 as [|d l Hd _ IH]; [reflexivity|]. cbn [map filter]. unfold available at 1, deviation at 1.
    destruct (calc d) as [q|] eqn:E; cbn [is_nan negb]; [|exact IH]. cbn [map]. rewrite IH. unfold deviation. rewrite E. reflexivity.
  Qed.
  Lemma kept_w l : kept_weights (map (fun d => match calc d with Some q => Fin ((q - ref d) / ref d) | None => NaN end) l) (map (fun d => Fin (weight d)) l)
    = Ok (map (fun d => Fin (weight d)) (filter available l)).
  Proof.
    induction l as [|d l IH]; [reflexivity|]. cbn [map kept_weights tl filter]. unfold available at 1.
    destruct (calc d) as [q|]; cbn [is_nan]; rewrite IH; reflexivity.
  Qed.
  Lemma times_fin {A} (f g : A -> Q) l : times (map (fun d => Fin (f d)) l) (map (fun d => Fin (g d)) l) = map Fin (map (fun d => f d * g d) l).
  Proof. induction l as [|d l IH]; [reflexivity|]. cbn in *. f_equal. exact IH. Qed.
  Lemma mean_fin (l : list Q) : l <> [] -> exists v, np_mean (map Fin l) = Fin v /\ v == qsum l / inject_Z (Z.of_nat (length l)).
  Proof.
    intros H. unfold np_mean. destruct (nsum_fin l) as (v & -> & E). rewrite map_length. cbn.
    assert (Z : Qeq_bool (inject_Z (Z.of_nat (length l))) 0 = false).
    { destruct (Qeq_bool _ _) eqn:X; [|reflexivity]. apply Qeq_bool_iff in X. unfold Qeq in X. cbn in X. destruct l; [congruence|]. cbn in X. lia. }
    rewrite Z. exists (v / inject_Z (Z.of_nat (length l))). split; [reflexivity|]. rewrite E. reflexivity.
  Qed.
  Lemma available_length l : (length (filter available l) <= length l)%nat.
  Proof. induction l as [|d l IH]; [cbn; lia|]. cbn. destruct (available d); cbn; lia. Qed.

  (** C53: the value is the documented formula over the points that could be calculated, plus
      [number] for each missing point when their share exceeds [ratio]; undefined when none could be. *)
Theorem C53_value : forall l method number ratio f, Forall proper l -> formula method (filter available l) = Some f ->
    (filter available l = [] -> run l method number ratio = Ok NaN) /\
    (filter available l <> [] ->
     let missing := count l - count (filter available l) in
     exists v, run l method number ratio = Ok (Fin v) /\
       (missing / count l <= ratio -> v == f) /\ (ratio < missing / count l -> v == f + missing * number)).
  Proof.
    intros l method number ratio f HP Hf. unfold run, obj_function_form. rewrite !map_length, Nat.eqb_refl. cbn [negb].
    rewrite Bool.andb_false_r. rewrite (rels l HP), (kept l HP), (kept_w l). cbn [rbind]. rewrite !map_length.
    pose proof (available_length l) as HL. set (a := filter available l) in *.
    assert (Hsq : times (map (fun d => nmul d d) (map (fun d => Fin (deviation d)) a)) (map (fun d => Fin (weight d)) a)
                  = map Fin (map (fun d => deviation d * deviation d * weight d) a)).
    { rewrite map_map. cbn [nmul]. apply (times_fin (fun d => deviation d * deviation d) weight). }
    rewrite Hsq.
    assert (Hab : times (map nabs (map (fun d => Fin (deviation d)) a)) (map (fun d => Fin (weight d)) a)
                  = map Fin (map (fun d => Qabs (deviation d) * weight d) a)).
    { rewrite map_map. cbn [nabs]. apply (times_fin (fun d => Qabs (deviation d)) weight). }
    rewrite Hab.
    set (value := if String.eqb method "average-squared-deviation" then Ok (Some (np_mean (map Fin (map (fun d => deviation d * deviation d * weight d) a)))) else _).
    assert (HV : exists v, value = Ok (Some v) /\ (a <> [] -> exists q, v = Fin q /\ q == f)).
    { unfold value. clear value. unfold formula in Hf.
      destruct (String.eqb method "average-squared-deviation").
      { eexists. split; [reflexivity|]. intros Ha. injection Hf as <-.
        destruct (mean_fin (map (fun d => deviation d * deviation d * weight d) a)) as (q & E & Hq); [destruct a; [congruence|discriminate]|].
        exists q. split; [exact E|]. rewrite Hq, map_length. reflexivity. }
      destruct (String.eqb method "sum-squared-deviation").
      { eexists. split; [reflexivity|]. intros Ha. injection Hf as <-. apply nsum_fin. }
      destruct (String.eqb_spec method "percent-absolute-average-deviation") as [->|]; [|discriminate].
      cbn [String.eqb Ascii.eqb Bool.eqb]. eexists. split; [reflexivity|]. intros Ha. injection Hf as <-.
      destruct (mean_fin (map (fun d => Qabs (deviation d) * weight d) a)) as (q & E & Hq); [destruct a; [congruence|discriminate]|].
      rewrite E. exists (q * 100). split; [reflexivity|]. rewrite Hq, map_length. reflexivity. }
    destruct HV as (v & -> & HV). cbn [rbind]. split.
    - intros Ha. rewrite Ha. cbn [length Nat.eqb]. destruct (Nat.eqb (length l) 0); cbn [negb]; [reflexivity|].
      destruct (nlt _ _); reflexivity.
    - intros Ha. destruct (HV Ha) as (q & -> & Hq).
      assert (Hk : (0 < length a)%nat) by (destruct a; [congruence|cbn; lia]).
      destruct (Nat.eqb_spec (length a) 0) as [E|_]; [lia|].
      assert (Hn : 0 < count l) by (unfold count, Qlt; cbn; lia).
      destruct (Nat.eqb_spec (length l) (length a)) as [E|E]; cbn [negb].
      + exists q. split; [reflexivity|]. assert (Hm : count l - count a == 0) by (unfold count; rewrite E; ring).
        split; [intros; exact Hq|]. intros _. rewrite Hm, Hq. ring.
      + assert (Hz : Qeq_bool (inject_Z (Z.of_nat (length l))) 0 = false).
        { destruct (Qeq_bool _ _) eqn:X; [|reflexivity]. apply Qeq_bool_iff in X. fold (count l) in X. rewrite X in Hn. discriminate. }
        cbn [ndiv nsub nneg nadd]. rewrite Hz. cbn [nneg nadd].
        assert (HR : 1 + - (inject_Z (Z.of_nat (length a)) / inject_Z (Z.of_nat (length l))) == (count l - count a) / count l).
        { fold (count a) (count l). field. intros X. rewrite X in Hn. discriminate. }
        destruct (nlt (Fin ratio) (Fin (1 + - (inject_Z (Z.of_nat (length a)) / inject_Z (Z.of_nat (length l)))))) eqn:Er.
        * apply nlt_fin in Er. rewrite HR in Er. cbn [nmul nadd]. eexists. split; [reflexivity|]. split; [intros; lra|].
          intros _. rewrite Hq. assert (inject_Z (Z.of_nat (length l - length a)) == count l - count a) as ->; [|reflexivity].
          unfold count. rewrite Nat2Z.inj_sub by exact HL. unfold Z.sub. rewrite inject_Z_plus, inject_Z_opp. reflexivity.
        * apply nlt_fin_false in Er. rewrite HR in Er. exists q. split; [reflexivity|]. split; [intros; exact Hq|]. intros; lra.
  Qed.

  (** C53: that formula is never negative, and zero exactly for a perfect fit. *)
  Lemma qsum_nonneg (l : list Q) : (forall x, In x l -> 0 <= x) -> 0 <= qsum l /\ (qsum l == 0 <-> forall x, In x l -> x == 0).
  Proof.
    induction l as [|a l IH]; intros H; cbn.
    - split; [lra|]. split; [intros _ x []|intros; reflexivity].
    - destruct IH as [I1 I2]; [intros; apply H; right; assumption|]. assert (Ha : 0 <= a) by (apply H; left; reflexivity).
      fold (qsum l). split; [lra|]. split.
      + intros E x [<-|Hx]; [lra|]. apply I2; [lra|exact Hx].
      + intros E. rewrite (E a) by (left; reflexivity). rewrite (proj2 I2) by (intros; apply E; right; assumption). reflexivity.
  Qed.
  Lemma square_weight d : proper d -> 0 <= deviation d * deviation d * weight d /\ (deviation d * deviation d * weight d == 0 <-> deviation d == 0).
  Proof.
    intros [_ Hw]. set (x := deviation d). split; [nra|]. split; [|intros ->; ring].
    intros E. apply Qmult_integral in E. destruct E as [E|E]; [|lra]. apply Qmult_integral in E. tauto.
  Qed.
  Lemma abs_weight d : proper d -> 0 <= Qabs (deviation d) * weight d /\ (Qabs (deviation d) * weight d == 0 <-> deviation d == 0).
  Proof.
    intros [_ Hw]. pose proof (Qabs_nonneg (deviation d)). split; [nra|]. split.
    - intros E. apply Qmult_integral in E. destruct E as [E|E]; [|lra]. revert E. apply Qabs_case; intros; lra.
    - intros ->. reflexivity.
  Qed.
  Lemma deviation_zero d : proper d -> available d = true -> deviation d == 0 <-> perfect d.
  Proof.
    intros [Hr _] Ha. unfold deviation, perfect, available in *. destruct (calc d) as [q|]; [|discriminate]. split.
    - intros E. assert (q - ref d == 0) by (rewrite <- (Qmult_div_r (q - ref d) (ref d)) by exact Hr; rewrite E; ring). lra.
    - intros E. rewrite E. field. exact Hr.
  Qed.
  Lemma weighted_zero (g : datum -> Q) (l : list datum) : Forall proper l ->
    (forall d, proper d -> 0 <= g d /\ (g d == 0 <-> deviation d == 0)) ->
    0 <= qsum (map g (filter available l)) /\ (qsum (map g (filter available l)) == 0 <-> Forall perfect l).
  Proof.
    intros HP Hg. rewrite Forall_forall in HP. destruct (qsum_nonneg (map g (filter available l))) as [H1 H2].
    { intros x Hx. apply in_map_iff in Hx. destruct Hx as (d & <- & Hd). apply filter_In in Hd. apply Hg, HP, Hd. }
    split; [exact H1|]. rewrite H2, Forall_forall. split.
    - intros E d Hd. destruct (available d) eqn:Ea; [|unfold perfect, available in *; destruct (calc d); [discriminate|exact I]].
      apply deviation_zero; [apply HP, Hd|exact Ea|]. apply (Hg d); [apply HP, Hd|]. apply E. apply in_map, filter_In. auto.
    - intros E x Hx. apply in_map_iff in Hx. destruct Hx as (d & <- & Hd). apply filter_In in Hd. destruct Hd as [Hd Ha].
      apply (Hg d); [apply HP, Hd|]. apply deviation_zero; [apply HP, Hd|exact Ha|]. apply E, Hd.
  Qed.
  Lemma count_pos l : l <> [] -> 0 < count l.
  Proof. intros H. unfold count, Qlt. cbn. destruct l; [congruence|cbn; lia]. Qed.
  Lemma div_zero (s c : Q) : 0 < c -> (s / c == 0 <-> s == 0).
  Proof.
    intros H. split; intros E; [|rewrite E; field; lra]. assert (s == s / c * c) by (field; lra). rewrite H0, E. ring.
  Qed.
  Lemma div_nonneg (s c : Q) : 0 < c -> 0 <= s -> 0 <= s / c.
  Proof. intros Hc Hs. apply Qle_shift_div_l; [exact Hc|]. lra. Qed.
Theorem C53_zero_iff_perfect : forall l method f, Forall proper l -> filter available l <> [] ->
    formula method (filter available l) = Some f -> 0 <= f /\ (f == 0 <-> Forall perfect l).
  Proof.
    intros l method f HP Hne Hf. pose proof (count_pos _ Hne) as Hc. unfold formula in Hf.
    destruct (weighted_zero (fun d => deviation d * deviation d * weight d) l HP square_weight) as [S1 S2].
    destruct (weighted_zero (fun d => Qabs (deviation d) * weight d) l HP abs_weight) as [A1 A2].
    destruct (String.eqb method "average-squared-deviation"); [injection Hf as <-; split; [apply div_nonneg; assumption|rewrite div_zero by exact Hc; exact S2]|].
    destruct (String.eqb method "sum-squared-deviation"); [injection Hf as <-; split; assumption|].
    destruct (String.eqb method "percent-absolute-average-deviation"); [|discriminate]. injection Hf as <-.
    assert (H0 := div_nonneg _ _ Hc A1). rewrite <- A2. pose proof (div_zero (qsum (map (fun d => Qabs (deviation d) * weight d) (filter available l))) _ Hc) as Z.
    rewrite <- Z. clear Z A2. set (x := qsum _ / _) in *. clearbody x. split; [lra|]. split; intros; lra.
  Qed.

  (** C53: points that could not be calculated do not change the value when their share is within
      the permitted ratio: it is the value of the data set without them. *)
Theorem C53_missing_points : forall l method number ratio f, Forall proper l -> 0 <= ratio -> formula method (filter available l) = Some f ->
    filter available l <> [] -> (count l - count (filter available l)) / count l <= ratio ->
    exists v v', run l method number ratio = Ok (Fin v) /\ run (filter available l) method number ratio = Ok (Fin v') /\ v == v'.
  Proof.
    intros l method number ratio f HP Hr0 Hf Hne Hr. destruct (proj2 (C53_value l method number ratio f HP Hf) Hne) as (v & E & H1 & _).
    assert (HA : filter available (filter available l) = filter available l).
    { clear. induction l as [|d l IH]; [reflexivity|]. cbn. destruct (available d) eqn:E; [|exact IH]. cbn. rewrite E, IH. reflexivity. }
    assert (HP' : Forall proper (filter available l)).
    { rewrite Forall_forall in *. intros d Hd. apply filter_In in Hd. apply HP, Hd. }
    destruct (proj2 (C53_value (filter available l) method number ratio f HP' ltac:(rewrite HA; exact Hf)) ltac:(rewrite HA; exact Hne)) as (v' & E' & H1' & _).
    exists v, v'. split; [exact E|]. split; [exact E'|]. rewrite (H1 Hr). rewrite HA in H1'. symmetry. apply H1'.
    pose proof (count_pos _ Hne) as Hc. assert (count (filter available l) - count (filter available l) == 0) as -> by ring.
    assert (0 / count (filter available l) == 0) as -> by (field; lra). exact Hr0.
  Qed.

  (** C53: wrong lengths are refused. *)
Theorem C53_lengths : forall t r w method number ratio,
    length r <> length t -> form t r w method number ratio = Err ValueError.
  Proof.
    intros t r w method number ratio H. unfold obj_function_form. destruct (Nat.eqb_spec (length r) (length t)); [contradiction|reflexivity].
  Qed.

  (** C53: one weight is the same as that weight for every point. *)
  Lemma kept_repeat w ds : kept_weights ds (repeat w (length ds)) = Ok (repeat w (length (filter (fun d => negb (is_nan d)) ds))).
  Proof. induction ds as [|d ds IH]; [reflexivity|]. cbn. destruct (is_nan d); cbn; rewrite IH; reflexivity. Qed.
Theorem C53_one_weight : forall t r w method number ratio,
    form t r (WOne w) method number ratio = form t r (WMany (repeat w (length t))) method number ratio.
  Proof.
    intros t r w method number ratio. unfold obj_function_form. destruct (Nat.eqb_spec (length r) (length t)) as [E|]; [|reflexivity].
    cbn [negb]. rewrite repeat_length, Nat.eqb_refl. cbn [negb]. rewrite Bool.andb_false_r.
    assert (HL : length t = length (map rel (combine t r))) by (rewrite map_length, combine_length; lia).
    replace (kept_weights (map rel (combine t r)) (repeat w (length t))) with (kept_weights (map rel (combine t r)) (repeat w (length (map rel (combine t r))))) by (rewrite <- HL; reflexivity).
    rewrite kept_repeat. reflexivity.
  Qed.

  (** C53 is false for the Boltzmann-weighted forms: a perfect fit is undefined for every data set, *)
  Hypothesis nexp_nan : nexp NaN = NaN.
  Lemma nadd_nan_r a : nadd a NaN = NaN.
  Proof. destruct a; reflexivity. Qed.
  Lemma nsum_nan l : In NaN l -> nsum l = NaN.
  Proof. induction l as [|a l IH]; intros []; cbn; [subst; reflexivity|]. fold (nsum l). rewrite IH by assumption. apply nadd_nan_r. Qed.
Theorem C53_boltz_perfect_refuted : forall r w number ratio, ~ r == 0 ->
    form [Fin r] [Fin r] (WOne (Fin w)) "sum-squared-deviation-boltz" (Fin number) (Fin ratio) = Ok NaN /\
    form [Fin r] [Fin r] (WOne (Fin w)) "sum-deviation-boltz" (Fin number) (Fin ratio) = Ok NaN.
  Proof.
    intros r w number ratio Hr. unfold obj_function_form. cbn [length Nat.eqb negb combine map rel fst snd nsub nneg nadd ndiv].
    assert (Hz : Qeq_bool r 0 = false) by (destruct (Qeq_bool r 0) eqn:E; [apply Qeq_bool_iff in E; contradiction|reflexivity]).
    unfold rel. cbn [fst snd nsub nneg nadd ndiv]. rewrite Hz. set (d := (r + - r) / r).
    assert (Hd : d == 0) by (unfold d; field; exact Hr).
    cbn [filter is_nan negb length Nat.eqb repeat rbind map times combine fst snd String.eqb Ascii.eqb Bool.eqb np_min fold_left boltz].
    assert (Hn : nexp (ndiv (nsub (Fin d) (Fin d)) (nabs (Fin d))) = NaN).
    { cbn [nsub nneg nadd nabs ndiv]. assert (Qeq_bool (Qabs d) 0 = true) as -> by (apply Qeq_bool_iff; rewrite Hd; reflexivity).
      unfold inf_of_sign. assert (Hc : (d + - d ?= 0) = Eq) by (apply Qeq_alt; ring). rewrite Hc. exact nexp_nan. }
    cbn [nsub nneg nadd nabs] in Hn. cbn [nsub nneg nadd nabs] . rewrite Hn. cbn. split; reflexivity.
  Qed.
  (** the deviation without a square can be negative, *)
Theorem C53_boltz_negative_refuted : (forall q, exists p, nexp (Fin q) = Fin p /\ 0 < p) -> forall r w number ratio, 0 < r -> 0 < w -> exists v,
    form [Fin (r / 2)] [Fin r] (WOne (Fin w)) "sum-deviation-boltz" (Fin number) (Fin ratio) = Ok (Fin v) /\ v < 0.
  Proof.
    intros He r w number ratio Hr Hw. unfold obj_function_form. cbn [length Nat.eqb negb combine map].
    assert (Hz : Qeq_bool r 0 = false) by (destruct (Qeq_bool r 0) eqn:E; [apply Qeq_bool_iff in E; lra|reflexivity]).
    unfold rel. cbn [fst snd nsub nneg nadd ndiv]. rewrite Hz. set (d := (r / 2 + - r) / r).
    assert (Hd : d == - (1 # 2)) by (unfold d; field; lra).
    cbn [filter is_nan negb length Nat.eqb repeat rbind map times combine fst snd String.eqb Ascii.eqb Bool.eqb np_min fold_left boltz].
    cbn [nsub nneg nadd nabs ndiv]. assert (Hq : Qeq_bool (Qabs d) 0 = false).
    { destruct (Qeq_bool (Qabs d) 0) eqn:E; [|reflexivity]. apply Qeq_bool_iff in E. rewrite Hd in E. discriminate. }
    rewrite Hq. destruct (He ((d + - d) / Qabs d)) as (p & -> & Hp). cbn. eexists. split; [reflexivity|]. rewrite Hd. nra.
  Qed.
  (** an unknown method raises UnboundLocalError, or gives NaN if nothing could be calculated, *)
Theorem C53_unknown_method_refuted : forall number ratio,
    form [Fin 1] [Fin 1] (WOne (Fin 1)) "no-such-method" (Fin number) (Fin ratio) = Err UnboundLocalError /\
    form [] [] (WOne (Fin 1)) "no-such-method" (Fin number) (Fin ratio) = Ok NaN.
  Proof. intros. split; reflexivity. Qed.
  (** no point at all raises in the Boltzmann-weighted forms, *)
Theorem C53_boltz_no_points_refuted : forall r number ratio,
    form [NaN] [Fin r] (WOne (Fin 1)) "sum-squared-deviation-boltz" (Fin number) (Fin ratio) = Err ValueError.
  Proof. intros. cbn. unfold rel, obj_function_form. cbn. reflexivity. Qed.
  (** and a reference value of zero that is met exactly counts as a missing point. *)
Theorem C53_zero_reference_refuted :
    form [Fin 0; Fin 1] [Fin 0; Fin 1] (WOne (Fin 1)) "sum-squared-deviation" (Fin 1000) (Fin (1#10)) =
    form [NaN; Fin 1] [Fin 0; Fin 1] (WOne (Fin 1)) "sum-squared-deviation" (Fin 1000) (Fin (1#10)).
  Proof. vm_compute. reflexivity. Qed.
End Objective.

(** ** C54: the total objective *)
(** how far a value is outside an interval *)
Definition distance (p : Q) (b : Q * Q) : Q :=
  if Qlt_le_dec p (fst b) then fst b - p else if Qlt_le_dec (snd b) p then p - snd b else 0.
Definition inside (p : Q) (b : Q * Q) : Prop := fst b <= p <= snd b.
Lemma distance_spec p b : fst b <= snd b -> 0 <= distance p b /\ (distance p b == 0 <-> inside p b).
Proof.
  intros Hb. unfold distance, inside. destruct (Qlt_le_dec p (fst b)); [split; [lra|]; split; intros; lra|].
  destruct (Qlt_le_dec (snd b) p); [split; [lra|]; split; intros; lra|]. split; [lra|]. split; intros; [lra|reflexivity].
Qed.
Definition penalty (p : Q) (b : Q * Q) : Q := (1000 * distance p b) ^ 8.
Definition fins (b : Q * Q) : num * num := (Fin (fst b), Fin (snd b)).
(** the total objective of parameters, bounds and data sets with defined bounds and parameters *)
Definition total (datasets : list (list num -> result num)) (bounds : list (Q * Q)) (ps : list Q) : result num :=
  compute_obj datasets (length ps) (map fins bounds) (map Fin ps) None.
(** what a data set gives for these parameters: a finite objective, or an exception *)
Definition gives (ps : list Q) (v : Q) (d : list num -> result num) : Prop := d (map Fin ps) = Ok (Fin v).
Definition raises (ps : list Q) (d : list num -> result num) : Prop := exists e, d (map Fin ps) = Err e.

Lemma pow8 (x : Q) : exists y, npow (Fin x) 8 = Fin y /\ y == x ^ 8.
Proof. eexists. split; [reflexivity|]. cbn. ring. Qed.
Lemma pow8_nonneg (x : Q) : 0 <= x ^ 8 /\ (x ^ 8 == 0 <-> x == 0).
Proof.
  assert (E : x ^ 8 == (x * x * (x * x)) * (x * x * (x * x))) by (cbn; ring). split.
  - rewrite E. set (y := x * x * (x * x)). nra.
  - rewrite E. split; [|intros ->; reflexivity]. intros H.
    repeat match goal with H : _ * _ == 0 |- _ => apply Qmult_integral in H; destruct H end; assumption.
Qed.
Lemma pow8_even (x y : Q) : x == - y -> x ^ 8 == y ^ 8.
Proof. intros E. rewrite E. cbn. ring. Qed.
Lemma penalties_fin : forall (ps : list Q) bounds t, length bounds = length ps ->
  exists v, penalties (Fin t) (map Fin ps) (map fins bounds) = Ok (Fin v) /\
            v == t + qsum (map (fun pb => penalty (fst pb) (snd pb)) (combine ps bounds)).
Proof.
  induction ps as [|p ps IH]; intros bounds t Hl.
  - exists t. split; [reflexivity|]. cbn. lra.
  - destruct bounds as [|b bounds]; [discriminate|]. cbn [map penalties fins combine]. unfold fins at 1.
    cbn [nsub nneg nadd nmul].
    set (t' := if nlt (Fin p) (Fin (fst b)) then _ else _).
    assert (Ht : exists q, t' = Fin q /\ q == t + penalty p b).
    { unfold t', penalty, distance. destruct (nlt (Fin p) (Fin (fst b))) eqn:E1.
      - apply nlt_fin in E1. destruct (Qlt_le_dec p (fst b)); [|lra]. destruct (pow8 (1000 * (p + - fst b))) as (y & Ey & Hy). rewrite Ey. cbn [nadd].
        eexists. split; [reflexivity|]. rewrite Hy. rewrite (pow8_even (1000 * (p + - fst b)) (1000 * (fst b - p))) by lra. reflexivity.
      - apply nlt_fin_false in E1. destruct (Qlt_le_dec p (fst b)); [lra|]. destruct (nlt (Fin (snd b)) (Fin p)) eqn:E2.
        + apply nlt_fin in E2. destruct (Qlt_le_dec (snd b) p); [|lra]. destruct (pow8 (1000 * (p + - snd b))) as (y & Ey & Hy). rewrite Ey. cbn [nadd].
          eexists. split; [reflexivity|]. rewrite Hy. reflexivity.
        + apply nlt_fin_false in E2. destruct (Qlt_le_dec (snd b) p); [lra|]. exists t. split; [reflexivity|].
          assert (E : (1000 * 0) ^ 8 == 0) by reflexivity. rewrite E. lra. }
    destruct Ht as (q & -> & Hq). destruct (IH bounds q) as (v & E & Hv); [injection Hl as Hl; exact Hl|].
    exists v. split; [exact E|]. rewrite Hv, Hq. cbn [qsum fold_right map fst snd]. fold (qsum (map (fun pb => penalty (fst pb) (snd pb)) (combine ps bounds))). ring.
Qed.
Lemma penalties_pinf : forall (ps : list Q) bounds, length bounds = length ps ->
  penalties PInf (map Fin ps) (map fins bounds) = Ok PInf.
Proof.
  induction ps as [|p ps IH]; intros bounds Hl; [reflexivity|]. destruct bounds as [|b bounds]; [discriminate|].
  cbn [map penalties fins]. unfold fins at 1. injection Hl as Hl.
  destruct (nlt _ _); [|destruct (nlt _ _)]; try (apply IH; exact Hl);
    cbn [nsub nneg nadd nmul]; match goal with |- context [npow (Fin ?x) 8] => destruct (pow8 x) as (y & -> & _) end; cbn [nadd]; apply IH; exact Hl.
Qed.
Lemma no_nan (ps : list Q) : existsb is_nan (map Fin ps) = false.
Proof. induction ps; [reflexivity|assumption]. Qed.
Lemma nansum_fin (l : list Q) : nansum (map Fin l) = nsum (map Fin l).
Proof. unfold nansum. rewrite map_map. reflexivity. Qed.

(** C54: when every data set can be evaluated the total is the sum of their objectives plus, for
    each parameter, (1000 times its distance from its bounds) to the eighth power; *)
Theorem C54_sum_and_penalty : forall datasets vs bounds ps, length bounds = length ps -> Forall2 (gives ps) vs datasets ->
  exists t, total datasets bounds ps = Ok (Fin t) /\ t == qsum vs + qsum (map (fun pb => penalty (fst pb) (snd pb)) (combine ps bounds)).
Proof.
  intros datasets vs bounds ps Hl HG. unfold total, compute_obj. rewrite map_length, Nat.eqb_refl. cbn [rbind].
  rewrite map_length, Nat.ltb_irrefl, no_nan.
  assert (E : map (fun d => match d (map Fin ps) with Ok v => v | Err _ => PInf end) datasets = map Fin vs).
  { induction HG as [|v d vs datasets H _ IH]; [reflexivity|]. cbn [map]. rewrite H, IH. reflexivity. }
  rewrite E, nansum_fin. destruct (nsum_fin vs) as (s & Es & Hs). rewrite Es.
  destruct (penalties_fin ps bounds s Hl) as (v & Ev & Hv). rewrite Ev. cbn [rbind is_nan]. rewrite Bool.andb_false_r.
  exists v. split; [reflexivity|]. rewrite Hv, Hs. reflexivity.
Qed.
(** that penalty is never negative, and zero exactly when the parameter is within its bounds; *)
Theorem C54_penalty_sign : forall p b, fst b <= snd b -> 0 <= penalty p b /\ (penalty p b == 0 <-> inside p b).
Proof.
  intros p b Hb. unfold penalty. destruct (distance_spec p b Hb) as [D1 D2]. destruct (pow8_nonneg (1000 * distance p b)) as [P1 P2].
  split; [exact P1|]. rewrite P2, <- D2. split; intros; lra.
Qed.
(** so among parameter sets with the same data set objectives, being out of bounds is worse; *)
Theorem C54_out_of_bounds_worse : forall datasets vs bounds ps ps', length bounds = length ps -> length bounds = length ps' ->
  Forall (fun b => fst b <= snd b) bounds -> Forall2 (gives ps) vs datasets -> Forall2 (gives ps') vs datasets ->
  Forall2 inside ps bounds -> ~ Forall2 inside ps' bounds ->
  exists t t', total datasets bounds ps = Ok (Fin t) /\ total datasets bounds ps' = Ok (Fin t') /\ t < t'.
Proof.
  intros datasets vs bounds ps ps' Hl Hl' Hb HG HG' Hin Hout.
  destruct (C54_sum_and_penalty datasets vs bounds ps Hl HG) as (t & Et & Ht).
  destruct (C54_sum_and_penalty datasets vs bounds ps' Hl' HG') as (t' & Et' & Ht').
  exists t, t'. split; [exact Et|]. split; [exact Et'|]. rewrite Ht, Ht'.
  assert (Hn : forall qs, 0 <= qsum (map (fun pb => penalty (fst pb) (snd pb)) (combine qs bounds)) /\
    (length bounds = length qs -> (qsum (map (fun pb => penalty (fst pb) (snd pb)) (combine qs bounds)) == 0 <-> Forall2 inside qs bounds))).
  { intros qs. clear -Hb. revert qs. induction Hb as [|b bounds Hb _ IH]; intros qs.
    - destruct qs; cbn; (split; [lra|]); [|discriminate]. intros _. split; [constructor|reflexivity].
    - destruct qs as [|q qs]; [cbn; split; [lra|discriminate]|]. destruct (IH qs) as [I1 I2]. destruct (C54_penalty_sign q b Hb) as [P1 P2].
      cbn [combine map qsum fold_right fst snd]. fold (qsum (map (fun pb => penalty (fst pb) (snd pb)) (combine qs bounds))). split; [lra|].
      intros Hl. injection Hl as Hl. specialize (I2 Hl). split.
      + intros E. constructor; [apply P2; lra|apply I2; lra].
      + intros H. inversion H; subst. rewrite (proj2 P2), (proj2 I2) by assumption. reflexivity. }
  rewrite (proj2 (proj2 (Hn ps) Hl)) by exact Hin. destruct (Hn ps') as [N1 N2]. specialize (N2 Hl').
  destruct (Qeq_dec (qsum (map (fun pb => penalty (fst pb) (snd pb)) (combine ps' bounds))) 0) as [E|E]; [apply N2 in E; contradiction|].
  destruct (Qlt_le_dec 0 (qsum (map (fun pb => penalty (fst pb) (snd pb)) (combine ps' bounds)))) as [H|H]; [lra|]. exfalso. apply E. lra.
Qed.

(** a data set that raises makes the total infinite, whatever the other data sets give (a number or
    an exception), so that it ranks below every parameter set for which all succeed. *)
Lemma nsum_pinf (l : list num) : In PInf l -> (forall x, In x l -> x = PInf \/ exists q, x = Fin q) -> nsum l = PInf.
Proof.
  induction l as [|a l IH]; intros Hin H; [destruct Hin|]. cbn. fold (nsum l).
  assert (Ht : nsum l = PInf \/ exists q, nsum l = Fin q).
  { clear -H. induction l as [|b l IH]; [right; exists 0; reflexivity|]. cbn. fold (nsum l).
    destruct (IH ltac:(intros x [->|Hx]; apply H; [left|right; right]; auto)) as [-> |(q & ->)];
      destruct (H b ltac:(right; left; reflexivity)) as [-> |(q' & ->)]; cbn; eauto. }
  destruct Hin as [->|Hin]; [destruct Ht as [-> |(q & ->)]; reflexivity|].
  rewrite IH by (auto with datatypes). destruct (H a ltac:(left; reflexivity)) as [-> |(q & ->)]; reflexivity.
Qed.
Theorem C54_failure_is_worst : forall datasets bounds ps, length bounds = length ps ->
  Forall (fun d => raises ps d \/ exists v, gives ps v d) datasets -> Exists (raises ps) datasets ->
  total datasets bounds ps = Ok PInf /\
  forall vs ps' datasets', length bounds = length ps' -> Forall2 (gives ps') vs datasets' ->
    exists t, total datasets' bounds ps' = Ok t /\ nlt t PInf = true.
Proof.
  intros datasets bounds ps Hl HA HE. split.
  - unfold total, compute_obj. rewrite map_length, Nat.eqb_refl. cbn [rbind]. rewrite map_length, Nat.ltb_irrefl, no_nan.
    set (values := map _ datasets).
    assert (HV : forall x, In x values -> x = PInf \/ exists q, x = Fin q).
    { intros x Hx. apply in_map_iff in Hx. destruct Hx as (d & <- & Hd). rewrite Forall_forall in HA.
      destruct (HA d Hd) as [(e & E)|(v & E)]; [rewrite E; left; reflexivity|unfold gives in E; rewrite E; right; exists v; reflexivity]. }
    assert (HI : In PInf values).
    { apply Exists_exists in HE. destruct HE as (d & Hd & e & He). apply in_map_iff. exists d. rewrite He. auto. }
    assert (HS : nansum values = nsum values).
    { unfold nansum. f_equal. rewrite <- (map_id values) at 2. apply map_ext_in. intros x Hx. destruct (HV x Hx) as [-> |(q & ->)]; reflexivity. }
    rewrite HS, (nsum_pinf values HI HV), penalties_pinf by exact Hl. reflexivity.
  - intros vs ps' datasets' Hl' HG. destruct (C54_sum_and_penalty datasets' vs bounds ps' Hl' HG) as (t & -> & _).
    exists (Fin t). split; reflexivity.
Qed.
(** a parameter that is not a number does as well (with or without frozen parameters); *)
Theorem C54_nan_parameter : forall datasets n bounds params frozen, 
  length params = n -> In NaN params -> compute_obj datasets n bounds params frozen = Ok PInf.
Proof.
  intros datasets n bounds params frozen Hl HN. unfold compute_obj. rewrite Hl, Nat.eqb_refl. cbn [rbind]. rewrite Hl, Nat.ltb_irrefl.
  assert (existsb is_nan params = true) as ->; [|reflexivity]. apply existsb_exists. exists NaN. auto.
Qed.
(** values for some of the parameters are an error, unless the others are frozen: then they come first. *)
Theorem C54_frozen : forall datasets n bounds params f, length params <> n -> length (f ++ params) = n ->
  compute_obj datasets n bounds params None = Err ValueError /\
  compute_obj datasets n bounds params (Some f) = compute_obj datasets n bounds (f ++ params) None.
Proof.
  intros datasets n bounds params f H1 H2. unfold compute_obj. rewrite H2, Nat.eqb_refl.
  destruct (Nat.eqb_spec (length params) n); [contradiction|]. split; reflexivity.
Qed.
(** the total is never undefined, whatever the data sets do, unless one is minus infinity *)
Lemma not_nan_nsum l : (forall x, In x l -> x <> NInf /\ x <> NaN) -> nsum l <> NInf /\ nsum l <> NaN.
Proof.
  induction l as [|a l IH]; intros H; [split; discriminate|]. cbn. fold (nsum l).
  destruct IH as [I1 I2]; [intros; apply H; right; assumption|]. destruct (H a ltac:(left; reflexivity)) as [A1 A2].
  destruct a, (nsum l); cbn; try congruence; split; discriminate.
Qed.
Theorem C54_defined : forall datasets bounds ps, length bounds = length ps ->
  Forall (fun d => d (map Fin ps) <> Ok NInf) datasets ->
  exists t, total datasets bounds ps = Ok t /\ is_nan t = false.
Proof.
  intros datasets bounds ps Hl HA. unfold total, compute_obj. rewrite map_length, Nat.eqb_refl. cbn [rbind]. rewrite map_length, Nat.ltb_irrefl, no_nan.
  set (values := map _ datasets).
  assert (HN : nansum values <> NInf /\ nansum values <> NaN).
  { apply not_nan_nsum. intros x Hx. apply in_map_iff in Hx. destruct Hx as (y & <- & Hy). apply in_map_iff in Hy. destruct Hy as (d & <- & Hd).
    rewrite Forall_forall in HA. specialize (HA d Hd). destruct (d (map Fin ps)) as [v|e]; [|split; discriminate].
    destruct v; cbn; split; congruence. }
  destruct HN as [H1 H2]. destruct (nansum values) as [q| | |]; try congruence.
  - destruct (penalties_fin ps bounds q Hl) as (v & -> & _). cbn [rbind]. destruct (_ && _); eexists; split; reflexivity.
  - rewrite penalties_pinf by exact Hl. eexists; split; reflexivity.
Qed.
(** data sets that are undefined, or contribute nothing, do not make a parameter set inside its bounds the best one *)
Theorem C54_undefined_is_worst : forall datasets bounds ps, length bounds = length ps -> Forall2 inside ps bounds ->
  Forall (fun d => d (map Fin ps) = Ok NaN \/ gives ps 0 d) datasets -> Exists (fun d => d (map Fin ps) = Ok NaN) datasets ->
  total datasets bounds ps = Ok PInf.
Proof.
  intros datasets bounds ps Hl HI HA HE. unfold total, compute_obj. rewrite map_length, Nat.eqb_refl. cbn [rbind]. rewrite map_length, Nat.ltb_irrefl, no_nan.
  set (values := map _ datasets).
  assert (HN : exists q, nansum values = Fin q /\ q == 0).
  { unfold nansum. rewrite Forall_forall in HA. subst values. rewrite map_map. clear HE. induction datasets as [|d l IH]; [exists 0; split; reflexivity|].
    cbn [map nsum fold_right]. destruct IH as (q & E & Hq); [intros x Hx; apply HA; right; exact Hx|]. unfold nsum in E. rewrite E.
    destruct (HA d (or_introl eq_refl)) as [->|G]; [|unfold gives in G; rewrite G]; cbn; eexists; (split; [reflexivity|]); lra. }
  destruct HN as (q & -> & Hq). destruct (penalties_fin ps bounds q Hl) as (v & -> & Hv). cbn [rbind].
  assert (Z : qsum (map (fun pb => penalty (fst pb) (snd pb)) (combine ps bounds)) == 0).
  { clear - HI. induction HI as [|p b ps bounds H HI IH]; [reflexivity|]. cbn [combine map fst snd qsum fold_right] in *. unfold qsum in IH |- *. cbn [fold_right]. rewrite IH.
    unfold penalty, distance. unfold inside in H. destruct (Qlt_le_dec p (fst b)); [lra|]. destruct (Qlt_le_dec (snd b) p); [lra|]. reflexivity. }
  assert (NN : nsum values = NaN).
  { assert (I : In NaN values). { apply Exists_exists in HE. destruct HE as (d & Hd & E). apply in_map_iff. exists d. rewrite E. auto. }
    clear - I. induction values as [|a l IH]; [destruct I|]. cbn. fold (nsum l). destruct I as [->|I]; [reflexivity|]. rewrite (IH I). destruct a; reflexivity. }
  rewrite NN. assert (neqb (Fin v) (Fin 0) = true) as ->; [|reflexivity]. cbn. apply Qeq_bool_iff. rewrite Hv, Hq, Z. reflexivity.
Qed.
Print Assumptions C54_undefined_is_worst.
Example C54_undefined_nonvacuous : Forall2 inside [5] [(1, 10)] /\ Exists (fun d : list num -> result num => d (map Fin [5]) = Ok NaN) [fun _ => Ok NaN; fun _ => Ok (Fin 0)].
Proof. split; [repeat constructor; cbn; lra|left; reflexivity]. Qed.
Theorem C54_dataset_defined : forall values, ~ In NInf values -> is_nan (dataset_objective values) = false.
Proof.
  intros values H. unfold dataset_objective. destruct (forallb _ _); [reflexivity|].
  assert (HN : nansum values <> NInf /\ nansum values <> NaN).
  { apply not_nan_nsum. intros x Hx. apply in_map_iff in Hx. destruct Hx as (y & <- & Hy). destruct y; cbn; split; congruence. }
  destruct HN as [H1 H2]. destruct (nansum values); [reflexivity|reflexivity|congruence|congruence].
Qed.
(** the objective of a data set of which no property is zero or failed is the sum over its properties *)
Theorem C54_dataset_sum : forall vs, (exists v, In v vs /\ ~ v == 0) ->
  exists t, dataset_objective (map Fin vs) = Fin t /\ t == qsum vs.
Proof.
  intros vs (v & Hv & Hne). unfold dataset_objective.
  assert (forallb (fun x => is_nan x || neqb x (Fin 0)) (map Fin vs) = false) as ->.
  { destruct (forallb _ _) eqn:E; [|reflexivity]. rewrite forallb_forall in E. specialize (E (Fin v) (in_map Fin _ _ Hv)). cbn in E.
    apply Qeq_bool_iff in E. contradiction. }
  rewrite nansum_fin. apply nsum_fin.
Qed.

(** C54 is false: a perfect parameter set ranks worst.  Whatever the data set, the documented
    objective of a perfect fit is 0, and the data set then answers infinity, *)
Theorem C54_perfect_ranks_worst_refuted : forall nexp l method number ratio f bounds ps,
  Forall proper l -> l <> [] -> filter available l = l -> Forall perfect l -> 0 <= ratio -> formula method l = Some f ->
  length bounds = length ps ->
  let data := fun _ : list num => let* v := run nexp l method number ratio in Ok (dataset_objective [v]) in
  total [data] bounds ps = Ok PInf.
Proof.
  intros nexp l method number ratio f bounds ps HP Hne HA Hper Hr Hf Hl data.
  destruct (C53_value nexp l method number ratio f HP ltac:(rewrite HA; exact Hf)) as [_ H].
  destruct (H ltac:(rewrite HA; exact Hne)) as (v & E & Hv & _). rewrite HA in Hv.
  assert (Hv0 : v == 0).
  { rewrite Hv. - apply (proj2 (C53_zero_iff_perfect l method f HP ltac:(rewrite HA; exact Hne) ltac:(rewrite HA; exact Hf))). exact Hper.
    - assert (count l - count l == 0) as -> by ring. pose proof (count_pos l Hne). assert (0 / count l == 0) as -> by (field; lra). exact Hr. }
  unfold total, compute_obj. rewrite map_length, Nat.eqb_refl. cbn [rbind]. rewrite map_length, Nat.ltb_irrefl, no_nan.
  unfold data. cbn [map]. rewrite E. cbn [rbind]. unfold dataset_objective. cbn [forallb is_nan neqb orb].
  assert (Qeq_bool v 0 = true) as -> by (apply Qeq_bool_iff; exact Hv0). cbn [andb]. change (nansum [PInf]) with PInf.
  rewrite penalties_pinf by exact Hl. reflexivity.
Qed.
(** and a property that could not be calculated at all makes a data set better than the same data
    set with that property calculated. *)
Theorem C54_failed_property_refuted : forall v w, 0 < v -> 0 < w ->
  nlt (dataset_objective [NaN; Fin v]) (dataset_objective [Fin w; Fin v]) = true.
Proof.
  intros v w Hv Hw. unfold dataset_objective. cbn [forallb is_nan neqb orb andb].
  assert (Qeq_bool v 0 = false) as -> by (destruct (Qeq_bool v 0) eqn:E; [apply Qeq_bool_iff in E; lra|reflexivity]).
  assert (Qeq_bool w 0 = false) as -> by (destruct (Qeq_bool w 0) eqn:E; [apply Qeq_bool_iff in E; lra|reflexivity]).
  cbn. apply nlt_fin. lra.
Qed.

(** *** Examples *)
(** three points, one of which could not be calculated *)
Definition ex_points : list datum :=
  [{| calc := Some 11; ref := 10; weight := 1 |}; {| calc := None; ref := 10; weight := 1 |}; {| calc := Some 9; ref := 10; weight := 2 |}].
Example C53_example : Forall proper ex_points /\ filter available ex_points <> [] /\
  (exists v, run (fun x => x) ex_points "sum-squared-deviation" 1000 (1#2) = Ok (Fin v) /\ v == 3 # 100) /\
  (exists v, run (fun x => x) ex_points "sum-squared-deviation" 1000 (1#10) = Ok (Fin v) /\ v == 1000 + (3 # 100)) /\
  (exists v, run (fun x => x) ex_points "percent-absolute-average-deviation" 1000 (1#2) = Ok (Fin v) /\ v == 15).
Proof.
  split. { repeat (constructor; [split; [intros H; discriminate|reflexivity]|]). constructor. }
  split; [discriminate|].
  split; [eexists; split; [vm_compute; reflexivity|reflexivity]|].
  split; [eexists; split; [vm_compute; reflexivity|reflexivity]|]. eexists; split; [vm_compute; reflexivity|reflexivity].
Qed.
Example C54_example :
  (exists t, total [(fun _ => Ok (Fin 1)); (fun _ => Ok (Fin 2))] [(0, 1); (0, 1)] [1#2; 1] = Ok (Fin t) /\ t == 3) /\
  (exists t, total [(fun _ => Ok (Fin 1)); (fun _ => Ok (Fin 2))] [(0, 1); (0, 1)] [1#2; (1001 # 1000)] = Ok (Fin t) /\ t == 4) /\
  total [(fun _ => Ok (Fin 1)); (fun _ => Err ValueError)] [(0, 1); (0, 1)] [1#2; 1] = Ok PInf.
Proof. split; [eexists; split; [vm_compute; reflexivity|reflexivity]|]. split; [eexists; split; [vm_compute; reflexivity|reflexivity]|reflexivity]. Qed.

(** the permitted share of missing points in binary64: with 3 of 10 points missing and a permitted
    share of 0.3, 1 - 7/10 is 0.30000000000000004 and the penalty is added although the share is
    not exceeded. *)
From Coq Require Import Floats.SpecFloat ZArith.
Definition f_sub := SFsub 53 1024.
Definition f_div := SFdiv 53 1024.
Definition f_of_Z (z : Z) : spec_float := binary_normalize 53 1024 z 0 false.
(** "1 - len(data_tmp)/len(data_test) > nan_ratio", fit_functions.py:611-612 *)
Definition exceeds_binary64 (k n : Z) (ratio : spec_float) : bool :=
  SFltb ratio (f_sub (f_of_Z 1) (f_div (f_of_Z k) (f_of_Z n))).
Theorem C53_share_rounding_refuted : exceeds_binary64 7 10 (f_div (f_of_Z 3) (f_of_Z 10)) = true.
Proof. vm_compute. reflexivity. Qed.

Print Assumptions C53_value.
Print Assumptions C53_zero_iff_perfect.
Print Assumptions C53_missing_points.
Print Assumptions C53_boltz_perfect_refuted.
Print Assumptions C53_boltz_negative_refuted.
Print Assumptions C53_share_rounding_refuted.
Print Assumptions C54_sum_and_penalty.
Print Assumptions C54_out_of_bounds_worse.
Print Assumptions C54_failure_is_worst.
Print Assumptions C54_defined.
Print Assumptions C54_perfect_ranks_worst_refuted.
