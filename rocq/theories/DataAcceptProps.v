(** C103: which data sets are accepted. *)
From Coq Require Import QArith.
From Verif Require Import Base BaseFacts Num ToolboxModel ToolboxSpec ToolboxProofs FitObjModel FitRunModel DataSetModel DataSetProps.
Open Scope nat_scope.
Open Scope string_scope.

Definition there (c : data_class) (dd : data) (k : string) : Prop := exists v, given c dd k v.
(** every list is given in one way, or not at all *)
Definition unambiguous (c : data_class) (dd : data) : Prop := forall k, In k (lists c) -> there c dd k \/ not_given c dd k.
(** every entry holds one value or as many as the longest *)
Definition lengths_fit (c : data_class) (dd : data) : Prop := exists L,
  (exists k v, In k (lists c) /\ given c dd k v /\ vlen v = L) /\
  (forall k v, In k (lists c) -> given c dd k v -> vlen v <= L /\ fits L v).
(** the composition may be left out for a pure component only; temperatures are needed
    although they have a default; saturation data need one measured quantity, solubility
    data the parameter itself, flash data both compositions, and data of vapour-liquid
    equilibria a composition or the pressure *)
Definition sufficient (c : data_class) (ncomp : nat) (dd : data) : Prop :=
  match c with
  | LiquidDensity => there c dd "Tlist" /\ (there c dd "xilist" \/ ncomp <= 1)
  | Flash => there c dd "Tlist" /\ there c dd "xilist" /\ there c dd "yilist"
  | Saturation => (there c dd "Psat" \/ there c dd "rhol" \/ there c dd "rhov") /\ (there c dd "xilist" \/ ncomp <= 1)
  | TLVE => there c dd "Tlist" /\ (there c dd "xilist" \/ there c dd "yilist" \/ there c dd "Plist")
  | Solubility => there c dd "delta" /\ (there c dd "xilist" \/ ncomp <= 1)
  end.

Lemma accepted_lengths c (dd : data) : NoDup (dkeys dd) -> unambiguous c dd ->
  lengths_fit c dd <-> exists out, check_length_dict (gather c dd) (length_keys c) None = Ok out.
Proof.
  intros N U. rewrite length_keys_lists.
  assert (S : forall k v, supplied (gather c dd) (lists c) k v <-> In k (lists c) /\ given c dd k v).
  { intros k v. unfold supplied. split; intros [I H]; (split; [exact I|]); [|now apply gather_given].
    destruct (U k I) as [[w G]|G]; [|rewrite (gather_not_given c dd k N I G) in H; discriminate].
    rewrite (gather_given c dd k w N I G) in H. injection H as <-. exact G. }
  split.
  - intros [L [[k [v [I [G E]]]] F]]. apply (check_length_dict_accepts (gather c dd) (lists c) None L).
    + split; [exists k, v; split; [apply S; auto|exact E]|]. intros k' v' H. apply S in H. apply (F k' v'); apply H.
    + intros k' v' H. apply S in H. apply (F k' v'); apply H.
  - intros [out H]. pose proof (check_length_dict_spec (gather c dd) (lists c) None) as X. rewrite H in X. destruct X as [L [[[k [v [W1 W2]]] W3] [X _]]].
    exists L. split; [exists k, v; apply S in W1; tauto|]. intros k' v' I G. assert (Sp : supplied (gather c dd) (lists c) k' v') by (apply S; auto).
    split; [apply (W3 k' v' Sp)|]. destruct (X k' v' Sp) as [l [_ Sl]]. destruct Sl; cbn; auto.
Qed.
Lemma with_defaults_ok c n td : exists out, with_defaults c (Some n) td = Ok out.
Proof.
  destruct (with_defaults c (Some n) td) as [out|e] eqn:E; [eauto|exfalso]. destruct c; cbn [with_defaults thermo_keys] in E; apply set_defaults_error in E; destruct E as [_ E]; try (cbn in E; congruence); exact E.
Qed.
(** C103: the data sets that are accepted, and no others. *)
Theorem C103_accepted : forall c asked ncomp (dd : data), NoDup (dkeys dd) -> unambiguous c dd -> (c = TLVE -> asked <> None) ->
  (exists ds, build c asked ncomp dd = Ok ds) <-> lengths_fit c dd /\ sufficient c ncomp dd.
Proof.
  intros c asked ncomp dd N U HA. rewrite accepted_lengths by assumption. unfold build.
  destruct (check_length_dict (gather c dd) (length_keys c) None) as [out|e] eqn:E; cbn [rbind]; [|split; [intros [ds X]; discriminate|intros [[o X] _]; discriminate]].
  destruct (lengthened c dd out N E) as (L & _ & S1 & S2 & _). fold (arrays out) in *. set (td := dupdate (gather c dd) (arrays out)) in *.
  assert (T : forall k, In k (lists c) -> dmem td k = true <-> there c dd k).
  { intros k I. rewrite dmem_dget. split.
    - intros [v V]. destruct (U k I) as [G|G]; [exact G|]. rewrite (S2 k I G) in V. discriminate.
    - intros [v G]. destruct (S1 k v I G) as [l [El _]]. eauto. }
  assert (TF : forall k, In k (lists c) -> dmem td k = false <-> ~ there c dd k) by (intros k I; rewrite <- (T k I); destruct (dmem td k); intuition congruence).
  assert (FT : forall k, dmem td k = true -> exists v, dget td k = Some v) by (intros k; apply dmem_dget).
  clearbody td. clear S1 S2.
  assert (P : (exists n, npoints c td = Ok (Some n)) <-> match c with LiquidDensity | Flash | TLVE => there c dd "Tlist" | Solubility => there c dd "delta" | Saturation => there c dd "Psat" \/ there c dd "rhol" \/ there c dd "rhov" end).
  { destruct c; cbn [npoints]; unfold dfetch.
    1, 2, 4: rewrite <- T by (cbn; auto 10); rewrite dmem_dget; destruct (dget td "Tlist") as [v|]; cbn [rbind]; split; [eauto|eauto|intros [? ?]; discriminate|intros [? ?]; discriminate].
    - rewrite <- !T by (cbn; auto 10). split.
      + intros [n X]. destruct (find (dmem td) (result_keys Saturation)) as [k|] eqn:F; [|discriminate]. apply find_some in F. destruct F as [I F]. cbn in I. destruct I as [<-|[<-|[<-|[]]]]; auto.
      + intros X. destruct (find (dmem td) (result_keys Saturation)) as [k|] eqn:F.
        * apply find_some in F. destruct F as [_ F]. apply FT in F. destruct F as [v ->]. cbn. eauto.
        * exfalso. assert (Z := find_none _ _ F). assert (Z1 := Z "Psat"). assert (Z2 := Z "rhol"). assert (Z3 := Z "rhov"). cbn in Z1, Z2, Z3. destruct X as [X|[X|X]]; [rewrite Z1 in X by auto|rewrite Z2 in X by auto|rewrite Z3 in X by auto]; discriminate.
    - rewrite <- T by (cbn; auto 10). rewrite dmem_dget. destruct (dget td "delta") as [v|]; cbn [rbind]; split; [eauto|eauto|intros [? ?]; discriminate|intros [? ?]; discriminate]. }
  assert (A : ambiguous c ncomp td = false <-> match c with LiquidDensity | Saturation | Solubility => there c dd "xilist" \/ ncomp <= 1 | _ => True end).
  { destruct c; cbn [ambiguous]; try (split; auto; fail); rewrite <- T by (cbn; auto 10); destruct (dmem td "xilist"); cbn [negb andb]; rewrite ?Nat.ltb_ge; intuition congruence. }
  destruct (npoints c td) as [[n|]|e] eqn:En; cbn [rbind].
  2, 3: split; [intros [ds X]; destruct (ambiguous c ncomp td); discriminate|intros [_ X]; exfalso; assert (Y : exists n : nat, npoints c td = Ok (Some n)) by (rewrite En; apply P; destruct c; cbn [sufficient] in X; tauto); rewrite En in Y; destruct Y; discriminate].
  assert (Pn := proj1 P (ex_intro _ n eq_refl)).
  destruct (ambiguous c ncomp td) eqn:Ea.
  { split; [intros [ds X]; discriminate|]. intros [_ X]. exfalso. assert (true = false); [|discriminate]. apply A. destruct c; cbn [sufficient] in X; tauto. }
  assert (An := proj1 A eq_refl).
  destruct (with_defaults_ok c n td) as [u Eu]. rewrite Eu. cbn [rbind]. apply with_defaults_spec in Eu. destruct Eu as (D1 & D2 & D3).
  assert (Q : forall k, In k (lists c) -> ~ In k (map fst (standard c n)) -> dmem u k = true <-> there c dd k).
  { intros k I Ns. rewrite <- (T k I), !dmem_dget. destruct (dget td k) as [v|] eqn:V; [rewrite (D1 k v V); split; eauto|]. rewrite (D2 k V Ns). split; intros [v X]; discriminate. }
  assert (Q' : forall k, In k (map fst (standard c n)) -> dmem u k = true).
  { intros k I. apply dmem_dget. destruct (dget td k) as [v|] eqn:V; [rewrite (D1 k v V); eauto|]. apply in_map_iff in I. destruct I as [[k' l] [<- I]]. cbn in V |- *. rewrite (D3 k' l V I). eauto. }
  assert (C : complete c u = true <-> match c with Flash => there c dd "xilist" /\ there c dd "yilist" | TLVE => there c dd "xilist" \/ there c dd "yilist" \/ there c dd "Plist" | _ => True end).
  { destruct c; cbn [complete].
    - rewrite (Q' "Tlist") by (cbn; auto). cbn. tauto.
    - rewrite (Q' "Plist") by (cbn; auto). cbn [orb andb]. rewrite andb_true_iff, !Q by (cbn; intuition discriminate). tauto.
    - rewrite (Q' "Tlist") by (cbn; auto). cbn [andb]. rewrite !orb_true_iff, !Q by (cbn; intuition discriminate). tauto.
    - rewrite (Q' "Tlist") by (cbn; auto). cbn [andb]. rewrite !orb_true_iff, !Q by (cbn; intuition discriminate). tauto.
    - rewrite (Q' "Tlist") by (cbn; auto). cbn. tauto. }
  assert (K : exists s, calculation c asked u = Ok s).
  { unfold calculation. destruct asked as [s|]; [eauto|]. destruct c; eauto. exfalso. now apply HA. }
  destruct K as [s K]. destruct (complete c u) eqn:Ec.
  - rewrite K. cbn [rbind]. split; [intros _|intros _; eauto]. split; [eauto|]. assert (Cn := proj1 C eq_refl). destruct c; cbn [sufficient]; tauto.
  - split; [intros [ds X]; discriminate|]. intros [_ X]. exfalso. assert (false = true); [|discriminate]. apply C. destruct c; cbn [sufficient] in X; tauto.
Qed.
Print Assumptions C103_accepted.
(** The calculation of an accepted data set that asks for none. *)
Definition numbers_in (v : value cell) : list num :=
  flat_map (fun c => match c with CNum a => [a] | CRow l => l end) (match v with Scalar c => [c] | Arr l => l end).
Definition one_not_zero (ds : dataset) (k : string) : Prop := exists v a, dget (d_data ds) k = Some v /\ numbers_in v = [a] /\ neqb a (Fin 0) = false.
Definition none_or_zero (ds : dataset) (k : string) : Prop :=
  exists v, dget (d_data ds) k = Some v /\ (numbers_in v = [] \/ exists a, numbers_in v = [a] /\ neqb a (Fin 0) = true).
Theorem C103_default_calculation : forall c ncomp (dd : data) ds, build c None ncomp dd = Ok ds ->
  match c with
  | LiquidDensity => d_calc ds = "liquid_properties" | Flash => d_calc ds = "flash"
  | Saturation => d_calc ds = "saturation_properties" | Solubility => d_calc ds = "solubility_parameter"
  | TLVE => (d_calc ds = "bubble_pressure" /\ one_not_zero ds "xilist") \/ (d_calc ds = "dew_pressure" /\ none_or_zero ds "xilist" /\ one_not_zero ds "yilist")
  end.
Proof.
  intros c ncomp dd ds B. apply build_inv in B. destruct B as (out & n & _ & _ & _ & _ & _ & Q & _).
  assert (T : forall v b, truth v = Ok b -> if b then exists a, numbers_in v = [a] /\ neqb a (Fin 0) = false
            else numbers_in v = [] \/ exists a, numbers_in v = [a] /\ neqb a (Fin 0) = true).
  { intros v b. unfold truth, numbers_in, nonzero. rewrite flat_map_concat_map.
    destruct (concat _) as [|a [|a' r]]; intros X; try discriminate; injection X as <-; [auto|].
    destruct (neqb a (Fin 0)) eqn:E; cbn; eauto. }
  destruct c; cbn [calculation] in Q; try (injection Q as <-; reflexivity).
  unfold dfetch in Q. destruct (dget (d_data ds) "xilist") as [x|] eqn:X; [|discriminate]. cbn [rbind] in Q.
  destruct (truth x) as [b|] eqn:Tx; [|discriminate]. cbn [rbind] in Q. apply T in Tx. destruct b.
  - injection Q as <-. left. split; [reflexivity|]. destruct Tx as (a & A1 & A2). exists x, a. auto.
  - destruct (dget (d_data ds) "yilist") as [y|] eqn:Y; [|discriminate]. cbn [rbind] in Q.
    destruct (truth y) as [b|] eqn:Ty; [|discriminate]. cbn [rbind] in Q. apply T in Ty. destruct b; [|discriminate].
    injection Q as <-. right. split; [reflexivity|]. split; [exists x; auto|]. destruct Ty as (a & A1 & A2). exists y, a. auto.
Qed.
Print Assumptions C103_default_calculation.
(** One point of a pure component is a bubble pressure calculation. *)
Example C103_default_nonvacuous : exists ds,
  build TLVE None 1 [("T", Arr [CNum (Fin 300)]); ("xi", Arr [CRow [Fin 1]]); ("yi", Arr [CRow [Fin 1]]); ("P", Arr [CNum (Fin 100000)])] = Ok ds /\ d_calc ds = "bubble_pressure".
Proof. eexists. split; vm_compute; reflexivity. Qed.

(** two liquid densities of a pure component at one pressure; the composition is left out *)
Definition densities : data :=
  [("T", Arr [CNum (Fin 300); CNum (Fin 310)]); ("P", Scalar (CNum (Fin 101325))); ("rhol", Arr [CNum (Fin 7); CNum (Fin 6)])].
Example C103_accepted_nonvacuous :
  NoDup (dkeys densities) /\ unambiguous LiquidDensity densities /\ lengths_fit LiquidDensity densities /\ sufficient LiquidDensity 1 densities /\
  ~ sufficient LiquidDensity 2 densities.
Proof.
  assert (GT : given LiquidDensity densities "Tlist" (Arr [CNum (Fin 300); CNum (Fin 310)])).
  { right. split; [reflexivity|]. exists "T". split; [cbn; auto|]. split; [reflexivity|]. intros o' No I. cbn in I. repeat (destruct I as [I|I]; [injection I as <- ; try discriminate; contradiction|]). destruct I. }
  assert (GP : given LiquidDensity densities "Plist" (Scalar (CNum (Fin 101325)))).
  { right. split; [reflexivity|]. exists "P". split; [cbn; auto|]. split; [reflexivity|]. intros o' No I. cbn in I. repeat (destruct I as [I|I]; [injection I as <- ; try discriminate; contradiction|]). destruct I. }
  assert (GR : given LiquidDensity densities "rhol" (Arr [CNum (Fin 7); CNum (Fin 6)])) by (left; split; [reflexivity|cbn; intuition discriminate]).
  assert (NX : not_given LiquidDensity densities "xilist").
  { split; [reflexivity|]. intros o I. cbn in I. repeat (destruct I as [I|I]; [injection I as <-; try discriminate; reflexivity|]). destruct I. }
  assert (NF : not_given LiquidDensity densities "phil").
  { split; [reflexivity|]. intros o I. cbn in I. repeat (destruct I as [I|I]; [injection I as <-; try discriminate; reflexivity|]). destruct I. }
  assert (NG : forall k v, not_given LiquidDensity densities k -> ~ given LiquidDensity densities k v).
  { intros k v [A B] [[C _]|[_ [o [I [C _]]]]]; [congruence|]. rewrite (B o I) in C. discriminate. }
  assert (GU : forall k v w, given LiquidDensity densities k v -> dget (gather LiquidDensity densities) k = Some w -> In k (lists LiquidDensity) -> v = w).
  { intros k v w G D I. rewrite (gather_given LiquidDensity densities k v) in D; [congruence| |exact I|exact G]. repeat constructor; cbn; intuition discriminate. }
  split; [repeat constructor; cbn; intuition discriminate|]. split.
  { intros k I. cbn in I. destruct I as [<-|[<-|[<-|[<-|[<-|[]]]]]]; [left; eexists; exact GP|right; exact NX|left; eexists; exact GT|left; eexists; exact GR|right; exact NF]. }
  split.
  { exists 2. split; [exists "Tlist", (Arr [CNum (Fin 300); CNum (Fin 310)]); split; [cbn; auto|]; split; [exact GT|reflexivity]|].
    intros k v I G. assert (I' := I). cbn in I. destruct I as [<-|[<-|[<-|[<-|[<-|[]]]]]].
    - rewrite (GU _ _ (Scalar (CNum (Fin 101325))) G eq_refl I'). cbn. auto.
    - destruct (NG _ _ NX G).
    - rewrite (GU _ _ (Arr [CNum (Fin 300); CNum (Fin 310)]) G eq_refl I'). cbn. auto.
    - rewrite (GU _ _ (Arr [CNum (Fin 7); CNum (Fin 6)]) G eq_refl I'). cbn. auto.
    - destruct (NG _ _ NF G). }
  split; [split; [eexists; exact GT|right; lia]|]. intros [_ [[v G]|H]]; [exact (NG _ _ NX G)|lia].
Qed.
