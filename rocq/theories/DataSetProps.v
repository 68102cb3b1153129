(** Properties of the data sets of a fit: what is compared with what (C101), what the calculation may see (C102), what is done
    about missing entries (C103). *)
From Coq Require Import Lia.
From Verif Require Import Base BaseFacts Num ToolboxModel ToolboxSpec ToolboxProofs FitObjModel FitRunModel DataSetModel.
Open Scope nat_scope.
Open Scope string_scope.

(** ** Specification *)
(** the values of component [i] in a list of compositions *)
Definition of_component (i : nat) (rows : list (list num)) : list num := map (fun r => nth i r NaN) rows.
(** [n] compositions of [k] components *)
Definition table (n k : nat) (rows : list (list num)) : Prop := length rows = n /\ Forall (fun r => length r = k) rows.
Definition nums (l : list num) : list cell := map CNum l.
Definition rows (l : list (list num)) : list cell := map CRow l.

Section Pairing.
  Variable thermo : string -> data -> result (dict (list cell)).
  Variable compare : list num -> list num -> weights -> result num.

  (** contribution of a measured quantity, none if it was not measured *)
  Definition deviation (measured : option (list num)) (predicted : list num) (w : weights) : result num :=
    match measured with Some d => compare predicted d w | None => Ok (Fin 0) end.
  (** ... of mole fractions: the sum over the components *)
  Definition deviations (k : nat) (measured : option (list (list num))) (predicted : list (list num)) (w : weights) : result num :=
    match measured with
    | Some d => let* vs := mapM (fun i => compare (of_component i predicted) (of_component i d) w) (seq 0 k) in
                Ok (fold_left nadd vs (Fin 0))
    | None => Ok (Fin 0)
    end.
  (** the data set holds these measured values under this key *)
  Definition holds_numbers (td : data) (key : string) (m : option (list num)) : Prop :=
    dget td key = option_map (fun l => Arr (nums l)) m.
  Definition holds_rows (td : data) (key : string) (m : option (list (list num))) : Prop :=
    dget td key = option_map (fun l => Arr (rows l)) m.

  (** ** Columns *)
  Lemma mapM_Ok {A B} (f : A -> result B) (g : A -> B) l : (forall x, In x l -> f x = Ok (g x)) -> mapM f l = Ok (map g l).
  Proof.
    induction l as [|a l IH]; intros H; [reflexivity|]. cbn [mapM map]. rewrite H by now left. cbn [rbind].
    rewrite IH by (intros; apply H; now right). reflexivity.
  Qed.
  Lemma mapM_map {A B C} (f : B -> result C) (g : A -> B) l : mapM f (map g l) = mapM (fun x => f (g x)) l.
  Proof. induction l as [|a l IH]; [reflexivity|]. cbn. destruct (f (g a)); cbn; [|reflexivity]. now rewrite IH. Qed.

  Lemma numbers_nums l : numbers (Arr (nums l)) = Ok l.
  Proof. unfold numbers, nums. rewrite mapM_map, (mapM_Ok _ (fun x => x)); [now rewrite map_id|]. reflexivity. Qed.
  Lemma components_rows n k l : table n k l -> n <> 0 -> components (Arr (rows l)) = Ok (map (fun i => of_component i l) (seq 0 k)).
  Proof.
    intros (Hn & Hk) N. unfold components, rows. rewrite mapM_map, (mapM_Ok _ (fun x => x)) by reflexivity. rewrite map_id. cbn [rbind].
    destruct l as [|r l]; [cbn in Hn; lia|].
    assert (Lr : length r = k) by now inversion Hk.
    assert (F : forallb (fun r' => Nat.eqb (length r') (length r)) (r :: l) = true).
    { apply forallb_forall. intros r' Hr. apply Nat.eqb_eq. rewrite Lr. rewrite Forall_forall in Hk. auto. }
    rewrite F, Lr. reflexivity.
  Qed.

  Lemma block_nums n l : length l = n -> n <> 0 -> block n (nums l) = Ok [l].
  Proof.
    intros Hn N. destruct l as [|a l]; [cbn in Hn; lia|]. unfold block. cbn [nums map].
    change (CNum a :: map CNum l) with (nums (a :: l)). cbn [cell_len].
    unfold nums. rewrite mapM_map. rewrite (mapM_Ok _ (fun a => [a])) by reflexivity. cbn [rbind].
    unfold rows_of. cbn [seq map mapM]. unfold broadcast.
    replace (map (fun c : list num => nth 0 c NaN) (map (fun a => [a]) l)) with l.
    - cbn [nth]. rewrite Hn, Nat.eqb_refl. reflexivity.
    - rewrite map_map. cbn [nth]. now rewrite map_id.
  Qed.
  Lemma block_rows n k l : table n k l -> n <> 0 -> block n (rows l) = Ok (map (fun i => of_component i l) (seq 0 k)).
  Proof.
    intros (Hn & Hk) N. destruct l as [|r l]; [cbn in Hn; lia|]. unfold block. cbn [rows map].
    change (CRow r :: map CRow l) with (rows (r :: l)). cbn [cell_len].
    assert (Lr : length r = k) by now inversion Hk. rewrite Lr.
    unfold rows. rewrite mapM_map. rewrite (mapM_Ok _ (fun x => x)).
    2: { intros x Hx. cbn [fill]. unfold broadcast. rewrite Forall_forall in Hk. rewrite (Hk x Hx), Nat.eqb_refl. reflexivity. }
    rewrite map_id. cbn [rbind]. unfold rows_of. rewrite mapM_map. apply mapM_Ok. intros i _. unfold broadcast, of_component.
    rewrite map_length, Hn, Nat.eqb_refl. reflexivity.
  Qed.

  Lemma component_loop_spec wk k : forall (cols : list (list num)) pred meas i j acc,
    (forall m, j <= m < j + k -> nth_error cols (i + (m - j)) = Some (of_component m pred)) ->
    component_loop compare cols wk i (map (fun m => of_component m meas) (seq j k)) acc =
    let* vs := mapM (fun m => compare (of_component m pred) (of_component m meas) wk) (seq j k) in Ok (fold_left nadd vs acc).
  Proof.
    induction k as [|k IH]; intros cols pred meas i j acc H; [reflexivity|]. cbn [seq map component_loop mapM].
    unfold column. pose proof (H j) as H0. rewrite Nat.sub_diag, Nat.add_0_r in H0. rewrite H0 by lia. cbn [rbind].
    destruct (compare (of_component j pred) (of_component j meas) wk) as [v|e]; cbn [rbind]; [|reflexivity].
    rewrite (IH cols pred meas (S i) (S j)).
    - destruct (mapM _ (seq (S j) k)); reflexivity.
    - intros m Hm. replace (S i + (m - S j)) with (i + (m - j)) by lia. apply H. lia.
  Qed.

  Lemma component_part_spec td w cols key i n k m pred wk :
    holds_rows td key m -> (forall l, m = Some l -> table n k l) -> n <> 0 -> k <> 0 -> dget w key = Some wk ->
    (forall j, j < k -> nth_error cols (i + j) = Some (of_component j pred)) ->
    component_part compare td w cols key i = deviations k m pred wk.
  Proof.
    intros Hm Ht N K Hw Hc. unfold component_part, deviations. rewrite Hm. destruct m as [l|]; [|reflexivity]. cbn [option_map].
    rewrite (components_rows n k l (Ht l eq_refl) N). cbn [rbind]. unfold dfetch. rewrite Hw.
    destruct k as [|k]; [congruence|]. cbn [rbind].
    transitivity (component_loop compare cols wk i (map (fun m => of_component m l) (seq 0 (S k))) (Fin 0)); [reflexivity|].
    apply component_loop_spec. intros j Hj. rewrite Nat.sub_0_r. apply Hc. lia.
  Qed.

  Lemma scalar_part_spec td w cols key i m pred wk :
    holds_numbers td key m -> dget w key = Some wk -> nth_error cols i = Some pred ->
    scalar_part compare td w cols key i = deviation m pred wk.
  Proof.
    intros Hm Hw Hc. unfold scalar_part, deviation. rewrite Hm. destruct m as [l|]; [|reflexivity]. cbn [option_map].
    unfold column, dfetch. rewrite Hc, Hw. cbn [rbind]. rewrite numbers_nums. reflexivity.
  Qed.

  Lemma nth_seq_component pred k j : j < k -> nth_error (map (fun i => of_component i pred) (seq 0 k)) j = Some (of_component j pred).
  Proof.
    intros H. rewrite nth_error_map. replace (nth_error (seq 0 k) j) with (Some j); [reflexivity|].
    symmetry. rewrite (nth_error_nth' _ 0) by now rewrite seq_length. now rewrite seq_nth.
  Qed.

(** C101: every measured quantity is compared with the calculated values of the same quantity, of the same component, with its
    own weights.  [n] state points, [k] components. *)
Theorem C101_saturation : forall ds w out n ps rl rv mp ml mv wp wl wv,
  d_class ds = Saturation -> n <> 0 ->
  thermo (d_calc ds) (options ds) = Ok out ->
  dget out "Psat" = Some (nums ps) -> dget out "rhol" = Some (nums rl) -> dget out "rhov" = Some (nums rv) ->
  length ps = n -> length rl = n -> length rv = n ->
  holds_numbers (d_data ds) "Psat" mp -> holds_numbers (d_data ds) "rhol" ml -> holds_numbers (d_data ds) "rhov" mv ->
  dget w "Psat" = Some wp -> dget w "rhol" = Some wl -> dget w "rhov" = Some wv ->
  objective thermo compare ds w =
    (let* a := deviation mp ps wp in let* b := deviation ml rl wl in let* c := deviation mv rv wv in Ok (dataset_objective [a; b; c])).
Proof.
  intros ds w out n ps rl rv mp ml mv wp wl wv Hc N Ht O1 O2 O3 L1 L2 L3 M1 M2 M3 W1 W2 W3.
  unfold objective, predictions. rewrite Hc. cbn [output_keys]. rewrite Ht. cbn [mapM]. unfold dfetch at 1 2 3. rewrite O1, O2, O3. cbn [rbind].
  unfold reformat_output. cbn [mapM].
  unfold nums at 1 3 5. rewrite map_length, L1. fold (nums ps).
  rewrite (block_nums n ps), (block_nums n rl), (block_nums n rv) by auto. cbn [rbind concat app].
  rewrite (scalar_part_spec _ _ _ "Psat" 0 mp ps wp), (scalar_part_spec _ _ _ "rhol" 1 ml rl wl), (scalar_part_spec _ _ _ "rhov" 2 mv rv wv) by auto.
  reflexivity.
Qed.

Theorem C101_solubility : forall ds w out n de rl md ml wd wl,
  d_class ds = Solubility -> n <> 0 ->
  thermo (d_calc ds) (options ds) = Ok out ->
  dget out "delta" = Some (nums de) -> dget out "rhol" = Some (nums rl) -> length de = n -> length rl = n ->
  holds_numbers (d_data ds) "delta" md -> holds_numbers (d_data ds) "rhol" ml ->
  dget w "delta" = Some wd -> dget w "rhol" = Some wl ->
  objective thermo compare ds w =
    (let* a := deviation md de wd in let* b := deviation ml rl wl in Ok (dataset_objective [a; b])).
Proof.
  intros ds w out n de rl md ml wd wl Hc N Ht O1 O2 L1 L2 M1 M2 W1 W2.
  unfold objective, predictions. rewrite Hc. cbn [output_keys]. rewrite Ht. cbn [mapM]. unfold dfetch at 1 2. rewrite O1, O2. cbn [rbind].
  unfold reformat_output. cbn [mapM].
  unfold nums at 1 3. rewrite map_length, L1. fold (nums de).
  rewrite (block_nums n de), (block_nums n rl) by auto. cbn [rbind concat app].
  rewrite (scalar_part_spec _ _ _ "delta" 0 md de wd), (scalar_part_spec _ _ _ "rhol" 1 ml rl wl) by auto.
  reflexivity.
Qed.

Theorem C101_liquid_density : forall ds w out rl ml wl,
  d_class ds = LiquidDensity ->
  thermo (d_calc ds) (options ds) = Ok out -> dget out "rhol" = Some (nums rl) ->
  holds_numbers (d_data ds) "rhol" (Some ml) -> dget w "rhol" = Some wl ->
  objective thermo compare ds w = (let* a := compare rl ml wl in Ok (if is_nan a || neqb a (Fin 0) then PInf else a)).
Proof.
  intros ds w out rl ml wl Hc Ht O1 M1 W1.
  unfold objective, predictions. rewrite Hc. cbn [output_keys]. rewrite Ht. cbn [mapM]. unfold dfetch at 1. rewrite O1. cbn [rbind].
  unfold reformat_output. pose proof (numbers_nums rl) as E. cbn [numbers] in E. rewrite E. cbn [rbind].
  unfold column. cbn [nth_error rbind]. unfold dfetch. rewrite M1, W1. cbn [option_map rbind]. rewrite numbers_nums. reflexivity.
Qed.

Theorem C101_flash : forall ds w out n k ys xs my mx wy wx,
  d_class ds = Flash -> n <> 0 -> k <> 0 -> d_ncomp ds = k ->
  thermo (d_calc ds) (options ds) = Ok out ->
  dget out "yi" = Some (rows ys) -> dget out "xi" = Some (rows xs) -> table n k ys -> table n k xs ->
  holds_rows (d_data ds) "yilist" my -> holds_rows (d_data ds) "xilist" mx ->
  (forall l, my = Some l -> table n k l) -> (forall l, mx = Some l -> table n k l) ->
  dget w "yilist" = Some wy -> dget w "xilist" = Some wx ->
  objective thermo compare ds w =
    (let* a := deviations k my ys wy in let* b := deviations k mx xs wx in Ok (dataset_objective [a; b])).
Proof.
  intros ds w out n k ys xs my mx wy wx Hc N K Hk Ht O1 O2 T1 T2 M1 M2 F1 F2 W1 W2.
  unfold objective, predictions. rewrite Hc. cbn [output_keys]. rewrite Ht. cbn [mapM]. unfold dfetch at 1 2. rewrite O1, O2. cbn [rbind].
  unfold reformat_output. cbn [mapM].
  unfold rows at 1 3. rewrite map_length. destruct T1 as (L1 & T1). rewrite L1. fold (rows ys).
  rewrite (block_rows n k ys), (block_rows n k xs) by (auto; now split). cbn [rbind concat].
  rewrite app_nil_r.
  rewrite (component_part_spec _ _ _ "yilist" 0 n k my ys wy), (component_part_spec _ _ _ "xilist" (d_ncomp ds) n k mx xs wx); auto.
  - intros j Hj. rewrite Hk, nth_error_app2 by (rewrite map_length, seq_length; lia). rewrite map_length, seq_length.
    replace (k + j - k) with j by lia. now apply nth_seq_component.
  - intros j Hj. rewrite nth_error_app1 by (rewrite map_length, seq_length; lia). now apply nth_seq_component.
Qed.

Theorem C101_TLVE : forall ds w out n k ps zs mp mz wp wz predicted given,
  d_class ds = TLVE -> n <> 0 -> k <> 0 ->
  (d_calc ds = "bubble_pressure" /\ predicted = "yi" /\ given = "yilist" \/
   d_calc ds = "dew_pressure" /\ predicted = "xi" /\ given = "xilist") ->
  thermo (d_calc ds) (options ds) = Ok out ->
  dget out "P" = Some (nums ps) -> dget out predicted = Some (rows zs) -> length ps = n -> table n k zs ->
  holds_numbers (d_data ds) "Plist" mp -> holds_rows (d_data ds) given mz -> (forall l, mz = Some l -> table n k l) ->
  dget w "Plist" = Some wp -> dget w given = Some wz ->
  objective thermo compare ds w =
    (let* a := deviation mp ps wp in let* b := deviations k mz zs wz in Ok (dataset_objective [a; b])).
Proof.
  intros ds w out n k ps zs mp mz wp wz predicted given Hc N K D Ht O1 O2 L1 T2 M1 M2 F2 W1 W2.
  unfold objective, predictions. rewrite Hc.
  assert (Ek : output_keys TLVE (d_calc ds) = Some ["P"; predicted]).
  { destruct D as [(-> & -> & _)|(-> & -> & _)]; reflexivity. }
  rewrite Ek, Ht. cbn [mapM]. unfold dfetch at 1 2. rewrite O1, O2. cbn [rbind].
  unfold reformat_output. cbn [mapM].
  unfold nums at 1 3. rewrite map_length, L1. fold (nums ps).
  rewrite (block_nums n ps), (block_rows n k zs) by auto. cbn [rbind concat]. rewrite app_nil_r. cbn [app].
  rewrite (scalar_part_spec _ _ _ "Plist" 0 mp ps wp) by auto.
  assert (Ec : component_part compare (d_data ds) w (ps :: map (fun i => of_component i zs) (seq 0 k)) given 1 = deviations k mz zs wz).
  { apply (component_part_spec _ _ _ _ _ n); auto. intros j Hj. cbn [Nat.add nth_error]. now apply nth_seq_component. }
  rewrite <- Ec. destruct D as [(-> & _ & ->)|(-> & _ & ->)]; reflexivity.
Qed.
End Pairing.

(** ** What the calculation may see *)
(** Two inputs that agree except for the values (not the number of values) of the entries in [S]. *)
Definition same_shape (a b : option (value cell)) : Prop :=
  match a, b with
  | None, None => True
  | Some (Scalar _), Some (Scalar _) => True
  | Some (Arr l), Some (Arr m) => length l = length m
  | _, _ => False
  end.
Definition agree_except (S : list string) (d d' : data) : Prop :=
  forall k, same_shape (dget d k) (dget d' k) /\ (~ In k S -> dget d k = dget d' k).

Lemma shape_refl a : same_shape a a.
Proof. destruct a as [[]|]; cbn; auto. Qed.
Lemma agree_set S d d' k v : agree_except S d d' -> agree_except S (dset d k v) (dset d' k v).
Proof.
  intros H x. destruct (String.eqb_spec x k) as [->|N].
  - rewrite !dget_dset_same. split; [apply shape_refl|reflexivity].
  - rewrite !dget_dset_other by congruence. apply H.
Qed.
Lemma agree_set' S d d' k v v' : In k S -> same_shape (Some v) (Some v') -> agree_except S d d' -> agree_except S (dset d k v) (dset d' k v').
Proof.
  intros I Sh H x. destruct (String.eqb_spec x k) as [->|N].
  - rewrite !dget_dset_same. split; [exact Sh|tauto].
  - rewrite !dget_dset_other by congruence. apply H.
Qed.
Lemma agree_del S d d' k : agree_except S d d' -> agree_except S (ddel d k) (ddel d' k).
Proof.
  intros H x. destruct (String.eqb_spec x k) as [->|N].
  - rewrite !dget_ddel_same. cbn. auto.
  - rewrite !dget_ddel_other by congruence. apply H.
Qed.
Lemma agree_dels S ks : forall d d', agree_except S d d' ->
  agree_except S (fold_left (fun d k => ddel d k) ks d) (fold_left (fun d k => ddel d k) ks d').
Proof. induction ks; intros d d' H; cbn; [assumption|]. apply IHks. now apply agree_del. Qed.
Lemma gone_dels ks : forall (d : data) k, In k ks -> dget (fold_left (fun d k => ddel d k) ks d) k = None.
Proof.
  assert (G : forall ks (d : data) k, dget d k = None -> dget (fold_left (fun d k => ddel d k) ks d) k = None).
  { clear. induction ks as [|a ks IH]; intros d k H; cbn; [assumption|]. apply IH. destruct (String.eqb_spec k a) as [->|N].
    - apply dget_ddel_same.
    - rewrite dget_ddel_other by congruence. assumption. }
  induction ks as [|a ks IH]; intros d k H; [destruct H|]. cbn. destruct H as [->|H]; [|now apply IH]. apply G. apply dget_ddel_same.
Qed.
Lemma agree_update S d d' e e' : NoDup (dkeys e) -> NoDup (dkeys e') -> agree_except S d d' -> agree_except S e e' ->
  agree_except S (dupdate d e) (dupdate d' e').
Proof.
  intros N N' H He k. rewrite !dupdate_get by assumption. destruct (He k) as (Sh & Eq). destruct (H k) as (Sh' & Eq').
  destruct (dget e k) as [v|] eqn:E, (dget e' k) as [v'|] eqn:E'; cbn in Sh.
  - split; [exact Sh|exact Eq].
  - destruct v; destruct Sh.
  - destruct Sh.
  - split; assumption.
Qed.
Lemma agree_weaken S S' d d' : incl S S' -> agree_except S d d' -> agree_except S' d d'.
Proof. intros I H k. destruct (H k) as (A & B). split; [exact A|]. intros N. apply B. intros X. apply N. now apply I. Qed.

Lemma fold_set_agree S v v' ks : forall d d', agree_except S d d' ->
  (v = v' \/ (forall k, In k ks -> In k S) /\ same_shape (Some v) (Some v')) ->
  agree_except S (fold_left (fun d k => dset d k v) ks d) (fold_left (fun d k => dset d k v') ks d').
Proof.
  induction ks as [|k ks IH]; intros d d' H C; cbn; [assumption|]. apply IH.
  - destruct C as [->|(I & Sh)]; [now apply agree_set|]. apply agree_set'; auto. apply I. now left.
  - destruct C as [C|(I & Sh)]; [auto|right]. split; [|exact Sh]. intros x Hx. apply I. now right.
Qed.

Lemma NoDup_ddel {A} (d : dict A) k : NoDup (dkeys d) -> NoDup (dkeys (ddel d k)).
Proof.
  intros H. induction d as [|[a v] d IH]; cbn; [constructor|]. inversion_clear H.
  destruct (String.eqb k a); [auto|]. cbn. constructor; auto.
  intros I. apply H0. clear -I. induction d as [|[b w] d IH]; cbn in *; [destruct I|]. destruct (String.eqb k b); [right; auto|].
  destruct I as [I|I]; [left; assumption|right; auto].
Qed.

Lemma move_some (td dd : data) o ns v : dget dd o = Some v -> move (td, dd) (o, ns) = (fold_left (fun d k => dset d k v) ns td, ddel dd o).
Proof. unfold move. cbn [fst snd]. now intros ->. Qed.
Lemma move_none (td dd : data) o ns : dget dd o = None -> move (td, dd) (o, ns) = (td, dd).
Proof. unfold move. cbn [fst snd]. now intros ->. Qed.

Lemma moves_agree Su St rs : forall td dd td' dd' : data,
  (forall r, In r rs -> In (fst r) Su -> forall k, In k (snd r) -> In k St) ->
  agree_except St td td' -> agree_except Su dd dd' -> NoDup (dkeys dd) -> NoDup (dkeys dd') ->
  let r := fold_left move rs (td, dd) in let r' := fold_left move rs (td', dd') in
  agree_except St (fst r) (fst r') /\ agree_except Su (snd r) (snd r') /\ NoDup (dkeys (snd r)) /\ NoDup (dkeys (snd r')).
Proof.
  induction rs as [|[o ns] rs IH]; intros td dd td' dd' HR Ht Hd N N'; [cbn; auto|]. cbn [fold_left].
  destruct (Hd o) as (Sh & Eq).
  destruct (dget dd o) as [v|] eqn:E, (dget dd' o) as [v'|] eqn:E'; cbn in Sh.
  - rewrite (move_some td dd o ns v E), (move_some td' dd' o ns v' E'). apply IH.
    + intros r Hr. apply HR. now right.
    + apply fold_set_agree; [assumption|]. destruct (in_dec string_dec o Su) as [I|I].
      * right. split; [|exact Sh]. intros k Hk. apply (HR (o, ns)); auto. now left.
      * left. specialize (Eq I). congruence.
    + now apply agree_del.
    + now apply NoDup_ddel.
    + now apply NoDup_ddel.
  - destruct v; destruct Sh.
  - destruct Sh.
  - rewrite (move_none td dd o ns E), (move_none td' dd' o ns E'). apply IH; auto. intros r Hr. apply HR. now right.
Qed.

(** the entries a class compares, under the user's names and as stored *)
Definition compared (c : data_class) (calc : string) : list string :=
  match c with
  | LiquidDensity => ["rhol"; "phil"]
  | Flash => ["xi"; "yi"; "xilist"; "yilist"]
  | Saturation => ["P"; "Psat"; "rhol"; "rhov"]
  | Solubility => ["delta"; "rhol"]
  | TLVE => if String.eqb calc "bubble_pressure" then ["P"; "Plist"; "yi"; "yilist"]
            else if String.eqb calc "dew_pressure" then ["P"; "Plist"; "xi"; "xilist"] else []
  end.

(** ... as stored, with the starting values *)
Definition stored (c : data_class) (calc : string) : list string :=
  match c with
  | LiquidDensity => ["rhol"; "phil"]
  | Flash => ["xilist"; "yilist"]
  | Saturation => ["Psat"; "rhol"; "rhov"]
  | Solubility => ["delta"; "rhol"]
  | TLVE => if String.eqb calc "bubble_pressure" then ["Pguess"; "Plist"; "yilist"]
            else if String.eqb calc "dew_pressure" then ["Pguess"; "Plist"; "xilist"] else []
  end.

Lemma moved_gone rs : forall (td dd : data) r, In r rs -> dget (snd (fold_left move rs (td, dd))) (fst r) = None.
Proof.
  assert (G : forall rs (td dd : data) k, dget dd k = None -> dget (snd (fold_left move rs (td, dd))) k = None).
  { clear. induction rs as [|r rs IH]; intros td dd k H; cbn [fold_left]; [assumption|]. destruct r as [o ns].
    destruct (dget dd o) eqn:E; [erewrite move_some by exact E|rewrite move_none by exact E]; apply IH; [|assumption]. destruct (String.eqb_spec k o) as [->|N].
    - apply dget_ddel_same.
    - rewrite dget_ddel_other by congruence. assumption. }
  induction rs as [|r0 rs IH]; intros td dd r H; [destruct H|]. cbn [fold_left]. destruct H as [->|H].
  - destruct r as [o ns]. destruct (dget dd o) eqn:E; [erewrite move_some by exact E|rewrite move_none by exact E]; apply G; [apply dget_ddel_same|assumption].
  - destruct (move (td, dd) r0). now apply IH.
Qed.

Lemma gather_agree c calc (dd dd' : data) : NoDup (dkeys dd) -> NoDup (dkeys dd') ->
  agree_except (compared c calc) dd dd' -> agree_except (stored c calc) (gather c dd) (gather c dd').
Proof.
  intros N N' H. unfold gather.
  assert (M := moves_agree (compared c calc) (stored c calc) (renames c) [] dd [] dd').
  destruct (fold_left move (renames c) ([], dd)) as [t r] eqn:E, (fold_left move (renames c) ([], dd')) as [t' r'] eqn:E'.
  cbn [fst snd] in M. destruct M as (A & B & C & D); auto.
  - destruct c; cbn [renames compared stored]; try (destruct (String.eqb calc "bubble_pressure"); [|destruct (String.eqb calc "dew_pressure")]);
      cbn [In]; intros r0 Hr I k Hk; repeat destruct Hr as [<-|Hr]; try destruct Hr; cbn [fst snd In] in *; intuition (subst; try discriminate; auto 12).
  - intros k. cbn. auto.
  - change (fold_left move (renames c) ([], dd)) with (fold_left move (renames c) (([] : data), dd)) in E.
    change (fold_left move (renames c) ([], dd')) with (fold_left move (renames c) (([] : data), dd')) in E'.
    rewrite E, E' in *. cbn [fst snd] in *. apply agree_update; auto. intros k. destruct (B k) as (Sh & Eq). split; [exact Sh|]. intros I.
    destruct (in_dec string_dec k (map fst (renames c))) as [R|R].
    + apply in_map_iff in R as (r0 & <- & R). pose proof (moved_gone (renames c) [] dd r0 R) as X. pose proof (moved_gone (renames c) [] dd' r0 R) as X'.
      rewrite E in X. rewrite E' in X'. cbn [snd] in *. congruence.
    + apply Eq. intros J. clear -I R J.
      destruct c; cbn [stored compared renames map fst] in *; try (destruct (String.eqb calc "bubble_pressure"); [|destruct (String.eqb calc "dew_pressure")]);
        cbn [In] in *; intuition.
Qed.

Lemma shape_length a b : same_shape (Some a) (Some b) -> entry_length a = entry_length b.
Proof. destruct a, b; cbn; intuition. Qed.
Lemma lx_array_agree S d d' ks : agree_except S d d' -> lx_array d ks = lx_array d' ks.
Proof.
  intros H. induction ks as [|k ks IH]; [reflexivity|]. cbn. destruct (H k) as (Sh & _).
  destruct (dget d k) as [v|], (dget d' k) as [v'|]; cbn in Sh; [|now destruct v|now destruct Sh|].
  - rewrite IH. f_equal. now apply shape_length.
  - exact IH.
Qed.
Lemma expand_shape n a b : same_shape (Some a) (Some b) ->
  match expand_entry n a, expand_entry n b with Ok l, Ok m => length l = length m | Err e, Err e' => e = e' | _, _ => False end.
Proof.
  intros H. destruct a as [a|l], b as [b|m]; cbn in H; try now destruct H.
  - cbn. now rewrite !repeat_length.
  - cbn. rewrite H. destruct (Nat.eqb (length m) 1) eqn:E1.
    + apply Nat.eqb_eq in E1. rewrite E1 in H. destruct l as [|? [|? ?]], m as [|? [|? ?]]; try discriminate. now rewrite !repeat_length.
    + destruct (Nat.eqb (length m) n); auto.
Qed.
Definition arrays (d : dict (list cell)) : data := map (fun kv => (fst kv, Arr (snd kv))) d.
Lemma dget_arrays d k : dget (arrays d) k = option_map Arr (dget d k).
Proof. induction d as [|[a v] d IH]; [reflexivity|]. cbn. destruct (String.eqb k a); [reflexivity|exact IH]. Qed.
Lemma dkeys_arrays d : dkeys (arrays d) = dkeys d.
Proof. unfold dkeys, arrays. rewrite map_map. reflexivity. Qed.

Lemma length_loop_agree S d d' n ks : agree_except S d d' -> forall acc acc',
  agree_except S (arrays acc) (arrays acc') -> NoDup (dkeys acc) -> NoDup (dkeys acc') ->
  match length_loop d n ks acc, length_loop d' n ks acc' with
  | Ok o, Ok o' => agree_except S (arrays o) (arrays o') /\ NoDup (dkeys o) /\ NoDup (dkeys o')
  | Err e, Err e' => e = e' | _, _ => False end.
Proof.
  intros H. induction ks as [|k ks IH]; intros acc acc' A N N'; [cbn; auto|]. cbn [length_loop].
  destruct (H k) as (Sh & Eq).
  destruct (dget d k) as [v|] eqn:E, (dget d' k) as [v'|] eqn:E'; cbn in Sh; [|now destruct v|now destruct Sh|].
  - pose proof (expand_shape n v v' Sh) as X.
    destruct (expand_entry n v) as [l|] eqn:El, (expand_entry n v') as [m|] eqn:Em; cbn [rbind]; try now destruct X.
    apply IH; [|now apply NoDup_dset|now apply NoDup_dset]. intros x. rewrite !dget_arrays. destruct (String.eqb_spec x k) as [->|Nx].
    + rewrite !dget_dset_same. cbn. split; [exact X|]. intros I. specialize (Eq I). congruence.
    + rewrite !dget_dset_other by congruence. rewrite <- !dget_arrays. apply A.
  - apply IH; assumption.
Qed.

Lemma check_length_agree S d d' ks : agree_except S d d' ->
  match check_length_dict d ks None, check_length_dict d' ks None with
  | Ok o, Ok o' => agree_except S (arrays o) (arrays o') /\ NoDup (dkeys o) /\ NoDup (dkeys o')
  | Err e, Err e' => e = e' | _, _ => False end.
Proof.
  intros H. unfold check_length_dict, target_length. rewrite (lx_array_agree S d d' ks H).
  destruct (lx_array d' ks) as [|x l]; cbn [rbind]; [reflexivity|]. apply length_loop_agree; auto.
  - intros k. cbn. auto.
  - constructor.
  - constructor.
Qed.

Lemma dmem_agree S d d' k : agree_except S d d' -> dmem d k = dmem d' k.
Proof.
  intros H. unfold dmem. destruct (H k) as (Sh & _). destruct (dget d k) as [v|], (dget d' k) as [v'|]; cbn in Sh; [reflexivity|now destruct v|now destruct Sh|reflexivity].
Qed.

Lemma defaults_agree S d d' keys vals n : agree_except S d d' ->
  match set_defaults d keys vals n, set_defaults d' keys vals n with
  | Ok o, Ok o' => agree_except S o o' | Err e, Err e' => e = e' | _, _ => False end.
Proof.
  intros H. unfold set_defaults. destruct (pair_defaults keys vals) as [kvs|]; cbn [rbind]; [|reflexivity].
  assert (G : forall a a', agree_except S a a' ->
    agree_except S (fold_left (fun acc kv => if dmem d (fst kv) then acc else dset acc (fst kv) (default_value n (snd kv))) kvs a)
                   (fold_left (fun acc kv => if dmem d' (fst kv) then acc else dset acc (fst kv) (default_value n (snd kv))) kvs a')).
  { induction kvs as [|kv kvs IH]; intros a a' A; cbn; [assumption|]. apply IH. rewrite (dmem_agree S d d' _ H).
    destruct (dmem d' (fst kv)); [assumption|]. now apply agree_set. }
  now apply G.
Qed.

Lemma entry_agree S d d' k : agree_except S d d' ->
  match dget d k, dget d' k with Some v, Some v' => entry_length v = entry_length v' | None, None => True | _, _ => False end.
Proof.
  intros H. destruct (H k) as (Sh & _). destruct (dget d k) as [v|], (dget d' k) as [v'|]; cbn in Sh; [|now destruct v|now destruct Sh|trivial].
  now apply shape_length.
Qed.
Lemma npoints_agree S c d d' : agree_except S d d' -> npoints c d = npoints c d'.
Proof.
  intros H. unfold npoints, dfetch. destruct c.
  1, 2, 4: pose proof (entry_agree S d d' "Tlist" H); destruct (dget d "Tlist"), (dget d' "Tlist"); cbn; try now destruct H0; congruence.
  - f_equal. cbn [find result_keys]. rewrite !(dmem_agree S d d' _ H).
    destruct (dmem d' "rhol"); [|destruct (dmem d' "rhov"); [|destruct (dmem d' "Psat"); [|reflexivity]]].
    + pose proof (entry_agree S d d' "rhol" H). destruct (dget d "rhol"), (dget d' "rhol"); cbn; try now destruct H0; congruence.
    + pose proof (entry_agree S d d' "rhov" H). destruct (dget d "rhov"), (dget d' "rhov"); cbn; try now destruct H0; congruence.
    + pose proof (entry_agree S d d' "Psat" H). destruct (dget d "Psat"), (dget d' "Psat"); cbn; try now destruct H0; congruence.
  - pose proof (entry_agree S d d' "delta" H). destruct (dget d "delta"), (dget d' "delta"); cbn; try now destruct H0; congruence.
Qed.

Lemma build_agree c calc ncomp (dd dd' : data) : NoDup (dkeys dd) -> NoDup (dkeys dd') -> agree_except (compared c calc) dd dd' ->
  match build c (Some calc) ncomp dd, build c (Some calc) ncomp dd' with
  | Ok ds, Ok ds' => agree_except (stored c calc) (d_data ds) (d_data ds') /\ d_class ds = c /\ d_class ds' = c /\ d_calc ds = calc /\ d_calc ds' = calc
  | Err e, Err e' => e = e' | _, _ => False end.
Proof.
  intros N N' H. unfold build. pose proof (gather_agree c calc dd dd' N N' H) as G.
  pose proof (check_length_agree _ _ _ (length_keys c) G) as L.
  destruct (check_length_dict (gather c dd) (length_keys c) None) as [o|], (check_length_dict (gather c dd') (length_keys c) None) as [o'|];
    cbn [rbind]; try now destruct L. destruct L as (A & No & No').
  set (t := dupdate (gather c dd) _). set (t' := dupdate (gather c dd') _).
  assert (T : agree_except (stored c calc) t t').
  { unfold t, t'. apply agree_update; auto; fold (arrays o); fold (arrays o'); now rewrite dkeys_arrays. }
  clearbody t t'. rewrite (npoints_agree _ c t t' T). destruct (npoints c t') as [n|]; cbn [rbind]; [|reflexivity].
  assert (Am : ambiguous c ncomp t = ambiguous c ncomp t').
  { unfold ambiguous. now rewrite (dmem_agree _ t t' "xilist" T). }
  rewrite Am. destruct (ambiguous c ncomp t'); [reflexivity|].
  assert (D : match with_defaults c n t, with_defaults c n t' with
    | Ok o, Ok o' => agree_except (stored c calc) o o' | Err e, Err e' => e = e' | _, _ => False end).
  { unfold with_defaults. destruct n as [n|]; [|reflexivity]. destruct c; apply defaults_agree; assumption. }
  destruct (with_defaults c n t) as [u|], (with_defaults c n t') as [u'|]; cbn [rbind]; try now destruct D.
  assert (C : complete c u = complete c u').
  { unfold complete. destruct c; now rewrite !(dmem_agree _ u u' _ D). }
  rewrite C. destruct (complete c u'); [|reflexivity]. cbn [calculation rbind d_data d_class d_calc]. auto.
Qed.

(** C102: the calculations of a data set do not see the measured values they are compared with; the only exception is TLVE,
    where the measured pressures are passed on as starting values.  (Whether the data set is accepted does not depend on the
    measured values either.) *)
Theorem C102_blind : forall c calc ncomp (dd dd' : data), NoDup (dkeys dd) -> NoDup (dkeys dd') ->
  agree_except (compared c calc) dd dd' ->
  match build c (Some calc) ncomp dd, build c (Some calc) ncomp dd' with
  | Ok ds, Ok ds' => forall k, k <> "Pguess" \/ c <> TLVE ->
      (c = TLVE -> calc = "bubble_pressure" \/ calc = "dew_pressure") -> dget (options ds) k = dget (options ds') k
  | Err e, Err e' => e = e'
  | _, _ => False
  end.
Proof.
  intros c calc ncomp dd dd' N N' H. pose proof (build_agree c calc ncomp dd dd' N N' H) as B.
  destruct (build c (Some calc) ncomp dd) as [ds|], (build c (Some calc) ncomp dd') as [ds'|]; try exact B.
  destruct B as (A & C1 & C2 & D1 & D2). intros k K Kc. unfold options. rewrite C1, C2, D1, D2.
  set (ks := (final_keys c calc ++ _)%list).
  destruct (in_dec string_dec k ks) as [I|I]; [now rewrite !gone_dels|].
  pose proof (agree_dels _ ks _ _ A k) as (_ & E).
  destruct (in_dec string_dec k (stored c calc)) as [X|X]; [|now apply E].
  exfalso. unfold stored, ks, final_keys in *. destruct c; cbn [result_keys app In] in *; try tauto.
  destruct (Kc eq_refl) as [-> | ->]; cbn in *; intuition congruence.
Qed.

(** C102 is false of TLVE: the measured pressures are passed on as starting values. *)
Theorem C102_guess_refuted : exists dd dd' ds ds',
  agree_except (compared TLVE "bubble_pressure") dd dd' /\
  build TLVE (Some "bubble_pressure") 2 dd = Ok ds /\ build TLVE (Some "bubble_pressure") 2 dd' = Ok ds' /\
  dget (options ds) "Pguess" <> dget (options ds') "Pguess".
Proof.
  exists [("T", Scalar (CNum (Fin 300))); ("xi", Arr [CRow [Fin (1#2); Fin (1#2)]]); ("P", Arr [CNum (Fin 1)])],
         [("T", Scalar (CNum (Fin 300))); ("xi", Arr [CRow [Fin (1#2); Fin (1#2)]]); ("P", Arr [CNum (Fin 2)])].
  do 2 eexists. split; [|split; [vm_compute; reflexivity|split; [vm_compute; reflexivity|discriminate]]].
  intros k. cbn [dget compared String.eqb Ascii.eqb Bool.eqb].
  destruct (String.eqb k "T"); [cbn; auto|]. destruct (String.eqb k "xi"); [cbn; auto|].
  destruct (String.eqb_spec k "P") as [->|]; [|cbn; auto]. split; [reflexivity|]. intros H. destruct H. cbn. auto.
Qed.

(** ** The user's entries *)
(** where an entry is stored *)
Definition stored_as (c : data_class) : list (string * string) :=
  match c with
  | LiquidDensity => [("xi", "xilist"); ("T", "Tlist"); ("P", "Plist")]
  | Flash => [("xi", "xilist"); ("yi", "yilist"); ("T", "Tlist"); ("P", "Plist")]
  | Saturation => [("xi", "xilist"); ("yi", "xilist"); ("T", "Tlist"); ("P", "Psat")]
  | TLVE => [("xi", "xilist"); ("yi", "yilist"); ("T", "Tlist"); ("P", "Plist")]
  | Solubility => [("xi", "xilist"); ("yi", "xilist"); ("T", "Tlist"); ("P", "Plist")]
  end.
Definition lists (c : data_class) : list string :=
  match c with
  | LiquidDensity => ["Plist"; "xilist"; "Tlist"; "rhol"; "phil"]
  | Flash => ["Plist"; "Tlist"; "xilist"; "yilist"]
  | Saturation => ["xilist"; "Tlist"; "rhol"; "rhov"; "Psat"]
  | TLVE => ["Plist"; "xilist"; "Tlist"; "yilist"]
  | Solubility => ["Plist"; "xilist"; "Tlist"; "rhol"; "delta"]
  end.
(** [v] is what the user gave for [k]: directly, or under the one name that is stored there *)
Definition given (c : data_class) (dd : data) (k : string) (v : value cell) : Prop :=
  (dget dd k = Some v /\ ~ In k (map fst (stored_as c))) \/
  (dget dd k = None /\ exists o, In (o, k) (stored_as c) /\ dget dd o = Some v /\
     forall o', o' <> o -> In (o', k) (stored_as c) -> dget dd o' = None).
Definition not_given (c : data_class) (dd : data) (k : string) : Prop :=
  dget dd k = None /\ forall o, In (o, k) (stored_as c) -> dget dd o = None.

Lemma length_keys_lists c : length_keys c = lists c.
Proof. destruct c; reflexivity. Qed.

Lemma fold_set_other (v : value cell) ks : forall d k, ~ In k ks -> dget (fold_left (fun d k => dset d k v) ks d) k = dget d k.
Proof.
  induction ks as [|a ks IH]; intros d k H; cbn; [reflexivity|]. rewrite IH by (intros X; apply H; now right).
  apply dget_dset_other. intros ->. apply H. now left.
Qed.
Lemma fold_set_in (v : value cell) ks : forall d k, In k ks -> dget (fold_left (fun d k => dset d k v) ks d) k = Some v.
Proof.
  induction ks as [|a ks IH]; intros d k H; [destruct H|]. cbn. destruct (in_dec string_dec k ks) as [I|I]; [now apply IH|].
  destruct H as [->|H]; [|contradiction]. rewrite fold_set_other by assumption. apply dget_dset_same.
Qed.

(** the moves: what ends up under [k], and what is left *)
Lemma moves_other rs : forall (td dd : data) k, (forall r, In r rs -> In k (snd r) -> dget dd (fst r) = None) ->
  dget (fst (fold_left move rs (td, dd))) k = dget td k.
Proof.
  induction rs as [|[o ns] rs IH]; intros td dd k H; [reflexivity|]. cbn [fold_left].
  destruct (dget dd o) as [v|] eqn:E.
  - rewrite (move_some _ _ _ _ _ E), IH.
    + apply fold_set_other. intros I. specialize (H (o, ns) (or_introl eq_refl) I). cbn in H. congruence.
    + intros r Hr I. destruct (String.eqb_spec (fst r) o) as [->|N]; [apply dget_ddel_same|]. rewrite dget_ddel_other by congruence.
      apply H; [now right|assumption].
  - rewrite (move_none _ _ _ _ E), IH; [reflexivity|]. intros r Hr. apply H. now right.
Qed.
Lemma moves_one rs : forall (td dd : data) k r v, In r rs -> In k (snd r) -> dget dd (fst r) = Some v ->
  (forall r', In r' rs -> fst r' <> fst r -> In k (snd r') -> dget dd (fst r') = None) ->
  (forall r', In r' rs -> fst r' = fst r -> r' = r) -> NoDup rs ->
  dget (fst (fold_left move rs (td, dd))) k = Some v.
Proof.
  induction rs as [|[o ns] rs IH]; intros td dd k r v I K E H F N; [destruct I|]. cbn [fold_left]. inversion_clear N as [|? ? Nr N'].
  destruct I as [<-|I].
  - cbn [fst snd] in *. rewrite (move_some _ _ _ _ _ E), moves_other; [now apply fold_set_in|].
    intros r' Hr' Kr'. assert (fst r' <> o) by (intros X; apply Nr; rewrite <- (F r' (or_intror Hr') X); assumption).
    rewrite dget_ddel_other by congruence. apply H; [now right|assumption|assumption].
  - assert (No : o <> fst r).
    { intros X. apply Nr. rewrite (F (o, ns) (or_introl eq_refl) X). assumption. }
    destruct (dget dd o) as [v0|] eqn:E0; [rewrite (move_some _ _ _ _ _ E0)|rewrite (move_none _ _ _ _ E0)]; apply (IH _ _ k r v); auto.
    + rewrite dget_ddel_other by congruence. assumption.
    + intros r' Hr' Nr' Kr'. destruct (String.eqb_spec (fst r') o) as [->|No']; [apply dget_ddel_same|]. rewrite dget_ddel_other by congruence.
      apply H; [now right|assumption|assumption].
    + intros r' Hr'. apply F. now right.
    + intros r' Hr'. apply H. now right.
    + intros r' Hr'. apply F. now right.
Qed.
Lemma moves_rest rs : forall (td dd : data) k, ~ In k (map fst rs) -> dget (snd (fold_left move rs (td, dd))) k = dget dd k.
Proof.
  induction rs as [|[o ns] rs IH]; intros td dd k H; [reflexivity|]. cbn [fold_left].
  destruct (dget dd o) as [v|] eqn:E; [rewrite (move_some _ _ _ _ _ E)|rewrite (move_none _ _ _ _ E)]; rewrite IH by (intros X; apply H; now right); [|reflexivity].
  apply dget_ddel_other. intros ->. apply H. now left.
Qed.
Lemma moves_NoDup rs : forall (td dd : data), NoDup (dkeys dd) -> NoDup (dkeys (snd (fold_left move rs (td, dd)))).
Proof.
  induction rs as [|[o ns] rs IH]; intros td dd H; [assumption|]. cbn [fold_left].
  destruct (dget dd o) as [v|] eqn:E; [rewrite (move_some _ _ _ _ _ E)|rewrite (move_none _ _ _ _ E)]; apply IH; [now apply NoDup_ddel|assumption].
Qed.

Ltac pick H := repeat (destruct H as [H|H]; [try (injection H as <- <-)|]); [..|destruct H].
Lemma renames_NoDup c : NoDup (renames c).
Proof. destruct c; repeat constructor; cbn; intuition discriminate. Qed.
Lemma renames_fun c r r' : In r (renames c) -> In r' (renames c) -> fst r' = fst r -> r' = r.
Proof. destruct c; cbn; intros H H'; repeat (destruct H as [<-|H]; [repeat (destruct H' as [<-|H']; [cbn; congruence|]); destruct H'|]); destruct H. Qed.
Lemma stored_rename c o k : In (o, k) (stored_as c) -> exists ns, In (o, ns) (renames c) /\ In k ns.
Proof.
  destruct c; cbn; intros H; pick H;
    match goal with |- exists ns, (?o', ?n) = (?o', ns) \/ _ /\ _ => idtac | _ => idtac end;
    eexists; (split; [first [left; reflexivity|right; left; reflexivity|right; right; left; reflexivity|right; right; right; left; reflexivity]|cbn; auto]).
Qed.
Lemma rename_stored c r k : In r (renames c) -> In k (snd r) -> k <> "Pguess" -> In (fst r, k) (stored_as c).
Proof.
  destruct c; cbn; intros H I P; repeat (destruct H as [<-|H]; [cbn in I; repeat (destruct I as [<-|I]; [first [congruence|cbn; auto 10]|]); destruct I|]); destruct H.
Qed.
Lemma rename_names c o : In o (map fst (renames c)) <-> In o (map fst (stored_as c)).
Proof. destruct c; cbn; tauto. Qed.
Lemma lists_not_names c k : In k (lists c) -> ~ In k (map fst (stored_as c)) /\ k <> "Pguess".
Proof. destruct c; cbn; intros H; repeat (destruct H as [<-|H]; [split; [intuition discriminate|discriminate]|]); destruct H. Qed.

Lemma gather_get c (dd : data) k : NoDup (dkeys dd) ->
  dget (gather c dd) k = match dget (snd (fold_left move (renames c) ([], dd))) k with Some v => Some v | None => dget (fst (fold_left move (renames c) ([], dd))) k end.
Proof.
  intros N. enough (G : forall X : data * data, NoDup (dkeys (snd X)) ->
    dget (let (td, rest) := X in dupdate td rest) k = match dget (snd X) k with Some v => Some v | None => dget (fst X) k end)
    by exact (G _ (moves_NoDup (renames c) [] dd N)).
  intros [td rest] N'. exact (dupdate_get td rest k N').
Qed.
Lemma gather_given c (dd : data) k v : NoDup (dkeys dd) -> In k (lists c) -> given c dd k v -> dget (gather c dd) k = Some v.
Proof.
  intros N I G. destruct (lists_not_names c k I) as (Nk & Np). rewrite gather_get by assumption.
  rewrite moves_rest by now rewrite rename_names.
  destruct G as [(E & _)|(E & o & Ho & Eo & Oth)]; [now rewrite E|]. rewrite E.
  destruct (stored_rename _ _ _ Ho) as (ns & Hr & Hk).
  apply (moves_one (renames c) [] dd k (o, ns) v); auto.
  - intros r' Hr' D Kr'. apply Oth; [assumption|]. now apply rename_stored.
  - intros r' Hr'. now apply (renames_fun c).
  - apply renames_NoDup.
Qed.
Lemma gather_not_given c (dd : data) k : NoDup (dkeys dd) -> In k (lists c) -> not_given c dd k -> dget (gather c dd) k = None.
Proof.
  intros N I (E & G). destruct (lists_not_names c k I) as (Nk & Np). rewrite gather_get by assumption.
  rewrite moves_rest by now rewrite rename_names. rewrite E, moves_other; [reflexivity|].
  intros r Hr Kr. apply G. now apply rename_stored.
Qed.

(** the constructor in one piece *)
Lemma check_length_NoDup (d : data) ks out : check_length_dict d ks None = Ok out -> NoDup (dkeys out).
Proof.
  intros H. pose proof (check_length_agree [] d d ks) as A. rewrite H in A. apply A. intros k. split; [apply shape_refl|auto].
Qed.
Lemma lengthened c (dd : data) out : NoDup (dkeys dd) -> check_length_dict (gather c dd) (length_keys c) None = Ok out ->
  let td := dupdate (gather c dd) (arrays out) in
  exists L, wanted_length (gather c dd) (lists c) None L /\
    (forall k v, In k (lists c) -> given c dd k v -> exists l, dget td k = Some (Arr l) /\ spread L v l) /\
    (forall k, In k (lists c) -> not_given c dd k -> dget td k = None) /\
    (forall k v, In k (lists c) -> dget td k = Some v -> entry_length v = L).
Proof.
  intros N H td. pose proof (check_length_dict_spec (gather c dd) (length_keys c) None) as S. rewrite H, length_keys_lists in S.
  destruct S as (L & WL & S1 & S2). exists L. split; [exact WL|].
  assert (No : NoDup (dkeys (arrays out))) by (rewrite dkeys_arrays; now apply check_length_NoDup in H).
  assert (T : forall k, dget td k = match dget out k with Some l => Some (Arr l) | None => dget (gather c dd) k end).
  { intros k. unfold td. rewrite (dupdate_get (gather c dd) (arrays out) k No), dget_arrays. now destruct (dget out k). }
  split; [|split].
  - intros k v I G. destruct (S1 k v) as (l & El & Sp); [split; [assumption|now apply gather_given]|]. exists l. rewrite T, El. auto.
  - intros k I G. pose proof (gather_not_given c dd k N I G) as E. rewrite T, (S2 k), E; [reflexivity|]. intros v (_ & X). congruence.
  - intros k v I E. rewrite T in E. destruct (dget (gather c dd) k) as [w|] eqn:W.
    + destruct (S1 k w) as (l & El & Sp); [now split|]. rewrite El in E. injection E as <-. cbn. now apply spread_length in Sp.
    + rewrite (S2 k) in E; [discriminate|]. intros w (_ & X). congruence.
Qed.

Lemma build_inv c asked ncomp (dd : data) ds : build c asked ncomp dd = Ok ds ->
  exists out n, check_length_dict (gather c dd) (length_keys c) None = Ok out /\
    let td := dupdate (gather c dd) (arrays out) in
    npoints c td = Ok (Some n) /\ ambiguous c ncomp td = false /\ with_defaults c (Some n) td = Ok (d_data ds) /\
    complete c (d_data ds) = true /\ calculation c asked (d_data ds) = Ok (d_calc ds) /\ d_class ds = c /\ d_ncomp ds = ncomp.
Proof.
  unfold build. destruct (check_length_dict (gather c dd) (length_keys c) None) as [out|] eqn:E; cbn [rbind]; [|discriminate].
  fold (arrays out). set (td := dupdate (gather c dd) (arrays out)). intros H. exists out.
  destruct (npoints c td) as [n|] eqn:En; cbn [rbind] in H; [|discriminate].
  destruct (ambiguous c ncomp td) eqn:Ea; [discriminate|].
  destruct (with_defaults c n td) as [u|] eqn:Ed; cbn [rbind] in H; [|discriminate].
  destruct (complete c u) eqn:Ec; [|discriminate].
  destruct (calculation c asked u) as [q|] eqn:Eq; cbn [rbind] in H; [|discriminate]. injection H as <-. cbn.
  destruct n as [n|]; [|discriminate]. exists n. repeat (split; [first [reflexivity|assumption]|]). reflexivity.
Qed.
(** the entries that may be left out, and the values the documentation gives for them *)
Definition standard (c : data_class) (n : nat) : list (string * list cell) :=
  let p := ("Plist", repeat (CNum (Fin 101325)) n) in
  let t := ("Tlist", repeat (CNum (Fin (29815 # 100))) n) in
  let x := ("xilist", repeat (CRow [Fin 1]) n) in
  match c with
  | LiquidDensity | Solubility => [p; x; t]
  | Flash => [p; t]
  | Saturation => [x; t]
  | TLVE => [t]
  end.
Lemma with_defaults_spec c n (td out : data) : with_defaults c (Some n) td = Ok out ->
  (forall k v, dget td k = Some v -> dget out k = Some v) /\
  (forall k, dget td k = None -> ~ In k (map fst (standard c n)) -> dget out k = None) /\
  (forall k l, dget td k = None -> In (k, l) (standard c n) -> dget out k = Some (Arr l)).
Proof.
  intros H. assert (D : forall ks vs, set_defaults td (ManyKeys ks) (Arr vs) (Some n) = Ok out -> NoDup ks ->
    (forall k, In k (map fst (standard c n)) <-> In k ks) ->
    (forall k l i v, In (k, l) (standard c n) -> nth_error ks i = Some k -> nth_error vs i = Some v -> default_value (Some n) v = Arr l) ->
    (forall k v, dget td k = Some v -> dget out k = Some v) /\
    (forall k, dget td k = None -> ~ In k (map fst (standard c n)) -> dget out k = None) /\
    (forall k l, dget td k = None -> In (k, l) (standard c n) -> dget out k = Some (Arr l))).
  { clear H. intros ks vs H Nk K V. apply set_defaults_spec in H. destruct H as (A & B & C). split; [exact A|split].
    - intros k E I. apply C; [assumption|]. cbn. now rewrite <- K.
    - intros k l E I. destruct (B k E) as (v & w & (i & Ki & Vi) & Sd & Eo).
      + cbn. apply K. now apply (in_map fst) in I.
      + rewrite Eo. f_equal. rewrite <- (V k l i v I Ki Vi). now inversion Sd. }
  assert (Three : forall (P : nat -> Prop), P 0 -> P 1 -> P 2 -> (forall i, P (S (S (S i)))) -> forall i, P i)
    by (intros P P0 P1 P2 P3 [|[|[|i]]]; auto).
  destruct c; cbn [with_defaults thermo_keys] in H;
    try (apply (D _ _ H); [repeat constructor; cbn; intuition discriminate|cbn; tauto|]; intros k l i v I;
      cbn in I; pattern i; apply Three; cbn; intros; repeat match goal with H : Some _ = Some _ |- _ => injection H as <- end; try discriminate;
      try (match goal with H : nth_error [] ?j = Some _ |- _ => now destruct j end);
      repeat (destruct I as [I|I]; [injection I; intros; subst; try discriminate; reflexivity|]); destruct I).
  apply (D ["Tlist"] [Scalar standard_temperature]); [exact H|repeat constructor; cbn; tauto|cbn; tauto|].
  intros k l [|i] v I; cbn in *; [|now destruct i]. intros _ [= <-]. destruct I as [[= _ <-]|[]]. reflexivity.
Qed.

(** C101 (inputs): every entry of the user is what the calculation and the comparison work with, under the name of the list
    and brought to the common length, the longest given; what was not given and may not be left out is not there.
    C103 (positive part): what may be left out takes the standard value at every state point. *)
Theorem C101_inputs : forall c asked ncomp (dd : data) ds, NoDup (dkeys dd) -> build c asked ncomp dd = Ok ds ->
  exists L, (forall k v, In k (lists c) -> given c dd k v -> vlen v <= L /\ exists l, dget (d_data ds) k = Some (Arr l) /\ spread L v l) /\
    (forall k, In k (lists c) -> not_given c dd k -> ~ In k (map fst (standard c L)) -> dget (d_data ds) k = None) /\
    (forall k l, In k (lists c) -> not_given c dd k -> In (k, l) (standard c L) -> dget (d_data ds) k = Some (Arr l)).
Proof.
  intros c asked ncomp dd ds N B. apply build_inv in B. destruct B as (out & n & E & En & Ea & Ed & _).
  destruct (lengthened c dd out N E) as (L & (_ & WL) & S1 & S2 & S3). exists L.
  assert (n = L).
  { set (td := dupdate (gather c dd) (arrays out)) in *. clearbody td.
    destruct c; cbn [npoints] in En;
      try (unfold dfetch in En; match type of En with context [dget td ?k] => destruct (dget td k) as [v|] eqn:V; cbn in En; [|discriminate] end;
        injection En as <-; refine (S3 _ v _ V); cbn; auto 10).
    destruct (find (dmem td) (result_keys Saturation)) as [k|] eqn:F; [|discriminate].
    apply find_some in F. destruct F as (I & M). apply dmem_dget in M. destruct M as (v & V). rewrite V in En. cbn in En. injection En as <-.
    apply (S3 k v); [cbn in *; tauto|exact V]. }
  subst n. apply with_defaults_spec in Ed. destruct Ed as (D1 & D2 & D3). split; [|split].
  - intros k v I G. split; [apply (WL k v); split; [assumption|now apply gather_given]|].
    destruct (S1 k v I G) as (l & El & Sp). exists l. split; [now apply D1|assumption].
  - intros k I G X. apply D2; [now apply S2|assumption].
  - intros k l I G X. apply D3; [now apply S2|assumption].
Qed.

(** C103: what is needed and was not given is refused. *)
(** the entries a data set cannot do without *)
Definition needed (c : data_class) (ncomp : nat) (k : string) : Prop :=
  match c with
  | Flash => k = "xilist" \/ k = "yilist"
  | LiquidDensity | Saturation | Solubility => k = "xilist" /\ 1 < ncomp
  | TLVE => False
  end.
Theorem C103_needed : forall c asked ncomp (dd : data) k, NoDup (dkeys dd) -> needed c ncomp k -> not_given c dd k ->
  exists e, build c asked ncomp dd = Err e.
Proof.
  intros c asked ncomp dd k N Hk G. destruct (build c asked ncomp dd) as [ds|e] eqn:B; [exfalso|eauto].
  pose proof (C101_inputs c asked ncomp dd ds N B) as (L & _ & I & _).
  apply build_inv in B. destruct B as (out & n & E & En & Ea & Ed & Ec & _).
  destruct (lengthened c dd out N E) as (_ & _ & _ & S2 & _).
  destruct c; cbn [needed] in Hk; try contradiction;
    try (destruct Hk as (-> & Hn); cbn [ambiguous] in Ea;
      match type of Ea with context [dmem ?t "xilist"] =>
        assert (D : dmem t "xilist" = false)
          by (destruct (dmem t "xilist") eqn:M; [|reflexivity]; apply dmem_dget in M; destruct M as (v & V);
              rewrite S2 in V; [discriminate|cbn; auto|exact G]) end;
      rewrite D in Ea; apply Nat.ltb_lt in Hn; rewrite Hn in Ea; discriminate).
  cbn [complete] in Ec. apply andb_true_iff in Ec. destruct Ec as (_ & Ec). apply andb_true_iff in Ec. destruct Ec as (X & Y).
  apply dmem_dget in X, Y. destruct X as (x & X), Y as (y & Y).
  destruct Hk as [-> | ->]; [rewrite I in X|rewrite I in Y]; try discriminate; try exact G; cbn; intuition discriminate.
Qed.

(** C103 is false of the temperature: the default is never reached, the data set is refused with a KeyError (or, before that,
    for the lengths of the other entries). *)
Theorem C103_temperature_refuted : forall c asked ncomp (dd : data), c = LiquidDensity \/ c = Flash \/ c = TLVE ->
  NoDup (dkeys dd) -> not_given c dd "Tlist" ->
  build c asked ncomp dd = Err KeyError \/
  (build c asked ncomp dd = Err ValueError /\ check_length_dict (gather c dd) (lists c) None = Err ValueError).
Proof.
  intros c asked ncomp dd Hc N G. unfold build. rewrite <- length_keys_lists.
  destruct (check_length_dict (gather c dd) (length_keys c) None) as [out|e] eqn:E; cbn [rbind].
  - left. destruct (lengthened c dd out N E) as (_ & _ & _ & S2 & _). fold (arrays out).
    assert (T : dget (dupdate (gather c dd) (arrays out)) "Tlist" = None) by (apply S2; [destruct c; cbn; auto 10|exact G]).
    destruct Hc as [-> | [-> | ->]]; cbn [npoints]; unfold dfetch; rewrite T; reflexivity.
  - right. pose proof (check_length_dict_spec (gather c dd) (length_keys c) None) as S. rewrite E in S. destruct S as (-> & _). auto.
Qed.

(** ... nor does the test for missing measurements work: without any quantity to compare, saturation data raise a TypeError, data
    on solubility parameters a KeyError, and liquid densities are accepted but have no objective, whatever the equation of state. *)
Theorem C103_nothing_measured_refuted : forall asked ncomp (dd : data), NoDup (dkeys dd) ->
  (not_given Saturation dd "Psat" -> not_given Saturation dd "rhol" -> not_given Saturation dd "rhov" ->
     build Saturation asked ncomp dd = Err TypeError \/ build Saturation asked ncomp dd = Err ValueError) /\
  (not_given Solubility dd "delta" ->
     build Solubility asked ncomp dd = Err KeyError \/ build Solubility asked ncomp dd = Err ValueError) /\
  (forall ds, not_given LiquidDensity dd "rhol" -> build LiquidDensity asked ncomp dd = Ok ds ->
     forall thermo compare w, exists e, objective thermo compare ds w = Err e).
Proof.
  intros asked ncomp dd N. split; [|split].
  - intros G1 G2 G3. unfold build. pose proof (check_length_dict_spec (gather Saturation dd) (length_keys Saturation) None) as S.
    destruct (check_length_dict (gather Saturation dd) (length_keys Saturation) None) as [out|e] eqn:E; cbn [rbind]; [|destruct S as (-> & _); auto].
    destruct (lengthened Saturation dd out N E) as (_ & _ & _ & S2 & _). fold (arrays out).
    assert (X : forall k, In k (result_keys Saturation) -> dmem (dupdate (gather Saturation dd) (arrays out)) k = false).
    { intros k I. destruct (dmem _ k) eqn:M; [|reflexivity]. apply dmem_dget in M. destruct M as (v & V).
      rewrite S2 in V; [discriminate|cbn in *; tauto|]. cbn in I. destruct I as [<-|[<-|[<-|[]]]]; assumption. }
    cbn [npoints]. destruct (find _ (result_keys Saturation)) as [k|] eqn:F.
    { apply find_some in F. destruct F as (I & F). rewrite X in F by exact I. discriminate. }
    cbn [rbind]. destruct (ambiguous _ _ _); [auto|]. cbn. auto.
  - intros G. unfold build. pose proof (check_length_dict_spec (gather Solubility dd) (length_keys Solubility) None) as S.
    destruct (check_length_dict (gather Solubility dd) (length_keys Solubility) None) as [out|e] eqn:E; cbn [rbind]; [|destruct S as (-> & _); auto].
    destruct (lengthened Solubility dd out N E) as (_ & _ & _ & S2 & _). fold (arrays out).
    cbn [npoints]. unfold dfetch. rewrite S2; [cbn; auto|cbn; auto 10|exact G].
  - intros ds G B thermo compare w. pose proof (C101_inputs _ _ _ _ _ N B) as (L & _ & I & _).
    assert (R : dget (d_data ds) "rhol" = None) by (apply I; [cbn; auto 10|exact G|cbn; intuition discriminate]).
    apply build_inv in B. destruct B as (out & n & _ & _ & _ & _ & _ & _ & Hc & _).
    unfold objective. rewrite Hc. destruct (predictions thermo ds); cbn [rbind]; [|eauto]. destruct (reformat_output _); cbn [rbind]; [|eauto].
    destruct (column _ _); cbn [rbind]; [|eauto]. unfold dfetch. rewrite R. cbn. eauto.
Qed.

(** ... nor the documented calculation of TLVE data, bubble_pressure unless another is asked for: without one, no data set of a
    mixture is accepted.  And one with another calculation than the two is accepted, but has no objective. *)
Theorem C103_TLVE_calculation_refuted : forall ncomp (dd : data), NoDup (dkeys dd) ->
  (not_given TLVE dd "xilist" -> exists e, build TLVE None ncomp dd = Err e) /\
  (forall n xs, 2 <= ncomp -> n <> 0 -> table n ncomp xs -> given TLVE dd "xilist" (Arr (rows xs)) -> exists e, build TLVE None ncomp dd = Err e) /\
  (forall s ds, s <> "bubble_pressure" -> s <> "dew_pressure" -> build TLVE (Some s) ncomp dd = Ok ds ->
     forall thermo compare w, objective thermo compare ds w = Err UnboundLocalError).
Proof.
  intros ncomp dd N. split; [|split].
  - intros G. destruct (build TLVE None ncomp dd) as [ds|e] eqn:B; [exfalso|eauto].
    pose proof (C101_inputs _ _ _ _ _ N B) as (L & _ & I & _).
    apply build_inv in B. destruct B as (out & n & _ & _ & _ & _ & _ & C & _). cbn [calculation] in C. unfold dfetch in C.
    rewrite I in C; [discriminate|cbn; auto|exact G|cbn; intuition discriminate].
  - intros n xs Hn Nn T G. destruct (build TLVE None ncomp dd) as [ds|e] eqn:B; [exfalso|eauto].
    pose proof (C101_inputs _ _ _ _ _ N B) as (L & I & _).
    destruct (I "xilist" _ (or_intror (or_introl eq_refl)) G) as (Len & l & El & Sp).
    apply build_inv in B. destruct B as (out & m & _ & _ & _ & _ & _ & C & _). cbn [calculation] in C. unfold dfetch in C. rewrite El in C. cbn [rbind] in C.
    assert (exists r l', l = CRow r :: l' /\ 2 <= length r) as (r & l' & -> & Lr).
    { destruct T as (Tn & Tk). destruct xs as [|r xs]; [cbn in Tn; lia|]. inversion_clear Tk as [|? ? Tr Tk']. cbn in Len.
      inversion Sp; subst.
      - destruct L as [|L]; [lia|]. cbn. exists r, (repeat (CRow r) L). split; [reflexivity|lia].
      - cbn. exists r, (map CRow xs). split; [reflexivity|lia]. }
    unfold truth in C. cbn [map concat] in C. destruct r as [|a [|b r]]; cbn in Lr; try lia. cbn in C. discriminate.
  - intros s ds S1 S2 B thermo compare w. apply build_inv in B. destruct B as (out & n & _ & _ & _ & _ & _ & C & Hc & _).
    cbn in C. injection C as C. unfold objective, predictions. rewrite Hc, <- C. cbn [output_keys].
    destruct (String.eqb_spec s "bubble_pressure") as [->|_]; [congruence|]. destruct (String.eqb_spec s "dew_pressure") as [->|_]; [congruence|]. reflexivity.
Qed.

(** C101 (state): the calculation is passed the state variables of the data set as they are, and neither the measured
    quantities nor the entries that are not its own. *)
Definition state_entries (c : data_class) (calc : string) : list string :=
  match c with
  | LiquidDensity | Solubility => ["Plist"; "xilist"; "Tlist"]
  | Flash => ["Plist"; "Tlist"]
  | Saturation => ["xilist"; "Tlist"]
  | TLVE => if String.eqb calc "dew_pressure" then ["yilist"; "Tlist"] else if String.eqb calc "bubble_pressure" then ["xilist"; "Tlist"] else ["Tlist"]
  end.
Definition measured_entries (c : data_class) (calc : string) : list string :=
  match c with
  | LiquidDensity => ["rhol"]
  | Solubility => ["delta"; "rhol"]
  | Flash => ["xilist"; "yilist"]
  | Saturation => ["Psat"; "rhol"; "rhov"]
  | TLVE => if String.eqb calc "dew_pressure" then ["Plist"; "xilist"] else if String.eqb calc "bubble_pressure" then ["Plist"; "yilist"] else ["Plist"; "xilist"; "yilist"]
  end.
Lemma kept_dels ks : forall (d : data) k, ~ In k ks -> dget (fold_left (fun d k => ddel d k) ks d) k = dget d k.
Proof.
  induction ks as [|a ks IH]; intros d k H; [reflexivity|]. cbn. rewrite IH by (intros X; apply H; now right).
  apply dget_ddel_other. intros ->. apply H. now left.
Qed.
Theorem C101_state : forall ds k,
  (In k (state_entries (d_class ds) (d_calc ds)) -> dget (options ds) k = dget (d_data ds) k) /\
  (In k (measured_entries (d_class ds) (d_calc ds)) \/ k = "name" \/ k = "parameters_guess" -> dget (options ds) k = None).
Proof.
  intros ds k. unfold options. split; intros H.
  - apply kept_dels. unfold state_entries, final_keys in *.
    destruct (d_class ds); cbn [result_keys app In] in *; try (intuition (subst; discriminate)).
    destruct (String.eqb_spec (d_calc ds) "dew_pressure") as [E|_]; [rewrite E in *|destruct (String.eqb (d_calc ds) "bubble_pressure")];
      cbn in *; intuition (subst; discriminate).
  - apply gone_dels. apply in_or_app. destruct H as [H|[-> | ->]]; [left|right; cbn; auto|right; cbn; auto]. unfold measured_entries, final_keys in *.
    destruct (d_class ds); cbn [result_keys In] in *; try tauto.
    destruct (String.eqb_spec (d_calc ds) "dew_pressure") as [E|_]; [rewrite E in *|destruct (String.eqb (d_calc ds) "bubble_pressure")]; cbn in *; tauto.
Qed.
(** ... and a calculation that fails, or does not return a quantity, makes the objective fail with a ValueError. *)
Theorem C101_failed_calculation : forall thermo compare ds w out e, d_class ds <> TLVE \/ d_calc ds = "bubble_pressure" \/ d_calc ds = "dew_pressure" ->
  thermo (d_calc ds) (options ds) = Err e \/
  thermo (d_calc ds) (options ds) = Ok out /\ (exists k, dget out k = None /\
    match d_class ds with
    | LiquidDensity => k = "rhol" | Flash => k = "xi" \/ k = "yi" | Saturation => k = "Psat" \/ k = "rhol" \/ k = "rhov"
    | Solubility => k = "delta" \/ k = "rhol" | TLVE => k = "P" \/ d_calc ds = "bubble_pressure" /\ k = "yi" \/ d_calc ds = "dew_pressure" /\ k = "xi" end) ->
  objective thermo compare ds w = Err ValueError.
Proof.
  intros thermo compare ds w out e C H. unfold objective, predictions.
  assert (M : forall ks k, In k ks -> dget out k = None -> exists e, mapM (dfetch out) ks = Err e).
  { induction ks as [|a ks IH]; intros k I Ek; [destruct I|]. cbn [mapM]. destruct (dfetch out a) as [v|e0] eqn:Ea; cbn [rbind]; [|eauto].
    destruct I as [->|I]; [unfold dfetch in Ea; rewrite Ek in Ea; discriminate|]. destruct (IH k I Ek) as (e1 & ->). cbn. eauto. }
  assert (O : exists ks, output_keys (d_class ds) (d_calc ds) = Some ks /\ (forall k, match d_class ds with
    | LiquidDensity => k = "rhol" | Flash => k = "xi" \/ k = "yi" | Saturation => k = "Psat" \/ k = "rhol" \/ k = "rhov"
    | Solubility => k = "delta" \/ k = "rhol" | TLVE => k = "P" \/ d_calc ds = "bubble_pressure" /\ k = "yi" \/ d_calc ds = "dew_pressure" /\ k = "xi" end -> In k ks)).
  { destruct (d_class ds); cbn [output_keys]; try (eexists; split; [reflexivity|]; cbn; intuition congruence).
    destruct C as [C|[C|C]]; [congruence| |]; rewrite C; cbn; (eexists; split; [reflexivity|]; cbn; intuition congruence). }
  destruct O as (ks & -> & K). destruct H as [-> | (-> & k & Ek & Hk)]; [reflexivity|].
  destruct (M ks k (K k Hk) Ek) as (e1 & ->). reflexivity.
Qed.

(** ** Concrete data sets *)
Definition summed (p d : list num) (w : weights) : result num :=
  Ok (nsum (map (fun x => nabs (nsub (fst x) (snd x))) (combine p d))).
Definition num_ (z : Z) : cell := CNum (Fin (inject_Z z)).
(** saturation pressures and liquid densities at two temperatures *)
Definition sat_input : data := [("T", Arr [num_ 300; num_ 310]); ("P", Arr [num_ 5; num_ 9]); ("rhol", Arr [num_ 70; num_ 60])].
Definition sat_output : dict (list cell) := [("rhov", nums [Fin 1; Fin 2]); ("rhol", nums [Fin 72; Fin 60]); ("Psat", nums [Fin 5; Fin 8])].
Definition sat_weights : dict weights := [("Psat", WOne (Fin 1)); ("rhol", WOne (Fin 1)); ("rhov", WOne (Fin 1))].
Example C101_saturation_example : exists ds, build Saturation None 1 sat_input = Ok ds /\ d_class ds = Saturation /\
  (fun _ _ => Ok sat_output) (d_calc ds) (options ds) = Ok sat_output /\
  dget sat_output "Psat" = Some (nums [Fin 5; Fin 8]) /\
  holds_numbers (d_data ds) "Psat" (Some [Fin 5; Fin 9]) /\ holds_numbers (d_data ds) "rhol" (Some [Fin 70; Fin 60]) /\
  holds_numbers (d_data ds) "rhov" None /\
  objective (fun _ _ => Ok sat_output) summed ds sat_weights = Ok (Fin 3).
Proof. eexists. split; [vm_compute; reflexivity|]. repeat split. Qed.
Definition sol_input : data := [("T", Arr [num_ 300; num_ 310]); ("delta", Arr [num_ 15; num_ 14])].
Example C101_solubility_example : exists ds, build Solubility None 1 sol_input = Ok ds /\ d_class ds = Solubility /\
  holds_numbers (d_data ds) "delta" (Some [Fin 15; Fin 14]) /\ holds_numbers (d_data ds) "rhol" None /\
  dget (d_data ds) "Plist" = Some (Arr [num_ 101325; num_ 101325]) /\
  objective (fun _ _ => Ok [("rhol", nums [Fin 1; Fin 2]); ("delta", nums [Fin 15; Fin 12])]) summed ds
    [("delta", WOne (Fin 1)); ("rhol", WOne (Fin 1))] = Ok (Fin 2).
Proof. eexists. split; [vm_compute; reflexivity|]. repeat split. Qed.
Definition liq_input : data := [("T", Arr [num_ 300; num_ 310]); ("rhol", Arr [num_ 15; num_ 14])].
Example C101_liquid_density_example : exists ds, build LiquidDensity None 1 liq_input = Ok ds /\ d_class ds = LiquidDensity /\
  holds_numbers (d_data ds) "rhol" (Some [Fin 15; Fin 14]) /\
  objective (fun _ _ => Ok [("rhol", nums [Fin 15; Fin 12])]) summed ds [("rhol", WOne (Fin 1))] = Ok (Fin 2).
Proof. eexists. split; [vm_compute; reflexivity|]. repeat split. Qed.
(** compositions of two phases, two components, two points; mole percent, to keep the numbers small *)
Definition row (a b : Z) : cell := CRow [Fin (inject_Z a); Fin (inject_Z b)].
Definition flash_input : data :=
  [("T", Scalar (num_ 300)); ("xi", Arr [row 10 90; row 20 80]); ("yi", Arr [row 60 40; row 70 30])].
Definition flash_output : dict (list cell) := [("xi", [row 11 89; row 20 80]); ("yi", [row 60 40; row 68 32])].
Example C101_flash_example : exists ds, build Flash None 2 flash_input = Ok ds /\ d_class ds = Flash /\ d_ncomp ds = 2 /\
  table 2 2 [[Fin 60; Fin 40]; [Fin 68; Fin 32]] /\
  holds_rows (d_data ds) "yilist" (Some [[Fin 60; Fin 40]; [Fin 70; Fin 30]]) /\
  holds_rows (d_data ds) "xilist" (Some [[Fin 10; Fin 90]; [Fin 20; Fin 80]]) /\
  objective (fun _ _ => Ok flash_output) summed ds [("xilist", WOne (Fin 1)); ("yilist", WOne (Fin 1))] = Ok (Fin 6).
Proof. eexists. split; [vm_compute; reflexivity|]. repeat split. repeat constructor. Qed.
Definition tlve_input : data :=
  [("T", Scalar (num_ 300)); ("P", Arr [num_ 5; num_ 6]); ("xi", Arr [row 10 90; row 20 80]); ("yi", Arr [row 60 40; row 70 30])].
Example C101_TLVE_example : exists ds, build TLVE (Some "bubble_pressure") 2 tlve_input = Ok ds /\ d_class ds = TLVE /\
  holds_numbers (d_data ds) "Plist" (Some [Fin 5; Fin 6]) /\
  holds_rows (d_data ds) "yilist" (Some [[Fin 60; Fin 40]; [Fin 70; Fin 30]]) /\
  objective (fun _ _ => Ok [("P", nums [Fin 5; Fin 9]); ("yi", [row 60 40; row 68 32])]) summed ds
    [("Plist", WOne (Fin 1)); ("yilist", WOne (Fin 1)); ("xilist", WOne (Fin 1))] = Ok (Fin 7).
Proof. eexists. split; [vm_compute; reflexivity|]. repeat split. Qed.
Example C101_inputs_example : exists ds, NoDup (dkeys flash_input) /\ build Flash None 2 flash_input = Ok ds /\
  given Flash flash_input "Tlist" (Scalar (num_ 300)) /\ dget (d_data ds) "Tlist" = Some (Arr [num_ 300; num_ 300]) /\
  not_given Flash flash_input "Plist" /\ dget (d_data ds) "Plist" = Some (Arr [num_ 101325; num_ 101325]).
Proof.
  eexists. split; [repeat constructor; cbn; intuition discriminate|]. split; [vm_compute; reflexivity|].
  split; [right; split; [reflexivity|]; exists "T"; split; [cbn; auto|split; [reflexivity|]]|].
  - cbn. intros o' N H. repeat (destruct H as [H|H]; [injection H as <-; congruence|]). destruct H.
  - split; [reflexivity|]. split; [|reflexivity]. split; [reflexivity|]. cbn. intros o H.
    repeat (destruct H as [H|H]; [try discriminate; injection H as <-; reflexivity|]). destruct H.
Qed.
(** two inputs that differ in the measured values only; both are accepted *)
Example C102_blind_example : let dd' : data := [("T", Arr [num_ 300; num_ 310]); ("P", Arr [num_ 7; num_ 7]); ("rhol", Arr [num_ 71; num_ 61])] in
  agree_except (compared Saturation "saturation_properties") sat_input dd' /\ sat_input <> dd' /\
  (exists ds, build Saturation (Some "saturation_properties") 1 sat_input = Ok ds) /\
  (exists ds, build Saturation (Some "saturation_properties") 1 dd' = Ok ds).
Proof.
  cbv zeta. split; [|split; [discriminate|split; eexists; vm_compute; reflexivity]].
  intros k. unfold sat_input. cbn [dget]. destruct (String.eqb k "T"); [cbn; auto|].
  destruct (String.eqb_spec k "P") as [->|]; [split; [reflexivity|]; cbn; intuition discriminate|].
  destruct (String.eqb_spec k "rhol") as [->|]; [split; [reflexivity|]; intros H; exfalso; apply H; cbn; auto|]. cbn. auto.
Qed.
Example C101_state_example : exists ds, build Flash None 2 flash_input = Ok ds /\
  dget (options ds) "Tlist" = Some (Arr [num_ 300; num_ 300]) /\ dget (options ds) "xilist" = None.
Proof. eexists. split; [vm_compute; reflexivity|]. split; reflexivity. Qed.
Example C101_failed_calculation_example : exists ds, build Flash None 2 flash_input = Ok ds /\
  objective (fun _ _ => Err TypeError) summed ds [] = Err ValueError /\
  objective (fun _ _ => Ok [("yi", [row 60 40; row 68 32])]) summed ds [] = Err ValueError.
Proof. eexists. split; [vm_compute; reflexivity|]. split; reflexivity. Qed.
(** the refusals and the accepted data set without a measured quantity *)
Example C103_needed_example :
  build Flash None 2 [("T", Scalar (num_ 300)); ("xi", Arr [row 10 90; row 20 80])] = Err ImportError /\
  build Saturation None 2 sat_input = Err ValueError.
Proof. split; reflexivity. Qed.
Example C103_temperature_example : build Flash None 2 (tl flash_input) = Err KeyError /\
  build TLVE (Some "bubble_pressure") 2 (tl tlve_input) = Err KeyError /\
  build LiquidDensity None 1 (tl liq_input) = Err KeyError.
Proof. repeat split. Qed.
Example C103_nothing_measured_example :
  build Saturation None 1 [("T", Arr [num_ 300])] = Err TypeError /\
  build Solubility None 1 [("T", Arr [num_ 300])] = Err KeyError /\
  exists ds, build LiquidDensity None 1 [("T", Arr [num_ 300])] = Ok ds.
Proof. repeat split. eexists. vm_compute. reflexivity. Qed.
Example C103_TLVE_calculation_example :
  build TLVE None 2 tlve_input = Err ValueError /\ exists ds, build TLVE (Some "bubble_temperature") 2 tlve_input = Ok ds.
Proof. split; [reflexivity|]. eexists. vm_compute. reflexivity. Qed.

Print Assumptions C101_saturation.
Print Assumptions C101_solubility.
Print Assumptions C101_liquid_density.
Print Assumptions C101_flash.
Print Assumptions C101_TLVE.
Print Assumptions C101_inputs.
Print Assumptions C101_state.
Print Assumptions C101_failed_calculation.
Print Assumptions C102_blind.
Print Assumptions C102_guess_refuted.
Print Assumptions C103_needed.
Print Assumptions C103_temperature_refuted.
Print Assumptions C103_nothing_measured_refuted.
Print Assumptions C103_TLVE_calculation_refuted.
