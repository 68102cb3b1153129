(** Proofs for C08-C11 and C64-C66. *)
From Verif Require Import Base BaseFacts Num SortLib IOModel IOSpec.
From Coq Require Import Ascii Permutation Sorted.
Open Scope nat_scope.

(** ** C08 *)
Lemma add_bead_spec beads b :
  NoDup beads -> NoDup (add_bead beads b) /\ (forall x, In x (add_bead beads b) <-> In x beads \/ x = b).
Proof.
  intros Hnd. unfold add_bead. destruct (smem b beads) eqn:E.
  - apply smem_In in E. split; [exact Hnd|]. intros x. split; [tauto|]. intros [H| ->]; assumption.
  - apply smem_nIn in E. split.
    + apply (Permutation_NoDup (l := b :: beads)); [apply Permutation_cons_append|]. constructor; assumption.
    + intros x. rewrite in_app_iff. cbn. intuition.
Qed.

Lemma add_component_spec (c : component) : forall beads, NoDup beads ->
  NoDup (fold_left (fun acc' p => add_bead acc' (fst p)) c beads) /\
  (forall x, In x (fold_left (fun acc' p => add_bead acc' (fst p)) c beads) <-> In x beads \/ In x (map fst c)).
Proof.
  induction c as [|p c IH]; intros beads Hnd; cbn.
  - split; [exact Hnd|tauto].
  - destruct (add_bead_spec beads (fst p) Hnd) as [N1 I1]. destruct (IH _ N1) as [N2 I2]. split; [exact N2|].
    intros x. rewrite I2, I1. intuition.
Qed.

Lemma add_all_spec comps : forall beads, NoDup beads ->
  NoDup (fold_left (fun acc (c : component) => fold_left (fun acc' p => add_bead acc' (fst p)) c acc) comps beads) /\
  (forall x, In x (fold_left (fun acc (c : component) => fold_left (fun acc' p => add_bead acc' (fst p)) c acc) comps beads)
     <-> In x beads \/ exists c, In c comps /\ In x (map fst c)).
Proof.
  induction comps as [|c comps IH]; intros beads Hnd; cbn [fold_left].
  - split; [exact Hnd|]. intros x; split; [tauto|]. intros [H|(c & [] & _)]; exact H.
  - destruct (add_component_spec c beads Hnd) as [N1 I1]. destruct (IH _ N1) as [N2 I2]. split; [exact N2|].
    intros x. rewrite I2, I1. split.
    + intros [[H|H]|(c' & Hc & Hx)]; [tauto|right; exists c; cbn; tauto|right; exists c'; cbn; tauto].
    + intros [H|(c' & [->|Hc] & Hx)]; [tauto|tauto|right; exists c'; tauto].
Qed.

Lemma bead_names_spec comps :
  NoDup (bead_names comps) /\
  StronglySorted (fun a b => String.leb a b = true) (bead_names comps) /\
  (forall b, In b (bead_names comps) <-> exists c q, In c comps /\ In (b, q) c).
Proof.
  unfold bead_names. destruct (add_all_spec comps [] (NoDup_nil _)) as [N I]. split; [|split].
  - eapply Permutation_NoDup; [symmetry; apply sort_perm|exact N].
  - apply (sort_sorted (fun s => s)).
  - intros b. split.
    + intros H. apply (Permutation_in _ (sort_perm _ _)) in H. apply I in H. destruct H as [[]|(c & Hc & Hb)].
      apply in_map_iff in Hb. destruct Hb as ([b' q] & <- & Hq). exists c, q. tauto.
    + intros (c & q & Hc & Hq). eapply Permutation_in; [symmetry; apply sort_perm|]. apply I. right.
      exists c. split; [exact Hc|]. change b with (fst (b, q)). apply in_map, Hq.
Qed.

Lemma set_bead_nth beads row p k b :
  length row = length beads -> nth_error beads k = Some b ->
  nth_error (set_bead beads row p) k = if String.eqb (fst p) b then Some (snd p) else nth_error row k.
Proof.
  unfold set_bead. revert row k. induction beads as [|b0 beads IH]; intros [|r row] k Hl Hk; try discriminate.
  - destruct k; discriminate.
  - destruct k as [|k]; cbn in *.
    + injection Hk as <-. destruct (String.eqb (fst p) b0); reflexivity.
    + apply IH; [lia|exact Hk].
Qed.

Lemma set_bead_length beads row p : length row = length beads -> length (set_bead beads row p) = length beads.
Proof. intros H. unfold set_bead. rewrite map_length, combine_length, H. lia. Qed.

Lemma bead_fold beads k b (c : component) : nth_error beads k = Some b -> forall row,
  length row = length beads ->
  length (fold_left (set_bead beads) c row) = length beads /\
  (~ In b (map fst c) -> nth_error (fold_left (set_bead beads) c row) k = nth_error row k) /\
  (NoDup (map fst c) -> forall q, In (b, q) c -> nth_error (fold_left (set_bead beads) c row) k = Some q).
Proof.
  intros Hk. induction c as [|p c IH]; intros row Hl; cbn [fold_left map].
  - split; [exact Hl|]. split; [reflexivity|]. intros _ q [].
  - destruct (IH (set_bead beads row p) (set_bead_length _ _ _ Hl)) as (L & I1 & I2). split; [exact L|]. split.
    + cbn. intros Hn. rewrite I1 by tauto. rewrite (set_bead_nth _ _ _ _ _ Hl Hk).
      destruct (String.eqb_spec (fst p) b); [tauto|reflexivity].
    + cbn. intros Hnd q Hq. inversion Hnd as [|? ? Hni Hnd']; subst. destruct Hq as [->|Hq].
      * rewrite I1 by exact Hni. rewrite (set_bead_nth _ _ _ _ _ Hl Hk). cbn. rewrite String.eqb_refl. reflexivity.
      * apply I2; assumption.
Qed.

Lemma count_absent b c : ~ In b (map fst c) -> count_bead b c = 0%Q.
Proof.
  induction c as [|p c IH]; cbn; [reflexivity|]. intros H.
  destruct (String.eqb_spec b (fst p)) as [->|Hn]; [exfalso; apply H; left; reflexivity|]. apply IH; tauto.
Qed.
Lemma count_present b c q : NoDup (map fst c) -> In (b, q) c -> (count_bead b c == q)%Q.
Proof.
  induction c as [|p c IH]; cbn; [tauto|]. intros Hnd Hq. inversion Hnd as [|? ? Hni Hnd']; subst.
  destruct Hq as [->|Hq]; cbn.
  - rewrite String.eqb_refl. change (fold_right _ 0%Q c) with (count_bead b c).
    rewrite count_absent by exact Hni. apply Qplus_0_r.
  - destruct (String.eqb_spec b (fst p)) as [->|Hn].
    + exfalso. apply Hni. change (fst p) with (fst (fst p, q)). apply in_map, Hq.
    + apply IH; assumption.
Qed.

Lemma bead_data_spec comps beads M :
  process_bead_data comps = (beads, M) ->
  (forall c, In c comps -> NoDup (map fst c)) ->
  NoDup beads /\ StronglySorted (fun a b => String.leb a b = true) beads /\
  (forall b, In b beads <-> exists c q, In c comps /\ In (b, q) c) /\
  length M = length comps /\
  forall i c row, nth_error comps i = Some c -> nth_error M i = Some row ->
    length row = length beads /\
    forall k b, nth_error beads k = Some b ->
      exists q, nth_error row k = Some q /\ (q == count_bead b c)%Q.
Proof.
  unfold process_bead_data. intros H Hnd. injection H as <- <-.
  destruct (bead_names_spec comps) as (N & S & I). split; [exact N|]. split; [exact S|]. split; [exact I|].
  split; [apply map_length|]. intros i c row Hc Hrow.
  rewrite nth_error_map, Hc in Hrow. cbn in Hrow. injection Hrow as <-.
  assert (Hl0 : length (repeat 0%Q (length (bead_names comps))) = length (bead_names comps)) by apply repeat_length.
  split.
  - unfold bead_row. destruct (bead_names comps) as [|b0 bs] eqn:Eb.
    + clear. induction c as [|p c IH]; [reflexivity|exact IH].
    + destruct (bead_fold (b0 :: bs) 0 b0 c eq_refl (repeat 0%Q (length (b0 :: bs)))) as (L & _); [apply repeat_length|exact L].
  - intros k b Hk. unfold bead_row.
    destruct (bead_fold (bead_names comps) k b c Hk _ Hl0) as (_ & I1 & I2).
    assert (Hcnd : NoDup (map fst c)) by (apply Hnd; eapply nth_error_In; exact Hc).
    destruct (in_dec string_dec b (map fst c)) as [Hin|Hin].
    + apply in_map_iff in Hin. destruct Hin as ([b' q] & Hb & Hq). cbn in Hb. subst b'.
      exists q. split; [apply (I2 Hcnd q Hq)|]. symmetry. apply count_present; assumption.
    + exists 0%Q. rewrite (I1 Hin). rewrite (count_absent b c Hin). split; [|reflexivity].
      assert (k < length (bead_names comps)) by (apply nth_error_Some; congruence).
      rewrite (nth_error_nth' _ 0%Q) by (rewrite repeat_length; exact H). f_equal.
      apply (repeat_spec (length (bead_names comps))). apply nth_In. rewrite repeat_length. exact H.
Qed.

(** ** C09 *)
Lemma begins_starts c k : begins c k = starts c k.
Proof.
  unfold begins, starts. destruct k as [|c' k]; [reflexivity|].
  change (String.prefix (String c "") (String c' k)) with (if ascii_dec c c' then String.prefix "" k else false).
  destruct (Ascii.eqb_spec c c') as [->|Hn]; destruct (ascii_dec _ _); try congruence. destruct k; reflexivity.
Qed.
Lemma phase_letter_eq k : phase_letter k = starts "x" k || starts "y" k || starts "z" k.
Proof. unfold phase_letter. rewrite !begins_starts. reflexivity. Qed.

Lemma combine_map_seq {B} (names : list string) (f : nat -> B) :
  combine names (map f (seq 0 (length names))) = map (fun i => (nth i names ""%string, f i)) (seq 0 (length names)).
Proof.
  assert (H : forall (l : list string) k, (forall i, i < length l -> nth i l ""%string = nth (k + i) names ""%string) ->
     combine l (map f (seq k (length l))) = map (fun i => (nth i names ""%string, f i)) (seq k (length l))).
  { induction l as [|x l IH]; intros k Hn; cbn; [reflexivity|]. f_equal.
    - f_equal. specialize (Hn 0 ltac:(cbn; lia)). cbn in Hn. rewrite Hn. f_equal. lia.
    - apply IH. intros i Hi. specialize (Hn (S i) ltac:(cbn; lia)). cbn in Hn. rewrite Hn. f_equal. lia. }
  apply (H names 0). intros; reflexivity.
Qed.

Lemma filter_map {A B} (g : A -> B) P l : filter P (map g l) = map g (filter (fun x => P (g x)) l).
Proof. induction l as [|x l IH]; cbn; [reflexivity|]. destruct (P (g x)); cbn; rewrite IH; reflexivity. Qed.

Lemma map_nth_seq {A B} (h : A -> B) d l : map (fun p => h (nth p l d)) (seq 0 (length l)) = map h l.
Proof.
  induction l as [|x l IH]; cbn; [reflexivity|]. f_equal. rewrite <- seq_shift, map_map. exact IH.
Qed.

Lemma phase_columns_spec c names rows :
  length rows <> 1 ->
  phase_columns c (file_columns names rows) = map (fun j => A1 (map (fun r => nth j r NaN) rows)) (phase_idx c names).
Proof.
  intros Hr. unfold phase_columns, file_columns. rewrite combine_map_seq, filter_map, map_map. cbn [fst snd].
  assert (Hidx : phase_idx c names = filter (fun j => starts c (nth j names ""%string)) (seq 0 (length names))) by
    (apply filter_ext; intros j; apply begins_starts).
  rewrite Hidx.
  apply map_ext. intros j. unfold column. destruct rows as [|r [|r' rows]]; try reflexivity. exfalso; apply Hr; reflexivity.
Qed.

Lemma stack_spec idx (rows : list (list num)) : idx <> [] ->
  stack_columns (map (fun j => A1 (map (fun r => nth j r NaN) rows)) idx) =
  A2 (map (fun r => map (fun j => nth j r NaN) idx) rows).
Proof.
  intros Hi. destruct idx as [|j0 idx]; [congruence|]. unfold stack_columns. cbn [map].
  f_equal. rewrite map_length.
  rewrite <- (map_nth_seq (fun r => nth j0 r NaN :: map (fun j => nth j r NaN) idx) [] rows).
  apply map_ext_in. intros p Hp. apply in_seq in Hp. f_equal.
  - rewrite (nth_indep _ NaN (nth j0 [] NaN)) by (rewrite map_length; lia). apply map_nth with (f := fun r => nth j0 r NaN).
  - rewrite map_map. apply map_ext. intros j.
    rewrite (nth_indep _ NaN (nth j [] NaN)) by (rewrite map_length; lia). apply map_nth with (f := fun r => nth j r NaN).
Qed.

Lemma dget_filter_keep (d : dict arr) P k :
  (forall v, P (k, v) = true) -> dget (filter P d) k = dget d k.
Proof.
  intros H. induction d as [|[a b] d IH]; cbn; [reflexivity|].
  destruct (P (a, b)) eqn:E; cbn; rewrite IH; [reflexivity|].
  destruct (String.eqb_spec k a) as [->|]; [rewrite H in E; discriminate|reflexivity].
Qed.
Lemma dget_filter_drop (d : dict arr) P k :
  (forall v, P (k, v) = false) -> dget (filter P d) k = None.
Proof.
  intros H. induction d as [|[a b] d IH]; cbn; [reflexivity|].
  destruct (P (a, b)) eqn:E; cbn; [|exact IH].
  destruct (String.eqb_spec k a) as [->|]; [rewrite H in E; discriminate|exact IH].
Qed.

Lemma exp_own_column names rows j k :
  NoDup names -> length rows <> 1 -> nth_error names j = Some k -> phase_letter k = false ->
  dget (process_exp_table names rows) k = Some (A1 (map (fun r => nth j r NaN) rows)).
Proof.
  intros Hnd Hr Hk Hp. unfold process_exp_table.
  assert (Hx : k <> "xi"%string) by (intros ->; discriminate).
  assert (Hy : k <> "yi"%string) by (intros ->; discriminate).
  assert (Hz : k <> "zi"%string) by (intros ->; discriminate).
  assert (Hput : forall key cols acc, k <> key ->
     dget (match cols with [] => acc | _ => dset acc key (stack_columns cols) end) k = dget acc k).
  { intros key cols acc Hn. destruct cols; [reflexivity|]. apply dget_dset_other. congruence. }
  rewrite !Hput by assumption. rewrite dget_filter_keep.
  - unfold file_columns. apply In_dget.
    + assert (E : dkeys (combine names (map (fun i => column i rows) (seq 0 (length names)))) = names).
      { rewrite combine_map_seq. unfold dkeys. rewrite map_map. cbn. clear.
        rewrite (map_nth_seq (fun x => x) ""%string names). apply map_id. }
      rewrite E. exact Hnd.
    + rewrite combine_map_seq. apply in_map_iff. exists j.
      assert (Hj : j < length names) by (apply nth_error_Some; congruence). split.
      * f_equal; [apply nth_error_nth; exact Hk|]. unfold column.
        destruct rows as [|r [|r' rows]]; try reflexivity. exfalso; apply Hr; reflexivity.
      * apply in_seq. lia.
  - intros v. cbn. rewrite phase_letter_eq in Hp. rewrite Hp. reflexivity.
Qed.

Lemma exp_phase_column names rows c :
  In c ["x"; "y"; "z"]%char -> length rows <> 1 ->
  dget (process_exp_table names rows) (String c "i") =
  match phase_idx c names with
  | [] => None
  | idx => Some (A2 (map (fun r => map (fun j => nth j r NaN) idx) rows))
  end.
Proof.
  intros Hc Hr. unfold process_exp_table.
  set (d := file_columns names rows).
  set (keep := filter _ d).
  assert (Hkeep : forall k, phase_letter k = true -> dget keep k = None).
  { intros k Hk. apply dget_filter_drop. intros v. cbn. rewrite phase_letter_eq in Hk. rewrite Hk. reflexivity. }
  assert (Hput : forall key cols acc k,
     dget (match cols with [] => acc | _ => dset acc key (stack_columns cols) end) k =
     if String.eqb key k then match cols with [] => dget acc k | _ => Some (stack_columns cols) end else dget acc k).
  { intros key cols acc k. destruct cols; [destruct (String.eqb key k); reflexivity|].
    destruct (String.eqb_spec key k) as [->|Hn]; [apply dget_dset_same|apply dget_dset_other; exact Hn]. }
  assert (Hfin : forall c', phase_letter (String c' "i") = true ->
     match phase_columns c' d with [] => dget keep (String c' "i") | _ => Some (stack_columns (phase_columns c' d)) end =
     match phase_idx c' names with [] => None | idx => Some (A2 (map (fun r => map (fun j => nth j r NaN) idx) rows)) end).
  { intros c' Hl. unfold d. rewrite (phase_columns_spec c' names rows Hr).
    destruct (phase_idx c' names) as [|j idx] eqn:E; [apply Hkeep; exact Hl|].
    rewrite stack_spec by discriminate. reflexivity. }
  rewrite !Hput. cbn in Hc. destruct Hc as [<-|[<-|[<-|[]]]]; cbn [String.eqb Ascii.eqb Bool.eqb].
  - apply (Hfin "x"%char). reflexivity.
  - apply (Hfin "y"%char). reflexivity.
  - apply (Hfin "z"%char). reflexivity.
Qed.

(** ** C10 *)
Lemma NoDup_lower {V} (d : dict V) : NoDup (map (fun kv => lower (fst kv)) d) -> NoDup (dkeys d).
Proof.
  intros H. unfold dkeys. apply (NoDup_map_inv lower). rewrite map_map. exact H.
Qed.

Lemma dget_perm {V} (d d' : dict V) k : NoDup (dkeys d) -> Permutation d d' -> dget d' k = dget d k.
Proof.
  intros Hnd Hp. destruct (dget d k) as [v|] eqn:E.
  - apply In_dget.
    + unfold dkeys in *. eapply Permutation_NoDup; [apply Permutation_map; exact Hp|exact Hnd].
    + eapply Permutation_in; [exact Hp|apply dget_In, E].
  - apply dget_None. apply dget_None in E. intros Hi. apply E. unfold dkeys in *.
    eapply Permutation_in; [apply Permutation_map; symmetry; exact Hp|exact Hi].
Qed.

Lemma write_params_spec {V} (lib : dict (dict V)) :
  dkeys (write_EOSparameters lib) = dkeys lib /\
  forall b d, dget lib b = Some d ->
    exists d', dget (write_EOSparameters lib) b = Some d' /\ Permutation d d' /\
      (NoDup (dkeys d) -> forall k, dget d' k = dget d k) /\
      StronglySorted (fun p q => String.leb (lower (fst p)) (lower (fst q)) = true) d'.
Proof.
  split.
  - unfold write_EOSparameters, dkeys. rewrite map_map. reflexivity.
  - intros b d H. exists (sort_by (fun kv => lower (fst kv)) d). split; [|split; [|split]].
    + unfold write_EOSparameters. induction lib as [|[b' e] lib IH]; cbn in *; [discriminate|].
      destruct (String.eqb b b'); [injection H as ->; reflexivity|apply IH, H].
    + symmetry. apply sort_perm.
    + intros Hnd k. apply dget_perm; [exact Hnd|]. symmetry; apply sort_perm.
    + apply (sort_sorted (fun kv => lower (fst kv))).
Qed.

Lemma write_params_canonical {V} (lib1 lib2 : dict (dict V)) :
  Forall2 (fun p q => fst p = fst q /\ Permutation (snd p) (snd q) /\ NoDup (map (fun kv => lower (fst kv)) (snd p))) lib1 lib2 ->
  write_EOSparameters lib1 = write_EOSparameters lib2.
Proof.
  induction 1 as [|[b d] [b' d'] l1 l2 (Hb & Hp & Hn) H IH]; cbn in *; [reflexivity|]. subst b'. f_equal; [|exact IH].
  f_equal. apply sort_canonical; assumption.
Qed.

(** ** C11 *)
Lemma header_label k : header_name k = label k.
Proof.
  unfold header_name, label. cbn [dget units].
  repeat (match goal with |- context [String.eqb k ?x] => destruct (String.eqb_spec k x) as [->|] end; [reflexivity|]).
  reflexivity.
Qed.
Lemma names_of_eq k v : names_of k v =
  match v with
  | [] => [header_name k]
  | v0 :: _ => if Nat.ltb 1 (csize v0) then map (fun i => header_name (k ++ nat_str i)) (seq 1 (csize v0))
               else [header_name k]
  end.
Proof.
  unfold names_of. rewrite header_label. destruct v as [|[x|[|a [|b l]]] v]; try reflexivity.
  cbn [csize]. change (1 <? length (a :: b :: l)) with true. cbn iota.
  apply map_ext. intros i. symmetry. apply header_label.
Qed.
Lemma mapM_vec m v : (forall c, In c v -> exists l, c = C1 l /\ length l = m) ->
  mapM (as_vec m) v = Ok (map cell_values v).
Proof.
  induction v as [|c v IH]; intros H; cbn; [reflexivity|].
  destruct (H c (or_introl eq_refl)) as (l & -> & Hl). cbn. rewrite Hl, Nat.eqb_refl. cbn.
  rewrite IH by (intros c' Hc'; apply H; right; exact Hc'). reflexivity.
Qed.
Lemma mapM_piece v : (forall c, In c v -> exists l, c = C1 l /\ length l = 1) ->
  mapM as_piece v = Ok (map cell_values v).
Proof.
  induction v as [|c v IH]; intros H; cbn; [reflexivity|].
  destruct (H c (or_introl eq_refl)) as (l & -> & Hl). cbn.
  rewrite IH by (intros c' Hc'; apply H; right; exact Hc'). reflexivity.
Qed.
Lemma mapM_scalar v : (forall c, In c v -> exists x, c = C0 x) ->
  mapM as_scalar v = Ok (map (fun c => hd NaN (cell_values c)) v).
Proof.
  induction v as [|c v IH]; intros H; cbn; [reflexivity|].
  destruct (H c (or_introl eq_refl)) as (x & ->). cbn.
  rewrite IH by (intros c' Hc'; apply H; right; exact Hc'). reflexivity.
Qed.

Lemma nth_map_lt {A B} (f : A -> B) l p d d' : p < length l -> nth p (map f l) d = f (nth p l d').
Proof. intros H. rewrite (nth_indep _ d (f d')) by (rewrite map_length; exact H). apply map_nth. Qed.

Lemma key_columns_spec n k v :
  0 < n -> (scalars n v \/ exists m, 0 < m /\ shaped n m v) ->
  exists cols, key_columns k v = Ok cols /\
    map (fun kc => header_name (fst kc)) cols = names_of k v /\
    cols <> [] /\
    (forall kc, In kc cols -> length (snd kc) = n) /\
    (forall p, p < n -> map (fun kc => nth p (snd kc) NaN) cols = value_at v p).
Proof.
  intros Hn Hs. destruct Hs as [[Hl Hs]|(m & Hm & Hl & Hs)].
  - destruct v as [|v0 v]; [cbn in Hl; lia|]. destruct (Hs v0 (or_introl eq_refl)) as (x & ->).
    exists [(k, map (fun c => hd NaN (cell_values c)) (C0 x :: v))].
    split; [|split; [rewrite names_of_eq; reflexivity|split; [discriminate|split]]].
    + unfold key_columns. cbn [csize Nat.ltb Nat.leb]. rewrite (mapM_scalar _ Hs). reflexivity.
    + intros kc [<-|[]]. cbn [snd]. rewrite map_length. exact Hl.
    + intros p Hp. unfold value_at.
      assert (Hin : In (nth p (C0 x :: v) (C1 [])) (C0 x :: v)) by (apply nth_In; rewrite Hl; exact Hp).
      destruct (Hs _ Hin) as (y & Hy). rewrite Hy. cbn [cell_values].
      change (map (fun kc : string * list num => nth p (snd kc) NaN) [(k, map (fun c => hd NaN (cell_values c)) (C0 x :: v))])
        with [nth p (map (fun c => hd NaN (cell_values c)) (C0 x :: v)) NaN].
      rewrite (nth_map_lt _ _ _ _ (C1 [])) by (rewrite Hl; exact Hp). rewrite Hy. reflexivity.
  - destruct v as [|v0 v]; [cbn in Hl; lia|]. destruct (Hs v0 (or_introl eq_refl)) as (l0 & -> & Hl0).
    destruct (Nat.ltb_spec 1 m) as [Hm1|Hm1].
    + exists (map (fun i => ((k ++ nat_str (i + 1))%string, map (fun r => nth i r NaN) (map cell_values (C1 l0 :: v)))) (seq 0 m)).
      split; [|split; [|split; [|split]]].
      * unfold key_columns. cbn [csize]. rewrite Hl0. rewrite (proj2 (Nat.ltb_lt 1 m) Hm1). rewrite (mapM_vec m _ Hs). reflexivity.
      * rewrite names_of_eq. cbn [csize]. rewrite Hl0, (proj2 (Nat.ltb_lt 1 m) Hm1). rewrite map_map. cbn [fst].
        rewrite <- (seq_shift m 0), map_map. apply map_ext. intros i. repeat f_equal. lia.
      * destruct m; [lia|]. discriminate.
      * intros kc Hkc. apply in_map_iff in Hkc. destruct Hkc as (i & <- & _). cbn [snd]. rewrite !map_length. exact Hl.
      * intros p Hp. rewrite map_map. cbn [snd]. unfold value_at.
        assert (Hin : In (nth p (C1 l0 :: v) (C1 [])) (C1 l0 :: v)) by (apply nth_In; rewrite Hl; exact Hp).
        destruct (Hs _ Hin) as (l & El & Hll). rewrite El. cbn [cell_values].
        transitivity (map (fun i => nth i l NaN) (seq 0 (length l))); [|rewrite (map_nth_seq (fun x => x)); apply map_id].
        rewrite Hll. apply map_ext. intros i. rewrite map_map.
        rewrite (nth_map_lt _ _ _ _ (C1 [])) by (rewrite Hl; exact Hp). rewrite El. reflexivity.
    + assert (Hm2 : m = 1) by lia. rewrite Hm2 in *. clear Hm2.
      exists [(k, concat (map cell_values (C1 l0 :: v)))].
      assert (Hc : forall w : list cell, (forall c, In c w -> exists l, c = C1 l /\ length l = 1) ->
                 concat (map cell_values w) = map (fun c => hd NaN (cell_values c)) w).
      { induction w as [|c w IH]; intros Hw; cbn; [reflexivity|].
        destruct (Hw c (or_introl eq_refl)) as (l & -> & Hll). destruct l as [|y [|]]; try discriminate. cbn.
        f_equal. apply IH. intros c' Hc'. apply Hw. right; exact Hc'. }
      split; [|split; [|split; [discriminate|split]]].
      * unfold key_columns. cbn [csize]. rewrite Hl0. cbn [Nat.ltb Nat.leb]. rewrite (mapM_piece _ Hs). reflexivity.
      * rewrite names_of_eq. cbn [csize]. rewrite Hl0. reflexivity.
      * intros kc [<-|[]]. cbn [snd]. rewrite (Hc _ Hs), map_length. exact Hl.
      * intros p Hp. unfold value_at.
        assert (Hin : In (nth p (C1 l0 :: v) (C1 [])) (C1 l0 :: v)) by (apply nth_In; rewrite Hl; exact Hp).
        destruct (Hs _ Hin) as (l & El & Hll). destruct l as [|y [|]]; try discriminate. rewrite El. cbn [cell_values].
        change (map (fun kc : string * list num => nth p (snd kc) NaN) [(k, concat (map cell_values (C1 l0 :: v)))])
          with [nth p (concat (map cell_values (C1 l0 :: v))) NaN].
        rewrite (Hc _ Hs). rewrite (nth_map_lt _ _ _ _ (C1 [])) by (rewrite Hl; exact Hp). rewrite El. reflexivity.
Qed.

Lemma all_columns_spec n (d : list (string * list cell)) :
  0 < n -> (forall k v, In (k, v) d -> scalars n v \/ exists m, 0 < m /\ shaped n m v) ->
  exists cols, all_columns d = Ok cols /\
    map (fun kc => header_name (fst kc)) cols = flat_map (fun kv => names_of (fst kv) (snd kv)) d /\
    (d <> [] -> cols <> []) /\
    (forall kc, In kc cols -> length (snd kc) = n) /\
    (forall p, p < n -> map (fun kc => nth p (snd kc) NaN) cols = flat_map (fun kv => value_at (snd kv) p) d).
Proof.
  intros Hn. induction d as [|[k v] d IH]; intros H.
  - exists []. split; [reflexivity|]. split; [reflexivity|]. split; [tauto|]. split; [intros kc []|intros; reflexivity].
  - destruct (key_columns_spec n k v Hn (H k v (or_introl eq_refl))) as (c & E & H1 & H2 & H3 & H4).
    destruct IH as (cs & E' & I1 & I2 & I3 & I4); [intros k' v' Hin; apply (H k' v'); right; exact Hin|].
    exists (c ++ cs). cbn [all_columns]. rewrite E. cbn [rbind]. rewrite E'. split; [reflexivity|].
    split; [rewrite map_app, H1, I1; reflexivity|]. split.
    + intros _ Hc. apply app_eq_nil in Hc. tauto.
    + split.
      * intros kc Hkc. apply in_app_or in Hkc. destruct Hkc; [apply H3|apply I3]; assumption.
      * intros p Hp. rewrite map_app, (H4 p Hp), (I4 p Hp). reflexivity.
Qed.

Lemma writeout_spec n d calctype :
  0 < n -> d <> [] ->
  (forall k v, In (k, v) d -> scalars n v \/ exists m, 0 < m /\ shaped n m v) ->
  exists t, writeout_thermo_dict d calctype = Ok t /\
    header t = flat_map (fun kv => names_of (fst kv) (snd kv)) d /\
    length (body t) = n /\
    forall p row, nth_error (body t) p = Some row ->
      row = flat_map (fun kv => value_at (snd kv) p) d /\ length row = length (header t).
Proof.
  intros Hn Hd H. destruct (all_columns_spec n d Hn H) as (cols & E & H1 & H2 & H3 & H4).
  unfold writeout_thermo_dict. rewrite E. cbn [rbind].
  destruct cols as [|[k0 c0] cols]; [exfalso; apply (H2 Hd); reflexivity|].
  assert (Hc0 : length c0 = n) by (apply (H3 (k0, c0)); left; reflexivity).
  assert (Hall : forallb (fun kc => Nat.eqb (length (snd kc)) (length c0)) ((k0, c0) :: cols) = true).
  { apply forallb_forall. intros kc Hkc. rewrite Hc0. apply Nat.eqb_eq, H3, Hkc. }
  rewrite Hall. eexists. split; [reflexivity|]. cbn [header body]. split; [exact H1|].
  split; [rewrite map_length, seq_length; exact Hc0|].
  intros p row Hrow. rewrite nth_error_map in Hrow.
  destruct (nth_error (seq 0 (length c0)) p) as [q|] eqn:Eq; [|discriminate]. cbn [option_map] in Hrow. injection Hrow as <-.
  assert (Hp : p < length c0).
  { rewrite <- (seq_length (length c0) 0). apply nth_error_Some. congruence. }
  assert (q = p).
  { apply (nth_error_nth _ _ 0) in Eq. rewrite seq_nth in Eq by exact Hp. cbn in Eq. congruence. }
  subst q. split; [apply H4; lia|]. cbn [map length]. rewrite !map_length. reflexivity.
Qed.

Lemma ragged_refused k v0 rest d calctype i l :
  1 < length v0 -> nth_error rest i = Some (C1 l) -> length l <> length v0 ->
  exists e, writeout_thermo_dict ((k, C1 v0 :: rest) :: d) calctype = Err e.
Proof.
  intros Hv Hi Hl. unfold writeout_thermo_dict. cbn [all_columns]. unfold key_columns. cbn [csize].
  rewrite (proj2 (Nat.ltb_lt _ _) Hv).
  assert (Hm : exists e, mapM (as_vec (length v0)) (C1 v0 :: rest) = Err e).
  { cbn. rewrite Nat.eqb_refl. cbn.
    assert (Hr : exists e, mapM (as_vec (length v0)) rest = Err e).
    { clear Hv. revert i Hi. induction rest as [|c rest IH]; intros i Hi; [destruct i; discriminate|].
      destruct i as [|i]; cbn in *.
      - injection Hi as ->. cbn. destruct (Nat.eqb_spec (length l) (length v0)); [contradiction|]. eexists; reflexivity.
      - destruct (as_vec (length v0) c); cbn; [|eexists; reflexivity].
        destruct (IH i Hi) as [e ->]. eexists; reflexivity. }
    destruct Hr as [e ->]. eexists; reflexivity. }
  destruct Hm as [e ->]. cbn [rbind]. eexists; reflexivity.
Qed.

Lemma fit_lines_ok names vals : length names = length vals -> fit_lines names vals = Ok (combine names vals).
Proof.
  revert vals. induction names as [|n names IH]; intros [|v vals] H; try discriminate; [reflexivity|].
  cbn. rewrite IH by (cbn in H; lia). reflexivity.
Qed.
Lemma fit_lines_short names vals : length vals < length names -> fit_lines names vals = Err IndexError.
Proof.
  revert vals. induction names as [|n names IH]; intros [|v vals] H; cbn in *; try lia; [reflexivity|].
  rewrite IH by lia. reflexivity.
Qed.
