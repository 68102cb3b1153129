(** Proofs about the association model: loops, site list, site table, symmetry. *)
From Coq Require Import Sorted.
From Verif Require Import Base BaseFacts EosToolboxModel AssocModel.

Lemma foldM_inv' {A B} (P : B -> Prop) (f : B -> A -> result B) l : forall acc out,
  P acc -> (forall acc x acc', In x l -> P acc -> f acc x = Ok acc' -> P acc') ->
  foldM f acc l = Ok out -> P out.
Proof.
  induction l as [|x xs IH]; intros acc out H0 Hs H; cbn in H.
  - injection H as <-; exact H0.
  - destruct (f acc x) as [acc'|] eqn:E; [|discriminate]. cbn in H.
    apply (IH acc' out); [|intros; eapply Hs; eauto; right; assumption|exact H].
    eapply Hs; eauto; left; reflexivity.
Qed.
(** invariant over the processed prefix *)
Lemma foldM_prefix {A B} (P : list A -> B -> Prop) (f : B -> A -> result B) l : forall pre acc out,
  P pre acc -> (forall pre' acc x acc', In x l -> P pre' acc -> f acc x = Ok acc' -> P (pre' ++ [x])%list acc') ->
  foldM f acc l = Ok out -> P (pre ++ l)%list out.
Proof.
  induction l as [|x xs IH]; intros pre acc out H0 Hs H; cbn in H.
  - injection H as <-. rewrite app_nil_r. exact H0.
  - destruct (f acc x) as [acc'|] eqn:E; [|discriminate]. cbn in H.
    replace (pre ++ x :: xs)%list with ((pre ++ [x]) ++ xs)%list by (rewrite <- app_assoc; reflexivity).
    apply (IH (pre ++ [x])%list acc' out).
    + apply (Hs pre acc x acc'); auto. left; reflexivity.
    + intros pre' a y a' Hy. apply Hs. right. exact Hy.
    + exact H.
Qed.
Lemma foldM_app {A B} (f : B -> A -> result B) l1 l2 acc :
  foldM f acc (l1 ++ l2)%list = let* a := foldM f acc l1 in foldM f a l2.
Proof. revert acc. induction l1 as [|x l1 IH]; intros acc; cbn; [reflexivity|]. destruct (f acc x); cbn; [apply IH|reflexivity]. Qed.
Lemma foldM_map {A B C} (g : C -> A) (f : B -> A -> result B) l acc : foldM f acc (map g l) = foldM (fun b c => f b (g c)) acc l.
Proof. revert acc. induction l as [|x l IH]; intros acc; cbn; [reflexivity|]. destruct (f acc (g x)); cbn; [apply IH|reflexivity]. Qed.
Lemma foldM_ext {A B} (f g : B -> A -> result B) l : (forall b x, In x l -> f b x = g b x) -> forall acc, foldM f acc l = foldM g acc l.
Proof.
  induction l as [|x l IH]; intros H acc; cbn; [reflexivity|]. rewrite (H acc x (or_introl eq_refl)). destruct (g acc x); cbn; [|reflexivity].
  apply IH. intros; apply H; right; assumption.
Qed.
Lemma foldM_flat {A B C} (h : A -> list C) (f : B -> C -> result B) l acc :
  foldM (fun b x => foldM f b (h x)) acc l = foldM f acc (flat_map h l).
Proof. revert acc. induction l as [|x l IH]; intros acc; cbn; [reflexivity|]. rewrite foldM_app. destruct (foldM f acc (h x)); cbn; [apply IH|reflexivity]. Qed.
(** the first exception is the result *)
Lemma foldM_all_ok {A B} (f : B -> A -> result B) l : forall acc,
  (forall b x, In x l -> exists b', f b x = Ok b') -> exists out, foldM f acc l = Ok out.
Proof.
  induction l as [|x l IH]; intros acc H; cbn; [eauto|]. destruct (H acc x (or_introl eq_refl)) as [b' ->]. cbn. apply IH. intros; apply H; right; assumption.
Qed.
Lemma foldM_err {A B} (f : B -> A -> result B) e l (bad : A -> bool) : forall acc,
  (forall b x, In x l -> bad x = true -> f b x = Err e) -> (forall b x, In x l -> bad x = false -> exists b', f b x = Ok b') ->
  (exists x, In x l /\ bad x = true) -> foldM f acc l = Err e.
Proof.
  induction l as [|x l IH]; intros acc H1 H2 [y [Hy Hb]]; [destruct Hy|]. cbn. destruct (bad x) eqn:E.
  - rewrite (H1 acc x (or_introl eq_refl) E). reflexivity.
  - destruct (H2 acc x (or_introl eq_refl) E) as [b' ->]. cbn. apply IH.
    + intros; apply H1; [right|]; assumption.
    + intros; apply H2; [right|]; assumption.
    + exists y. destruct Hy as [->|Hy]; [congruence|]. auto.
Qed.

(** ** enumerate *)
Lemma in_enum {A} (l : list A) n i x : In (i, x) (enum n l) <-> (n <= i)%nat /\ nth_error l (i - n) = Some x.
Proof.
  revert n. induction l as [|y l IH]; intros n; cbn [enum In].
  - split; [tauto|]. intros [_ H]. destruct (i - n); discriminate.
  - rewrite IH. split.
    + intros [H|[H1 H2]].
      * injection H as <- <-. split; [lia|]. rewrite Nat.sub_diag. reflexivity.
      * split; [lia|]. replace (i - n)%nat with (S (i - S n)) by lia. exact H2.
    + intros [H1 H2]. destruct (Nat.eq_dec i n) as [->|Hn].
      * left. rewrite Nat.sub_diag in H2. cbn in H2. congruence.
      * right. split; [lia|]. replace (i - n)%nat with (S (i - S n)) in H2 by lia. exact H2.
Qed.

Definition lex3 (p q : nat * nat * nat) : Prop :=
  let '(i, j, k) := p in let '(i', j', k') := q in
  (i < i' \/ (i = i' /\ (j < j' \/ (j = j' /\ k < k'))))%nat.

Lemma StronglySorted_app {A} (R : A -> A -> Prop) l1 l2 :
  StronglySorted R l1 -> StronglySorted R l2 -> (forall x y, In x l1 -> In y l2 -> R x y) -> StronglySorted R (l1 ++ l2)%list.
Proof.
  induction l1 as [|x l1 IH]; intros H1 H2 H; cbn; [exact H2|]. inversion H1; subst. constructor.
  - apply IH; auto. intros; apply H; [right|]; assumption.
  - apply Forall_app. split; [assumption|]. apply Forall_forall. intros y Hy. apply H; [left; reflexivity|exact Hy].
Qed.

Section Assoc.
  Variable V : Type.
  Variables (zero : V) (is0 : V -> bool).

  Lemma bead_sites_In row k : In k (bead_sites V is0 row) <-> exists c, nth_error row k = Some c /\ is0 c = false.
  Proof.
    unfold bead_sites. rewrite in_map_iff. split.
    - intros [[k' c] [<- H]]. apply filter_In in H. destruct H as [H1 H2]. apply in_enum in H1. destruct H1 as [_ H1].
      rewrite Nat.sub_0_r in H1. exists c. cbn in *. split; [exact H1|]. apply negb_true_iff. exact H2.
    - intros [c [H1 H2]]. exists (k, c). split; [reflexivity|]. apply filter_In. split.
      + apply in_enum. split; [lia|]. rewrite Nat.sub_0_r. exact H1.
      + cbn. rewrite H2. reflexivity.
  Qed.
  Lemma bead_sites_sorted row : StronglySorted lt (bead_sites V is0 row).
  Proof.
    unfold bead_sites. generalize 0%nat. induction row as [|c row IH]; intros n; cbn [enum filter map]; [constructor|].
    destruct (negb (is0 (snd (n, c)))); cbn [map]; [|apply IH]. constructor; [apply IH|].
    apply Forall_forall. intros k Hk. apply in_map_iff in Hk. destruct Hk as [[k' c'] [<- H]]. apply filter_In in H. destruct H as [H _].
    apply in_enum in H. cbn. lia.
  Qed.

  Definition bead_entries (nk : list (list V)) (i : nat) (jb : nat * V) : result (list (nat * nat * nat)) :=
    if is0 (snd jb) then Ok []
    else match nth_error (map (bead_sites V is0) nk) (fst jb) with
         | None => Err IndexError
         | Some ks => Ok (map (fun k => (i, fst jb, k)) ks)
         end.
  Lemma bead_entries_In nk i jb l : bead_entries nk i jb = Ok l -> forall x, In x l <->
    is0 (snd jb) = false /\ exists row k c, nth_error nk (fst jb) = Some row /\ nth_error row k = Some c /\ is0 c = false /\ x = (i, fst jb, k).
  Proof.
    unfold bead_entries. destruct (is0 (snd jb)) eqn:E0.
    - intros H x. injection H as <-. cbn. split; [tauto|]. intros [D _]. discriminate.
    - rewrite nth_error_map. destruct (nth_error nk (fst jb)) as [row|]; cbn; [|discriminate]. intros H x. injection H as <-. rewrite in_map_iff. split.
      + intros [k [<- Hk]]. apply bead_sites_In in Hk. destruct Hk as [c [Hc Hz]]. split; [reflexivity|]. exists row, k, c. auto.
      + intros [_ [row' [k [c [Hr [Hc [Hz ->]]]]]]]. injection Hr as <-. exists k. split; [reflexivity|]. apply bead_sites_In. eauto.
  Qed.
  Lemma bead_entries_sorted nk i jb l : bead_entries nk i jb = Ok l -> StronglySorted lex3 l.
  Proof.
    unfold bead_entries. destruct (is0 (snd jb)); [intros H; injection H as <-; constructor|]. rewrite nth_error_map.
    destruct (nth_error nk (fst jb)) as [row|]; cbn; [|discriminate]. intros H. injection H as <-.
    pose proof (bead_sites_sorted row) as S. induction S as [|k ks S IH F]; cbn; constructor; [exact IH|].
    apply Forall_forall. intros x Hx. apply in_map_iff in Hx. destruct Hx as [k' [<- Hk]]. rewrite Forall_forall in F. specialize (F k' Hk). unfold lex3. lia.
  Qed.
  Lemma comp_entries nk i row : forall n rows, mapM (bead_entries nk i) (enum n row) = Ok rows ->
    StronglySorted lex3 (List.concat rows) /\
    forall x, In x (List.concat rows) <-> exists j v srow k c, (n <= j)%nat /\ nth_error row (j - n) = Some v /\ is0 v = false /\
      nth_error nk j = Some srow /\ nth_error srow k = Some c /\ is0 c = false /\ x = (i, j, k).
  Proof.
    induction row as [|v row IH]; intros n rows H; cbn [enum mapM] in H.
    - injection H as <-. cbn. split; [constructor|]. intros x. split; [tauto|]. intros [j [v [s [k [c [_ [H _]]]]]]]. destruct (j - n); discriminate.
    - destruct (bead_entries nk i (n, v)) as [l|] eqn:E; [|discriminate]. cbn [rbind] in H.
      destruct (mapM (bead_entries nk i) (enum (S n) row)) as [ls|] eqn:E2; [|discriminate]. injection H as <-.
      destruct (IH (S n) ls E2) as [SS I]. cbn [List.concat]. pose proof (bead_entries_In nk i (n, v) l E) as HI. cbn [fst snd] in HI. split.
      + apply StronglySorted_app; [exact (bead_entries_sorted _ _ _ _ E)|exact SS|]. intros x y Hx Hy. apply HI in Hx. apply I in Hy.
        destruct Hx as [_ [r [k [c [_ [_ [_ ->]]]]]]]. destruct Hy as [j [v' [s' [k' [c' [Hj [_ [_ [_ [_ [_ ->]]]]]]]]]]]. unfold lex3. lia.
      + intros x. rewrite in_app_iff, HI, I. split.
        * intros [[Hv [r [k [c [Hr [Hc [Hz ->]]]]]]]|[j [v' [s' [k' [c' [Hj [Hn R]]]]]]]].
          -- exists n, v, r, k, c. rewrite Nat.sub_diag. cbn. repeat split; auto.
          -- exists j, v', s', k', c'. split; [lia|]. replace (j - n)%nat with (S (j - S n)) by lia. cbn. auto.
        * intros [j [v' [s' [k' [c' [Hj [Hn R]]]]]]]. destruct (Nat.eq_dec j n) as [->|Hne].
          -- left. rewrite Nat.sub_diag in Hn. cbn in Hn. injection Hn as <-. destruct R as [R1 [R2 [R3 [R4 R5]]]]. split; [exact R1|]. exists s', k', c'. auto.
          -- right. exists j, v', s', k', c'. split; [lia|]. replace (j - n)%nat with (S (j - S n)) in Hn by lia. cbn in Hn. auto.
  Qed.
  Lemma all_entries nk comp : forall n rows,
    mapM (fun ic => let* b := mapM (bead_entries nk (fst ic)) (enum 0 (snd ic)) in Ok (List.concat b)) (enum n comp) = Ok rows ->
    StronglySorted lex3 (List.concat rows) /\
    forall x, In x (List.concat rows) <-> exists i row j v srow k c, (n <= i)%nat /\ nth_error comp (i - n) = Some row /\ nth_error row j = Some v /\ is0 v = false /\
      nth_error nk j = Some srow /\ nth_error srow k = Some c /\ is0 c = false /\ x = (i, j, k).
  Proof.
    induction comp as [|row comp IH]; intros n rows H; cbn [enum mapM] in H.
    - injection H as <-. cbn. split; [constructor|]. intros x. split; [tauto|]. intros [i [r [j [v [s [k [c [_ [H _]]]]]]]]]. destruct (i - n); discriminate.
    - cbn [fst snd] in H. destruct (mapM (bead_entries nk n) (enum 0 row)) as [b|] eqn:E; [|discriminate]. cbn [rbind] in H.
      match type of H with context [mapM ?f (enum (S n) comp)] => destruct (mapM f (enum (S n) comp)) as [ls|] eqn:E2; [|discriminate] end.
      cbn [rbind] in H. injection H as <-. destruct (IH (S n) ls E2) as [SS I]. cbn [List.concat].
      destruct (comp_entries nk n row 0 b E) as [Sb Ib]. split.
      + apply StronglySorted_app; [exact Sb|exact SS|]. intros x y Hx Hy. apply Ib in Hx. apply I in Hy.
        destruct Hx as [j [v [s [k [c [_ [_ [_ [_ [_ [_ ->]]]]]]]]]]]. destruct Hy as [i' [r' [j' [v' [s' [k' [c' [Hi [_ [_ [_ [_ [_ [_ ->]]]]]]]]]]]]]].
        unfold lex3. lia.
      + intros x. rewrite in_app_iff, Ib, I. split.
        * intros [[j [v [s [k [c [_ [Hn R]]]]]]]|[i [r [j [v [s [k [c [Hi [Hn R]]]]]]]]]].
          -- exists n, row, j, v, s, k, c. rewrite Nat.sub_diag. cbn. rewrite Nat.sub_0_r in Hn. auto.
          -- exists i, r, j, v, s, k, c. split; [lia|]. replace (i - n)%nat with (S (i - S n)) by lia. cbn. auto.
        * intros [i [r [j [v [s [k [c [Hi [Hn R]]]]]]]]]. destruct (Nat.eq_dec i n) as [->|Hne].
          -- left. rewrite Nat.sub_diag in Hn. cbn in Hn. injection Hn as <-. exists j, v, s, k, c. split; [lia|]. rewrite Nat.sub_0_r. exact R.
          -- right. exists i, r, j, v, s, k, c. split; [lia|]. replace (i - n)%nat with (S (i - S n)) in Hn by lia. cbn in Hn. auto.
  Qed.
  Lemma indices_spec nk comp l : assoc_site_indices V is0 nk comp = Ok l ->
    StronglySorted lex3 l /\
    forall i j k, In (i, j, k) l <-> exists row v srow c, nth_error comp i = Some row /\ nth_error row j = Some v /\ is0 v = false /\
      nth_error nk j = Some srow /\ nth_error srow k = Some c /\ is0 c = false.
  Proof.
    unfold assoc_site_indices. intros H.
    match type of H with context [mapM ?f ?e] => destruct (mapM f e) as [rows|] eqn:E; [|discriminate] end. cbn [rbind] in H. injection H as <-.
    destruct (all_entries nk comp 0 rows E) as [S I]. split; [exact S|]. intros i j k. rewrite I. split.
    - intros [i' [r [j' [v [s [k' [c [_ [H1 [H2 [H3 [H4 [H5 [H6 H7]]]]]]]]]]]]]]. injection H7 as <- <- <-. rewrite Nat.sub_0_r in H1. exists r, v, s, c. tauto.
    - intros [r [v [s [c [H1 [H2 [H3 [H4 [H5 H6]]]]]]]]]. exists i, r, j, v, s, k, c. rewrite Nat.sub_0_r. repeat split; auto. lia.
  Qed.
  Lemma indices_ok nk comp : (forall row, In row comp -> (length row <= length nk)%nat) -> exists l, assoc_site_indices V is0 nk comp = Ok l.
  Proof.
    intros H. unfold assoc_site_indices.
    assert (M : forall A B (f : A -> result B) l, (forall x, In x l -> exists y, f x = Ok y) -> exists ys, mapM f l = Ok ys).
    { intros A B f l. induction l as [|x l IH]; intros Hf; cbn; [eauto|]. destruct (Hf x (or_introl eq_refl)) as [y ->]. cbn.
      destruct IH as [ys ->]; [intros; apply Hf; right; assumption|]. cbn. eauto. }
    match goal with |- context [mapM ?f ?e] => destruct (M _ _ f e) as [rows ->] end; [|cbn; eauto].
    intros [i row] Hin. apply in_enum in Hin. destruct Hin as [_ Hin]. apply nth_error_In in Hin.
    match goal with |- context [mapM ?f ?e] => destruct (M _ _ f e) as [b ->] end; [|cbn; eauto].
    intros [j v] Hj. cbn [fst snd] in *. destruct (is0 v); [eauto|]. apply in_enum in Hj. destruct Hj as [_ Hj]. rewrite Nat.sub_0_r in Hj.
    assert (j < length row)%nat by (apply nth_error_Some; congruence). specialize (H row Hin).
    destruct (nth_error (map (bead_sites V is0) nk) j) eqn:E; [eauto|]. apply nth_error_None in E. rewrite map_length in E. lia.
  Qed.

  (** ** the site table *)
  Definition site_of (key : string) : option string :=
    if String.prefix "Nk" key then match split_dash key with [_; s] => Some s | _ => None end else None.
  Definition bad_site_key (key : string) : bool :=
    (String.prefix "Nk" key && negb (Nat.eqb (length (split_dash key)) 2))%bool.
  (** the number of sites [s] a bead's dictionary gives *)
  Definition count_of (d : dict V) (s : string) : V :=
    fold_left (fun acc kv => match site_of (fst kv) with
                             | Some s' => if String.eqb s s' then snd kv else acc
                             | None => acc end) d zero.
  Lemma count_of_app d kv s : count_of (d ++ [kv])%list s =
    match site_of (fst kv) with Some s' => if String.eqb s s' then snd kv else count_of d s | None => count_of d s end.
  Proof. unfold count_of. rewrite fold_left_app. reflexivity. Qed.
  Definition has_site (d : dict V) (s : string) : Prop := exists kv, In kv d /\ site_of (fst kv) = Some s.
  Lemma count_of_none d s : ~ has_site d s -> count_of d s = zero.
  Proof.
    induction d as [|kv d IH] using rev_ind; intros H; [reflexivity|]. rewrite count_of_app.
    destruct (site_of (fst kv)) as [s'|] eqn:E.
    - destruct (String.eqb_spec s s') as [->|]; [exfalso; apply H; exists kv; split; [apply in_app_iff; right; left; reflexivity|exact E]|].
      apply IH. intros [kv' [H1 H2]]. apply H. exists kv'. rewrite in_app_iff. auto.
    - apply IH. intros [kv' [H1 H2]]. apply H. exists kv'. rewrite in_app_iff. auto.
  Qed.
  Lemma index_of_spec s l : In s l -> nth_error l (index_of s l) = Some s /\ forall n, (n < index_of s l)%nat -> nth_error l n <> Some s.
  Proof.
    unfold index_of.
    assert (G : forall l k, In s l -> let r := (fix go n l := match l with [] => n | x :: l' => if String.eqb s x then n else go (S n) l' end) k l in
       (k <= r)%nat /\ nth_error l (r - k) = Some s /\ forall n, (n < r - k)%nat -> nth_error l n <> Some s).
    { clear l. induction l as [|x l IH]; intros k H; [destruct H|]. cbn. destruct (String.eqb_spec s x) as [<-|Hne].
      - rewrite Nat.sub_diag. split; [lia|]. split; [reflexivity|]. intros n Hn. lia.
      - destruct H as [->|H]; [congruence|]. destruct (IH (S k) H) as [A [B C]]. cbn in A, B, C.
        set (r := (fix go n l := match l with [] => n | x :: l' => if String.eqb s x then n else go (S n) l' end) (S k) l) in *.
        split; [lia|]. replace (r - k)%nat with (S (r - S k)) by lia. split; [exact B|].
        intros [|n] Hn; cbn; [congruence|]. apply C. lia. }
    intros H. destruct (G l 0%nat H) as [_ [A B]]. rewrite Nat.sub_0_r in *. auto.
  Qed.
  Lemma set_at_map (f g : string -> V) names s v : NoDup names -> In s names ->
    (forall t, In t names -> t <> s -> g t = f t) -> g s = v -> set_at (index_of s names) v (map f names) = map g names.
  Proof.
    intros ND HI H1 H2. destruct (index_of_spec s names HI) as [A _]. revert A. generalize (index_of s names). revert HI ND H1.
    induction names as [|x names IH]; intros HI ND H1 n A; [destruct HI|]. inversion ND as [|? ? Nx ND']; subst x0 l.
    destruct n as [|n]; cbn in A |- *.
    - injection A as ->. f_equal; [congruence|]. apply map_ext_in. intros t Ht. symmetry. apply H1; [right; exact Ht|]. intros ->. contradiction.
    - assert (In s names) by (eapply nth_error_In; exact A). f_equal.
      + symmetry. apply H1; [left; reflexivity|]. intros ->. contradiction.
      + apply IH; auto. intros t Ht. apply H1. right. exact Ht.
  Qed.

  (** rows of finished dictionaries, row of the current one *)
  Definition table_inv (ds : list (dict V)) (d : dict V) (t : table V) : Prop :=
    NoDup (t_names _ t) /\ t_done _ t = map (fun d => map (count_of d) (t_names _ t)) ds /\ t_row _ t = map (count_of d) (t_names _ t) /\
    (forall s, In s (t_names _ t) <-> (exists d', In d' ds /\ has_site d' s) \/ has_site d s).
  Lemma has_site_app d kv s : has_site (d ++ [kv])%list s <-> has_site d s \/ site_of (fst kv) = Some s.
  Proof.
    unfold has_site. split.
    - intros [x [Hx E]]. apply in_app_iff in Hx. destruct Hx as [Hx|[<-|[]]]; eauto.
    - intros [[x [Hx E]]|E]; [exists x|exists kv]; rewrite in_app_iff; cbn; auto.
  Qed.
  Lemma site_item_inv ds d t kv t' : table_inv ds d t -> site_item V zero t kv = Ok t' -> table_inv ds (d ++ [kv])%list t'.
  Proof.
    intros [ND [HD [HR HN]]] H. destruct kv as [key value]. unfold site_item in H.
    assert (Hnone : site_of key = None -> t' = t -> table_inv ds (d ++ [(key, value)])%list t').
    { intros E ->. split; [exact ND|]. split; [exact HD|]. split.
      - rewrite HR. apply map_ext. intros s. rewrite count_of_app. cbn [fst snd]. rewrite E. reflexivity.
      - intros s. rewrite HN, has_site_app. cbn [fst]. rewrite E. intuition discriminate. }
    destruct (String.prefix "Nk" key) eqn:EP; [|apply Hnone; [unfold site_of; rewrite EP; reflexivity|congruence]].
    destruct (split_dash key) as [|w [|site [|]]] eqn:ES; try discriminate.
    assert (E : site_of key = Some site) by (unfold site_of; rewrite EP, ES; reflexivity).
    assert (CA : forall s, count_of (d ++ [(key, value)])%list s = if String.eqb s site then value else count_of d s)
      by (intros s; rewrite count_of_app; cbn [fst snd]; rewrite E; reflexivity).
    destruct (smem site (t_names V t)) eqn:EM; injection H as <-.
    - apply smem_In in EM. split; [exact ND|]. split; [exact HD|]. split.
      + cbn [t_row t_names]. rewrite HR. apply set_at_map; auto.
        * intros s _ Hs. rewrite CA. destruct (String.eqb_spec s site); [contradiction|reflexivity].
        * rewrite CA, String.eqb_refl. reflexivity.
      + intros s. cbn [t_names]. rewrite has_site_app. cbn [fst]. rewrite E, HN. split; [tauto|].
        intros [G|[G|G]]; auto. injection G as <-. apply HN. exact EM.
    - apply smem_nIn in EM. unfold table_inv. cbn [t_names t_done t_row]. split.
      { apply NoDup_rev in ND. rewrite <- (rev_involutive (t_names V t ++ [site])%list). apply NoDup_rev. rewrite rev_app_distr. cbn. constructor; [|exact ND].
        rewrite <- in_rev. exact EM. }
      assert (Z : forall d', (exists d'', In d'' ds /\ d' = d'') \/ d' = d -> count_of d' site = zero).
      { intros d' Hd. apply count_of_none. intros Hs. apply EM. apply HN. destruct Hd as [[d'' [I ->]]| ->]; eauto. }
      split.
      { rewrite HD, map_map. apply map_ext_in. intros d' Hd. rewrite map_app. cbn. rewrite Z by eauto. reflexivity. }
      split.
      { rewrite HR, map_app. cbn. rewrite CA, String.eqb_refl. f_equal. apply map_ext_in. intros s Hs. rewrite CA.
        destruct (String.eqb_spec s site) as [->|]; [contradiction|reflexivity]. }
      intros s. rewrite in_app_iff, HN, has_site_app. cbn. rewrite E. split.
      + intros [[G|G]|[->|[]]]; auto.
      + intros [G|[G|G]]; auto. injection G as <-. auto.
  Qed.
  Lemma site_table lib beads t : foldM (site_bead V zero lib) ([], []) beads = Ok t ->
    exists ds, mapM (dfetch lib) beads = Ok ds /\ NoDup (snd t) /\ fst t = map (fun d => map (count_of d) (snd t)) ds /\
      forall s, In s (snd t) <-> exists d, In d ds /\ has_site d s.
  Proof.
    assert (G : forall bs ds0 t0 t, NoDup (snd t0) -> fst t0 = map (fun d => map (count_of d) (snd t0)) ds0 ->
       (forall s, In s (snd t0) <-> exists d, In d ds0 /\ has_site d s) -> foldM (site_bead V zero lib) t0 bs = Ok t ->
       exists ds, mapM (dfetch lib) bs = Ok ds /\ NoDup (snd t) /\ fst t = map (fun d => map (count_of d) (snd t)) (ds0 ++ ds)%list /\
      forall s, In s (snd t) <-> exists d, In d (ds0 ++ ds)%list /\ has_site d s).
    { clear t beads. induction bs as [|b bs IH]; intros ds0 t0 t H1 H2 H3 H; cbn [foldM mapM] in H |- *.
      - injection H as <-. exists []. rewrite app_nil_r. auto.
      - unfold site_bead in H at 1. destruct (dfetch lib b) as [d|] eqn:Ed; [|discriminate]. cbn [rbind] in H |- *.
        match type of H with context [foldM (site_item V zero) ?a d] => destruct (foldM (site_item V zero) a d) as [r|] eqn:Er; [|discriminate] end.
        cbn [rbind] in H.
        assert (I : table_inv ds0 d r).
        { change d with ([] ++ d)%list. refine (foldM_prefix (fun pre acc => table_inv ds0 pre acc) _ d [] _ r _ _ Er).
          - unfold table_inv. cbn [t_names t_done t_row]. split; [exact H1|]. split; [exact H2|]. split; [reflexivity|].
            intros s. rewrite H3. split; [auto|]. intros [G|[kv [[] _]]]. exact G.
          - intros pre acc kv acc' _ Ha Hs. exact (site_item_inv ds0 pre acc kv acc' Ha Hs). }
        destruct I as [I1 [I2 [I3 I4]]].
        destruct (IH (ds0 ++ [d])%list ((t_done V r ++ [t_row V r])%list, t_names V r) t) as [ds [M [N1 [N2 N3]]]]; cbn [fst snd]; auto.
        + rewrite map_app, I2, I3. reflexivity.
        + intros s. rewrite I4. split.
          * intros [[d' [A B]]|B]; [exists d'|exists d]; rewrite in_app_iff; cbn; auto.
          * intros [d' [A B]]. apply in_app_iff in A. destruct A as [A|[<-|[]]]; eauto.
        + exists (d :: ds). rewrite M. cbn. split; [reflexivity|]. rewrite <- app_assoc in N2, N3. cbn in N2, N3. auto. }
    intros H. destruct (G beads [] ([], []) t) as [ds R]; cbn [fst snd]; auto; [constructor| |].
    - intros s. split; [intros []|intros [d [[] _]]].
    - exists ds. exact R.
  Qed.
  Lemma site_item_ok t kv : bad_site_key (fst kv) = false -> exists t', site_item V zero t kv = Ok t'.
  Proof.
    destruct kv as [key v]. unfold bad_site_key, site_item. cbn [fst]. destruct (String.prefix "Nk" key); cbn; [|eauto].
    destruct (split_dash key) as [|? [|? [|]]]; cbn; try discriminate. intros _. destruct (smem _ _); eauto.
  Qed.
  Lemma site_item_bad t kv : bad_site_key (fst kv) = true -> site_item V zero t kv = Err ValueError.
  Proof.
    destruct kv as [key v]. unfold bad_site_key, site_item. cbn [fst]. destruct (String.prefix "Nk" key); cbn; [|discriminate].
    destruct (split_dash key) as [|? [|? [|]]]; cbn; try discriminate; reflexivity.
  Qed.
End Assoc.
