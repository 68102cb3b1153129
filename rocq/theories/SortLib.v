(** Python's sorted(): a stable sort by a key.  Insertion sort computes the same list as
    any other stable sort.  Strings compare by code points, as in Python. *)
From Verif Require Import Base.
From Coq Require Import Permutation Sorted Ascii NArith.

Section Sort.
  Context {A : Type}.
  Variable key : A -> string.

  Fixpoint insert_by (x : A) (l : list A) : list A :=
    match l with
    | [] => [x]
    | y :: l' => if String.leb (key x) (key y) then x :: l else y :: insert_by x l'
    end.

  Definition sort_by (l : list A) : list A := fold_right insert_by [] l.
End Sort.

(** Python str.lower() on ASCII letters; other characters are left as they are *)
Definition lower_ascii (c : ascii) : ascii :=
  let n := nat_of_ascii c in
  if Nat.leb 65 n && Nat.leb n 90 then ascii_of_nat (n + 32) else c.
Fixpoint lower (s : string) : string :=
  match s with EmptyString => EmptyString | String c s' => String (lower_ascii c) (lower s') end.

(** ** Facts *)
Lemma ascii_compare_N a b : Ascii.compare a b = N.compare (N_of_ascii a) (N_of_ascii b).
Proof. reflexivity. Qed.

Lemma string_compare_refl s : String.compare s s = Eq.
Proof. induction s as [|c s IH]; cbn; [reflexivity|]. rewrite ascii_compare_N, N.compare_refl. exact IH. Qed.

Lemma leb_refl s : String.leb s s = true.
Proof. unfold String.leb. rewrite string_compare_refl. reflexivity. Qed.

Lemma N_of_ascii_inj a b : N_of_ascii a = N_of_ascii b -> a = b.
Proof. intros H. rewrite <- (ascii_N_embedding a), <- (ascii_N_embedding b), H. reflexivity. Qed.

Lemma leb_cons a s b t :
  String.leb (String a s) (String b t) = true <->
  (N_of_ascii a < N_of_ascii b)%N \/ (a = b /\ String.leb s t = true).
Proof.
  unfold String.leb. cbn [String.compare]. rewrite ascii_compare_N.
  destruct (N.compare_spec (N_of_ascii a) (N_of_ascii b)) as [E|L|L].
  - apply N_of_ascii_inj in E. subst b. split.
    + intros H. right. split; [reflexivity|exact H].
    + intros [H|[_ H]]; [lia|exact H].
  - split; [left; exact L|reflexivity].
  - split; [discriminate|]. intros [H|[-> _]]; lia.
Qed.

Lemma leb_trans s t u : String.leb s t = true -> String.leb t u = true -> String.leb s u = true.
Proof.
  revert t u. induction s as [|a s IH]; intros t u H1 H2.
  - destruct u; reflexivity.
  - destruct t as [|b t]; [discriminate|]. destruct u as [|c u]; [discriminate|].
    apply leb_cons in H1. apply leb_cons in H2. apply leb_cons.
    destruct H1 as [H1|[-> H1]], H2 as [H2|[-> H2]].
    + left; lia.
    + left; exact H1.
    + left; exact H2.
    + right. split; [reflexivity|]. eapply IH; eassumption.
Qed.

Lemma leb_false s t : String.leb s t = false -> String.leb t s = true.
Proof. intros H. destruct (String.leb_total s t) as [H'|H']; [congruence|exact H']. Qed.

Section SortFacts.
  Context {A : Type}.
  Variable key : A -> string.
  Definition kle (x y : A) : Prop := String.leb (key x) (key y) = true.

  Lemma insert_perm x l : Permutation (insert_by key x l) (x :: l).
  Proof.
    induction l as [|y l IH]; cbn; [reflexivity|].
    destruct (String.leb (key x) (key y)); [reflexivity|].
    rewrite IH. apply perm_swap.
  Qed.

  Lemma sort_perm l : Permutation (sort_by key l) l.
  Proof. induction l as [|x l IH]; cbn; [reflexivity|]. rewrite insert_perm, IH. reflexivity. Qed.

  Lemma insert_sorted x l : StronglySorted kle l -> StronglySorted kle (insert_by key x l).
  Proof.
    induction 1 as [|y l Hs IH Hf]; cbn; [repeat constructor|].
    destruct (String.leb (key x) (key y)) eqn:E.
    - constructor; [constructor; assumption|]. constructor; [exact E|].
      eapply Forall_impl; [|exact Hf]. intros z Hz. eapply leb_trans; [exact E|exact Hz].
    - constructor; [exact IH|].
      apply Forall_forall. intros z Hz. apply (Permutation_in _ (insert_perm x l)) in Hz.
      destruct Hz as [<-|Hz]; [apply leb_false, E|]. eapply Forall_forall in Hf; eassumption.
  Qed.

  Lemma sort_sorted l : StronglySorted kle (sort_by key l).
  Proof. induction l; cbn; [constructor|]. apply insert_sorted; assumption. Qed.

  (** sorted lists with distinct keys are determined by their elements *)
  Lemma sorted_unique l1 l2 :
    NoDup (map key l1) -> StronglySorted kle l1 -> StronglySorted kle l2 -> Permutation l1 l2 -> l1 = l2.
  Proof.
    revert l2. induction l1 as [|x l1 IH]; intros l2 Hnd H1 H2 Hp.
    - apply Permutation_nil in Hp. symmetry; exact Hp.
    - destruct l2 as [|y l2]; [apply Permutation_sym, Permutation_nil in Hp; discriminate|].
      inversion H1 as [|? ? Hs1 Hf1]; subst. inversion H2 as [|? ? Hs2 Hf2]; subst.
      inversion Hnd as [|? ? Hni Hnd']; subst.
      assert (Hxy : x = y).
      { assert (Hy : In y (x :: l1)) by (eapply Permutation_in; [symmetry; exact Hp|left; reflexivity]).
        destruct Hy as [E|Hy]; [exact E|].
        assert (Hx : In x (y :: l2)) by (eapply Permutation_in; [exact Hp|left; reflexivity]).
        destruct Hx as [E|Hx]; [symmetry; exact E|].
        assert (key x = key y).
        { apply String.leb_antisym.
          - eapply Forall_forall in Hf1; [exact Hf1|exact Hy].
          - eapply Forall_forall in Hf2; [exact Hf2|exact Hx]. }
        exfalso. apply Hni. rewrite H. apply in_map, Hy. }
      subst y. f_equal. apply IH; try assumption. eapply Permutation_cons_inv; exact Hp.
  Qed.

  Lemma sort_canonical l1 l2 :
    NoDup (map key l1) -> Permutation l1 l2 -> sort_by key l1 = sort_by key l2.
  Proof.
    intros Hnd Hp. apply sorted_unique.
    - eapply Permutation_NoDup; [apply Permutation_map; symmetry; apply sort_perm|exact Hnd].
    - apply sort_sorted.
    - apply sort_sorted.
    - rewrite !sort_perm. exact Hp.
  Qed.
End SortFacts.
