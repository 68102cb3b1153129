(** C122: starting compositions of the inner loops of bubble and dew points that cannot be used are
    replaced by the search over compositions. *)
From Coq Require Import QArith Lqa Lia.
From Verif Require Import Base BaseFacts Num NumFacts PhaseEqModel InnerModel.
Open Scope Q_scope.

Lemma ndiv_fin_q a b : ~ b == 0 -> ndiv (Fin a) (Fin b) = Fin (a / b).
Proof. intros H. cbn. destruct (Qeq_bool b 0) eqn:E; [apply Qeq_bool_iff in E; contradiction|reflexivity]. Qed.

Section Guess.
  Variable coeff : list num -> result (list num * nat).
  Variable vapor : bool.
  Variables (known phi : list num).
  Variable akima : list (num * num) -> result (list (num * num)).
  Variable rand : nat -> list num.
  Variable lsq : num -> result num.
  Variables (lo hi : num) (npoints : nat) (tol tol_trivial : num).

  (** A binary composition without a zero fraction. *)
  Definition proper (c : list num) : Prop :=
    exists a b, c = [Fin a; Fin b] /\ ~ a == 0 /\ ~ b == 0.

  (** The phase found at [c] is not the one sought: no coefficients; for a vapor a liquid (flag 1); for
      a liquid a vapor or an ideal gas (flags 0 and 4). *)
  Definition other_phase (c : list num) : Prop :=
    exists p f, coeff c = Ok (p, f) /\
      (In NaN p \/ (vapor = true /\ f = 1%nat) \/ (vapor = false /\ (f = 0%nat \/ f = 4%nat))).

  (** [c] is as good as the composition of the known phase: the relative differences add up to less than
      the tolerance. *)
  Definition trivial_composition (c : list num) : Prop :=
    exists p f x0 x1 c0 c1 d, coeff c = Ok (p, f) /\ known = [Fin x0; Fin x1] /\ c = [Fin c0; Fin c1] /\
      0 < x0 /\ 0 < x1 /\ tol_trivial = Fin d /\ Qabs (x0 - c0) / x0 + Qabs (x1 - c1) / x1 < d.

  (** The guess is normalised when the loop is entered and again in each iteration. *)
  Definition poor (g : list num) : Prop :=
    let c := normalise (normalise g) in proper c /\ (other_phase c \/ trivial_composition c).

  Let test := test_composition coeff vapor known phi akima rand lo hi npoints tol_trivial.
  Let find := find_new coeff vapor known phi akima lo hi npoints.

  Definition after_search : result tested :=
    let* c' := find in
    if any_nan c' then Ok (Leave 3)
    else let* p' := coeff c' in
         let* new := trial vapor known phi (fst p') in Ok (Tested c' (fst p') (snd p') new false false).

  Lemma proper_two c : proper c -> all_nonzero c && two c = true.
  Proof.
    intros (a & b & -> & Ha & Hb). cbn.
    destruct (Qeq_bool a 0) eqn:E; [apply Qeq_bool_iff in E; contradiction|].
    destruct (Qeq_bool b 0) eqn:E2; [apply Qeq_bool_iff in E2; contradiction|]. reflexivity.
  Qed.

  Lemma other_phase_flags c : other_phase c -> exists p f, coeff c = Ok (p, f) /\ any_nan p || wrong_phase vapor f = true.
  Proof.
    intros (p & f & E & H). exists p, f. split; [exact E|]. apply orb_true_iff.
    destruct H as [H|[[Hv Hf]|[Hv Hf]]].
    - left. apply existsb_exists. exists NaN. auto.
    - right. unfold wrong_phase. rewrite Hv, Hf. reflexivity.
    - right. unfold wrong_phase. rewrite Hv. destruct Hf as [-> | ->]; reflexivity.
  Qed.

  Lemma trivial_change c : trivial_composition c -> exists p f d,
    coeff c = Ok (p, f) /\ known_sum_change known c = Ok d /\ nlt d tol_trivial = true.
  Proof.
    intros (p & f & x0 & x1 & c0 & c1 & d & E & Hk & -> & H0 & H1 & Ht & H).
    exists p, f, (Fin (Qabs (x0 + - c0) / x0 + (Qabs (x1 + - c1) / x1 + 0))).
    split; [exact E|]. split.
    - unfold known_sum_change. rewrite Hk. unfold zipv, nsub.
      cbn [rbind length Nat.eqb combine map fst snd nneg nadd nabs].
      rewrite !ndiv_fin_q by lra. reflexivity.
    - rewrite Ht. apply nlt_fin. unfold Qminus in H. lra.
  Qed.

  Lemma poor_test g : poor g -> test 0 (normalise g) true true = after_search.
  Proof.
    intros (Hp & H). unfold test, test_composition, after_search. fold find.
    pose proof (proper_two _ Hp) as Tw.
    assert (G : exists p f, coeff (normalise (normalise g)) = Ok (p, f) /\
      (any_nan p || wrong_phase vapor f = true \/
       exists d, known_sum_change known (normalise (normalise g)) = Ok d /\ nlt d tol_trivial = true)).
    { destruct H as [H|H].
      - destruct (other_phase_flags _ H) as (p & f & E & W). exists p, f. auto.
      - destruct (trivial_change _ H) as (p & f & d & E & K & L). exists p, f. split; [exact E|]. right. exists d. auto. }
    destruct G as (p & f & E & G). rewrite E. cbn [rbind fst snd]. rewrite Tw.
    destruct (any_nan p || wrong_phase vapor f) eqn:W; cbn [andb]; [reflexivity|].
    destruct G as [G|(d & K & L)]; [discriminate|]. rewrite K. cbn [rbind]. rewrite L. reflexivity.
  Qed.

  Let vapor_search := calc_vapor_composition coeff vapor known phi akima rand lsq lo hi npoints tol tol_trivial.
  Let liquid_search := calc_liquid_composition coeff vapor known phi akima rand lsq lo hi npoints tol tol_trivial.

(** C122: a poor guess does not matter: another poor guess with the same total gives the same result. *)
Theorem C122_guess_replaced : forall n g1 g2, poor g1 -> poor g2 ->
  (nsum g1 = nsum g2 -> vapor_search n g1 = vapor_search n g2) /\
  (nsum (normalise g1) = nsum (normalise g2) -> liquid_search n g1 = liquid_search n g2).
Proof.
  intros n g1 g2 H1 H2. apply poor_test in H1, H2. unfold test in H1, H2. split; intros Hs.
  - unfold vapor_search, calc_vapor_composition. destruct (any_nan phi); [reflexivity|].
    destruct n as [|n]; [reflexivity|]. cbn [vapor_loop]. rewrite H1, H2, Hs. reflexivity.
  - unfold liquid_search, calc_liquid_composition. destruct (any_nan phi); [reflexivity|].
    destruct n as [|n]; [reflexivity|]. cbn [liquid_loop]. rewrite H1, H2, Hs. reflexivity.
Qed.

(** C122: the search is made: when it fails, so does the loop, with the same exception; when it finds
    nothing, the loop fails. *)
Theorem C122_search_made : forall n g, poor g -> ~ In NaN phi -> (0 < n)%nat ->
  (forall e, find = Err e -> vapor_search n g = Err e /\ liquid_search n g = Err e) /\
  (forall c, find = Ok c -> In NaN c -> vapor_search n g = Err ValueError /\ liquid_search n g = Err ValueError).
Proof.
  intros n g H Hphi Hn. apply poor_test in H. unfold test in H.
  assert (Np : any_nan phi = false).
  { apply not_true_is_false. intros C. apply existsb_exists in C. destruct C as (x & Hx & Hy).
    destruct x; try discriminate. contradiction. }
  destruct n as [|n]; [lia|].
  unfold vapor_search, calc_vapor_composition, liquid_search, calc_liquid_composition. rewrite Np.
  cbn [vapor_loop liquid_loop]. rewrite H. unfold after_search. split.
  - intros e E. rewrite E. split; reflexivity.
  - intros c E Hc. rewrite E. cbn [rbind].
    assert (Nc : any_nan c = true) by (apply existsb_exists; exists NaN; auto). rewrite Nc. cbn [rbind]. split; reflexivity.
Qed.
End Guess.
Print Assumptions C122_guess_replaced.
Print Assumptions C122_search_made.

(** A binary guess that gives a liquid where a vapor is sought. *)
Example C122_poor : poor (fun _ => Ok ([Fin 1; Fin 1], 1%nat)) true [Fin (1#2); Fin (1#2)] (Fin (1#100)) [Fin 1; Fin 3].
Proof.
  split.
  - eexists _, _. split; [reflexivity|]. split; discriminate.
  - left. eexists _, _. split; [reflexivity|]. right; left. split; reflexivity.
Qed.
(** A guess that is the known composition. *)
Example C122_trivial : poor (fun _ => Ok ([Fin 1; Fin 1], 0%nat)) true [Fin (1#2); Fin (1#2)] (Fin (1#100)) [Fin 1; Fin 1].
Proof.
  split.
  - eexists _, _. split; [reflexivity|]. split; discriminate.
  - right. do 7 eexists. split; [reflexivity|]. split; [reflexivity|]. split; [reflexivity|]. split; [reflexivity|].
    split; [reflexivity|]. split; [reflexivity|]. reflexivity.
Qed.
