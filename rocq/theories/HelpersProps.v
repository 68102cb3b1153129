(** C126, C127, C128: jobs in batches, files of two columns, plot data. *)
From Coq Require Import Ascii QArith Sorted.
From Verif Require Import Base BaseFacts Num NumFacts ParallelModel ParallelSpec ParallelProps HelpersModel.
Open Scope nat_scope.
Open Scope list_scope.

(** ** C126 *)
(** the last file handler of the list, if every file handler has a formatter *)
Definition formatted (hs : list handler) : Prop := forall level, ~ In (File level None) hs.
Definition last_file (hs : list handler) (level : nat) (fmt : string) : Prop :=
  exists before after, hs = before ++ File level (Some fmt) :: after /\ forall h, In h after -> h = Stream.
Definition no_file (hs : list handler) : Prop := forall h, In h hs -> h = Stream.

Lemma scan_from hs : formatted hs -> forall acc,
  exists r, foldM (fun acc h => match h with Stream => Ok acc | File level (Some fmt) => Ok (Some (level, fmt)) | File _ None => Err AttributeError end) acc hs = Ok r /\
    ((no_file hs /\ r = acc) \/ exists level fmt, last_file hs level fmt /\ r = Some (level, fmt)).
Proof.
  induction hs as [|h hs IH]; intros F acc.
  - exists acc. split; [reflexivity|]. left. split; [intros h []|reflexivity].
  - assert (F' : formatted hs) by (intros l H; apply (F l); right; exact H).
    destruct h as [|level [fmt|]].
    + cbn [foldM rbind]. destruct (IH F' acc) as (r & E & [[N ->]|(l & f & (b & a & -> & Q) & ->)]).
      * exists acc. split; [exact E|]. left. split; [intros h [<-|H]; auto|reflexivity].
      * exists (Some (l, f)). split; [exact E|]. right. exists l, f. split; [exists (Stream :: b), a; auto|reflexivity].
    + cbn [foldM rbind]. destruct (IH F' (Some (level, fmt))) as (r & E & [[N ->]|(l & f & (b & a & -> & Q) & ->)]).
      * exists (Some (level, fmt)). split; [exact E|]. right. exists level, fmt. split; [exists [], hs; auto|reflexivity].
      * exists (Some (l, f)). split; [exact E|]. right. exists l, f. split; [exists (File level (Some fmt) :: b), a; auto|reflexivity].
    + exfalso. apply (F level). left. reflexivity.
Qed.
Lemma last_file_unique hs l f l' f' : last_file hs l f -> last_file hs l' f' -> l = l' /\ f = f'.
Proof.
  intros (b & a & E & Q) (b' & a' & E' & Q'). rewrite E in E'. clear E. revert b' E'. induction b as [|h b IH]; intros [|h' b'] E'; cbn in E'.
  - injection E' as -> -> _. auto.
  - injection E' as <- ->. specialize (Q (File l' (Some f')) ltac:(apply in_or_app; right; left; reflexivity)). discriminate.
  - injection E' as -> <-. specialize (Q' (File l (Some f)) ltac:(apply in_or_app; right; left; reflexivity)). discriminate.
  - injection E' as _ E'. exact (IH b' E').
Qed.
Lemma scan_file hs l f : formatted hs -> last_file hs l f -> scan hs = Ok (Some (l, f)).
Proof.
  intros F L. unfold scan. destruct (scan_from hs F None) as (r & E & [[N ->]|(l' & f' & L' & ->)]).
  - destruct L as (b & a & -> & _). specialize (N (File l (Some f)) ltac:(apply in_or_app; right; left; reflexivity)). discriminate.
  - rewrite E. destruct (last_file_unique _ _ _ _ _ L L') as [-> ->]. reflexivity.
Qed.

(** Whatever the workers and the order in which they finish, the results are those of the serial loop, the handlers of the root
    logger are what they were, and each worker log is handed to the logger and removed. *)
Theorem C126_batch : forall {I O S} (step : S -> I -> S * result (list O)) f s0 s1 cs inputs sched k w ncores logs level fmt,
  stateless step f -> complete_schedule cs (length inputs) sched ->
  (forall x row, In x inputs -> f x = Ok row -> length row = k) -> (forall x, In x inputs -> exists row, f x = Ok row) ->
  formatted (w_root w) -> last_file (w_root w) level fmt -> (1 <= ncores)%Z ->
  exists w' c, batch_jobs step w ncores s0 cs inputs sched logs = (w', Ok (Cols c)) /\
    serial_job step s1 inputs = Ok (Cols c) /\ (inputs <> [] -> columns_of f inputs k c) /\
    w_root w' = w_root w /\ w_files w' = [] /\ w_main w' = w_main w ++ map snd (logs level fmt).
Proof.
  intros I O S step f s0 s1 cs inputs sched k w ncores logs level fmt H1 H2 H3 H4 F L N.
  destruct (C05_pool_equals_serial step f s0 s1 cs inputs sched k H1 H2 H3 H4) as (c & P & Q & C).
  eexists. exists c. unfold batch_jobs. rewrite (scan_file _ _ _ F L), P. destruct (Z.ltb_spec ncores 1); [lia|].
  split; [reflexivity|]. cbn. auto 6.
Qed.
Print Assumptions C126_batch.

(** Without a handler that writes to a file no batch is run at all. *)
Theorem C126_file_handler_needed_refuted : forall {I O S} (step : S -> I -> S * result (list O)) s0 cs inputs sched w ncores logs,
  no_file (w_root w) -> snd (batch_jobs step w ncores s0 cs inputs sched logs) = Err UnboundLocalError.
Proof.
  intros I O S step s0 cs inputs sched w ncores logs N. assert (F : formatted (w_root w)) by (intros l H; specialize (N _ H); discriminate).
  unfold batch_jobs, scan. destruct (scan_from _ F None) as (r & E & [[_ ->]|(l & f & (b & a & Q & _) & _)]).
  - rewrite E. reflexivity.
  - rewrite Q in N. specialize (N (File l (Some f)) ltac:(apply in_or_app; right; left; reflexivity)). discriminate.
Qed.
Print Assumptions C126_file_handler_needed_refuted.
(** Whenever a batch raises, the root logger has lost all its handlers, and the worker logs were handed to no one. *)
Theorem C126_handlers_lost_refuted : forall {I O S} (step : S -> I -> S * result (list O)) s0 cs inputs sched w ncores logs w' e,
  formatted (w_root w) -> batch_jobs step w ncores s0 cs inputs sched logs = (w', Err e) -> w_root w' = [] /\ w_main w' = w_main w.
Proof.
  intros I O S step s0 cs inputs sched w ncores logs w' e F. unfold batch_jobs, scan.
  destruct (scan_from _ F None) as (r & E & _). rewrite E. destruct r as [[l f]|]; [|intros H; injection H as <- <-; auto].
  destruct (Z.ltb ncores 1); [intros H; injection H as <- <-; auto|].
  destruct (pool_job step s0 cs inputs sched) as [t|e']; intros H; [discriminate|injection H as <- <-; auto].
Qed.
Print Assumptions C126_handlers_lost_refuted.

Definition console_and_file : world := World [Stream; File 20 (Some "%(message)s"%string)] [] [].
Example C126_case : batch_jobs pair_job console_and_file 2 (fun _ => tt) 2 [3; 4; 5] [(1, 1); (0, 0)] (fun _ _ => [("mp-handler-7.log", "done")])%string
  = (World (w_root console_and_file) [] ["done"%string], Ok (Cols [[3; 4; 5]; [9; 16; 25]])).
Proof. reflexivity. Qed.
Definition failing (_ : unit) (x : nat) : unit * result (list nat) := (tt, Err ValueError).
Example C126_lost_case : fst (batch_jobs failing console_and_file 2 (fun _ => tt) 2 [3] [(0, 0)] (fun _ _ => [("mp-handler-7.log", "bad")])%string)
  = World [] [("mp-handler-7.log", "bad")]%string [].
Proof. reflexivity. Qed.

(** ** C127 *)
Definition digit (c : ascii) : bool := existsb (Ascii.eqb c) ["0"; "1"; "2"; "3"; "4"; "5"; "6"; "7"; "8"; "9"]%char.
Lemma digit_is c : is_digit c = digit c.
Proof. destruct c as [[|] [|] [|] [|] [|] [|] [|] [|]]; reflexivity. Qed.
Section C127.
  Context {V : Type} (eval to_float : string -> option V) (delimiter : ascii).
  Fixpoint free (s : string) : Prop := match s with EmptyString => True | String c s' => c <> delimiter /\ free s' end.
  (** a line of two fields *)
  Definition fields (line k t : string) : Prop := line = (k ++ String delimiter t)%string /\ free k /\ free t.
  (** what the second field stands for *)
  Definition means (line t : string) (i : item V) : Prop :=
    match eval t with
    | Some v => i = Val v
    | None => exists c, String.get 1 line = Some c /\
        if digit c then exists v, to_float t = Some v /\ i = Val v else i = Text t
    end.

  Lemma split_free s : split_on delimiter s = [s] <-> free s.
  Proof.
    induction s as [|c s IH]; cbn; [tauto|]. destruct (Ascii.eqb_spec c delimiter) as [->|N].
    - split; [|tauto]. intros H. injection H as H. exfalso. destruct s; discriminate.
    - destruct (split_on delimiter s) as [|x r] eqn:E; [split; [discriminate|intros [_ F]; apply IH in F; discriminate]|].
      split; [intros H; injection H as -> ->; split; [exact N|now apply IH]|]. intros [_ F]. apply IH in F. injection F as -> ->. reflexivity.
  Qed.
  Lemma split_nonempty s : split_on delimiter s <> [].
  Proof. induction s as [|c s IH]; cbn; [discriminate|]. destruct (Ascii.eqb c delimiter); [discriminate|]. destruct (split_on delimiter s); [contradiction|discriminate]. Qed.
  Lemma split_one s x : split_on delimiter s = [x] -> x = s.
  Proof.
    revert x. induction s as [|c s IH]; intros x; cbn; [intros H; injection H as <-; reflexivity|]. destruct (Ascii.eqb c delimiter).
    - intros H. injection H as <- H. exfalso. exact (split_nonempty _ H).
    - destruct (split_on delimiter s) as [|y r] eqn:E; [discriminate|]. intros H. injection H as <- ->. f_equal. apply IH. reflexivity.
  Qed.
  Lemma split_two line k t : split_on delimiter line = [k; t] <-> fields line k t.
  Proof.
    unfold fields. revert k. induction line as [|c s IH]; intros k; cbn [split_on].
    - split; [discriminate|]. intros (H & _). destruct k; discriminate.
    - destruct (Ascii.eqb_spec c delimiter) as [->|N].
      + split.
        * intros H. injection H as <- H. pose proof (split_one _ _ H) as ->. cbn. split; [reflexivity|]. split; [exact I|now apply split_free].
        * intros (H & Fk & Ft). destruct k as [|c k]; cbn in H; injection H as H1; [subst s; f_equal; now apply split_free|]. cbn in Fk. destruct Fk as [Fk _]. congruence.
      + destruct (split_on delimiter s) as [|y r] eqn:E; [exfalso; exact (split_nonempty _ E)|]. split.
        * intros H. injection H as <- ->. destruct (proj1 (IH y) eq_refl) as (-> & A & B). cbn. auto.
        * intros (H & Fk & Ft). destruct k as [|c' k]; cbn in H; injection H as H1 H2; [congruence|]. subst c'. cbn in Fk.
          specialize (proj2 (IH k) (conj H2 (conj (proj2 Fk) Ft))) as Q. injection Q as -> ->. reflexivity.
  Qed.
  Lemma fields_unique line k t k' t' : fields line k t -> fields line k' t' -> k = k' /\ t = t'.
  Proof. intros A B. apply split_two in A, B. rewrite A in B. injection B as -> ->. auto. Qed.

  Notation read := (read_line eval to_float delimiter).
  Notation load := (file2paramdict eval to_float delimiter).
  Definition keyed (line k : string) : Prop := exists t, fields line k t.
  Lemma read_cases d line : (exists k t, fields line k t) \/ read d line = Ok d /\ forall k, ~ keyed line k.
  Proof.
    unfold read_line. destruct (split_on delimiter line) as [|k [|t [|u r]]] eqn:E.
    - right. split; [reflexivity|]. intros k [t F]. apply split_two in F. rewrite E in F. discriminate.
    - right. split; [reflexivity|]. intros k' [t F]. apply split_two in F. rewrite E in F. discriminate.
    - left. exists k, t. now apply split_two.
    - right. split; [reflexivity|]. intros k' [t' F]. apply split_two in F. rewrite E in F. discriminate.
  Qed.
  Lemma read_fields d line k t : fields line k t -> forall d', read d line = Ok d' <-> exists i, means line t i /\ d' = dset d k i.
  Proof.
    intros F d'. apply split_two in F. unfold read_line, means. rewrite F. destruct (eval t) as [v|].
    - split; [intros H; injection H as <-; eauto|intros (i & -> & ->); reflexivity].
    - destruct (String.get 1 line) as [c|]; [|split; [discriminate|intros (i & (c & H & _) & _); discriminate]].
      rewrite digit_is. destruct (digit c) eqn:D.
      + destruct (to_float t) as [v|].
        * split; [intros H; injection H as <-; exists (Val v); split; [exists c; rewrite D; eauto|reflexivity]|].
          intros (i & (c' & H & X) & ->). injection H as <-. rewrite D in X. destruct X as (v' & Q & ->). injection Q as <-. reflexivity.
        * split; [discriminate|]. intros (i & (c' & H & X) & ->). injection H as <-. rewrite D in X. destruct X as (v' & Q & _). discriminate.
      + split; [intros H; injection H as <-; exists (Text t); split; [exists c; rewrite D; auto|reflexivity]|].
        intros (i & (c' & H & X) & ->). injection H as <-. rewrite D in X. subst i. reflexivity.
  Qed.

  (** Every key has the value of the last line that names it, and no other key exists. *)
Theorem C127_entries : forall lines d, load lines = Ok d -> forall k,
    (forall i, dget d k = Some i <-> exists before line after t, lines = before ++ line :: after /\ fields line k t /\ means line t i /\ forall l, In l after -> ~ keyed l k) /\
    (dget d k = None <-> forall l, In l lines -> ~ keyed l k).
  Proof.
    unfold file2paramdict. intros lines. induction lines as [|line lines IH] using rev_ind; intros d H k.
    - injection H as <-. cbn. split; [intros i; split; [discriminate|intros (b & l & a & t & E & _); destruct b; discriminate]|tauto].
    - assert (Sp : exists d0, foldM read [] lines = Ok d0 /\ read d0 line = Ok d).
      { revert H. generalize (@nil (string * item V)). clear IH. induction lines as [|x xs IHx]; intros d1 H; cbn in H |- *.
        - exists d1. split; [reflexivity|]. destruct (read d1 line); [exact H|discriminate].
        - destruct (read d1 x) as [d2|]; [|discriminate]. cbn in H |- *. exact (IHx d2 H). }
      destruct Sp as (d0 & E0 & E1). destruct (IH d0 E0 k) as (IH1 & IH2). clear IH H.
      assert (Skip : ~ keyed line k -> dget d k = dget d0 k -> (forall i, dget d k = Some i <-> exists before l after t, (lines ++ [line]) = before ++ l :: after /\ fields l k t /\ means l t i /\ forall l', In l' after -> ~ keyed l' k) /\
        (dget d k = None <-> forall l, In l (lines ++ [line]) -> ~ keyed l k)).
      { intros NK ->. split.
        - intros i. rewrite IH1. split.
          + intros (b & l & a & t & -> & F & M & Q). exists b, l, (a ++ [line]), t. split; [rewrite <- app_assoc; reflexivity|]. split; [exact F|]. split; [exact M|].
            intros l' Hl. apply in_app_or in Hl. destruct Hl as [Hl|[<-|[]]]; auto.
          + intros (b & l & a & t & E & F & M & Q). destruct a as [|x a] using rev_ind.
            * apply app_inj_tail in E. destruct E as [_ <-]. exfalso. apply NK. exists t. exact F.
            * clear IHa. change (l :: a ++ [x]) with ((l :: a) ++ [x]) in E. rewrite app_assoc in E. apply app_inj_tail in E. destruct E as [-> ->].
              exists b, l, a, t. split; [reflexivity|]. split; [exact F|]. split; [exact M|]. intros l' Hl. apply Q. apply in_or_app. auto.
        - rewrite IH2. split; [|intros A l Hl; apply A; apply in_or_app; auto]. intros A l Hl. apply in_app_or in Hl. destruct Hl as [Hl|[<-|[]]]; auto. }
      destruct (read_cases d0 line) as [(k' & t & F)|[E NK]].
      + destruct (proj1 (read_fields d0 line k' t F d) E1) as (i & M & ->). destruct (String.eqb_spec k k') as [->|N].
        * rewrite dget_dset_same. split.
          { intros i'. split.
            - intros H. injection H as <-. exists lines, line, [], t. split; [reflexivity|]. split; [exact F|]. split; [exact M|]. intros l [].
            - intros (b & l & a & t' & E & F' & M' & Q). destruct a as [|x a] using rev_ind.
              + apply app_inj_tail in E. destruct E as [_ <-]. destruct (fields_unique _ _ _ _ _ F F') as [_ <-].
                f_equal. unfold means in M, M'. destruct (eval t); [congruence|]. destruct M as (c & C & X), M' as (c' & C' & X'). rewrite C in C'. injection C' as <-.
                destruct (digit c); [|congruence]. destruct X as (v & V1 & ->), X' as (v' & V2 & ->). congruence.
              + clear IHa. change (l :: a ++ [x]) with ((l :: a) ++ [x]) in E. rewrite app_assoc in E. apply app_inj_tail in E. destruct E as [_ <-].
                exfalso. apply (Q line); [apply in_or_app; right; left; reflexivity|]. exists t. exact F. }
          { split; [discriminate|]. intros A. exfalso. apply (A line); [apply in_or_app; right; left; reflexivity|]. exists t. exact F. }
        * apply Skip; [|apply dget_dset_other; congruence]. intros [t' F']. apply N. apply (fields_unique _ _ _ _ _ F' F).
      + rewrite E in E1. injection E1 as ->. apply Skip; [apply NK|reflexivity].
  Qed.

  (** A file is refused exactly if some line of two fields has a second field that cannot be evaluated and either is the separator
      alone, or has a digit as second character and a second field that is no number. *)
Theorem C127_refused : forall lines, (exists e, load lines = Err e) <->
    exists line k t, In line lines /\ fields line k t /\ eval t = None /\
      (String.get 1 line = None \/ exists c, String.get 1 line = Some c /\ digit c = true /\ to_float t = None).
  Proof.
    unfold file2paramdict. intros lines. generalize (@nil (string * item V)). induction lines as [|line lines IH]; intros d.
    - cbn. split; [intros [e H]; discriminate|]. intros (l & k & t & [] & _).
    - cbn [foldM]. destruct (read d line) as [d'|e] eqn:E; cbn [rbind].
      + rewrite IH. split; [intros (l & k & t & I & R); exists l, k, t; split; [right; exact I|exact R]|].
        intros (l & k & t & [<-|I] & F & R); [|exists l, k, t; auto]. exfalso.
        destruct (proj1 (read_fields d line k t F d') E) as (i & M & _). unfold means in M. destruct R as [Ev R]. rewrite Ev in M.
        destruct M as (c & C & X). destruct R as [R|(c' & C' & D & T)]; [congruence|]. rewrite C in C'. injection C' as <-. rewrite D in X. destruct X as (v & X & _). congruence.
      + split; [|intros _; exists e; reflexivity]. intros _. destruct (read_cases d line) as [(k & t & F)|[X _]]; [|congruence].
        exists line, k, t. split; [left; reflexivity|]. split; [exact F|]. pose proof F as F'. apply split_two in F'. unfold read_line in E. rewrite F' in E.
        destruct (eval t) as [v|]; [discriminate|]. split; [reflexivity|]. destruct (String.get 1 line) as [c|]; [|left; reflexivity].
        right. exists c. split; [reflexivity|]. rewrite digit_is in E. destruct (digit c); [|discriminate]. split; [reflexivity|]. destruct (to_float t); [discriminate|reflexivity].
  Qed.
End C127.
Print Assumptions C127_entries.
Print Assumptions C127_refused.

(** A text keeps the end of its line, although the code means to strip it ... *)
Definition line_end : string := String "010" EmptyString.
Lemma free_app c a b : free c a -> free c b -> free c (a ++ b).
Proof. induction a as [|x a IH]; cbn; [auto|]. intros [N F] B. auto. Qed.
Lemma get_app a b n : n < String.length a -> String.get n (a ++ b) = String.get n a.
Proof. revert n. induction a as [|x a IH]; intros n H; cbn in H; [lia|]. destruct n as [|n]; cbn; [reflexivity|]. apply IH. lia. Qed.
Theorem C127_line_end_refuted : forall (V : Type) (eval to_float : string -> option V) k t, free " " k -> free " " t -> 2 <= String.length k ->
  (forall c, String.get 1 k = Some c -> digit c = false) -> eval (t ++ line_end)%string = None ->
  file2paramdict eval to_float " " [(k ++ " " ++ t ++ line_end)%string] = Ok [(k, Text (t ++ line_end)%string)] /\ (t ++ line_end)%string <> t.
Proof.
  intros V eval to_float k t Fk Ft L D E.
  assert (F : fields " " (k ++ " " ++ t ++ line_end)%string k (t ++ line_end)%string).
  { split; [reflexivity|]. split; [exact Fk|]. apply free_app; [exact Ft|]. cbn. split; [discriminate|exact I]. }
  split.
  - unfold file2paramdict. cbn [foldM]. assert (R : read_line eval to_float " " [] (k ++ " " ++ t ++ line_end)%string = Ok [(k, Text (t ++ line_end)%string)]).
    { apply (read_fields eval to_float " " [] _ k (t ++ line_end)%string F). exists (Text (t ++ line_end)%string). split; [|reflexivity].
      unfold means. rewrite E. rewrite get_app by lia. destruct (String.get 1 k) as [c|] eqn:G.
      - exists c. split; [reflexivity|]. rewrite (D c eq_refl). reflexivity.
      - exfalso. clear - L G. destruct k as [|a [|b k]]; cbn in L; try lia. discriminate. }
    rewrite R. reflexivity.
  - intros Q. apply (f_equal String.length) in Q. clear - Q. induction t as [|c t IH]; cbn in Q; [discriminate|]. apply IH. injection Q as Q. exact Q.
Qed.
Print Assumptions C127_line_end_refuted.
(** ... and a text under a key with a digit as its second character makes the file unreadable.  [eval] and [float] know one
    number here. *)
Definition ten : string -> option nat := fun s => if String.eqb s ("10" ++ line_end)%string then Some 10 else None.
Theorem C127_key_with_digit_refuted :
  file2paramdict ten ten " " [("T0 10" ++ line_end)%string; ("name water" ++ line_end)%string] = Ok [("T0", Val 10); ("name", Text ("water" ++ line_end))]%string /\
  file2paramdict ten ten " " [("n1 water" ++ line_end)%string] = Err ValueError.
Proof. split; reflexivity. Qed.
Print Assumptions C127_key_with_digit_refuted.
Example C127_case : fields " " "T0 10"%string "T0"%string "10"%string /\
  file2paramdict ten ten " " ["a b c"%string; ("T0 10" ++ line_end)%string] = Ok [("T0"%string, Val 10)].
Proof. split; [|reflexivity]. split; [reflexivity|]. cbn. repeat split; discriminate. Qed.

(** ** C128 *)
Definition none_nan (l : list num) : Prop := ~ In NaN l.
Lemma neqb_refl a : a <> NaN -> neqb a a = true.
Proof. destruct a; cbn; intros N; try reflexivity; [apply Qeq_bool_iff; reflexivity|congruence]. Qed.
Lemma neqb_sym' a b : neqb a b = neqb b a.
Proof. destruct a, b; cbn; try reflexivity. destruct (Qeq_bool q q0) eqn:E; symmetry; [apply Qeq_bool_iff in E; apply Qeq_bool_iff; now symmetry|]. destruct (Qeq_bool q0 q) eqn:E'; [|reflexivity]. apply Qeq_bool_iff in E'. symmetry in E'. apply Qeq_bool_iff in E'. congruence. Qed.
Lemma neqb_trans a b c : neqb a b = true -> neqb b c = true -> neqb a c = true.
Proof. destruct a, b, c; cbn; try discriminate; try reflexivity. rewrite !Qeq_bool_iff. intros H K. now rewrite H. Qed.
Lemma nlt_trans' a b c : nlt a b = true -> nlt b c = true -> nlt a c = true.
Proof.
  destruct a, b, c; cbn; try discriminate; try reflexivity. rewrite !negb_true_iff, <- !not_true_iff_false, !Qle_bool_iff. intros H K L.
  apply Qnot_le_lt in H, K. exact (Qlt_irrefl _ (Qlt_le_trans _ _ _ (Qlt_trans _ _ _ H K) L)).
Qed.
Lemma not_lt_eq a b : a <> NaN -> b <> NaN -> nlt a b = false -> neqb a b = false -> nlt b a = true.
Proof.
  destruct a, b; cbn; try congruence. intros _ _ H K. apply negb_false_iff, Qle_bool_iff in H. rewrite negb_true_iff, <- not_true_iff_false, Qle_bool_iff. intros L.
  assert (q == q0)%Q by (apply Qle_antisym; assumption). apply Qeq_bool_iff in H0. congruence.
Qed.
Lemma insert_in a l x : In x (insert a l) -> x = a \/ In x l.
Proof. induction l as [|b l IH]; cbn; [intuition|]. destruct (nlt a b); [cbn; intuition|]. destruct (neqb a b); cbn; intuition. Qed.
Lemma insert_kept a l x : In x l -> In x (insert a l).
Proof. induction l as [|b l IH]; cbn; [tauto|]. destruct (nlt a b); [cbn; tauto|]. destruct (neqb a b); cbn; intuition. Qed.
Lemma insert_has a l : a <> NaN -> exists b, In b (insert a l) /\ neqb b a = true.
Proof.
  intros N. induction l as [|b l IH]; cbn; [exists a; cbn; split; [auto|now apply neqb_refl]|]. destruct (nlt a b); [exists a; cbn; split; [auto|now apply neqb_refl]|].
  destruct (neqb a b) eqn:E; [exists b; cbn; split; [auto|now rewrite neqb_sym']|]. destruct IH as (c & I & Q). exists c. cbn. auto.
Qed.
Lemma insert_sorted a l : a <> NaN -> none_nan l -> StronglySorted (fun x y => nlt x y = true) l -> StronglySorted (fun x y => nlt x y = true) (insert a l).
Proof.
  intros N NL H. induction H as [|b l H IH F]; cbn; [repeat constructor|].
  assert (Nb : b <> NaN) by (intros ->; apply NL; left; reflexivity). assert (NL' : none_nan l) by (intros X; apply NL; right; exact X).
  destruct (nlt a b) eqn:L.
  - constructor; [constructor; assumption|]. constructor; [exact L|]. rewrite Forall_forall in *. intros x Hx. apply (nlt_trans' a b x L). auto.
  - destruct (neqb a b) eqn:E; [constructor; assumption|]. constructor; [auto|]. rewrite Forall_forall in *. intros x Hx. apply insert_in in Hx. destruct Hx as [->|Hx]; [now apply not_lt_eq|auto].
Qed.
Lemma sort_set_spec l : none_nan l -> StronglySorted (fun x y => nlt x y = true) (sort_set l) /\ (forall x, In x (sort_set l) -> In x l) /\
  forall x, In x l -> exists b, In b (sort_set l) /\ neqb b x = true.
Proof.
  unfold sort_set. induction l as [|a l IH]; intros N; cbn [fold_right].
  - split; [constructor|]. split; [tauto|]. intros x [].
  - assert (Na : a <> NaN) by (intros ->; apply N; left; reflexivity). assert (Nl : none_nan l) by (intros X; apply N; right; exact X).
    destruct (IH Nl) as (S & I & K). split; [|split].
    + apply insert_sorted; [exact Na| |exact S]. intros X. apply Nl. auto.
    + intros x Hx. apply insert_in in Hx. destruct Hx as [->|Hx]; [left; reflexivity|right; auto].
    + intros x [<-|Hx]; [now apply insert_has|]. destruct (K x Hx) as (b & B & Q). exists b. split; [now apply insert_kept|exact Q].
Qed.
Lemma first_at_spec a xs n : forall r, first_at a xs n = Some r -> exists before b after, xs = before ++ b :: after /\ neqb b a = true /\ r = n + length before /\ forall c, In c before -> neqb c a = false.
Proof.
  revert n. induction xs as [|x xs IH]; intros n r; cbn; [discriminate|]. destruct (neqb x a) eqn:E.
  - intros H. injection H as <-. exists [], x, xs. cbn. split; [reflexivity|]. split; [exact E|]. split; [lia|]. intros c [].
  - intros H. destruct (IH _ _ H) as (bf & b & af & -> & Q & -> & F). exists (x :: bf), b, af. cbn. split; [reflexivity|]. split; [exact Q|]. split; [lia|]. intros c [<-|C]; auto.
Qed.
Lemma first_at_some a xs n x : In x xs -> neqb x a = true -> exists r, first_at a xs n = Some r.
Proof. revert n. induction xs as [|y xs IH]; intros n; cbn; [tauto|]. intros [->|H] Q; [rewrite Q; eauto|]. destruct (neqb y a); [eauto|]. apply IH; assumption. Qed.

(** The cleaned abscissas are the given ones, each once and in rising order; each comes with the ordinate of its first
    occurrence. *)
Theorem C128_clean : forall (Y : Type) (x : list num) (y : list Y), none_nan x -> length y = length x ->
  exists xs ys, clean_plot_data x y = Ok (xs, ys) /\ StronglySorted (fun a b => nlt a b = true) xs /\
    (forall a, In a xs -> In a x) /\ (forall a, In a x -> exists b, In b xs /\ neqb b a = true) /\
    Forall2 (fun a v => exists before b after, x = before ++ b :: after /\ neqb b a = true /\ (forall c, In c before -> neqb c a = false) /\ nth_error y (length before) = Some v) xs ys.
Proof.
  intros Y x y N L. destruct (sort_set_spec x N) as (S & I & K). unfold clean_plot_data.
  set (look := fun a => match first_at a x 0 with None => Err IndexError | Some n => match nth_error y n with Some v => Ok v | None => Err IndexError end end).
  assert (A : forall l, (forall a, In a l -> In a x) -> exists ys, mapM look l = Ok ys /\
    Forall2 (fun a v => exists before b after, x = before ++ b :: after /\ neqb b a = true /\ (forall c, In c before -> neqb c a = false) /\ nth_error y (length before) = Some v) l ys).
  { induction l as [|a l IH]; intros H; [exists []; split; [reflexivity|constructor]|]. destruct IH as (ys & E & F); [intros b B; apply H; right; exact B|].
    assert (Ia : In a x) by (apply H; left; reflexivity). assert (Na : a <> NaN) by (intros ->; contradiction).
    destruct (first_at_some a x 0 a Ia (neqb_refl a Na)) as (r & R). destruct (first_at_spec _ _ _ _ R) as (bf & b & af & Ex & Q & Er & Fb). cbn in Er. subst r.
    destruct (nth_error y (length bf)) as [v|] eqn:V; [|exfalso; apply nth_error_None in V; rewrite L, Ex, app_length in V; cbn in V; lia].
    exists (v :: ys). cbn [mapM]. unfold look at 1. rewrite R, V. cbn [rbind]. rewrite E. cbn. split; [reflexivity|]. constructor; [|exact F]. exists bf, b, af. auto. }
  destruct (A (sort_set x) I) as (ys & E & F). exists (sort_set x), ys. rewrite E. cbn. auto 6.
Qed.
Print Assumptions C128_clean.
(** A NaN among the abscissas raises. *)
Theorem C128_nan : forall (Y : Type) (x : list num) (y : list Y), In NaN x -> exists e, clean_plot_data x y = Err e.
Proof.
  intros Y x y H. unfold clean_plot_data.
  assert (S : In NaN (sort_set x)).
  { unfold sort_set. induction x as [|a x IH]; [destruct H|]. cbn. destruct H as [->|H]; [|now apply insert_kept, IH].
    clear IH. induction (fold_right insert [] x) as [|b l IHl]; cbn; [auto|]. right. exact IHl. }
  assert (F : first_at NaN x 0 = None).
  { generalize 0. induction x as [|a x IHx]; intros n; cbn; [reflexivity|]. destruct (neqb a NaN) eqn:E; [destruct a; discriminate|]. revert n.
    clear. induction x as [|b x IH]; intros n; cbn; [reflexivity|]. destruct (neqb b NaN) eqn:E; [destruct b; discriminate|apply IH]. }
  set (look := fun a => match first_at a x 0 with None => Err IndexError | Some n => match nth_error y n with Some v => Ok v | None => Err IndexError end end).
  assert (A : forall l, In NaN l -> exists e, mapM look l = Err e).
  { induction l as [|a l IH]; [intros []|]. intros [->|I]; cbn [mapM].
    - unfold look at 1. rewrite F. cbn. eauto.
    - destruct (look a); cbn; [|eauto]. destruct (IH I) as (e & ->). cbn. eauto. }
  destruct (A _ S) as (e & E). exists e. rewrite E. reflexivity.
Qed.
Print Assumptions C128_nan.
Example C128_case : clean_plot_data [Fin 2; Fin 1; Fin (4 # 2); PInf] [10; 20; 30; 40] = Ok ([Fin 1; Fin (4 # 2); PInf], [20; 10; 40]).
Proof. reflexivity. Qed.
