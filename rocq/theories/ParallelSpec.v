(** Vocabulary for C05 and C06. *)
From Verif Require Import Base ParallelModel.

(** the job's output does not depend on what the process did before *)
Definition stateless {I O S} (step : S -> I -> S * result (list O)) (f : I -> result (list O)) :=
  forall s x, snd (step s x) = f x.

(** a schedule in which every chunk of a job list of length n completes, on any
    worker, in any order *)
Definition complete_schedule (cs n : nat) (sched : list (nat * nat)) :=
  0 < cs /\ forall i, i * cs < n -> In i (map snd sched).

(** [c] is the column view of the results of [f] over [inputs]: column j holds, job by
    job, the j-th output *)
Definition columns_of {I O} (f : I -> result (list O)) (inputs : list I) (k : nat) (c : list (list O)) :=
  length c = k /\
  (forall j col, nth_error c j = Some col -> length col = length inputs) /\
  forall i j x row o, nth_error inputs i = Some x -> f x = Ok row -> nth_error row j = Some o ->
    exists col, nth_error c j = Some col /\ nth_error col i = Some o.

(** lines worker [p] emitted in a history, in order *)
Fixpoint emitted {L} (p : nat) (ops : list (logop L)) : list L :=
  match ops with
  | [] => []
  | WorkerLog q l :: ops' => if Nat.eqb p q then l :: emitted p ops' else emitted p ops'
  | _ :: ops' => emitted p ops'
  end.

(** lines of worker [p] in the main log, in order *)
Fixpoint logged {L} (p : nat) (m : list (nat * L)) : list L :=
  match m with
  | [] => []
  | (q, l) :: m' => if Nat.eqb p q then l :: logged p m' else logged p m'
  end.

(** a worker or job event, not the end of the pool *)
Definition running {L} (o : logop L) : Prop := match o with EndPool => False | _ => True end.
