(** C05, C06: the worker pool of despasito.utils.parallelization. *)
From Verif Require Import Base ParallelModel ParallelSpec ParallelProofs.

(** C05: for every input list, chunk size and completion schedule, jobs whose result does
    not depend on process state give the same table with a pool as with one core, and
    entry (j, i) of the table is output j of job i. *)
Theorem C05_pool_equals_serial {I O S} (step : S -> I -> S * result (list O)) f s0 s1 cs inputs sched k :
  stateless step f -> complete_schedule cs (length inputs) sched ->
  (forall x row, In x inputs -> f x = Ok row -> length row = k) ->
  (forall x, In x inputs -> exists row, f x = Ok row) ->
  exists c, pool_job step s0 cs inputs sched = Ok (Cols c) /\
            serial_job step s1 inputs = Ok (Cols c) /\
            (inputs <> [] -> columns_of f inputs k c).
Proof. exact (pool_equals_serial step f s0 s1 cs inputs sched k). Qed.

(** C05: the pool raises exactly when the serial run raises. *)
Theorem C05_pool_raises_iff_serial {I O S} (step : S -> I -> S * result (list O)) f s0 s1 cs inputs sched :
  stateless step f -> complete_schedule cs (length inputs) sched ->
  ((exists e, pool_job step s0 cs inputs sched = Err e) <->
   (exists e, serial_job step s1 inputs = Err e)).
Proof. exact (pool_raises_iff step f s0 s1 cs inputs sched). Qed.

(** C05: core counts *)
Theorem C05_core_count cpu n :
  match init_cores cpu n with
  | Ok (mp, m) => (n = -1 /\ mp = true /\ m = Z.of_nat cpu)%Z \/ (1 < n /\ mp = true /\ m = n)%Z \/ (n = 1 /\ mp = false /\ m = 1)%Z
  | Err e => e = ValueError /\ (n < 1 /\ n <> -1)%Z
  end.
Proof. exact (init_cores_spec cpu n). Qed.

(** C05 without the state hypothesis is false: a job that warm-starts from a value the
    previous job left in its process (as the bubble- and dew-point objectives do) gives a
    table that depends on the schedule. *)
Definition warm (s x : nat) : nat * result (list nat) := (x, Ok [s + x]).
Theorem C05_stateful_job_refuted :
  exists sched, complete_schedule 1 2 sched /\
    serial_job warm 0 [1; 2] = Ok (Cols [[1; 3]]) /\
    pool_job warm (fun _ => 0) 1 [1; 2] sched = Ok (Cols [[1; 2]]).
Proof.
  exists [(1, 1); (0, 0)]. split; [|split; reflexivity]. split; [lia|].
  intros i Hi. assert (i = 0 \/ i = 1) as [->| ->] by lia; cbn; tauto.
Qed.

(** Non-vacuity: two workers, chunks of two, completing in reverse order. *)
Definition pair_job (_ : unit) (x : nat) : unit * result (list nat) := (tt, Ok [x; x * x]).
Example C05_case :
  stateless pair_job (fun x => Ok [x; x * x]) /\
  complete_schedule 2 3 [(1, 1); (0, 0)] /\
  pool_job pair_job (fun _ => tt) 2 [3; 4; 5] [(1, 1); (0, 0)] = Ok (Cols [[3; 4; 5]; [9; 16; 25]]) /\
  serial_job pair_job tt [3; 4; 5] = Ok (Cols [[3; 4; 5]; [9; 16; 25]]).
Proof.
  split; [intros s x; reflexivity|]. split; [|split; reflexivity]. split; [lia|].
  intros i Hi. assert (i = 0 \/ i = 1) as [->| ->] by lia; cbn; tauto.
Qed.

(** C06, proved part: if every job list of the pool ends with Pool.map returning at least
    once after the last line, the main log holds every line of every pool worker, once and
    in order, and no worker log file is left. Earlier jobs may have raised. *)
Theorem C06_logs_consolidated_partial {L} pids (main0 : list (nat * L)) ops p :
  In p pids -> (forall o, In o ops -> running o) ->
  let s := logrun pids (log_init pids main0) (ops ++ [JobDone; EndPool]) in
  logged p (mainlog s) = logged p main0 ++ emitted p ops /\ fget (files s) p = None.
Proof. exact (logs_complete pids main0 ops p). Qed.

(** C06 at every moment before the end of the pool: main log followed by the worker's own
    file is what the worker emitted, so no line is lost or doubled while the pool lives. *)
Theorem C06_no_line_lost_while_running {L} pids (main0 : list (nat * L)) ops p :
  (forall o, In o ops -> running o) ->
  let s := logrun pids (log_init pids main0) ops in
  logged p (mainlog s) ++ content (files s) p = logged p main0 ++ emitted p ops.
Proof. intros H. exact (logrun_inv pids main0 ops H p). Qed.

(** C06 is false when the job raises: the consolidation is skipped and end_pool deletes
    the worker's file, so the line that explains the failure is lost. *)
Theorem C06_logs_lost_on_error_refuted :
  let s := logrun [7] (log_init [7] []) [WorkerLog 7 "boom"%string; JobRaised; EndPool] in
  emitted 7 [WorkerLog 7 "boom"%string; JobRaised; EndPool] = ["boom"%string] /\ mainlog s = [] /\ files s = [].
Proof. exact logs_lost_on_error. Qed.

Example C06_case :
  let s := logrun [1; 2] (log_init [1; 2] [(0, "start"%string)])
      ([WorkerLog 2 "a"; WorkerLog 1 "b"; JobRaised; WorkerLog 2 "c"]%string ++ [JobDone; EndPool]) in
  mainlog s = [(0, "start"); (1, "b"); (2, "a"); (2, "c")]%string /\ files s = [].
Proof. split; reflexivity. Qed.

Print Assumptions C05_pool_equals_serial.
Print Assumptions C05_pool_raises_iff_serial.
Print Assumptions C06_logs_consolidated_partial.
Print Assumptions C06_no_line_lost_while_running.
