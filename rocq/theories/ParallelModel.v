(** Model of /repo/despasito/utils/parallelization.py *)
From Verif Require Import Base.

Section Pool.
  Context {I O S : Type}.
  (** One job.  [S] is the process-local mutable state a job can read and change
      (module globals, cached EOS attributes); the output is a tuple or a raised
      exception. *)
  Variable step : S -> I -> S * result (list O).

  (** parallelization.py:37-48, the number of workers; [cpu] is cpu_count().
      The flag says whether multiprocessing is used. *)
  Definition init_cores (cpu : nat) (ncores : Z) : result (bool * Z) :=
    if Z.eqb ncores (-1) then Ok (true, Z.of_nat cpu)
    else if Z.ltb 1 ncores then Ok (true, ncores)
    else if Z.eqb ncores 1 then Ok (false, ncores)
    else Err ValueError.

  (** parallelization.py:160-164: the serial loop, all jobs in one process *)
  Fixpoint run_list (s : S) (l : list I) : S * result (list (list O)) :=
    match l with
    | [] => (s, Ok [])
    | x :: xs =>
        match step s x with
        | (s1, Err e) => (s1, Err e)
        | (s1, Ok o) =>
            match run_list s1 xs with
            | (s2, Err e) => (s2, Err e)
            | (s2, Ok os) => (s2, Ok (o :: os))
            end
        end
    end.

  (** A table of results: numpy.transpose of a rectangular array gives columns; an
      array of rows of different width is one-dimensional and stays as it is. *)
  Inductive table := Cols (c : list (list O)) | Rows (r : list (list O)).

  Fixpoint heads (rows : list (list O)) : option (list O * list (list O)) :=
    match rows with
    | [] => Some ([], [])
    | [] :: _ => None
    | (x :: r) :: rows' =>
        match heads rows' with
        | Some (h, t) => Some (x :: h, r :: t)
        | None => None
        end
    end.

  (** builtin zip over the rows, at most [n] columns *)
  Fixpoint zipn (n : nat) (rows : list (list O)) : list (list O) :=
    match n with
    | 0 => []
    | Datatypes.S n' =>
        match heads rows with
        | Some (h, t) => h :: zipn n' t
        | None => []
        end
    end.

  (** parallelization.py:133: zip of the unpacked rows *)
  Definition zip_star (rows : list (list O)) : list (list O) :=
    match rows with [] => [] | r :: _ => zipn (length r) rows end.

  (** parallelization.py:164-166 *)
  Definition np_transpose (rows : list (list O)) : table :=
    match rows with
    | [] => Cols []
    | r :: _ =>
        if forallb (fun r' => Nat.eqb (length r') (length r)) rows
        then Cols (zipn (length r) rows) else Rows rows
    end.

  (** parallelization.py:141-166 *)
  Definition serial_job (s0 : S) (inputs : list I) : result table :=
    match snd (run_list s0 inputs) with
    | Ok rows => Ok (np_transpose rows)
    | Err e => Err e
    end.

  (** multiprocessing.Pool.map (Python standard library): the inputs are cut into
      chunks of [cs]; a worker takes a chunk, runs its jobs in order and stops at the
      first exception; the result of chunk [i] is stored in slots i*cs .. (i+1)*cs
      when it arrives; the exception of the first failing chunk to arrive is kept. *)
  Definition chunk (cs i : nat) (l : list I) : list I := firstn cs (skipn (i * cs) l).

  Record pool := { workers : nat -> S; slots : list (option (list O)); failed : option exn }.

  Definition upd (f : nat -> S) (w : nat) (s : S) : nat -> S :=
    fun w' => if Nat.eqb w' w then s else f w'.

  Definition deliver (cs : nat) (inputs : list I) (p : pool) (ev : nat * nat) : pool :=
    let '(w, i) := ev in
    let '(s', r) := run_list (workers p w) (chunk cs i inputs) in
    match r with
    | Ok outs =>
        {| workers := upd (workers p) w s';
           slots := firstn (i * cs) (slots p) ++ map Some outs ++ skipn (i * cs + cs) (slots p);
           failed := failed p |}
    | Err e =>
        {| workers := upd (workers p) w s'; slots := slots p;
           failed := match failed p with None => Some e | Some e0 => Some e0 end |}
    end.

  Definition pool_start (s0 : nat -> S) (inputs : list I) : pool :=
    {| workers := s0; slots := map (fun _ => None) inputs; failed := None |}.

  (** [sched] lists (worker, chunk) in order of completion. *)
  Definition pool_run (s0 : nat -> S) (cs : nat) (inputs : list I) (sched : list (nat * nat)) : pool :=
    fold_left (deliver cs inputs) sched (pool_start s0 inputs).

  Fixpoint all_some (l : list (option (list O))) : option (list (list O)) :=
    match l with
    | [] => Some []
    | Some x :: l' => match all_some l' with Some r => Some (x :: r) | None => None end
    | None :: _ => None
    end.

  (** parallelization.py:132-133.  A slot that was never filled would be None in
      Python; the schedule hypotheses of the theorems exclude it. *)
  Definition pool_job (s0 : nat -> S) (cs : nat) (inputs : list I) (sched : list (nat * nat))
    : result table :=
    let p := pool_run s0 cs inputs sched in
    match failed p with
    | Some e => Err e
    | None =>
        match all_some (slots p) with
        | Some rows => Ok (Cols (zip_star rows))
        | None => Err TypeError
        end
    end.
End Pool.
Arguments table : clear implicits.
Arguments pool : clear implicits.

(** Log files of the workers.  A file is its list of lines; a missing file is not in
    the map.  Operations of one pool's life:
    [WorkerLog pid line]  a worker writes a line (handler of lines 103-112);
    [JobDone]             Pool.map returned: consolidation, lines 133-134, 168-173;
    [JobRaised]           Pool.map raised: line 134 is not reached;
    [EndPool]             lines 180-185, 175-178. *)
Section Logs.
  Context {L : Type}.
  Inductive logop := WorkerLog (pid : nat) (line : L) | JobDone | JobRaised | EndPool.

  Record logs := { files : list (nat * list L);      (* worker log files, by pid *)
                   mainlog : list (nat * L) }.       (* lines of the main log with the pid they come from *)

  Fixpoint fget (fs : list (nat * list L)) (p : nat) : option (list L) :=
    match fs with
    | [] => None
    | (q, c) :: fs' => if Nat.eqb p q then Some c else fget fs' p
    end.
  Fixpoint fset (fs : list (nat * list L)) (p : nat) (c : list L) : list (nat * list L) :=
    match fs with
    | [] => [(p, c)]
    | (q, c') :: fs' => if Nat.eqb p q then (q, c) :: fs' else (q, c') :: fset fs' p c
    end.
  Fixpoint fdel (fs : list (nat * list L)) (p : nat) : list (nat * list L) :=
    match fs with
    | [] => []
    | (q, c) :: fs' => if Nat.eqb p q then fdel fs' p else (q, c) :: fdel fs' p
    end.

  Definition content (fs : list (nat * list L)) (p : nat) : list L :=
    match fget fs p with Some c => c | None => [] end.

  (** append mode of the worker's handler (creates the file if it is missing) *)
  Definition worker_log (s : logs) (p : nat) (l : L) : logs :=
    {| files := fset (files s) p (content (files s) p ++ [l]); mainlog := mainlog s |}.

  (** parallelization.py:168-173.  The header line "Log from thread i" is dropped. *)
  Definition consolidate1 (s : logs) (p : nat) : logs :=
    {| files := fset (files s) p [];
       mainlog := mainlog s ++ map (fun l => (p, l)) (content (files s) p) |}.
  Definition consolidate (pids : list nat) (s : logs) : logs := fold_left consolidate1 pids s.

  (** parallelization.py:175-178 *)
  Definition remove_logs (pids : list nat) (s : logs) : logs :=
    {| files := fold_left fdel pids (files s); mainlog := mainlog s |}.

  Definition logstep (pids : list nat) (s : logs) (o : logop) : logs :=
    match o with
    | WorkerLog p l => worker_log s p l
    | JobDone => consolidate pids s
    | JobRaised => s
    | EndPool => remove_logs pids s
    end.

  Definition logrun (pids : list nat) (s : logs) (ops : list logop) : logs :=
    fold_left (logstep pids) ops s.

  (** fresh pool: one empty file per worker (lines 63-66, 105) *)
  Definition log_init (pids : list nat) (main0 : list (nat * L)) : logs :=
    {| files := map (fun p => (p, [])) pids; mainlog := main0 |}.
End Logs.
Arguments logop : clear implicits.
Arguments logs : clear implicits.
