(** Model of three helpers: /repo/despasito/utils/parallelization.py (batch_jobs),
    /repo/despasito/input_output/read_input.py (file2paramdict) and
    /repo/despasito/thermodynamics/calc.py (_clean_plot_data). *)
From Coq Require Import Ascii QArith.
From Verif Require Import Base Num ParallelModel.
Open Scope Z_scope.

(** ** parallelization.py:217-260 [batch_jobs] *)
Section Batch.
  Context {I O S : Type}.
  Variable step : S -> I -> S * result (list O).
  (** A handler of the root logger.  A file handler has the attribute baseFilename; its level and the format of its formatter
      (None: no formatter) are read, lines 243-246. *)
  Inductive handler := Stream | File (level : nat) (fmt : option string).
  (** The handlers of the root logger, the worker logs in the working directory, the texts passed to the logger at the end. *)
  Record world := World { w_root : list handler; w_files : dict string; w_main : list string }.
  (** 243-246: level and format of the last file handler; a handler without formatter raises *)
  Definition scan (hs : list handler) : result (option (nat * string)) :=
    foldM (fun acc h => match h with
                        | Stream => Ok acc
                        | File level (Some fmt) => Ok (Some (level, fmt))
                        | File _ None => Err AttributeError
                        end) None hs.
  (** 247-260.  [logs level fmt] are the files matching mp-handler-*.log after the jobs, in the order glob lists them; the pool
      is that of C05.  [zip] is consumed by the caller; the rows exist when map returns. *)
  Definition batch_jobs (w : world) (ncores : Z) (s0 : nat -> S) (cs : nat) (inputs : list I) (sched : list (nat * nat))
      (logs : nat -> string -> dict string) : world * result (table O) :=
    match scan (w_root w) with
    | Err e => (w, Err e)
    | Ok None => (World [] (w_files w) (w_main w), Err UnboundLocalError)                     (* 249: level is not set *)
    | Ok (Some (level, fmt)) =>
        if ncores <? 1 then (World [] (w_files w) (w_main w), Err ValueError)                 (* 249: Pool refuses *)
        else match pool_job step s0 cs inputs sched with
             | Err e => (World [] (logs level fmt) (w_main w), Err e)                         (* 251 *)
             | Ok t => (World (w_root w) [] (w_main w ++ map snd (logs level fmt)), Ok t)      (* 253-260 *)
             end
    end.
End Batch.

(** ** read_input.py:163-197 [file2paramdict] *)
Section FileDict.
  Context {V : Type}.
  (** [eval] is the built-in eval, None if it raises (its effects are not modelled); [to_float] is float *)
  Variables (eval to_float : string -> option V) (delimiter : ascii).
  Inductive item := Val (v : V) | Text (s : string).
  (** str.split with a separator of one character *)
  Fixpoint split_on (s : string) : list string :=
    match s with
    | EmptyString => [EmptyString]
    | String c s' => if Ascii.eqb c delimiter then EmptyString :: split_on s'
                     else match split_on s' with x :: r => String c x :: r | [] => [] end
    end.
  (** str.isdigit of one character, for ASCII *)
  Definition is_digit (c : ascii) : bool := let n := nat_of_ascii c in (Nat.leb 48 n && Nat.leb n 57)%bool.
  (** 187-195: one line; 186 [line.rstrip()] has no effect *)
  Definition read_line (d : dict item) (line : string) : result (dict item) :=
    match split_on line with
    | [k; t] =>
        match eval t with
        | Some v => Ok (dset d k (Val v))
        | None =>
            match String.get 1 line with
            | None => Err IndexError
            | Some c => if is_digit c then match to_float t with Some v => Ok (dset d k (Val v)) | None => Err ValueError end
                        else Ok (dset d k (Text t))
            end
        end
    | _ => Ok d
    end.
  (** the lines of the file, each with its line end *)
  Definition file2paramdict (lines : list string) : result (dict item) := foldM read_line [] lines.
End FileDict.
Arguments item : clear implicits.

(** ** calc.py:1041-1064 [_clean_plot_data].  list(set(x)) lists each value once in an arbitrary order, which sorting removes;
    NaN is equal to nothing, so the call raises whatever place it gets. *)
Section Clean.
  Context {Y : Type}.
  Fixpoint insert (a : num) (l : list num) : list num :=
    match l with
    | [] => [a]
    | b :: l' => if nlt a b then a :: l else if neqb a b then l else b :: insert a l'
    end.
  Definition sort_set (l : list num) : list num := fold_right insert [] l.
  Fixpoint first_at (a : num) (xs : list num) (n : nat) : option nat :=
    match xs with [] => None | x :: xs' => if neqb x a then Some n else first_at a xs' (S n) end.
  Definition clean_plot_data (x : list num) (y : list Y) : result (list num * list Y) :=
    let xs := sort_set x in
    let* ys := mapM (fun a => match first_at a x 0 with
                              | None => Err IndexError
                              | Some n => match nth_error y n with Some v => Ok v | None => Err IndexError end
                              end) xs in
    Ok (xs, ys).
End Clean.
