(** Model of /repo/despasito/__init__.py (logger set-up) and of the command line
    switches in /repo/despasito/main.py and __main__.py. *)
From Verif Require Import Base EosToolboxModel.
Open Scope string_scope.

(** A handler attached to the "despasito" logger.  [str] of a file handler contains the
    path of its file. *)
Inductive handler := Console | LogFile (path : string).

(** __init__.py:48-51: detection by the text of the handler *)
Definition looks_file (h : handler) : bool := match h with LogFile _ => true | Console => false end.
Definition looks_console (h : handler) : bool :=
  match h with Console => true | LogFile p => substring_in "StreamHandler" p end.

(** The log_file argument: None, a bool, or a non-empty name *)
Inductive logarg := LNone | LBool (b : bool) | LName (s : string).

(** Handlers in the order they were added, and the files on disk with their lines *)
Record lstate := { ls_handlers : list handler; ls_files : dict (list string) }.

Fixpoint last_index {A} (p : A -> bool) (l : list A) (k : nat) (acc : option nat) : option nat :=
  match l with [] => acc | x :: xs => last_index p xs (S k) (if p x then Some k else acc) end.
Fixpoint remove_nth {A} (k : nat) (l : list A) : list A :=
  match l, k with [] , _ => [] | _ :: xs, O => xs | x :: xs, S k' => x :: remove_nth k' xs end.

Definition file_name (l : logarg) : string := match l with LName s => s | _ => "despasito.log" end.

(** __init__.py:16-84 [initiate_logger]; levels and formats are not modelled.  Line 82's
    test [not handler_logfile and handler_logfile is not None] is never true, because a
    handler object is truthy. *)
Definition initiate_logger (st : lstate) (console : option bool) (log_file : logarg) : lstate :=
  let hc := last_index looks_console (ls_handlers st) 0 None in
  let hl := last_index looks_file (ls_handlers st) 0 None in
  let truthy := match console with Some true => true | _ => false end in
  let hs1 := match truthy, hc with
             | true, None => ls_handlers st ++ [Console]            (* 54-58 *)
             | true, Some _ => ls_handlers st                       (* 59-60 *)
             | false, Some k => remove_nth k (ls_handlers st)       (* 61-63 *)
             | false, None => ls_handlers st
             end%list in
  match log_file, hl with
  | LNone, _ => {| ls_handlers := hs1; ls_files := ls_files st |}
  | l, None => {| ls_handlers := hs1 ++ [LogFile (file_name l)];
                  ls_files := dset (ddel (ls_files st) (file_name l)) (file_name l) [] |}  (* 66-79 *)
  | _, Some _ => {| ls_handlers := hs1; ls_files := ls_files st |}  (* 80-84 *)
  end%list.

(** __main__.py:15-20: the logging level for a number of -v switches (10 = debug,
    20 = info, 30 = warning; a smaller level prints more) *)
Definition log_level (v : nat) : nat :=
  if Nat.eqb v 0 then 20 else if Nat.ltb v 4 then (4 - v) * 10 else 10.

(** main.py:77-91: the compilation switches as parsed: "--numba" is store_false *)
Definition parse_switches (numba python cython : bool) : bool * bool * bool := (negb numba, python, cython).
(** __main__.py:48-55 with equations_of_state/__init__.py:66 *)
Definition method_from_switches (numba python cython : bool) : result method_stat :=
  let '(n, p, c) := parse_switches numba python cython in mk_method_stat n c p.
