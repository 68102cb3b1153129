(** Model of /repo/despasito/parameter_fitting/global_methods.py: [grid_minimization] with
    [_grid_minimization_wrapper], [_BasinStep], [_BasinBounds] and [_WriteParameterResults]. *)
From Verif Require Import Base Num ToolboxModel FitObjModel FitSetupModel.
Open Scope nat_scope.
Open Scope string_scope.

(** ** The grid search *)

(** numpy.mgrid with slice(lo, hi, Ns*1j) along one axis: i * step + lo for i < Ns.
    global_methods.py:390-393, 401-404.  Ns is a non-negative integer here. *)
Definition axis (Ns : nat) (b : Q * Q) : list num :=
  let step := if Nat.eqb Ns 1 then 1%Q else ((snd b - fst b) / inject_Z (Z.of_nat Ns - 1))%Q in
  map (fun i => Fin (inject_Z (Z.of_nat i) * step + fst b)) (seq 0 Ns).

(** global_methods.py:410-413: numpy.mgrid of several slices, reshaped and transposed, one row per
    grid point, the last coordinate running fastest *)
Fixpoint cartesian (axes : list (list num)) : list (list num) :=
  match axes with
  | [] => [[]]
  | a :: axes' => flat_map (fun x => map (cons x) (cartesian axes')) a
  end.

(** The rows of x0_array: with one axis (lines 407-408) they are numbers, not arrays. *)
Definition grid (Ns : nat) (bounds : list (Q * Q)) : list (value num) :=
  match bounds with
  | [b] => map Scalar (axis Ns b)
  | _ => map Arr (cartesian (map (axis Ns) bounds))
  end.

(** list(x): TypeError for a number *)
Definition as_list (v : value num) : result (list num) :=
  match v with Arr l => Ok l | Scalar _ => Err TypeError end.

(** minimizer_opts as the user gives it: the method and the entries of "options" *)
Record min_opts := { mo_method : option string; mo_options : option (dict num) }.
(** global_methods.py:354-362: new_minimizer_opts has no entry "options" to store into *)
Definition minimizer_method (o : min_opts) : result string :=
  match mo_options o with
  | Some (_ :: _) => Err KeyError
  | _ => Ok (match mo_method o with Some m => m | None => "least_squares" end)
  end.

Record outcome := { o_x : list num; o_fun : num; o_success : bool; o_nit : nat }.

Section Grid.
  (** the data sets, the number of fitted parameters and their bounds *)
  Variable datasets : list (list num -> result num).
  Variable nnames : nat.
  Variable bounds : list (Q * Q).
  (** gtb.solve_root on the objective: from the method, the frozen parameters and the starting point *)
  Variable solve : string -> option (value num) -> value num -> result (list num).

  (** compute_obj(result, *obj_args) with frozen parameters that may be a number.  The bounds are those
      of all parameters: they are put into args (line 365) before they are sliced. *)
  Definition objective (result : value num) (frozen : option (value num)) : Base.result num :=
    match result with
    | Scalar _ => Err TypeError                                         (* len(beadparams) *)
    | Arr r =>
        let* f := match frozen with
                  | None => Ok None
                  | Some v => if Nat.eqb (length r) nnames then Ok None else let* l := as_list v in Ok (Some l)
                  end in
        compute_obj datasets nnames (map (fun b => (Fin (fst b), Fin (snd b))) bounds) r f
    end.

  (** global_methods.py:664-694 [_grid_minimization_wrapper]: the converged parameters and the objective *)
  Definition grid_wrapper (method : string) (job : value num * option (value num)) : result (value num * num) :=
    let (x0, frozen) := job in
    let r := match solve method frozen x0 with
             | Ok r => Arr r
             | Err _ => match x0 with Arr l => Arr (repeat NaN (length l)) | Scalar _ => Scalar NaN end
             end in
    let* f := objective r frozen in Ok (r, f).

  (** global_methods.py:445-449, the comparison loop *)
  Definition pick (best : list num * num) (c : list num * num) : list num * num :=
    if nlt (snd c) (snd best) then c else best.

  (** the starting points (x0_array), and for each the job: start of the minimisation and frozen parameters.
      global_methods.py:367-418 *)
  Definition grid_jobs (guess : list num) (initial : option (list (list num))) (Ns split : nat)
    : list (value num * (value num * option (value num))) :=
    match initial with
    | Some l =>
        map (fun x => (Arr x, if Nat.eqb split 0 then (Arr x, None) else (Arr (skipn split x), Some (Arr (firstn split x))))) l
    | None =>
        if Nat.eqb split 0 then map (fun x => (x, (x, None))) (grid Ns bounds)
        else map (fun x => (x, (Arr (skipn split guess), Some x))) (grid Ns (firstn split bounds))
    end.

  (** global_methods.py:428-442: the frozen and the minimised parameters put together, a row of an array
      with one column per parameter.  (A row of length one would be broadcast; it cannot arise when the
      minimiser returns as many parameters as it was given.) *)
  Definition whole (initial : bool) (split nparams : nat) (x0 : value num) (r : value num) : result (list num) :=
    let* r := as_list r in
    if Nat.eqb split 0 then Ok r
    else let* l := as_list x0 in
         let row := ((if initial then firstn split l else l) ++ r)%list in
         if Nat.eqb (length row) nparams then Ok row else Err ValueError.

  (** global_methods.py:269-461 [grid_minimization].  [functions]: the constraint functions there are.
      The jobs run in order in one process; parallelization.py is modelled in ParallelModel.v.  The
      option split_grid_minimization is a non-negative integer, Ns likewise. *)
  Definition grid_minimization (functions : list string) (guess : list num) (initial : option (list (list num)))
      (Ns split : nat) (constraints : option (list constraint)) (mo : min_opts) : result outcome :=
    let* _ := match constraints with
              | None => Ok tt
              | Some c => let* _ := initialize_constraints functions "dict" c in Ok tt
              end in                                                                  (* 348-349 *)
    let* method := minimizer_method mo in
    let jobs := grid_jobs guess initial Ns split in
    let* outs := mapM (fun j => grid_wrapper method (snd j)) jobs in
    let* rows := mapM (fun jo => whole (match initial with Some _ => true | None => false end) split (length guess)
                                   (fst (fst jo)) (fst (snd jo))) (combine jobs outs) in
    match combine rows (map snd outs) with
    | [] => Err ValueError                                                            (* 422-425, nothing to unpack *)
    | c :: cs =>
        let best := fold_left pick (c :: cs) c in
        Ok {| o_x := fst best; o_fun := snd best; o_success := true; o_nit := length jobs |}
    end.
End Grid.

(** ** Basin hopping *)

(** global_methods.py:697-754 [_BasinStep].  [u]: the draws of numpy.random.uniform of one attempt *)
Fixpoint basin_move (x : list num) (mags u : list num) : result (list num * bool) :=
  match mags with
  | [] => Ok (x, true)
  | _ :: mags' =>
      match x, u with
      | [], _ => Err IndexError
      | a :: x', d :: u' =>
          let b := nadd a d in
          let* r := basin_move x' mags' u' in
          Ok (b :: fst r, negb (nlt b (Fin 0)) && snd r)
      | _, [] => Err OutOfFuel                              (* the generator never runs dry *)
      end
  end.
(** lines 738-752, [n] attempts left; [last] is x as the attempt before has left it.  The draw of
    attempt j for magnitude m is [draw j i] times m * stepsize, [draw] in [-1, 1]. *)
Fixpoint basin_attempts (n j : nat) (xold last mags : list num) (stepsize : num) (draw : nat -> nat -> num) : result (list num) :=
  match n with
  | O => Ok last
  | S n' =>
      let u := map (fun im => nmul (draw j (fst im)) (nmul (snd im) stepsize)) (combine (seq 0 (length mags)) mags) in
      let* r := basin_move xold mags u in
      if snd r then Ok (fst r) else basin_attempts n' (S j) xold (fst r) mags stepsize draw
  end.
Definition basin_step (mags : list num) (stepsize : num) (draw : nat -> nat -> num) (x : list num) : result (list num) :=
  basin_attempts 1000 0 x x mags stepsize draw.

(** global_methods.py:757-811 [_BasinBounds].  Arrays of different length do not broadcast. *)
Definition basin_bounds (bounds : list (num * num)) (x_new : list num) (f_new : num) : result bool :=
  if negb (Nat.eqb (length x_new) (length bounds)) then Err ValueError
  else
    let tmax := forallb (fun p => nle (fst p) (snd (snd p))) (combine x_new bounds) in
    let tmin := forallb (fun p => nle (fst (snd p)) (fst p)) (combine x_new bounds) in
    Ok (tmax && tmin && nlt (nabs f_new) PInf && negb (is_nan f_new)).

(** ** Intermediate results on disk *)

(** the directory: content of every existing file *)
Definition directory := dict string.
Definition exists_file (d : directory) (f : string) : bool := dmem d f.

(** str(i) for i < 20 *)
Definition twenty : list string :=
  ["0"; "1"; "2"; "3"; "4"; "5"; "6"; "7"; "8"; "9"; "10"; "11"; "12"; "13"; "14"; "15"; "16"; "17"; "18"; "19"].

(** global_methods.py:845-849; the last name tried is kept *)
Fixpoint free_name (d : directory) (old last : string) (l : list string) : string :=
  match l with
  | [] => last
  | i :: l' => let f := i ++ "_" ++ old in if exists_file d f then free_name d old f l' else f
  end.
(** global_methods.py:840-849 *)
Definition choose_file (d : directory) (filename : option string) : string :=
  let f := match filename with Some f => f | None => "parameters.txt" end in
  if exists_file d f then free_name d f f twenty else f.

(** what the optimiser passes to the callback: differential evolution (parameters, convergence), basin
    hopping (parameters, objective, accepted), or something else *)
Inductive report := RDiff (x : list num) (convergence : num) | RBasin (x : list num) (f : num) (accept : bool) | ROther.

(** system calls *)
Inductive prim := Truncate (f : string) | Append (f s : string).
Definition exec (d : directory) (p : prim) : directory :=
  match p with
  | Truncate f => dset d f ""
  | Append f s => dset d f (match dget d f with Some c => c ++ s | None => s end)
  end.

Section Write.
  (** the formatted header and line of a report (number of the report first), each ending in a newline *)
  Variable header : report -> string.
  Variable line : nat -> report -> string.

  (** global_methods.py:886-911: does the report pass the cut-off; None: ValueError *)
  Definition passes (obj_cut : num) (r : report) : option bool :=
    match r with
    | RDiff _ c => Some (nlt c obj_cut)
    | RBasin _ f a => Some (a || nlt f obj_cut)
    | ROther => None
    end.
  (** global_methods.py:887-903: what one report does on disk, given the directory it finds *)
  Definition report_prims (d : directory) (obj_cut : num) (file : string) (n : nat) (r : report) : result (list prim) :=
    match passes obj_cut r with
    | None => Err ValueError
    | Some false => Ok []
    | Some true => Ok ((if exists_file d file then [] else [Truncate file; Append file (header r)]) ++ [Append file (line n r)])%list
    end.

  (** A crash during a report: [full] system calls are completed, and of the next one, if it is a write,
      [chars] characters. *)
  Record crash := { full : nat; chars : nat }.
  Definition exec_crash (d : directory) (ps : list prim) (c : crash) : directory :=
    let d' := fold_left exec (firstn (full c) ps) d in
    match nth_error ps (full c) with
    | Some (Append f s) => exec d' (Append f (String.substring 0 (chars c) s))
    | Some (Truncate f) => d'
    | None => d'
    end.

  (** The reports of one run, numbered from [n] (self.ninit); a run can crash during the report after the
      last one listed. *)
  Fixpoint reports (d : directory) (obj_cut : num) (file : string) (n : nat) (rs : list report) : directory * result nat :=
    match rs with
    | [] => (d, Ok n)
    | r :: rs' =>
        match report_prims d obj_cut file n r with
        | Err e => (d, Err e)
        | Ok ps => reports (fold_left exec ps d) obj_cut file (S n) rs'
        end
    end.

  Record session := { s_name : option string; s_cut : num; s_reports : list report; s_crash : option (report * crash) }.
  Definition run_session (d : directory) (s : session) : directory :=
    let file := choose_file d (s_name s) in
    match reports d (s_cut s) file 0 (s_reports s), s_crash s with
    | (d', Ok n), Some (r, c) =>
        match report_prims d' (s_cut s) file n r with Ok ps => exec_crash d' ps c | Err _ => d' end
    | (d', _), _ => d'
    end.
  (** runs one after another *)
  Definition history (d : directory) (l : list session) : directory := fold_left run_session l d.
End Write.
