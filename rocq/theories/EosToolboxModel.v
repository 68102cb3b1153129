(** Model of /repo/despasito/equations_of_state/eos_toolbox.py, of the parameter
    methods of interface.py, and of the backend selection. *)
From Verif Require Import Base Num IOModel.
Open Scope string_scope.

(** eos_toolbox.py:10-40 [remove_insignificant_components].  [eps] is
    np.finfo(float).eps.  NaN < eps is false, so a NaN mole fraction is kept. *)
Fixpoint remove_loop (eps : num) (xi massi : list num) : result (list num * list num) :=
  match xi with
  | [] => Ok ([], [])
  | x :: xs =>
      if nlt x eps then remove_loop eps xs (tl massi)            (* 30, 34: i in ind *)
      else match massi with
           | [] => Err IndexError                                (* 36 *)
           | m :: ms => let* r := remove_loop eps xs ms in Ok (x :: fst r, m :: snd r)
           end
  end.
Definition remove_insignificant_components := remove_loop.

Section Libraries.
  (** Parameter values; [zero] is what np.zeros fills in. *)
  Variable V : Type.
  Variable zero : V.

  Definition library := dict (dict V).

  (** eos_toolbox.py:235-247: the defaults written into one bead's dictionary; the
      boolean tells whether the loop ended without a missing mandatory parameter *)
  Fixpoint fill_defaults (defaults : dict (option V)) (bd : dict V) : dict V * bool :=
    match defaults with
    | [] => (bd, true)
    | (p, def) :: ds =>
        if dmem bd p then fill_defaults ds bd
        else match def with
             | Some v => fill_defaults ds (dset bd p v)           (* 239 *)
             | None => (bd, false)                                (* 245-247 *)
             end
    end.

  (** eos_toolbox.py:211-249 [check_bead_parameters].  [bead_library0.copy()] is
      shallow, so the inner dictionaries written to are the caller's.  The result is the
      caller's library after the call, and the returned library or the exception. *)
  Fixpoint check_beads (lib : library) (defaults : dict (option V)) : library * bool :=
    match lib with
    | [] => ([], true)
    | (b, bd) :: rest =>
        let (bd', ok) := fill_defaults defaults bd in
        if ok then let (rest', ok') := check_beads rest defaults in ((b, bd') :: rest', ok')
        else ((b, bd') :: rest, false)
    end.
  Definition check_bead_parameters (lib : library) (defaults : dict (option V))
    : library * result library :=
    let (lib', ok) := check_beads lib defaults in
    (lib', if ok then Ok lib' else Err ValueError).

  (** eos_toolbox.py:170-208 [extract_property] *)
  Definition extract_property (prop : string) (lib : library) (beads : list string)
      (default : option V) : result (list V) :=
    mapM (fun b => let* bd := dfetch lib b in
                   match dget bd prop, default with
                   | Some v, _ => Ok v
                   | None, Some d => Ok d
                   | None, None => Err ValueError
                   end) beads.

  (** Matrices by parameter name.  np.ndarray of shape (n, n) as a function of two
      indices; only indices below the number of beads are ever used. *)
  Definition matrices := string -> nat -> nat -> V.
  Definition mset (m : matrices) (k : string) (i j : nat) (v : V) : matrices :=
    fun k' i' j' => if String.eqb k k' && Nat.eqb i i' && Nat.eqb j j' then v else m k' i' j'.

  (** cross_library[a][b][key]; [None] when a key is absent or the value is None *)
  Definition cross_library := dict (dict (dict (option V))).
  Definition cross_get (cl : cross_library) (a b key : string) : option V :=
    match dget cl a with
    | None => None
    | Some d => match dget d b with
                | None => None
                | Some e => match dget e key with Some o => o | None => None end
                end
    end.

  (** The combining rule of each parameter: key, first bead, second bead -> dictionary
      of values, or an exception.  [combining_rules] of CombiningModel is one such. *)
  Variable rule : string -> dict V -> dict V -> result (dict V).

  (** eos_toolbox.py:284-288 *)
  Definition diag_entry (beads : list string) (lib : library) (key : string)
      (m : matrices) (k : nat) : result matrices :=
    match nth_error beads k with
    | None => Err IndexError
    | Some b => let* bd := dfetch lib b in let* v := dfetch bd key in Ok (mset m key k k v)
    end.
  Definition set_diagonals (beads : list string) (lib : library) (keys : list string)
    : result matrices :=
    foldM (fun m key => foldM (diag_entry beads lib key) m (seq 0 (length beads)))
          (fun _ _ _ => zero) keys.

  (** 314-316 *)
  Definition write_rule (keys : list string) (i j : nat) (m : matrices) (kv : string * V)
    : result matrices :=
    if smem (fst kv) keys then Ok (mset (mset m (fst kv) i j (snd kv)) (fst kv) j i (snd kv))
    else Err KeyError.

  (** 295-317: one parameter of one pair *)
  Definition pair_entry (beads : list string) (lib : library) (keys : list string)
      (cl : cross_library) (i j : nat) (m : matrices) (key : string) : result matrices :=
    match nth_error beads i, nth_error beads j with
    | Some bi, Some bj =>
        let* m1 :=
          match cross_get cl bi bj key with
          | Some v => Ok (mset m key i j v)                                   (* 295-296 *)
          | None =>
              match cross_get cl bj bi key with
              | Some v => Ok (mset m key i j v)                               (* 297-298 *)
              | None =>
                  match (let* bd1 := dfetch lib bi in let* bd2 := dfetch lib bj in
                         rule key bd1 bd2) with
                  | Err _ => Err ValueError                                   (* 300-313 *)
                  | Ok tmp => foldM (write_rule keys i j) m tmp               (* 314-316 *)
                  end
              end
          end in
        Ok (mset m1 key j i (m1 key i j))                                     (* 317 *)
    | _, _ => Err IndexError
    end.

  (** 291-293 *)
  Definition upper_pairs (n : nat) : list (nat * nat) :=
    filter (fun ij => Nat.ltb (fst ij) (snd ij)) (list_prod (seq 0 n) (seq 0 n)).

  (** eos_toolbox.py:252-319 [cross_interaction_from_dict].  [keys] are the keys of
      combining_dict. *)
  Definition cross_interaction_from_dict (beads : list string) (lib : library)
      (keys : list string) (cl : cross_library) : result matrices :=
    let* m0 := set_diagonals beads lib keys in
    foldM (fun m ij => foldM (pair_entry beads lib keys cl (fst ij) (snd ij)) m keys)
          m0 (upper_pairs (length beads)).
End Libraries.
Arguments cross_get {V} cl a b key.

(** eos_toolbox.py:136-167 [calc_massi], for one component.  [mul]/[add] over the
    extended numbers; a bead without mass is refused even when its count is zero. *)
Fixpoint component_mass (counts : list num) (lib : dict (dict num)) (beads : list string) (acc : num) {struct beads}
  : result num :=
  match beads with
  | [] => Ok acc
  | b :: bs =>
      let* bd := dfetch lib b in
      match dget bd "mass" with
      | None => Err ValueError
      | Some m =>
          match counts with
          | [] => Err IndexError
          | c :: cs => component_mass cs lib bs (nadd acc (nmul c m))
          end
      end
  end.
Definition calc_massi (composition : list (list num)) (lib : dict (dict num)) (beads : list string)
  : result (list num) :=
  mapM (fun row => component_mass row lib beads (Fin 0)) composition.

(** interface.py:229-230: the parameter type is what precedes the first underscore *)
Definition parameter_type (param_name : string) : string := hd "" (split_us param_name).

(** interface.py:200-288 [EosTemplate.check_bounds].  [extreme] is
    parameter_bound_extreme; each entry holds a lower and an upper limit. *)
Definition check_bounds (extreme : dict (num * num)) (param_name : string) (bounds : num * num)
  : result (num * num) :=
  match dget extreme (parameter_type param_name) with
  | None => Err ValueError
  | Some (lo, hi) =>
      let b0 := if nlt (fst bounds) lo then lo
                else if ngt (fst bounds) hi then lo
                else fst bounds in
      let b1 := if ngt (snd bounds) hi then hi
                else if nlt (snd bounds) lo then hi
                else snd bounds in
      Ok (b0, b1)
  end.

(** str.split("-") *)
Definition dash : Ascii.ascii := Ascii.ascii_of_nat 45.
Fixpoint split_dash (s : string) : list string :=
  match s with
  | EmptyString => [EmptyString]
  | String c s' =>
      if Ascii.eqb c dash then EmptyString :: split_dash s'
      else match split_dash s' with
           | w :: ws => String c w :: ws
           | [] => [String c EmptyString]
           end
  end.

(** saft.py:594-622 [EosType.check_bounds] *)
Definition saft_check_bounds (extreme : dict (num * num)) (param_name : string) (bounds : num * num)
  : result (num * num) :=
  check_bounds extreme (hd "" (split_dash param_name)) bounds.

Section Update.
  Variable V : Type.

  (** The attributes of an EOS object that parameter updates read and write *)
  Record eos_params := {
    ep_beads : list string;
    ep_types : list string;
    ep_bead_library : dict (dict V);
    ep_cross_library : dict (dict (dict V)) }.

  Definition substring_in (x s : string) : bool :=
    match index 0 x s with Some _ => true | None => false end.

  Definition set_bead_lib (e : eos_params) l :=
    {| ep_beads := ep_beads e; ep_types := ep_types e; ep_bead_library := l;
       ep_cross_library := ep_cross_library e |}.
  Definition set_cross_lib (e : eos_params) l :=
    {| ep_beads := ep_beads e; ep_types := ep_types e; ep_bead_library := ep_bead_library e;
       ep_cross_library := l |}.

  (** interface.py:290-348 [EosTemplate.update_parameter]; the attributes are taken to
      be initialised (308-314). *)
  Definition update_parameter (e : eos_params) (p : string) (names : list string) (v : V)
    : result eos_params :=
    if Nat.ltb 2 (length names) then Err ValueError                                (* 316-319 *)
    else if negb (forallb (fun b => smem b (ep_beads e)) names) then Err ValueError (* 320-324 *)
    else if negb (existsb (fun x => substring_in x p) (ep_types e)) then Err ValueError (* 326-330 *)
    else match names with
         | [b] =>                                                                  (* 333-337 *)
             match dget (ep_bead_library e) b with
             | Some d => Ok (set_bead_lib e (dset (ep_bead_library e) b (dset d p v)))
             | None => Ok (set_bead_lib e (dset (ep_bead_library e) b [(p, v)]))
             end
         | [b0; b1] =>                                                             (* 339-348 *)
             let cl := ep_cross_library e in
             let last :=
               match dget cl b0 with
               | Some d0 =>
                   match dget d0 b1 with
                   | Some d => Ok (set_cross_lib e (dset cl b0 (dset d0 b1 (dset d p v))))
                   | None => Ok (set_cross_lib e (dset cl b0 (dset d0 b1 [(p, v)])))
                   end
               | None => Ok (set_cross_lib e (dset cl b0 [(b1, [(p, v)])]))
               end in
             match dget cl b1 with
             | Some d1 =>
                 match dget d1 b0 with
                 | Some d => Ok (set_cross_lib e (dset cl b1 (dset d1 b0 (dset d p v))))
                 | None => last
                 end
             | None => last
             end
         | _ => Ok e
         end.

  (** saft.py:624-651 [EosType.update_parameter] *)
  Definition saft_update_parameter (e : eos_params) (p : string) (names : list string) (v : V)
    : result eos_params :=
    let parts := split_dash p in
    if Nat.ltb 1 (length parts) && negb (Nat.eqb (length (tl parts)) 2) then Err ValueError
    else update_parameter e p names v.
End Update.
Arguments ep_beads {V}. Arguments ep_types {V}.
Arguments ep_bead_library {V}. Arguments ep_cross_library {V}.
Arguments update_parameter {V}. Arguments saft_update_parameter {V}.

(** Backend selection. *)
Inductive backend := Numba | Cython | PurePython.

(** equations_of_state/__init__.py:12-24 [method_stat] *)
Record method_stat := { ms_numba : bool; ms_cython : bool; ms_python : bool }.
Definition mk_method_stat (numba cython python : bool) : result method_stat :=
  if numba || cython || python then
    Ok {| ms_numba := if cython || python then false else numba;
          ms_cython := cython; ms_python := python |}
  else Err ValueError.

(** saft/Aassoc.py:16-28 and gamma_mie.py:23-35: what importing the module leaves
    behind.  [cython_loaded] is '"cython" in sys.modules'; [compiled] tells whether the
    compiled extension can be imported.  The pair is (flag_cython, extension bound). *)
Definition import_saft (cython_loaded compiled : bool) : result (bool * bool) :=
  if negb cython_loaded then Ok (true, false)
  else if compiled then Ok (false, true) else Err ImportError.

(** saft/Aassoc.py:31-59 [_calc_Xika_wrap] *)
Definition xika_backend (flag_cython bound : bool) (ms : method_stat) : result backend :=
  if ms_cython ms && flag_cython then (if bound then Ok Cython else Err NameError)
  else if ms_python ms then Ok PurePython
  else if ms_numba ms || negb flag_cython then Ok Numba
  else Err ValueError.

(** gamma_mie.py:427-440 and the 18 similar blocks *)
Definition mie_backend (flag_cython bound : bool) (ms : method_stat) : result backend :=
  if ms_cython ms && flag_cython then (if bound then Ok Cython else Err NameError)
  else if ms_python ms then Ok PurePython
  else Ok Numba.
