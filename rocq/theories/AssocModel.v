(** Model of /repo/despasito/equations_of_state/saft/Aassoc.py: the site table, the site
    list and the association matrices.  The number type is a parameter: no arithmetic of
    the code is unfolded here except the test against zero. *)
From Verif Require Import Base EosToolboxModel.
Open Scope string_scope.

Section Assoc.
  Variable V : Type.
  Variables (zero : V) (is0 : V -> bool).

  (** ** Sites *)
  Fixpoint enum {A} (n : nat) (l : list A) : list (nat * A) :=
    match l with [] => [] | x :: l' => (n, x) :: enum (S n) l' end.

  (** Aassoc.py:62-104 [assoc_site_indices]; the argument xi is never read.  A component
      row longer than the site table raises IndexError. *)
  Definition bead_sites (row : list V) : list nat :=
    map fst (filter (fun p => negb (is0 (snd p))) (enum 0 row)).                      (* 92-93 *)
  Definition assoc_site_indices (nk comp : list (list V)) : result (list (nat * nat * nat)) :=
    let sites := map bead_sites nk in
    let* rows := mapM (fun ic =>
        let* beads := mapM (fun jb =>
            if is0 (snd jb) then Ok []                                                 (* 98 *)
            else match nth_error sites (fst jb) with
                 | None => Err IndexError
                 | Some ks => Ok (map (fun k => (fst ic, fst jb, k)) ks)               (* 99-100 *)
                 end) (enum 0 (snd ic)) in
        Ok (List.concat beads)) (enum 0 comp) in
    Ok (List.concat rows).

  (** Aassoc.py:107-176 [initiate_assoc_matrices]. *)
  Definition index_of (s : string) (l : list string) : nat :=
    (fix go n l := match l with [] => n | x :: l' => if String.eqb s x then n else go (S n) l' end) 0%nat l.
  Fixpoint set_at {A} (n : nat) (v : A) (l : list A) : list A :=
    match l, n with [], _ => [] | _ :: l', O => v :: l' | x :: l', S n' => x :: set_at n' v l' end.
  (** rows of the beads before this one, this row, the site names *)
  Record table := Table { t_done : list (list V); t_row : list V; t_names : list string }.
  Definition site_item (t : table) (kv : string * V) : result table :=
    let '(key, value) := kv in
    if String.prefix "Nk" key then
      match split_dash key with
      | [_; site] =>                                                                   (* 153 *)
          if smem site (t_names t) then
            Ok (Table (t_done t) (set_at (index_of site (t_names t)) value (t_row t)) (t_names t))    (* 161-162 *)
          else
            Ok (Table (map (fun r => (r ++ [zero])%list) (t_done t)) (t_row t ++ [value])%list (t_names t ++ [site])%list)  (* 156-159 *)
      | _ => Err ValueError                                                            (* 150-153 *)
      end
    else Ok t.
  Definition site_bead (lib : library V) (t : list (list V) * list string) (bead : string)
    : result (list (list V) * list string) :=
    let* d := dfetch lib bead in
    let* r := foldM site_item (Table (fst t) (map (fun _ => zero) (snd t)) (snd t)) d in   (* 145-146 *)
    Ok ((t_done r ++ [t_row r])%list, t_names r).
  Definition initiate_assoc_matrices (beads : list string) (lib : library V) (comp : list (list V))
    : result (list string * list (list V) * bool) :=
    let* t := foldM (site_bead lib) ([], []) beads in
    let* ind := assoc_site_indices (fst t) comp in
    Ok (snd t, fst t, match ind with [] => false | _ => true end).                      (* 165-169 *)

  (** ** Matrices *)
  (** -|v|; sqrt(ea*eb) * -sign(va*vb); the mean of the cube roots, cubed; the mean *)
  Variables (eps_same : V -> V) (eps_mix : V -> V -> V -> V -> V) (K_mix r_mix : V -> V -> V).
  Definition mat4 := nat -> nat -> nat -> nat -> V.
  Definition mat_set (M : mat4) (i j a b : nat) (v : V) : mat4 :=
    fun i' j' a' b' =>
      if (Nat.eqb i' i && Nat.eqb j' j && Nat.eqb a' a && Nat.eqb b' b)%bool then v else M i' j' a' b'.
  (** M[i,j,a,b] = v; M[j,i,b,a] = M[i,j,a,b] *)
  Definition pair_set (M : mat4) (i j a b : nat) (v : V) : mat4 :=
    let M1 := mat_set M i j a b v in mat_set M1 j i b a (M1 i j a b).
  Record amat := AMat { eps : mat4; Kk : mat4; rc : mat4; rd : mat4; fK : bool; frc : bool; frd : bool }.
  Definition amat0 : amat :=
    let z := fun _ _ _ _ => zero in AMat z z z z false false false.                    (* 255-262 *)

  Definition pname (p s t : string) : string := p ++ "-" ++ s ++ "-" ++ t.
  (** name in the first order, else in the second (274-286) *)
  Definition either (d : dict V) (p s t : string) : string :=
    if dmem d (pname p s t) then pname p s t else pname p t s.

  (** 273-343: one pair of sites of one bead *)
  Definition self_pair (i : nat) (d : dict V) (m : amat) (a b : nat) (s t : string) : result amat :=
    let e := either d "epsilonHB" s t in let k := either d "K" s t in
    let c := either d "rc" s t in let r := either d "rd" s t in
    if dmem d e && (negb (dmem d k) && negb (dmem d c)) then Err ValueError            (* 288-302 *)
    else if dmem d k && dmem d c then Err ValueError                                    (* 303-308 *)
    else if negb (dmem d e) && (dmem d k || dmem d c) then Err ValueError               (* 309-317 *)
    else match dget d e with
         | None => Ok m                                                                 (* 325-326 *)
         | Some v =>
             let m := AMat (pair_set (eps m) i i a b (if Nat.eqb a b then eps_same v else v)) (Kk m) (rc m) (rd m) (fK m) (frc m) (frd m) in
             let m := match dget d k with
                      | Some v => AMat (eps m) (pair_set (Kk m) i i a b v) (rc m) (rd m) true (frc m) (frd m) | None => m end in
             let m := match dget d c with
                      | Some v => AMat (eps m) (Kk m) (pair_set (rc m) i i a b v) (rd m) (fK m) true (frd m) | None => m end in
             Ok (match dget d r with
                 | Some v => AMat (eps m) (Kk m) (rc m) (pair_set (rd m) i i a b v) (fK m) (frc m) true | None => m end)
         end.

  Variables (beads : list string) (lib : library V) (cross : dict (library V)) (sites : list string) (nk : nat -> nat -> V).
  Definition site_name (a : nat) : string := nth a sites "".
  Definition bead_name (i : nat) : string := nth i beads "".
  Definition nbeads := List.length beads.
  Definition nsites := List.length sites.

  (** 264-343: the loops over bead, first and second site *)
  Definition self_bead (m : amat) (i : nat) : result amat :=
    foldM (fun m a =>
        if is0 (nk i a) then Ok m                                                       (* 268 *)
        else foldM (fun m b =>
               if is0 (nk i b) then Ok m                                                (* 273 *)
               else let* d := dfetch lib (bead_name i) in
                    self_pair i d m a b (site_name a) (site_name b)) m (seq a (nsites - a)))
      m (seq 0 nsites).
  Definition self_loop (m : amat) : result amat := foldM self_bead m (seq 0 nbeads).

  (** 427-457: values from the pure beads where nothing is set yet *)
  Definition mix (m : amat) (i j a b : nat) : result amat :=
    let sa := pname "epsilonHB" (site_name a) (site_name a) in
    let sb := pname "epsilonHB" (site_name b) (site_name b) in
    let* m := (if is0 (eps m j i b a)
               then let* di := dfetch lib (bead_name i) in
                    match dget di sa with
                    | None => Ok m
                    | Some va =>
                        let* dj := dfetch lib (bead_name j) in
                        match dget dj sb with
                        | None => Ok m
                        | Some vb =>
                            Ok (AMat (pair_set (eps m) i j a b (eps_mix (eps m i i a a) (eps m j j b b) va vb))
                                     (Kk m) (rc m) (rd m) (fK m) (frc m) (frd m))
                        end
                    end
               else Ok m) in
    let m := if fK m && is0 (Kk m i j a b)
             then AMat (eps m) (pair_set (Kk m) i j a b (K_mix (Kk m i i a a) (Kk m j j b b))) (rc m) (rd m) (fK m) (frc m) (frd m) else m in
    let m := if frc m && is0 (rc m i j a b)
             then AMat (eps m) (Kk m) (pair_set (rc m) i j a b (r_mix (rc m i i a a) (rc m j j b b))) (rd m) (fK m) (frc m) (frd m) else m in
    let m := if frd m && is0 (rd m i j a b)
             then AMat (eps m) (Kk m) (rc m) (pair_set (rd m) i j a b (r_mix (rd m i i a a) (rd m j j b b))) (fK m) (frc m) (frd m) else m in
    Ok m.

  (** 411-425: values from the cross library; [d] is cross_library[bead1][bead2] *)
  Definition from_cross (m : amat) (d : dict V) (i j a b : nat) (ve : V) (Kn rcn rdn : string) : amat :=
    let m := AMat (pair_set (eps m) i j a b ve) (Kk m) (rc m) (rd m) (fK m) (frc m) (frd m) in
    let m := match (if fK m then dget d Kn else None) with
             | Some v => AMat (eps m) (pair_set (Kk m) i j a b v) (rc m) (rd m) (fK m) (frc m) (frd m) | None => m end in
    let m := match (if frc m then dget d rcn else None) with
             | Some v => AMat (eps m) (Kk m) (pair_set (rc m) i j a b v) (rd m) (fK m) (frc m) (frd m) | None => m end in
    match (if frd m then dget d rdn else None) with
    | Some v => AMat (eps m) (Kk m) (rc m) (pair_set (rd m) i j a b v) (fK m) (frc m) (frd m) | None => m end.

  (** 355-457: the loop over the second bead.  The body rebinds the loop variables a and
      b and the name epsilon_tmp, and the rebinding stays for the following beads. *)
  Record cstate := CState { c_m : amat; c_a : nat; c_b : nat; c_name : string }.
  Definition cross_bead2 (i : nat) (Kn rcn rdn : string) (st : cstate) (j : nat) : result cstate :=
    let a := c_a st in let b := c_b st in
    if (Nat.eqb i j && Nat.eqb a b)%bool then Ok st                                     (* 356 *)
    else
      let d := match dget cross (bead_name i) with Some l => dget l (bead_name j) | None => None end in
      match (match d with Some d => dget d (c_name st) | None => None end), d with
      | Some ve, Some d =>
          let* ab := (if is0 (nk i a) || is0 (nk j b) then                              (* 365-409 *)
                        if negb (is0 (nk i b) || is0 (nk j a)) then Ok (b, a) else Err ValueError
                      else Ok (a, b)) in
          Ok (CState (from_cross (c_m st) d i j (fst ab) (snd ab) ve Kn rcn rdn) (fst ab) (snd ab) (c_name st))
      | _, _ =>
          if is0 (nk j b) then Ok st
          else let* m := mix (c_m st) i j a b in
               Ok (CState m a b (pname "epsilonHB" (site_name b) (site_name b)))        (* 428-429 *)
      end.
  (** 350-354: the loop over the second site *)
  Definition cross_site2 (i a0 : nat) (st : amat * nat) (b : nat) : result (amat * nat) :=
    let s := site_name a0 in let t := site_name b in
    let* r := foldM (cross_bead2 i (pname "K" s t) (pname "rc" s t) (pname "rd" s t))
                (CState (fst st) (snd st) b (pname "epsilonHB" s t)) (seq 0 nbeads) in
    Ok (c_m r, c_a r).
  (** 345-349 *)
  Definition cross_bead1 (m : amat) (i : nat) : result amat :=
    foldM (fun m a =>
        if is0 (nk i a) then Ok m
        else let* r := foldM (cross_site2 i a) (m, a) (seq 0 nsites) in Ok (fst r))
      m (seq 0 nsites).
  Definition cross_loop (m : amat) : result amat := foldM cross_bead1 m (seq 0 nbeads).

  (** Aassoc.py:179-474 [calc_assoc_matrices] with sitenames and nk given (without them
      the function always raises); nk has one row per bead.  The flags tell which of
      Kklab, rc_klab and rd_klab are in the output. *)
  Definition calc_assoc_matrices : result amat :=
    let* m := self_loop amat0 in
    let* m := cross_loop m in
    if (fK m && frc m)%bool then Err ValueError                                          (* 467-470 *)
    else if (frd m && negb (frc m))%bool then Err ValueError                             (* 471-472 *)
    else Ok m.
End Assoc.
Arguments enum {A} n l.
Arguments set_at {A} n v l.
