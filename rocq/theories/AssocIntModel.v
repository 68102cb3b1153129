(** Model of the pair correlation functions of association: calc_Iij
    (/repo/despasito/equations_of_state/saft/compiled_modules/ext_gamma_mie_python.py:614-876),
    calc_gr_assoc and calc_gdHS_assoc (gamma_mie.py:1305-1406), calc_gr_assoc of gamma_sw.py:801-828
    and the choice between them in saft.py:426-444, over the reals. *)
From Coq Require Import Reals.
From Verif Require Import Base RSum XikaModel.
Open Scope R_scope.

(** ext_gamma_mie_python.py:660-806: the coefficients, as a mantissa and the number of decimals *)
Definition cij_table : list (list (Z * nat)) :=
  [[(756425183020431, 16%nat); (-128667137050961, 15%nat); (128350632316055, 15%nat); (-725321780970292, 16%nat); (257782547511452, 16%nat); (-601170055221687, 17%nat); (933363147191978, 18%nat); (-955607377143667, 19%nat); (619576039900837, 20%nat); (-230466608213628, 21%nat); (374605718435540, 23%nat)];
   [(134228218276565, 15%nat); (-182682168504886, 15%nat); (771662412959262, 16%nat); (-717458641164565, 18%nat); (-872427344283170, 17%nat); (297971836051287, 17%nat); (-484863997651451, 18%nat); (435262491516424, 19%nat); (-207789181640066, 20%nat); (413749349344802, 22%nat); (0, 0%nat)];
   [(-565116428942893, 15%nat); (100930692226792, 14%nat); (-660166945915607, 15%nat); (214492212294301, 15%nat); (-388462990166792, 16%nat); (406016982985030, 17%nat); (-239515566373142, 18%nat); (725488368831468, 20%nat); (-858904640281928, 22%nat); (0, 0%nat); (0, 0%nat)];
   [(-387336382687019, 15%nat); (-211614570109503, 15%nat); (450442894490509, 15%nat); (-176931752538907, 15%nat); (317171522104923, 16%nat); (-291368915845693, 17%nat); (130193710011706, 18%nat); (-214505500786531, 20%nat); (0, 0%nat); (0, 0%nat); (0, 0%nat)];
   [(213713180911797, 14%nat); (-202798460133021, 14%nat); (336709255682693, 15%nat); (118106507393722, 17%nat); (-600058423301506, 17%nat); (626343952584415, 18%nat); (-203636395699819, 19%nat); (0, 0%nat); (0, 0%nat); (0, 0%nat); (0, 0%nat)];
   [(-300527494795524, 15%nat); (289920714512243, 14%nat); (-567134839686498, 15%nat); (518085125423494, 16%nat); (-239326776760414, 17%nat); (415107362643844, 19%nat); (0, 0%nat); (0, 0%nat); (0, 0%nat); (0, 0%nat); (0, 0%nat)];
   [(-621028065719194, 14%nat); (-192883360342573, 14%nat); (284109761066570, 15%nat); (-157606767372364, 16%nat); (368599073256615, 18%nat); (0, 0%nat); (0, 0%nat); (0, 0%nat); (0, 0%nat); (0, 0%nat); (0, 0%nat)];
   [(116083532818029, 13%nat); (742215544511197, 15%nat); (-823976531246117, 16%nat); (186167650098254, 17%nat); (0, 0%nat); (0, 0%nat); (0, 0%nat); (0, 0%nat); (0, 0%nat); (0, 0%nat); (0, 0%nat)];
   [(-102632535542427, 13%nat); (-125035689035085, 15%nat); (114299144831867, 16%nat); (0, 0%nat); (0, 0%nat); (0, 0%nat); (0, 0%nat); (0, 0%nat); (0, 0%nat); (0, 0%nat); (0, 0%nat)];
   [(465297446837297, 14%nat); (-192518067137033, 17%nat); (0, 0%nat); (0, 0%nat); (0, 0%nat); (0, 0%nat); (0, 0%nat); (0, 0%nat); (0, 0%nat); (0, 0%nat); (0, 0%nat)];
   [(-867296219639940, 15%nat); (0, 0%nat); (0, 0%nat); (0, 0%nat); (0, 0%nat); (0, 0%nat); (0, 0%nat); (0, 0%nat); (0, 0%nat); (0, 0%nat); (0, 0%nat)]]%Z.
Definition decimal (c : Z * nat) : R := IZR (fst c) / 10 ^ snd c.
Definition cij (p q : nat) : R := decimal (nth q (nth p cij_table []) (0%Z, 0%nat)).

Section Iij.
  (** number of beads; averages of each component; matrices of beads *)
  Variables (m : nat) (eps_avg sigma_avg : nat -> R) (sigma xskl : nat -> nat -> R).
  (** 648-656: the upper triangle is computed and copied to the lower one *)
  Definition eps_entry (i j : nat) : R :=
    sqrt (sigma_avg i * sigma_avg j) ^ 3 * sqrt (eps_avg i * eps_avg j) / ((sigma_avg i + sigma_avg j) / 2) ^ 3.
  Definition epsilonij (i j : nat) : R := if Nat.leb i j then eps_entry i j else eps_entry j i.
  (** 658 *)
  Definition sigmax3 : R := sumn m (fun k => sumn m (fun l => xskl k l * (sigma k l ^ 3 * per_nm3))).
  (** 813-874: one term of the double loop; the powers of the density are built up in local
      variables *)
  Definition Iij_term (rho T : R) (i j p q : nat) : R :=
    let rho2 := rho ^ 2 in
    let rho3 := rho2 * rho in
    let rho4 := rho2 ^ 2 in
    let rho5 := rho2 * rho3 in
    let tq := (T / epsilonij i j) ^ q in
    match p with
    | 0%nat => cij p q * 1 * tq
    | 1%nat => cij p q * (sigmax3 * rho) * tq
    | 2%nat => cij p q * (sigmax3 ^ p * rho2) * tq
    | 3%nat => cij p q * (sigmax3 ^ p * rho3) * tq
    | 4%nat => cij p q * (sigmax3 ^ p * rho4) * tq
    | 5%nat => cij p q * (sigmax3 ^ p * rho5) * tq
    | 6%nat => cij p q * (sigmax3 ^ p * rho * rho5) * tq
    | 7%nat => cij p q * (sigmax3 ^ p * rho2 * rho5) * tq
    | 8%nat => cij p q * (sigmax3 ^ p * rho3 * rho5) * tq
    | 9%nat => cij p q * (sigmax3 ^ p * rho4 * rho5) * tq
    | 10%nat => cij p q * (sigmax3 ^ p * rho5 * rho5) * tq
    | _ => 0
    end.
  Definition calc_Iij (rho T : R) (i j : nat) : R :=
    fold_left (fun acc p => fold_left (fun acc q => acc + Iij_term rho T i j p q) (seq 0 (11 - p)) acc) (seq 0 11) 0.
End Iij.

(** saft.py:428-442: which correlation is asked for: by the bonding volume's kind *)
Definition ktype (rc_given : bool) : string := if rc_given then "ijklab" else "klab".

Section Source.
  (** gamma_mie.py:1379-1407 [calc_gdHS_assoc]: eta has two columns, 0 and 1, and the loop assigns columns 2
      and 3: numpy raises IndexError at the first.  [columns] is the second entry of the array's shape. *)
  Fixpoint assign_columns (columns : nat) (ms : list nat) (value : nat -> list R) (eta : list (nat * list R)) : result (list (nat * list R)) :=
    match ms with
    | [] => Ok eta
    | c :: ms' => if Nat.ltb c columns then assign_columns columns ms' value (eta ++ [(c, value c)])%list else Err IndexError
    end.
  (** moments of the segment diameters: sum of sqrt(diag xskl) * diag(dkl)^m *)
  Variables (m : nat) (d_eff : nat -> R) (dkl xskl : nat -> nat -> R) (Cmol2seg : R).
  Definition moment (rho : list R) (c : nat) : list R :=
    map (fun r => r * per_nm3 * Cmol2seg * (sumn m (fun k => sqrt (xskl k k) * dkl k k ^ c) * (PI / 6))) rho.
  Definition calc_gdHS_assoc (rho : list R) : result (nat -> nat -> nat -> R) :=
    let* eta := assign_columns 2 [2; 3]%nat (moment rho) [] in
    let col (c r : nat) := match find (fun e => Nat.eqb (fst e) c) eta with Some e => nth r (snd e) 0 | None => 0 end in
    Ok (fun r i j =>
          let t := d_eff i * d_eff j / (d_eff i + d_eff j) in
          1 / (1 - col 1%nat r) + 3 * t * (col 0%nat r / (1 - col 1%nat r) ^ 2) + 2 * t ^ 2 * (col 0%nat r ^ 2 / (1 - col 1%nat r) ^ 3)).

  (** gamma_mie.py:1305-1353 [calc_gr_assoc], once the density has been checked *)
  Variables (eps_avg sigma_avg : nat -> R) (sigma : nat -> nat -> R).
  Definition calc_gr_assoc_mie (rho : list R) (T : R) (kt : string) : result (nat -> nat -> nat -> R) :=
    if String.eqb kt "klab" then Ok (fun r i j => calc_Iij m eps_avg sigma_avg sigma xskl (nth r rho 0) T i j)
    else if String.eqb kt "ijklab" then calc_gdHS_assoc rho
    else Err ValueError.
  (** gamma_sw.py:801-828: the kind is not looked at; [gSW] is modelled in SwModel *)
  Definition calc_gr_assoc_sw (gSW : R -> R -> nat -> nat -> R) (rho : list R) (T : R) (kt : string) : result (nat -> nat -> nat -> R) :=
    Ok (fun r i j => gSW (nth r rho 0) T i j).
End Source.

(** saft.py:422-464 [Aassoc] for a list of densities that passed _check_density: the energies.  [K4v] the bonding volume of the
    library and [K6v] the one computed from the cut-off distances (BondingModel). *)
Section Energy.
  Variables (sites : list site) (xi : nat -> R) (nu nk : nat -> nat -> R) (epsHB : nat -> nat -> nat -> nat -> R).
  Definition Aassoc (gr : string -> result (nat -> nat -> nat -> R)) (rc_given : bool)
      (K4v : nat -> nat -> nat -> nat -> R) (K6v : nat -> nat -> nat -> nat -> nat -> nat -> R) (rho : list R) (T : R) : result (list R) :=
    let F k l a b := exp (epsHB k l a b / T) - 1 in
    let* g := gr (ktype rc_given) in
    let K := if rc_given then K6 K6v else K4 K4v in
    Ok (map (fun X => assoc_energy sites xi nu nk (fst X)) (calc_Xika sites xi nu nk F g K rho)).
End Energy.
