(** Model of libraries/tbme/tbme_separable.cpp: two-body matrices of one-body and separable operators
    and of the identity.  Arithmetic on matrix elements is over the real numbers. *)
From Coq Require Import List ZArith Reals Bool.
From Verif Require Import Base H2Model MapModel RMat XformModel.
Import ListNotations.
Open Scope R_scope.
Open Scope outcome_scope.

(** basis::OrbitalStatePN: species, index within the species, labels *)
Record orb := Orb { o_sp : ospecies; o_ix : nat; o_lab : olabel }.
(** operator== of the basis library: same subspace and index *)
Definition orb_eqb (a b : orb) : bool := osp_eqb (o_sp a) (o_sp b) && Nat.eqb (o_ix a) (o_ix b).
Definition tj (a : orb) : Z := ol_2j (o_lab a).
(** OrbitalStatePN::g and twice OrbitalStatePN::Tz *)
Definition o_g (a : orb) : Z := (ol_l (o_lab a) mod 2)%Z.
Definition o_2Tz (a : orb) : Z := match o_sp a with SP => 1 | SN => -1 end.

(** basis::OrbitalSectorsLJPN with its matrices; basis::MatrixElementLJPN is the function [ob_me] *)
Record obop := ObOp { ob_J0 : Z; ob_g0 : Z; ob_Tz0 : Z; ob_me : orb -> orb -> R }.

(** am::AllowedTriangle on doubled angular momenta *)
Definition triangle (a b c : Z) : bool :=
  ((Z.abs (a - b) <=? c) && (c <=? a + b) && Z.even (a + b + c))%Z.

(** one_body_sector_allowed (tbme_separable.cpp:23-34) *)
Definition ob_allowed (op : obop) (bra ket : orb) : bool :=
  triangle (tj ket) (2 * ob_J0 op) (tj bra)
  && (Z.rem (o_g ket + ob_g0 op + o_g bra) 2 =? 0)%Z
  && (o_2Tz bra =? o_2Tz ket + 2 * ob_Tz0 op)%Z.
(** tbme_separable.cpp:85-106 and 255-306: a one-body element, zero where the sector is not allowed *)
Definition matel (op : obop) (x y : orb) : R := if ob_allowed op x y then ob_me op x y else 0.

(** am::RacahReductionFactor1Rose, RacahReductionFactor2Rose, RacahReductionFactor12Rose: functions of
    doubled angular momenta of the orbitals and of J', J and the ranks (am library, not modelled) *)
Definition factor1 := Z -> Z -> Z -> Z -> Z -> Z -> Z -> R.
Definition factor12 := Z -> Z -> Z -> Z -> Z -> Z -> Z -> Z -> Z -> R.

(** [if (b) matrix_element += x] *)
Definition add_if (b : bool) (x me : R) : R := if b then me + x else me.

(** tbme_separable.cpp:108-188: the antisymmetrised element <cd;J'||U||ab;J> *)
Definition upgrade_as (F1 F2 : factor1) (op : obop) (c d : orb) (J' : Z) (a b : orb) (J : Z) : R :=
  let ca := matel op c a in let cb := matel op c b in let da := matel op d a in let db := matel op d b in
  let J0 := ob_J0 op in
  let me := 0 in
  let ph := 1 in
  let me := add_if (orb_eqb d b) (ph * F1 (tj c) (tj d) J' (tj a) (tj b) J J0 * ca) me in
  let me := add_if (orb_eqb c a) (ph * F2 (tj c) (tj d) J' (tj a) (tj b) J J0 * db) me in
  let ph := - parity_sign (2 * J - tj a - tj b) in
  let me := add_if (orb_eqb d a) (ph * F1 (tj c) (tj d) J' (tj b) (tj a) J J0 * cb) me in
  let me := add_if (orb_eqb c b) (ph * F2 (tj c) (tj d) J' (tj b) (tj a) J J0 * da) me in
  let ph := - parity_sign (2 * J' - tj c - tj d) in
  let me := add_if (orb_eqb c b) (ph * F1 (tj d) (tj c) J' (tj a) (tj b) J J0 * da) me in
  let me := add_if (orb_eqb d a) (ph * F2 (tj d) (tj c) J' (tj a) (tj b) J J0 * cb) me in
  let ph := parity_sign (2 * J' - tj c - tj d + 2 * J - tj a - tj b) in
  let me := add_if (orb_eqb c a) (ph * F1 (tj d) (tj c) J' (tj b) (tj a) J J0 * db) me in
  let me := add_if (orb_eqb d b) (ph * F2 (tj d) (tj c) J' (tj b) (tj a) J J0 * ca) me in
  me * (1 / 2).

(** tbme_separable.cpp:190-194 and 396-400: conversion to normalised states *)
Definition to_nas (a b c d : orb) (me : R) : R :=
  let me := if orb_eqb a b then me * inv_sqrt2 else me in
  if orb_eqb c d then me * inv_sqrt2 else me.

(** the orbitals of a state *)
Definition state_orbs (os : ospace) (s : subspace) (i : nat) : outcome (orb * orb) :=
  ' (x, y, a, b) <- state_orbitals os s i ;;
  Ok (Orb (sp1 (ss_species s)) x a, Orb (sp2 (ss_species s)) y b).

(** a matrix filled by a parallel double loop whose iterations run in the given order *)
Definition fill_in_order {D} (order : list (nat * nat)) (z : D) (nb nk : nat) (el : nat -> nat -> outcome D)
  : outcome (mat D) :=
  loop2 order (fun i j m => x <- el i j ;; mat_put m i j x) (mzero z nb nk).

(** undefined behaviour unless the condition holds *)
Definition defined (b : bool) : outcome unit := if b then Ok tt else UB.
Definition in_int (z : Z) : bool := ((-2147483648 <=? z) && (z <=? 2147483647))%Z.

(** UpgradeOneBodyOperatorJJJPN (tbme_separable.cpp:40-202); [order] is the order of the parallel iterations *)
Definition upgrade_ord (order : list (nat * nat)) (F1 F2 : factor1) (op : obop) (os : ospace) (x : sector) (A : Z)
  : outcome (mat R) :=
  let b := s_bra x in let k := s_ket x in
  if negb (triangle (2 * ss_J b) (2 * ss_J k) (2 * ob_J0 op)) then Ok (mzero 0 (ss_size b) (ss_size k))
  else
    m <- fill_in_order order 0 (ss_size b) (ss_size k) (fun i j =>
      ' (c, d) <- state_orbs os b i ;;
      ' (a, b') <- state_orbs os k j ;;
      Ok (to_nas a b' c d (upgrade_as F1 F2 op c d (ss_J b) a b' (ss_J k)))) ;;
    defined (in_int (A - 1) && negb (A - 1 =? 0)%Z) ;;;
    Ok (Mat (rows m) (cols m) (fun i j => 1 / IZR (A - 1) * at_ m i j)).
Definition upgrade F1 F2 op os (x : sector) A : outcome (mat R) :=
  upgrade_ord (pairs (ss_size (s_bra x)) (ss_size (s_ket x))) F1 F2 op os x A.

(** tbme_separable.cpp:255-394: the antisymmetrised element <cd;J'||[T1 x T2]||ab;J>; [same] tells whether the
    two operators are the same objects in memory (lines 278-284) *)
Definition tensor_as (F12 : factor12) (same : bool) (op1 op2 : obop) (K : Z) (c d : orb) (J' : Z) (a b : orb) (J : Z) : R :=
  let c1a := matel op1 c a in let c1b := matel op1 c b in let d1a := matel op1 d a in let d1b := matel op1 d b in
  let c2a := if same then c1a else matel op2 c a in let c2b := if same then c1b else matel op2 c b in
  let d2a := if same then d1a else matel op2 d a in let d2b := if same then d1b else matel op2 d b in
  let k1 := ob_J0 op1 in let k2 := ob_J0 op2 in
  let sg := parity_sign (2 * J' + tj c + tj d + 2 * J + tj a + tj b + 2 * k1 + 2 * k2 + 2 * K) in
  let me := 0 in
  let f_c1a_d2b := F12 (tj c) (tj d) J' (tj a) (tj b) J k1 k2 K in
  let me := me + 2 * f_c1a_d2b * d2b * c1a in
  let f_d1b_c2a := if (k1 =? k2)%Z then sg * f_c1a_d2b else F12 (tj d) (tj c) J' (tj b) (tj a) J k1 k2 K in
  let me := me + 2 * parity_sign (2 * J' - tj c - tj d + 2 * J - tj a - tj b) * f_d1b_c2a * d1b * c2a in
  let f_c1b_d2a := F12 (tj c) (tj d) J' (tj b) (tj a) J k1 k2 K in
  let me := me + (-2) * parity_sign (2 * J - tj a - tj b) * f_c1b_d2a * d2a * c1b in
  let f_d1a_c2b := if (k1 =? k2)%Z then sg * f_c1b_d2a else F12 (tj d) (tj c) J' (tj a) (tj b) J k1 k2 K in
  let me := me + (-2) * parity_sign (2 * J' - tj c - tj d) * f_d1a_c2b * d1a * c2b in
  me * (1 / 4).

(** RacahReduceTensorProductJJJPN (tbme_separable.cpp:209-408) *)
Definition tensor_ord (order : list (nat * nat)) (F12 : factor12) (same : bool) (op1 op2 : obop) (os : ospace) (x : sector) (K : Z)
  : outcome (mat R) :=
  cassert (triangle (2 * ob_J0 op1) (2 * ob_J0 op2) (2 * K)) ;;;
  let b := s_bra x in let k := s_ket x in
  if negb (triangle (2 * ss_J b) (2 * ss_J k) (2 * K)) then Ok (mzero 0 (ss_size b) (ss_size k))
  else fill_in_order order 0 (ss_size b) (ss_size k) (fun i j =>
      ' (c, d) <- state_orbs os b i ;;
      ' (a, b') <- state_orbs os k j ;;
      Ok (to_nas a b' c d (tensor_as F12 same op1 op2 K c d (ss_J b) a b' (ss_J k)))).
Definition tensor F12 same op1 op2 os (x : sector) K : outcome (mat R) :=
  tensor_ord (pairs (ss_size (s_bra x)) (ss_size (s_ket x))) F12 same op1 op2 os x K.

(** IdentityOperatorMatrixJJJPN (tbme_separable.cpp:414-431).  A*(A-1) is computed in int; division by zero and
    overflow are undefined. *)
Definition identity_matrix (x : sector) (A : Z) : outcome (mat R) :=
  cassert (is_diag x) ;;;
  defined (in_int (A - 1) && in_int (A * (A - 1)) && negb (A * (A - 1) =? 0)%Z) ;;;
  let n := ss_size (s_ket x) in
  Ok (Mat n n (fun i j => 2 / IZR (A * (A - 1)) * (if Nat.eqb i j then 1 else 0))).

(** TimingTestMatrixJJJPN (tbme_separable.cpp:437-482) *)
Definition timing_matrix (x : sector) (loop store : bool) : outcome (mat R) :=
  cassert (is_diag x) ;;;
  let n := ss_size (s_ket x) in
  if loop then
    loop2 (pairs n n) (fun i j m => if negb (Nat.leb i j) then Ok m
      else if store then mat_put m i j (-1) else Ok m) (mzero 0 n n)
  else Ok (mzero 0 n n).
