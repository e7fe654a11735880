(** Vocabulary for C23-C25. *)
From Coq Require Import List ZArith Reals Bool.
From Verif Require Import Base H2Model MapModel MapSpec RMat XformModel SepModel.
Import ListNotations.
Open Scope R_scope.

(** |ba;J> = exch J a b |ab;J> *)
Definition exch (J : Z) (a b : orb) : R := IZR (exchange_phase J (o_lab a) (o_lab b)).

(** antisymmetrised element of an operator whose element between product states is [G] *)
Definition antisymmetrised (G : orb -> orb -> orb -> orb -> R) (c d : orb) (J' : Z) (a b : orb) (J : Z) : R :=
  1 / 2 * (G c d a b + exch J a b * G c d b a + exch J' c d * G d c a b + exch J' c d * exch J a b * G d c b a).

(** 1 for different orbitals, 1/sqrt 2 for equal ones *)
Definition nfactor (a b : orb) : R := if orb_eqb a b then / sqrt 2 else 1.

(** one-body element between orbitals: zero outside the selection rules of the operator *)
Definition selection_rules (op : obop) (x y : orb) : Prop :=
  (Z.abs (tj y - 2 * ob_J0 op) <= tj x <= tj y + 2 * ob_J0 op)%Z /\ Z.even (tj x + tj y) = true
  /\ Z.even (ol_l (o_lab x) + ob_g0 op + ol_l (o_lab y)) = true
  /\ (o_2Tz x = o_2Tz y + 2 * ob_Tz0 op)%Z.
(** element of [T(1) + T(2)] between the product states |c d;J'> and |a b;J> *)
Definition sum_of_both (F1 F2 : factor1) (op : obop) (J' J : Z) (c d a b : orb) : R :=
  (if orb_eqb d b then F1 (tj c) (tj d) J' (tj a) (tj b) J (ob_J0 op) * matel op c a else 0)
  + (if orb_eqb c a then F2 (tj c) (tj d) J' (tj a) (tj b) J (ob_J0 op) * matel op d b else 0).
(** element of [T1(1) x T2(2)]_K *)
Definition product_of_both (F12 : factor12) (op1 op2 : obop) (K J' J : Z) (c d a b : orb) : R :=
  F12 (tj c) (tj d) J' (tj a) (tj b) J (ob_J0 op1) (ob_J0 op2) K * matel op1 c a * matel op2 d b.

(** symmetry of the recoupling coefficient (9-j symbol) under exchange of the two particles, for equal ranks *)
Definition exchange_symmetric (F12 : factor12) (k K : Z) : Prop :=
  forall c d J' a b J, Z.odd c = true -> Z.odd d = true -> Z.odd a = true -> Z.odd b = true ->
  F12 d c J' b a J k k K
  = (if Z.even ((2 * J' + c + d + 2 * J + a + b + 4 * k + 2 * K) / 2) then 1 else -1) * F12 c d J' a b J k k K.

Definition half_int (a : orb) : Prop := Z.odd (tj a) = true.
Definition orbitals_half (os : ospace) : Prop := forall x, Forall (fun o => Z.odd (ol_2j o) = true) (os x).
(** the states of a subspace refer to existing orbitals *)
Definition in_range (os : ospace) (s : subspace) : Prop :=
  Forall (fun ij => (fst ij < length (os (sp1 (ss_species s))))%nat /\ (snd ij < length (os (sp2 (ss_species s))))%nat) (ss_states s).
(** orbitals of a state *)
Definition orbs_of (os : ospace) (s : subspace) (i : nat) (p : orb * orb) : Prop :=
  exists la lb, orbitals_of os s i (la, lb) /\ nth_error (ss_states s) i = Some (o_ix (fst p), o_ix (snd p))
  /\ o_lab (fst p) = la /\ o_lab (snd p) = lb /\ o_sp (fst p) = sp1 (ss_species s) /\ o_sp (snd p) = sp2 (ss_species s).

(** triangle inequality for integer angular momenta *)
Definition tri_ok (J' J K : Z) : Prop := (Z.abs (J' - J) <= K <= J' + J)%Z.

(** the number operator: scalar, with unit elements *)
Definition number_op : obop := ObOp 0 0 0 (fun x y => if orb_eqb x y then 1 else 0).
(** a coefficient which is 1 for scalar operators between equal orbitals *)
Definition unit_scalar (F : factor1) : Prop := forall c d J, F c d J c d J 0%Z = 1.
