(** Vocabulary for C20-C22. *)
From Coq Require Import List ZArith Reals Bool.
From Verif Require Import Base H2Model MapModel MapSpec RMat XformModel.
Import ListNotations.

(** A pair of orbital indices is a possible two-body state of the quantum numbers of [s]:
    canonical order for like species, J allowed by the triangle inequality and the exclusion
    principle, parity as required. *)
Definition pair_allowed (os : ospace) (s : subspace) (ij : nat * nat) : Prop :=
  exists a b, nth_error (os (sp1 (ss_species s))) (fst ij) = Some a
  /\ nth_error (os (sp2 (ss_species s))) (snd ij) = Some b
  /\ (like_species (ss_species s) -> (fst ij <= snd ij)%nat)
  /\ (like_species (ss_species s) -> fst ij = snd ij -> Z.even (ss_J s) = true)
  /\ (Z.abs (ol_2j a - ol_2j b) <= 2 * ss_J s <= ol_2j a + ol_2j b)%Z
  /\ Z.even (ol_l a + ol_l b) = Z.even (ss_g s).

Definition orbitals_ok (os : ospace) : Prop :=
  (forall x, NoDup (os x)) /\ forall x, Forall (fun o => Z.odd (ol_2j o) = true) (os x).
Definition states_ok (os : ospace) (s : subspace) : Prop :=
  NoDup (ss_states s) /\ Forall (pair_allowed os s) (ss_states s).
(** all possible states *)
Definition complete (os : ospace) (s : subspace) : Prop :=
  NoDup (ss_states s) /\ forall ij, In ij (ss_states s) <-> pair_allowed os s ij.

(** The subspaces of a sector come from one space under the sector's indices, and subspaces of a space
    have distinct quantum numbers. *)
Definition sector_ok (x : sector) : Prop :=
  (s_bi x = s_ki x -> s_bra x = s_ket x) /\ (sub_labels (s_bra x) = sub_labels (s_ket x) -> s_bi x = s_ki x).

(** overlaps of a basis with itself *)
Definition identity_overlaps (os : ospace) (ov : overlaps) : Prop :=
  forall sp a b, In a (os sp) -> In b (os sp) -> (a = b -> ov sp a b = 1%R) /\ (a <> b -> ov sp a b = 0%R).
(** ov13 = ov12 . ov23 within each l, j *)
Definition composed (o2 : ospace) (ov12 ov23 ov13 : overlaps) : Prop :=
  forall sp a c, same_lj a c = true ->
  ov13 sp a c = lsum (filter (same_lj a) (o2 sp)) (fun b => (ov12 sp a b * ov23 sp b c)%R).
Definition symmetric (m : mat R) : Prop := rows m = cols m /\ forall i j, (i < rows m)%nat -> (j < cols m)%nat -> at_ m i j = at_ m j i.
Definition madd (m m' : mat R) : mat R := Mat (rows m) (cols m) (fun i j => (at_ m i j + at_ m' i j)%R).
Definition mscale (c : R) (m : mat R) : mat R := Mat (rows m) (cols m) (fun i j => (c * at_ m i j)%R).
