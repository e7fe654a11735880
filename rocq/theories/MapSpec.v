(** Vocabulary for C16-C19: labelled two-body states. *)
From Coq Require Import List ZArith Bool.
From Verif Require Import Base H2Model MapModel.
Import ListNotations.
Open Scope Z_scope.

(** the two orbitals (by their labels n, l, 2j) of state [i] of a subspace *)
Definition orbitals_of (os : ospace) (s : subspace) (i : nat) (p : olabel * olabel) : Prop :=
  exists a b, nth_error (ss_states s) i = Some (a, b)
  /\ nth_error (os (sp1 (ss_species s))) a = Some (fst p)
  /\ nth_error (os (sp2 (ss_species s))) b = Some (snd p).

Definition like_species (s : species) : Prop := s <> PN.

(** Suhonen (8.30): |ba;J> = - (-1)^(J-ja-jb) |ab;J> *)
Definition exchange_phase (J : Z) (a b : olabel) : Z :=
  - (if Z.even (J - (ol_2j a + ol_2j b) / 2) then 1 else -1).

(** state [j] of [t] is [ph] times state [i] of [s] *)
Inductive same_state (os : ospace) (s : subspace) (i : nat) (ot : ospace) (t : subspace) (j : nat) : Z -> Prop :=
| same_direct : forall a b, orbitals_of os s i (a, b) -> orbitals_of ot t j (a, b) -> same_state os s i ot t j 1
| same_exchanged : forall a b, orbitals_of os s i (a, b) -> orbitals_of ot t j (b, a) ->
    like_species (ss_species s) -> a <> b -> same_state os s i ot t j (exchange_phase (ss_J s) a b).

(** spaces as the basis library builds them *)
Record space_ok (os : ospace) (sp : list subspace) : Prop := {
  so_orbitals : forall x, NoDup (os x);
  so_halfint : forall x, Forall (fun o => Z.odd (ol_2j o) = true /\ 0 <= ol_2j o) (os x);
  so_labels : NoDup (map sub_labels sp);
  so_states : Forall (fun s => NoDup (ss_states s) /\ ss_states s <> []) sp;
  so_range : Forall (fun s => Forall (fun ij =>
      (fst ij < length (os (sp1 (ss_species s))))%nat /\ (snd ij < length (os (sp2 (ss_species s))))%nat
      /\ (like_species (ss_species s) -> (fst ij <= snd ij)%nat)) (ss_states s)) sp
}.

(** the bra and ket subspaces of a sector are those of the space under the sector's indices *)
Definition sector_of (sp : list subspace) (x : sector) : Prop :=
  nth_error sp (s_bi x) = Some (s_bra x) /\ nth_error sp (s_ki x) = Some (s_ket x).
(** sectors between subspaces of the same quantum numbers *)
Definition same_sector (x y : sector) : Prop :=
  sub_labels (s_bra x) = sub_labels (s_bra y) /\ sub_labels (s_ket x) = sub_labels (s_ket y).
Definition dims {D} (m : mat D) (x : sector) : Prop :=
  rows m = length (ss_states (s_bra x)) /\ cols m = length (ss_states (s_ket x)).
Definition same_matrix {D} (m m' : mat D) : Prop :=
  rows m = rows m' /\ cols m = cols m'
  /\ forall i j, (i < rows m)%nat -> (j < cols m)%nat -> at_ m i j = at_ m' i j.

(** subspace [s] of one space has a counterpart in the other; state [i] of [s] has one *)
Definition sub_in (s : subspace) (sp : list subspace) : Prop := exists t, In t sp /\ sub_labels s = sub_labels t.
Definition state_in (os : ospace) (s : subspace) (i : nat) (ot : ospace) (sp : list subspace) : Prop :=
  exists t j ph, In t sp /\ sub_labels s = sub_labels t /\ same_state os s i ot t j ph.
