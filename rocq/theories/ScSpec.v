(** Vocabulary for C165-C168. *)
From Coq Require Import List ZArith Bool.
From Verif Require Import Base CountModel CountSpec.
Import ListNotations.
Open Scope Z_scope.

(** an orbital of an oscillator shell N >= 0: half-integers j = 1/2, ..., N + 1/2, doubled *)
Definition is_orbital (a : sporb) : Prop := 0 <= fst a /\ Z.odd (snd a) = true /\ 1 <= snd a <= 2 * fst a + 1.
(** the canonical order of orbitals: by shell, then by angular momentum *)
Definition canon (a b : sporb) : Prop := fst a < fst b \/ (fst a = fst b /\ snd a <= snd b).
(** the angular momenta of a and b couple to the integer J *)
Definition pair_couples (a b : sporb) (J : Z) : Prop := Z.abs (snd a - snd b) <= 2 * J <= snd a + snd b.
(** a pair of orbitals in canonical order within a cut, coupled to J *)
Definition pair_state (cut : Z -> Z -> Prop) (J : Z) (p : sporb * sporb) : Prop :=
  is_orbital (fst p) /\ is_orbital (snd p) /\ canon (fst p) (snd p) /\ cut (fst (fst p)) (fst (snd p)) /\ pair_couples (fst p) (snd p) J.
Definition both_within (N a b : Z) : Prop := a <= N /\ b <= N.
Definition pair_sum_within (N a b : Z) : Prop := a + b <= N.
(** orbitals whose pair with themselves couples to J within the cut *)
Definition same_orbital (cut : Z -> Z -> Prop) (J : Z) (a : sporb) : Prop := is_orbital a /\ cut (fst a) (fst a) /\ 0 <= J <= snd a.
(** the states of two identical nucleons: in one and the same orbital they couple to an even J only *)
Definition identical_state (cut : Z -> Z -> Prop) (J : Z) (p : sporb * sporb) : Prop :=
  pair_state cut J p /\ (fst p = snd p -> Z.even J = true).
(** the states of a proton and a neutron: any orbitals *)
Definition pn_state (cut : Z -> Z -> Prop) (J : Z) (p : sporb * sporb) : Prop :=
  is_orbital (fst p) /\ is_orbital (snd p) /\ cut (fst (fst p)) (fst (snd p)) /\ pair_couples (fst p) (snd p) J.
(** pairs of orbitals through shell N in the order of their angular momenta only *)
Definition j_pair (N J : Z) (p : sporb * sporb) : Prop :=
  is_orbital (fst p) /\ is_orbital (snd p) /\ both_within N (fst (fst p)) (fst (snd p)) /\ snd (fst p) <= snd (snd p)
  /\ pair_couples (fst p) (snd p) J.
(** two different orbitals with the same angular momentum *)
Definition like_pair (N J : Z) (p : sporb * sporb) : Prop :=
  is_orbital (fst p) /\ is_orbital (snd p) /\ both_within N (fst (fst p)) (fst (snd p)) /\ fst (fst p) < fst (snd p)
  /\ snd (fst p) = snd (snd p) /\ 0 <= J <= snd (fst p).
(** triples of orbitals through shell N in the order of their angular momenta only, coupled through J1 to J *)
Definition j_triple (N J J1 : Z) (t : sporb * sporb * sporb) : Prop :=
  let '(a, b, c) := t in is_orbital a /\ is_orbital b /\ is_orbital c /\ each_within N (fst a) (fst b) (fst c)
  /\ snd a <= snd b <= snd c /\ couples (snd a) (snd b) (snd c) J J1.
Definition j_state (N J : Z) (t : sporb * sporb * sporb * Z) : Prop := j_triple N J (snd t) (fst t).
(** rows of the two-body table: by shell, then by J *)
Definition row_before (p q : Z * Z * Z * Z * Z) : Prop :=
  let '(N, J, _, _, _) := p in let '(N', J', _, _, _) := q in N < N' \/ (N = N' /\ J < J').
