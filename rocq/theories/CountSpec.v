(** Vocabulary for C47, C48, C71. *)
From Coq Require Import List ZArith Reals Bool Sorted.
From Verif Require Import Base H2Model CountModel.
Import ListNotations.
Open Scope Z_scope.

(** an orbital n, l, j = l +- 1/2 > 0 of either species whose weight is within the cutoff *)
Definition orbital_within (wt : Z -> Z -> R) (weight_max : R) (o : oinfo) : Prop :=
  0 <= oi_n o /\ 0 <= oi_l o /\ (oi_2j o = 2 * oi_l o + 1 \/ oi_2j o = 2 * oi_l o - 1) /\ 0 < oi_2j o
  /\ (wt (oi_n o) (oi_l o) <= weight_max)%R /\ oi_w o = wt (oi_n o) (oi_l o).

(** the (doubled) angular momenta ja, jb couple to J1, and J1 and jc to J *)
Definition couples (ja jb jc J J1 : Z) : Prop :=
  Z.abs (ja - jb) <= 2 * J1 <= ja + jb /\ Z.abs (2 * J1 - jc) <= J <= 2 * J1 + jc.

(** a list of all the things with property [P], each once *)
Definition lists_all {A} (P : A -> Prop) (l : list A) : Prop := NoDup l /\ forall x, In x l <-> P x.

(** orbitals number i <= k <= m within a cut, with their coupling *)
Definition three_orbitals (cut : Z -> Z -> Z -> Prop) (orbs : list sporb) (P : Z -> Z -> Z -> Prop) (i k m : nat) : Prop :=
  (i <= k <= m)%nat /\ exists a b c, nth_error orbs i = Some a /\ nth_error orbs k = Some b /\ nth_error orbs m = Some c
  /\ cut (fst a) (fst b) (fst c) /\ P (snd a) (snd b) (snd c).
Definition each_within (N a b c : Z) : Prop := a <= N /\ b <= N /\ c <= N.
Definition sum_within (N a b c : Z) : Prop := a + b + c <= N.
(** three-body states with given intermediate angular momentum, and all *)
Definition states_J1 (cut : Z -> Z -> Z -> Prop) (orbs : list sporb) (J1 J : Z) (q : nat * nat * nat) : Prop :=
  let '(i, k, m) := q in three_orbitals cut orbs (fun ja jb jc => couples ja jb jc J J1) i k m.
Definition states (cut : Z -> Z -> Z -> Prop) (orbs : list sporb) (J : Z) (q : nat * nat * nat * Z) : Prop :=
  let '(i, k, m, J1) := q in three_orbitals cut orbs (fun ja jb jc => couples ja jb jc J J1) i k m.
