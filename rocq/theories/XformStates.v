(** Overlaps of two-body states, for C22 and C130. *)
From Coq Require Import List ZArith Reals.
From Verif Require Import Base H2Model MapModel RMat XformModel SepModel SepSpec.
Open Scope R_scope.

(** overlap of the normalised antisymmetrised states of the orbitals c, d and a, b, given the overlaps [u] of orbitals *)
Definition state_overlap (u : orb -> orb -> R) (cd ab : orb * orb) (J : Z) : R :=
  nfactor (fst cd) (snd cd) * nfactor (fst ab) (snd ab)
  * antisymmetrised (fun c d a b => u c a * u d b) (fst cd) (snd cd) J (fst ab) (snd ab) J.
(** the overlaps of orbitals given by numbers for their labels: zero for different species, l or j *)
Definition same_slj (x y : orb) : Prop := o_sp x = o_sp y /\ ol_l (o_lab x) = ol_l (o_lab y) /\ ol_2j (o_lab x) = ol_2j (o_lab y).
Definition overlaps_by (ov : overlaps) (u : orb -> orb -> R) : Prop :=
  forall x y, (same_slj x y -> u x y = ov (o_sp x) (o_lab x) (o_lab y)) /\ (~ same_slj x y -> u x y = 0).
