(** Model of libraries/tbme/tbme_xform.cpp: change of single-particle basis for two-body matrices.
    Arithmetic is over the real numbers. *)
From Coq Require Import List ZArith Reals Bool.
From Verif Require Import Base H2Model MapModel RMat.
Import ListNotations.
Open Scope R_scope.
Open Scope outcome_scope.

(** basis::MatrixElementLJPN on the radial overlap data: the number stored for a source orbital and a
    target orbital of the given species (labels n, l, 2j).  Lookup in the radial spaces is not modelled. *)
Definition overlaps := ospecies -> olabel -> olabel -> R.

Definition same_lj (a b : olabel) : bool := (ol_l a =? ol_l b)%Z && (ol_2j a =? ol_2j b)%Z.

(** OneBodyOverlap (tbme_xform.cpp:24-53) *)
Definition one_body_overlap (ov : overlaps) (sp : ospecies) (a a' : olabel) : R :=
  if same_lj a a' then 0 + ov sp a a' else 0.

(** TwoBodyOverlapProduct (tbme_xform.cpp:55-95) *)
Definition overlap_product (ov : overlaps) (spa spb : ospecies) (a1 a2 a1' a2' : olabel) : R :=
  if negb (same_lj a1 a1' && same_lj a2 a2') then 0
  else one_body_overlap ov spa a1 a1' * one_body_overlap ov spb a2 a2'.

(** ParitySign of an integer-valued half-integer (am library), given its double *)
Definition parity_sign (tw : Z) : R := if Z.even (tw / 2) then 1 else -1.

(** TwoBodyOverlap (tbme_xform.cpp:97-141), after its assertions *)
Definition two_body_overlap (ov : overlaps) (sp : species) (J : Z) (a1 a2 a1' a2' : olabel) : R :=
  let me := 0 + overlap_product ov (sp1 sp) (sp2 sp) a1 a2 a1' a2' in
  if species_eqb sp PN then me
  else let phase := - parity_sign (2 * J - ol_2j a1 - ol_2j a2) in
       me + phase * overlap_product ov (sp1 sp) (sp2 sp) a1 a2 a2' a1'.

Definition inv_sqrt2 : R := 1 / sqrt 2.

(** the two orbitals of state [i] (TwoBodyStateJJJPN, GetOrbital1, GetOrbital2): indices and labels *)
Definition state_orbitals (os : ospace) (s : subspace) (i : nat) : outcome (nat * nat * olabel * olabel) :=
  ' (x, y) <- get (nth_error (ss_states s) i) ;;
  a <- get (nth_error (os (sp1 (ss_species s))) x) ;;
  b <- get (nth_error (os (sp2 (ss_species s))) y) ;;
  Ok (x, y, a, b).

(** body of the loop in TwoBodyTransformationMatrix (tbme_xform.cpp:175-198) *)
Definition xform_element (ov : overlaps) (os ot : ospace) (s t : subspace) (i j : nat) : outcome R :=
  ' (x, y, a1, a2) <- state_orbitals os s i ;;
  ' (x', y', a1', a2') <- state_orbitals ot t j ;;
  cassert (species_eqb (ss_species s) (ss_species t)) ;;;
  cassert (ss_J s =? ss_J t)%Z ;;;
  let me := two_body_overlap ov (ss_species t) (ss_J t) a1 a2 a1' a2' in
  Ok (if species_eqb (ss_species s) PN then me
      else let me := if Nat.eqb x y then me * inv_sqrt2 else me in
           if Nat.eqb x' y' then me * inv_sqrt2 else me).

(** TwoBodyTransformationMatrix (tbme_xform.cpp:144-202) *)
Definition xform_matrix (ov : overlaps) (os ot : ospace) (s t : subspace) : outcome (mat R) :=
  cassert (species_eqb (ss_species s) (ss_species t)) ;;;
  fill 0 (ss_size s) (ss_size t) (xform_element ov os ot s t).

(** TwoBodyTransformedMatrix (tbme_xform.cpp:208-269) *)
Definition transformed (ov : overlaps) (os ot : ospace) (ss ts : sector) (m : mat R) : outcome (mat R) :=
  ku <- xform_matrix ov os ot (s_ket ss) (s_ket ts) ;;
  if is_diag ss then
    w <- mmul (transpose ku) m ;; mmul w ku
  else
    bu <- xform_matrix ov os ot (s_bra ss) (s_bra ts) ;;
    w <- mmul (transpose bu) m ;; mmul w ku.
