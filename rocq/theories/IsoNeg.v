(** C43: isospin components of the Coulomb operator outside 0, 1, 2. *)
From Coq Require Import List ZArith Reals Bool Lia.
From Verif Require Import Base RMat OscModel BlockModel ObioModel MoshModel JpvModel IsoModel.
Import ListNotations.
Open Scope Z_scope.

(** A negative isospin is used as index. *)
Lemma coulomb_negative : forall radial t Nmax T0_min T0_max sp zero, T0_min < 0 -> T0_min <= T0_max -> coulomb radial t Nmax 0 0 T0_min T0_max sp zero = UB.
Proof.
  intros radial t Nmax T0_min T0_max sp zero H0 H1. unfold coulomb. cbn [Z.eqb cassert bind]. unfold zrange.
  destruct (Z.to_nat (T0_max - T0_min + 1)) as [|n] eqn:En; [lia|]. cbn [seq map for_each]. unfold at_z at 1.
  replace (T0_min + Z.of_nat 0) with T0_min by lia. rewrite (proj2 (Z.ltb_lt T0_min 0) H0). reflexivity.
Qed.
