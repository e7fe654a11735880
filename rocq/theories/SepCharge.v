(** C23: the change of charge in one-body elements, in terms of protons and neutrons. *)
From Coq Require Import ZArith Reals Bool Lia.
From Verif Require Import Base H2Model MapModel RMat XformModel SepModel.
Open Scope R_scope.

(** A nonzero element of an operator with Tz0 = 1 leads from a neutron to a proton, with -1 from a proton to a neutron, with 0
    between nucleons of the same kind. *)
Lemma charge_rule : forall op x y, matel op x y <> 0 ->
  match o_sp x, o_sp y with SP, SN => ob_Tz0 op = 1%Z | SN, SP => ob_Tz0 op = (-1)%Z | _, _ => ob_Tz0 op = 0%Z end.
Proof.
  intros op x y H. unfold matel in H. destruct (ob_allowed op x y) eqn:A; [|contradiction]. unfold ob_allowed in A.
  apply andb_prop in A. destruct A as [_ A]. apply Z.eqb_eq in A. unfold o_2Tz in A. destruct (o_sp x), (o_sp y); lia.
Qed.
Definition raising : obop := {| ob_J0 := 0; ob_g0 := 0; ob_Tz0 := 1; ob_me := fun _ _ => 1 |}.
Lemma charge_case : matel raising (Orb SP 0 (OL 0 0 1)) (Orb SN 0 (OL 0 0 1)) = 1 /\ matel raising (Orb SN 0 (OL 0 0 1)) (Orb SP 0 (OL 0 0 1)) = 0.
Proof. split; reflexivity. Qed.
