(** Concrete data for the examples beside C20-C22: two s1/2 orbitals per species, J=0, positive parity. *)
From Coq Require Import List ZArith Reals Lra Lia Bool.
From Verif Require Import Base BaseLemmas H2Model MapModel MapSpec MapProof RMat XformModel XformSpec XformProof XformFinal.
Import ListNotations.
Open Scope R_scope.

Definition s0 := OL 0 0 1. Definition s1 := OL 1 0 1.
Definition xos : ospace := fun _ => [s0; s1].
Definition xpp : subspace := Sub PP 0 0 [(0, 0); (0, 1); (1, 1)]%nat.
Definition xpn : subspace := Sub PN 1 0 [(0, 0); (0, 1); (1, 0); (1, 1)]%nat.
Definition xsec : sector := Sec xpp xpp 0 0.
Definition xsec' : sector := Sec xpp xpn 0 1.
Definition xid : overlaps := fun _ a b => if olabel_eqb a b then 1 else 0.
Definition xall : overlaps := fun _ _ _ => 1.
Definition xcomp : overlaps := fun sp a c => lsum (filter (same_lj a) (xos sp)) (fun b => xall sp a b * xall sp b c).

Lemma x_orbitals : orbitals_ok xos.
Proof.
  split; intros x; cbn.
  - constructor; [cbn; intros [H|[]]; discriminate|]. constructor; [intros []|constructor].
  - repeat constructor.
Qed.
Lemma x_range : forall (k : nat) (a : olabel), nth_error [s0; s1] k = Some a -> (k < 2)%nat /\ ol_l a = 0%Z /\ ol_2j a = 1%Z.
Proof. intros [|[|[|k]]] a H; cbn in H; try discriminate; injection H as <-; cbn; repeat split; lia. Qed.
Ltac nodup_pairs := repeat (constructor; [cbn; intuition discriminate|]); constructor.
Lemma x_pp : complete xos xpp.
Proof.
  split; [cbn; nodup_pairs|]. intros [i j]. split.
  - cbn. intros H. decompose [or] H; try contradiction;
      match goal with E : (_, _) = (_, _) |- _ => injection E as <- <- end; repeat eexists; cbn; lia || reflexivity || auto.
  - intros (a & b & Ha & Hb & Hc & HP & _). cbn in *. apply x_range in Ha, Hb. specialize (Hc ltac:(discriminate)).
    assert (i = 0 /\ j = 0 \/ i = 0 /\ j = 1 \/ i = 1 /\ j = 1)%nat as [[-> ->]|[[-> ->]|[-> ->]]] by lia; auto.
Qed.
Lemma x_pn : complete xos xpn.
Proof.
  split; [cbn; nodup_pairs|]. intros [i j]. split.
  - cbn. intros H. decompose [or] H; try contradiction;
      match goal with E : (_, _) = (_, _) |- _ => injection E as <- <- end; repeat eexists; cbn; lia || reflexivity || (intros Hl; elim Hl; reflexivity).
  - intros (a & b & Ha & Hb & _). cbn in *. apply x_range in Ha, Hb.
    assert (i = 0 /\ j = 0 \/ i = 0 /\ j = 1 \/ i = 1 /\ j = 0 \/ i = 1 /\ j = 1)%nat as [[-> ->]|[[-> ->]|[[-> ->]|[-> ->]]]] by lia; auto.
Qed.
Lemma x_sec : sector_ok xsec.
Proof. split; reflexivity. Qed.
Lemma x_sec' : sector_ok xsec'.
Proof. split; discriminate. Qed.
Lemma x_id : identity_overlaps xos xid.
Proof.
  intros sp a b _ _. unfold xid. split; [intros ->|].
  - assert (E := proj2 (olabel_eqb_ok b b) eq_refl). rewrite E. reflexivity.
  - intros Hne. destruct (olabel_eqb a b) eqn:E; [|reflexivity]. elim Hne. apply (olabel_eqb_ok a b). exact E.
Qed.
Lemma x_comp : composed xos xall xall xcomp.
Proof. intros sp a c _. reflexivity. Qed.
Lemma x_comp_value : forall sp, xcomp sp s0 s1 = 2.
Proof. intros sp. unfold xcomp, xall. cbn. ring. Qed.
Definition one3 : mat R := Mat 3 3 (fun i j => if Nat.eqb i j then 1 else 0).
Lemma x_value : exists r, transformed xall xos xos xsec xsec one3 = Ok r /\ at_ r 0 0 = 4.
Proof.
  destruct (transformed_ok xall xos xos xsec xsec one3) as (r & E & _ & A);
    try (apply complete_ok, x_pp); try apply x_sec; try (split; reflexivity).
  exists r. split; [exact E|]. rewrite A by (cbn; lia). unfold sand, rsum. cbn - [two_body_overlap inv_sqrt2 xel].
  unfold xel, nfac. cbn - [two_body_overlap inv_sqrt2]. rewrite !tbo_like by discriminate. unfold O1, one_body_overlap, phi, parity_sign, orb1, orb2, xall. cbn - [inv_sqrt2].
  transitivity (8 * ((inv_sqrt2 * inv_sqrt2) * (inv_sqrt2 * inv_sqrt2)) + 4 * (inv_sqrt2 * inv_sqrt2)); [ring|].
  rewrite inv_sqrt2_sq. lra.
Qed.
