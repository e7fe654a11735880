(** Concrete data for the examples beside C23-C25, C53, C54. *)
From Coq Require Import List ZArith Reals Lra Lia Bool Permutation.
From Verif Require Import Base BaseLemmas H2Model MapModel MapSpec MapProof RMat XformModel XformSpec XformProof ExXform
  SepModel SepSpec SepProof SepFinal.
Import ListNotations.
Open Scope R_scope.

(** a subspace holding a pair of proton orbitals in both orders *)
Definition xboth : subspace := Sub PP 1 0 [(0, 1); (1, 0)]%nat.
Definition xsecb : sector := Sec xboth xboth 0 0.
Definition p0 := Orb SP 0 s0. Definition p1 := Orb SP 1 s1.
Lemma xb_0 : orbs_of xos xboth 0 (p0, p1).
Proof. exists s0, s1. repeat split. exists 0%nat, 1%nat. repeat split. Qed.
Lemma xb_1 : orbs_of xos xboth 1 (p1, p0).
Proof. exists s1, s0. repeat split. exists 1%nat, 0%nat. repeat split. Qed.
Lemma xb_range : in_range xos xboth.
Proof. repeat constructor; cbn; lia. Qed.
Lemma x_half : orbitals_half xos.
Proof. intros x. repeat constructor. Qed.
Lemma x_pos : orbitals_pos xos.
Proof. intros x. repeat constructor; cbn; lia. Qed.

Definition xF : factor1 := fun _ _ _ _ _ _ _ => 1.
Definition xF12 : factor12 := fun c d J' a b J k1 k2 K =>
  if Z.even ((2 * J' + c + d + 2 * J + a + b + 2 * k1 + 2 * k2 + 2 * K) / 2) then IZR (1 + k1 * k2) else 0.
Lemma x_symF : forall k K, exchange_symmetric xF12 k K.
Proof.
  intros k K c d J' a b J _ _ _ _. unfold xF12.
  replace (2 * J' + d + c + 2 * J + b + a + 2 * k + 2 * k + 2 * K)%Z with (2 * J' + c + d + 2 * J + a + b + 4 * k + 2 * K)%Z by lia.
  replace (2 * J' + c + d + 2 * J + a + b + 2 * k + 2 * k + 2 * K)%Z with (2 * J' + c + d + 2 * J + a + b + 4 * k + 2 * K)%Z by lia.
  destruct (Z.even _); ring.
Qed.
(** a scalar one-body operator with distinct elements *)
Definition xop : obop := ObOp 0 0 0 (fun p q => IZR (1 + Z.of_nat (o_ix p) * 2 + Z.of_nat (o_ix q) * 2)).
Lemma x_upgrade_value : exists r, upgrade xF xF xop xos xsecb 3 = Ok r /\ at_ r 0 0 = 3 /\ at_ r 0 1 = -3.
Proof.
  destruct (upgrade_perm xF xF xop xos xsecb 3 xb_range xb_range x_half ltac:(unfold two31; lia)) as (r & E & D & H & _).
  exists r. split; [exact E|]. assert (T : tri_ok (ss_J (s_bra xsecb)) (ss_J (s_ket xsecb)) (ob_J0 xop)) by (unfold tri_ok; cbn; lia).
  rewrite (H T _ _ _ _ _ _ xb_0 xb_0), (H T _ _ _ _ _ _ xb_0 xb_1).
  unfold antisymmetrised, sum_of_both, nfactor, exch, matel, xF. cbn. split; lra.
Qed.
Lemma x_tensor_value : exists r, tensor xF12 false xop xop xos xsecb 0 = Ok r /\ at_ r 0 0 <> 0.
Proof.
  destruct (tensor_formula xF12 false xop xop xos xsecb 0 xb_range xb_range x_half ltac:(unfold tri_ok; cbn; lia)
     ltac:(discriminate) ltac:(intros _; apply x_symF)) as (r & E & D & H & _).
  exists r. split; [exact E|]. assert (T : tri_ok (ss_J (s_bra xsecb)) (ss_J (s_ket xsecb)) 0) by (unfold tri_ok; cbn; lia).
  rewrite (H T _ _ _ _ _ _ xb_0 xb_0). unfold antisymmetrised, product_of_both, nfactor, exch, matel, xF12. cbn. lra.
Qed.
Lemma x_sym_op : forall p q, matel xop p q = matel xop q p.
Proof.
  intros p q. unfold matel. assert (E : ob_allowed xop p q = ob_allowed xop q p).
  { unfold ob_allowed, xop. cbn [ob_J0 ob_g0 ob_Tz0]. rewrite !Z.add_0_r. f_equal; [f_equal|].
    - unfold triangle. change (2 * 0)%Z with 0%Z. rewrite !Z.sub_0_r, !Z.add_0_r, (Z.add_comm (tj p)).
      assert (Hle : (Z.abs (tj q) <= tj p <= tj q <-> Z.abs (tj p) <= tj q <= tj p)%Z) by lia.
      apply eq_true_iff_eq. rewrite !andb_true_iff, !Z.leb_le. tauto.
    - rewrite Z.add_comm. reflexivity.
    - apply Z.eqb_sym. }
  rewrite E. change (ob_me xop) with (fun p q => IZR (1 + Z.of_nat (o_ix p) * 2 + Z.of_nat (o_ix q) * 2)). cbv beta. destruct (ob_allowed xop q p); [|reflexivity]. f_equal. lia.
Qed.
Lemma x_identity_value : exists r, identity_matrix xsec 3 = Ok r /\ at_ r 1 1 = 1 / 3 /\ at_ r 0 1 = 0.
Proof. eexists. split; [reflexivity|]. cbn. split; lra. Qed.
