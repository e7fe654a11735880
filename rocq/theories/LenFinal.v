(** Lenpic operators: integrals, symmetry, the leading order, units, errors. *)
From Coq Require Import List ZArith Reals Bool Lra Lia String.
From Verif Require Import Base RMat OscModel OscSpec OscProof BlockModel BlockProof MoshModel JpvModel JpvSpec IsoModel TrfModel TrfSpec TrfProof RmeModel RmeSpec RmeProof RmeFinal.
From Verif Require Import LenModel WfModel WfSpec WfLag WfInt WfProof WfOsc WfEl WfSqr WfMesh WfGrid WfFinal LenSpec LenInt LenMesh LenGrid LenProof LenCm.
Import ListNotations.
Open Scope R_scope.

(** * integrals *)
Section Integrals.
Variables (tgamma : R -> R) (b range M : R).
Hypotheses (Ht : gamma_fn tgamma) (Hb : 0 < b) (HM : 0 < M).
Lemma b2_pos : 0 < b * sqrt 2.
Proof. apply Rmult_lt_0_compat; [exact Hb|apply sqrt_lt_R0; lra]. Qed.
Lemma yukawa_mesh : forall k l l' n n', (k <= 2)%nat -> (0 <= l)%Z -> (0 <= l')%Z -> range <> 0 \/ (k < 2)%nat \/ (0 < l + l')%Z ->
  mesh_correct (b * sqrt 2) (yukawa k M range (psi tgamma b l n) (psi tgamma b l' n')).
Proof.
  intros k l l' n n' Hk Hl Hl' H. apply decaying_mesh; [exact b2_pos|]. apply yukawa_decaying; try apply gamma_fn_pos; try assumption; [exact b2_pos|].
  destruct H as [H|[H|H]]; [left; exact H|right; left; exact H|right; right; lia].
Qed.
Lemma tensor_mesh : forall l l' n n', range <> 0 -> mesh_correct (b * sqrt 2) (tensor_yukawa M range (psi tgamma b l n) (psi tgamma b l' n')).
Proof.
  intros l l' n n' H. apply decaying_mesh; [exact b2_pos|]. apply tensor_decaying; try apply gamma_fn_pos; try assumption. exact b2_pos.
Qed.
Lemma contact_mesh : forall l n, range <> 0 -> mesh_correct (b * sqrt 2) (with_contact range (psi tgamma b l n)).
Proof.
  intros l n H. apply decaying_mesh; [exact b2_pos|]. apply contact_decaying; try apply gamma_fn_pos; try assumption. exact b2_pos.
Qed.
End Integrals.

(** * commuted integrands *)
Lemma Q_ext : forall quad npts c h h', (forall r, h r = h' r) -> Q quad npts c h = Q quad npts c h'.
Proof.
  intros quad npts c h h' H. unfold Q, samples. do 2 f_equal. apply map_ext. intros z. unfold on_mesh. rewrite H. reflexivity.
Qed.
Lemma yukawa_comm : forall k M range f g r, yukawa k M range f g r = yukawa k M range g f r.
Proof. intros. unfold yukawa. ring. Qed.
Lemma tensor_comm : forall M range f g r, tensor_yukawa M range f g r = tensor_yukawa M range g f r.
Proof. intros. unfold tensor_yukawa. ring. Qed.
Lemma gt_symmetric : forall tgamma quad racah1 racah2 racah12 crme M F g c3 c4 D b range npts T0 x N' N,
  gt_rme tgamma quad racah1 racah2 racah12 crme M F g c3 c4 D b range npts T0 x N' x N = gt_rme tgamma quad racah1 racah2 racah12 crme M F g c3 c4 D b range npts T0 x N x N'.
Proof.
  intros. destruct x as [[[L S] J] T]. unfold gt_rme, gt_pion, gt_contact. destruct (T0 =? 1)%Z; [|reflexivity].
  rewrite (Q_ext quad npts (b * sqrt 2) _ _ (yukawa_comm 1 M range (psi tgamma b L (Z.to_nat ((N' - L) / 2))) (psi tgamma b L (Z.to_nat ((N - L) / 2))))).
  rewrite (Q_ext quad npts (b * sqrt 2) _ _ (tensor_comm M range (psi tgamma b L (Z.to_nat ((N' - L) / 2))) (psi tgamma b L (Z.to_nat ((N - L) / 2))))). ring.
Qed.

(** * leading order *)
Lemma lo_stored : forall racah1 racah2 Nmax sp o, rme_space Nmax sp -> o_J0 o = 1%Z -> o_g0 o = 0%Z -> in_range o 1 -> (0 <= o_T0_min o)%Z -> (o_T0_max o <= 2)%Z ->
  exists c, lo_gt racah1 racah2 o sp = Ok c /\ stores_num sp o c (fun T0 x N' y N => - (129 / 100) * spin_rme racah1 racah2 1 T0 x N' y N).
Proof.
  intros racah1 racah2 Nmax sp o Hsp HJ Hg Hi H0 H2. destruct (spin_stored racah1 racah2 Nmax sp o 1) as (c & Ec & Lc & Sc); try assumption; [lia|].
  unfold lo_gt. rewrite Ec. cbn [bind]. unfold scalar_multiply, at_z. change (1 <? 0)%Z with false. cbv iota. change (Z.to_nat 1) with 1%nat.
  destruct (Sc 1%Z ltac:(lia)) as (s1 & m1 & E1 & N1 & L1 & I1 & V1). change (Z.to_nat 1) with 1%nat in E1. rewrite E1. cbn [get bind].
  destruct (store_some _ c 1 (s1, map (mat_scale (- gA)) m1) ltac:(lia)) as (c' & Ec' & Lc' & Nc & Oc). rewrite Ec'. exists c'. split; [reflexivity|]. split; [lia|].
  intros T0 HT. destruct (Z.eq_dec T0 1) as [->|Hne].
  - exists s1, (map (mat_scale (- gA)) m1). split; [exact Nc|]. split; [exact N1|]. split; [rewrite map_length; exact L1|]. split; [exact I1|].
    intros q i k x y Hq Hx Hy. destruct (V1 q i k x y Hq Hx Hy) as (m & Hm & R1 & R2 & A). exists (mat_scale (- gA) m). split; [rewrite nth_error_map, Hm; reflexivity|].
    split; [exact R1|]. split; [exact R2|]. intros u v Hu Hv. cbn [mat_scale at_]. rewrite (A u v Hu Hv). cbn [nscale]. f_equal.
  - destruct (Sc T0 HT) as (s & ms & E & N & L & I & V). exists s, ms. split; [rewrite Oc by lia; exact E|]. split; [exact N|]. split; [exact L|]. split; [exact I|].
    intros q i k x y Hq Hx Hy. destruct (V q i k x y Hq Hx Hy) as (m & Hm & R1 & R2 & A). exists m. split; [exact Hm|]. split; [exact R1|]. split; [exact R2|].
    intros u v Hu Hv. rewrite (A u v Hu Hv). unfold rl, spin_rme. rewrite (proj2 (Z.eqb_neq _ _) Hne). cbn [andb same]. unfold same. f_equal. ring.
Qed.
