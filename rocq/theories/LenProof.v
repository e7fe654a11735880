(** Gamow-Teller operators of libraries/relative/lenpic_relative_me.cpp. *)
From Coq Require Import List ZArith Reals Bool Lra Lia.
From Verif Require Import Base RMat OscModel OscSpec BlockModel BlockProof MoshModel JpvModel JpvSpec IsoModel TrfModel TrfSpec TrfProof RmeModel RmeSpec RmeProof RmeFinal.
From Verif Require Import LenModel WfModel WfSpec WfLag WfInt WfProof WfOsc WfEl WfSqr WfMesh WfGrid WfFinal LenSpec LenInt LenMesh LenGrid.
Import ListNotations.
Open Scope R_scope.

Lemma couples3 : forall a k c, couplesb a k c = allowed_triangle a c k.
Proof. intros a k c. unfold couplesb, allowed_triangle. apply eq_true_iff_eq. rewrite !andb_true_iff, !Z.leb_le. lia. Qed.
Lemma index01_ok : forall s, (0 <= s <= 1)%Z -> index01 s = Ok tt.
Proof. intros s Hs. assert (H : s = 0%Z \/ s = 1%Z) by lia. destruct H as [->| ->]; reflexivity. Qed.
Lemma state_n : forall L u, Z.to_nat ((L + 2 * Z.of_nat u - L) / 2) = u.
Proof. intros L u. replace (L + 2 * Z.of_nat u - L)%Z with (Z.of_nat u * 2)%Z by ring. rewrite Z.div_mul by lia. apply Nat2Z.id. Qed.
Lemma shift1 : shifted 1 = - (1 / 2).
Proof. reflexivity. Qed.
Lemma range_nonzero : forall range, known_range range -> range <> 0.
Proof. intros range H E. subst range. destruct H as [H|H]; apply Rabs_def2 in H; lra. Qed.
Lemma scs_D_ok : forall range, known_range range -> scs_D range = Ok (value_D range).
Proof.
  intros range H. unfold scs_D, scs_cD, value_D, value_cD. destruct (Rlt_dec (Rabs (range - 9 / 10)) (1 / 10000)) as [A|A].
  - cbn [bind]. apply Rabs_def2 in A. destruct (Rlt_dec range (95 / 100)); [|lra]. f_equal. unfold pion_decay_constant_fm, chiral_breaking_scale_fm, hbarc, hc. field.
  - destruct H as [H|H]; [contradiction|]. destruct (Rlt_dec (Rabs (range - 1)) (1 / 10000)); [|contradiction]. cbn [bind]. apply Rabs_def2 in H.
    destruct (Rlt_dec range (95 / 100)); [lra|]. f_equal. unfold pion_decay_constant_fm, chiral_breaking_scale_fm, hbarc, hc. field.
Qed.
Lemma scs_D_other : forall range, ~ known_range range -> scs_D range = Exit.
Proof.
  intros range H. unfold scs_D, scs_cD. destruct (Rlt_dec _ _); [elim H; left; assumption|]. destruct (Rlt_dec _ _); [elim H; right; assumption|reflexivity].
Qed.
Section GT.
Variables (tgamma : R -> R) (quad : list R -> list fl -> num).
Variables (racah1 racah2 : Z -> Z -> Z -> Z -> Z -> Z -> Z -> R) (racah12 : Z -> Z -> Z -> Z -> Z -> Z -> Z -> Z -> Z -> R) (crme : Z -> Z -> Z -> R).
Variables (jhalf : R) (cj1 cj2 : Z -> Z -> R).
Hypotheses (Ht : gamma_fn tgamma) (Hq : quad_ok quad) (H1 : one_spin jhalf racah1 racah2 cj1 cj2) (H2 : diagonal2 racah2).
Lemma spin_factors_ok : forall k s' s, spin_factors racah12 jhalf s' s k = cross racah12 k s' s.
Proof.
  intros k s' s. unfold spin_factors, cross. rewrite (couples3 s' k s). destruct (allowed_triangle s' s k); [|reflexivity]. destruct H1 as (-> & _). field.
Qed.
Lemma su4_ok : forall s' s T' T, su4_factors cj1 cj2 s' s T' T = 2 * spin_factor racah1 racah2 1 s' s T' T.
Proof.
  intros s' s T' T. unfold su4_factors, spin_factor, same. change (1 =? 0)%Z with false. cbv iota. rewrite (couples3 s' 1 s), (couples3 T' 1 T). destruct (allowed_triangle s' s 1 && allowed_triangle T' T 1); [|ring].
  destruct H1 as (_ & E1 & E2). rewrite !E1, !E2. field.
Qed.
Section Element.
Variables (Nmax : Z) (npts : nat) (b range : R).
Hypotheses (Hb : 0 < b) (Hn : (1 < npts)%nat) (Hr : range <> 0).
Let I := Q quad npts (b * sqrt 2).
Lemma gt_element_ok : forall contact Lb Lk g p cg cp nb nk, (0 <= Lb <= Nmax)%Z -> (0 <= Lk <= Nmax)%Z -> (Z.of_nat nb <= (Nmax - Lb) / 2)%Z -> (Z.of_nat nk <= (Nmax - Lk) / 2)%Z ->
  gt_element tgamma quad Nmax npts b range contact Lb Lk g p cg cp nb nk = Ok (Num
   (opep_prefactor * (I (yukawa 1 pion_mass_fm range (psi tgamma b Lb nb) (psi tgamma b Lk nk)) / pion_mass_fm) * (- c3_fm * g + 2 * c4_fm * p)
    + opep_prefactor * sqrt 10 * (I (tensor_yukawa pion_mass_fm range (psi tgamma b Lb nb) (psi tgamma b Lk nk)) / pion_mass_fm) * (c3_fm * cg + c4_fm * cp)
    + contact * g * (if (Lb =? Lk)%Z then I (with_contact range (psi tgamma b Lb nb)) * I (with_contact range (psi tgamma b Lk nk)) else 0))).
Proof.
  intros contact Lb Lk g p cg cp nb nk HL HL' Hnb Hnk. unfold gt_element. rewrite !osc_grid_ok by assumption. rewrite <- shift1. cbn [bind].
  rewrite yukawa_list, (tensor_list tgamma b npts range Lb Lk nb nk).
  rewrite (yukawa_integrate tgamma b Ht Hb quad Hq npts range 1 Lb Lk nb nk) by (try assumption; try lia; left; exact Hr). cbn [bind].
  rewrite (tensor_integrate tgamma b Ht Hb quad Hq npts range Lb Lk nb nk) by (try assumption; lia). cbn [bind].
  destruct (Lb =? Lk)%Z; [|reflexivity]. rewrite !contact_list by exact Hr.
  rewrite !(contact_integrate tgamma b Ht Hb quad Hq) by (try assumption; lia). reflexivity.
Qed.
End Element.
Definition gt_values (b range : R) (npts : nat) : Z -> rlab -> Z -> rlab -> Z -> R :=
  gt_rme tgamma quad racah1 racah2 racah12 crme (13803 / 100 / hc) (924 / 10 / hc) (129 / 100) (- (469 / 100) * (hc / 1000)) (34 / 10 * (hc / 1000)) (value_D range) b range npts.
Lemma constants_ok : pion_mass_fm = 13803 / 100 / hc /\ pion_decay_constant_fm = 924 / 10 / hc /\ gA = 129 / 100 /\ c3_fm = - (469 / 100) * (hc / 1000) /\ c4_fm = 34 / 10 * (hc / 1000).
Proof. unfold pion_mass_fm, pion_decay_constant_fm, gA, c3_fm, c4_fm, hbarc, hc. repeat split; try reflexivity. field. Qed.
Lemma r_dim_bound : forall Nmax x u, (0 <= r_L x <= Nmax)%Z -> Z.of_nat (r_dim x) = ((Nmax - r_L x) / 2 + 1)%Z -> (u < r_dim x)%nat -> (Z.of_nat u <= (Nmax - r_L x) / 2)%Z.
Proof. intros. lia. Qed.
Theorem gt_stored : forall Nmax sp o b range npts, rme_space Nmax sp -> o_J0 o = 1%Z -> o_g0 o = 0%Z -> in_range o 1 -> (0 <= o_T0_min o)%Z -> (o_T0_max o <= 2)%Z ->
  0 < b -> known_range range -> (1 < npts)%nat ->
  exists c, n2lo_gt tgamma quad racah2 racah12 crme jhalf cj1 cj2 o Nmax sp range b npts = Ok c /\ stores_num sp o c (gt_values b range npts).
Proof.
  intros Nmax sp o b range npts Hsp HJ Hg Hi H0 HT Hb Hk Hn. unfold n2lo_gt. rewrite scs_D_ok by exact Hk. cbn [bind]. rewrite HJ, Hg.
  destruct Hi as [Hi1 Hi2]. rewrite (proj2 (Z.leb_le _ _) Hi1), (proj2 (Z.leb_le _ _) Hi2). change ((1 =? 1)%Z && (0 =? 0)%Z && true && true) with true. cbn [check bind].
  apply with_component_ok; try assumption; [split; assumption| |].
  2:{ intros t [[[L' s'] J'] T'] N [[[L s] J] T] M Ht1. unfold gt_values, gt_rme. rewrite (proj2 (Z.eqb_neq _ _) Ht1). reflexivity. }
  intros i k x y Hik Hx Hy _. apply nth_error_In in Hx. apply nth_error_In in Hy. destruct Hsp as [Hsp _]. destruct (Hsp x Hx) as (Lx & Sx & Tx & _ & _ & _ & Dx). destruct (Hsp y Hy) as (Ly & Sy & Ty & _ & _ & _ & Dy).
  unfold gt_values, gt_rme, gt_pion, gt_contact, sigma_tau, sigma_tau_cross, central, tensor, coupled2, coupled12. unfold rl. change (1 =? 1)%Z with true. cbv iota beta. rewrite (couples3 (r_L x) 2 (r_L y)).
  destruct ((r_L x =? r_L y)%Z || allowed_triangle (r_L x) (r_L y) 2) eqn:EL; cbn [negb].
  2:{ unfold gt_block. rewrite EL. cbn [negb]. apply orb_false_elim in EL. destruct EL as [E1 E2]. rewrite E1, E2. eexists. split; [reflexivity|]. split; [reflexivity|]. split; [reflexivity|].
      intros u v _ _. cbn [zero_block mzero at_]. f_equal. ring. }
  destruct (allowed_triangle (r_S x) (r_S y) 1 && allowed_triangle (r_T x) (r_T y) 1) eqn:ES.
  2:{ unfold gt_block. rewrite EL, ES. cbn [negb]. eexists. split; [reflexivity|]. split; [reflexivity|]. split; [reflexivity|].
      intros u v _ _. cbn [zero_block mzero at_]. f_equal. unfold spin_factor, same, cross. change (1 =? 0)%Z with false. cbv iota. rewrite (couples3 (r_S x) 1 (r_S y)), (couples3 (r_T x) 1 (r_T y)), ES.
      apply andb_false_iff in ES. destruct (r_L x =? r_L y)%Z, (allowed_triangle (r_L x) (r_L y) 2), ES as [E | E]; rewrite ?E; cbv iota; ring. }
  unfold gt_block. rewrite EL, ES. cbn [negb]. rewrite !index01_ok by assumption. cbn [bind].
  destruct (fill_ok num (Num 0) (r_dim x) (r_dim y)
    (fun i0 j => gt_element tgamma quad Nmax npts b range (- value_D range / 4) (r_L x) (r_L y)
          (racah2 (2 * r_L x) (2 * r_S x) (2 * r_J x) (2 * r_L y) (2 * r_S y) (2 * r_J y) 2 * su4_factors cj1 cj2 (r_S x) (r_S y) (r_T x) (r_T y))
          (racah2 (2 * r_L x) (2 * r_S x) (2 * r_J x) (2 * r_L y) (2 * r_S y) (2 * r_J y) 2 * spin_factors racah12 jhalf (r_S x) (r_S y) 1 * spin_factors racah12 jhalf (r_T x) (r_T y) 1)
          (racah12 (2 * r_L x) (2 * r_S x) (2 * r_J x) (2 * r_L y) (2 * r_S y) (2 * r_J y) 4 2 2 * (if allowed_triangle (r_L x) (r_L y) 2 then crme (r_L x) (r_L y) 2 else 0)
           * su4_factors cj1 cj2 (r_S x) (r_S y) (r_T x) (r_T y))
          (racah12 (2 * r_L x) (2 * r_S x) (2 * r_J x) (2 * r_L y) (2 * r_S y) (2 * r_J y) 4 2 2 * (if allowed_triangle (r_L x) (r_L y) 2 then crme (r_L x) (r_L y) 2 else 0)
           * spin_factors racah12 jhalf (r_S x) (r_S y) 1 * spin_factors racah12 jhalf (r_T x) (r_T y) 1) i0 j)%Z _
    ltac:(intros u v Hu Hv; apply gt_element_ok; [exact Hb|exact Hn|apply range_nonzero, Hk|exact Lx|exact Ly|apply r_dim_bound; assumption|apply r_dim_bound; assumption]))
    as (m & Em & Rm & Cm & Am).
  exists m. split; [exact Em|]. split; [exact Rm|]. split; [exact Cm|]. intros u v Hu Hv. rewrite (Am u v Hu Hv). f_equal. rewrite !state_n.
  rewrite su4_ok, !spin_factors_ok. destruct constants_ok as (-> & E2 & E3 & -> & ->). unfold opep_prefactor. rewrite E2, E3, (proj1 constants_ok).
  set (M := 13803 / 100 / hc). set (F := 924 / 10 / hc). change (2 * 2)%Z with 4%Z. change (2 * 1)%Z with 2%Z.
  destruct (Z.eqb_spec (r_L x) (r_L y)) as [E|E].
  - destruct (allowed_triangle (r_L x) (r_L y) 2); unfold Rdiv; ring.
  - rewrite (H2 (2 * r_L x)%Z _ _ (2 * r_L y)%Z) by lia. destruct (allowed_triangle (r_L x) (r_L y) 2); unfold Rdiv; ring.
Qed.
End GT.
