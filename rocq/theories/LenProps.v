(** C112-C119: chiral Gamow-Teller and M1 operators.
    The definitions used in the statements are in LenSpec.v (operators, integrals), LenModel.v (code), gt_values of LenProof.v and m1_values of LenCm.v
    (gt_rme and m1_rme with the numbers of lenpic_constants.h), and, in the cases, the coefficients of LenCase.v. *)
From Coq Require Import String List ZArith Reals Bool.
From Verif Require Import Base RMat OscModel JpvModel JpvSpec TrfModel TrfSpec RmeModel RmeSpec LenModel WfModel WfSpec LenSpec LenProof LenCm LenFinal LenUnit LenCase.
Import ListNotations.
Open Scope R_scope.

(** C112.  The N2LO Gamow-Teller operator. *)
Theorem C112_elements : forall tgamma quad racah1 racah2 racah12 crme jhalf cj1 cj2, gamma_fn tgamma -> quad_ok quad -> one_spin jhalf racah1 racah2 cj1 cj2 -> diagonal2 racah2 ->
  forall Nmax sp o b range npts, rme_space Nmax sp -> o_J0 o = 1%Z -> o_g0 o = 0%Z -> in_range o 1 -> (0 <= o_T0_min o)%Z -> (o_T0_max o <= 2)%Z ->
  0 < b -> known_range range -> (1 < npts)%nat ->
  exists c, n2lo_gt tgamma quad racah2 racah12 crme jhalf cj1 cj2 o Nmax sp range b npts = Ok c /\ stores_num sp o c (gt_values tgamma quad racah1 racah2 racah12 crme b range npts).
Proof. exact gt_stored. Qed.
Print Assumptions C112_elements.

(** C112.  Blocks on the diagonal are symmetric. *)
Theorem C112_symmetric : forall tgamma quad racah1 racah2 racah12 crme M F g c3 c4 D b range npts T0 x N' N,
  gt_rme tgamma quad racah1 racah2 racah12 crme M F g c3 c4 D b range npts T0 x N' x N = gt_rme tgamma quad racah1 racah2 racah12 crme M F g c3 c4 D b range npts T0 x N x N'.
Proof. exact gt_symmetric. Qed.
Print Assumptions C112_symmetric.

Example C112_case : forall tgamma crme, gamma_fn tgamma ->
  exists c m, n2lo_gt tgamma one_rule ex_racah2 ex_racah12 crme (sqrt 3 / 2) (ex_cj ex_racah1) (ex_cj ex_racah2) (OpLab 1 0 0 1) 0 waves 1 1 3 = Ok c
  /\ nth_error c 1 = Some ([(0%nat, 1%nat)], [m])
  /\ at_ m 0 0 = Num (opep_prefactor / pion_mass_fm * (2 * sqrt 3 * c3_fm + 18 * c4_fm) + sqrt 3 / 2 * value_D 1).
Proof. exact case_gt. Qed.

(** C113.  e^(-Mr)/r^k; without regulator not for two S waves with k = 2, which only M1 computes, with coefficient 0. *)
Theorem C113_yukawa : forall tgamma b range M, gamma_fn tgamma -> 0 < b -> 0 < M -> forall k l l' n n', (k <= 2)%nat -> (0 <= l)%Z -> (0 <= l')%Z -> range <> 0 \/ (k < 2)%nat \/ (0 < l + l')%Z ->
  mesh_correct (b * sqrt 2) (yukawa k M range (psi tgamma b l n) (psi tgamma b l' n')).
Proof. exact yukawa_mesh. Qed.
Print Assumptions C113_yukawa.

(** C113.  The tensor force. *)
Theorem C113_tensor : forall tgamma b range M, gamma_fn tgamma -> 0 < b -> 0 < M -> forall l l' n n', range <> 0 -> mesh_correct (b * sqrt 2) (tensor_yukawa M range (psi tgamma b l n) (psi tgamma b l' n')).
Proof. exact tensor_mesh. Qed.
Print Assumptions C113_tensor.

(** C113.  The contact term. *)
Theorem C113_contact : forall tgamma b range, gamma_fn tgamma -> 0 < b -> forall l n, range <> 0 -> mesh_correct (b * sqrt 2) (with_contact range (psi tgamma b l n)).
Proof. exact contact_mesh. Qed.
Print Assumptions C113_contact.

Example C113_case : forall tgamma, gamma_fn tgamma -> mesh_correct (1 * sqrt 2) (yukawa 2 (7 / 10) 1 (psi tgamma 1 0 3) (psi tgamma 1 0 5)).
Proof. exact case_mesh. Qed.

(** C114.  The leading order: minus gA times the sum of s tau. *)
Theorem C114_leading : forall racah1 racah2 Nmax sp o, rme_space Nmax sp -> o_J0 o = 1%Z -> o_g0 o = 0%Z -> in_range o 1 -> (0 <= o_T0_min o)%Z -> (o_T0_max o <= 2)%Z ->
  exists c, lo_gt racah1 racah2 o sp = Ok c /\ stores_num sp o c (fun T0 x N' y N => - (129 / 100) * spin_rme racah1 racah2 1 T0 x N' y N).
Proof. exact lo_stored. Qed.
Print Assumptions C114_leading.

Example C114_case : exists c s ms q m, lo_gt ex_racah1 ex_racah2 (OpLab 1 0 0 1) waves = Ok c
  /\ nth_error c 1 = Some (s, ms) /\ NoDup s /\ nth_error s q = Some (0%nat, 1%nat) /\ nth_error ms q = Some m /\ at_ m 0 0 = Num (129 / 100 * sqrt 3).
Proof. exact case_lo. Qed.

(** C115.  Only two regulators are known. *)
Theorem C115_regulator : forall tgamma quad racah2 racah12 crme jhalf cj1 cj2, forall o Nmax sp b range npts, ~ known_range range -> n2lo_gt tgamma quad racah2 racah12 crme jhalf cj1 cj2 o Nmax sp range b npts = Exit.
Proof. exact gt_range. Qed.
Print Assumptions C115_regulator.

(** C115.  Operator labels of N2LO GT ... *)
Theorem C115_labels_gt : forall tgamma quad racah2 racah12 crme jhalf cj1 cj2, forall o Nmax sp b range npts, o_J0 o <> 1%Z \/ o_g0 o <> 0%Z \/ ~ in_range o 1 -> n2lo_gt tgamma quad racah2 racah12 crme jhalf cj1 cj2 o Nmax sp range b npts = Exit.
Proof. exact gt_labels. Qed.
Print Assumptions C115_labels_gt.

(** C115.  ... and NLO M1. *)
Theorem C115_labels_m1 : forall tgamma quad racah1 racah2 racah12 crme jhalf, forall o Nmax sp b range npts, o_J0 o <> 1%Z \/ o_g0 o <> 0%Z \/ ~ in_range o 1 -> nlo_m1 tgamma quad racah1 racah2 racah12 crme jhalf o Nmax sp range b npts = Exit.
Proof. exact m1_labels. Qed.
Print Assumptions C115_labels_m1.

(** C115.  A negative number of points. *)
Theorem C115_negative : forall tgamma quad racah2 racah12 crme jhalf cj1 cj2, forall o Nmax sp b range k, (k < 0)%Z -> relative_gen_gt tgamma quad racah2 racah12 crme jhalf cj1 cj2 o Nmax sp range b k = Exit.
Proof. exact gt_steps. Qed.
Print Assumptions C115_negative.

(** C115.  Otherwise relative-gen passes the number of points on. *)
Theorem C115_steps : forall tgamma quad racah2 racah12 crme jhalf cj1 cj2, forall o Nmax sp b range k, (0 <= k)%Z ->
  relative_gen_gt tgamma quad racah2 racah12 crme jhalf cj1 cj2 o Nmax sp range b k = n2lo_gt tgamma quad racah2 racah12 crme jhalf cj1 cj2 o Nmax sp range b (Z.to_nat k).
Proof. exact gt_program. Qed.
Print Assumptions C115_steps.

(** C115.  Without points every element fails. *)
Theorem C115_no_points : forall tgamma quad, forall Nmax b range contact Lb Lk g p cg cp nb nk, (0 <= Lb <= Nmax)%Z -> (0 <= Lk <= Nmax)%Z -> (Z.of_nat nb <= (Nmax - Lb) / 2)%Z -> (Z.of_nat nk <= (Nmax - Lk) / 2)%Z ->
  gt_element tgamma quad Nmax 0 b range contact Lb Lk g p cg cp nb nk = AssertFail.
Proof. exact gt_empty_mesh. Qed.
Print Assumptions C115_no_points.

(** C115.  An integral which is not a number ends the program. *)
Theorem C115_not_a_number : forall tgamma quad, forall Nmax npts b range contact Lb Lk g p cg cp nb nk, (forall zs v, quad zs v = OscModel.NaN) ->
  (0 <= Lb <= Nmax)%Z -> (0 <= Lk <= Nmax)%Z -> (Z.of_nat nb <= (Nmax - Lb) / 2)%Z -> (Z.of_nat nk <= (Nmax - Lk) / 2)%Z -> (0 < npts)%nat ->
  gt_element tgamma quad Nmax npts b range contact Lb Lk g p cg cp nb nk = Exit.
Proof. exact gt_not_a_number. Qed.
Print Assumptions C115_not_a_number.

Example C115_case : forall tgamma quad racah2 racah12 crme jhalf cj1 cj2,
  n2lo_gt tgamma quad racah2 racah12 crme jhalf cj1 cj2 (OpLab 1 0 0 1) 0 waves (8 / 10) 1 300 = Exit /\ n2lo_gt tgamma quad racah2 racah12 crme jhalf cj1 cj2 (OpLab 2 0 0 1) 0 waves 1 1 100 = Exit.
Proof. exact case_regulator. Qed.

(** C116.  The NLO M1 operator. *)
Theorem C116_elements : forall tgamma quad racah1 racah2 racah12 crme jhalf cj1 cj2, gamma_fn tgamma -> quad_ok quad -> one_spin jhalf racah1 racah2 cj1 cj2 -> cross_antisymmetric racah12 ->
  forall Nmax sp o b range npts, cm_space Nmax sp -> o_J0 o = 1%Z -> o_g0 o = 0%Z -> in_range o 1 -> (0 <= o_T0_min o)%Z -> (o_T0_max o <= 2)%Z ->
  0 < b -> (1 < npts)%nat ->
  exists c, nlo_m1 tgamma quad racah1 racah2 racah12 crme jhalf o Nmax sp range b npts = Ok c /\ cm_stores sp o c (m1_values tgamma quad racah1 racah2 racah12 crme b range npts).
Proof. exact m1_stored. Qed.
Print Assumptions C116_elements.

Example C116_case : forall tgamma crme npts, gamma_fn tgamma -> (1 < npts)%nat ->
  exists c s ms q m, nlo_m1 tgamma count_rule ex_racah1 ex_racah2 ex_racah12 crme (sqrt 3 / 2) (OpLab 1 0 0 1) 0 cm_waves 1 1 npts = Ok c
  /\ nth_error c 1 = Some (s, ms) /\ NoDup s /\ nth_error s q = Some (0%nat, 1%nat) /\ nth_error ms q = Some m
  /\ at_ m 0 0 = Num (9 * m1_factor * (2 - / pion_mass_fm) * INR npts).
Proof. exact case_m1. Qed.

(** C117.  Other operators are refused ... *)
Theorem C117_unknown : forall tgamma quad racah1 racah2 racah12 crme jhalf, forall o Nmax sp name args, name <> "LENPIC-NLOM1"%string -> relcm_gen tgamma quad racah1 racah2 racah12 crme jhalf o Nmax sp name args = Exit.
Proof. exact relcm_unknown. Qed.
Print Assumptions C117_unknown.

(** C117.  ... as are parameters that cannot be read. *)
Theorem C117_unreadable : forall tgamma quad racah1 racah2 racah12 crme jhalf, forall o Nmax sp name, relcm_gen tgamma quad racah1 racah2 racah12 crme jhalf o Nmax sp name None = Exit.
Proof. exact relcm_unreadable. Qed.
Print Assumptions C117_unreadable.

(** C117.  relcm-gen computes NLO M1 with 3000 points ... *)
Theorem C117_operator : forall tgamma quad racah1 racah2 racah12 crme jhalf, forall o Nmax sp reg b k,
  relcm_gen tgamma quad racah1 racah2 racah12 crme jhalf o Nmax sp "LENPIC-NLOM1" (Some (reg, b, k)) = nlo_m1 tgamma quad racah1 racah2 racah12 crme jhalf o Nmax sp reg b (Z.to_nat 3000).
Proof. exact relcm_program. Qed.
Print Assumptions C117_operator.

(** C117 refuted: ... and not with the number in its input. *)
Theorem C117_steps_refuted : exists quad racah1 racah2 racah12 jhalf cj1 cj2 o Nmax sp reg b k,
  quad_ok quad /\ one_spin jhalf racah1 racah2 cj1 cj2 /\ cross_antisymmetric racah12 /\ cm_space Nmax sp /\ (1 < k)%Z
  /\ forall tgamma crme, gamma_fn tgamma ->
     relcm_gen tgamma quad racah1 racah2 racah12 crme jhalf o Nmax sp "LENPIC-NLOM1" (Some (reg, b, k)) <> nlo_m1 tgamma quad racah1 racah2 racah12 crme jhalf o Nmax sp reg b (Z.to_nat k).
Proof. exact relcm_steps_refuted. Qed.
Print Assumptions C117_steps_refuted.

(** C118 for the terms of pion range.  Missing: the contact term, for which the claim is false. *)
Theorem C118_pion_partial : forall tgamma quad, gamma_fn tgamma -> homogeneous quad -> forall s, 0 < s ->
  forall racah1 racah2 racah12 crme M F g c3 c4 b range npts x N' y N, 0 < b -> 0 < M -> F <> 0 ->
  gt_pion tgamma quad racah1 racah2 racah12 crme (M / s) (F / s) g (s * c3) (s * c4) (s * b) (s * range) npts x N' y N
  = gt_pion tgamma quad racah1 racah2 racah12 crme M F g c3 c4 b range npts x N' y N.
Proof. exact pion_units. Qed.
Print Assumptions C118_pion_partial.

(** C118 for M1. *)
Theorem C118_m1 : forall tgamma quad, gamma_fn tgamma -> homogeneous quad -> forall s, 0 < s ->
  forall racah1 racah2 racah12 crme M F g MN b range npts T0 x u y v, 0 < b -> 0 < M -> F <> 0 ->
  m1_rme tgamma quad racah1 racah2 racah12 crme (M / s) (F / s) g (MN / s) (s * b) (s * range) npts T0 x u y v
  = m1_rme tgamma quad racah1 racah2 racah12 crme M F g MN b range npts T0 x u y v.
Proof. exact m1_units. Qed.
Print Assumptions C118_m1.

(** C118.  The contact term has the dimension of an inverse area. *)
Theorem C118_contact : forall tgamma quad, gamma_fn tgamma -> homogeneous quad -> forall s, 0 < s ->
  forall racah1 racah2 D b range npts x N' y N, 0 < b -> 0 < range ->
  gt_contact tgamma quad racah1 racah2 (s ^ 3 * D) (s * b) (s * range) npts x N' y N = gt_contact tgamma quad racah1 racah2 D b range npts x N' y N / s ^ 2.
Proof. exact contact_units. Qed.
Print Assumptions C118_contact.

(** C118 refuted: the contact term depends on the unit of length. *)
Theorem C118_units_refuted : exists quad npts b range D s x N' y N, quad_ok quad /\ homogeneous quad /\ 0 < b /\ 0 < range /\ 0 < s /\ (1 < npts)%nat
  /\ forall tgamma racah1 racah2, gamma_fn tgamma -> pair_values racah1 racah2 -> racah2 0%Z 2%Z 2%Z 0%Z 0%Z 0%Z 2%Z = 1 ->
     gt_contact tgamma quad racah1 racah2 (s ^ 3 * D) (s * b) (s * range) npts x N' y N <> gt_contact tgamma quad racah1 racah2 D b range npts x N' y N.
Proof. exact contact_units_refuted. Qed.
Print Assumptions C118_units_refuted.

(** C119 refuted: the contact term acts in P waves. *)
Theorem C119_waves_refuted : exists quad npts b range x N' y N, quad_ok quad /\ homogeneous quad /\ 0 < b /\ known_range range /\ (1 < npts)%nat
  /\ (let '(L', _, _, _) := x in let '(L, _, _, _) := y in L' = 1 /\ L = 1)%Z
  /\ forall tgamma racah1 racah2, gamma_fn tgamma -> pair_values racah1 racah2 -> racah2 2%Z 2%Z 2%Z 2%Z 2%Z 2%Z 2%Z = 1 / 2 ->
     gt_contact tgamma quad racah1 racah2 (value_D range) b range npts x N' y N <> 0.
Proof. exact contact_wave_refuted. Qed.
Print Assumptions C119_waves_refuted.

(** C119 between different L.  Missing: the elements with L' = L > 0, which do not vanish. *)
Theorem C119_different_partial : forall tgamma quad racah1 racah2 D b range npts L' s' J' T' N' L s J T N, L' <> L ->
  gt_contact tgamma quad racah1 racah2 D b range npts (L', s', J', T') N' (L, s, J, T) N = 0.
Proof. exact contact_different. Qed.
Print Assumptions C119_different_partial.

