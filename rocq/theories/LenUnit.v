(** The Lenpic operators under a change of the unit of length; errors. *)
From Coq Require Import List ZArith Reals Bool Lra Lia String.
From Verif Require Import Base RMat OscModel OscSpec OscProof BlockModel BlockProof MoshModel JpvModel JpvSpec IsoModel TrfModel TrfSpec TrfProof RmeModel RmeSpec RmeProof RmeFinal.
From Verif Require Import LenModel WfModel WfSpec WfLag WfInt WfProof WfOsc WfEl WfSqr WfMesh WfGrid WfFinal LenSpec LenInt LenMesh LenGrid LenProof LenCm LenFinal.
Import ListNotations.
Open Scope R_scope.

(** * Units *)
Section Units.
Variables (tgamma : R -> R) (quad : list R -> list fl -> num).
Hypotheses (Ht : gamma_fn tgamma) (Hh : homogeneous quad).
Variable s : R.
Hypothesis Hs : 0 < s.
Let Hq : 0 < sqrt s.
Proof. apply sqrt_lt_R0, Hs. Qed.
Lemma psi_scale : forall b l n r, 0 < b -> psi tgamma (s * b) l n (s * r) = psi tgamma b l n r / sqrt s.
Proof.
  intros b l n r Hb. assert (H2 : 0 < sqrt 2) by (apply sqrt_lt_R0; lra). unfold psi, osc. set (g := tgamma _). assert (Hg : 0 < g) by apply gamma_fn_pos, Ht.
  replace (s * r / (s * b * sqrt 2)) with (r / (b * sqrt 2)) by (field; lra). set (P := poch _ _).
  assert (HP : 0 < P) by (apply poch_pos; pose proof (pos_INR (Z.to_nat l)); lra). pose proof (INR_fact_lt_0 n).
  replace (2 * INR (fact n) / (s * b * sqrt 2 * (g * P))) with (2 * INR (fact n) / (b * sqrt 2 * (g * P)) / s) by (field; repeat split; lra).
  rewrite (sqrt_div_alt _ s) by exact Hs. field. lra.
Qed.
Lemma regulator_scale : forall range r, regulator (s * range) (s * r) = regulator range r.
Proof.
  intros range r. unfold regulator. destruct (Req_EM_T range 0) as [->|Hn].
  - rewrite Rmult_0_r. destruct (Req_EM_T 0 0); [reflexivity|contradiction].
  - destruct (Req_EM_T (s * range) 0) as [E|_]; [apply Rmult_integral in E; lra|]. replace (- (s * r * (s * r)) / (s * range * (s * range))) with (- (r * r) / (range * range)) by (field; lra). reflexivity.
Qed.
Lemma smeared_scale : forall range r, 0 < range -> smeared (s * range) (s * r) = smeared range r / s ^ 3.
Proof.
  intros range r Hr. unfold smeared. pose proof PI_RGT_0. assert (0 < PI * (range * range)) by (apply Rmult_lt_0_compat; nra).
  replace (- (s * r * (s * r)) / (s * range * (s * range))) with (- (r * r) / (range * range)) by (field; lra).
  replace (PI * (s * range * (s * range))) with (s * s * (PI * (range * range))) by ring. rewrite sqrt_mult by nra. rewrite sqrt_square by lra.
  assert (0 < sqrt (PI * (range * range))) by (apply sqrt_lt_R0; assumption). field. lra.
Qed.
Lemma Q_scale : forall npts c h h' k, (forall r, 0 < r -> h' (s * r) = k * h r) -> 0 < c -> Q quad npts (s * c) h' = s * k * Q quad npts c h.
Proof.
  intros npts c h h' k H Hc. unfold Q, samples. rewrite <- (map_map (on_mesh (s * c) h') Fin), <- (map_map (on_mesh c h) Fin).
  rewrite <- (Hh (points npts) (s * k)). do 3 f_equal. rewrite map_map. apply map_ext. intros z. unfold on_mesh.
  destruct (Rlt_dec 0 z) as [H0|_]; [|ring]. destruct (Rlt_dec z 1) as [H1|_]; [|ring].
  replace (z / (1 - z) * (s * c)) with (s * (z / (1 - z) * c)) by ring. rewrite H; [field; lra|]. apply Rmult_lt_0_compat; [apply Rdiv_lt_0_compat; lra|exact Hc].
Qed.
Lemma yukawa_scale : forall npts k M range b l l' n n', 0 < b ->
  Q quad npts (s * b * sqrt 2) (yukawa k (M / s) (s * range) (psi tgamma (s * b) l n) (psi tgamma (s * b) l' n')) = / s ^ k * Q quad npts (b * sqrt 2) (yukawa k M range (psi tgamma b l n) (psi tgamma b l' n')).
Proof.
  intros npts k M range b l l' n n' Hb. rewrite Rmult_assoc. assert (Hp : s ^ k <> 0) by (apply pow_nonzero; lra).
  rewrite (Q_scale npts (b * sqrt 2) (yukawa k M range (psi tgamma b l n) (psi tgamma b l' n')) _ (/ s * / s ^ k)); [field; split; [exact Hp|lra]| |apply b2_pos; exact Hb].
  intros r Hr. unfold yukawa. rewrite !psi_scale, regulator_scale by exact Hb. replace (M / s * (s * r)) with (M * r) by (field; lra). rewrite Rpow_mult_distr.
  assert (E : / sqrt s * / sqrt s = / s) by (rewrite <- Rinv_mult, sqrt_sqrt by lra; reflexivity). rewrite <- E. field. repeat split; try lra; try exact Hp. apply pow_nonzero. lra.
Qed.
Lemma tensor_scale : forall npts M range b l l' n n', 0 < b -> 0 < M ->
  Q quad npts (s * b * sqrt 2) (tensor_yukawa (M / s) (s * range) (psi tgamma (s * b) l n) (psi tgamma (s * b) l' n')) = / s * Q quad npts (b * sqrt 2) (tensor_yukawa M range (psi tgamma b l n) (psi tgamma b l' n')).
Proof.
  intros npts M range b l l' n n' Hb HM. rewrite Rmult_assoc.
  rewrite (Q_scale npts (b * sqrt 2) (tensor_yukawa M range (psi tgamma b l n) (psi tgamma b l' n')) _ (/ s * / s)); [field; lra| |apply b2_pos; exact Hb].
  intros r Hr. unfold tensor_yukawa. rewrite !psi_scale, regulator_scale by exact Hb. replace (M / s * (s * r)) with (M * r) by (field; lra).
  assert (E : / sqrt s * / sqrt s = / s) by (rewrite <- Rinv_mult, sqrt_sqrt by lra; reflexivity). rewrite <- E at 1. field. lra.
Qed.
Lemma contact_scale : forall npts range b l n, 0 < b -> 0 < range ->
  Q quad npts (s * b * sqrt 2) (with_contact (s * range) (psi tgamma (s * b) l n)) = / (s ^ 2 * sqrt s) * Q quad npts (b * sqrt 2) (with_contact range (psi tgamma b l n)).
Proof.
  intros npts range b l n Hb Hr. rewrite Rmult_assoc.
  rewrite (Q_scale npts (b * sqrt 2) (with_contact range (psi tgamma b l n)) _ (/ (s ^ 3 * sqrt s))); [field; lra| |apply b2_pos; exact Hb].
  intros r Hr'. unfold with_contact. rewrite psi_scale, smeared_scale by assumption. field. lra.
Qed.
Lemma pion_units : forall racah1 racah2 racah12 crme M F g c3 c4 b range npts x N' y N, 0 < b -> 0 < M -> F <> 0 ->
  gt_pion tgamma quad racah1 racah2 racah12 crme (M / s) (F / s) g (s * c3) (s * c4) (s * b) (s * range) npts x N' y N
  = gt_pion tgamma quad racah1 racah2 racah12 crme M F g c3 c4 b range npts x N' y N.
Proof.
  intros racah1 racah2 racah12 crme M F g c3 c4 b range npts [[[L' S'] J'] T'] N' [[[L S] J] T] N Hb HM HF. unfold gt_pion.
  rewrite yukawa_scale, tensor_scale by assumption. pose proof PI_RGT_0. field. repeat split; lra.
Qed.
Lemma contact_units : forall racah1 racah2 D b range npts x N' y N, 0 < b -> 0 < range ->
  gt_contact tgamma quad racah1 racah2 (s ^ 3 * D) (s * b) (s * range) npts x N' y N = gt_contact tgamma quad racah1 racah2 D b range npts x N' y N / s ^ 2.
Proof.
  intros racah1 racah2 D b range npts [[[L' S'] J'] T'] N' [[[L S] J] T] N Hb Hr. unfold gt_contact. rewrite !contact_scale by assumption.
  set (u := Q _ _ _ _). set (v := Q _ _ _ (with_contact range (psi tgamma b L _))). set (w := central _ _ _ _).
  transitivity (s ^ 3 * / (sqrt s * sqrt s) * / s ^ 4 * (- (D / 4) * w * (u * v))); [field; lra|]. rewrite sqrt_sqrt by lra. field. lra.
Qed.
(** M1: the prefactor and the terms *)
Lemma m1_units : forall racah1 racah2 racah12 crme M F g MN b range npts T0 x u y v, 0 < b -> 0 < M -> F <> 0 ->
  m1_rme tgamma quad racah1 racah2 racah12 crme (M / s) (F / s) g (MN / s) (s * b) (s * range) npts T0 x u y v
  = m1_rme tgamma quad racah1 racah2 racah12 crme M F g MN b range npts T0 x u y v.
Proof.
  intros racah1 racah2 racah12 crme M F g MN b range npts T0 [[[L' S'] J'] T'] [[[Nr' lr'] Nc'] lc'] [[[L S] J] T] [[[Nr lr] Nc] lc] Hb HM HF. unfold m1_rme.
  destruct (T0 =? 1)%Z; [|reflexivity]. rewrite !yukawa_scale by assumption. set (x := (L', S', J', T')). set (y := (L, S, J, T)). set (u := (Nr', lr', Nc', lc')). set (v := (Nr, lr, Nc, lc)).
  assert (E : cm_radius (s * b) u v = s * cm_radius b u v).
  { unfold cm_radius, u, v. destruct (_ && _); [unfold Rdiv; ring|ring]. }
  rewrite E. pose proof PI_RGT_0. set (w1 := cm_radius b u v). set (w2 := sqrt (3 / (4 * PI))). field. repeat split; lra.
Qed.
End Units.

(** * Nonzero contact terms, with a quadrature rule of one inner point *)
Definition midpoint (zs : list R) (v : list fl) : num := match v with _ :: Fin x :: _ => Num x | _ => Num 0 end.
Lemma midpoint_ok : quad_ok midpoint.
Proof. intros zs [|x [|y v]]; eexists; reflexivity. Qed.
Lemma midpoint_homogeneous : homogeneous midpoint.
Proof. intros zs k [|x [|y v]]; cbn; ring. Qed.
Lemma midpoint_pos : forall tgamma l b range, gamma_fn tgamma -> 0 < b -> 0 < range -> 0 < Q midpoint 3 (b * sqrt 2) (with_contact range (psi tgamma b l 0)).
Proof.
  intros tgamma l b range Ht Hb Hr. pose proof (b2_pos b Hb) as H2. unfold Q, samples, points. cbn [seq map midpoint num_val].
  replace (INR 1 / (INR 3 - 1)) with (1 / 2) by (cbn [INR]; field). unfold on_mesh. destruct (Rlt_dec 0 (1 / 2)) as [_|E]; [|lra]. destruct (Rlt_dec (1 / 2) 1) as [_|E]; [|lra].
  replace (1 / 2 / (1 - 1 / 2) * (b * sqrt 2)) with (b * sqrt 2) by field. apply Rmult_lt_0_compat; [|apply Rdiv_lt_0_compat; lra].
  unfold with_contact, psi, osc, smeared. apply Rmult_lt_0_compat.
  - pose proof (gamma_fn_pos tgamma (Z.to_nat l) Ht). apply Rmult_lt_0_compat.
    + apply sqrt_lt_R0. cbn [fact INR poch]. apply Rdiv_lt_0_compat; [lra|]. apply Rmult_lt_0_compat; [exact H2|]. rewrite ?Rmult_1_r. lra.
    + rewrite lag_0, Rmult_1_r. apply Rmult_lt_0_compat; [|apply exp_pos]. apply pow_lt. apply Rdiv_lt_0_compat; exact H2.
  - apply Rdiv_lt_0_compat; [apply exp_pos|]. apply pow_lt, sqrt_lt_R0. apply Rmult_lt_0_compat; [apply PI_RGT_0|nra].
Qed.
(** from S = 0, T = 1 to S = 1, T = 0, and between S = T = 1 *)
Lemma sigma_tau_10 : forall racah1 racah2 L' J' L J, pair_values racah1 racah2 -> sigma_tau racah1 racah2 (L', 1, J', 0)%Z (L, 0, J, 1)%Z = -2 * sqrt 3.
Proof.
  intros racah1 racah2 L' J' L J (_ & _ & A & B & C & D). unfold sigma_tau, spin_factor, same. change (1 =? 0)%Z with false. cbv iota. change (couplesb 1 1 0 && couplesb 0 1 1) with true. cbv iota.
  change (2 * 1)%Z with 2%Z. change (2 * 0)%Z with 0%Z. rewrite A, B, C, D. assert (0 < sqrt 3) by (apply sqrt_lt_R0; lra). field. lra.
Qed.
Lemma sigma_tau_11 : forall racah1 racah2 L' J' L J, pair_values racah1 racah2 -> sigma_tau racah1 racah2 (L', 1, J', 1)%Z (L, 1, J, 1)%Z = 4.
Proof.
  intros racah1 racah2 L' J' L J (A & B & _). unfold sigma_tau, spin_factor, same. change (1 =? 0)%Z with false. cbv iota. change (couplesb 1 1 1 && couplesb 1 1 1) with true. cbv iota.
  change (2 * 1)%Z with 2%Z. rewrite A, B. replace (sqrt 3 / 2 * sqrt (2 / 3) * (sqrt 3 * sqrt (2 / 3))) with ((sqrt 3 * sqrt 3) * (sqrt (2 / 3) * sqrt (2 / 3)) / 2) by field.
  rewrite !sqrt_sqrt by lra. field.
Qed.
Lemma contact_units_refuted : exists quad npts b range D s x N' y N, quad_ok quad /\ homogeneous quad /\ 0 < b /\ 0 < range /\ 0 < s /\ (1 < npts)%nat
  /\ forall tgamma racah1 racah2, gamma_fn tgamma -> pair_values racah1 racah2 -> racah2 0%Z 2%Z 2%Z 0%Z 0%Z 0%Z 2%Z = 1 ->
     gt_contact tgamma quad racah1 racah2 (s ^ 3 * D) (s * b) (s * range) npts x N' y N <> gt_contact tgamma quad racah1 racah2 D b range npts x N' y N.
Proof.
  exists midpoint, 3%nat, 1, 1, 1, 2, (0, 1, 1, 0)%Z, 0%Z, (0, 0, 0, 1)%Z, 0%Z. split; [exact midpoint_ok|]. split; [exact midpoint_homogeneous|]. do 3 (split; [lra|]). split; [lia|].
  intros tgamma racah1 racah2 Ht Hp Hr. rewrite contact_units by (try assumption; try apply midpoint_homogeneous; lra). unfold gt_contact. rewrite sigma_tau_10 by exact Hp.
  unfold central, coupled2. change (0 =? 0)%Z with true. cbv iota. change (2 * 0)%Z with 0%Z. change (2 * 1)%Z with 2%Z. rewrite Hr. change (Z.to_nat ((0 - 0) / 2)) with 0%nat.
  pose proof (midpoint_pos tgamma 0 1 1 Ht ltac:(lra) ltac:(lra)) as P. set (q := Q _ _ _ _) in *. assert (0 < sqrt 3) by (apply sqrt_lt_R0; lra). assert (0 < q * q) by nra.
  assert (0 < sqrt 3 * (q * q)) by nra. intros E. apply (f_equal (fun t => t * 4)) in E. field_simplify in E. nra.
Qed.
Lemma contact_wave_refuted : exists quad npts b range x N' y N, quad_ok quad /\ homogeneous quad /\ 0 < b /\ known_range range /\ (1 < npts)%nat
  /\ (let '(L', _, _, _) := x in let '(L, _, _, _) := y in L' = 1 /\ L = 1)%Z
  /\ forall tgamma racah1 racah2, gamma_fn tgamma -> pair_values racah1 racah2 -> racah2 2%Z 2%Z 2%Z 2%Z 2%Z 2%Z 2%Z = 1 / 2 ->
     gt_contact tgamma quad racah1 racah2 (value_D range) b range npts x N' y N <> 0.
Proof.
  exists midpoint, 3%nat, 1, 1, (1, 1, 1, 1)%Z, 1%Z, (1, 1, 1, 1)%Z, 1%Z. split; [exact midpoint_ok|]. split; [exact midpoint_homogeneous|]. split; [lra|].
  split; [right; replace (1 - 1) with 0 by ring; rewrite Rabs_R0; lra|]. split; [lia|]. split; [split; reflexivity|].
  intros tgamma racah1 racah2 Ht Hp Hr. unfold gt_contact. rewrite sigma_tau_11 by exact Hp.
  unfold central, coupled2. change (1 =? 1)%Z with true. cbv iota. change (2 * 1)%Z with 2%Z. rewrite Hr. change (Z.to_nat ((1 - 1) / 2)) with 0%nat.
  pose proof (midpoint_pos tgamma 1 1 1 Ht ltac:(lra) ltac:(lra)) as P. set (q := Q _ _ _ _) in *. assert (0 < q * q) by nra.
  assert (HD : 0 < value_D 1).
  { unfold value_D, value_cD, hc. destruct (Rlt_dec 1 (95 / 100)); lra. }
  assert (0 < value_D 1 * (q * q)) by nra. nra.
Qed.

(** * Errors *)
Section Errors.
Variables (tgamma : R -> R) (quad : list R -> list fl -> num).
Variables (racah1 racah2 : Z -> Z -> Z -> Z -> Z -> Z -> Z -> R) (racah12 : Z -> Z -> Z -> Z -> Z -> Z -> Z -> Z -> Z -> R) (crme : Z -> Z -> Z -> R).
Variables (jhalf : R) (cj1 cj2 : Z -> Z -> R).
Lemma labels_check : forall o, o_J0 o <> 1%Z \/ o_g0 o <> 0%Z \/ ~ in_range o 1 -> ((o_J0 o =? 1) && (o_g0 o =? 0) && (o_T0_min o <=? 1) && (1 <=? o_T0_max o))%Z = false.
Proof.
  intros o H. apply not_true_is_false. rewrite !andb_true_iff, !Z.eqb_eq, !Z.leb_le. unfold in_range in H. tauto.
Qed.
Lemma gt_range : forall o Nmax sp b range npts, ~ known_range range -> n2lo_gt tgamma quad racah2 racah12 crme jhalf cj1 cj2 o Nmax sp range b npts = Exit.
Proof. intros. unfold n2lo_gt. rewrite scs_D_other by assumption. reflexivity. Qed.
Lemma gt_labels : forall o Nmax sp b range npts, o_J0 o <> 1%Z \/ o_g0 o <> 0%Z \/ ~ in_range o 1 -> n2lo_gt tgamma quad racah2 racah12 crme jhalf cj1 cj2 o Nmax sp range b npts = Exit.
Proof.
  intros o Nmax sp b range npts H. unfold n2lo_gt. rewrite (labels_check o H). destruct (scs_D range) as [d| | |] eqn:E; try reflexivity.
  - exfalso. unfold scs_D, scs_cD in E. destruct (Rlt_dec _ _); [discriminate|]. destruct (Rlt_dec _ _); discriminate.
  - exfalso. unfold scs_D, scs_cD in E. destruct (Rlt_dec _ _); [discriminate|]. destruct (Rlt_dec _ _); discriminate.
Qed.
Lemma m1_labels : forall o Nmax sp b range npts, o_J0 o <> 1%Z \/ o_g0 o <> 0%Z \/ ~ in_range o 1 -> nlo_m1 tgamma quad racah1 racah2 racah12 crme jhalf o Nmax sp range b npts = Exit.
Proof. intros o Nmax sp b range npts H. unfold nlo_m1. rewrite (labels_check o H). reflexivity. Qed.
Lemma gt_steps : forall o Nmax sp b range k, (k < 0)%Z -> relative_gen_gt tgamma quad racah2 racah12 crme jhalf cj1 cj2 o Nmax sp range b k = Exit.
Proof. intros o Nmax sp b range k H. unfold relative_gen_gt. rewrite (proj2 (Z.ltb_lt _ _) H). reflexivity. Qed.
Lemma gt_program : forall o Nmax sp b range k, (0 <= k)%Z ->
  relative_gen_gt tgamma quad racah2 racah12 crme jhalf cj1 cj2 o Nmax sp range b k = n2lo_gt tgamma quad racah2 racah12 crme jhalf cj1 cj2 o Nmax sp range b (Z.to_nat k).
Proof. intros o Nmax sp b range k H. unfold relative_gen_gt. rewrite (proj2 (Z.ltb_ge _ _) H). reflexivity. Qed.
(** no points at all: the mesh is empty, and the first element asks for its ends *)
Lemma gt_empty_mesh : forall Nmax b range contact Lb Lk g p cg cp nb nk, (0 <= Lb <= Nmax)%Z -> (0 <= Lk <= Nmax)%Z -> (Z.of_nat nb <= (Nmax - Lb) / 2)%Z -> (Z.of_nat nk <= (Nmax - Lk) / 2)%Z ->
  gt_element tgamma quad Nmax 0 b range contact Lb Lk g p cg cp nb nk = AssertFail.
Proof.
  intros. unfold gt_element. rewrite !osc_grid_ok by assumption. reflexivity.
Qed.
(** an integral which is not a number *)
Lemma fix_some : forall l, l <> [] -> exists v, fix_endpoints l = Ok v.
Proof. intros [|x l] H; [contradiction|]. eexists. reflexivity. Qed.
Lemma gt_not_a_number : forall Nmax npts b range contact Lb Lk g p cg cp nb nk, (forall zs v, quad zs v = OscModel.NaN) ->
  (0 <= Lb <= Nmax)%Z -> (0 <= Lk <= Nmax)%Z -> (Z.of_nat nb <= (Nmax - Lb) / 2)%Z -> (Z.of_nat nk <= (Nmax - Lk) / 2)%Z -> (0 < npts)%nat ->
  gt_element tgamma quad Nmax npts b range contact Lb Lk g p cg cp nb nk = Exit.
Proof.
  intros Nmax npts b range contact Lb Lk g p cg cp nb nk HN HL HL' Hn Hn' Hp. unfold gt_element. rewrite !osc_grid_ok by assumption. cbn [bind].
  rewrite <- shift1, yukawa_list. unfold integrate at 1. destruct (fix_some (map (yukawa_fl tgamma b range 1 Lb Lk nb nk) (z_grid npts))) as (v & V).
  { intros E. apply map_eq_nil in E. unfold z_grid, uniform_mesh in E. apply map_eq_nil in E. destruct npts; [lia|discriminate]. }
  rewrite V. cbn [bind]. rewrite HN. reflexivity.
Qed.
Lemma relcm_unknown : forall o Nmax sp name args, name <> "LENPIC-NLOM1"%string -> relcm_gen tgamma quad racah1 racah2 racah12 crme jhalf o Nmax sp name args = Exit.
Proof. intros o Nmax sp name args H. unfold relcm_gen. rewrite (proj2 (String.eqb_neq _ _) H). reflexivity. Qed.
Lemma relcm_unreadable : forall o Nmax sp name, relcm_gen tgamma quad racah1 racah2 racah12 crme jhalf o Nmax sp name None = Exit.
Proof. intros o Nmax sp name. unfold relcm_gen. destruct (String.eqb _ _); reflexivity. Qed.
Lemma relcm_program : forall o Nmax sp reg b k,
  relcm_gen tgamma quad racah1 racah2 racah12 crme jhalf o Nmax sp "LENPIC-NLOM1" (Some (reg, b, k)) = nlo_m1 tgamma quad racah1 racah2 racah12 crme jhalf o Nmax sp reg b (Z.to_nat 3000).
Proof. reflexivity. Qed.
End Errors.
