(** Concrete cases for the Lenpic operators. *)
From Coq Require Import String List ZArith Reals Bool Lra Lia.
From Verif Require Import Base RMat OscModel OscSpec OscProof BlockModel BlockProof MoshModel JpvModel JpvSpec IsoModel TrfModel TrfSpec TrfProof RmeModel RmeSpec RmeProof RmeFinal.
From Verif Require Import LenModel WfModel WfSpec WfLag WfInt WfProof WfOsc WfEl WfSqr WfMesh WfGrid WfFinal LenSpec LenInt LenMesh LenGrid LenProof LenCm LenFinal LenUnit.
Import ListNotations.
Open Scope R_scope.

(** a rule with the value 1 for everything, and one which gives the number of points *)
Definition one_rule (zs : list R) (v : list fl) : num := Num 1.
Definition count_rule (zs : list R) (v : list fl) : num := Num (INR (length zs)).
Lemma one_rule_Q : forall npts c h, Q one_rule npts c h = 1.
Proof. reflexivity. Qed.
Lemma count_rule_Q : forall npts c h, Q count_rule npts c h = INR npts.
Proof. intros. unfold Q, count_rule. cbn [num_val]. unfold points. rewrite map_length, seq_length. reflexivity. Qed.
(** coefficients with the spin values of two nucleons: J' and J decide *)
Definition ex_racah1 (a b c d e f k : Z) : R :=
  if ((c =? 2) && (f =? 2))%Z then sqrt (2 / 3) else if ((c =? 2) && (f =? 0))%Z then / sqrt 3 else if ((c =? 0) && (f =? 2))%Z then -1 else 0.
Definition ex_racah2 (a b c d e f k : Z) : R :=
  if (a =? d)%Z then (if (b =? 1)%Z then (if ((c =? 2) && (f =? 2))%Z then sqrt (2 / 3) else if ((c =? 2) && (f =? 0))%Z then - / sqrt 3 else if ((c =? 0) && (f =? 2))%Z then 1 else 0) else 1) else 0.
Definition ex_racah12 (a b c d e f k1 k2 k : Z) : R := if (c =? f)%Z then 0 else 1.
Definition ex_cj (racah : Z -> Z -> Z -> Z -> Z -> Z -> Z -> R) (a b : Z) : R := sqrt 3 / 2 * racah 1%Z 1%Z (2 * a)%Z 1%Z 1%Z (2 * b)%Z 2%Z.
Lemma ex_pair : pair_values ex_racah1 ex_racah2.
Proof. unfold pair_values. repeat split. Qed.
Lemma ex_one_spin : one_spin (sqrt 3 / 2) ex_racah1 ex_racah2 (ex_cj ex_racah1) (ex_cj ex_racah2).
Proof. repeat split. Qed.
Lemma ex_diagonal : diagonal2 ex_racah2.
Proof. intros L' s' J' L s J k H. unfold ex_racah2. rewrite (proj2 (Z.eqb_neq _ _) H). reflexivity. Qed.
Lemma ex_cross : cross_antisymmetric ex_racah12.
Proof. intros t _. unfold ex_racah12. rewrite Z.eqb_refl. reflexivity. Qed.

(** * Gamow-Teller: the two S waves *)
Definition waves : rspace := [RSub 0 0 0 1 0 1; RSub 0 1 1 0 0 1].
Lemma waves_space : rme_space 0 waves.
Proof.
  split.
  - intros x [<-|[<-|[]]]; unfold couples; cbn; repeat split; lia.
  - intros i k x y _ Hx Hy. apply nth_error_In in Hx. apply nth_error_In in Hy. destruct Hx as [<-|[<-|[]]], Hy as [<-|[<-|[]]]; cbn; lia.
Qed.
Lemma sigma_tau_01 : forall racah1 racah2 L' J' L J, pair_values racah1 racah2 -> sigma_tau racah1 racah2 (L', 0, J', 1)%Z (L, 1, J, 0)%Z = -2 * sqrt 3.
Proof.
  intros racah1 racah2 L' J' L J (_ & _ & A & B & C & D). unfold sigma_tau, spin_factor, same. change (1 =? 0)%Z with false. cbv iota. change (couplesb 0 1 1 && couplesb 1 1 0) with true. cbv iota.
  change (2 * 1)%Z with 2%Z. change (2 * 0)%Z with 0%Z. rewrite A, B, C, D. assert (0 < sqrt 3) by (apply sqrt_lt_R0; lra). field. lra.
Qed.
Lemma case_gt : forall tgamma crme, gamma_fn tgamma ->
  exists c m, n2lo_gt tgamma one_rule ex_racah2 ex_racah12 crme (sqrt 3 / 2) (ex_cj ex_racah1) (ex_cj ex_racah2) (OpLab 1 0 0 1) 0 waves 1 1 3 = Ok c
  /\ nth_error c 1 = Some ([(0%nat, 1%nat)], [m])
  /\ at_ m 0 0 = Num (opep_prefactor / pion_mass_fm * (2 * sqrt 3 * c3_fm + 18 * c4_fm) + sqrt 3 / 2 * value_D 1).
Proof.
  intros tgamma crme Ht. destruct (gt_stored tgamma one_rule ex_racah1 ex_racah2 ex_racah12 crme (sqrt 3 / 2) (ex_cj ex_racah1) (ex_cj ex_racah2) Ht
    ltac:(intros zs v; exists 1; reflexivity) ex_one_spin ex_diagonal 0 waves (OpLab 1 0 0 1) 1 1 3 waves_space eq_refl eq_refl ltac:(unfold in_range; cbn; lia) ltac:(cbn; lia) ltac:(cbn; lia) ltac:(lra)
    ltac:(right; replace (1 - 1) with 0 by ring; rewrite Rabs_R0; lra) ltac:(lia)) as (c & Ec & Lc & Sc).
  destruct (Sc 1%Z ltac:(lia)) as (s & ms & E & N & L & I & V). exists c.
  assert (Es : s = [(0%nat, 1%nat)]).
  { assert (In (0%nat, 1%nat) s).
    { apply I. split; [unfold in_range; cbn; lia|]. split; [lia|]. exists (RSub 0 0 0 1 0 1), (RSub 0 1 1 0 0 1). unfold jt_rule, couples. cbn. repeat split; lia. }
    assert (O : forall p, In p s -> p = (0%nat, 1%nat)).
    { intros [i k] Hp. apply I in Hp. destruct Hp as (_ & Hle & x & y & Hx & Hy & Hj). destruct i as [|[|i]], k as [|[|k]]; try lia; try reflexivity;
        try (destruct i; discriminate); try (destruct k; discriminate); cbn in Hx, Hy; injection Hx as <-; injection Hy as <-; unfold jt_rule, couples in Hj; cbn in Hj; lia. }
    destruct s as [|p [|q s]]; [elim H|rewrite (O p); [reflexivity|left; reflexivity]|]. exfalso. inversion N as [|? ? Hn _]. subst. apply Hn. rewrite (O p), (O q); cbn; auto. }
  subst s. destruct (V 0%nat 0%nat 1%nat _ _ eq_refl eq_refl eq_refl) as (m & Hm & _ & _ & A). exists m. split; [exact Ec|]. split.
  - change (Z.to_nat 1) with 1%nat in E. rewrite E. do 2 f_equal. destruct ms as [|m' [|m2 ms]]; try discriminate. cbn in Hm. injection Hm as <-. reflexivity.
  - rewrite (A 0%nat 0%nat) by (cbn; lia). f_equal. unfold gt_values, gt_rme, rl. cbn [r_L r_S r_J r_T]. change (1 =? 1)%Z with true. cbv iota. unfold gt_pion, gt_contact.
    rewrite !one_rule_Q, sigma_tau_01 by exact ex_pair. unfold central, tensor. change (0 =? 0)%Z with true. change (couplesb 0 2 0) with false. cbv iota.
    assert (E1 : coupled2 ex_racah2 (0, 0, 0, 1)%Z (0, 1, 1, 0)%Z = 1) by reflexivity. rewrite E1.
    assert (E2 : sigma_tau_cross ex_racah12 (0, 0, 0, 1)%Z (0, 1, 1, 0)%Z = 9).
    { unfold sigma_tau_cross, cross. change (couplesb 0 1 1) with true. change (couplesb 1 1 0) with true. cbv iota. change (ex_racah12 1 1 (2 * 0) 1 1 (2 * 1) 2 2 (2 * 1)) with 1.
      change (ex_racah12 1 1 (2 * 1) 1 1 (2 * 0) 2 2 (2 * 1)) with 1. rewrite !sqrt_sqrt by lra. ring. }
    rewrite E2. destruct constants_ok as (C1 & C2 & C3 & C4 & C5). unfold opep_prefactor. rewrite <- C1, <- C2, <- C3, <- C4, <- C5. pose proof mass_pos. pose proof PI_RGT_0.
    assert (pion_decay_constant_fm <> 0) by (rewrite C2; unfold hc; lra). field. repeat split; lra.
Qed.

(** * M1: number of steps *)
Definition cm_waves : cspace := [(CLab 0 0 0 1 0, [(0, 0, 0, 0)%Z]); (CLab 0 1 1 0 0, [(0, 0, 0, 0)%Z])].
Lemma cm_waves_space : cm_space 0 cm_waves.
Proof. intros x [<-|[<-|[]]]; cbn; (split; [lia|]); (split; [lia|]); intros Nr lr Nc lc [E|[]]; injection E as <- <- <- <-; unfold OscSpec.ho; cbn; repeat split; lia. Qed.
Lemma case_m1 : forall tgamma crme npts, gamma_fn tgamma -> (1 < npts)%nat ->
  exists c s ms q m, nlo_m1 tgamma count_rule ex_racah1 ex_racah2 ex_racah12 crme (sqrt 3 / 2) (OpLab 1 0 0 1) 0 cm_waves 1 1 npts = Ok c
  /\ nth_error c 1 = Some (s, ms) /\ NoDup s /\ nth_error s q = Some (0%nat, 1%nat) /\ nth_error ms q = Some m
  /\ at_ m 0 0 = Num (9 * m1_factor * (2 - / pion_mass_fm) * INR npts).
Proof.
  intros tgamma crme npts Ht Hn. destruct (m1_stored tgamma count_rule ex_racah1 ex_racah2 ex_racah12 crme (sqrt 3 / 2) (ex_cj ex_racah1) (ex_cj ex_racah2) Ht
    ltac:(intros zs v; eexists; reflexivity) ex_one_spin ex_cross 0 cm_waves (OpLab 1 0 0 1) 1 1 npts cm_waves_space eq_refl eq_refl ltac:(unfold in_range; cbn; lia) ltac:(cbn; lia) ltac:(cbn; lia) ltac:(lra) Hn)
    as (c & Ec & Lc & Sc).
  destruct (Sc 1%Z ltac:(lia)) as (s & ms & E & N & L & I & V).
  assert (H : In (0%nat, 1%nat) s).
  { apply I. split; [unfold in_range; cbn; lia|]. split; [lia|]. exists (CLab 0 0 0 1 0, [(0, 0, 0, 0)%Z]), (CLab 0 1 1 0 0, [(0, 0, 0, 0)%Z]). unfold jt_rule, couples. cbn. repeat split; lia. }
  apply In_nth_error in H. destruct H as (q & Hq). destruct (V q 0%nat 1%nat _ _ Hq eq_refl eq_refl) as (m & Hm & _ & _ & A).
  exists c, s, ms, q, m. do 5 (split; [assumption|]). rewrite (A 0%nat 0%nat _ _ eq_refl eq_refl). f_equal. unfold m1_values, m1_rme, cm_labels. cbn [fst snd c_L c_S c_J c_T].
  change (1 =? 1)%Z with true. cbv iota. rewrite !count_rule_Q.
  assert (K : cross ex_racah12 1 0 1 = 3) by (unfold cross; change (couplesb 0 1 1) with true; cbv iota; change (ex_racah12 1 1 (2 * 0) 1 1 (2 * 1) 2 2 (2 * 1)) with 1; rewrite sqrt_sqrt by lra; ring).
  assert (K' : cross ex_racah12 1 1 0 = 3) by (unfold cross; change (couplesb 1 1 0) with true; cbv iota; change (ex_racah12 1 1 (2 * 1) 1 1 (2 * 0) 2 2 (2 * 1)) with 1; rewrite sqrt_sqrt by lra; ring).
  unfold spin_tensor, spin_only, cm_same, cm_radius. change (couplesb 0 2 0) with false. change (0 =? 0)%Z with true. change (Z.abs (0 - 0) =? 1)%Z with false. cbn [andb]. rewrite K, K'.
  change (ex_racah2 (2 * 0) (2 * 0) (2 * 0) (2 * 0) (2 * 1) (2 * 1) 2) with 1. destruct constants_ok as (C1 & C2 & C3 & _). unfold m1_factor.
  assert (C4 : nucleon_mass_fm = (938272 + 939565) / 2 / 1000 / hc) by (unfold nucleon_mass_fm, proton_mass_MeV, neutron_mass_MeV, hbarc, hc; field).
  rewrite <- C1, <- C2, <- C3, <- C4. pose proof mass_pos. pose proof PI_RGT_0. assert (pion_decay_constant_fm <> 0) by (rewrite C2; unfold hc; lra).
  set (w := sqrt (3 / (4 * PI))). field. repeat split; lra.
Qed.
Lemma relcm_steps_refuted : exists quad racah1 racah2 racah12 jhalf cj1 cj2 o Nmax sp reg b k,
  quad_ok quad /\ one_spin jhalf racah1 racah2 cj1 cj2 /\ cross_antisymmetric racah12 /\ cm_space Nmax sp /\ (1 < k)%Z
  /\ forall tgamma crme, gamma_fn tgamma ->
     relcm_gen tgamma quad racah1 racah2 racah12 crme jhalf o Nmax sp "LENPIC-NLOM1" (Some (reg, b, k)) <> nlo_m1 tgamma quad racah1 racah2 racah12 crme jhalf o Nmax sp reg b (Z.to_nat k).
Proof.
  exists count_rule, ex_racah1, ex_racah2, ex_racah12, (sqrt 3 / 2), (ex_cj ex_racah1), (ex_cj ex_racah2), (OpLab 1 0 0 1), 0%Z, cm_waves, 1, 1, 500%Z.
  split; [intros zs v; eexists; reflexivity|]. split; [exact ex_one_spin|]. split; [exact ex_cross|]. split; [exact cm_waves_space|]. split; [lia|].
  intros tgamma crme Ht E. rewrite relcm_program in E.
  destruct (case_m1 tgamma crme (Z.to_nat 3000) Ht ltac:(lia)) as (c & s & ms & q & m & Ec & E1 & N1 & Q1 & M1 & A1).
  destruct (case_m1 tgamma crme (Z.to_nat 500) Ht ltac:(lia)) as (c' & s' & ms' & q' & m' & Ec' & E1' & _ & Q1' & M1' & A1').
  rewrite Ec, Ec' in E. injection E as <-. rewrite E1 in E1'. injection E1' as <- <-.
  assert (q = q'). { apply (proj1 (NoDup_nth_error s) N1); [apply nth_error_Some; congruence|congruence]. }
  subst q'. rewrite M1 in M1'. injection M1' as <-. rewrite A1 in A1'. pose proof (f_equal num_val A1') as A. cbn [num_val] in A. rewrite (INR_IZR_INZ (Z.to_nat 3000)), (INR_IZR_INZ (Z.to_nat 500)), !Z2Nat.id in A by lia.
  assert (P : 0 < pion_decay_constant_fm /\ 0 < nucleon_mass_fm /\ 0 < pion_mass_fm) by (unfold pion_decay_constant_fm, nucleon_mass_fm, proton_mass_MeV, neutron_mass_MeV, pion_mass_fm, hbarc; lra).
  assert (M2 : 0 < 2 - / pion_mass_fm) by (unfold pion_mass_fm, hbarc; lra).
  pose proof PI_RGT_0. assert (W : 0 < sqrt (3 / (4 * PI))) by (apply sqrt_lt_R0, Rdiv_lt_0_compat; lra).
  assert (F : 0 < - m1_factor).
  { unfold m1_factor, gA. replace (- (- sqrt (3 / (4 * PI)) * (129 / 100) ^ 2 * nucleon_mass_fm * pion_mass_fm / (24 * PI * pion_decay_constant_fm ^ 2)))
      with (sqrt (3 / (4 * PI)) * ((129 / 100) ^ 2 * (nucleon_mass_fm * pion_mass_fm)) / (24 * PI * pion_decay_constant_fm ^ 2)) by (field; lra).
    apply Rdiv_lt_0_compat; [apply Rmult_lt_0_compat; [exact W|]; apply Rmult_lt_0_compat; [lra|]; apply Rmult_lt_0_compat; lra|].
    apply Rmult_lt_0_compat; [lra|]. apply pow_lt. lra. }
  assert (0 < - m1_factor * (2 - / pion_mass_fm)) by (apply Rmult_lt_0_compat; assumption). lra.
Qed.

Lemma case_mesh : forall tgamma, gamma_fn tgamma -> mesh_correct (1 * sqrt 2) (yukawa 2 (7 / 10) 1 (psi tgamma 1 0 3) (psi tgamma 1 0 5)).
Proof. intros tgamma Ht. apply yukawa_mesh; try assumption; try lra; try lia; left; lra. Qed.
Lemma case_lo : exists c s ms q m, lo_gt ex_racah1 ex_racah2 (OpLab 1 0 0 1) waves = Ok c
  /\ nth_error c 1 = Some (s, ms) /\ NoDup s /\ nth_error s q = Some (0%nat, 1%nat) /\ nth_error ms q = Some m /\ at_ m 0 0 = Num (129 / 100 * sqrt 3).
Proof.
  destruct (lo_stored ex_racah1 ex_racah2 0 waves (OpLab 1 0 0 1) waves_space eq_refl eq_refl ltac:(unfold in_range; cbn; lia) ltac:(cbn; lia) ltac:(cbn; lia)) as (c & Ec & Lc & Sc).
  destruct (Sc 1%Z ltac:(lia)) as (s & ms & E & N & L & I & V).
  assert (H : In (0%nat, 1%nat) s).
  { apply I. split; [unfold in_range; cbn; lia|]. split; [lia|]. exists (RSub 0 0 0 1 0 1), (RSub 0 1 1 0 0 1). unfold jt_rule, couples. cbn. repeat split; lia. }
  apply In_nth_error in H. destruct H as (q & Hq). destruct (V q 0%nat 1%nat _ _ Hq eq_refl eq_refl) as (m & Hm & _ & _ & A).
  exists c, s, ms, q, m. do 5 (split; [assumption|]). rewrite (A 0%nat 0%nat) by (cbn; lia). f_equal. unfold rl, spin_rme. cbn [r_L r_S r_J r_T].
  pose proof (sigma_tau_01 ex_racah1 ex_racah2 0 0 0 1 ex_pair) as S. unfold sigma_tau in S.
  assert (E1 : coupled2 ex_racah2 (0, 0, 0, 1)%Z (0, 1, 1, 0)%Z = 1) by reflexivity. rewrite E1.
  change ((1 =? 1)%Z && (0 =? 0)%Z && (0 + 2 * Z.of_nat 0 =? 0 + 2 * Z.of_nat 0)%Z) with true. unfold same. lra.
Qed.
Lemma case_regulator : forall tgamma quad racah2 racah12 crme jhalf cj1 cj2,
  n2lo_gt tgamma quad racah2 racah12 crme jhalf cj1 cj2 (OpLab 1 0 0 1) 0 waves (8 / 10) 1 300 = Exit /\ n2lo_gt tgamma quad racah2 racah12 crme jhalf cj1 cj2 (OpLab 2 0 0 1) 0 waves 1 1 100 = Exit.
Proof.
  intros. split; [apply gt_range|apply gt_labels; left; discriminate]. intros [H|H]; apply Rabs_def2 in H; lra.
Qed.
Lemma contact_different : forall tgamma quad racah1 racah2 D b range npts L' s' J' T' N' L s J T N, L' <> L ->
  gt_contact tgamma quad racah1 racah2 D b range npts (L', s', J', T') N' (L, s, J, T) N = 0.
Proof. intros. unfold gt_contact, central. rewrite (proj2 (Z.eqb_neq _ _) H). ring. Qed.
