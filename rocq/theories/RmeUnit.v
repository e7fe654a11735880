(** Relative operators: the unit vector, wrong elements of the dipole operators, unit tensors, the choice of the operator. *)
From Coq Require Import String List ZArith Reals Bool Lia Lra.
From Verif Require Import Base RMat OscModel OscSpec OscProof OscFinal BlockModel BlockProof MoshModel JpvModel JpvSpec JpvProof IsoModel TrfModel TrfSpec TrfProof RmeModel RmeSpec RmeProof RmeFinal.
Import ListNotations.
Open Scope Z_scope.

Lemma unit_up : forall L, 0 <= L -> unit_rme (L + 1) L = sqrt (IZR (L + 1) / IZR (2 * L + 3)).
Proof.
  intros L HL. unfold unit_rme, cos_me, cg_1. rewrite Z.eqb_refl. rewrite Z.max_l by lia. replace (2 * (L + 1) + 1) with (2 * L + 3) by lia.
  assert (H1 : (0 < IZR (L + 1))%R) by (apply IZR_lt; lia). assert (H2 : (0 < IZR (2 * L + 3))%R) by (apply IZR_lt; lia). assert (H3 : (0 < IZR (2 * L + 1))%R) by (apply IZR_lt; lia).
  rewrite mult_IZR. set (a := IZR (L + 1)) in *. set (b := IZR (2 * L + 3)) in *. set (c := IZR (2 * L + 1)) in *.
  rewrite sqrt_mult_alt by lra. rewrite !sqrt_div_alt by lra.
  rewrite <- (sqrt_sqrt a) at 1 by lra. assert (sqrt a <> 0)%R by (apply Rgt_not_eq, sqrt_lt_R0; lra). assert (sqrt b <> 0)%R by (apply Rgt_not_eq, sqrt_lt_R0; lra).
  assert (sqrt c <> 0)%R by (apply Rgt_not_eq, sqrt_lt_R0; lra). field. auto.
Qed.
Lemma unit_down : forall L, 1 <= L -> unit_rme (L - 1) L = (- sqrt (IZR L / IZR (2 * L - 1)))%R.
Proof.
  intros L HL. unfold unit_rme, cos_me, cg_1. rewrite (proj2 (Z.eqb_neq (L - 1) (L + 1))) by lia. rewrite Z.max_r by lia. replace (2 * (L - 1) + 1) with (2 * L - 1) by lia.
  assert (H1 : (0 < IZR L)%R) by (apply IZR_lt; lia). assert (H2 : (0 < IZR (2 * L - 1))%R) by (apply IZR_lt; lia). assert (H3 : (0 < IZR (2 * L + 1))%R) by (apply IZR_lt; lia).
  rewrite mult_IZR. set (a := IZR L) in *. set (b := IZR (2 * L - 1)) in *. set (c := IZR (2 * L + 1)) in *.
  rewrite sqrt_mult_alt by lra. rewrite !sqrt_div_alt by lra.
  rewrite <- (sqrt_sqrt a) at 1 by lra. assert (sqrt a <> 0)%R by (apply Rgt_not_eq, sqrt_lt_R0; lra). assert (sqrt b <> 0)%R by (apply Rgt_not_eq, sqrt_lt_R0; lra).
  assert (sqrt c <> 0)%R by (apply Rgt_not_eq, sqrt_lt_R0; lra). field. auto.
Qed.
Theorem unit_vector : hermitian_vector unit_rme /\ forall L, 0 <= L -> square_of unit_rme L = 1%R.
Proof.
  split.
  - intros L HL. rewrite unit_up by lia. pose proof (unit_down (L + 1) ltac:(lia)) as D. replace (L + 1 - 1) with L in D by lia. rewrite D. replace (2 * (L + 1) - 1) with (2 * L + 1) by lia.
    rewrite Ropp_mult_distr_r_reverse, Ropp_involutive. rewrite <- !sqrt_mult_alt by (apply IZR_le; lia). f_equal. field. split; apply IZR_neq; lia.
  - intros L HL. unfold square_of. rewrite unit_up by lia. rewrite sqrt_sqrt.
    2: { apply Rmult_le_pos; [apply IZR_le; lia|]. left. apply Rinv_0_lt_compat, IZR_lt. lia. }
    destruct (Z.eqb_spec L 0) as [->|H]; [cbn; lra|]. rewrite unit_down by lia. rewrite Rmult_opp_opp, sqrt_sqrt.
    2: { apply Rmult_le_pos; [apply IZR_le; lia|]. left. apply Rinv_0_lt_compat, IZR_lt. lia. }
    assert (IZR (2 * L + 3) <> 0)%R by (apply IZR_neq; lia). assert (IZR (2 * L + 1) <> 0)%R by (apply IZR_neq; lia). assert (IZR (2 * L - 1) <> 0)%R by (apply IZR_neq; lia).
    replace (IZR (2 * L + 3) / IZR (2 * L + 1) * (IZR (L + 1) / IZR (2 * L + 3)) + IZR (2 * L - 1) / IZR (2 * L + 1) * (IZR L / IZR (2 * L - 1)))%R
      with ((IZR (L + 1) + IZR L) / IZR (2 * L + 1))%R by (field; auto).
    rewrite <- plus_IZR. replace (L + 1 + L) with (2 * L + 1) by lia. field. assumption.
Qed.
Theorem code_direction_up : forall L, 0 <= L -> code_direction (L + 1) L = unit_rme (L + 1) L.
Proof. intros L HL. rewrite unit_up by exact HL. unfold code_direction. rewrite (proj2 (Z.eqb_neq (L + 1) (L - 1))) by lia. reflexivity. Qed.
Theorem code_direction_down : forall L, 1 <= L ->
  code_direction (L - 1) L = (- sqrt (IZR (2 * L - 1) / IZR (2 * L + 1)) * unit_rme (L - 1) L)%R /\ (sqrt (IZR (2 * L - 1) / IZR (2 * L + 1)) < 1)%R
  /\ unit_rme (L - 1) L <> 0%R.
Proof.
  intros L HL. rewrite unit_down by exact HL. assert (H1 : (0 < IZR L)%R) by (apply IZR_lt; lia). assert (H2 : (0 < IZR (2 * L - 1))%R) by (apply IZR_lt; lia).
  assert (H3 : (0 < IZR (2 * L + 1))%R) by (apply IZR_lt; lia). assert (H4 : (IZR (2 * L - 1) < IZR (2 * L + 1))%R) by (apply IZR_lt; lia). split; [|split].
  - unfold code_direction. rewrite Z.eqb_refl. rewrite Rmult_opp_opp. rewrite <- sqrt_mult_alt.
    + f_equal. field. lra.
    + left. apply Rmult_lt_0_compat; [lra|]. apply Rinv_0_lt_compat. lra.
  - rewrite <- sqrt_1. apply sqrt_lt_1_alt. split; [left; apply Rmult_lt_0_compat; [lra|apply Rinv_0_lt_compat; lra]|].
    apply (Rmult_lt_reg_r (IZR (2 * L + 1))); [lra|]. unfold Rdiv. rewrite Rmult_assoc, Rinv_l by lra. lra.
  - apply Ropp_neq_0_compat. apply Rgt_not_eq, sqrt_lt_R0. apply Rmult_lt_0_compat; [lra|apply Rinv_0_lt_compat; lra].
Qed.
(** the stored elements, completed by hermiticity, are not those of a vector of length one *)
Theorem code_direction_square : forall v, hermitian_vector v -> (forall L, 1 <= L -> v (L - 1) L = code_direction (L - 1) L) ->
  forall L, 0 <= L -> square_of v L = (IZR (L + 1) / IZR (2 * L + 3) + IZR L * IZR (2 * L - 1) / (IZR (2 * L + 1) * IZR (2 * L + 1)))%R /\ (square_of v L < 1)%R.
Proof.
  intros v Hv Hd L HL. assert (H3 : (0 < IZR (2 * L + 3))%R) by (apply IZR_lt; lia). assert (H4 : (0 < IZR (2 * L + 1))%R) by (apply IZR_lt; lia).
  assert (H5 : (0 <= IZR L)%R) by (apply IZR_le; lia).
  assert (E1 : (IZR (2 * L + 3) * (v (L + 1)%Z L * v (L + 1)%Z L) = IZR (2 * L + 1) * (IZR (L + 1) / IZR (2 * L + 3)))%R).
  { pose proof (Hv L HL) as H. pose proof (Hd (L + 1) ltac:(lia)) as H'. replace (L + 1 - 1) with L in H' by lia. rewrite H' in H. unfold code_direction in H.
    rewrite (proj2 (Z.eqb_eq L (L + 1 - 1))) in H by lia. replace (2 * (L + 1) + 1) with (2 * L + 3) in H by lia.
    assert (Q : forall a b : R, (a = - b -> a * a = b * b)%R) by (intros a b ->; ring). apply Q in H.
    rewrite <- (sqrt_sqrt (IZR (2 * L + 3))) at 1 by lra. rewrite <- (sqrt_sqrt (IZR (2 * L + 1))) at 1 by lra.
    rewrite <- (sqrt_sqrt (IZR (L + 1) / IZR (2 * L + 3))) by (apply Rmult_le_pos; [apply IZR_le; lia|left; apply Rinv_0_lt_compat; lra]).
    etransitivity; [|etransitivity; [exact H|]]; ring. }
  assert (E : square_of v L = (IZR (L + 1) / IZR (2 * L + 3) + IZR L * IZR (2 * L - 1) / (IZR (2 * L + 1) * IZR (2 * L + 1)))%R).
  { unfold square_of. replace (IZR (2 * L + 3) / IZR (2 * L + 1) * (v (L + 1)%Z L * v (L + 1)%Z L))%R
      with (IZR (2 * L + 3) * (v (L + 1)%Z L * v (L + 1)%Z L) / IZR (2 * L + 1))%R by (field; lra).
    rewrite E1. destruct (Z.eqb_spec L 0) as [->|Hne]; [cbn; lra|]. rewrite (Hd L) by lia. unfold code_direction. rewrite Z.eqb_refl. rewrite sqrt_sqrt.
    - field. lra.
    - apply Rmult_le_pos; [lra|left; apply Rinv_0_lt_compat; lra]. }
  split; [exact E|]. rewrite E. rewrite !plus_IZR, minus_IZR, mult_IZR in *. set (x := IZR L) in *.
  apply (Rmult_lt_reg_r ((2 * x + 3) * ((2 * x + 1) * (2 * x + 1)))); [nra|].
  replace (((x + 1) / (2 * x + 3) + x * (2 * x - 1) / ((2 * x + 1) * (2 * x + 1))) * ((2 * x + 3) * ((2 * x + 1) * (2 * x + 1))))%R
    with ((x + 1) * ((2 * x + 1) * (2 * x + 1)) + x * (2 * x - 1) * (2 * x + 3))%R by (field; lra). nra.
Qed.

(** * The dipole operators *)
Definition two_subspaces (n : nat) : rspace := [RSub 0 0 0 1 0 n; RSub 1 0 1 0 1 1].
Definition dipole_labels : oplab := OpLab 1 1 0 2.
Lemma two_space : forall n, (n = 1 \/ n = 2)%nat -> rme_space (if Nat.eqb n 1 then 1 else 2) (two_subspaces n).
Proof.
  intros n Hn. split.
  - intros x [<-|[<-|[]]]; cbn; destruct Hn as [->| ->]; unfold couples; cbn; repeat split; lia.
  - intros [|[|i]] [|[|k]] x y Hik Hx Hy; cbn in Hx, Hy; try (destruct i; discriminate); try (destruct k; discriminate); try lia;
      injection Hx as <-; injection Hy as <-; cbn; lia.
Qed.
Lemma coordinate_01 : forall s, coordinate 0 0 1 1 s = Ok (Num (sqrt 3 / k_sqrt_2)).
Proof. intros s. rewrite coordinate_num; [|split; [lia|reflexivity]|right; lia]. cbn. rewrite Rmult_0_r, Rplus_0_l. reflexivity. Qed.
Lemma coordinate_21 : forall s, coordinate 2 0 1 1 s = Ok (Num (- IZR s * sqrt 2 / k_sqrt_2)).
Proof. intros s. rewrite coordinate_num; [|split; [lia|reflexivity]|right; lia]. cbn. do 3 f_equal. ring. Qed.
Section Dip.
Variable racah1 racah2 : Z -> Z -> Z -> Z -> Z -> Z -> Z -> R.
Hypothesis pair_ok : pair_values racah1 racah2.
(** for spin zero the reduced elements are those of the orbital motion *)
Hypothesis spinless : forall L' L, racah1 (2 * L') 0 (2 * L') (2 * L) 0 (2 * L) 2 = 1%R.
Lemma tau_10 : tau_difference racah1 racah2 1 0 = 2%R.
Proof. unfold tau_difference. destruct pair_ok as (A & B & C & D & E & F). change (2 * 1) with 2. change (2 * 0) with 0. rewrite C, D. field. apply Rgt_not_eq, sqrt_lt_R0. lra. Qed.
Lemma stored_element : forall n F c u, (n = 1 \/ n = 2)%nat -> (u < n)%nat -> stores_num (two_subspaces n) dipole_labels c F ->
  exists m ms s, nth_error c 1%nat = Some (s, ms) /\ nth_error ms 0%nat = Some m /\ at_ m u 0 = Num (F 1 (0, 0, 0, 1) (2 * Z.of_nat u) (1, 0, 1, 0) 1).
Proof.
  intros n F c u Hn Hu [_ H]. destruct (H 1 ltac:(lia)) as (s & ms & Hc & Hnd & Hl & Hin & Hm).
  assert (Hs : forall i k, In (i, k) s <-> (i, k) = (0, 1)%nat).
  { intros i k. rewrite Hin. unfold in_range, jt_rule, couples. cbn [o_T0_min o_T0_max o_J0 o_g0 dipole_labels]. split.
    - intros (_ & Hik & x & y & Hx & Hy & Hj & Ht & Hg).
      destruct i as [|[|i]], k as [|[|k]]; cbn in Hx, Hy; try (destruct i; discriminate); try (destruct k; discriminate); try lia;
        injection Hx as <-; injection Hy as <-; cbn in *; try lia; try reflexivity; discriminate.
    - intros E. injection E as -> ->. split; [lia|]. split; [lia|]. exists (RSub 0 0 0 1 0 n), (RSub 1 0 1 0 1 1). cbn. repeat split; lia. }
  assert (Es : s = [(0, 1)%nat]).
  { destruct s as [|[a b] s]; [exfalso; apply (proj2 (Hs 0%nat 1%nat)); reflexivity|]. pose proof (proj1 (Hs a b) (or_introl eq_refl)) as E. injection E as -> ->. f_equal.
    destruct s as [|[a b] s]; [reflexivity|]. pose proof (proj1 (Hs a b) (or_intror (or_introl eq_refl))) as E. injection E as -> ->. inversion Hnd as [|? ? Hno]. elim Hno. left. reflexivity. }
  subst s. destruct (Hm 0%nat 0%nat 1%nat _ _ eq_refl eq_refl eq_refl) as (m & Em & R1 & C1 & A). exists m, ms, [(0, 1)%nat]. split; [exact Hc|]. split; [exact Em|].
  rewrite A by (cbn; lia). cbn [r_L rl r_S r_J r_T]. reflexivity.
Qed.
(** C94: the elements stored are not those of (tau1 - tau2) r *)
Theorem dipole_wrong : exists Nmax sp o c, rme_space Nmax sp /\ dipole racah1 racah2 o sp KR 1 = Ok c
  /\ ~ stores_num sp o c (dipole_rme racah1 racah2 unit_rme (radial_rel KR)).
Proof.
  destruct (dipole_stored racah1 racah2 1 (two_subspaces 1) dipole_labels KR (two_space 1 (or_introl eq_refl)) eq_refl eq_refl) as (c & E & St);
    [unfold in_range; cbn; lia|cbn; lia|cbn; lia|].
  exists 1, (two_subspaces 1), dipole_labels, c. split; [exact (two_space 1 (or_introl eq_refl))|]. split; [exact E|]. intros St'.
  destruct (stored_element 1 _ _ 0 ltac:(lia) ltac:(lia) St) as (m & ms & s & H1 & H2 & H3).
  destruct (stored_element 1 _ _ 0 ltac:(lia) ltac:(lia) St') as (m' & ms' & s' & H1' & H2' & H3').
  rewrite H1 in H1'. injection H1' as <- <-. rewrite H2 in H2'. injection H2' as <-. rewrite H3 in H3'. injection H3' as H. revert H. cbn. unfold coupled1.
  pose proof (spinless 0 1) as Hsl. change (2 * 0) with 0 in Hsl. change (2 * 1) with 2 in Hsl. rewrite tau_10, Hsl. unfold code_radial.
  rewrite coordinate_01. cbn [oval val].
  pose proof (unit_down 1 ltac:(lia)) as D. change (1 - 1) with 0 in D. change (2 * 1 - 1) with 1 in D. rewrite D. intros H.
  assert (K : (0 < k_sqrt_2)%R) by (unfold k_sqrt_2; lra).
  assert (P : (0 < sqrt 2 * (sqrt 3 / k_sqrt_2))%R).
  { apply Rmult_lt_0_compat; [apply sqrt_lt_R0; lra|]. apply Rmult_lt_0_compat; [apply sqrt_lt_R0; lra|]. apply Rinv_0_lt_compat. exact K. }
  replace (sqrt 2 * (/ k_sqrt_2 * (1 * 0 + sqrt 3)))%R with (sqrt 2 * (sqrt 3 / k_sqrt_2))%R in H by (field; lra).
  set (p := (sqrt 2 * (sqrt 3 / k_sqrt_2))%R) in *.
  assert (P1 : (0 < sqrt (1 / 3))%R) by (apply sqrt_lt_R0; lra). assert (P2 : (0 < sqrt (1 / 1))%R) by (apply sqrt_lt_R0; lra).
  assert (P3 : (0 < 1 * 2 * sqrt (1 / 3) * p)%R) by (apply Rmult_lt_0_compat; lra). assert (P4 : (0 < sqrt (1 / 1) * p)%R) by (apply Rmult_lt_0_compat; lra). lra.
Qed.
(** C95: the momentum operator has the elements of the coordinate operator, times one half; they are not those of the momentum for any direction elements *)
Theorem dipole_momentum : forall o sp Nmax, rme_space Nmax sp -> o_J0 o = 1 -> o_g0 o = 1 -> in_range o 1 -> 0 <= o_T0_min o -> o_T0_max o <= 2 ->
  exists c c', dipole racah1 racah2 o sp KR 1 = Ok c /\ dipole racah1 racah2 o sp KK 1 = Ok c'
  /\ stores_num sp o c (dipole_rme racah1 racah2 code_direction (code_radial KR))
  /\ stores_num sp o c' (fun T0 x N' y N => / 2 * dipole_rme racah1 racah2 code_direction (code_radial KR) T0 x N' y N)%R.
Proof.
  intros o sp Nmax Hsp HJ Hg Hr H0 H2. destruct (dipole_stored racah1 racah2 Nmax sp o KR Hsp HJ Hg Hr H0 H2) as (c & E & St).
  destruct (dipole_stored racah1 racah2 Nmax sp o KK Hsp HJ Hg Hr H0 H2) as (c' & E' & St'). exists c, c'. split; [exact E|]. split; [exact E'|]. split; [exact St|].
  assert (X : forall T0 x N' y N, (dipole_rme racah1 racah2 code_direction (code_radial KK) T0 x N' y N = / 2 * dipole_rme racah1 racah2 code_direction (code_radial KR) T0 x N' y N)%R).
  { intros T0 [[[L' s'] J'] T'] N' [[[L s] J] T] N. cbv [dipole_rme]. destruct (_ && _); [|ring]. unfold code_radial.
    assert (S2 : (/ sqrt 2 = / 2 * sqrt 2)%R). { rewrite <- (sqrt_sqrt 2) at 2 by lra. field. apply Rgt_not_eq, sqrt_lt_R0. lra. }
    rewrite S2. ring. }
  destruct St' as [L' St']. split; [exact L'|]. intros T0 HT. destruct (St' T0 HT) as (s & ms & A1 & A2 & A3 & A4 & A5). exists s, ms. split; [exact A1|]. split; [exact A2|]. split; [exact A3|]. split; [exact A4|].
  intros q i k x y Hq Hx Hy. destruct (A5 q i k x y Hq Hx Hy) as (m & B1 & B2 & B3 & B4). exists m. repeat split; try assumption. intros u v Hu Hv. rewrite <- X. apply B4; assumption.
Qed.
Theorem dipole_momentum_wrong : exists Nmax sp o c, rme_space Nmax sp /\ dipole racah1 racah2 o sp KK 1 = Ok c
  /\ forall red, ~ stores_num sp o c (dipole_rme racah1 racah2 red (radial_rel KK)).
Proof.
  destruct (dipole_stored racah1 racah2 2 (two_subspaces 2) dipole_labels KK (two_space 2 (or_intror eq_refl)) eq_refl eq_refl) as (c & E & St);
    [unfold in_range; cbn; lia|cbn; lia|cbn; lia|].
  exists 2, (two_subspaces 2), dipole_labels, c. split; [exact (two_space 2 (or_intror eq_refl))|]. split; [exact E|]. intros red St'.
  assert (P : forall u, (u < 2)%nat -> dipole_rme racah1 racah2 code_direction (code_radial KK) 1 (0, 0, 0, 1) (2 * Z.of_nat u) (1, 0, 1, 0) 1
     = dipole_rme racah1 racah2 red (radial_rel KK) 1 (0, 0, 0, 1) (2 * Z.of_nat u) (1, 0, 1, 0) 1).
  { intros u Hu. destruct (stored_element 2 _ _ u ltac:(lia) ltac:(lia) St) as (m & ms & s & H1 & H2 & H3).
    destruct (stored_element 2 _ _ u ltac:(lia) ltac:(lia) St') as (m' & ms' & s' & H1' & H2' & H3').
    rewrite H1 in H1'. injection H1' as <- <-. rewrite H2 in H2'. injection H2' as <-. rewrite H3 in H3'. injection H3' as H. exact H. }
  pose proof (P 0%nat ltac:(lia)) as P0. pose proof (P 1%nat ltac:(lia)) as P1. revert P0 P1. cbn. unfold coupled1. pose proof (spinless 0 1) as Hsl. change (2 * 0) with 0 in Hsl. change (2 * 1) with 2 in Hsl. rewrite tau_10, Hsl. unfold code_radial.
 
  rewrite !coordinate_01, !coordinate_21. cbn [oval val].
  assert (N0 : (0 < sqrt (1 / 3))%R) by (apply sqrt_lt_R0; lra). set (w := sqrt (1 / 3)) in *. set (r := red 0 1) in *.
  assert (K : (0 < k_sqrt_2)%R) by (unfold k_sqrt_2; lra). assert (S2 : (0 < sqrt 2)%R) by (apply sqrt_lt_R0; lra). assert (S3 : (0 < sqrt 3)%R) by (apply sqrt_lt_R0; lra).
  intros P0 P1.
  assert (A : (w = r)%R).
  { apply (Rmult_eq_reg_r (2 * (/ sqrt 2 * (sqrt 3 / k_sqrt_2)))); [etransitivity; [|etransitivity; [exact P0|]]; field; lra|].
    apply Rgt_not_eq; apply Rmult_lt_0_compat; [lra|]; apply Rmult_lt_0_compat; [apply Rinv_0_lt_compat; lra|]; apply Rmult_lt_0_compat; [lra|apply Rinv_0_lt_compat; lra]. }
  assert (B : (- w = r)%R).
  { apply (Rmult_eq_reg_r (2 * (/ sqrt 2 * (sqrt 2 / k_sqrt_2)))); [etransitivity; [|etransitivity; [exact P1|]]; field; lra|].
    apply Rgt_not_eq; apply Rmult_lt_0_compat; [lra|]; apply Rmult_lt_0_compat; [apply Rinv_0_lt_compat; lra|]; apply Rmult_lt_0_compat; [lra|apply Rinv_0_lt_compat; lra]. }
  lra.
Qed.
End Dip.
