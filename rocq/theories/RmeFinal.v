(** Relative operators: the theorems on stored matrix elements. *)
From Coq Require Import List ZArith Reals Bool Lia Lra.
From Verif Require Import Base RMat OscModel OscSpec OscProof OscFinal BlockModel BlockProof MoshModel JpvModel JpvSpec IsoModel TrfModel TrfSpec TrfProof RmeModel RmeSpec RmeProof.
Import ListNotations.
Open Scope Z_scope.

Lemma in_labels_ok : forall o T0, in_labels o T0 = true <-> in_range o T0.
Proof. intros. unfold in_labels, in_range. rewrite andb_true_iff, !Z.leb_le. tauto. Qed.
Lemma triangle0 : forall a b, 0 <= a -> allowed_triangle a 0 b = (a =? b).
Proof. intros a b Ha. unfold allowed_triangle. destruct (Z.eqb_spec a b); [rewrite andb_true_iff, !Z.leb_le|rewrite andb_false_iff, !Z.leb_gt]; lia. Qed.
Lemma zero_block_rule : forall (b k : rsub) (G : nat -> nat -> R), (forall u v, (u < r_dim b)%nat -> (v < r_dim k)%nat -> G u v = 0%R) ->
  exists m, Ok (zero_block b k) = Ok m /\ rows m = r_dim b /\ cols m = r_dim k /\ forall u v, (u < r_dim b)%nat -> (v < r_dim k)%nat -> at_ m u v = Num (G u v).
Proof. intros b k G H. eexists. split; [reflexivity|]. split; [reflexivity|]. split; [reflexivity|]. intros u v Hu Hv. rewrite (H u v Hu Hv). reflexivity. Qed.
Lemma identity_rule : forall c (b k : rsub) (G : nat -> nat -> R), r_dim b = r_dim k ->
  (forall u v, G u v = if Nat.eqb u v then c else 0%R) ->
  exists m, identity_block c b k = Ok m /\ rows m = r_dim b /\ cols m = r_dim k /\ forall u v, (u < r_dim b)%nat -> (v < r_dim k)%nat -> at_ m u v = Num (G u v).
Proof.
  intros c b k G Hd HG. destruct (identity_block_ok c b k Hd) as (m & E & R1 & C1 & A). exists m. split; [exact E|]. split; [exact R1|]. split; [exact C1|].
  intros u v Hu Hv. rewrite A by assumption. rewrite HG. reflexivity.
Qed.
Lemma same_number : forall L u v, (L + 2 * Z.of_nat u =? L + 2 * Z.of_nat v) = Nat.eqb u v.
Proof. intros. destruct (Nat.eqb_spec u v) as [->|H]; [apply Z.eqb_refl|apply Z.eqb_neq; lia]. Qed.
Lemma even_parity : forall a b, Z.even (a mod 2 + 0 + b mod 2) = true -> Z.even (a - b) = true.
Proof. intros a b H. rewrite Z.even_spec in *. destruct H as [q H]. exists (q - a / 2 * 1 + a / 2 * 2 - b mod 2 - b / 2). pose proof (Z.div_mod a 2). pose proof (Z.div_mod b 2). lia. Qed.
Lemma odd_parity : forall a b, Z.even (a mod 2 + 1 + b mod 2) = true -> Z.odd (a - b) = true.
Proof.
  intros a b H. rewrite Z.even_spec in H. destruct H as [q H]. rewrite Z.odd_spec. exists (q - 1 + a / 2 - b mod 2 - b / 2).
  pose proof (Z.div_mod a 2). pose proof (Z.div_mod b 2). lia.
Qed.
Section Space.
Variables (Nmax : Z) (sp : rspace).
Hypothesis space_ok : rme_space Nmax sp.
Lemma space_nonneg : forall i x, nth_error sp i = Some x -> 0 <= r_L x /\ 0 <= r_S x <= 1 /\ 0 <= r_T x <= 1 /\ r_g x = r_L x mod 2.
Proof. intros i x Hx. destruct space_ok as [H _]. destruct (H x (nth_error_In _ _ Hx)) as (A & B & C & _ & _ & D & _). repeat split; try lia. Qed.
Lemma space_dim : forall i k x y, nth_error sp i = Some x -> nth_error sp k = Some y -> r_L x = r_L y -> r_dim x = r_dim y.
Proof.
  intros i k x y Hx Hy E. destruct space_ok as [H _]. destruct (H x (nth_error_In _ _ Hx)) as (_ & _ & _ & _ & _ & _ & D).
  destruct (H y (nth_error_In _ _ Hy)) as (_ & _ & _ & _ & _ & _ & D'). rewrite E in D. lia.
Qed.
Lemma space_order : forall i k x y, (i <= k)%nat -> nth_error sp i = Some x -> nth_error sp k = Some y -> r_L x <= r_L y.
Proof. intros. destruct space_ok as [_ H2]. eauto. Qed.
End Space.

Section Ops.
Variable racah1 racah2 : Z -> Z -> Z -> Z -> Z -> Z -> Z -> R.
Variable w3j w6j : Z -> Z -> Z -> Z -> Z -> Z -> R.
Variable jrme : Z -> Z -> R.

(** * Dipole *)
Lemma ho_state : forall L u, 0 <= L -> ho (L + 2 * Z.of_nat u) L.
Proof. intros L u HL. split; [lia|]. replace (L + 2 * Z.of_nat u - L) with (2 * Z.of_nat u) by lia. rewrite Z.even_mul. reflexivity. Qed.
Theorem dipole_stored : forall Nmax sp o ct, rme_space Nmax sp -> o_J0 o = 1 -> o_g0 o = 1 -> in_range o 1 -> 0 <= o_T0_min o -> o_T0_max o <= 2 ->
  exists c, dipole racah1 racah2 o sp ct 1 = Ok c /\ stores_num sp o c (dipole_rme racah1 racah2 code_direction (code_radial ct)).
Proof.
  intros Nmax sp o ct Hsp HJ Hg Hr H0 H2. unfold dipole. rewrite HJ, Hg. change (1 =? 1) with true. rewrite (proj2 (in_labels_ok o 1) Hr). cbn [cassert bind].
  apply with_component_ok; try assumption.
  2: { intros t [[[L' s'] J'] T'] N [[[L s] J] T] M Ht. cbn. rewrite (proj2 (Z.eqb_neq _ _) Ht). reflexivity. }
  intros i k x y Hik Hx Hy [HJJ [HTT Hpar]]. destruct (space_nonneg _ _ Hsp _ _ Hx) as (Lx & Sx & Tx & gx). destruct (space_nonneg _ _ Hsp _ _ Hy) as (Ly & Sy & Ty & gy).
  rewrite Hg, gx, gy in Hpar. apply odd_parity in Hpar. unfold dipole_block. rewrite triangle0 by lia. rewrite <- (couplesb_at (r_T x)).
  assert (HL : allowed_triangle (r_L x) 1 (r_L y) = (r_L x =? r_L y + 1) || (r_L x =? r_L y - 1)).
  { assert (Hne : r_L x <> r_L y) by (intros E; rewrite E, Z.sub_diag in Hpar; discriminate Hpar). unfold allowed_triangle.
    destruct (Z.eqb_spec (r_L x) (r_L y + 1)); [|destruct (Z.eqb_spec (r_L x) (r_L y - 1))]; cbn [orb]; [rewrite andb_true_iff, !Z.leb_le; lia|rewrite andb_true_iff, !Z.leb_le; lia|].
    rewrite andb_false_iff, !Z.leb_gt; lia. }
  rewrite HL. cbv [dipole_rme rl]. cbv beta iota. change (1 =? 1) with true. cbn [andb].
  destruct (((r_L x =? r_L y + 1) || (r_L x =? r_L y - 1)) && (r_S x =? r_S y) && couplesb (r_T x) 1 (r_T y)) eqn:Hc; cbn [negb].
  2: { apply zero_block_rule. reflexivity. }
  rewrite !andb_true_iff, orb_true_iff, !Z.eqb_eq in Hc. destruct Hc as [[Hd Hs] Ht].
  destruct (radial_complete (r_dim x) (r_dim y) (r_L y) (r_L x - r_L y) 1 ltac:(lia) ltac:(lia) ltac:(lia)) as (m & E & R1 & C1 & A).
  rewrite E. cbn [bind]. eexists. split; [reflexivity|]. split; [exact R1|]. split; [exact C1|]. intros u v Hu Hv. cbn [mat_scale at_].
  specialize (A u v Hu Hv). replace (r_L y + (r_L x - r_L y)) with (r_L x) in A by lia. replace (2 * Z.of_nat u + r_L x) with (r_L x + 2 * Z.of_nat u) in A by lia.
  replace (2 * Z.of_nat v + r_L y) with (r_L y + 2 * Z.of_nat v) in A by lia. unfold code_radial. rewrite A.
  pose proof A as A'. rewrite coordinate_num in A'; [|apply ho_state; lia|destruct Hd; [left|right]; lia]. injection A' as A'. rewrite <- A'. cbn [nscale oval val]. f_equal.
  assert (Hf : code_direction (r_L x) (r_L y) = (if r_L x - r_L y =? -1 then sqrt (IZR (r_L y) / (2 * IZR (r_L y) + 1))
     else sqrt (IZR (r_L y + 1) / (2 * IZR (r_L y) + 3)))%R).
  { unfold code_direction. replace (r_L x - r_L y =? -1) with (r_L x =? r_L y - 1).
    2: { destruct (Z.eqb_spec (r_L x) (r_L y - 1)); symmetry; [apply Z.eqb_eq|apply Z.eqb_neq]; lia. }
    destruct (r_L x =? r_L y - 1); rewrite !plus_IZR, mult_IZR; reflexivity. }
  rewrite Hf. unfold orbital1, coupled1, tau_difference, pair1, pair2.
  assert (Hh : sqrt (1 / 2) = (/ sqrt 2)%R).
  { replace (1 / 2)%R with (/ 2)%R by lra. apply sqrt_inv. }
  rewrite Hh.
  destruct Hd as [Hd|Hd].
  - replace (r_L x - r_L y) with 1 by lia. change (1 =? -1) with false. change (1 =? 1) with true. cbv iota. destruct ct; ring.
  - replace (r_L x - r_L y) with (-1) by lia. change (-1 =? -1) with true. cbv iota. destruct ct; ring.
Qed.

(** * Quadrupole *)
Theorem quadrupole_stored : forall Nmax sp o T0, rme_space Nmax sp -> o_J0 o = 2 -> o_g0 o = 0 -> T0 = 0 \/ T0 = 1 -> in_range o T0 -> 0 <= o_T0_min o -> o_T0_max o <= 2 ->
  exists c, quadrupole w3j w6j o sp KR T0 = Ok c /\ stores_num sp o c (quadrupole_rme w3j w6j T0).
Proof.
  intros Nmax sp o T0 Hsp HJ Hg HT Hr H0 H2. unfold quadrupole. rewrite HJ, Hg. change (2 =? 2) with true. change (0 =? 0) with true.
  rewrite (proj2 (in_labels_ok o T0) Hr). replace ((T0 =? 0) || (T0 =? 1)) with true by (destruct HT as [->| ->]; reflexivity). cbn [cassert bind].
  apply with_component_ok; try assumption.
  2: { intros t [[[L' s'] J'] T'] N [[[L s] J] T] M Ht. cbn. rewrite (proj2 (Z.eqb_neq _ _) Ht). reflexivity. }
  intros i k x y Hik Hx Hy [HJJ [HTT Hpar]]. destruct (space_nonneg _ _ Hsp _ _ Hx) as (Lx & Sx & Tx & gx). destruct (space_nonneg _ _ Hsp _ _ Hy) as (Ly & Sy & Ty & gy).
  rewrite Hg, gx, gy in Hpar. apply even_parity in Hpar. pose proof (space_order _ _ Hsp _ _ _ _ Hik Hx Hy) as Ho.
  unfold quadrupole_block. rewrite triangle0 by lia. rewrite <- (couplesb_at (r_L x)).
  cbv [quadrupole_rme rl same]. cbv beta iota. rewrite Z.eqb_refl. cbn [andb].
  destruct (couplesb (r_L x) 2 (r_L y) && (r_S x =? r_S y) && (r_T x =? r_T y)) eqn:Hc; cbn [negb].
  2: { apply zero_block_rule. reflexivity. }
  rewrite !andb_true_iff, couplesb_ok, !Z.eqb_eq in Hc. destruct Hc as [[Hd Hs] Ht]. unfold couples in Hd. rewrite Z.even_spec in Hpar. destruct Hpar as [q Hq].
  destruct (radial_sqr_complete (r_dim x) (r_dim y) (r_L y) (r_L x - r_L y) 1 ltac:(lia) ltac:(lia) ltac:(lia)) as (m & E & R1 & C1 & A).
  rewrite E. cbn [bind]. eexists. split; [reflexivity|]. split; [exact R1|]. split; [exact C1|]. intros u v Hu Hv. cbn [mat_scale at_].
  specialize (A u v Hu Hv). replace (r_L y + (r_L x - r_L y)) with (r_L x) in A by lia. replace (2 * Z.of_nat u + r_L x) with (r_L x + 2 * Z.of_nat u) in A by lia.
  replace (2 * Z.of_nat v + r_L y) with (r_L y + 2 * Z.of_nat v) in A by lia. rewrite A.
  destruct (sqr_num (r_L x + 2 * Z.of_nat u) (r_L x) (r_L y + 2 * Z.of_nat v) (r_L y) 1) as (z & Ez); [apply ho_state; lia|apply ho_state; lia|]. rewrite Ez. cbn [nscale val]. f_equal.
  unfold y2_rme, hatj.
  assert (Hs16 : sqrt (5 / (16 * PI)) = (/ 2 * sqrt (5 / (4 * PI)))%R).
  { pose proof PI_RGT_0. rewrite <- (sqrt_square (/ 2)) by lra. rewrite <- sqrt_mult_alt by lra. f_equal. field. lra. }
  assert (Hsg : (sign_of (r_L x + r_S y + r_J y) * sign_of (r_L x) = parity_sign (r_S y + r_J y))%R).
  { unfold sign_of, parity_sign. rewrite !Z.even_add. destruct (Z.even (r_L x)), (Z.even (r_S y)), (Z.even (r_J y)); cbn; ring. }
  assert (Hpl : parity_sign (r_L x + r_L y + r_S y + r_J y) = parity_sign (r_S y + r_J y)).
  { unfold parity_sign. replace (r_L x) with (2 * q + r_L y) by lia. rewrite !Z.even_add, Z.even_mul. destruct (Z.even (r_L y)), (Z.even (r_S y)), (Z.even (r_J y)); reflexivity. }
  assert (HJ0 : sqrt (IZR (2 * r_J x + 1)) <> 0%R).
  { apply Rgt_not_eq, sqrt_lt_R0. apply IZR_lt. destruct Hsp as [Hall _]. destruct (Hall x (nth_error_In _ _ Hx)) as (_ & _ & _ & Hcx & _). unfold couples in Hcx. lia. }
  assert (Hgen : generator T0 (r_T y) = (if T0 =? 1 then 2 * sqrt (IZR (r_T y * (r_T y + 1))) else 1)%R).
  { unfold generator. destruct HT as [->| ->]; reflexivity. }
  rewrite Hs16, Hpl, Hgen, <- Hsg. destruct (T0 =? 1); field; exact HJ0.
Qed.
Theorem quadrupole_momentum : forall o sp T0, o_J0 o = 2 -> o_g0 o = 0 -> quadrupole w3j w6j o sp KK T0 = AssertFail.
Proof.
  intros o sp T0 HJ Hg. unfold quadrupole. rewrite HJ, Hg. change (2 =? 2) with true. change (0 =? 0) with true. cbn [cassert bind].
  destruct ((T0 =? 0) || (T0 =? 1)); cbn [cassert bind]; [|reflexivity]. destruct (in_labels o T0); reflexivity.
Qed.

(** * Angular momentum *)
Theorem orbital_stored : forall Nmax sp o T0, rme_space Nmax sp -> o_J0 o = 1 -> o_g0 o = 0 -> T0 = 0 \/ T0 = 1 -> in_range o T0 -> 0 <= o_T0_min o -> o_T0_max o <= 2 ->
  exists c, orbital_am racah1 o sp T0 = Ok c /\ stores_num sp o c (orbital_rme racah1 T0).
Proof.
  intros Nmax sp o T0 Hsp HJ Hg HT Hr H0 H2. unfold orbital_am. rewrite HJ, Hg. change (1 =? 1) with true. change (0 =? 0) with true.
  rewrite (proj2 (in_labels_ok o T0) Hr). replace ((T0 =? 0) || (T0 =? 1)) with true by (destruct HT as [->| ->]; reflexivity). cbn [cassert bind].
  apply with_component_ok; try assumption.
  2: { intros t [[[L' s'] J'] T'] N [[[L s] J] T] M Ht. cbn. rewrite (proj2 (Z.eqb_neq _ _) Ht). reflexivity. }
  intros i k x y Hik Hx Hy _. destruct (space_nonneg _ _ Hsp _ _ Hx) as (Lx & Sx & Tx & gx).
  unfold orbital_am_block. rewrite triangle0 by lia. cbv [orbital_rme rl same]. cbv beta iota. rewrite Z.eqb_refl. cbn [andb]. rewrite (andb_comm (r_S x =? r_S y)).
  destruct ((r_L x =? r_L y) && (r_S x =? r_S y) && (r_T x =? r_T y)) eqn:Hc; cbn [negb andb].
  2: { apply zero_block_rule. reflexivity. }
  rewrite !andb_true_iff, !Z.eqb_eq in Hc. destruct Hc as [[Hd Hs] Ht].
  assert (Hgen : generator T0 (r_T y) = (if T0 =? 1 then 2 * sqrt (IZR (r_T y * (r_T y + 1))) else 1)%R).
  { unfold generator. destruct HT as [->| ->]; reflexivity. }
  apply identity_rule; [apply (space_dim _ _ Hsp _ _ _ _ Hx Hy Hd)|]. intros u v. rewrite Hd at 1. rewrite same_number. destruct (Nat.eqb u v); [|reflexivity].
  rewrite Hgen. unfold coupled1, orbital1. destruct (T0 =? 1); ring.
Qed.
Theorem spin_stored : forall Nmax sp o T0, rme_space Nmax sp -> o_J0 o = 1 -> o_g0 o = 0 -> T0 = 0 \/ T0 = 1 -> in_range o T0 -> 0 <= o_T0_min o -> o_T0_max o <= 2 ->
  exists c, spin_am racah1 racah2 o sp T0 = Ok c /\ stores_num sp o c (spin_rme racah1 racah2 T0).
Proof.
  intros Nmax sp o T0 Hsp HJ Hg HT Hr H0 H2. unfold spin_am. rewrite HJ, Hg. change (1 =? 1) with true. change (0 =? 0) with true.
  rewrite (proj2 (in_labels_ok o T0) Hr). replace ((T0 =? 0) || (T0 =? 1)) with true by (destruct HT as [->| ->]; reflexivity). cbn [cassert bind].
  apply with_component_ok; try assumption.
  2: { intros t [[[L' s'] J'] T'] N [[[L s] J] T] M Ht. cbn. rewrite (proj2 (Z.eqb_neq _ _) Ht). reflexivity. }
  intros i k x y Hik Hx Hy _. destruct (space_nonneg _ _ Hsp _ _ Hx) as (Lx & Sx & Tx & gx). destruct (space_nonneg _ _ Hsp _ _ Hy) as (Ly & Sy & Ty & gy).
  unfold spin_am_block. rewrite triangle0 by lia. cbv [spin_rme rl same]. cbv beta iota. rewrite Z.eqb_refl. cbn [andb].
  destruct (r_L x =? r_L y) eqn:HL; cbn [andb negb orb].
  2: { apply zero_block_rule. reflexivity. }
  apply Z.eqb_eq in HL. pose proof (space_dim _ _ Hsp _ _ _ _ Hx Hy HL) as Hd.
  destruct HT as [->| ->].
  - change (0 =? 0) with true. cbv [spin_factor same]. change (0 =? 0) with true. cbv iota. rewrite (triangle0 (r_T x)) by lia. cbn [andb].
    destruct (Z.eqb_spec (r_S x) (r_S y)) as [Hs|Hs]; cbn [negb andb].
    2: { rewrite orb_true_r. apply zero_block_rule. intros. destruct (_ =? _); ring. }
    rewrite orb_false_r. destruct (Z.eqb_spec (r_T x) (r_T y)) as [Ht|Ht]; rewrite ?andb_true_r, ?andb_false_r; cbn [negb].
    2: { apply zero_block_rule. intros. destruct (_ =? _); ring. }
    assert (Htri : allowed_triangle (r_S x) 1 (r_S y) = negb (r_S y =? 0)).
    { unfold allowed_triangle. rewrite Hs. destruct (Z.eqb_spec (r_S y) 0); cbn [negb]; [rewrite andb_false_iff, !Z.leb_gt|rewrite andb_true_iff, !Z.leb_le]; lia. }
    rewrite Htri. destruct (Z.eqb_spec (r_S y) 0) as [Hz|Hz]; cbn [negb].
    + apply zero_block_rule. intros. rewrite Hz. change (0 * (0 + 1)) with 0. rewrite sqrt_0. destruct (_ =? _); ring.
    + apply identity_rule; [exact Hd|]. intros u v. rewrite HL at 1. rewrite same_number. destruct (Nat.eqb u v); reflexivity.
  - change (1 =? 0) with false. cbv [spin_factor same]. change (1 =? 0) with false. cbv iota. cbn [andb]. rewrite orb_false_r. rewrite <- (couplesb_at (r_S x)), <- (couplesb_at (r_T x)).
    destruct (couplesb (r_S x) 1 (r_S y) && couplesb (r_T x) 1 (r_T y)); cbn [negb].
    2: { apply zero_block_rule. intros. destruct (_ =? _); ring. }
    apply identity_rule; [exact Hd|]. intros u v. rewrite HL at 1. rewrite same_number. destruct (Nat.eqb u v); [|reflexivity].
    unfold coupled2, spin2, pair1, pair2. assert (H3 : (sqrt 3 * sqrt 3 = 3)%R) by (apply sqrt_sqrt; lra). set (t := sqrt 3) in *. 
    transitivity ((t * t) / 2 * racah2 (2 * r_L x) (2 * r_S x) (2 * r_J x) (2 * r_L y) (2 * r_S y) (2 * r_J y) 2
       * (racah1 1 1 (2 * r_S x) 1 1 (2 * r_S y) 2 * racah1 1 1 (2 * r_T x) 1 1 (2 * r_T y) 2 + racah2 1 1 (2 * r_S x) 1 1 (2 * r_S y) 2 * racah2 1 1 (2 * r_T x) 1 1 (2 * r_T y) 2))%R; [field|].
    rewrite H3. reflexivity.
Qed.
(** the total angular momentum *)
Definition total_rme (T0 : Z) (x : rlab) (N' : Z) (y : rlab) (N : Z) : R :=
  let '(L', s', J', T') := x in let '(L, s, J, T) := y in
  same ((T0 =? 0) && (L' =? L) && (s' =? s) && (J' =? J) && (T' =? T) && (N' =? N)) (sqrt (IZR (J * (J + 1)))).
Theorem orbital_plus_spin : generator_sum racah1 racah2 -> forall T0 L' s' J' T' N' L s J T N, 0 <= L -> 0 <= s -> couples L s J -> couples L' s' J' -> couples J' 1 J ->
  (orbital_rme racah1 0 T0 (L', s', J', T') N' (L, s, J, T) N + spin_rme racah1 racah2 0 T0 (L', s', J', T') N' (L, s, J, T) N
   = total_rme T0 (L', s', J', T') N' (L, s, J, T) N)%R.
Proof.
  intros Hgs T0 L' s' J' T' N' L s J T N HL Hs HJ HJ' HJJ. cbv [orbital_rme spin_rme total_rme same spin_factor generator coupled1 coupled2]. cbv beta iota.
  change (0 =? 0) with true. cbv iota.
  destruct (T0 =? 0); cbn [andb]; [|ring]. destruct (Z.eqb_spec L' L) as [->|]; cbn [andb]; [|ring]. destruct (Z.eqb_spec s' s) as [->|]; cbn [andb]; [|destruct (N' =? N); ring].
  pose proof (Hgs L s J' J HL Hs HJ HJ' HJJ) as E. destruct (T' =? T), (N' =? N); cbn [andb]; rewrite ?andb_true_r, ?andb_false_r; cbn [andb]; try ring.
  rewrite <- E. ring.
Qed.
Theorem isovector_spin_values : pair_values racah1 racah2 ->
  (spin_factor racah1 racah2 1 1 1 1 1 = 2 /\ spin_factor racah1 racah2 1 1 0 1 0 = 1 /\ spin_factor racah1 racah2 1 0 1 0 1 = 3 /\ spin_factor racah1 racah2 1 0 1 1 0 = - sqrt 3
   /\ spin_factor racah1 racah2 1 1 0 0 1 = - sqrt 3 /\ spin_factor racah1 racah2 1 1 1 1 0 = 0 /\ spin_factor racah1 racah2 1 1 0 1 1 = 0 /\ spin_factor racah1 racah2 1 0 0 1 1 = 0)%R.
Proof.
  intros (A & B & C & D & E & F). unfold spin_factor, same. change (1 =? 0) with false. cbv iota.
  change (2 * 1) with 2. change (2 * 0) with 0. rewrite !A, !B, !C, !D, !E, !F.
  assert (H3 : (sqrt 3 * sqrt 3 = 3)%R) by (apply sqrt_sqrt; lra). assert (P3 : (0 < sqrt 3)%R) by (apply sqrt_lt_R0; lra).
  assert (H23 : (sqrt (2 / 3) * sqrt (2 / 3) = 2 / 3)%R) by (apply sqrt_sqrt; lra).
  cbn [couplesb Z.abs Z.sub Z.add Z.leb Z.compare Pos.compare Pos.compare_cont andb Z.opp Z.pos_sub Pos.add].
  repeat split; cbv iota.
  - replace (sqrt 3 / 2 * sqrt (2 / 3) * (sqrt 3 * sqrt (2 / 3)) + sqrt 3 / 2 * sqrt (2 / 3) * (sqrt 3 * sqrt (2 / 3)))%R
      with ((sqrt 3 * sqrt 3) * (sqrt (2 / 3) * sqrt (2 / 3)))%R by field. rewrite H3, H23. lra.
  - field. lra.
  - replace (sqrt 3 / 2 * -1 * (sqrt 3 * -1) + sqrt 3 / 2 * 1 * (sqrt 3 * 1))%R with (sqrt 3 * sqrt 3)%R by field. exact H3.
  - field. lra.
  - field. lra.
  - field. lra.
  - field. lra.
Qed.
Theorem isospin_stored : forall Nmax sp o, (forall T' T, jrme T' T = if (T' =? T)%Z then sqrt (IZR (T * (T + 1))) else 0%R) -> rme_space Nmax sp ->
  o_J0 o = 0 -> o_g0 o = 0 -> in_range o 1 -> 0 <= o_T0_min o -> o_T0_max o <= 2 ->
  exists c, isospin_op jrme o sp = Ok c /\ stores_num sp o c isospin_rme.
Proof.
  intros Nmax sp o Hj Hsp HJ Hg Hr H0 H2. unfold isospin_op. rewrite HJ, Hg. change (0 =? 0) with true.
  rewrite (proj2 (in_labels_ok o 1) Hr). cbn [cassert bind].
  apply with_component_ok; try assumption.
  2: { intros t [[[L' s'] J'] T'] N [[[L s] J] T] M Ht. cbn. rewrite (proj2 (Z.eqb_neq _ _) Ht). reflexivity. }
  intros i k x y Hik Hx Hy _. destruct (space_nonneg _ _ Hsp _ _ Hx) as (Lx & Sx & Tx & gx). destruct (space_nonneg _ _ Hsp _ _ Hy) as (Ly & Sy & Ty & gy).
  unfold isospin_block. rewrite !triangle0 by lia. cbv [isospin_rme rl same]. cbv beta iota. change (1 =? 1) with true. cbn [andb].
  destruct (Z.eqb_spec (r_L x) (r_L y)) as [HL|HL]; cbn [andb negb]; [|apply zero_block_rule; reflexivity].
  destruct (Z.eqb_spec (r_S x) (r_S y)) as [HS|HS]; cbn [andb negb]; [|apply zero_block_rule; reflexivity].
  pose proof (space_dim _ _ Hsp _ _ _ _ Hx Hy HL) as Hd. rewrite Hj.
  destruct (allowed_triangle (r_T x) 1 (r_T y)) eqn:Ht; cbn [negb].
  - apply identity_rule; [exact Hd|]. intros u v. rewrite HL at 1. rewrite same_number. destruct (r_T x =? r_T y), (Nat.eqb u v); reflexivity.
  - apply zero_block_rule. intros u v _ _. destruct (Z.eqb_spec (r_T x) (r_T y)) as [HT|HT]; cbn [andb]; [|reflexivity].
    assert (Hz : r_T y = 0). { unfold allowed_triangle in Ht. rewrite andb_false_iff, !Z.leb_gt in Ht. lia. }
    rewrite Hz. change (0 * (0 + 1)) with 0. rewrite sqrt_0. destruct (_ =? _); reflexivity.
Qed.

(** * SU(4) *)
Theorem su4_stored : forall Nmax sp o, rme_space Nmax sp -> o_J0 o = 0 -> o_g0 o = 0 -> o_T0_min o = 0 -> 0 <= o_T0_max o <= 2 ->
  exists c, su4_casimir o sp = Ok c /\ stores_num sp o c su4_rme.
Proof.
  intros Nmax sp o Hsp HJ Hg H0 H2. unfold su4_casimir. rewrite HJ, Hg, H0. change (0 =? 0) with true. rewrite (proj2 (Z.leb_le 0 (o_T0_max o))) by lia. cbn [cassert bind andb].
  apply with_component_ok; try (unfold in_range; lia).
  2: { intros t [[[L' s'] J'] T'] N [[[L s] J] T] M Ht. cbn. rewrite (proj2 (Z.eqb_neq _ _) Ht). reflexivity. }
  intros i k x y Hik Hx Hy _. destruct (space_nonneg _ _ Hsp _ _ Hx) as (Lx & Sx & Tx & gx). destruct (space_nonneg _ _ Hsp _ _ Hy) as (Ly & Sy & Ty & gy).
  unfold su4_block. rewrite !triangle0 by lia. cbv [su4_rme rl same]. cbv beta iota. change (0 =? 0) with true. cbn [andb].
  destruct ((r_L x =? r_L y) && (r_S x =? r_S y) && (r_T x =? r_T y)) eqn:Hc; cbn [negb andb].
  2: { apply zero_block_rule. reflexivity. }
  rewrite !andb_true_iff, !Z.eqb_eq in Hc. destruct Hc as [[Hd Hs] Ht].
  apply identity_rule; [apply (space_dim _ _ Hsp _ _ _ _ Hx Hy Hd)|]. intros u v. rewrite Hd at 1. rewrite same_number. destruct (Nat.eqb u v); [|reflexivity].
  unfold su4_value, pair_product. assert (HS' : r_S y = 0 \/ r_S y = 1) by lia. assert (HT' : r_T y = 0 \/ r_T y = 1) by lia.
  destruct HS' as [->| ->], HT' as [->| ->]; cbn; lra.
Qed.
End Ops.
Lemma rsum_minus' : forall n f g, rsum n (fun i => f i - g i)%R = (rsum n f - rsum n g)%R.
Proof. intros n f g. induction n as [|n IH]; [cbn; ring|]. rewrite !rsum_succ, IH. ring. Qed.
Lemma rsum_const' : forall n c, rsum n (fun _ => c) = (INR n * c)%R.
Proof. intros n c. induction n as [|n IH]; [cbn; ring|]. rewrite rsum_succ, IH, S_INR. ring. Qed.
Theorem su4_many : forall (A : nat) (e : nat -> nat -> R), (2 <= A)%nat -> (forall i, (i < A)%nat -> e i i = 15 / 4)%R ->
  (rsum A (fun i => rsum A (fun j => e i j))
   = pairs_sum A (fun i j => e i i + e i j + e j i + e j j) - (INR A - 2) / (INR A - 1) * pairs_sum A (fun _ _ => 15 / 2))%R.
Proof.
  intros A e HA He. unfold pairs_sum.
  assert (G : forall n, (n <= A)%nat -> (rsum n (fun i => rsum n (fun j => e i j)) + INR n * (INR n - 2) * (15 / 4) = rsum n (fun j => rsum j (fun i => e i i + e i j + e j i + e j j)))%R).
  { intros n. induction n as [|n IH]; intros Hn; [cbn; ring|]. rewrite (rsum_succ n (fun j => rsum j _)), <- IH by lia. rewrite rsum_succ. rewrite (rsum_ext _ (fun i => rsum (S n) (fun j => e i j)) (fun i => rsum n (fun j => e i j) + e i n)%R).
    2: { intros i Hi. rewrite rsum_succ. reflexivity. }
    rewrite rsum_succ, rsum_plus. rewrite !rsum_plus. rewrite (rsum_ext n (fun i => e i i) (fun _ => 15 / 4)%R) by (intros; apply He; lia). rewrite !rsum_const'.
    rewrite (He n) by lia. rewrite S_INR.
    change (rsum n (fun j => e n j)) with (rsum n (e n)). field. }
  rewrite <- (G A) by lia. assert (Hp : rsum A (fun j => rsum j (fun _ => 15 / 2)%R) = (INR A * (INR A - 1) * (15 / 4))%R).
  { clear. induction A as [|n IH]; [cbn; ring|]. rewrite rsum_succ, IH, rsum_const', S_INR. field. }
  rewrite Hp. assert (H1 : (INR A - 1 <> 0)%R). { assert (2 <= INR A)%R by (apply (le_INR 2); exact HA). lra. }
  field. exact H1.
Qed.
