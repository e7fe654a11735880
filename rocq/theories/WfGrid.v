(** The mesh of mesh.h and integrals on it; overlaps of oscillator functions of different lengths. *)
From Coq Require Import List ZArith Reals Bool Lra Lia.
From Verif Require Import Base WfModel WfSpec WfLag WfInt WfProof WfOsc WfEl WfSqr WfMesh.
Import ListNotations.
Open Scope R_scope.

(** * mesh *)
Lemma uniform_length : forall n, length (uniform_mesh n) = n.
Proof. intros n. unfold uniform_mesh. rewrite map_length, seq_length. reflexivity. Qed.
Lemma uniform_nth : forall n i, (i < n)%nat -> nth_error (uniform_mesh n) i = Some (mesh_point n i).
Proof. intros n i H. unfold uniform_mesh. rewrite nth_error_map, (nth_error_nth' (seq 0 n) 0%nat) by (rewrite seq_length; exact H). rewrite seq_nth by exact H. reflexivity. Qed.
Lemma mesh_point_last : forall n, mesh_point (S n) n = 1.
Proof. intros n. unfold mesh_point. rewrite Nat.eqb_refl. reflexivity. Qed.
Lemma mesh_point_val : forall n i, (i <= n)%nat -> (0 < n)%nat -> mesh_point (S n) i = INR i / INR n.
Proof.
  intros n i H Hn. assert (P : 0 < INR n) by (apply lt_0_INR; exact Hn). unfold mesh_point. destruct (Nat.eqb_spec (S i) (S n)) as [E|E].
  - replace i with n by lia. field. lra.
  - rewrite S_INR. f_equal. ring.
Qed.
Lemma mesh_point_lt1 : forall n i, (i < n)%nat -> 0 <= mesh_point (S n) i < 1.
Proof.
  intros n i H. rewrite mesh_point_val by lia. assert (P : 0 < INR n) by (apply lt_0_INR; lia). pose proof (pos_INR i). apply lt_INR in H.
  split; [apply Rmult_le_pos; [lra|left; apply Rinv_0_lt_compat; exact P]|].
  apply (Rmult_lt_reg_r (INR n)); [exact P|]. unfold Rdiv. rewrite Rmult_assoc, Rinv_l by lra. lra.
Qed.
Lemma mesh_point_pos : forall n i, (0 < i <= n)%nat -> 0 < mesh_point (S n) i.
Proof. intros n i H. rewrite mesh_point_val by lia. apply Rdiv_lt_0_compat; apply lt_0_INR; lia. Qed.

(** * the map [0,1) -> [0,infinity) *)
Definition Tz (c z : R) : R := z / (1 - z) * c.
Definition Jz (c z : R) : R := 1 / ((1 - z) * (1 - z)) * c.
Lemma Tz_derivative : forall c z, z < 1 -> derivable_pt_lim (Tz c) z (Jz c z).
Proof.
  intros c z Hz. unfold Tz, Jz. apply (derivable_pt_lim_ext (fun t => c * (id t / (fun s => 1 - s) t))); [intros t; unfold id; ring|].
  replace (1 / ((1 - z) * (1 - z)) * c) with (c * ((1 * (1 - z) - (0 - 1) * id z) / Rsqr (1 - z))) by (unfold id, Rsqr; field; lra).
  apply (derivable_pt_lim_scal (fun t => id t / (fun s => 1 - s) t)).
  apply (derivable_pt_lim_div id (fun s => 1 - s) z 1 (0 - 1)); [apply derivable_pt_lim_id| |lra].
  apply (derivable_pt_lim_minus (fun _ => 1) id); [apply derivable_pt_lim_const|apply derivable_pt_lim_id].
Qed.
Lemma transformed_fin : forall b z, 0 < b -> z < 1 -> transformed true b z = Fin (Tz b z) /\ jacobian true b z = Fin (Jz b z)
  /\ transformed false b z = Fin (Tz (/ b) z) /\ jacobian false b z = Fin (Jz (/ b) z).
Proof.
  intros b z Hb Hz. unfold transformed, jacobian. rewrite !fdiv_pos by nra. cbn [fmul]. repeat split; reflexivity.
Qed.
Lemma transformed_one : forall pos b, 0 < b -> transformed pos b 1 = Inf true /\ jacobian pos b 1 = Inf true.
Proof.
  intros pos b Hb. assert (E : 1 - 1 = 0) by ring. assert (E2 : (1 - 1) * (1 - 1) = 0) by ring.
  unfold transformed, jacobian. cbn [fdiv]. rewrite (sgn_zero _ E), (sgn_zero _ E2), (sgn_pos 1) by lra.
  destruct pos; cbn [fmul fdiv]; unfold inf_times; rewrite (sgn_pos b) by exact Hb; split; reflexivity.
Qed.
Lemma Tz_increasing : forall c y z, 0 < c -> y < z -> z < 1 -> Tz c y < Tz c z.
Proof.
  intros c y z Hc Hy Hz. unfold Tz. apply Rmult_lt_compat_r; [exact Hc|].
  replace (y / (1 - y)) with (/ (1 - y) - 1) by (field; lra). replace (z / (1 - z)) with (/ (1 - z) - 1) by (field; lra).
  assert (/ (1 - y) < / (1 - z)) by (apply Rinv_lt_contravar; nra). lra.
Qed.
Lemma Tz_onto : forall c r, 0 < c -> 0 <= r -> 0 <= r / (r + c) < 1 /\ Tz c (r / (r + c)) = r.
Proof.
  intros c r Hc Hr. split; [split|].
  - apply Rmult_le_pos; [exact Hr|left; apply Rinv_0_lt_compat; lra].
  - apply (Rmult_lt_reg_r (r + c)); [lra|]. unfold Rdiv. rewrite Rmult_assoc, Rinv_l by lra. lra.
  - unfold Tz. field. split; lra.
Qed.
Lemma Tz_pos : forall c z, 0 < c -> 0 < z < 1 -> 0 < Tz c z.
Proof. intros c z Hc Hz. unfold Tz. apply Rmult_lt_0_compat; [apply Rdiv_lt_0_compat; lra|exact Hc]. Qed.
Lemma Tz_lim0 : forall c d, 0 < c -> 0 < d -> exists e, 0 < e /\ e <= 1 / 2 /\ forall z, 0 < z < e -> 0 < Tz c z < d.
Proof.
  intros c d Hc Hd. assert (P : 0 < d / (2 * c)) by (apply Rdiv_lt_0_compat; lra). exists (Rmin (1 / 2) (d / (2 * c))). pose proof (Rmin_l (1 / 2) (d / (2 * c))). pose proof (Rmin_r (1 / 2) (d / (2 * c))).
  split; [apply Rmin_pos; lra|]. split; [assumption|]. intros z Hz. split; [apply Tz_pos; lra|]. unfold Tz.
  assert (I : / (1 - z) <= 2) by (replace 2 with (/ (1 / 2)) by field; apply Rinv_le_contravar; lra).
  assert (Z : z < d / (2 * c)) by lra. apply (Rmult_lt_compat_r (2 * c)) in Z; [|lra]. replace (d / (2 * c) * (2 * c)) with d in Z by (field; lra).
  unfold Rdiv. assert (z * / (1 - z) <= z * 2) by (apply Rmult_le_compat_l; lra). assert (z * / (1 - z) * c <= z * 2 * c) by (apply Rmult_le_compat_r; lra). lra.
Qed.
Lemma Tz_lim1 : forall c A, 0 < c -> 0 < A -> exists e, 0 < e /\ e <= 1 / 2 /\ forall z, 1 - e < z < 1 -> A < Tz c z.
Proof.
  intros c A Hc HA. assert (P : 0 < c / (2 * A)) by (apply Rdiv_lt_0_compat; lra). exists (Rmin (1 / 2) (c / (2 * A))). pose proof (Rmin_l (1 / 2) (c / (2 * A))). pose proof (Rmin_r (1 / 2) (c / (2 * A))).
  split; [apply Rmin_pos; lra|]. split; [assumption|]. intros z Hz. unfold Tz.
  assert (Z : 1 - z < c / (2 * A)) by lra. apply (Rmult_lt_compat_r (2 * A)) in Z; [|lra]. replace (c / (2 * A) * (2 * A)) with c in Z by (field; lra).
  apply (Rmult_lt_reg_r (1 - z)); [lra|]. replace (z / (1 - z) * c * (1 - z)) with (z * c) by (field; lra). nra.
Qed.
Lemma mesh_integral : forall f c v, 0 < c -> (integral f v <-> integral01 (fun z => f (Tz c z) * Jz c z) v).
Proof.
  intros f c v Hc. split.
  - intros (F & D & F0 & F1). exists (fun z => F (Tz c z)). split; [|split].
    + intros z Hz. apply (derivable_pt_lim_comp (Tz c) F); [apply Tz_derivative; lra|apply D, Tz_pos; assumption].
    + intros e He. destruct (F0 e He) as (d & Hd & K). destruct (Tz_lim0 c d Hc Hd) as (q & Hq & _ & Q). exists q. split; [exact Hq|]. intros z Hz. apply K, Q, Hz.
    + intros e He. destruct (F1 e He) as (A & HA & K). destruct (Tz_lim1 c A Hc HA) as (q & Hq & _ & Q). exists q. split; [exact Hq|]. intros z Hz. apply K, Q, Hz.
  - intros (F & D & F0 & F1). exists (fun r => F (r / (r + c))). split; [|split].
    + intros r Hr. destruct (Tz_onto c r Hc ltac:(lra)) as [[_ L] E].
      assert (S0 : 0 < r / (r + c)) by (apply Rdiv_lt_0_compat; lra).
      replace (f r) with (f (Tz c (r / (r + c))) * Jz c (r / (r + c)) * (c / ((r + c) * (r + c)))) by (rewrite E; unfold Jz; field; repeat split; lra).
      apply (derivable_pt_lim_comp (fun r => r / (r + c)) F); [|apply D; lra].
      replace (c / ((r + c) * (r + c))) with ((1 * (r + c) - (1 + 0) * id r) / Rsqr (r + c)) by (unfold id, Rsqr; field; lra).
      apply (derivable_pt_lim_div id (fun s => s + c) r 1 (1 + 0)); [apply derivable_pt_lim_id| |lra].
      apply (derivable_pt_lim_plus id (fun _ => c)); [apply derivable_pt_lim_id|apply derivable_pt_lim_const].
    + intros e He. destruct (F0 e He) as (d & Hd & K). exists (d * c). split; [nra|]. intros r Hr. apply K. split; [apply Rdiv_lt_0_compat; lra|].
      apply (Rmult_lt_reg_r (r + c)); [lra|]. unfold Rdiv. rewrite Rmult_assoc, Rinv_l by lra. nra.
    + intros e He. destruct (F1 e He) as (d & Hd & K). exists (c / d). split; [apply Rdiv_lt_0_compat; lra|]. intros r Hr. apply K.
      assert (Hr0 : 0 < r) by (assert (0 < c / d) by (apply Rdiv_lt_0_compat; lra); lra).
      apply (Rmult_lt_compat_r d) in Hr; [|lra]. replace (c / d * d) with c in Hr by (field; lra).
      split; [|apply (Tz_onto c r Hc); lra]. apply (Rmult_lt_reg_r (r + c)); [lra|]. unfold Rdiv. rewrite Rmult_assoc, Rinv_l by lra. nra.
Qed.

(** * decay at infinity *)
Lemma liminf_sum : forall (f : nat -> R -> R) (v : nat -> R) n, (forall k, (k <= n)%nat -> liminf (f k) (v k)) -> liminf (fun x => sum_f_R0 (fun k => f k x) n) (sum_f_R0 v n).
Proof.
  intros f v n. induction n as [|n IH]; intros H; cbn [sum_f_R0]; [apply H; lia|].
  apply (liminf_plus (fun x => sum_f_R0 (fun k => f k x) n) (f (S n))); [apply IH; intros k Hk; apply H; lia|apply H; lia].
Qed.
Lemma sum_zero : forall n, sum_f_R0 (fun _ => 0) n = 0.
Proof. induction n as [|n IH]; cbn; [reflexivity|]. rewrite IH. ring. Qed.
Lemma liminf_length : forall f v b, 0 < b -> liminf f v -> liminf (fun r => f (r / b)) v.
Proof.
  intros f v b Hb H e He. destruct (H e He) as (A & HA & K). exists (A * b). split; [nra|]. intros r Hr. apply K.
  apply (Rmult_lt_reg_r b); [lra|]. unfold Rdiv. rewrite Rmult_assoc, Rinv_l by lra. lra.
Qed.
Lemma half_gauss_inf : forall k, liminf (fun x => x ^ k * exp (- (x * x) / 2)) 0.
Proof.
  intros k. assert (P : 0 < sqrt 2) by (apply sqrt_lt_R0; lra). assert (E : sqrt 2 * sqrt 2 = 2) by (apply sqrt_sqrt; lra).
  pose proof (liminf_scal (sqrt 2 ^ k) _ _ (liminf_length _ _ (sqrt 2) P (gauss_inf k))) as H. rewrite Rmult_0_r in H.
  eapply liminf_ext; [|exact H]. intros x _. cbn beta. unfold Rdiv. rewrite Rpow_mult_distr, pow_inv.
  replace (- (x * / sqrt 2 * (x * / sqrt 2))) with (- (x * x) * / 2) by (rewrite <- E at 1; field; lra).
  field. apply pow_nonzero. lra.
Qed.
Lemma osc_inf : forall g n l b k, 0 < b -> 0 < g -> liminf (fun r => r ^ k * osc g n l b r) 0.
Proof.
  intros g n l b k Hb Hg.
  assert (H : liminf (fun x => x ^ k * osc g n l 1 x) 0).
  { replace 0 with (cn g l 1 n * sum_f_R0 (fun j => lagc (INR l + 1 / 2) n j * 0) n) by (rewrite (sum_eq _ (fun _ => 0)) by (intros; ring); rewrite sum_zero; ring).
    eapply liminf_ext; [|apply liminf_scal; apply (liminf_sum (fun j x => lagc (INR l + 1 / 2) n j * (x ^ (k + (l + 1) + 2 * j) * exp (- (x * x) / 2)))); intros j _; apply liminf_scal, half_gauss_inf].
    intros x _. cbn beta. rewrite osc1. unfold lag.
    replace (x ^ k * (cn g l 1 n * (x ^ (l + 1) * exp (- (x * x) / 2) * sum_f_R0 (fun j => lagc (INR l + 1 / 2) n j * (x * x) ^ j) n)))
      with (cn g l 1 n * ((x ^ k * x ^ (l + 1) * exp (- (x * x) / 2)) * sum_f_R0 (fun j => lagc (INR l + 1 / 2) n j * (x * x) ^ j) n)) by ring.
    f_equal. rewrite scal_sum. apply sum_eq. intros j _. rewrite (pow_add x (k + (l + 1)) (2 * j)), (pow_add x k (l + 1)), (pow_mult x 2 j). replace (x ^ 2) with (x * x) by (cbn; ring). ring. }
  assert (P : 0 < sqrt b) by (apply sqrt_lt_R0; exact Hb).
  pose proof (liminf_scal (b ^ k / sqrt b) _ _ (liminf_length _ _ b Hb H)) as K. rewrite Rmult_0_r in K.
  eapply liminf_ext; [|exact K]. intros r _. cbn beta. rewrite (osc_length g n l b r Hb Hg). unfold Rdiv. rewrite (Rpow_mult_distr r), pow_inv.
  field. split; [lra|]. apply pow_nonzero. lra.
Qed.
Lemma liminf_mult0 : forall F G, liminf F 0 -> liminf G 0 -> liminf (fun x => F x * G x) 0.
Proof.
  intros F G HF HG e He. destruct (HF 1 Rlt_0_1) as (A & HA & KA). destruct (HG e He) as (B & HB & KB).
  exists (Rmax A B). pose proof (Rmax_l A B). pose proof (Rmax_r A B). split; [lra|]. intros x Hx.
  pose proof (KA x ltac:(lra)) as a. pose proof (KB x ltac:(lra)) as c. rewrite Rminus_0_r in *. rewrite Rabs_mult. pose proof (Rabs_pos (F x)). pose proof (Rabs_pos (G x)). nra.
Qed.

(** * overlaps *)
Definition integrable (f : R -> R) : Prop := exists v, integral f v.
Lemma integrable_sum : forall (f : nat -> R -> R) n, (forall k, integrable (f k)) -> integrable (fun x => sum_f_R0 (fun k => f k x) n).
Proof.
  intros f n H. induction n as [|n (v & IH)]; cbn [sum_f_R0]; [apply H|]. destruct (H (S n)) as (w & W). exists (v + w). apply (integral_plus _ _ _ _ IH W).
Qed.
Lemma gauss_integrable : forall l s p, 0 < s -> integrable (fun r => r ^ (2 * l + 2) * exp (- (s * r * (s * r))) * (r * r) ^ p).
Proof.
  intros l s p Hs. destruct (gamma_exists l) as (g & H). pose proof (moments l g p H) as M.
  apply (integral_length _ _ (/ s) (Rinv_0_lt_compat s Hs)) in M. apply (integral_scal (/ (2 * s ^ (2 * l + 2) * (s * s) ^ p * s))) in M. eexists.
  eapply integral_ext; [|exact M]. intros r _. cbn beta. unfold weight. replace (r / / s) with (s * r) by (field; lra).
  rewrite (Rpow_mult_distr s r). replace ((s * r * (s * r)) ^ p) with ((s * s) ^ p * (r * r) ^ p) by (rewrite <- Rpow_mult_distr; f_equal; ring).
  field. repeat split; try apply pow_nonzero; nra.
Qed.
Lemma overlap_exists : forall g n m l b c, 0 < b -> 0 < c -> integrable (fun r => osc g n l b r * osc g m l c r).
Proof.
  intros g n m l b c Hb Hc. set (q := (/ (b * b) + / (c * c)) / 2).
  assert (Hb2 : 0 < / (b * b)) by (apply Rinv_0_lt_compat; nra). assert (Hc2 : 0 < / (c * c)) by (apply Rinv_0_lt_compat; nra).
  assert (Hq : 0 < q) by (unfold q; lra).
  set (K := cn g l b n * cn g l c m * (/ b) ^ (l + 1) * (/ c) ^ (l + 1)).
  assert (I : integrable (fun r => sum_f_R0 (fun i => sum_f_R0 (fun j =>
     (K * (lagc (INR l + 1 / 2) n i * (/ (b * b)) ^ i) * (lagc (INR l + 1 / 2) m j * (/ (c * c)) ^ j)) * (r ^ (2 * l + 2) * exp (- (sqrt q * r * (sqrt q * r))) * (r * r) ^ (i + j))) m) n)).
  { apply integrable_sum. intros i. apply integrable_sum. intros j. destruct (gauss_integrable l (sqrt q) (i + j) (sqrt_lt_R0 q Hq)) as (v & V).
    eexists. apply integral_scal, V. }
  destruct I as (v & V). exists v. eapply integral_ext; [|exact V]. intros r Hr. cbn beta.
  unfold osc. fold (cn g l b n). fold (cn g l c m).
  replace (r ^ (2 * l + 2)) with (r ^ (l + 1) * r ^ (l + 1)) by (rewrite <- pow_add; f_equal; lia).
  assert (E : exp (- (sqrt q * r * (sqrt q * r))) = exp (- (r / b * (r / b)) / 2) * exp (- (r / c * (r / c)) / 2)).
  { rewrite <- exp_plus. f_equal. replace (sqrt q * r * (sqrt q * r)) with (sqrt q * sqrt q * (r * r)) by ring. rewrite sqrt_sqrt by lra. unfold q. field. split; lra. }
  rewrite E. unfold lag.
  set (A := fun i => lagc (INR l + 1 / 2) n i * (/ (b * b)) ^ i * (r * r) ^ i). set (B := fun j => lagc (INR l + 1 / 2) m j * (/ (c * c)) ^ j * (r * r) ^ j).
  rewrite (sum_eq (fun k => lagc (INR l + 1 / 2) n k * (r / b * (r / b)) ^ k) A).
  2:{ intros i _. unfold A. replace (r / b * (r / b)) with (/ (b * b) * (r * r)) by (field; lra). rewrite Rpow_mult_distr. ring. }
  rewrite (sum_eq (fun k => lagc (INR l + 1 / 2) m k * (r / c * (r / c)) ^ k) B).
  2:{ intros i _. unfold B. replace (r / c * (r / c)) with (/ (c * c) * (r * r)) by (field; lra). rewrite Rpow_mult_distr. ring. }
  set (W := K * (r ^ (l + 1) * r ^ (l + 1) * (exp (- (r / b * (r / b)) / 2) * exp (- (r / c * (r / c)) / 2)))).
  rewrite (sum_eq _ (fun i => A i * (W * sum_f_R0 B m))).
  - rewrite <- scal_sum. unfold W, K. unfold Rdiv. rewrite !Rpow_mult_distr. ring.
  - intros i _. replace (A i * (W * sum_f_R0 B m)) with ((A i * W) * sum_f_R0 B m) by ring. rewrite scal_sum. apply sum_eq. intros j _. unfold A, B, W. rewrite (pow_add (r * r) i j). ring.
Qed.
(** only the ratio of the lengths counts *)
Lemma overlap_ratio : forall g n m l b c v, 0 < b -> 0 < c -> 0 < g ->
  integral (fun r => osc g n l 1 r * osc g m l (c / b) r) v -> integral (fun r => osc g n l b r * osc g m l c r) v.
Proof.
  intros g n m l b c v Hb Hc Hg H. assert (Hq : 0 < c / b) by (apply Rdiv_lt_0_compat; assumption).
  eapply integral_ext; [|exact (element_length g n l b (osc g m l (c / b)) v Hb Hg H)]. intros r _. cbn beta. f_equal.
  rewrite (osc_length g m l c r Hc Hg), (osc_length g m l (c / b) (r / b) Hq Hg). replace (r / b / (c / b)) with (r / c) by (field; split; lra).
  assert (E : sqrt c = sqrt (c / b) * sqrt b) by (rewrite <- sqrt_mult by lra; f_equal; field; lra). rewrite E.
  assert (0 < sqrt (c / b)) by (apply sqrt_lt_R0; exact Hq). assert (0 < sqrt b) by (apply sqrt_lt_R0; exact Hb). field. split; lra.
Qed.
