(** Gamma(l + 3/2) exists; the mesh; integrals on the mesh; momentum functions. *)
From Coq Require Import List ZArith Reals Bool Lra Lia.
From Verif Require Import Base WfModel WfSpec WfLag WfInt WfProof WfOsc WfEl WfSqr.
Import ListNotations.
Open Scope R_scope.

(** * existence of the integrals *)
Definition wt (x : R) : R := 2 * (x ^ 2 * exp (- (x * x))).
Lemma wt_cont : forall x, continuity_pt wt x.
Proof.
  intros x. apply derivable_continuous_pt. eexists. apply (derivable_pt_lim_scal (fun t => t ^ 2 * exp (- (t * t)))). apply (gauss_derivative 1 x).
Qed.
Definition wint (x : R) (h : 0 <= x) : Riemann_integrable wt 0 x := continuity_implies_RiemannInt h (fun t _ => wt_cont t).
Definition Fw (x : R) : R := match Rle_dec 0 x with left h => RiemannInt (wint x h) | right _ => 0 end.
Lemma Fw_derivative : forall x, 0 < x -> derivable_pt_lim Fw x (wt x).
Proof.
  intros x Hx. assert (h : 0 <= x + 1) by lra.
  pose proof (RiemannInt_P28 h (fun t _ => wt_cont t) (conj (Rlt_le _ _ Hx) (Rlt_le _ _ (Rlt_plus_1 x)))) as D.
  intros e He. destruct (D e He) as (del & H). assert (P : 0 < Rmin del (Rmin x 1)) by (apply Rmin_pos; [apply (cond_pos del)|apply Rmin_pos; lra]).
  exists (mkposreal _ P). intros k Hk Hs. cbn in Hs. pose proof (Rmin_l del (Rmin x 1)). pose proof (Rmin_r del (Rmin x 1)). pose proof (Rmin_l x 1). pose proof (Rmin_r x 1).
  assert (K : - x < k < 1) by (apply Rabs_def2 in Hs; lra).
  assert (E : forall t, 0 < t < x + 1 -> Fw t = primitive h (FTC_P1 h (fun t _ => wt_cont t)) t).
  { intros t Ht. unfold Fw, primitive. destruct (Rle_dec 0 t); [|lra]. destruct (Rle_dec t (x + 1)); [|lra]. apply RiemannInt_P5. }
  rewrite !E by lra. apply H; [exact Hk|lra].
Qed.
Lemma Fw_0 : lim0 Fw 0.
Proof.
  assert (h : 0 <= 1) by lra. pose proof (RiemannInt_P28 h (fun t _ => wt_cont t) (conj (Rle_refl 0) h)) as D.
  set (P := primitive h (FTC_P1 h (fun t _ => wt_cont t))) in *.
  assert (P0 : P 0 = 0).
  { unfold P, primitive. destruct (Rle_dec 0 0); [|lra]. destruct (Rle_dec 0 1); [|lra]. apply RiemannInt_P9. }
  assert (W0 : wt 0 = 0) by (unfold wt; cbn; ring). rewrite W0 in D.
  intros e He. destruct (D e He) as (del & H). exists (Rmin del 1). pose proof (cond_pos del). split; [apply Rmin_pos; lra|].
  intros x [H1 H2]. pose proof (Rmin_l del 1). pose proof (Rmin_r del 1).
  assert (E : Fw x = P x). { unfold Fw, P, primitive. destruct (Rle_dec 0 x); [|lra]. destruct (Rle_dec x 1); [|lra]. apply RiemannInt_P5. }
  assert (B : Rabs ((P (0 + x) - P 0) / x - 0) < e) by (apply H; [lra|rewrite Rabs_right; lra]).
  rewrite Rplus_0_l, P0, !Rminus_0_r in B. rewrite E, Rminus_0_r. unfold Rdiv in B. rewrite Rabs_mult, Rabs_inv, (Rabs_right x) in B by lra.
  apply (Rmult_lt_compat_r x) in B; [|lra]. rewrite Rmult_assoc, Rinv_l, Rmult_1_r in B by lra. nra.
Qed.
Lemma Fw_increasing : forall x y, 0 < x -> x < y -> Fw x < Fw y.
Proof.
  intros x y Hx Hy. destruct (MVT_cor2 Fw wt x y Hy) as (c & E & Hc); [intros c Hc; apply Fw_derivative; lra|].
  assert (0 < wt c). { unfold wt. assert (0 < c ^ 2) by (apply pow_lt; lra). pose proof (exp_pos (- (c * c))). assert (0 < c ^ 2 * exp (- (c * c))) by nra. lra. }
  nra.
Qed.
Lemma Fw_bound : forall x, 1 < x -> Fw x <= Fw 1 + 2 * INR 4 ^ 4.
Proof.
  intros x Hx. set (M := INR 4 ^ 4).
  assert (HM : 0 < M) by (apply pow_lt, lt_0_INR; lia).
  destruct (MVT_cor2 (fun t => Fw t + 2 * M / t) (fun t => wt t + - (2 * M) / (t * t)) 1 x Hx) as (c & E & Hc).
  { intros c Hc. apply (derivable_pt_lim_plus Fw (fun t => 2 * M / t)); [apply Fw_derivative; lra|]. apply d_inv. lra. }
  assert (B : wt c <= 2 * M / (c * c)).
  { pose proof (gauss_bound 3 c ltac:(lra)) as G. fold M in G. unfold wt.
    apply (Rmult_le_compat_r (2 / c)) in G; [|left; apply Rdiv_lt_0_compat; lra].
    replace (2 * (c ^ 2 * exp (- (c * c)))) with (c ^ 3 * exp (- (c * c)) * (2 / c)) by (cbn [pow]; field; lra).
    replace (2 * M / (c * c)) with (M / c * (2 / c)) by (field; lra). exact G. }
  assert (0 < 2 * M / x) by (apply Rdiv_lt_0_compat; lra).
  assert (N : (wt c + - (2 * M) / (c * c)) * (x - 1) <= 0).
  { replace (- (2 * M) / (c * c)) with (- (2 * M / (c * c))) by (field; lra). assert (wt c + - (2 * M / (c * c)) <= 0) by lra. nra. }
  replace (2 * M / 1) with (2 * M) in E by field. lra.
Qed.
Lemma gamma_exists0 : exists g, gamma_value 0 g.
Proof.
  set (U := fun n => Fw (INR n + 2)).
  assert (G : Un_growing U).
  { intros n. unfold U. rewrite S_INR. pose proof (pos_INR n). left. apply Fw_increasing; lra. }
  assert (B : bound (EUn U)).
  { exists (Fw 1 + 2 * INR 4 ^ 4). intros y (n & ->). unfold U. pose proof (pos_INR n). apply Fw_bound. lra. }
  destruct (Un_cv_crit U G B) as (v & CV). exists v. exists Fw. split; [intros x Hx; apply (Fw_derivative x Hx)|]. split; [apply Fw_0|].
  intros e He. destruct (CV e He) as (N & K). exists (INR N + 2). pose proof (pos_INR N). split; [lra|]. intros x Hx.
  assert (A : exists m, x < INR m).
  { destruct (archimed x) as [A _]. exists (Z.to_nat (up x)). rewrite INR_IZR_INZ, Z2Nat.id; [lra|]. apply le_IZR. lra. }
  destruct A as (m & Hm).
  pose proof (K N ltac:(lia)) as KN. unfold R_dist in KN. apply Rabs_def2 in KN. unfold U in KN.
  pose proof (Fw_increasing (INR N + 2) x ltac:(lra) Hx).
  assert (Fw x <= v).
  { pose proof (growing_ineq U v G CV m) as L. unfold U in L. pose proof (pos_INR m). pose proof (Fw_increasing x (INR m + 2) ltac:(lra) ltac:(lra)). lra. }
  apply Rabs_def1; lra.
Qed.
Lemma gamma_exists : forall l, exists g, gamma_value l g.
Proof. induction l as [|l (g & H)]; [apply gamma_exists0|]. eexists. apply gamma_next, H. Qed.
Lemma gamma_fn_exists : exists f, gamma_fn f.
Proof.
  destruct gamma_exists0 as (g & H). exists (fun x => g * poch (3 / 2) (Z.to_nat (up (x - 3 / 2) - 1))).
  intros l. replace (INR l + 3 / 2 - 3 / 2) with (INR l) by ring.
  assert (E : Z.to_nat (up (INR l) - 1) = l).
  { rewrite <- (tech_up (INR l) (Z.of_nat l + 1)); [lia| |]; rewrite plus_IZR, <- INR_IZR_INZ; lra. }
  rewrite E. clear E. induction l as [|l IH]; [replace (g * poch (3 / 2) 0) with g by (cbn; ring); exact H|].
  pose proof (gamma_next l _ IH) as N. replace (g * poch (3 / 2) (S l)) with ((INR l + 3 / 2) * (g * poch (3 / 2) l)); [exact N|]. cbn [poch]. ring.
Qed.
