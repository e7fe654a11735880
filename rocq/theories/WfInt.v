(** Integrals from 0 to infinity, moments of x^(2l+2) e^(-x^2), orthogonality of the Laguerre polynomials. *)
From Coq Require Import List ZArith Reals Bool Lra Lia.
From Verif Require Import WfSpec WfLag.
Open Scope R_scope.

(** * limits *)
Lemma lim0_ext : forall F G v, (forall x, 0 < x -> F x = G x) -> lim0 F v -> lim0 G v.
Proof. intros F G v E H e He. destruct (H e He) as (d & Hd & K). exists d. split; [exact Hd|]. intros x Hx. rewrite <- E by lra. apply K; exact Hx. Qed.
Lemma liminf_ext : forall F G v, (forall x, 0 < x -> F x = G x) -> liminf F v -> liminf G v.
Proof. intros F G v E H e He. destruct (H e He) as (d & Hd & K). exists d. split; [exact Hd|]. intros x Hx. rewrite <- E by lra. apply K; exact Hx. Qed.
Lemma lim0_plus : forall F G u v, lim0 F u -> lim0 G v -> lim0 (fun x => F x + G x) (u + v).
Proof.
  intros F G u v HF HG e He. destruct (HF (e / 2)) as (d1 & D1 & K1); [lra|]. destruct (HG (e / 2)) as (d2 & D2 & K2); [lra|].
  exists (Rmin d1 d2). split; [apply Rmin_pos; assumption|]. intros x [Hx1 Hx2]. pose proof (Rmin_l d1 d2). pose proof (Rmin_r d1 d2).
  replace (F x + G x - (u + v)) with ((F x - u) + (G x - v)) by ring. eapply Rle_lt_trans; [apply Rabs_triang|].
  pose proof (K1 x ltac:(lra)). pose proof (K2 x ltac:(lra)). lra.
Qed.
Lemma liminf_plus : forall F G u v, liminf F u -> liminf G v -> liminf (fun x => F x + G x) (u + v).
Proof.
  intros F G u v HF HG e He. destruct (HF (e / 2)) as (d1 & D1 & K1); [lra|]. destruct (HG (e / 2)) as (d2 & D2 & K2); [lra|].
  exists (Rmax d1 d2). pose proof (Rmax_l d1 d2). pose proof (Rmax_r d1 d2). split; [lra|]. intros x Hx.
  replace (F x + G x - (u + v)) with ((F x - u) + (G x - v)) by ring. eapply Rle_lt_trans; [apply Rabs_triang|].
  pose proof (K1 x ltac:(lra)). pose proof (K2 x ltac:(lra)). lra.
Qed.
Lemma small_scal : forall c e, 0 < e -> 0 < e / (Rabs c + 1).
Proof. intros c e He. pose proof (Rabs_pos c). apply Rdiv_lt_0_compat; lra. Qed.
Lemma scal_small : forall c e y, 0 < e -> Rabs y < e / (Rabs c + 1) -> Rabs (c * y) < e.
Proof.
  intros c e y He H. rewrite Rabs_mult. pose proof (Rabs_pos c). pose proof (Rabs_pos y).
  assert (K : Rabs y * (Rabs c + 1) < e) by (apply (Rmult_lt_compat_r (Rabs c + 1)) in H; [|lra]; unfold Rdiv in H; rewrite Rmult_assoc, Rinv_l, Rmult_1_r in H by lra; exact H).
  nra.
Qed.
Lemma lim0_scal : forall c F u, lim0 F u -> lim0 (fun x => c * F x) (c * u).
Proof.
  intros c F u H e He. destruct (H _ (small_scal c e He)) as (d & D & K). exists d. split; [exact D|]. intros x Hx.
  replace (c * F x - c * u) with (c * (F x - u)) by ring. apply scal_small; [exact He|apply K; exact Hx].
Qed.
Lemma liminf_scal : forall c F u, liminf F u -> liminf (fun x => c * F x) (c * u).
Proof.
  intros c F u H e He. destruct (H _ (small_scal c e He)) as (d & D & K). exists d. split; [exact D|]. intros x Hx.
  replace (c * F x - c * u) with (c * (F x - u)) by ring. apply scal_small; [exact He|apply K; exact Hx].
Qed.
Lemma liminf_unique : forall F u v, liminf F u -> liminf F v -> u = v.
Proof.
  intros F u v HU HV. destruct (Req_dec u v) as [E|E]; [exact E|exfalso].
  assert (P : 0 < Rabs (u - v)) by (apply Rabs_pos_lt, Rminus_eq_contra; exact E).
  destruct (HU (Rabs (u - v) / 2)) as (A & HA & KA); [lra|]. destruct (HV (Rabs (u - v) / 2)) as (B & HB & KB); [lra|].
  pose proof (Rmax_l A B). pose proof (Rmax_r A B).
  pose proof (KA (Rmax A B + 1) ltac:(lra)). pose proof (KB (Rmax A B + 1) ltac:(lra)).
  pose proof (Rabs_triang (u - F (Rmax A B + 1)) (F (Rmax A B + 1) - v)) as T. replace (u - F (Rmax A B + 1) + (F (Rmax A B + 1) - v)) with (u - v) in T by ring.
  rewrite (Rabs_minus_sym u (F (Rmax A B + 1))) in T. lra.
Qed.
Lemma lim0_unique : forall F u v, lim0 F u -> lim0 F v -> u = v.
Proof.
  intros F u v HU HV. destruct (Req_dec u v) as [E|E]; [exact E|exfalso].
  assert (P : 0 < Rabs (u - v)) by (apply Rabs_pos_lt, Rminus_eq_contra; exact E).
  destruct (HU (Rabs (u - v) / 2)) as (A & HA & KA); [lra|]. destruct (HV (Rabs (u - v) / 2)) as (B & HB & KB); [lra|].
  pose proof (Rmin_l A B). pose proof (Rmin_r A B). assert (M : 0 < Rmin A B) by (apply Rmin_pos; assumption). set (x := Rmin A B / 2).
  assert (Hx : 0 < x < A /\ x < B) by (unfold x; lra).
  pose proof (KA x ltac:(lra)). pose proof (KB x ltac:(lra)).
  pose proof (Rabs_triang (u - F x) (F x - v)) as T. replace (u - F x + (F x - v)) with (u - v) in T by ring.
  rewrite (Rabs_minus_sym u (F x)) in T. lra.
Qed.

(** * integrals *)
Lemma integral_ext : forall f g v, (forall x, 0 < x -> f x = g x) -> integral f v -> integral g v.
Proof. intros f g v E (F & D & L0 & L1). exists F. split; [intros x Hx; rewrite <- E by exact Hx; apply D; exact Hx|]. split; assumption. Qed.
Lemma integral_val : forall f u v, u = v -> integral f u -> integral f v.
Proof. intros f u v E H. rewrite <- E. exact H. Qed.
Lemma integral_plus : forall f g u v, integral f u -> integral g v -> integral (fun x => f x + g x) (u + v).
Proof.
  intros f g u v (F & DF & F0 & F1) (G & DG & G0 & G1). exists (fun x => F x + G x).
  split; [intros x Hx; apply (derivable_pt_lim_plus F G); [apply DF|apply DG]; exact Hx|].
  split; [replace 0 with (0 + 0) by ring; apply lim0_plus; assumption|apply liminf_plus; assumption].
Qed.
Lemma integral_scal : forall c f u, integral f u -> integral (fun x => c * f x) (c * u).
Proof.
  intros c f u (F & DF & F0 & F1). exists (fun x => c * F x).
  split; [intros x Hx; apply (derivable_pt_lim_scal F); apply DF; exact Hx|].
  split; [replace 0 with (c * 0) by ring; apply lim0_scal; assumption|apply liminf_scal; assumption].
Qed.
Lemma integral_zero : integral (fun _ => 0) 0.
Proof.
  exists (fun _ => 0). split; [intros x _; apply derivable_pt_lim_const|]. unfold Rminus.
  split; intros e He; exists 1; (split; [lra|]); intros x _; unfold Rminus; rewrite Ropp_0, Rplus_0_r, Rabs_R0; exact He.
Qed.
Lemma constant_of_derivative : forall F, (forall x, 0 < x -> derivable_pt_lim F x 0) -> forall x y, 0 < x -> x < y -> F x = F y.
Proof.
  intros F D x y Hx Hxy.
  destruct (MVT_cor2 F (fun _ => 0) x y Hxy) as (c & E & _); [intros c Hc; apply D; lra|]. lra.
Qed.
Lemma integral_unique : forall f u v, integral f u -> integral f v -> u = v.
Proof.
  intros f u v (F & DF & F0 & F1) (G & DG & G0 & G1).
  set (H := fun x => F x + -1 * G x).
  assert (DH : forall x, 0 < x -> derivable_pt_lim H x 0).
  { intros x Hx. replace 0 with (f x + -1 * f x) by ring. apply (derivable_pt_lim_plus F (fun t => -1 * G t)); [apply DF; exact Hx|].
    apply (derivable_pt_lim_scal G), DG, Hx. }
  assert (H0 : lim0 H 0) by (replace 0 with (0 + -1 * 0) by ring; apply lim0_plus; [exact F0|apply lim0_scal; exact G0]).
  assert (H1 : liminf H (u + -1 * v)) by (apply liminf_plus; [exact F1|apply liminf_scal; exact G1]).
  assert (K : forall x, 0 < x -> H x = H 1).
  { intros x Hx. destruct (Rtotal_order x 1) as [L|[L|L]]; [apply constant_of_derivative; assumption|rewrite L; reflexivity|].
    symmetry. apply constant_of_derivative; try assumption; lra. }
  assert (E0 : H 1 = 0).
  { apply (lim0_unique H); [|exact H0]. intros e He. exists 1. split; [lra|]. intros x Hx. rewrite K by lra. unfold Rminus. rewrite Rplus_opp_r, Rabs_R0. exact He. }
  assert (E1 : H 1 = u + -1 * v).
  { apply (liminf_unique H); [|exact H1]. intros e He. exists 1. split; [lra|]. intros x Hx. rewrite K by lra. unfold Rminus. rewrite Rplus_opp_r, Rabs_R0. exact He. }
  lra.
Qed.
Lemma integral_sum : forall (f : nat -> R -> R) (v : nat -> R) n, (forall k, (k <= n)%nat -> integral (f k) (v k)) ->
  integral (fun x => sum_f_R0 (fun k => f k x) n) (sum_f_R0 v n).
Proof.
  intros f v n. induction n as [|n IH]; intros H; cbn [sum_f_R0]; [apply H; lia|].
  apply (integral_plus (fun x => sum_f_R0 (fun k => f k x) n) (f (S n))); [apply IH; intros k Hk; apply H; lia|apply H; lia].
Qed.
(** scale of length *)
Lemma integral_length : forall f v b, 0 < b -> integral f v -> integral (fun r => f (r / b) / b) v.
Proof.
  intros f v b Hb (F & D & F0 & F1). exists (fun r => F (r / b)).
  split; [|split].
  - intros x Hx. replace (f (x / b) / b) with (f (x / b) * (1 / b)) by (field; lra).
    apply (derivable_pt_lim_comp (fun r => r / b) F).
    + replace (1 / b) with (1 * / b + 0 * x) by (field; lra).
      apply (derivable_pt_lim_ext (fun r => / b * r)); [intros t; field; lra|].
      replace (1 * / b + 0 * x) with (/ b * 1) by ring. apply (derivable_pt_lim_scal id), derivable_pt_lim_id.
    + apply D. apply Rdiv_lt_0_compat; lra.
  - intros e He. destruct (F0 e He) as (d & Hd & K). exists (d * b). split; [nra|]. intros x [H1 H2]. apply K.
    split; [apply Rdiv_lt_0_compat; lra|]. apply (Rmult_lt_reg_r b); [lra|]. unfold Rdiv. rewrite Rmult_assoc, Rinv_l by lra. lra.
  - intros e He. destruct (F1 e He) as (d & Hd & K). exists (d * b). split; [nra|]. intros x H1. apply K.
    apply (Rmult_lt_reg_r b); [lra|]. unfold Rdiv. rewrite Rmult_assoc, Rinv_l by lra. lra.
Qed.

(** * x^k e^(-x^2) at infinity and at 0 *)
Lemma exp_INR : forall n y, exp (INR n * y) = exp y ^ n.
Proof. induction n as [|n IH]; intros y; [cbn; rewrite Rmult_0_l; apply exp_0|]. rewrite S_INR. cbn [pow]. rewrite <- IH, <- exp_plus. f_equal. ring. Qed.
Lemma gauss_bound : forall k x, 1 <= x -> x ^ k * exp (- (x * x)) <= INR (S k) ^ S k / x.
Proof.
  intros k x Hx. set (m := S k). assert (Hm : 0 < INR m) by (apply lt_0_INR; unfold m; lia).
  assert (HX : 0 < x * x) by nra.
  assert (E : (x * x / INR m) ^ m <= exp (x * x)).
  { replace (x * x) with (INR m * (x * x / INR m)) at 2 by (field; lra). rewrite exp_INR. apply pow_incr.
    assert (0 < x * x / INR m) by (apply Rdiv_lt_0_compat; lra). pose proof (exp_ineq1 (x * x / INR m) ltac:(lra)). lra. }
  rewrite exp_Ropp. assert (HE : 0 < exp (x * x)) by apply exp_pos.
  assert (Hk : 0 < x ^ k) by (apply pow_lt; lra). assert (Hk1 : 1 <= x ^ S k) by (apply pow_R1_Rle; exact Hx).
  assert (HM : 0 < INR m ^ m) by (apply pow_lt; exact Hm).
  assert (EE : (x * x / INR m) ^ m = x ^ m * x ^ m / INR m ^ m).
  { unfold Rdiv. rewrite !Rpow_mult_distr, pow_inv by lra. ring. }
  rewrite EE in E. apply (Rmult_le_reg_r (exp (x * x) * x)); [nra|].
  replace (x ^ k * / exp (x * x) * (exp (x * x) * x)) with (x ^ m) by (unfold m; cbn [pow]; field; lra).
  replace (INR m ^ m / x * (exp (x * x) * x)) with (INR m ^ m * exp (x * x)) by (field; lra).
  apply Rle_trans with (INR m ^ m * (x ^ m * x ^ m / INR m ^ m)); [|apply Rmult_le_compat_l; lra].
  replace (INR m ^ m * (x ^ m * x ^ m / INR m ^ m)) with (x ^ m * x ^ m) by (field; lra). unfold m in *. nra.
Qed.
Lemma gauss_inf : forall k, liminf (fun x => x ^ k * exp (- (x * x))) 0.
Proof.
  intros k e He. assert (HM : 0 < INR (S k) ^ S k) by (apply pow_lt, lt_0_INR; lia).
  exists (1 + INR (S k) ^ S k / e). assert (0 < INR (S k) ^ S k / e) by (apply Rdiv_lt_0_compat; lra). split; [lra|].
  intros x Hx. rewrite Rminus_0_r, Rabs_right by (apply Rle_ge, Rmult_le_pos; [apply pow_le; lra|left; apply exp_pos]).
  eapply Rle_lt_trans; [apply gauss_bound; lra|]. apply (Rmult_lt_reg_r (x / e)); [apply Rdiv_lt_0_compat; lra|].
  replace (INR (S k) ^ S k / x * (x / e)) with (INR (S k) ^ S k / e) by (field; lra). replace (e * (x / e)) with x by (field; lra). lra.
Qed.
Lemma gauss_0 : forall k, lim0 (fun x => x ^ S k * exp (- (x * x))) 0.
Proof.
  intros k e He. exists (Rmin 1 e). pose proof (Rmin_l 1 e). pose proof (Rmin_r 1 e). split; [apply Rmin_pos; lra|]. intros x [H1 H2].
  rewrite Rminus_0_r, Rabs_right by (apply Rle_ge, Rmult_le_pos; [apply pow_le; lra|left; apply exp_pos]).
  assert (P : x ^ k <= 1) by (rewrite <- (pow1 k); apply pow_incr; lra). assert (P0 : 0 < x ^ k) by (apply pow_lt; lra).
  assert (E : exp (- (x * x)) <= 1) by (rewrite <- exp_0; left; apply exp_increasing; nra). pose proof (exp_pos (- (x * x))).
  cbn [pow]. assert (x ^ k * exp (- (x * x)) <= 1) by nra. nra.
Qed.
Lemma gauss_derivative : forall k x, derivable_pt_lim (fun t => t ^ S k * exp (- (t * t))) x (INR (S k) * x ^ k * exp (- (x * x)) + x ^ S k * (exp (- (x * x)) * (-2 * x))).
Proof.
  intros k x. apply (derivable_pt_lim_mult (fun t => t ^ S k) (fun t => exp (- (t * t)))); [apply (derivable_pt_lim_pow x (S k))|].
  apply (derivable_pt_lim_comp (fun t => - (t * t)) exp); [|apply derivable_pt_lim_exp].
  replace (-2 * x) with (- (1 * x + x * 1)) by ring. apply (derivable_pt_lim_opp (fun t => t * t)).
  apply (derivable_pt_lim_mult id id); apply derivable_pt_lim_id.
Qed.

(** * moments *)
Definition weight (l : nat) (x : R) : R := 2 * (x ^ (2 * l + 2) * exp (- (x * x))).
Lemma moment_step : forall k v, integral (fun x => x ^ k * exp (- (x * x))) v -> integral (fun x => x ^ (k + 2) * exp (- (x * x))) (INR (S k) / 2 * v).
Proof.
  intros k v H.
  assert (D : integral (fun x => INR (S k) * x ^ k * exp (- (x * x)) + x ^ S k * (exp (- (x * x)) * (-2 * x))) 0).
  { exists (fun x => x ^ S k * exp (- (x * x))). split; [intros x _; apply gauss_derivative|]. split; [apply gauss_0|apply gauss_inf]. }
  apply (integral_val _ (INR (S k) / 2 * v + -1/2 * 0)); [ring|].
  apply (integral_ext (fun x => INR (S k) / 2 * (x ^ k * exp (- (x * x))) + -1/2 * (INR (S k) * x ^ k * exp (- (x * x)) + x ^ S k * (exp (- (x * x)) * (-2 * x))))).
  - intros x _. rewrite pow_add. cbn [pow]. field.
  - apply integral_plus; apply integral_scal; assumption.
Qed.
Lemma moments : forall l g k, gamma_value l g -> integral (fun x => weight l x * (x * x) ^ k) (g * poch (INR l + 3 / 2) k).
Proof.
  intros l g k H. induction k as [|k IH].
  - apply (integral_val _ g); [cbn; ring|]. apply (integral_ext (fun x => 2 * (x ^ (2 * l + 2) * exp (- (x * x))))); [intros x _; unfold weight; cbn [pow]; ring|exact H].
  - set (q := (2 * l + 2 + 2 * k)%nat).
    assert (E : forall j x, weight l x * (x * x) ^ j = 2 * (x ^ (2 * l + 2 + 2 * j) * exp (- (x * x)))).
    { intros j x. unfold weight. rewrite (pow_add x (2 * l + 2) (2 * j)), (pow_mult x 2 j). replace (x ^ 2) with (x * x) by (cbn; ring). ring. }
    assert (I : integral (fun x => x ^ q * exp (- (x * x))) (1 / 2 * (g * poch (INR l + 3 / 2) k))).
    { apply (integral_ext (fun x => 1 / 2 * (weight l x * (x * x) ^ k))); [intros x _; rewrite E; unfold q; field|]. apply integral_scal, IH. }
    apply moment_step in I. apply (integral_scal 2) in I.
    apply (integral_val _ (2 * (INR (S q) / 2 * (1 / 2 * (g * poch (INR l + 3 / 2) k))))).
    + cbn [poch]. rewrite S_INR. unfold q. rewrite !plus_INR, !mult_INR. change (INR 2) with 2. field.
    + eapply integral_ext; [|exact I]. intros x _. rewrite E. cbn beta. do 3 f_equal. unfold q. lia.
Qed.
Lemma gamma_next : forall l g, gamma_value l g -> gamma_value (S l) ((INR l + 3 / 2) * g).
Proof.
  intros l g H. pose proof (moments l g 1 H) as M. unfold gamma_value.
  apply (integral_val _ (g * poch (INR l + 3 / 2) 1)); [cbn; ring|].
  eapply integral_ext; [|exact M]. intros x _. unfold weight. replace (2 * S l + 2)%nat with (2 * l + 2 + 2)%nat by lia.
  rewrite (pow_add x (2 * l + 2)). cbn [pow]. ring.
Qed.
Lemma gamma_pos : forall l g, gamma_value l g -> 0 < g.
Proof.
  intros l g (F & D & F0 & F1).
  assert (I : forall x y, 0 < x -> x < y -> F x < F y).
  { intros x y Hx Hy. destruct (MVT_cor2 F (fun x => 2 * (x ^ (2 * l + 2) * exp (- (x * x)))) x y Hy) as (c & E & Hc); [intros c Hc; apply D; lra|].
    assert (0 < c ^ (2 * l + 2)) by (apply pow_lt; lra). pose proof (exp_pos (- (c * c))). assert (0 < c ^ (2 * l + 2) * exp (- (c * c))) by nra. nra. }
  assert (P1 : 0 <= F 1).
  { destruct (Rle_lt_dec 0 (F 1)) as [L|L]; [exact L|exfalso]. destruct (F0 (- F 1)) as (d & Hd & K); [lra|].
    set (x := Rmin d 1 / 2). assert (Hx : 0 < x < d /\ x < 1).
    { unfold x. pose proof (Rmin_l d 1). pose proof (Rmin_r d 1). assert (0 < Rmin d 1) by (apply Rmin_pos; lra). lra. }
    pose proof (K x ltac:(lra)) as A. rewrite Rminus_0_r in A. apply Rabs_def2 in A. pose proof (I x 1 ltac:(lra) ltac:(lra)). lra. }
  pose proof (I 1 2 ltac:(lra) ltac:(lra)) as P2.
  destruct (Rlt_le_dec 0 g) as [L|L]; [exact L|exfalso]. destruct (F1 (F 2 - g)) as (A & HA & K); [lra|].
  pose proof (Rmax_l A 2). pose proof (Rmax_r A 2). pose proof (K (Rmax A 2 + 1) ltac:(lra)) as B. apply Rabs_def2 in B.
  pose proof (I 2 (Rmax A 2 + 1) ltac:(lra) ltac:(lra)). lra.
Qed.

(** * orthogonality *)
Definition lag_norm (a : R) (n : nat) : R := poch (a + 1) n / INR (fact n).
Lemma half3 : forall l, INR l + 3 / 2 = INR l + 1 / 2 + 1.
Proof. intros l. field. Qed.
Lemma mean_lag : forall l g n, gamma_value l g -> integral (fun x => weight l x * lag (INR l + 1 / 2) n (x * x)) (if Nat.eqb n 0 then g else 0).
Proof.
  intros l g n H. apply (integral_val _ (sum_f_R0 (fun k => lagc (INR l + 1 / 2) n k * (g * poch (INR l + 3 / 2) k)) n)).
  - rewrite half3. destruct (Nat.eqb_spec n 0) as [E|E].
    + subst n. unfold lagc. cbn. field.
    + rewrite (sum_eq _ (fun k => (lagc (INR l + 1 / 2) n k * poch (INR l + 1 / 2 + 1) k) * g)) by (intros k _; ring).
      rewrite <- scal_sum, lag_mean by lia. ring.
  - apply (integral_ext (fun x => sum_f_R0 (fun k => lagc (INR l + 1 / 2) n k * (weight l x * (x * x) ^ k)) n)).
    + intros x _. unfold lag. rewrite scal_sum. apply sum_eq. intros k _. ring.
    + apply (integral_sum (fun k x => lagc (INR l + 1 / 2) n k * (weight l x * (x * x) ^ k))). intros k _. apply integral_scal, moments, H.
Qed.
Lemma lag_prod1 : forall a n t, lag a (S n) t * lag a 1 t = -2 * (INR n + 1) * lag a (S n) t + (INR n + 2) * lag a (S (S n)) t + (INR n + 1 + a) * lag a n t.
Proof. intros a n t. rewrite lag_1, (lag_three a n t). ring. Qed.
Lemma lag_prod : forall a n m t, (INR m + 2) * (lag a (S n) t * lag a (S (S m)) t)
  = 2 * (INR m - INR n) * (lag a (S n) t * lag a (S m) t) + (INR n + 2) * (lag a (S (S n)) t * lag a (S m) t)
    + (INR n + 1 + a) * (lag a n t * lag a (S m) t) - (INR m + 1 + a) * (lag a (S n) t * lag a m t).
Proof.
  intros a n m t. replace ((INR m + 2) * (lag a (S n) t * lag a (S (S m)) t)) with (lag a (S n) t * ((INR m + 2) * lag a (S (S m)) t)) by ring.
  replace ((INR n + 2) * (lag a (S (S n)) t * lag a (S m) t)) with (((INR n + 2) * lag a (S (S n)) t) * lag a (S m) t) by ring.
  rewrite !lag_three. ring.
Qed.
Definition ortho (l : nat) (g : R) (n m : nat) : Prop :=
  integral (fun x => weight l x * (lag (INR l + 1 / 2) n (x * x) * lag (INR l + 1 / 2) m (x * x))) (if Nat.eqb n m then g * lag_norm (INR l + 1 / 2) n else 0).
Lemma ortho_sym : forall l g n m, ortho l g n m -> ortho l g m n.
Proof.
  intros l g n m H. unfold ortho in *. rewrite (Nat.eqb_sym m n). destruct (Nat.eqb_spec n m) as [E|E].
  - subst m. exact H.
  - eapply integral_ext; [|exact H]. intros x _. cbn beta. ring.
Qed.
Lemma ortho_0 : forall l g n, gamma_value l g -> ortho l g n 0.
Proof.
  intros l g n H. unfold ortho. pose proof (mean_lag l g n H) as M. destruct (Nat.eqb_spec n 0) as [E|E].
  - subst n. apply (integral_val _ g); [unfold lag_norm; cbn; field|]. eapply integral_ext; [|exact M]. intros x _. cbn beta. rewrite lag_0. ring.
  - eapply integral_ext; [|exact M]. intros x _. cbn beta. rewrite lag_0. ring.
Qed.
Lemma lag_norm_S : forall a n, (INR n + 1) * lag_norm a (S n) = (INR n + 1 + a) * lag_norm a n.
Proof. intros a n. unfold lag_norm. cbn [poch]. rewrite fact_S_R. pose proof (fact_ne n). pose proof (pos_INR n). field. split; lra. Qed.
Lemma ortho_all : forall l g, gamma_value l g -> forall m n, ortho l g n m /\ ortho l g n (S m).
Proof.
  intros l g H. set (a := INR l + 1 / 2). induction m as [|m IH].
  - intros n. split; [apply ortho_0, H|]. destruct n as [|n]; [apply ortho_sym, ortho_0, H|].
    pose proof (ortho_0 l g (S n) H) as A. pose proof (ortho_0 l g (S (S n)) H) as B. pose proof (ortho_0 l g n H) as C.
    unfold ortho in *. fold a in A, B, C. fold a.
    apply (integral_val _ (-2 * (INR n + 1) * 0 + (INR n + 2) * 0 + (INR n + 1 + a) * (if Nat.eqb n 0 then g * lag_norm a n else 0))).
    + cbn [Nat.eqb]. destruct (Nat.eqb_spec n 0) as [E|E]; [subst n|]; cbn [Nat.eqb]; [|ring].
      pose proof (lag_norm_S a 0) as E1. change (INR 0) with 0 in *. nra.
    + apply (integral_scal (-2 * (INR n + 1))) in A. apply (integral_scal (INR n + 2)) in B. apply (integral_scal (INR n + 1 + a)) in C.
      cbn [Nat.eqb] in A, B. eapply integral_ext; [|exact (integral_plus _ _ _ _ (integral_plus _ _ _ _ A B) C)]. intros x _. cbn beta. rewrite lag_prod1, lag_0. ring.
  - intros n. split; [apply IH|]. destruct n as [|n]; [apply ortho_sym, ortho_0, H|].
    destruct (IH (S n)) as [D A]. destruct (IH (S (S n))) as [_ B]. destruct (IH n) as [_ C].
    unfold ortho in *. fold a in A, B, C, D. fold a.
    pose proof (pos_INR m). pose proof (pos_INR n).
    apply (integral_scal (2 * (INR m - INR n) / (INR m + 2))) in A. apply (integral_scal ((INR n + 2) / (INR m + 2))) in B.
    apply (integral_scal ((INR n + 1 + a) / (INR m + 2))) in C. apply (integral_scal (- (INR m + 1 + a) / (INR m + 2))) in D.
    pose proof (integral_plus _ _ _ _ (integral_plus _ _ _ _ (integral_plus _ _ _ _ A B) C) D) as K.
    match type of K with integral _ ?v => apply (integral_val _ v) end.
    + clear. pose proof (pos_INR m). change (Nat.eqb (S n) (S (S m))) with (Nat.eqb n (S m)). change (Nat.eqb (S n) (S m)) with (Nat.eqb n m).
      change (Nat.eqb (S (S n)) (S m)) with (Nat.eqb (S n) m). destruct (Nat.eqb_spec n m) as [E|E]; destruct (Nat.eqb_spec (S n) m) as [E1|E1];
        destruct (Nat.eqb_spec n (S m)) as [E2|E2]; try lia.
      * subst m. field. lra.
      * subst m. pose proof (lag_norm_S a (S n)) as E3. rewrite !S_INR in *. pose proof (pos_INR n).
        replace (lag_norm a (S (S n))) with ((INR n + 1 + 1 + a) * lag_norm a (S n) / (INR n + 1 + 1)) by (apply (Rmult_eq_reg_l (INR n + 1 + 1)); [rewrite E3; field; lra|lra]).
        field. lra.
      * subst n. pose proof (lag_norm_S a (S m)) as E3. rewrite !S_INR in *. 
        replace (lag_norm a (S (S m))) with ((INR m + 1 + 1 + a) * lag_norm a (S m) / (INR m + 1 + 1)) by (apply (Rmult_eq_reg_l (INR m + 1 + 1)); [rewrite E3; field; lra|lra]).
        field. lra.
      * field. lra.
    + eapply integral_ext; [|exact K]. intros x _. cbn beta. pose proof (lag_prod a n m (x * x)) as E.
      apply (Rmult_eq_reg_l (INR m + 2)); [|lra].
      replace ((INR m + 2) * (weight l x * (lag a (S n) (x * x) * lag a (S (S m)) (x * x)))) with (weight l x * ((INR m + 2) * (lag a (S n) (x * x) * lag a (S (S m)) (x * x)))) by ring.
      rewrite E. field. lra.
Qed.
Lemma orthogonality : forall l g n m, gamma_value l g -> ortho l g n m.
Proof. intros l g n m H. apply (ortho_all l g H). Qed.
