(** A continuous function on the half line which vanishes at 0, and at infinity faster than 1/r^2, is integrable. *)
From Coq Require Import List ZArith Reals Bool Lra Lia.
From Verif Require Import Base WfModel WfSpec WfLag WfInt WfProof WfMesh.
Open Scope R_scope.

Section Decay.
Variable f : R -> R.
Hypothesis Hc : forall r, 0 < r -> continuity_pt f r.
Hypothesis H0 : lim0 f 0.
Hypothesis Hi : liminf (fun r => r * r * f r) 0.
Definition ext (x : R) : R := if Rlt_dec 0 x then f x else 0.
Lemma ext_pos : forall x, 0 < x -> ext x = f x.
Proof. intros x H. unfold ext. destruct (Rlt_dec 0 x); [reflexivity|lra]. Qed.
Lemma ext_neg : forall x, x <= 0 -> ext x = 0.
Proof. intros x H. unfold ext. destruct (Rlt_dec 0 x); [lra|reflexivity]. Qed.
Lemma cont_at : forall g x, continuity_pt g x <-> forall e, 0 < e -> exists d, 0 < d /\ forall y, Rabs (y - x) < d -> Rabs (g y - g x) < e.
Proof.
  intros g x. split.
  - intros H e He. destruct (H e He) as (d & Hd & K). exists d. split; [exact Hd|]. intros y Hy. destruct (Req_dec y x) as [->|Hn].
    + replace (g x - g x) with 0 by ring. rewrite Rabs_R0. exact He.
    + apply K. split; [split; [exact I|intros E; apply Hn; symmetry; exact E]|exact Hy].
  - intros H e He. destruct (H e He) as (d & Hd & K). exists d. split; [exact Hd|]. intros y [_ Hy]. apply K. exact Hy.
Qed.
Lemma ext_cont : forall x, continuity_pt ext x.
Proof.
  intros x. apply cont_at. intros e He. destruct (Rtotal_order x 0) as [H|[H|H]].
  - exists (- x). split; [lra|]. intros y Hy. apply Rabs_def2 in Hy. rewrite !ext_neg by lra. rewrite Rminus_0_r, Rabs_R0. exact He.
  - subst x. destruct (H0 e He) as (d & Hd & K). exists d. split; [exact Hd|]. intros y Hy. rewrite (ext_neg 0) by lra. destruct (Rle_lt_dec y 0) as [L|L].
    + rewrite ext_neg by exact L. rewrite Rminus_0_r, Rabs_R0. exact He.
    + rewrite ext_pos by exact L. apply K. apply Rabs_def2 in Hy. lra.
  - destruct (proj1 (cont_at f x) (Hc x H) e He) as (d & Hd & K). exists (Rmin d x). pose proof (Rmin_l d x). pose proof (Rmin_r d x).
    split; [apply Rmin_pos; assumption|]. intros y Hy. assert (0 < y) by (apply Rabs_def2 in Hy; lra). rewrite !ext_pos by assumption. apply K. lra.
Qed.
Definition eint (x : R) (h : 0 <= x) : Riemann_integrable ext 0 x := continuity_implies_RiemannInt h (fun t _ => ext_cont t).
Definition Fe (x : R) : R := match Rle_dec 0 x with left h => RiemannInt (eint x h) | right _ => 0 end.
Lemma Fe_derivative : forall x, 0 < x -> derivable_pt_lim Fe x (f x).
Proof.
  intros x Hx. rewrite <- (ext_pos x Hx). assert (h : 0 <= x + 1) by lra.
  pose proof (RiemannInt_P28 h (fun t _ => ext_cont t) (conj (Rlt_le _ _ Hx) (Rlt_le _ _ (Rlt_plus_1 x)))) as D.
  intros e He. destruct (D e He) as (del & H). assert (P : 0 < Rmin del (Rmin x 1)) by (apply Rmin_pos; [apply (cond_pos del)|apply Rmin_pos; lra]).
  exists (mkposreal _ P). intros k Hk Hs. cbn in Hs. pose proof (Rmin_l del (Rmin x 1)). pose proof (Rmin_r del (Rmin x 1)). pose proof (Rmin_l x 1). pose proof (Rmin_r x 1).
  assert (K : - x < k < 1) by (apply Rabs_def2 in Hs; lra).
  assert (E : forall t, 0 < t < x + 1 -> Fe t = primitive h (FTC_P1 h (fun t _ => ext_cont t)) t).
  { intros t Ht. unfold Fe, primitive. destruct (Rle_dec 0 t); [|lra]. destruct (Rle_dec t (x + 1)); [|lra]. apply RiemannInt_P5. }
  rewrite !E by lra. apply H; [exact Hk|lra].
Qed.
Lemma Fe_0 : lim0 Fe 0.
Proof.
  assert (h : 0 <= 1) by lra. pose proof (RiemannInt_P28 h (fun t _ => ext_cont t) (conj (Rle_refl 0) h)) as D.
  set (P := primitive h (FTC_P1 h (fun t _ => ext_cont t))) in *.
  assert (P0 : P 0 = 0).
  { unfold P, primitive. destruct (Rle_dec 0 0); [|lra]. destruct (Rle_dec 0 1); [|lra]. apply RiemannInt_P9. }
  rewrite (ext_neg 0 (Rle_refl 0)) in D.
  intros e He. destruct (D e He) as (del & H). exists (Rmin del 1). pose proof (cond_pos del). split; [apply Rmin_pos; lra|].
  intros x [Hx1 Hx2]. pose proof (Rmin_l del 1). pose proof (Rmin_r del 1).
  assert (E : Fe x = P x). { unfold Fe, P, primitive. destruct (Rle_dec 0 x); [|lra]. destruct (Rle_dec x 1); [|lra]. apply RiemannInt_P5. }
  assert (B : Rabs ((P (0 + x) - P 0) / x - 0) < e) by (apply H; [lra|rewrite Rabs_right; lra]).
  rewrite Rplus_0_l, P0, !Rminus_0_r in B. rewrite E, Rminus_0_r. unfold Rdiv in B. rewrite Rabs_mult, Rabs_inv, (Rabs_right x) in B by lra.
  apply (Rmult_lt_compat_r x) in B; [|lra]. rewrite Rmult_assoc, Rinv_l, Rmult_1_r in B by lra. nra.
Qed.
(** beyond A the function lies between -1/r^2 and 1/r^2 *)
Lemma tail : exists A, 0 < A /\ forall x, A < x -> - / (x * x) < f x < / (x * x).
Proof.
  destruct (Hi 1 Rlt_0_1) as (A & HA & K). exists A. split; [exact HA|]. intros x Hx. specialize (K x Hx). rewrite Rminus_0_r in K. apply Rabs_def2 in K.
  assert (P : 0 < / (x * x)) by (apply Rinv_0_lt_compat; nra). assert (E : x * x * / (x * x) = 1) by (field; lra). nra.
Qed.
Lemma d_neginv : forall x, 0 < x -> derivable_pt_lim (fun t => - (1 / t)) x (/ (x * x)).
Proof.
  intros x Hx. replace (/ (x * x)) with (- ((0 * id x - 1 * (fct_cte 1 x)) / Rsqr (id x))) by (unfold id, fct_cte, Rsqr; field; lra).
  apply (derivable_pt_lim_opp (fun t => fct_cte 1 t / id t)). apply (derivable_pt_lim_div (fct_cte 1) id); [apply derivable_pt_lim_const|apply derivable_pt_lim_id|unfold id; lra].
Qed.
Lemma integrable_decay : exists v, integral f v.
Proof.
  destruct tail as (A & HA & T).
  (* G x = F x - 1/x increases and is bounded beyond A *)
  set (G := fun x => Fe x + - (1 / x)).
  assert (DG : forall x, 0 < x -> derivable_pt_lim G x (f x + / (x * x))).
  { intros x Hx. apply (derivable_pt_lim_plus Fe (fun t => - (1 / t))); [apply Fe_derivative|apply d_neginv]; exact Hx. }
  assert (Inc : forall x y, A < x -> x < y -> G x < G y).
  { intros x y Hx Hy. destruct (MVT_cor2 G (fun t => f t + / (t * t)) x y Hy) as (c & E & Hcc); [intros c Hcc; apply DG; lra|]. destruct (T c ltac:(lra)). nra. }
  set (H := fun x => Fe x + (1 / x)).
  assert (Dec : forall x y, A < x -> x < y -> H y < H x).
  { intros x y Hx Hy. destruct (MVT_cor2 H (fun t => f t + - / (t * t)) x y Hy) as (c & E & Hcc).
    - intros c Hcc. apply (derivable_pt_lim_plus Fe (fun t => 1 / t)); [apply Fe_derivative; lra|].
      pose proof (derivable_pt_lim_opp _ _ _ (d_neginv c ltac:(lra))) as D. intros e He. destruct (D e He) as (d & K). exists d. intros k Hk Hk2. specialize (K k Hk Hk2).
      unfold opp_fct in K. rewrite !Ropp_involutive in K. exact K.
    - destruct (T c ltac:(lra)). nra. }
  set (U := fun n => G (INR n + (A + 1))).
  assert (GU : Un_growing U). { intros n. unfold U. rewrite S_INR. pose proof (pos_INR n). left. apply Inc; lra. }
  assert (BU : bound (EUn U)).
  { exists (H (A + 1)). intros y (n & ->). unfold U. pose proof (pos_INR n). assert (P : 0 < 1 / (INR n + (A + 1))) by (apply Rdiv_lt_0_compat; lra).
    assert (Q : H (INR n + (A + 1)) <= H (A + 1)).
    { destruct (Req_dec (INR n) 0) as [Z|Z]; [rewrite Z, Rplus_0_l; lra|]. left. apply Dec; lra. }
    unfold H in Q at 1. unfold G. lra. }
  destruct (Un_cv_crit U GU BU) as (v & CV). exists v. exists Fe. split; [apply Fe_derivative|]. split; [apply Fe_0|].
  intros e He. destruct (CV (e / 2) ltac:(lra)) as (N & K). exists (Rmax (INR N + (A + 1)) (2 / e)). pose proof (Rmax_l (INR N + (A + 1)) (2 / e)). pose proof (Rmax_r (INR N + (A + 1)) (2 / e)).
  pose proof (pos_INR N). split; [lra|]. intros x Hx.
  assert (M : exists m, x < INR m).
  { destruct (archimed x) as [Q _]. exists (Z.to_nat (up x)). rewrite INR_IZR_INZ, Z2Nat.id; [lra|]. apply le_IZR. lra. }
  destruct M as (m & Hm).
  pose proof (K N ltac:(lia)) as KN. unfold R_dist in KN. apply Rabs_def2 in KN. unfold U in KN.
  pose proof (Inc (INR N + (A + 1)) x ltac:(lra) ltac:(lra)).
  assert (G x <= v).
  { pose proof (growing_ineq U v GU CV m) as L. unfold U in L. pose proof (pos_INR m). pose proof (Inc x (INR m + (A + 1)) ltac:(lra) ltac:(lra)). lra. }
  assert (P : 0 < 1 / x < e / 2).
  { split; [apply Rdiv_lt_0_compat; lra|]. assert (E : 2 / e < x) by lra. apply (Rmult_lt_compat_r e) in E; [|exact He]. unfold Rdiv in E at 1. rewrite Rmult_assoc, Rinv_l in E by lra.
    apply (Rmult_lt_reg_r x); [lra|]. unfold Rdiv at 1. rewrite Rmult_assoc, Rinv_l by lra. lra. }
  unfold G in *. apply Rabs_def1; lra.
Qed.
End Decay.
