(** The radial integrals of the chiral operators exist and are those of the functions of z which the programs integrate. *)
From Coq Require Import List ZArith Reals Bool Lra Lia.
From Verif Require Import Base LenModel WfModel WfSpec WfLag WfInt WfProof WfOsc WfEl WfSqr WfMesh WfGrid LenSpec LenInt.
Import ListNotations.
Open Scope R_scope.

(** * decaying functions *)
Definition decaying (h : R -> R) : Prop := (forall r, 0 < r -> continuity_pt h r) /\ lim0 h 0 /\ liminf (fun r => r * r * h r) 0.
Lemma on_mesh_in : forall c h z, 0 < z < 1 -> on_mesh c h z = h (Tz c z) * Jz c z.
Proof. intros c h z Hz. unfold on_mesh, Tz, Jz. destruct (Rlt_dec 0 z); [|lra]. destruct (Rlt_dec z 1); [|lra]. f_equal. field. lra. Qed.
Lemma on_mesh_0 : forall c h, on_mesh c h 0 = 0.
Proof. intros. unfold on_mesh. destruct (Rlt_dec 0 0); [lra|reflexivity]. Qed.
Lemma on_mesh_1 : forall c h, on_mesh c h 1 = 0.
Proof. intros. unfold on_mesh. destruct (Rlt_dec 0 1); [|reflexivity]. destruct (Rlt_dec 1 1); [lra|reflexivity]. Qed.
Lemma jz_tz : forall c z, 0 < c -> z < 1 -> Jz c z = (c + Tz c z) * (c + Tz c z) / c.
Proof. intros c z Hc Hz. unfold Jz, Tz. field. lra. Qed.
Lemma decaying_mesh : forall c h, 0 < c -> decaying h -> mesh_correct c h.
Proof.
  intros c h Hc (C & Z & I). split; [|split; [|split; [apply on_mesh_0|split; [apply on_mesh_1|]]]].
  - intros e He. assert (P : 0 < e / (4 * c)) by (apply Rdiv_lt_0_compat; lra). destruct (Z (e / (4 * c)) P) as (d & Hd & K).
    destruct (Tz_lim0 c (Rmin d c) Hc (Rmin_pos _ _ Hd Hc)) as (q & Hq & Hq2 & T). exists q. split; [exact Hq|]. intros z Hz.
    destruct (T z Hz) as [T1 T2]. pose proof (Rmin_l d c). pose proof (Rmin_r d c). specialize (K (Tz c z) ltac:(lra)). rewrite Rminus_0_r in K.
    rewrite on_mesh_in by lra. rewrite jz_tz by lra. rewrite Rminus_0_r. set (r := Tz c z) in *.
    replace (h r * ((c + r) * (c + r) / c)) with (h r * ((c + r) * (c + r)) / c) by (field; lra). unfold Rdiv. rewrite !Rabs_mult, (Rabs_right (c + r)), (Rabs_right (/ c)).
    2:{ left. apply Rinv_0_lt_compat. exact Hc. } 2: lra.
    pose proof (Rabs_pos (h r)). assert ((c + r) * (c + r) <= 4 * c * c) by nra.
    apply Rle_lt_trans with (Rabs (h r) * (4 * c * c) * / c). { apply Rmult_le_compat_r; [left; apply Rinv_0_lt_compat; exact Hc|]. apply Rmult_le_compat_l; assumption. }
    replace (Rabs (h r) * (4 * c * c) * / c) with (Rabs (h r) * (4 * c)) by (field; lra).
    apply (Rmult_lt_compat_r (4 * c)) in K; [|lra]. replace (e / (4 * c) * (4 * c)) with e in K by (field; lra). exact K.
  - intros e He. assert (P : 0 < e / ((c + 1) * (c + 1) / c)) by (apply Rdiv_lt_0_compat; [lra|apply Rdiv_lt_0_compat; nra]).
    destruct (I _ P) as (A & HA & K). assert (HA1 : 0 < Rmax A 1) by (pose proof (Rmax_r A 1); lra). destruct (Tz_lim1 c (Rmax A 1) Hc HA1) as (q & Hq & Hq2 & T).
    exists q. split; [exact Hq|]. intros z Hz. specialize (T z Hz). pose proof (Rmax_l A 1). pose proof (Rmax_r A 1). specialize (K (Tz c z) ltac:(lra)). rewrite Rminus_0_r in K.
    rewrite on_mesh_in by lra. rewrite jz_tz by lra. rewrite Rminus_0_r. set (r := Tz c z) in *.
    replace (h r * ((c + r) * (c + r) / c)) with (r * r * h r * ((c + r) / r * ((c + r) / r) / c)) by (field; lra).
    assert (B : 0 < (c + r) / r <= c + 1). { split; [apply Rdiv_lt_0_compat; lra|]. apply (Rmult_le_reg_r r); [lra|]. unfold Rdiv. rewrite Rmult_assoc, Rinv_l by lra. nra. }
    assert (Pc : 0 < / c) by (apply Rinv_0_lt_compat; exact Hc).
    rewrite Rabs_mult, (Rabs_right ((c + r) / r * ((c + r) / r) / c)) by (left; apply Rdiv_lt_0_compat; nra). pose proof (Rabs_pos (r * r * h r)).
    apply Rle_lt_trans with (Rabs (r * r * h r) * ((c + 1) * (c + 1) / c)). { apply Rmult_le_compat_l; [assumption|]. apply Rmult_le_compat_r; [lra|]. nra. }
    apply (Rmult_lt_compat_r ((c + 1) * (c + 1) / c)) in K; [|apply Rdiv_lt_0_compat; nra].
    replace (e / ((c + 1) * (c + 1) / c) * ((c + 1) * (c + 1) / c)) with e in K by (field; split; nra). exact K.
  - destruct (integrable_decay h C Z I) as (v & V). exists v. split; [exact V|]. pose proof (proj1 (mesh_integral h c v Hc) V) as (F & D & F0 & F1).
    exists F. split; [|split; assumption]. intros z Hz. rewrite on_mesh_in by exact Hz. apply D, Hz.
Qed.
(** * oscillator functions *)
Lemma ce : forall f g x, (forall t, f t = g t) -> continuity_pt f x -> continuity_pt g x.
Proof. intros f g x E H. apply cont_at. intros e He. destruct (proj1 (cont_at f x) H e He) as (d & Hd & K). exists d. split; [exact Hd|]. intros y Hy. rewrite <- !E. apply K, Hy. Qed.
Lemma cm : forall f g x, continuity_pt f x -> continuity_pt g x -> continuity_pt (fun t => f t * g t) x.
Proof. intros f g x. apply continuity_pt_mult. Qed.
Lemma cp : forall f g x, continuity_pt f x -> continuity_pt g x -> continuity_pt (fun t => f t + g t) x.
Proof. intros f g x. apply continuity_pt_plus. Qed.
Lemma cc : forall c x, continuity_pt (fun _ => c) x.
Proof. intros c x. apply continuity_pt_const. intros a b. reflexivity. Qed.
Lemma ci : forall x, continuity_pt (fun t => t) x.
Proof. intros x. apply derivable_continuous_pt. exists 1. apply derivable_pt_lim_id. Qed.
Lemma cpow : forall f n x, continuity_pt f x -> continuity_pt (fun t => f t ^ n) x.
Proof. intros f n x H. induction n as [|n IH]; [exact (cc 1 x)|]. cbn [pow]. apply (cm f (fun t => f t ^ n)); assumption. Qed.
Lemma cexp : forall f x, continuity_pt f x -> continuity_pt (fun t => exp (f t)) x.
Proof. intros f x H. apply (continuity_pt_comp f exp); [exact H|]. apply derivable_continuous_pt, derivable_pt_exp. Qed.
Lemma cinv : forall f x, continuity_pt f x -> f x <> 0 -> continuity_pt (fun t => / f t) x.
Proof. intros f x H Hn. apply (continuity_pt_inv f); assumption. Qed.
Lemma csum : forall (f : nat -> R -> R) n x, (forall k, continuity_pt (f k) x) -> continuity_pt (fun t => sum_f_R0 (fun k => f k t) n) x.
Proof. intros f n x H. induction n as [|n IH]; cbn [sum_f_R0]; [apply H|]. apply cp; [exact IH|apply H]. Qed.
(** osc r = r^(l+1) times a continuous function *)
Definition oscd (g : R) (n l : nat) (b r : R) : R :=
  sqrt (2 * INR (fact n) / (b * (g * poch (INR l + 3 / 2) n))) * ((/ b) ^ (l + 1) * exp (- ((r / b) * (r / b)) / 2) * lag (INR l + 1 / 2) n ((r / b) * (r / b))).
Lemma osc_oscd : forall g n l b r, osc g n l b r = r ^ (l + 1) * oscd g n l b r.
Proof. intros. unfold osc, oscd, Rdiv. rewrite !Rpow_mult_distr. ring. Qed.
Lemma oscd_cont : forall g n l b x, continuity_pt (oscd g n l b) x.
Proof.
  intros g n l b x. unfold oscd. apply cm; [apply cc|].
  assert (S : continuity_pt (fun t => t / b * (t / b)) x) by (apply cm; apply cm; try apply cc; apply ci).
  apply cm; [apply cm; [apply cc|]|].
  - apply cexp. apply (ce (fun t => - / 2 * (t / b * (t / b)))); [intros; unfold Rdiv; ring|]. apply cm; [apply cc|exact S].
  - unfold lag. apply (csum (fun k t => lagc (INR l + 1 / 2) n k * (t / b * (t / b)) ^ k)). intros k. apply cm; [apply cc|apply cpow, S].
Qed.
Lemma osc_cont : forall g n l b x, continuity_pt (osc g n l b) x.
Proof. intros. apply (ce (fun r => r ^ (l + 1) * oscd g n l b r)); [intros; symmetry; apply osc_oscd|]. apply cm; [apply cpow, ci|apply oscd_cont]. Qed.
(** continuous functions that vanish at 0 *)
Lemma lim0_cont : forall F x, continuity_pt F 0 -> F 0 = x -> lim0 F x.
Proof.
  intros F x H E e He. destruct (proj1 (cont_at F 0) H e He) as (d & Hd & K). exists d. split; [exact Hd|]. intros r Hr. rewrite <- E. apply K. rewrite Rminus_0_r, Rabs_right; lra.
Qed.
Lemma lim0_squeeze : forall F G, (forall r, 0 < r -> Rabs (F r) <= Rabs (G r)) -> lim0 G 0 -> lim0 F 0.
Proof.
  intros F G H HG e He. destruct (HG e He) as (d & Hd & K). exists d. split; [exact Hd|]. intros r Hr. specialize (K r Hr). rewrite Rminus_0_r in *. pose proof (H r ltac:(lra)). lra.
Qed.
Lemma liminf_squeeze : forall F G c, (forall r, 1 < r -> Rabs (F r) <= c * Rabs (G r)) -> liminf G 0 -> liminf F 0.
Proof.
  intros F G c H HG e He. assert (Pc : 0 < Rabs c + 1) by (pose proof (Rabs_pos c); lra). destruct (HG (e / (Rabs c + 1)) (Rdiv_lt_0_compat _ _ He Pc)) as (A & HA & K). exists (Rmax A 1).
  pose proof (Rmax_l A 1). pose proof (Rmax_r A 1). split; [lra|]. intros r Hr. specialize (K r ltac:(lra)). specialize (H r ltac:(lra)). rewrite Rminus_0_r in *.
  apply (Rmult_lt_compat_r (Rabs c + 1)) in K; [|exact Pc]. replace (e / (Rabs c + 1) * (Rabs c + 1)) with e in K by (field; lra).
  pose proof (Rle_abs c). pose proof (Rabs_pos (G r)). nra.
Qed.
(** * regulators *)
Lemma arg_cont : forall q x, continuity_pt (fun r => - (r * r) / q) x.
Proof. intros q x. unfold Rdiv. apply cm; [|apply cc]. apply (ce (fun t => -1 * (t * t))); [intros; ring|]. apply cm; [apply cc|apply cm; apply ci]. Qed.
Lemma regulator_cont : forall range x, continuity_pt (regulator range) x.
Proof.
  intros range x. unfold regulator. destruct (Req_EM_T range 0); [apply cc|]. apply (cpow (fun r => 1 - exp (- (r * r) / (range * range)))).
  apply (ce (fun r => 1 + -1 * exp (- (r * r) / (range * range)))); [intros; ring|]. apply cp; [apply cc|]. apply cm; [apply cc|apply cexp, arg_cont].
Qed.
Lemma smeared_cont : forall range x, continuity_pt (smeared range) x.
Proof. intros range x. unfold smeared, Rdiv at 1. apply cm; [apply cexp, arg_cont|apply cc]. Qed.
Lemma base_bounds : forall range r, range <> 0 -> 0 <= 1 - exp (- (r * r) / (range * range)) <= r * r / (range * range) /\ 1 - exp (- (r * r) / (range * range)) <= 1.
Proof.
  intros range r Hn. assert (Q : 0 < range * range) by nra. assert (P : 0 <= r * r / (range * range)) by (apply Rmult_le_pos; [nra|left; apply Rinv_0_lt_compat; exact Q]).
  replace (- (r * r) / (range * range)) with (- (r * r / (range * range))) by (field; exact Hn). set (t := r * r / (range * range)) in *.
  pose proof (exp_pos (- t)). pose proof (exp_ineq1_le (- t)). split; [split|lra]; [|lra].
  assert (exp (- t) <= exp 0) by (destruct P as [P|P]; [left; apply exp_increasing; lra|rewrite <- P, Ropp_0; lra]). rewrite exp_0 in *. lra.
Qed.
Lemma regulator_01 : forall range r, 0 <= regulator range r <= 1.
Proof.
  intros range r. unfold regulator. destruct (Req_EM_T range 0) as [|Hn]; [lra|]. destruct (base_bounds range r Hn) as [[H _] H1]. split; [apply pow_le, H|].
  rewrite <- (pow1 6). apply pow_incr. lra.
Qed.
Lemma regulator_small : forall range r, range <> 0 -> regulator range r <= r * r / (range * range).
Proof.
  intros range r Hn. unfold regulator. destruct (Req_EM_T range 0) as [|_]; [contradiction|]. destruct (base_bounds range r Hn) as [[H H2] H1]. set (x := 1 - exp _) in *.
  change (x * x ^ 5 <= r * r / (range * range)). assert (x ^ 5 <= 1) by (rewrite <- (pow1 5); apply pow_incr; lra). pose proof (pow_le x 5 H). nra.
Qed.
Lemma regulator_0 : forall range, range <> 0 -> regulator range 0 = 0.
Proof.
  intros range Hn. unfold regulator. destruct (Req_EM_T range 0) as [|_]; [contradiction|]. replace (- (0 * 0) / (range * range)) with 0 by (field; exact Hn). rewrite exp_0. ring.
Qed.
(** * integrands *)
Section Integrands.
Variables (M range : R).
Hypothesis HM : 0 < M.
Variables (g g' : R) (n n' l l' : nat) (b : R).
Hypotheses (Hg : 0 < g) (Hg' : 0 < g') (Hb : 0 < b).
Let f := osc g n l b.
Let f' := osc g' n' l' b.
Lemma cexpM : forall x, continuity_pt (fun r => exp (- (M * r))) x.
Proof. intros x. apply cexp. apply (ce (fun t => - M * t)); [intros; ring|]. apply cm; [apply cc|apply ci]. Qed.
Lemma exp_01 : forall r, 0 < r -> 0 < exp (- (M * r)) <= 1.
Proof. intros r Hr. split; [apply exp_pos|]. rewrite <- exp_0. left. apply exp_increasing. assert (0 < M * r) by (apply Rmult_lt_0_compat; assumption). lra. Qed.
Lemma ff_inf : liminf (fun r => r ^ 2 * f r * (r ^ 0 * f' r)) 0.
Proof. apply liminf_mult0; apply osc_inf; assumption. Qed.
Lemma yukawa_decaying : forall k, (k <= 2)%nat -> range <> 0 \/ (k < 2)%nat \/ (0 < l + l')%nat -> decaying (yukawa k M range f f').
Proof.
  intros k Hk Hcase. split; [|split].
  - intros r Hr. unfold yukawa. apply cm; [apply cm; [apply cm|apply regulator_cont]|apply osc_cont]; [apply osc_cont|]. unfold Rdiv. apply cm; [apply cexpM|].
    apply (cinv (fun r => r ^ k)); [apply cpow, ci|apply pow_nonzero; lra].
  - apply (lim0_ext (fun r => r ^ (2 - k) * r ^ (l + l') * (oscd g n l b r * exp (- (M * r)) * regulator range r * oscd g' n' l' b r))).
    + intros r Hr. unfold yukawa, f, f'. rewrite !osc_oscd. assert (E : r ^ (l + 1) * r ^ (l' + 1) = r ^ k * (r ^ (2 - k) * r ^ (l + l'))) by (rewrite <- !pow_add; f_equal; lia).
      transitivity (r ^ k * (r ^ (2 - k) * r ^ (l + l')) * (oscd g n l b r * exp (- (M * r)) * regulator range r * oscd g' n' l' b r) * / r ^ k); [field; apply pow_nonzero; lra|].
      rewrite <- E. unfold Rdiv. ring.
    + apply lim0_cont.
      * apply cm; [apply cm; apply cpow, ci|]. apply cm; [apply cm; [apply cm; [apply oscd_cont|apply cexpM]|apply regulator_cont]|apply oscd_cont].
      * destruct Hcase as [H|[H|H]]; [rewrite regulator_0 by exact H; ring| |]; [rewrite (pow_i (2 - k)) by lia; ring|rewrite (pow_i (l + l')) by lia; ring].
  - apply (liminf_squeeze _ (fun r => r ^ 2 * f r * (r ^ 0 * f' r)) 1); [|exact ff_inf]. intros r Hr. unfold yukawa. rewrite pow_O, Rmult_1_l, Rmult_1_l.
    replace (r * r * (f r * (exp (- (M * r)) / r ^ k) * regulator range r * f' r)) with (r ^ 2 * f r * f' r * (exp (- (M * r)) / r ^ k * regulator range r)) by (cbn [pow]; ring).
    rewrite (Rabs_mult (r ^ 2 * f r * f' r)). rewrite <- (Rmult_1_r (Rabs (r ^ 2 * f r * f' r))) at 2. apply Rmult_le_compat_l; [apply Rabs_pos|].
    destruct (exp_01 r ltac:(lra)). destruct (regulator_01 range r). assert (0 < / r ^ k <= 1).
    { assert (1 <= r ^ k) by (apply pow_R1_Rle; lra). split; [apply Rinv_0_lt_compat; lra|]. rewrite <- Rinv_1. apply Rinv_le_contravar; lra. }
    unfold Rdiv. rewrite Rabs_right by (apply Rle_ge, Rmult_le_pos; [apply Rmult_le_pos; lra|lra]).
    assert (exp (- (M * r)) * / r ^ k <= 1) by nra. assert (0 <= exp (- (M * r)) * / r ^ k) by nra. nra.
Qed.
Lemma tensor_decaying : range <> 0 -> decaying (tensor_yukawa M range f f').
Proof.
  intros Hn. assert (Hq : 0 < range * range) by nra. split; [|split].
  - intros r Hr. assert (Hm : 0 < M * r) by (apply Rmult_lt_0_compat; assumption).
    unfold tensor_yukawa. apply cm; [apply cm; [apply cm|apply regulator_cont]|apply osc_cont]; [apply osc_cont|]. apply cm; [unfold Rdiv; apply cm; [apply cexpM|apply (cinv (fun r => r)); [apply ci|lra]]|].
    apply cp; [apply cc|]. unfold Rdiv. apply cm; [apply cm; [apply cc|apply cp; [apply cc|apply cm; [apply cc|apply ci]]]|].
    apply (cinv (fun r => (M * r) ^ 2)); [apply cpow, cm; [apply cc|apply ci]|apply pow_nonzero; lra].
  - apply (lim0_squeeze _ (fun r => r * (r ^ (l + l') * oscd g n l b r * exp (- (M * r)) * ((M * r) ^ 2 + 3 * (1 + M * r)) * oscd g' n' l' b r * / (M * M * (range * range))))).
    + intros r Hr. assert (Hm : 0 < M * r) by (apply Rmult_lt_0_compat; assumption). unfold tensor_yukawa, f, f'. rewrite !osc_oscd.
      assert (E : r ^ (l + 1) * r ^ (l' + 1) = r * r * r ^ (l + l')) by (replace (r * r) with (r ^ 2) by (cbn; ring); rewrite <- !pow_add; f_equal; lia).
      set (p := r ^ (l + l') * oscd g n l b r * exp (- (M * r)) * ((M * r) ^ 2 + 3 * (1 + M * r)) * oscd g' n' l' b r * / (M * M)).
      replace (r ^ (l + 1) * oscd g n l b r * (exp (- (M * r)) / r * (1 + 3 * (1 + M * r) / (M * r) ^ 2)) * regulator range r * (r ^ (l' + 1) * oscd g' n' l' b r)) with (p * (/ r * regulator range r)).
      2:{ transitivity ((r ^ (l + 1) * r ^ (l' + 1)) * (oscd g n l b r * (exp (- (M * r)) / r * (1 + 3 * (1 + M * r) / (M * r) ^ 2)) * regulator range r * oscd g' n' l' b r)); [|ring].
          rewrite E. unfold p. field. split; lra. }
      replace (r * (r ^ (l + l') * oscd g n l b r * exp (- (M * r)) * ((M * r) ^ 2 + 3 * (1 + M * r)) * oscd g' n' l' b r * / (M * M * (range * range)))) with (p * (/ r * (r * r / (range * range)))) by (unfold p; field; repeat split; lra).
      rewrite !(Rabs_mult p). apply Rmult_le_compat_l; [apply Rabs_pos|]. destruct (regulator_01 range r). pose proof (regulator_small range r Hn). assert (0 < / r) by (apply Rinv_0_lt_compat; lra).
      rewrite !Rabs_right by (apply Rle_ge, Rmult_le_pos; lra). apply Rmult_le_compat_l; lra.
    + apply lim0_cont; [|ring]. apply cm; [apply ci|]. apply cm; [|apply cc]. apply cm; [|apply oscd_cont]. apply cm; [apply cm; [apply cm; [apply cpow, ci|apply oscd_cont]|apply cexpM]|].
      apply cp; [apply cpow, cm; [apply cc|apply ci]|apply cm; [apply cc|apply cp; [apply cc|apply cm; [apply cc|apply ci]]]].
  - apply (liminf_squeeze _ (fun r => r ^ 2 * f r * (r ^ 0 * f' r)) (1 + 3 * (/ (M * M) + / M))); [|exact ff_inf]. intros r Hr. unfold tensor_yukawa. rewrite pow_O, Rmult_1_l.
    assert (Hm : 0 < M * r) by (apply Rmult_lt_0_compat; lra). assert (Hm1 : 0 < / M) by (apply Rinv_0_lt_compat; exact HM). assert (Hm2 : 0 < / (M * M)) by (apply Rinv_0_lt_compat; nra).
    replace (r * r * (f r * (exp (- (M * r)) / r * (1 + 3 * (1 + M * r) / (M * r) ^ 2)) * regulator range r * f' r))
      with ((1 + 3 * (1 + M * r) / (M * r) ^ 2) * (exp (- (M * r)) / r * regulator range r) * (r ^ 2 * f r * f' r)) by (cbn [pow]; ring).
    rewrite (Rabs_mult _ (r ^ 2 * f r * f' r)). apply Rmult_le_compat_r; [apply Rabs_pos|].
    destruct (exp_01 r ltac:(lra)). destruct (regulator_01 range r). assert (Hr1 : 0 < / r <= 1) by (split; [apply Rinv_0_lt_compat; lra|rewrite <- Rinv_1; apply Rinv_le_contravar; lra]).
    assert (A : 0 <= exp (- (M * r)) / r * regulator range r <= 1).
    { unfold Rdiv. assert (0 <= exp (- (M * r)) * / r <= 1) by nra. nra. }
    assert (B : 0 <= 1 + 3 * (1 + M * r) / (M * r) ^ 2 <= 1 + 3 * (/ (M * M) + / M)).
    { replace (3 * (1 + M * r) / (M * r) ^ 2) with (3 * (/ (M * M) * (/ r * / r) + / M * / r)) by (field; lra).
      assert (0 <= / r * / r <= 1) by nra. assert (0 <= / (M * M) * (/ r * / r) <= / (M * M)) by nra. assert (0 <= / M * / r <= / M) by nra. lra. }
    rewrite Rabs_right by (apply Rle_ge, Rmult_le_pos; lra). nra.
Qed.
Lemma contact_decaying : range <> 0 -> decaying (with_contact range f).
Proof.
  intros Hn. assert (Hq : 0 < range * range) by nra. split; [|split].
  - intros r Hr. unfold with_contact. apply cm; [apply osc_cont|apply smeared_cont].
  - apply lim0_cont; [unfold with_contact; apply cm; [apply osc_cont|apply smeared_cont]|]. unfold with_contact, f. rewrite osc_oscd, (pow_i (l + 1)) by lia. ring.
  - apply (liminf_squeeze _ (fun r => r ^ 2 * f r) (/ sqrt (PI * (range * range)) ^ 3)); [|exact (osc_inf g n l b 2 Hb Hg)]. intros r Hr. unfold with_contact, smeared. fold f.
    assert (P : 0 < sqrt (PI * (range * range)) ^ 3) by (apply pow_lt, sqrt_lt_R0, Rmult_lt_0_compat; [apply PI_RGT_0|exact Hq]). set (s := sqrt _ ^ 3) in *.
    replace (r * r * (f r * (exp (- (r * r) / (range * range)) / s))) with ((exp (- (r * r) / (range * range)) * / s) * (r ^ 2 * f r)) by (cbn [pow]; field; lra).
    rewrite Rabs_mult. apply Rmult_le_compat_r; [apply Rabs_pos|]. destruct (base_bounds range r Hn) as [_ H1]. destruct (base_bounds range r Hn) as [[H0 _] _].
    assert (0 < / s) by (apply Rinv_0_lt_compat; exact P). rewrite Rabs_right by (apply Rle_ge, Rmult_le_pos; lra). nra.
Qed.
End Integrands.
