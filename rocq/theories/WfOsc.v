(** Orthonormality of the oscillator functions, ladder relations, and the analytic elements of radial_oscillator_me.h as
    integrals. *)
From Coq Require Import List ZArith Reals Bool Lra Lia.
From Verif Require Import Base WfModel WfSpec WfLag WfInt WfProof.
From Verif Require OscModel.
Import ListNotations.
Open Scope R_scope.

(** * orthonormality *)
Lemma orthonormal1 : forall l g n m, gamma_value l g -> integral (fun x => osc g n l 1 x * osc g m l 1 x) (delta n m).
Proof.
  intros l g n m H. pose proof (gamma_pos l g H) as Hg. pose proof (orthogonality l g n m H) as O. unfold ortho in O.
  apply (integral_scal (cn g l 1 n * cn g l 1 m / 2)) in O. unfold delta.
  eapply integral_val; [|eapply integral_ext; [|exact O]].
  - destruct (Nat.eqb_spec n m) as [E|E]; [subst m|ring]. unfold lag_norm, cn. rewrite sqrt_sqrt by (left; apply cn_arg; lra).
    replace (INR l + 1 / 2 + 1) with (INR l + 3 / 2) by field. pose proof (fact_pos n). pose proof (poch_pos n _ (l32 l)). field. repeat split; lra.
  - intros x Hx. cbn beta. unfold osc, weight. replace (x / 1) with x by field.
    fold (cn g l 1 n). fold (cn g l 1 m).
    replace (x ^ (2 * l + 2)) with (x ^ (l + 1) * x ^ (l + 1)) by (rewrite <- pow_add; f_equal; lia).
    replace (exp (- (x * x))) with (exp (- (x * x) / 2) * exp (- (x * x) / 2)) by (rewrite <- exp_plus; f_equal; field). field.
Qed.
Lemma osc_length : forall g n l b r, 0 < b -> 0 < g -> osc g n l b r = osc g n l 1 (r / b) / sqrt b.
Proof.
  intros g n l b r Hb Hg. unfold osc. replace (r / b / 1) with (r / b) by (field; lra).
  replace (2 * INR (fact n) / (b * (g * poch (INR l + 3 / 2) n))) with (2 * INR (fact n) / (1 * (g * poch (INR l + 3 / 2) n)) * / b).
  - rewrite sqrt_mult; [|left; apply cn_arg; lra|left; apply Rinv_0_lt_compat; exact Hb]. rewrite sqrt_inv. unfold Rdiv. ring.
  - pose proof (poch_pos n _ (l32 l)). field. repeat split; lra.
Qed.
(** an element found in units of length, at length b *)
Lemma element_length : forall g m l b f v, 0 < b -> 0 < g -> integral (fun x => osc g m l 1 x * f x) v ->
  integral (fun r => osc g m l b r * (f (r / b) / sqrt b)) v.
Proof.
  intros g m l b f v Hb Hg H. apply (integral_length _ _ b Hb) in H. eapply integral_ext; [|exact H]. intros r _. cbn beta.
  rewrite (osc_length g m l b r) by assumption. assert (P : 0 < sqrt b) by (apply sqrt_lt_R0; exact Hb).
  assert (E : sqrt b * sqrt b = b) by (apply sqrt_sqrt; lra). set (q := sqrt b) in *.
  replace (osc g m l 1 (r / b) * f (r / b) / b) with (osc g m l 1 (r / b) * f (r / b) / (q * q)) by (rewrite E; reflexivity). field. lra.
Qed.
Lemma orthonormal : forall l g b n m, gamma_value l g -> 0 < b -> integral (fun r => osc g n l b r * osc g m l b r) (delta n m).
Proof.
  intros l g b n m H Hb. pose proof (gamma_pos l g H) as Hg.
  eapply integral_ext; [|exact (element_length g n l b (osc g m l 1) _ Hb Hg (orthonormal1 l g n m H))]. intros r _. cbn beta.
  rewrite (osc_length g m l b r) by assumption. reflexivity.
Qed.
Lemma combination2 : forall l g m a i b j, gamma_value l g ->
  integral (fun x => osc g m l 1 x * (a * osc g i l 1 x + b * osc g j l 1 x)) (a * delta m i + b * delta m j).
Proof.
  intros l g m a i b j H. pose proof (integral_plus _ _ _ _ (integral_scal a _ _ (orthonormal1 l g m i H)) (integral_scal b _ _ (orthonormal1 l g m j H))) as K.
  eapply integral_ext; [|exact K]. intros x _. cbn beta. ring.
Qed.
Lemma combination3 : forall l g m a i b j c k, gamma_value l g ->
  integral (fun x => osc g m l 1 x * (a * osc g i l 1 x + b * osc g j l 1 x + c * osc g k l 1 x)) (a * delta m i + b * delta m j + c * delta m k).
Proof.
  intros l g m a i b j c k H. pose proof (integral_plus _ _ _ _ (combination2 l g m a i b j H) (integral_scal c _ _ (orthonormal1 l g m k H))) as K.
  eapply integral_ext; [|exact K]. intros x _. cbn beta. ring.
Qed.

(** * ladder relations, in units of length *)
Definition lagm (a : R) (n : nat) (t : R) : R := match n with O => 0 | S k => lag a k t end.
Lemma lag_I1m : forall a n t, lag a n t = lag (a + 1) n t - lagm (a + 1) n t.
Proof. intros a [|n] t; cbn [lagm]; [rewrite !lag_0; ring|apply lag_I1]. Qed.
Lemma lag_derivative_m : forall a n t, derivable_pt_lim (lag a n) t (- lagm (a + 1) n t).
Proof. intros a [|n] t; cbn [lagm]; [rewrite Ropp_0; apply lag_derivative0|apply lag_derivative]. Qed.

(** derivative of the function *)
Definition dosc (g : R) (n l : nat) (x : R) : R :=
  cn g l 1 n * exp (- (x * x) / 2) * ((INR l + 1) * x ^ l * lag (INR l + 1 / 2) n (x * x) - x ^ (l + 2) * lag (INR l + 1 / 2) n (x * x)
    - 2 * x ^ (l + 2) * lagm (INR l + 3 / 2) n (x * x)).
Lemma d_square : forall x, derivable_pt_lim (fun t => t * t) x (2 * x).
Proof. intros x. replace (2 * x) with (1 * x + x * 1) by ring. apply (derivable_pt_lim_mult id id); apply derivable_pt_lim_id. Qed.
Lemma d_gauss : forall x, derivable_pt_lim (fun t => exp (- (t * t) / 2)) x (exp (- (x * x) / 2) * (- x)).
Proof.
  intros x. apply (derivable_pt_lim_comp (fun t => - (t * t) / 2) exp); [|apply derivable_pt_lim_exp].
  apply (derivable_pt_lim_ext (fun t => - / 2 * (t * t))); [intros t; field|]. replace (- x) with (- / 2 * (2 * x)) by field.
  apply (derivable_pt_lim_scal (fun t => t * t)), d_square.
Qed.
Lemma osc1 : forall g n l x, osc g n l 1 x = cn g l 1 n * (x ^ (l + 1) * exp (- (x * x) / 2) * lag (INR l + 1 / 2) n (x * x)).
Proof. intros g n l x. unfold osc, cn. replace (x / 1) with x by field. reflexivity. Qed.
Lemma osc_derivative : forall g n l x, derivable_pt_lim (osc g n l 1) x (dosc g n l x).
Proof.
  intros g n l x. apply (derivable_pt_lim_ext (fun x => cn g l 1 n * (x ^ (l + 1) * exp (- (x * x) / 2) * lag (INR l + 1 / 2) n (x * x)))); [intros t; symmetry; apply osc1|].
  set (a := INR l + 1 / 2).
  assert (D1 : derivable_pt_lim (fun x => x ^ (l + 1)) x (INR (l + 1) * x ^ pred (l + 1))) by apply derivable_pt_lim_pow.
  assert (D3 : derivable_pt_lim (fun x => lag a n (x * x)) x (- lagm (a + 1) n (x * x) * (2 * x))).
  { apply (derivable_pt_lim_comp (fun t => t * t) (lag a n)); [apply d_square|apply lag_derivative_m]. }
  pose proof (derivable_pt_lim_mult _ _ x _ _ (derivable_pt_lim_mult _ _ x _ _ D1 (d_gauss x)) D3) as D.
  apply (derivable_pt_lim_scal _ (cn g l 1 n)) in D. unfold mult_real_fct, mult_fct in D.
  replace (dosc g n l x) with (cn g l 1 n *
     ((INR (l + 1) * x ^ pred (l + 1) * exp (- (x * x) / 2) + x ^ (l + 1) * (exp (- (x * x) / 2) * - x)) * lag a n (x * x) +
      x ^ (l + 1) * exp (- (x * x) / 2) * (- lagm (a + 1) n (x * x) * (2 * x)))); [exact D|].
  unfold dosc. fold a. replace (INR l + 3 / 2) with (a + 1) by (unfold a; field). rewrite plus_INR. change (INR 1) with 1.
  replace (pred (l + 1)) with l by lia. rewrite !pow_add. cbn [pow]. ring.
Qed.

Section Ladder.
Variables (l : nat) (g : R).
Hypothesis Hg : 0 < g.
Let g' := (INR l + 3 / 2) * g.
Notation u n x := (osc g n l 1 x).
Notation u' n x := (osc g' n (S l) 1 x).
Definition An (n : nat) : R := INR n + INR l + 3 / 2.
Lemma An_pos : forall n, 0 < An n.
Proof. intros n. unfold An. pose proof (pos_INR n). pose proof (pos_INR l). lra. Qed.
Lemma g'_pos : 0 < g'.
Proof. apply Rmult_lt_0_compat; [apply l32|exact Hg]. Qed.
Lemma poch_next : forall n, (INR l + 3 / 2) * poch (INR (S l) + 3 / 2) n = poch (INR l + 3 / 2) n * An n.
Proof.
  intros n. rewrite S_INR. replace (INR l + 1 + 3 / 2) with (INR l + 3 / 2 + 1) by ring. rewrite <- poch_S_left. cbn [poch]. unfold An. ring.
Qed.
Lemma cn_up : forall n, cn g l 1 n = cn g' (S l) 1 n * sqrt (An n).
Proof.
  intros n. pose proof (An_pos n). pose proof (poch_pos n _ (l32 l)). pose proof (poch_pos n _ (l32 (S l))). pose proof (l32 l).
  unfold cn. rewrite <- sqrt_mult; [|left; apply cn_arg; [apply g'_pos|lra]|lra]. f_equal. unfold g'.
  replace (1 * ((INR l + 3 / 2) * g * poch (INR (S l) + 3 / 2) n)) with (g * ((INR l + 3 / 2) * poch (INR (S l) + 3 / 2) n)) by ring. rewrite poch_next.
  field. repeat split; lra.
Qed.
Lemma cn_up1 : forall n, cn g l 1 (S n) = cn g' (S l) 1 n * sqrt (INR n + 1).
Proof.
  intros n. pose proof (cn_S g l 1 Hg Rlt_0_1 n) as E. fold (An n) in E. rewrite (cn_up n) in E. pose proof (sqrt_lt_R0 _ (An_pos n)).
  apply (Rmult_eq_reg_r (sqrt (An n))); [|lra]. rewrite E. ring.
Qed.
Lemma cn_pred : forall n t, cn g l 1 n * lagm (INR l + 3 / 2) n t = sqrt (INR n) * (cn g' (S l) 1 (pred n) * lag (INR l + 3 / 2) (pred n) t).
Proof.
  intros [|n] t; cbn [lagm pred]; [change (INR 0) with 0; rewrite sqrt_0; ring|]. rewrite cn_up1, S_INR. ring.
Qed.
Lemma half_S : INR (S l) + 1 / 2 = INR l + 3 / 2.
Proof. rewrite S_INR. field. Qed.
Lemma half_a : INR l + 1 / 2 + 1 = INR l + 3 / 2.
Proof. field. Qed.
Lemma pow_S1 : forall x, x ^ (S l + 1) = x * x ^ (l + 1).
Proof. intros x. reflexivity. Qed.
Lemma up_r : forall n x, x * u n x = sqrt (An n) * u' n x + - sqrt (INR n) * u' (pred n) x.
Proof.
  intros n x. rewrite !osc1, half_S, (lag_I1m (INR l + 1 / 2)), half_a, pow_S1.
  pose proof (cn_pred n (x * x)) as E. set (e := exp _) in *. rewrite Rmult_minus_distr_l.
  replace (x * (cn g l 1 n * (x ^ (l + 1) * e * lag (INR l + 3 / 2) n (x * x) - x ^ (l + 1) * e * lagm (INR l + 3 / 2) n (x * x))))
    with (x * x ^ (l + 1) * e * (cn g l 1 n * lag (INR l + 3 / 2) n (x * x) - cn g l 1 n * lagm (INR l + 3 / 2) n (x * x))) by ring.
  rewrite E, cn_up. ring.
Qed.
Lemma down_r : forall n x, x * u' n x = sqrt (An n) * u n x + - sqrt (INR n + 1) * u (S n) x.
Proof.
  intros n x. rewrite !osc1, half_S, pow_S1. pose proof (lag_I3 (INR l + 1 / 2) n (x * x)) as E. rewrite half_a in E.
  set (e := exp _) in *. pose proof (An_pos n) as HA. pose proof (pos_INR n) as Hn.
  replace (x * (cn g' (S l) 1 n * (x * x ^ (l + 1) * e * lag (INR l + 3 / 2) n (x * x)))) with (cn g' (S l) 1 n * x ^ (l + 1) * e * (x * x * lag (INR l + 3 / 2) n (x * x))) by ring.
  rewrite E, cn_up, cn_up1.
  replace (INR n + (INR l + 1 / 2) + 1) with (sqrt (An n) * sqrt (An n)) by (rewrite sqrt_sqrt by lra; unfold An; field).
  replace (INR n + 1) with (sqrt (INR n + 1) * sqrt (INR n + 1)) at 1 by (apply sqrt_sqrt; lra). ring.
Qed.
Lemma up_d : forall n x, 0 < x -> dosc g n l x - (INR l + 1) / x * u n x = - sqrt (An n) * u' n x + - sqrt (INR n) * u' (pred n) x.
Proof.
  intros n x Hx. unfold dosc. rewrite !osc1, half_S. pose proof (cn_pred n (x * x)) as E. set (e := exp _) in *.
  replace (x ^ (S l + 1)) with (x ^ (l + 2)) by (f_equal; lia).
  replace (cn g l 1 n * e * ((INR l + 1) * x ^ l * lag (INR l + 1 / 2) n (x * x) - x ^ (l + 2) * lag (INR l + 1 / 2) n (x * x) - 2 * x ^ (l + 2) * lagm (INR l + 3 / 2) n (x * x))
     - (INR l + 1) / x * (cn g l 1 n * (x ^ (l + 1) * e * lag (INR l + 1 / 2) n (x * x))))
   with (- (x ^ (l + 2) * e) * (cn g l 1 n * (lag (INR l + 1 / 2) n (x * x) + 2 * lagm (INR l + 3 / 2) n (x * x))))
   by (replace (x ^ (l + 1)) with (x ^ l * x) by (rewrite pow_add; cbn; ring); field; lra).
  rewrite (lag_I1m (INR l + 1 / 2)), half_a.
  replace (cn g l 1 n * (lag (INR l + 3 / 2) n (x * x) - lagm (INR l + 3 / 2) n (x * x) + 2 * lagm (INR l + 3 / 2) n (x * x)))
    with (cn g l 1 n * lag (INR l + 3 / 2) n (x * x) + cn g l 1 n * lagm (INR l + 3 / 2) n (x * x)) by ring.
  rewrite E, cn_up. ring.
Qed.
Lemma down_d : forall n x, 0 < x -> dosc g' n (S l) x + (INR l + 1) / x * u' n x = sqrt (An n) * u n x + sqrt (INR n + 1) * u (S n) x.
Proof.
  intros n x Hx. unfold dosc. rewrite !osc1, half_S. set (e := exp _) in *. set (a := INR l + 1 / 2). pose proof (An_pos n) as HA. pose proof (pos_INR n) as Hn.
  replace (INR (S l) + 3 / 2) with (a + 2) by (rewrite S_INR; unfold a; field). replace (INR l + 3 / 2) with (a + 1) by (unfold a; field).
  assert (T : x * x * lagm (a + 2) n (x * x) = (INR n + a + 1) * lagm (a + 1) n (x * x) - INR n * lag (a + 1) n (x * x)).
  { destruct n as [|n]; [cbn [lagm]; change (INR 0) with 0; ring|]. cbn [lagm]. pose proof (lag_I3 (a + 1) n (x * x)) as E.
    replace (a + 1 + 1) with (a + 2) in E by ring. rewrite E, S_INR. ring. }
  pose proof (lag_I1m a n (x * x)) as I1. pose proof (lag_I3 a n (x * x)) as I3.
  replace (x ^ (S l + 2)) with (x ^ (l + 1) * (x * x)) by (replace (S l + 2)%nat with (l + 1 + 2)%nat by lia; rewrite (pow_add x (l + 1)); cbn; ring).
  replace (x ^ (S l + 1)) with (x ^ (l + 1) * x) by (replace (S l + 1)%nat with (l + 1 + 1)%nat by lia; rewrite (pow_add x (l + 1)); cbn; ring).
  replace (x ^ S l) with (x ^ (l + 1)) by (f_equal; lia). rewrite S_INR.
  replace (cn g' (S l) 1 n * e * ((INR l + 1 + 1) * x ^ (l + 1) * lag (a + 1) n (x * x) - x ^ (l + 1) * (x * x) * lag (a + 1) n (x * x) - 2 * (x ^ (l + 1) * (x * x)) * lagm (a + 2) n (x * x))
     + (INR l + 1) / x * (cn g' (S l) 1 n * (x ^ (l + 1) * x * e * lag (a + 1) n (x * x))))
   with (cn g' (S l) 1 n * x ^ (l + 1) * e * ((2 * INR l + 3) * lag (a + 1) n (x * x) - x * x * lag (a + 1) n (x * x) - 2 * (x * x * lagm (a + 2) n (x * x)))) by (field; lra).
  rewrite T, I3.
  replace ((2 * INR l + 3) * lag (a + 1) n (x * x) - ((INR n + a + 1) * lag a n (x * x) - (INR n + 1) * lag a (S n) (x * x)) - 2 * ((INR n + a + 1) * lagm (a + 1) n (x * x) - INR n * lag (a + 1) n (x * x)))
    with ((INR n + a + 1) * (2 * (lag (a + 1) n (x * x) - lagm (a + 1) n (x * x)) - lag a n (x * x)) + (INR n + 1) * lag a (S n) (x * x)) by (unfold a; field).
  rewrite <- I1, cn_up, cn_up1.
  replace (INR n + a + 1) with (sqrt (An n) * sqrt (An n)) by (rewrite sqrt_sqrt by lra; unfold An, a; field).
  replace (INR n + 1) with (sqrt (INR n + 1) * sqrt (INR n + 1)) at 1 by (apply sqrt_sqrt; lra). ring.
Qed.
End Ladder.
