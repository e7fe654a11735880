(** The analytic elements of radial_oscillator_me.h as integrals of the oscillator functions. *)
From Coq Require Import List ZArith Reals Bool Lra Lia.
From Verif Require Import Base WfModel WfSpec WfLag WfInt WfProof WfOsc.
From Verif Require Import OscModel.
Import ListNotations.
Open Scope R_scope.
Notation zn := Z.of_nat.

Lemma IZR_nat : forall n, IZR (zn n) = INR n.
Proof. intros n. symmetry. apply INR_IZR_INZ. Qed.
Lemma fsq : forall z x, 0 <= x -> IZR z = x -> OscModel.fsqrt z = Num (sqrt x).
Proof. intros z x H E. unfold OscModel.fsqrt. destruct (Z.ltb_spec z 0) as [L|L]; [apply IZR_lt in L; lra|]. rewrite E. reflexivity. Qed.
Lemma fsq2 : forall z x, 0 <= x -> IZR z = 2 * x -> OscModel.fsqrt z = Num (sqrt 2 * sqrt x).
Proof. intros z x H E. rewrite (fsq z (2 * x)) by lra. rewrite sqrt_mult by lra. reflexivity. Qed.
Lemma fsq4 : forall z x y, 0 <= x -> 0 <= y -> IZR z = 4 * (x * y) -> OscModel.fsqrt z = Num (2 * (sqrt x * sqrt y)).
Proof.
  intros z x y Hx Hy E. assert (P : 0 <= x * y) by (apply Rmult_le_pos; assumption).
  rewrite (fsq z (2 * 2 * (x * y))) by lra. rewrite sqrt_mult, sqrt_square, sqrt_mult by lra. reflexivity.
Qed.
Lemma k2 : 0 < k_sqrt_2.
Proof. unfold k_sqrt_2. lra. Qed.
Lemma delta_eq : forall n, delta n n = 1.
Proof. intros n. unfold delta. rewrite Nat.eqb_refl. reflexivity. Qed.
Lemma delta_ne : forall n m, n <> m -> delta n m = 0.
Proof. intros n m H. unfold delta. apply Nat.eqb_neq in H. rewrite H. reflexivity. Qed.

(** * first powers *)
Lemma coordinate_up : forall l m n s, coordinate (2 * zn m + (zn l + 1)) (zn l + 1) (2 * zn n + zn l) (zn l) s
  = Ok (Num ((IZR s * sqrt (An l n) * delta m n + - sqrt (INR n) * delta m (pred n)) * (sqrt 2 / k_sqrt_2))).
Proof.
  intros l m n s. pose proof (An_pos l n) as HA. pose proof (pos_INR n) as Hn. pose proof k2 as HK. unfold coordinate, cdagger, clower.
  replace (zn l + 1 - zn l)%Z with 1%Z by ring. cbn [Z.eqb Pos.eqb orb cassert bind].
  rewrite (fsq2 (2 * zn n + zn l + zn l + 3) (An l n)) by (try lra; rewrite !plus_IZR, mult_IZR, !IZR_nat; unfold An; field).
  rewrite (fsq2 (2 * zn n + zn l - zn l) (INR n)) by (try lra; rewrite minus_IZR, plus_IZR, mult_IZR, !IZR_nat; ring).
  destruct (Z.eqb_spec (2 * zn m + (zn l + 1) - (2 * zn n + zn l)) 1) as [E|E].
  - assert (m = n) by lia. subst m. destruct (Z.eqb_spec (2 * zn n + (zn l + 1) - (2 * zn n + zn l)) (-1)) as [E1|E1]; [lia|].
    rewrite delta_eq. cbn [bind nscale nadd num_map2]. f_equal. f_equal. destruct n as [|n].
    + change (INR 0) with 0. rewrite sqrt_0. field. lra.
    + cbn [pred]. rewrite (delta_ne (S n) n) by lia. field. lra.
  - rewrite (delta_ne m n) by lia. destruct (Z.eqb_spec (2 * zn m + (zn l + 1) - (2 * zn n + zn l)) (-1)) as [E1|E1].
    + assert (m = pred n) by lia. subst m. rewrite delta_eq. cbn [bind nscale nadd num_map2]. f_equal. f_equal. field. lra.
    + cbn [bind nscale nadd num_map2]. f_equal. f_equal. destruct n as [|n]; [change (INR 0) with 0; rewrite sqrt_0; field; lra|].
      cbn [pred]. rewrite (delta_ne m n) by lia. field. lra.
Qed.
Lemma coordinate_down : forall l m n s, coordinate (2 * zn m + zn l) (zn l) (2 * zn n + (zn l + 1)) (zn l + 1) s
  = Ok (Num ((sqrt (An l n) * delta m n + - IZR s * sqrt (INR n + 1) * delta m (S n)) * (sqrt 2 / k_sqrt_2))).
Proof.
  intros l m n s. pose proof (An_pos l n) as HA. pose proof (pos_INR n) as Hn. pose proof k2 as HK. unfold coordinate, cdagger, clower.
  replace (zn l - (zn l + 1))%Z with (-1)%Z by ring. cbn [Z.eqb Pos.eqb orb cassert bind].
  rewrite (fsq2 (2 * zn n + (zn l + 1) + (zn l + 1) + 1) (An l n)) by (try lra; rewrite !plus_IZR, mult_IZR, !IZR_nat; unfold An; field).
  rewrite (fsq2 (2 * zn n + (zn l + 1) - (zn l + 1) + 2) (INR n + 1)) by (try lra; rewrite plus_IZR, minus_IZR, !plus_IZR, mult_IZR, !IZR_nat; ring).
  destruct (Z.eqb_spec (2 * zn m + zn l - (2 * zn n + (zn l + 1))) 1) as [E|E].
  - assert (m = S n) by lia. subst m. destruct (Z.eqb_spec (2 * zn (S n) + zn l - (2 * zn n + (zn l + 1))) (-1)) as [E1|E1]; [lia|].
    rewrite delta_eq, (delta_ne (S n) n) by lia. cbn [bind nscale nadd num_map2]. f_equal. f_equal. field. lra.
  - rewrite (delta_ne m (S n)) by lia. destruct (Z.eqb_spec (2 * zn m + zn l - (2 * zn n + (zn l + 1))) (-1)) as [E1|E1].
    + assert (m = n) by lia. subst m. rewrite delta_eq. cbn [bind nscale nadd num_map2]. f_equal. f_equal. field. lra.
    + rewrite (delta_ne m n) by lia. cbn [bind nscale nadd num_map2]. f_equal. f_equal. field. lra.
Qed.

(** derivative at length b *)
Definition doscb (g : R) (n l : nat) (b r : R) : R := dosc g n l (r / b) / (b * sqrt b).
Lemma d_div : forall b r, 0 < b -> derivable_pt_lim (fun r => r / b) r (/ b).
Proof.
  intros b r Hb. apply (derivable_pt_lim_ext (fun r => / b * r)); [intros t; field; lra|].
  replace (/ b) with (/ b * 1) at 1 by ring. apply (derivable_pt_lim_scal id), derivable_pt_lim_id.
Qed.
Lemma d_length : forall f f' b r, 0 < b -> derivable_pt_lim f (r / b) f' -> derivable_pt_lim (fun r => f (r / b) / sqrt b) r (f' / (b * sqrt b)).
Proof.
  intros f f' b r Hb H. assert (P : 0 < sqrt b) by (apply sqrt_lt_R0; exact Hb).
  apply (derivable_pt_lim_ext (fun r => / sqrt b * f (r / b))); [intros t; field; lra|].
  replace (f' / (b * sqrt b)) with (/ sqrt b * (f' * / b)) by (field; split; lra).
  apply (derivable_pt_lim_scal (fun r => f (r / b))). apply (derivable_pt_lim_comp (fun r => r / b) f); [apply d_div; exact Hb|exact H].
Qed.
Lemma oscb_derivative : forall g n l b r, 0 < b -> 0 < g -> derivable_pt_lim (osc g n l b) r (doscb g n l b r).
Proof.
  intros g n l b r Hb Hg. apply (derivable_pt_lim_ext (fun r => osc g n l 1 (r / b) / sqrt b)); [intros t; symmetry; apply osc_length; assumption|].
  unfold doscb. apply d_length; [exact Hb|apply osc_derivative].
Qed.

Section Elements.
Variables (l : nat) (g g' b : R).
Hypotheses (Hl : gamma_value l g) (Hl' : gamma_value (S l) g') (Hb : 0 < b).
Lemma Hg : 0 < g.
Proof. apply (gamma_pos l), Hl. Qed.
Lemma g'_eq : g' = (INR l + 3 / 2) * g.
Proof. apply (integral_unique _ _ _ Hl'). apply gamma_next, Hl. Qed.
Lemma Hg' : 0 < g'.
Proof. apply (gamma_pos (S l)), Hl'. Qed.
Lemma sb : 0 < sqrt b.
Proof. apply sqrt_lt_R0, Hb. Qed.

Lemma r_up : forall n m, exists v,
  integral (fun r => osc g' m (S l) b r * (r / b * osc g n l b r)) v
  /\ coordinate (2 * zn m + (zn l + 1)) (zn l + 1) (2 * zn n + zn l) (zn l) 1 = Ok (Num (v * (sqrt 2 / k_sqrt_2))).
Proof.
  intros n m. eexists. split; [|apply (coordinate_up l m n 1)].
  pose proof (element_length g' m (S l) b _ _ Hb Hg' (combination2 (S l) g' m (1 * sqrt (An l n)) n (- sqrt (INR n)) (pred n) Hl')) as K.
  eapply integral_ext; [|exact K]. intros r _. cbn beta. f_equal. rewrite g'_eq.
  replace (1 * sqrt (An l n)) with (sqrt (An l n)) by ring. rewrite <- up_r by apply Hg. rewrite (osc_length g n l b r Hb Hg). pose proof sb. field. split; lra.
Qed.
Lemma r_down : forall n m, exists v,
  integral (fun r => osc g m l b r * (r / b * osc g' n (S l) b r)) v
  /\ coordinate (2 * zn m + zn l) (zn l) (2 * zn n + (zn l + 1)) (zn l + 1) 1 = Ok (Num (v * (sqrt 2 / k_sqrt_2))).
Proof.
  intros n m. eexists. split; [|apply (coordinate_down l m n 1)].
  pose proof (element_length g m l b _ _ Hb Hg (combination2 l g m (sqrt (An l n)) n (- 1 * sqrt (INR n + 1)) (S n) Hl)) as K.
  eapply integral_ext; [|exact K]. intros r _. cbn beta. f_equal. rewrite g'_eq.
  replace (- 1 * sqrt (INR n + 1)) with (- sqrt (INR n + 1)) by ring. rewrite <- down_r by apply Hg.
  rewrite <- g'_eq, (osc_length g' n (S l) b r Hb Hg'). pose proof sb. field. split; lra.
Qed.
Lemma k_up : forall n m, exists D v, (forall r, 0 < r -> derivable_pt_lim (osc g n l b) r (D r))
  /\ integral (fun r => osc g' m (S l) b r * (b * (D r - (INR l + 1) / r * osc g n l b r))) v
  /\ coordinate (2 * zn m + (zn l + 1)) (zn l + 1) (2 * zn n + zn l) (zn l) (-1) = Ok (Num (v * (sqrt 2 / k_sqrt_2))).
Proof.
  intros n m. exists (doscb g n l b). eexists. split; [intros r _; apply oscb_derivative; [exact Hb|apply Hg]|]. split; [|apply (coordinate_up l m n (-1))].
  pose proof (element_length g' m (S l) b _ _ Hb Hg' (combination2 (S l) g' m (-1 * sqrt (An l n)) n (- sqrt (INR n)) (pred n) Hl')) as K.
  eapply integral_ext; [|exact K]. intros r Hr. cbn beta. f_equal. rewrite g'_eq.
  replace (-1 * sqrt (An l n)) with (- sqrt (An l n)) by ring.
  assert (0 < r / b) by (apply Rdiv_lt_0_compat; assumption). pose proof Hb as Hb0.
  rewrite <- up_d by (try apply Hg; assumption). rewrite (osc_length g n l b r Hb Hg). unfold doscb. pose proof sb. field. repeat split; lra.
Qed.
Lemma k_down : forall n m, exists D v, (forall r, 0 < r -> derivable_pt_lim (osc g' n (S l) b) r (D r))
  /\ integral (fun r => osc g m l b r * (b * (D r + (INR l + 1) / r * osc g' n (S l) b r))) v
  /\ coordinate (2 * zn m + zn l) (zn l) (2 * zn n + (zn l + 1)) (zn l + 1) (-1) = Ok (Num (v * (sqrt 2 / k_sqrt_2))).
Proof.
  intros n m. exists (doscb g' n (S l) b). eexists. split; [intros r _; apply oscb_derivative; [exact Hb|apply Hg']|]. split; [|apply (coordinate_down l m n (-1))].
  pose proof (element_length g m l b _ _ Hb Hg (combination2 l g m (sqrt (An l n)) n (- -1 * sqrt (INR n + 1)) (S n) Hl)) as K.
  eapply integral_ext; [|exact K]. intros r Hr. cbn beta. f_equal.
  replace (- -1 * sqrt (INR n + 1)) with (sqrt (INR n + 1)) by ring.
  assert (0 < r / b) by (apply Rdiv_lt_0_compat; assumption). pose proof Hb as Hb0.
  rewrite <- down_d by (try apply Hg; assumption). rewrite <- g'_eq, (osc_length g' n (S l) b r Hb Hg'). unfold doscb. pose proof sb. field. repeat split; lra.
Qed.
End Elements.
