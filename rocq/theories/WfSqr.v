(** The elements of r^2 and (ik)^2 as integrals of the oscillator functions. *)
From Coq Require Import List ZArith Reals Bool Lra Lia.
From Verif Require Import Base WfModel WfSpec WfLag WfInt WfProof WfOsc WfEl.
From Verif Require Import OscModel.
Import ListNotations.
Open Scope R_scope.

Lemma csqr_same : forall l m n s, coordinate_sqr (2 * zn m + zn l) (zn l) (2 * zn n + zn l) (zn l) s
  = Num (IZR s * (An l n + INR n) * delta m n + - (sqrt (An l n) * sqrt (INR n + 1)) * delta m (S n) + - (sqrt (INR n) * sqrt (An l (pred n))) * delta m (pred n)).
Proof.
  intros l m n s. pose proof (An_pos l n) as HA. pose proof (pos_INR n) as Hn. unfold coordinate_sqr.
  replace (zn l - zn l)%Z with 0%Z by ring. cbn [Z.eqb].
  assert (Hp : sqrt (INR n) * delta n (pred n) = 0).
  { destruct n as [|n]; [change (INR 0) with 0; rewrite sqrt_0; ring|]. cbn [pred]. rewrite delta_ne by lia. ring. }
  destruct (Z.eqb_spec (2 * zn m + zn l - (2 * zn n + zn l)) 2) as [E|E]; [|destruct (Z.eqb_spec (2 * zn m + zn l - (2 * zn n + zn l)) 0) as [E0|E0];
    [|destruct (Z.eqb_spec (2 * zn m + zn l - (2 * zn n + zn l)) (-2)) as [E1|E1]]].
  - assert (m = S n) by lia. subst m. rewrite delta_eq, (delta_ne (S n) n), (delta_ne (S n) (pred n)) by lia.
    rewrite (fsq4 _ (An l n) (INR n + 1)) by (try lra; rewrite mult_IZR, plus_IZR, plus_IZR, plus_IZR, plus_IZR, minus_IZR, plus_IZR, mult_IZR, !IZR_nat; unfold An; field).
    cbn [nscale]. f_equal. field.
  - assert (m = n) by lia. subst m. rewrite delta_eq, (delta_ne n (S n)) by lia. f_equal. rewrite plus_IZR, mult_IZR, !IZR_nat.
    replace (- (sqrt (INR n) * sqrt (An l (pred n))) * delta n (pred n)) with (- sqrt (An l (pred n)) * (sqrt (INR n) * delta n (pred n))) by ring. rewrite Hp. unfold An. field.
  - destruct n as [|n]; [lia|]. assert (m = n) by lia. subst m. cbn [pred]. rewrite delta_eq, (delta_ne n (S n)), (delta_ne n (S (S n))) by lia.
    pose proof (An_pos l n). rewrite (fsq4 _ (INR (S n)) (An l n)) by (try lra; rewrite mult_IZR, plus_IZR, plus_IZR, minus_IZR, plus_IZR, mult_IZR, !IZR_nat; unfold An; rewrite S_INR; field).
    cbn [nscale]. f_equal. field.
  - f_equal. rewrite (delta_ne m n), (delta_ne m (S n)) by lia. destruct n as [|n]; [change (INR 0) with 0; rewrite sqrt_0; ring|]. cbn [pred]. rewrite (delta_ne m n) by lia. ring.
Qed.
Lemma csqr_up : forall l m n s, coordinate_sqr (2 * zn m + (zn l + 2)) (zn l + 2) (2 * zn n + zn l) (zn l) s
  = Num (sqrt (An l n) * sqrt (An l n + 1) * delta m n + - (2 * IZR s) * (sqrt (INR n) * sqrt (An l n)) * delta m (pred n)
         + sqrt (INR n) * sqrt (INR (pred n)) * delta m (pred (pred n))).
Proof.
  intros l m n s. pose proof (An_pos l n) as HA. pose proof (pos_INR n) as Hn. unfold coordinate_sqr.
  replace (zn l + 2 - zn l)%Z with 2%Z by ring. cbn [Z.eqb Pos.eqb].
  destruct (Z.eqb_spec (2 * zn m + (zn l + 2) - (2 * zn n + zn l)) 2) as [E|E]; [|destruct (Z.eqb_spec (2 * zn m + (zn l + 2) - (2 * zn n + zn l)) 0) as [E0|E0];
    [|destruct (Z.eqb_spec (2 * zn m + (zn l + 2) - (2 * zn n + zn l)) (-2)) as [E1|E1]]].
  - assert (m = n) by lia. subst m. rewrite delta_eq.
    rewrite (fsq4 _ (An l n) (An l n + 1)) by (try lra; rewrite mult_IZR, !plus_IZR, mult_IZR, !IZR_nat; unfold An; field).
    cbn [nscale]. f_equal. destruct n as [|[|n]]; cbn [pred]; change (INR 0) with 0; rewrite ?sqrt_0; [field|rewrite (delta_ne 1 0) by lia; field|].
    rewrite (delta_ne (S (S n)) (S n)), (delta_ne (S (S n)) n) by lia. field.
  - destruct n as [|n]; [lia|]. assert (m = n) by lia. subst m. cbn [pred]. rewrite delta_eq, (delta_ne n (S n)) by lia.
    rewrite (fsq4 _ (INR (S n)) (An l (S n))) by (try lra; rewrite mult_IZR, minus_IZR, !plus_IZR, mult_IZR, !IZR_nat; unfold An; field).
    cbn [nscale]. f_equal. destruct n as [|n]; cbn [pred]; change (INR 0) with 0; rewrite ?sqrt_0; [ring|]. rewrite (delta_ne (S n) n) by lia. ring.
  - destruct n as [|[|n]]; [lia|lia|]. assert (m = n) by lia. subst m. cbn [pred]. rewrite delta_eq, (delta_ne n (S (S n))), (delta_ne n (S n)) by lia.
    pose proof (pos_INR (S n)). rewrite (fsq4 _ (INR (S (S n))) (INR (S n))) by (try lra; rewrite mult_IZR, !minus_IZR, plus_IZR, mult_IZR, !IZR_nat; rewrite !S_INR; ring).
    cbn [nscale]. f_equal. field.
  - f_equal. rewrite (delta_ne m n) by lia. destruct n as [|[|n]]; cbn [pred]; change (INR 0) with 0; rewrite ?sqrt_0; [ring|rewrite (delta_ne m 0) by lia; ring|].
    rewrite (delta_ne m (S n)), (delta_ne m n) by lia. ring.
Qed.
Lemma csqr_down : forall l m n s, coordinate_sqr (2 * zn m + zn l) (zn l) (2 * zn n + (zn l + 2)) (zn l + 2) s
  = Num (sqrt (An l n) * sqrt (An l n + 1) * delta m n + - (2 * IZR s) * (sqrt (INR n + 1) * sqrt (An l n + 1)) * delta m (S n)
         + sqrt (INR n + 1) * sqrt (INR n + 2) * delta m (S (S n))).
Proof.
  intros l m n s. pose proof (An_pos l n) as HA. pose proof (pos_INR n) as Hn. unfold coordinate_sqr.
  replace (zn l - (zn l + 2))%Z with (-2)%Z by ring. cbn [Z.eqb Pos.eqb].
  destruct (Z.eqb_spec (2 * zn m + zn l - (2 * zn n + (zn l + 2))) 2) as [E|E]; [|destruct (Z.eqb_spec (2 * zn m + zn l - (2 * zn n + (zn l + 2))) 0) as [E0|E0];
    [|destruct (Z.eqb_spec (2 * zn m + zn l - (2 * zn n + (zn l + 2))) (-2)) as [E1|E1]]].
  - assert (m = S (S n)) by lia. subst m. rewrite delta_eq, (delta_ne (S (S n)) n), (delta_ne (S (S n)) (S n)) by lia.
    rewrite (fsq4 _ (INR n + 1) (INR n + 2)) by (try lra; rewrite mult_IZR, !plus_IZR, !minus_IZR, !plus_IZR, !mult_IZR, !IZR_nat; ring).
    cbn [nscale]. f_equal. field.
  - assert (m = S n) by lia. subst m. rewrite delta_eq, (delta_ne (S n) n), (delta_ne (S n) (S (S n))) by lia.
    rewrite (fsq4 _ (INR n + 1) (An l n + 1)) by (try lra; rewrite mult_IZR, !plus_IZR, !minus_IZR, !plus_IZR, !mult_IZR, !IZR_nat; unfold An; field).
    cbn [nscale]. f_equal. ring.
  - assert (m = n) by lia. subst m. rewrite delta_eq, (delta_ne n (S n)), (delta_ne n (S (S n))) by lia.
    rewrite (fsq4 _ (An l n) (An l n + 1)) by (try lra; rewrite mult_IZR, !minus_IZR, !plus_IZR, !mult_IZR, !IZR_nat; unfold An; field).
    cbn [nscale]. f_equal. field.
  - f_equal. rewrite (delta_ne m n), (delta_ne m (S n)), (delta_ne m (S (S n))) by lia. ring.
Qed.

(** * second derivative *)
Lemma d_inv : forall c x, 0 < x -> derivable_pt_lim (fun t => c / t) x (- c / (x * x)).
Proof.
  intros c x Hx. replace (- c / (x * x)) with ((0 * id x - 1 * c) / Rsqr (id x)) by (unfold id, Rsqr; field; lra).
  apply (derivable_pt_lim_div (fun _ => c) id x 0 1); [apply derivable_pt_lim_const|apply derivable_pt_lim_id|unfold id; lra].
Qed.
Lemma derivable_local : forall f h x d, 0 < x -> (forall t, 0 < t -> f t = h t) -> derivable_pt_lim f x d -> derivable_pt_lim h x d.
Proof.
  intros f h x d Hx E D e He. destruct (D e He) as (del & H). assert (P : 0 < Rmin del x) by (apply Rmin_pos; [apply (cond_pos del)|exact Hx]).
  exists (mkposreal _ P). intros k Hk Hs. cbn in Hs. pose proof (Rmin_l del x). pose proof (Rmin_r del x).
  assert (- x < k) by (apply Rabs_def2 in Hs; lra). rewrite <- !E by lra. apply H; [exact Hk|lra].
Qed.
Definition d2osc (g : R) (n l : nat) (x : R) : R :=
  - (INR l + 1) / (x * x) * osc g n l 1 x + (INR l + 1) / x * dosc g n l x
  + (- sqrt (An l n) * dosc ((INR l + 3 / 2) * g) n (S l) x + - sqrt (INR n) * dosc ((INR l + 3 / 2) * g) (pred n) (S l) x).
Lemma dosc_derivative : forall g n l x, 0 < g -> 0 < x -> derivable_pt_lim (dosc g n l) x (d2osc g n l x).
Proof.
  intros g n l x Hg Hx. set (g' := (INR l + 3 / 2) * g).
  apply (derivable_local (fun x => (INR l + 1) / x * osc g n l 1 x + (- sqrt (An l n) * osc g' n (S l) 1 x + - sqrt (INR n) * osc g' (pred n) (S l) 1 x))); [exact Hx| |].
  - intros t Ht. pose proof (up_d l g Hg n t Ht) as U. fold g' in U. lra.
  - unfold d2osc. fold g'.
    apply (derivable_pt_lim_plus (fun x => (INR l + 1) / x * osc g n l 1 x)).
    + apply (derivable_pt_lim_mult (fun x => (INR l + 1) / x) (osc g n l 1)); [apply d_inv; exact Hx|apply osc_derivative].
    + apply (derivable_pt_lim_plus (fun x => - sqrt (An l n) * osc g' n (S l) 1 x));
        [apply (derivable_pt_lim_scal (osc g' n (S l) 1))|apply (derivable_pt_lim_scal (osc g' (pred n) (S l) 1))]; apply osc_derivative.
Qed.
(** raising and lowering twice: derivative of the first step *)
Lemma step_derivative : forall g n l c g1 l1 a i b j, 0 < g -> (forall x, 0 < x -> dosc g n l x + c / x * osc g n l 1 x = a * osc g1 i l1 1 x + b * osc g1 j l1 1 x) ->
  forall x, 0 < x -> d2osc g n l x + c / x * dosc g n l x - c / (x * x) * osc g n l 1 x = a * dosc g1 i l1 x + b * dosc g1 j l1 x.
Proof.
  intros g n l c g1 l1 a i b j Hg E x Hx.
  assert (D1 : derivable_pt_lim (fun x => a * osc g1 i l1 1 x + b * osc g1 j l1 1 x) x (d2osc g n l x + (- c / (x * x) * osc g n l 1 x + c / x * dosc g n l x))).
  { apply (derivable_local (fun x => dosc g n l x + c / x * osc g n l 1 x)); [exact Hx|exact E|].
    apply (derivable_pt_lim_plus (dosc g n l)); [apply dosc_derivative; assumption|].
    apply (derivable_pt_lim_mult (fun x => c / x) (osc g n l 1)); [apply d_inv; exact Hx|apply osc_derivative]. }
  assert (D2 : derivable_pt_lim (fun x => a * osc g1 i l1 1 x + b * osc g1 j l1 1 x) x (a * dosc g1 i l1 x + b * dosc g1 j l1 x)).
  { apply (derivable_pt_lim_plus (fun x => a * osc g1 i l1 1 x)); [apply (derivable_pt_lim_scal (osc g1 i l1 1))|apply (derivable_pt_lim_scal (osc g1 j l1 1))]; apply osc_derivative. }
  pose proof (uniqueness_limite _ _ _ _ D1 D2) as U. rewrite <- U. field. lra.
Qed.

Section Square.
Variables (l : nat) (g : R).
Hypothesis Hg0 : 0 < g.
Let g1 := (INR l + 3 / 2) * g.
Let g2 := (INR (S l) + 3 / 2) * g1.
Lemma g1_pos : 0 < g1.
Proof. apply Rmult_lt_0_compat; [apply l32|exact Hg0]. Qed.
Notation u n x := (osc g n l 1 x).
Notation u1 n x := (osc g1 n (S l) 1 x).
Notation u2 n x := (osc g2 n (S (S l)) 1 x).
Lemma An_S : forall n, An (S l) n = An l n + 1.
Proof. intros n. unfold An. rewrite S_INR. ring. Qed.
Lemma An_pred : forall n, (0 < n)%nat -> An l n = An l (pred n) + 1.
Proof. intros [|n] H; [lia|]. cbn [pred]. unfold An. rewrite S_INR. ring. Qed.
Lemma sqA : forall n, sqrt (An l n) * sqrt (An l n) = An l n.
Proof. intros n. apply sqrt_sqrt. left. apply An_pos. Qed.
Lemma sqn : forall n, sqrt (INR n) * sqrt (INR n) = INR n.
Proof. intros n. apply sqrt_sqrt, pos_INR. Qed.
(** sqrt n times the relation for n - 1 *)
Lemma pred_S : forall n (f : nat -> R), sqrt (INR n) * (sqrt (INR (pred n) + 1) * f (S (pred n))) = INR n * f n.
Proof.
  intros [|n] f; [change (INR 0) with 0; rewrite sqrt_0; ring|]. cbn [pred]. rewrite <- S_INR. rewrite <- Rmult_assoc, sqn. reflexivity.
Qed.
Lemma sq_r_same : forall n x, x * x * u n x = 1 * (An l n + INR n) * u n x + - (sqrt (An l n) * sqrt (INR n + 1)) * u (S n) x + - (sqrt (INR n) * sqrt (An l (pred n))) * u (pred n) x.
Proof.
  intros n x. rewrite Rmult_assoc, (up_r l g Hg0 n x). fold g1.
  replace (x * (sqrt (An l n) * u1 n x + - sqrt (INR n) * u1 (pred n) x)) with (sqrt (An l n) * (x * u1 n x) - sqrt (INR n) * (x * u1 (pred n) x)) by ring.
  unfold g1. rewrite !(down_r l g Hg0). pose proof (pred_S n (fun k => u k x)) as P. cbn beta in P. pose proof (sqA n) as A.
  replace (1 * (An l n + INR n) * u n x) with (sqrt (An l n) * sqrt (An l n) * u n x + INR n * u n x) by (rewrite A; ring). rewrite <- P. ring.
Qed.
Lemma sq_k_same : forall n x, 0 < x -> d2osc g n l x - INR l * (INR l + 1) / (x * x) * u n x
  = -1 * (An l n + INR n) * u n x + - (sqrt (An l n) * sqrt (INR n + 1)) * u (S n) x + - (sqrt (INR n) * sqrt (An l (pred n))) * u (pred n) x.
Proof.
  intros n x Hx.
  assert (E : forall x, 0 < x -> dosc g n l x + - (INR l + 1) / x * u n x = - sqrt (An l n) * u1 n x + - sqrt (INR n) * u1 (pred n) x).
  { intros t Ht. pose proof (up_d l g Hg0 n t Ht) as U. fold g1 in U. rewrite <- U. field. lra. }
  pose proof (step_derivative _ _ _ _ _ _ _ _ _ _ Hg0 E x Hx) as D. pose proof (E x Hx) as E0.
  replace (d2osc g n l x - INR l * (INR l + 1) / (x * x) * u n x)
    with (d2osc g n l x + - (INR l + 1) / x * dosc g n l x - - (INR l + 1) / (x * x) * u n x + (INR l + 1) / x * (dosc g n l x + - (INR l + 1) / x * u n x)) by (field; lra).
  rewrite D, E0.
  replace (- sqrt (An l n) * dosc g1 n (S l) x + - sqrt (INR n) * dosc g1 (pred n) (S l) x + (INR l + 1) / x * (- sqrt (An l n) * u1 n x + - sqrt (INR n) * u1 (pred n) x))
    with (- sqrt (An l n) * (dosc g1 n (S l) x + (INR l + 1) / x * u1 n x) - sqrt (INR n) * (dosc g1 (pred n) (S l) x + (INR l + 1) / x * u1 (pred n) x)) by ring.
  unfold g1. rewrite !(down_d l g Hg0) by exact Hx. pose proof (pred_S n (fun k => u k x)) as P. cbn beta in P. pose proof (sqA n) as A.
  replace (-1 * (An l n + INR n) * u n x) with (- (sqrt (An l n) * sqrt (An l n) * u n x) - INR n * u n x) by (rewrite A; ring). rewrite <- P. ring.
Qed.
Lemma cross : forall n (y : R), sqrt (INR n) * (sqrt (An (S l) (pred n)) * y) = sqrt (INR n) * (sqrt (An l n) * y).
Proof.
  intros [|n] y; [change (INR 0) with 0; rewrite sqrt_0; ring|]. cbn [pred]. rewrite An_S, (An_pred (S n)) by lia. reflexivity.
Qed.
Lemma sq_r_up : forall n x, x * x * u n x = sqrt (An l n) * sqrt (An l n + 1) * u2 n x + - (2 * 1) * (sqrt (INR n) * sqrt (An l n)) * u2 (pred n) x
  + sqrt (INR n) * sqrt (INR (pred n)) * u2 (pred (pred n)) x.
Proof.
  intros n x. rewrite Rmult_assoc, (up_r l g Hg0 n x). fold g1.
  replace (x * (sqrt (An l n) * u1 n x + - sqrt (INR n) * u1 (pred n) x)) with (sqrt (An l n) * (x * u1 n x) - sqrt (INR n) * (x * u1 (pred n) x)) by ring.
  rewrite !(up_r (S l) g1 g1_pos). fold g2. rewrite An_S. pose proof (cross n (u2 (pred n) x)) as P.
  replace (sqrt (INR n) * (sqrt (An (S l) (pred n)) * u2 (pred n) x + - sqrt (INR (pred n)) * u2 (pred (pred n)) x))
    with (sqrt (INR n) * (sqrt (An (S l) (pred n)) * u2 (pred n) x) - sqrt (INR n) * sqrt (INR (pred n)) * u2 (pred (pred n)) x) by ring.
  rewrite P. ring.
Qed.
Lemma sq_k_up : forall n x, 0 < x -> d2osc g n l x - (2 * INR l + 3) / x * dosc g n l x + (INR l + 1) * (INR l + 3) / (x * x) * u n x
  = sqrt (An l n) * sqrt (An l n + 1) * u2 n x + - (2 * -1) * (sqrt (INR n) * sqrt (An l n)) * u2 (pred n) x + sqrt (INR n) * sqrt (INR (pred n)) * u2 (pred (pred n)) x.
Proof.
  intros n x Hx.
  assert (E : forall x, 0 < x -> dosc g n l x + - (INR l + 1) / x * u n x = - sqrt (An l n) * u1 n x + - sqrt (INR n) * u1 (pred n) x).
  { intros t Ht. pose proof (up_d l g Hg0 n t Ht) as U. fold g1 in U. rewrite <- U. field. lra. }
  pose proof (step_derivative _ _ _ _ _ _ _ _ _ _ Hg0 E x Hx) as D. pose proof (E x Hx) as E0.
  replace (d2osc g n l x - (2 * INR l + 3) / x * dosc g n l x + (INR l + 1) * (INR l + 3) / (x * x) * u n x)
    with (d2osc g n l x + - (INR l + 1) / x * dosc g n l x - - (INR l + 1) / (x * x) * u n x - (INR (S l) + 1) / x * (dosc g n l x + - (INR l + 1) / x * u n x)) by (rewrite S_INR; field; lra).
  rewrite D, E0.
  replace (- sqrt (An l n) * dosc g1 n (S l) x + - sqrt (INR n) * dosc g1 (pred n) (S l) x - (INR (S l) + 1) / x * (- sqrt (An l n) * u1 n x + - sqrt (INR n) * u1 (pred n) x))
    with (- sqrt (An l n) * (dosc g1 n (S l) x - (INR (S l) + 1) / x * u1 n x) - sqrt (INR n) * (dosc g1 (pred n) (S l) x - (INR (S l) + 1) / x * u1 (pred n) x)) by ring.
  rewrite !(up_d (S l) g1 g1_pos) by exact Hx. fold g2. rewrite An_S. pose proof (cross n (u2 (pred n) x)) as P.
  replace (sqrt (INR n) * (- sqrt (An (S l) (pred n)) * u2 (pred n) x + - sqrt (INR (pred n)) * u2 (pred (pred n)) x))
    with (- (sqrt (INR n) * (sqrt (An (S l) (pred n)) * u2 (pred n) x)) - sqrt (INR n) * sqrt (INR (pred n)) * u2 (pred (pred n)) x) by ring.
  rewrite P. ring.
Qed.
Lemma sq_r_down : forall n x, x * x * u2 n x = sqrt (An l n) * sqrt (An l n + 1) * u n x + - (2 * 1) * (sqrt (INR n + 1) * sqrt (An l n + 1)) * u (S n) x
  + sqrt (INR n + 1) * sqrt (INR n + 2) * u (S (S n)) x.
Proof.
  intros n x. unfold g2. rewrite Rmult_assoc, (down_r (S l) g1 g1_pos n x).
  replace (x * (sqrt (An (S l) n) * u1 n x + - sqrt (INR n + 1) * u1 (S n) x)) with (sqrt (An (S l) n) * (x * u1 n x) - sqrt (INR n + 1) * (x * u1 (S n) x)) by ring.
  unfold g1. rewrite !(down_r l g Hg0). rewrite An_S, (An_pred (S n)) by lia. cbn [pred]. rewrite S_INR. replace (INR n + 1 + 1) with (INR n + 2) by ring. ring.
Qed.
Lemma sq_k_down : forall n x, 0 < x -> d2osc g2 n (S (S l)) x + (2 * INR l + 3) / x * dosc g2 n (S (S l)) x + INR l * (INR l + 2) / (x * x) * u2 n x
  = sqrt (An l n) * sqrt (An l n + 1) * u n x + - (2 * -1) * (sqrt (INR n + 1) * sqrt (An l n + 1)) * u (S n) x + sqrt (INR n + 1) * sqrt (INR n + 2) * u (S (S n)) x.
Proof.
  intros n x Hx.
  assert (E : forall x, 0 < x -> dosc g2 n (S (S l)) x + (INR (S l) + 1) / x * u2 n x = sqrt (An (S l) n) * u1 n x + sqrt (INR n + 1) * u1 (S n) x).
  { intros t Ht. apply (down_d (S l) g1 g1_pos n t Ht). }
  assert (P2 : 0 < g2) by (apply Rmult_lt_0_compat; [apply l32|apply g1_pos]).
  pose proof (step_derivative _ _ _ _ _ _ _ _ _ _ P2 E x Hx) as D. pose proof (E x Hx) as E0.
  replace (d2osc g2 n (S (S l)) x + (2 * INR l + 3) / x * dosc g2 n (S (S l)) x + INR l * (INR l + 2) / (x * x) * u2 n x)
    with (d2osc g2 n (S (S l)) x + (INR (S l) + 1) / x * dosc g2 n (S (S l)) x - (INR (S l) + 1) / (x * x) * u2 n x
          + (INR l + 1) / x * (dosc g2 n (S (S l)) x + (INR (S l) + 1) / x * u2 n x)) by (rewrite S_INR; field; lra).
  rewrite D, E0.
  replace (sqrt (An (S l) n) * dosc g1 n (S l) x + sqrt (INR n + 1) * dosc g1 (S n) (S l) x + (INR l + 1) / x * (sqrt (An (S l) n) * u1 n x + sqrt (INR n + 1) * u1 (S n) x))
    with (sqrt (An (S l) n) * (dosc g1 n (S l) x + (INR l + 1) / x * u1 n x) + sqrt (INR n + 1) * (dosc g1 (S n) (S l) x + (INR l + 1) / x * u1 (S n) x)) by ring.
  unfold g1. rewrite !(down_d l g Hg0) by exact Hx. rewrite An_S, (An_pred (S n)) by lia. cbn [pred]. rewrite S_INR. replace (INR n + 1 + 1) with (INR n + 2) by ring. ring.
Qed.
End Square.

(** * the elements, at length b *)
Definition d2oscb (g : R) (n l : nat) (b r : R) : R := d2osc g n l (r / b) / (b * b * sqrt b).
Lemma doscb_derivative : forall g n l b r, 0 < b -> 0 < g -> 0 < r -> derivable_pt_lim (doscb g n l b) r (d2oscb g n l b r).
Proof.
  intros g n l b r Hb Hg Hr. assert (P : 0 < sqrt b) by (apply sqrt_lt_R0; exact Hb). unfold doscb, d2oscb.
  apply (derivable_pt_lim_ext (fun r => / b * (dosc g n l (r / b) / sqrt b))); [intros t; field; split; lra|].
  replace (d2osc g n l (r / b) / (b * b * sqrt b)) with (/ b * (d2osc g n l (r / b) / (b * sqrt b))) by (field; split; lra).
  apply (derivable_pt_lim_scal (fun r => dosc g n l (r / b) / sqrt b)). apply d_length; [exact Hb|]. apply dosc_derivative; [exact Hg|]. apply Rdiv_lt_0_compat; assumption.
Qed.
Section Elements2.
Variables (l : nat) (g g2 b : R).
Hypotheses (Hl : gamma_value l g) (Hl2 : gamma_value (S (S l)) g2) (Hb : 0 < b).
Lemma g2_eq : g2 = (INR (S l) + 3 / 2) * ((INR l + 3 / 2) * g).
Proof. apply (integral_unique _ _ _ Hl2). apply gamma_next, gamma_next, Hl. Qed.
Let Hg := gamma_pos l g Hl.
Let Hg2 := gamma_pos (S (S l)) g2 Hl2.
Let Hs : 0 < sqrt b := sqrt_lt_R0 b Hb.
Lemma rb_pos : forall r, 0 < r -> 0 < r / b.
Proof. intros r H. apply Rdiv_lt_0_compat; assumption. Qed.
Lemma rr_same : forall n m, exists v, integral (fun r => osc g m l b r * (r / b * (r / b) * osc g n l b r)) v
  /\ coordinate_sqr (2 * zn m + zn l) (zn l) (2 * zn n + zn l) (zn l) 1 = Num v.
Proof.
  intros n m. eexists. split; [|apply csqr_same].
  eapply integral_ext; [|exact (element_length g m l b _ _ Hb Hg (combination3 l g m _ n _ (S n) _ (pred n) Hl))].
  intros r Hr. cbn beta. f_equal. rewrite <- (sq_r_same l g Hg n (r / b)). rewrite (osc_length g n l b r Hb Hg). field. split; lra.
Qed.
Lemma rr_up : forall n m, exists v, integral (fun r => osc g2 m (S (S l)) b r * (r / b * (r / b) * osc g n l b r)) v
  /\ coordinate_sqr (2 * zn m + (zn l + 2)) (zn l + 2) (2 * zn n + zn l) (zn l) 1 = Num v.
Proof.
  intros n m. eexists. split; [|apply csqr_up].
  eapply integral_ext; [|exact (element_length g2 m (S (S l)) b _ _ Hb Hg2 (combination3 (S (S l)) g2 m _ n _ (pred n) _ (pred (pred n)) Hl2))].
  intros r Hr. cbn beta. f_equal. rewrite g2_eq. rewrite <- (sq_r_up l g Hg n (r / b)). rewrite (osc_length g n l b r Hb Hg). field. split; lra.
Qed.
Lemma rr_down : forall n m, exists v, integral (fun r => osc g m l b r * (r / b * (r / b) * osc g2 n (S (S l)) b r)) v
  /\ coordinate_sqr (2 * zn m + zn l) (zn l) (2 * zn n + (zn l + 2)) (zn l + 2) 1 = Num v.
Proof.
  intros n m. eexists. split; [|apply csqr_down].
  eapply integral_ext; [|exact (element_length g m l b _ _ Hb Hg (combination3 l g m _ n _ (S n) _ (S (S n)) Hl))].
  intros r Hr. cbn beta. f_equal. rewrite <- (sq_r_down l g Hg n (r / b)). rewrite <- g2_eq. rewrite (osc_length g2 n (S (S l)) b r Hb Hg2). field. split; lra.
Qed.
Lemma kk_same : forall n m, exists D D2 v, (forall r, 0 < r -> derivable_pt_lim (osc g n l b) r (D r) /\ derivable_pt_lim D r (D2 r))
  /\ integral (fun r => osc g m l b r * (b * b * (D2 r - INR l * (INR l + 1) / (r * r) * osc g n l b r))) v
  /\ coordinate_sqr (2 * zn m + zn l) (zn l) (2 * zn n + zn l) (zn l) (-1) = Num v.
Proof.
  intros n m. exists (doscb g n l b), (d2oscb g n l b). eexists. split; [intros r Hr; split; [apply oscb_derivative|apply doscb_derivative]; assumption|]. split; [|apply csqr_same].
  eapply integral_ext; [|exact (element_length g m l b _ _ Hb Hg (combination3 l g m _ n _ (S n) _ (pred n) Hl))].
  intros r Hr. cbn beta. f_equal. rewrite <- (sq_k_same l g Hg n (r / b) (rb_pos r Hr)). rewrite (osc_length g n l b r Hb Hg). unfold d2oscb. field. repeat split; lra.
Qed.
Lemma kk_up : forall n m, exists D D2 v, (forall r, 0 < r -> derivable_pt_lim (osc g n l b) r (D r) /\ derivable_pt_lim D r (D2 r))
  /\ integral (fun r => osc g2 m (S (S l)) b r * (b * b * (D2 r - (2 * INR l + 3) / r * D r + (INR l + 1) * (INR l + 3) / (r * r) * osc g n l b r))) v
  /\ coordinate_sqr (2 * zn m + (zn l + 2)) (zn l + 2) (2 * zn n + zn l) (zn l) (-1) = Num v.
Proof.
  intros n m. exists (doscb g n l b), (d2oscb g n l b). eexists. split; [intros r Hr; split; [apply oscb_derivative|apply doscb_derivative]; assumption|]. split; [|apply csqr_up].
  eapply integral_ext; [|exact (element_length g2 m (S (S l)) b _ _ Hb Hg2 (combination3 (S (S l)) g2 m _ n _ (pred n) _ (pred (pred n)) Hl2))].
  intros r Hr. cbn beta. f_equal. rewrite g2_eq. rewrite <- (sq_k_up l g Hg n (r / b) (rb_pos r Hr)). rewrite (osc_length g n l b r Hb Hg). unfold d2oscb, doscb. field. repeat split; lra.
Qed.
Lemma kk_down : forall n m, exists D D2 v, (forall r, 0 < r -> derivable_pt_lim (osc g2 n (S (S l)) b) r (D r) /\ derivable_pt_lim D r (D2 r))
  /\ integral (fun r => osc g m l b r * (b * b * (D2 r + (2 * INR l + 3) / r * D r + INR l * (INR l + 2) / (r * r) * osc g2 n (S (S l)) b r))) v
  /\ coordinate_sqr (2 * zn m + zn l) (zn l) (2 * zn n + (zn l + 2)) (zn l + 2) (-1) = Num v.
Proof.
  intros n m. exists (doscb g2 n (S (S l)) b), (d2oscb g2 n (S (S l)) b). eexists. split; [intros r Hr; split; [apply oscb_derivative|apply doscb_derivative]; assumption|]. split; [|apply csqr_down].
  eapply integral_ext; [|exact (element_length g m l b _ _ Hb Hg (combination3 l g m _ n _ (S n) _ (S (S n)) Hl))].
  intros r Hr. cbn beta. f_equal. rewrite <- (sq_k_down l g Hg n (r / b) (rb_pos r Hr)). rewrite <- g2_eq. rewrite (osc_length g2 n (S (S l)) b r Hb Hg2). unfold d2oscb, doscb. field. repeat split; lra.
Qed.
End Elements2.
