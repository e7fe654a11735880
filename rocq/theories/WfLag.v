(** Laguerre polynomials: identities from the coefficients. *)
From Coq Require Import List ZArith Reals Bool Lra Lia.
From Verif Require Import WfSpec.
Open Scope R_scope.

Lemma poch_S_left : forall n x, poch x (S n) = x * poch (x + 1) n.
Proof.
  induction n as [|n IH]; intros x; [cbn; ring|].
  change (poch x (S (S n))) with (poch x (S n) * (x + INR (S n))). rewrite IH. cbn [poch]. rewrite S_INR. ring.
Qed.
Lemma poch_add : forall n x m, poch x (n + m) = poch x n * poch (x + INR n) m.
Proof.
  intros n x m. induction m as [|m IH]; [rewrite Nat.add_0_r; cbn; ring|].
  rewrite Nat.add_succ_r. cbn [poch]. rewrite IH, plus_INR. ring.
Qed.
Lemma poch_pos : forall n x, 0 < x -> 0 < poch x n.
Proof.
  induction n as [|n IH]; intros x H; cbn [poch]; [lra|].
  apply Rmult_lt_0_compat; [apply IH; exact H|]. pose proof (pos_INR n). lra.
Qed.
Lemma fact_pos : forall n, 0 < INR (fact n).
Proof. intros n. apply lt_0_INR, lt_O_fact. Qed.
Lemma fact_ne : forall n, INR (fact n) <> 0.
Proof. intros n. pose proof (fact_pos n). lra. Qed.
Lemma fact_S_R : forall n, INR (fact (S n)) = (INR n + 1) * INR (fact n).
Proof. intros n. rewrite fact_simpl, mult_INR, S_INR. reflexivity. Qed.

(** L_n^a = L_n^(a+1) - L_(n-1)^(a+1) *)
Lemma lagc_I1 : forall a n k, (k <= n)%nat -> lagc a (S n) k = lagc (a + 1) (S n) k - lagc (a + 1) n k.
Proof.
  intros a n k H. unfold lagc. rewrite Nat.sub_succ_l by exact H. rewrite !fact_S_R.
  set (m := (n - k)%nat). assert (Em : INR m = INR n - INR k) by (unfold m; apply minus_INR; exact H).
  rewrite poch_S_left. replace (a + 1 + INR k + 1) with (a + INR k + 1 + 1) by ring.
  change (poch (a + INR k + 1 + 1) (S m)) with (poch (a + INR k + 1 + 1) m * (a + INR k + 1 + 1 + INR m)).
  pose proof (fact_ne m). pose proof (fact_ne k). pose proof (pos_INR m). field. repeat split; lra.
Qed.
Lemma lagc_diag : forall a b n, lagc a n n = lagc b n n.
Proof. intros a b n. unfold lagc. rewrite Nat.sub_diag. reflexivity. Qed.
Lemma lag_I1 : forall a n t, lag a (S n) t = lag (a + 1) (S n) t - lag (a + 1) n t.
Proof.
  intros a n t. unfold lag. cbn [sum_f_R0]. rewrite (lagc_diag a (a + 1) (S n)).
  rewrite (sum_eq (fun k => lagc a (S n) k * t ^ k) (fun k => lagc (a + 1) (S n) k * t ^ k - lagc (a + 1) n k * t ^ k) n)
    by (intros k H; rewrite lagc_I1 by exact H; ring).
  rewrite minus_sum. ring.
Qed.
Lemma lag_0 : forall a t, lag a 0 t = 1.
Proof. intros a t. unfold lag, lagc. cbn. field. Qed.

(** t L_n^(a+1) = (n + a + 1) L_n^a - (n + 1) L_(n+1)^a *)
Lemma lagc_I3 : forall a n k, (k < n)%nat -> lagc (a + 1) n k = (INR n + a + 1) * lagc a n (S k) - (INR n + 1) * lagc a (S n) (S k).
Proof.
  intros a n k H. unfold lagc. rewrite Nat.sub_succ. destruct (n - k)%nat as [|m] eqn:E; [lia|].
  replace (n - S k)%nat with m by lia. rewrite !fact_S_R, S_INR.
  assert (Em : INR n = INR k + INR m + 1) by (replace n with (S (k + m)) by lia; rewrite S_INR, plus_INR; ring).
  rewrite Em. replace (a + (INR k + 1) + 1) with (a + 1 + INR k + 1) by ring. cbn [poch pow].
  pose proof (fact_ne m). pose proof (fact_ne k). pose proof (pos_INR m). pose proof (pos_INR k). field. repeat split; lra.
Qed.
Lemma lagc_I3_last : forall a n, lagc (a + 1) n n = - (INR n + 1) * lagc a (S n) (S n).
Proof.
  intros a n. unfold lagc. rewrite !Nat.sub_diag, fact_S_R. cbn [poch pow fact].
  pose proof (fact_ne n). pose proof (pos_INR n). change (INR 1) with 1. field. split; lra.
Qed.
Lemma lagc_I3_0 : forall a n, (INR n + a + 1) * lagc a n 0 = (INR n + 1) * lagc a (S n) 0.
Proof.
  intros a n. unfold lagc. rewrite !Nat.sub_0_r, fact_S_R. cbn [poch pow fact]. change (INR 1) with 1. change (INR 0) with 0.
  pose proof (fact_ne n). pose proof (pos_INR n). field. split; lra.
Qed.
Lemma sum_shift : forall f n, sum_f_R0 f (S n) = f 0%nat + sum_f_R0 (fun k => f (S k)) n.
Proof. intros f n. rewrite decomp_sum by lia. reflexivity. Qed.
Lemma lag_I3 : forall a n t, t * lag (a + 1) n t = (INR n + a + 1) * lag a n t - (INR n + 1) * lag a (S n) t.
Proof.
  intros a n t. unfold lag.
  rewrite (sum_shift (fun k => lagc a (S n) k * t ^ k)).
  destruct n as [|n].
  - cbn [sum_f_R0]. rewrite (lagc_I3_last a 0). pose proof (lagc_I3_0 a 0) as E. cbn [pow]. change (INR 0) with 0 in *. nra.
  - rewrite (sum_shift (fun k => lagc a (S n) k * t ^ k)). cbn [sum_f_R0].
    rewrite (lagc_I3_last a (S n)). pose proof (lagc_I3_0 a (S n)) as E0.
    assert (E : t * sum_f_R0 (fun k => lagc (a + 1) (S n) k * t ^ k) n
              = (INR (S n) + a + 1) * sum_f_R0 (fun k => lagc a (S n) (S k) * t ^ (S k)) n
                - (INR (S n) + 1) * sum_f_R0 (fun k => lagc a (S (S n)) (S k) * t ^ (S k)) n).
    { rewrite !scal_sum, <- minus_sum. apply sum_eq. intros k H. rewrite (lagc_I3 a (S n) k) by lia. cbn [pow]. ring. }
    rewrite Rmult_plus_distr_l, E. cbn [pow]. 
    replace ((INR (S n) + a + 1) * (lagc a (S n) 0 * 1 + sum_f_R0 (fun k => lagc a (S n) (S k) * (t * t ^ k)) n))
      with ((INR (S n) + a + 1) * lagc a (S n) 0 + (INR (S n) + a + 1) * sum_f_R0 (fun k => lagc a (S n) (S k) * (t * t ^ k)) n) by ring.
    rewrite E0. ring.
Qed.

(** (n + 1) L_(n+1) = (2 n + 1 + a - t) L_n - (n + a) L_(n-1) *)
Lemma lag_three : forall a n t, (INR n + 2) * lag a (S (S n)) t = (2 * INR n + 3 + a - t) * lag a (S n) t - (INR n + 1 + a) * lag a n t.
Proof.
  intros a n t. pose proof (lag_I3 a (S n) t) as H1. pose proof (lag_I3 a n t) as H2. pose proof (lag_I1 a n t) as H3. rewrite S_INR in H1.
  replace (t * lag (a + 1) (S n) t) with (t * lag a (S n) t + t * lag (a + 1) n t) in H1 by (rewrite H3; ring). lra.
Qed.
Lemma lag_1 : forall a t, lag a 1 t = a + 1 - t.
Proof. intros a t. unfold lag, lagc. cbn. field. Qed.

(** derivative: (L_n^a)' = - L_(n-1)^(a+1) *)
Lemma lagc_I2 : forall a n k, (k <= n)%nat -> INR (S k) * lagc a (S n) (S k) = - lagc (a + 1) n k.
Proof.
  intros a n k H. unfold lagc. rewrite Nat.sub_succ, fact_S_R, S_INR. replace (a + (INR k + 1) + 1) with (a + 1 + INR k + 1) by ring.
  cbn [pow]. pose proof (fact_ne (n - k)). pose proof (fact_ne k). pose proof (pos_INR k). field. repeat split; lra.
Qed.
Lemma derivable_sum : forall (f f' : nat -> R -> R) n x, (forall k, (k <= n)%nat -> derivable_pt_lim (f k) x (f' k x)) ->
  derivable_pt_lim (fun t => sum_f_R0 (fun k => f k t) n) x (sum_f_R0 (fun k => f' k x) n).
Proof.
  intros f f' n x. induction n as [|n IH]; intros H; cbn [sum_f_R0]; [apply H; lia|].
  apply (derivable_pt_lim_plus (fun t => sum_f_R0 (fun k => f k t) n) (f (S n)) x); [apply IH; intros k Hk; apply H; lia|apply H; lia].
Qed.
Lemma derivable_mono : forall c k x, derivable_pt_lim (fun t => c * t ^ k) x (c * (INR k * x ^ pred k)).
Proof. intros c k x. apply (derivable_pt_lim_scal (fun t => t ^ k)), derivable_pt_lim_pow. Qed.
Lemma lag_derivative : forall a n x, derivable_pt_lim (lag a (S n)) x (- lag (a + 1) n x).
Proof.
  intros a n x. replace (- lag (a + 1) n x) with (sum_f_R0 (fun k => lagc a (S n) k * (INR k * x ^ pred k)) (S n)).
  - apply (derivable_sum (fun k t => lagc a (S n) k * t ^ k) (fun k t => lagc a (S n) k * (INR k * t ^ pred k))). intros k _. apply derivable_mono.
  - rewrite sum_shift. change (INR 0) with 0. unfold lag. replace (- sum_f_R0 (fun k => lagc (a + 1) n k * x ^ k) n) with (-1 * sum_f_R0 (fun k => lagc (a + 1) n k * x ^ k) n) by ring.
    rewrite scal_sum. rewrite Rmult_0_l, Rmult_0_r, Rplus_0_l. apply sum_eq. intros k H. cbn [pred]. rewrite <- Rmult_assoc, (Rmult_comm (lagc _ _ _)), lagc_I2 by exact H. ring.
Qed.
Lemma lag_derivative0 : forall a x, derivable_pt_lim (lag a 0) x 0.
Proof.
  intros a x. replace 0 with (lagc a 0 0 * (INR 0 * x ^ pred 0)) by (cbn; ring).
  apply (derivable_mono (lagc a 0 0) 0 x).
Qed.
(** the mean of L_n for the weight t^a e^-t vanishes *)
Lemma lagc_mean : forall a n k, (k <= n)%nat -> lagc a n k * poch (a + 1) k = poch (a + 1) n / INR (fact n) * (C n k * (-1) ^ k * 1 ^ (n - k)).
Proof.
  intros a n k H. unfold lagc, C. rewrite pow1. replace n with (k + (n - k))%nat at 3 by lia. rewrite poch_add.
  replace (a + 1 + INR k) with (a + INR k + 1) by ring.
  pose proof (fact_ne n). pose proof (fact_ne (n - k)). pose proof (fact_ne k). field. repeat split; assumption.
Qed.
Lemma lag_mean : forall a n, (0 < n)%nat -> sum_f_R0 (fun k => lagc a n k * poch (a + 1) k) n = 0.
Proof.
  intros a n H. rewrite (sum_eq _ (fun k => (C n k * (-1) ^ k * 1 ^ (n - k)) * (poch (a + 1) n / INR (fact n)))) by (intros k Hk; rewrite lagc_mean by exact Hk; ring).
  rewrite <- scal_sum, <- binomial. replace (-1 + 1) with 0 by ring. rewrite pow_i by exact H. ring.
Qed.
