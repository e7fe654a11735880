(** The oscillator functions of the code in closed form. *)
From Coq Require Import List ZArith Reals Bool Lra Lia.
From Verif Require Import Base WfModel WfSpec WfLag WfInt.
Import ListNotations.
Open Scope R_scope.

(** * double *)
Lemma sgn_pos : forall x, 0 < x -> sgn x = Gt.
Proof. intros x H. unfold sgn. destruct (total_order_T x 0) as [[A|A]|A]; try lra; reflexivity. Qed.
Lemma sgn_neg : forall x, x < 0 -> sgn x = Lt.
Proof. intros x H. unfold sgn. destruct (total_order_T x 0) as [[A|A]|A]; try lra; reflexivity. Qed.
Lemma sgn_zero : forall x, x = 0 -> sgn x = Eq.
Proof. intros x H. unfold sgn. destruct (total_order_T x 0) as [[A|A]|A]; try lra; reflexivity. Qed.
Lemma fdiv_pos : forall x y, 0 < y -> fdiv (Fin x) (Fin y) = Fin (x / y).
Proof. intros x y H. unfold fdiv. rewrite sgn_pos by exact H. reflexivity. Qed.
Lemma fsqrt_nonneg : forall x, 0 <= x -> fsqrt (Fin x) = Fin (sqrt x).
Proof. intros x H. unfold fsqrt, sgn. destruct (total_order_T x 0) as [[A|A]|A]; try lra; reflexivity. Qed.
Lemma Rpower_0 : forall x, Rpower x 0 = 1.
Proof. intros x. unfold Rpower. rewrite Rmult_0_l. apply exp_0. Qed.
Lemma fpow_pos : forall x p, 0 < x -> fpow (Fin x) p = Fin (Rpower x p).
Proof.
  intros x p H. unfold fpow. rewrite (sgn_pos x H). unfold sgn. destruct (total_order_T p 0) as [[A|A]|A]; try reflexivity. rewrite A, Rpower_0. reflexivity.
Qed.
Lemma fmul_NaN_r : forall a, fmul a NaN = NaN.
Proof. intros [| |]; reflexivity. Qed.

(** * the loop, point by point *)
Section Point.
Variable tgamma : R -> R.
Fixpoint wfs (pos : bool) (l : Z) (x2 w0 : fl) (k : nat) : fl * fl :=
  match k with
  | O => (rec1 pos l x2 w0, w0)
  | S j => let (a, b) := wfs pos l x2 w0 j in (recn pos (Z.of_nat (j + 2)) l x2 a b, a)
  end.
Definition point (pos : bool) (l : Z) (b shift : R) (n : nat) (c : fl) : fl :=
  let x2 := unitless pos b c in let w0 := rec0 tgamma pos l b shift x2 in match n with O => w0 | S k => fst (wfs pos l x2 w0 k) end.
Lemma wfs_snd : forall pos l b shift c k, snd (wfs pos l (unitless pos b c) (rec0 tgamma pos l b shift (unitless pos b c)) k) = point pos l b shift k c.
Proof. intros pos l b shift c [|k]; [reflexivity|]. unfold point. cbn [wfs]. destruct (wfs _ _ _ _ k); reflexivity. Qed.
Lemma point_step : forall pos l b shift c k, point pos l b shift (S (S k)) c
  = recn pos (Z.of_nat (k + 2)) l (unitless pos b c) (point pos l b shift (S k) c) (point pos l b shift k c).
Proof.
  intros pos l b shift c k. rewrite <- (wfs_snd pos l b shift c k). unfold point. cbn [wfs]. destruct (wfs _ _ _ _ k); reflexivity.
Qed.
Lemma zip2_map : forall (A : Type) f (g h : A -> fl) l, zip2 f (map g l) (map h l) = map (fun x => f (g x) (h x)) l.
Proof. intros A f g h l. induction l as [|x l IH]; [reflexivity|]. cbn. rewrite IH. reflexivity. Qed.
Lemma zip3_map : forall (A : Type) f (g h k : A -> fl) l, zip3 f (map g l) (map h l) (map k l) = map (fun x => f (g x) (h x) (k x)) l.
Proof. intros A f g h k l. induction l as [|x l IH]; [reflexivity|]. cbn. rewrite IH. reflexivity. Qed.

Section Loop.
Variables (pos : bool) (l : Z) (b shift : R) (coord : list fl).
Definition row (i : nat) : list fl := map (point pos l b shift i) coord.
Lemma row_step : forall k, zip3 (recn pos (Z.of_nat (k + 2)) l) (map (unitless pos b) coord) (row (S k)) (row k) = row (S (S k)).
Proof. intros k. unfold row. rewrite zip3_map. apply map_ext. intros c. symmetry. apply point_step. Qed.
Lemma row0 : map (rec0 tgamma pos l b shift) (map (unitless pos b) coord) = row 0.
Proof. unfold row. rewrite map_map. reflexivity. Qed.
Lemma row1 : zip2 (rec1 pos l) (map (unitless pos b) coord) (row 0) = row 1.
Proof. unfold row. rewrite zip2_map. reflexivity. Qed.
Lemma rev_seq2 : forall (A : Type) (f : nat -> A) k, rev (map f (seq 0 (k + 2))) = f (S k) :: f k :: rev (map f (seq 0 k)).
Proof.
  intros A f k. replace (k + 2)%nat with (S (S k)) by lia. rewrite !seq_S, !map_app, !rev_app_distr. reflexivity.
Qed.
Lemma wf_loop_rows : forall fuel k, wf_loop pos l (map (unitless pos b) coord) (Z.of_nat (k + 2)) fuel (rev (map row (seq 0 (k + 2))))
  = rev (map row (seq 0 (k + 2 + fuel))).
Proof.
  induction fuel as [|f IH]; intros k; [rewrite Nat.add_0_r; cbn; reflexivity|].
  rewrite rev_seq2. cbn [wf_loop]. rewrite row_step. replace (Z.of_nat (k + 2) + 1)%Z with (Z.of_nat (S k + 2)) by lia.
  rewrite <- (rev_seq2 _ row k).
  replace (row (S (S k)) :: rev (map row (seq 0 (k + 2)))) with (rev (map row (seq 0 (S k + 2)))).
  - rewrite IH. replace (S k + 2 + f)%nat with (k + 2 + S f)%nat by lia. reflexivity.
  - replace (S k + 2)%nat with (S (k + 2)) by lia. rewrite seq_S, map_app, rev_app_distr. cbn [rev map app]. replace (0 + (k + 2))%nat with (S (S k)) by lia. reflexivity.
Qed.
Lemma wave_functions_rows : forall nmax, wave_functions tgamma pos nmax l b coord shift = map row (seq 0 (Z.to_nat (nmax + 1))).
Proof.
  intros nmax. unfold wave_functions. destruct (Z.ltb_spec nmax 0) as [L|L]; [replace (Z.to_nat (nmax + 1)) with 0%nat by lia; reflexivity|].
  rewrite row0. destruct (Z.eqb_spec nmax 0) as [E|E]; [subst nmax; reflexivity|]. rewrite row1. destruct (Z.eqb_spec nmax 1) as [E1|E1]; [subst nmax; reflexivity|].
  pose proof (wf_loop_rows (Z.to_nat (nmax - 1)) 0) as W. change (Z.of_nat (0 + 2)) with 2%Z in W. change (rev (map row (seq 0 (0 + 2)))) with [row 1; row 0] in W.
  rewrite W, rev_involutive. f_equal. f_equal. lia.
Qed.
Lemma wave_functions_nth : forall nmax n, (Z.of_nat n <= nmax)%Z -> nth_error (wave_functions tgamma pos nmax l b coord shift) n = Some (row n).
Proof.
  intros nmax n H. rewrite wave_functions_rows. rewrite nth_error_map.
  rewrite (nth_error_nth' (seq 0 (Z.to_nat (nmax + 1))) 0%nat) by (rewrite seq_length; lia). rewrite seq_nth by lia. reflexivity.
Qed.
(** ** one function *)
Lemma swap_loop_rows : forall fuel k m2, swap_loop pos l (map (unitless pos b) coord) (Z.of_nat (k + 2)) fuel (row (S k)) (row k) m2 = row (S k + fuel).
Proof.
  induction fuel as [|f IH]; intros k m2; [rewrite Nat.add_0_r; reflexivity|].
  cbn [swap_loop]. rewrite row_step. replace (Z.of_nat (k + 2) + 1)%Z with (Z.of_nat (S k + 2)) by lia. rewrite IH. f_equal. lia.
Qed.
Lemma wave_function_row : forall n, wave_function tgamma pos (Z.of_nat n) l b coord shift = row n.
Proof.
  intros n. unfold wave_function. destruct (Z.ltb_spec (Z.of_nat n) 0) as [L|L]; [lia|]. rewrite row0.
  destruct (Z.eqb_spec (Z.of_nat n) 0) as [E|E]; [replace n with 0%nat by lia; reflexivity|]. rewrite row1.
  destruct (Z.eqb_spec (Z.of_nat n) 1) as [E1|E1]; [replace n with 1%nat by lia; reflexivity|].
  pose proof (swap_loop_rows (Z.to_nat (Z.of_nat n - 1)) 0 []) as W. change (Z.of_nat (0 + 2)) with 2%Z in W. rewrite W. f_equal. lia.
Qed.
Lemma wave_function_same : forall nmax n, (Z.of_nat n <= nmax)%Z ->
  nth_error (wave_functions tgamma pos nmax l b coord shift) n = Some (wave_function tgamma pos (Z.of_nat n) l b coord shift).
Proof. intros nmax n H. rewrite wave_function_row. apply wave_functions_nth, H. Qed.
Lemma wave_function_neg : forall n, (n < 0)%Z -> wave_function tgamma pos n l b coord shift = [] /\ wave_functions tgamma pos n l b coord shift = [].
Proof. intros n H. unfold wave_function, wave_functions. destruct (Z.ltb_spec n 0); [split; reflexivity|lia]. Qed.
End Loop.
Lemma wave_function1_0 : forall pos l b c shift, wave_function1 tgamma pos 0 l b c shift = Ok (point pos l b shift 0 c).
Proof. reflexivity. Qed.
Lemma wave_function1_UB : forall pos n l b c shift, (0 < n)%Z -> wave_function1 tgamma pos n l b c shift = UB.
Proof.
  intros pos n l b c shift H. unfold wave_function1. destruct (Z.ltb_spec n 0) as [L|L]; [lia|]. destruct (Z.eqb_spec n 0) as [E|E]; [lia|]. reflexivity.
Qed.
End Point.

(** * closed form *)
Section Closed.
Variables (g : R) (l : nat) (b : R).
Hypotheses (Hg : 0 < g) (Hb : 0 < b).
Definition cn (n : nat) : R := sqrt (2 * INR (fact n) / (b * (g * poch (INR l + 3 / 2) n))).
Lemma l32 : 0 < INR l + 3 / 2.
Proof. pose proof (pos_INR l). lra. Qed.
Lemma cn_arg : forall n, 0 < 2 * INR (fact n) / (b * (g * poch (INR l + 3 / 2) n)).
Proof.
  intros n. pose proof (fact_pos n). pose proof (poch_pos n _ l32). apply Rdiv_lt_0_compat; [lra|]. apply Rmult_lt_0_compat; [exact Hb|]. apply Rmult_lt_0_compat; assumption.
Qed.
Lemma cn_pos : forall n, 0 < cn n.
Proof. intros n. apply sqrt_lt_R0, cn_arg. Qed.
Lemma cn_S : forall n, cn (S n) * sqrt (INR n + INR l + 3 / 2) = cn n * sqrt (INR n + 1).
Proof.
  intros n. pose proof (pos_INR n). pose proof (pos_INR l). unfold cn. rewrite <- !sqrt_mult; try lra; try (left; apply cn_arg).
  f_equal. cbn [poch]. rewrite fact_S_R. pose proof (fact_pos n). pose proof (poch_pos n _ l32). field. repeat split; lra.
Qed.
Lemma sqrt_sq : forall x, 0 <= x -> sqrt x * sqrt x = x.
Proof. apply sqrt_sqrt. Qed.
Lemma div_mul : forall x y, y <> 0 -> x / y * y = x.
Proof. intros x y H. field. exact H. Qed.
(** the recurrences of the code, for the closed form with any common factor *)
Lemma closed_1 : forall X t, cn 1 * (X * lag (INR l + 1 / 2) 1 t) = (3 / 2 + INR l - t) / sqrt (INR l + 3 / 2) * (cn 0 * (X * lag (INR l + 1 / 2) 0 t)).
Proof.
  intros X t. rewrite lag_1, lag_0. pose proof (cn_S 0) as E. change (INR 0) with 0 in E.
  replace (0 + INR l + 3 / 2) with (INR l + 3 / 2) in E by ring. replace (0 + 1) with 1 in E by ring. rewrite sqrt_1 in E.
  pose proof (sqrt_lt_R0 _ l32) as P. replace (cn 0) with (cn 1 * sqrt (INR l + 3 / 2)) by lra. field. lra.
Qed.
Lemma closed_n : forall n X t, cn (S (S n)) * (X * lag (INR l + 1 / 2) (S (S n)) t)
  = ((2 * (INR n + 2) + INR l - 1 / 2 - t) * (cn (S n) * (X * lag (INR l + 1 / 2) (S n) t))
     - sqrt ((INR n + 1) * (INR n + 2 + INR l - 1 / 2)) * (cn n * (X * lag (INR l + 1 / 2) n t))) / sqrt ((INR n + 2) * (INR n + 2 + INR l + 1 / 2)).
Proof.
  intros n X t. pose proof (pos_INR n) as Hn. pose proof (pos_INR l) as Hl.
  pose proof (cn_S n) as E0. pose proof (cn_S (S n)) as E1. rewrite S_INR in E1.
  replace (INR n + 1 + INR l + 3 / 2) with (INR n + 2 + INR l + 1 / 2) in E1 by field. replace (INR n + 1 + 1) with (INR n + 2) in E1 by ring.
  replace (INR n + INR l + 3 / 2) with (INR n + 2 + INR l - 1 / 2) in E0 by field.
  pose proof (lag_three (INR l + 1 / 2) n t) as T.
  set (p := sqrt (INR n + 1)) in *. set (q := sqrt (INR n + 2 + INR l - 1 / 2)) in *.
  set (u := sqrt (INR n + 2)) in *. set (v := sqrt (INR n + 2 + INR l + 1 / 2)) in *.
  assert (Q2 : q * q = INR n + 2 + INR l - 1 / 2) by (apply sqrt_sqrt; lra). assert (U2 : u * u = INR n + 2) by (apply sqrt_sqrt; lra).
  assert (PU : 0 < u) by (apply sqrt_lt_R0; lra). assert (PV : 0 < v) by (apply sqrt_lt_R0; lra). assert (PQ : 0 < q) by (apply sqrt_lt_R0; lra).
  rewrite (sqrt_mult (INR n + 1)), (sqrt_mult (INR n + 2)) by lra. fold p q u v.
  apply (Rmult_eq_reg_r (u * v)); [|nra]. rewrite div_mul by nra.
  set (L2 := lag (INR l + 1 / 2) (S (S n)) t) in *. set (L1 := lag (INR l + 1 / 2) (S n) t) in *. set (L0 := lag (INR l + 1 / 2) n t) in *.
  replace (cn (S (S n)) * (X * L2) * (u * v)) with ((cn (S (S n)) * v) * (X * u * L2)) by ring. rewrite E1.
  replace (cn (S n) * u * (X * u * L2)) with (cn (S n) * X * (u * u * L2)) by ring. rewrite U2, T.
  replace (p * q * (cn n * (X * L0))) with (cn n * p * (q * X * L0)) by ring. rewrite <- E0.
  replace (cn (S n) * q * (q * X * L0)) with (cn (S n) * X * (q * q * L0)) by ring. rewrite Q2. field.
Qed.
End Closed.

Section Wave.
Variables (tgamma : R -> R) (l : nat) (b shift : R).
Hypotheses (Hg : 0 < tgamma (INR l + 3 / 2)) (Hb : 0 < b).
Lemma IZR_l : IZR (Z.of_nat l) = INR l.
Proof. symmetry. apply INR_IZR_INZ. Qed.
(** the common factor at a point *)
Lemma rec1_fin : forall t w, rec1 true (Z.of_nat l) (Fin t) (Fin w) = Fin ((3 / 2 + INR l - t) / sqrt (INR l + 3 / 2) * w).
Proof.
  intros t w. unfold rec1, coord_sign. rewrite IZR_l, fsqrt_nonneg by (pose proof (pos_INR l); lra). cbn [fsub fadd fneg].
  rewrite fdiv_pos by (apply sqrt_lt_R0, l32). cbn [fmul]. f_equal. unfold Rminus. ring.
Qed.
Lemma recn_fin : forall k t w1 w2, recn true (Z.of_nat (k + 2)) (Z.of_nat l) (Fin t) (Fin w1) (Fin w2)
  = Fin (((2 * (INR k + 2) + INR l - 1 / 2 - t) * w1 - sqrt ((INR k + 1) * (INR k + 2 + INR l - 1 / 2)) * w2) / sqrt ((INR k + 2) * (INR k + 2 + INR l + 1 / 2))).
Proof.
  intros k t w1 w2. pose proof (pos_INR k). pose proof (pos_INR l).
  assert (K : IZR (Z.of_nat k) = INR k) by (symmetry; apply INR_IZR_INZ).
  unfold recn, coord_sign. rewrite !Nat2Z.inj_add, ?minus_IZR, ?plus_IZR, ?mult_IZR, ?plus_IZR, IZR_l, K. change (IZR (Z.of_nat 2)) with 2.
  rewrite !fsqrt_nonneg by nra. cbn [fneg fadd fmul fsub]. rewrite fdiv_pos by (apply sqrt_lt_R0; nra). f_equal. f_equal.
  replace (INR k + 2 - 1) with (INR k + 1) by ring. unfold Rminus. ring.
Qed.
Lemma point_closed : forall c t X, unitless true b c = Fin t -> rec0 tgamma true (Z.of_nat l) b shift (Fin t) = Fin (cn (tgamma (INR l + 3 / 2)) l b 0 * X) ->
  forall n, point tgamma true (Z.of_nat l) b shift n c = Fin (cn (tgamma (INR l + 3 / 2)) l b n * (X * lag (INR l + 1 / 2) n t)).
Proof.
  intros c t X Hc H0. set (g := tgamma (INR l + 3 / 2)) in *.
  assert (P0 : point tgamma true (Z.of_nat l) b shift 0 c = Fin (cn g l b 0 * (X * lag (INR l + 1 / 2) 0 t))).
  { unfold point. rewrite Hc, H0, lag_0. f_equal. ring. }
  assert (P1 : point tgamma true (Z.of_nat l) b shift 1 c = Fin (cn g l b 1 * (X * lag (INR l + 1 / 2) 1 t))).
  { change (point tgamma true (Z.of_nat l) b shift 1 c) with (rec1 true (Z.of_nat l) (unitless true b c) (point tgamma true (Z.of_nat l) b shift 0 c)).
    rewrite P0, Hc, rec1_fin. f_equal. symmetry. apply closed_1; assumption. }
  assert (A : forall n, point tgamma true (Z.of_nat l) b shift n c = Fin (cn g l b n * (X * lag (INR l + 1 / 2) n t))
              /\ point tgamma true (Z.of_nat l) b shift (S n) c = Fin (cn g l b (S n) * (X * lag (INR l + 1 / 2) (S n) t))).
  { induction n as [|n [I1 I2]]; [split; assumption|]. split; [exact I2|]. rewrite point_step, I1, I2, Hc, recn_fin. f_equal. symmetry. apply closed_n; assumption. }
  intros n. apply A.
Qed.
Lemma rec0_norm : fmul (fsqrt (fdiv (Fin 2) (Fin (b * tgamma (INR l + 3 / 2))))) (fpow (Fin b) shift) = Fin (cn (tgamma (INR l + 3 / 2)) l b 0 * Rpower b shift).
Proof.
  set (g := tgamma (INR l + 3 / 2)) in *. assert (0 < b * g) by (apply Rmult_lt_0_compat; assumption).
  rewrite fdiv_pos by assumption. rewrite fsqrt_nonneg by (left; apply Rdiv_lt_0_compat; lra). rewrite fpow_pos by exact Hb. cbn [fmul].
  f_equal. f_equal. unfold cn. cbn [poch fact]. f_equal. change (INR 1) with 1. field. lra.
Qed.
Lemma unitless_fin : forall r, unitless true b (Fin r) = Fin ((r / b) * (r / b)).
Proof. intros r. unfold unitless. cbn [fmul]. rewrite fdiv_pos by nra. f_equal. field. lra. Qed.
Lemma Rpower_half : forall x p, 0 < x -> Rpower (x * x) (p / 2) = Rpower x p.
Proof. intros x p H. unfold Rpower. rewrite ln_mult by assumption. f_equal. field. Qed.
Lemma rec0_pos : forall r, 0 < r -> rec0 tgamma true (Z.of_nat l) b shift (Fin ((r / b) * (r / b)))
  = Fin (cn (tgamma (INR l + 3 / 2)) l b 0 * (Rpower r shift * ((r / b) ^ (l + 1) * exp (- ((r / b) * (r / b)) / 2)))).
Proof.
  intros r Hr. assert (Hx : 0 < r / b) by (apply Rdiv_lt_0_compat; assumption). set (x := r / b) in *.
  unfold rec0. rewrite IZR_l, rec0_norm. cbn [fneg]. rewrite fdiv_pos by lra. cbn [fexp fmul]. rewrite fpow_pos by nra. cbn [fmul]. f_equal.
  rewrite Rpower_half by exact Hx. rewrite Rpower_plus. replace (INR l + 1) with (INR (l + 1)) by (rewrite plus_INR; reflexivity). rewrite Rpower_pow by exact Hx.
  assert (E : Rpower b shift * Rpower x shift = Rpower r shift).
  { rewrite Rpower_mult_distr by assumption. f_equal. unfold x. field. lra. }
  rewrite <- E. ring.
Qed.
Lemma point_pos : forall n r, 0 < r -> point tgamma true (Z.of_nat l) b shift n (Fin r) = Fin (Rpower r shift * osc (tgamma (INR l + 3 / 2)) n l b r).
Proof.
  intros n r Hr. rewrite (point_closed (Fin r) _ _ (unitless_fin r) (rec0_pos r Hr)). f_equal. unfold osc, cn. ring.
Qed.
Lemma point_zero : forall n, 0 < INR l + 1 + shift -> point tgamma true (Z.of_nat l) b shift n (Fin 0) = Fin 0.
Proof.
  intros n Hs. assert (E : rec0 tgamma true (Z.of_nat l) b shift (Fin ((0 / b) * (0 / b))) = Fin (cn (tgamma (INR l + 3 / 2)) l b 0 * 0)).
  { unfold rec0. rewrite IZR_l, rec0_norm. cbn [fneg]. rewrite fdiv_pos by lra. cbn [fexp fmul].
    assert (Z0 : 0 / b * (0 / b) = 0) by (field; lra). unfold fpow. rewrite sgn_pos by lra. rewrite (sgn_zero _ Z0). cbn [fmul]. f_equal. ring. }
  rewrite (point_closed (Fin 0) _ _ (unitless_fin 0) E). f_equal. ring.
Qed.
Lemma point_inf : forall n, 0 < INR l + 1 + shift -> point tgamma true (Z.of_nat l) b shift n (Inf true) = NaN.
Proof.
  intros n Hs. assert (X : unitless true b (Inf true) = Inf true).
  { unfold unitless. cbn [fmul Bool.eqb]. unfold fdiv. rewrite sgn_pos by nra. reflexivity. }
  assert (E : rec0 tgamma true (Z.of_nat l) b shift (Inf true) = NaN).
  { unfold rec0. rewrite IZR_l, rec0_norm. cbn [fneg negb]. unfold fdiv. rewrite sgn_pos by lra. cbn [fexp fmul]. unfold fpow. rewrite sgn_pos by lra.
    cbn [fmul]. unfold inf_times. rewrite sgn_zero by ring. reflexivity. }
  assert (A : forall k, fst (wfs true (Z.of_nat l) (Inf true) NaN k) = NaN /\ snd (wfs true (Z.of_nat l) (Inf true) NaN k) = NaN).
  { induction k as [|k [I1 I2]]; [split; [unfold wfs, rec1; cbn [fst]; apply fmul_NaN_r|reflexivity]|].
    cbn [wfs]. destruct (wfs _ _ _ _ k) as [u v]. cbn [fst snd] in *. subst u v. split; [|reflexivity]. unfold recn. rewrite !fmul_NaN_r. reflexivity. }
  unfold point. rewrite X, E. destruct n as [|k]; [reflexivity|apply A].
Qed.
End Wave.
