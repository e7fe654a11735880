(** The recursion of the brackets as a statement about r1^2, the exchange of the particles, and the seeds. *)
From Coq Require Import List ZArith Reals Bool Lia Lra.
From Verif Require Import Base RMat OscModel OscSpec MoshModel MoshProof.
Import ListNotations.
Open Scope Z_scope.
Open Scope outcome_scope.

(** ** Vocabulary: operators on oscillator states, from radial_oscillator_me.h *)
(** radial element of r between (n, l) and (n', l') with one quantum less *)
Definition r_up (n l n' l' : Z) : R := (val (cdagger (2 * n + l) l (2 * n' + l') l') / sqrt 2)%R.
(** radial element of r^2 between (n, l) and (n-1, l) *)
Definition rsq_up (n l : Z) : R := val (coordinate_sqr (2 * n + l) l (2 * (n - 1) + l) l 1).
(** reduced element <l || C1 || l'> of the unit vector (Edmonds) *)
Definition c1 (l l' : Z) : R := if l' =? l - 1 then sqrt (IZR l) else if l' =? l + 1 then (- sqrt (IZR (l + 1)))%R else 0%R.
(** element of r . R, of relative and centre-of-mass motion, between states coupled to L: scalar product of two vectors *)
Definition dot_up (w6j : Z -> Z -> Z -> Z -> Z -> Z -> R) (m1 d1 m2 d2 m1' d1' m2' d2' L : Z) : R :=
  (parity_sign (d1' + d2 + L) * w6j d1 d1' 1%Z d2' d2 L * (c1 d1 d1' * r_up m1 d1 m1' d1') * (c1 d2 d2' * r_up m2 d2 m2' d2'))%R.

Section PROOF.
Variable fmax : Z.
Variables w6j u6j : Z -> Z -> Z -> Z -> Z -> Z -> R.
Notation request := (request fmax w6j u6j).
(** the value of a bracket; by C39 the same after any history *)
Definition bval (k : key) : R := match returned (request k start) with Some v => v | None => 0%R end.

Lemma bval_value : forall k v, value fmax w6j u6j k (POk v) -> bval k = v.
Proof.
  intros k v H. unfold bval. pose proof (request_no_fuel fmax w6j u6j k start) as F. pose proof (bracket_agrees fmax w6j u6j (enough k) k start (sound_start fmax w6j u6j)) as A.
  unfold MoshModel.request in *. destruct (bracket fmax w6j u6j (enough k) k start) as [v' s'| |]; cbn [agrees returned] in *; [| |congruence].
  - pose proof (value_det _ _ _ _ _ _ H (proj1 A)) as E. injection E as E. congruence.
  - pose proof (value_det _ _ _ _ _ _ H A) as E. discriminate.
Qed.
Lemma padd_sum : forall d l acc v, padd (pure fmax w6j u6j d) l acc = POk v ->
  v = (acc + lsum l (fun t => if fst (fst t) then snd (fst t) * bval (snd t) else 0))%R.
Proof.
  intros d l. induction l as [|[[c x] k] l IH]; intros acc v H; cbn [padd lsum fst snd] in *; [injection H as <-; ring|]. destruct c.
  - destruct (pure fmax w6j u6j d k) as [w| |] eqn:E; try discriminate. apply IH in H. rewrite H. rewrite (bval_value k w); [ring|].
    split; [discriminate|]. exists d. exact E.
  - apply IH in H. rewrite H. ring.
Qed.
Lemma pure_exists : forall k, 2 * quanta k + 1 <= fmax -> exists d v, pure fmax w6j u6j d k = POk v /\ bval k = v.
Proof.
  intros k H. pose proof (request_no_fuel fmax w6j u6j k start) as F. pose proof (bracket_no_abort fmax w6j u6j (enough k) k start H) as NA.
  pose proof (bracket_agrees fmax w6j u6j (enough k) k start (sound_start fmax w6j u6j)) as A.
  unfold MoshModel.request in *. destruct (bracket fmax w6j u6j (enough k) k start) as [v s'| |]; try congruence.
  destruct A as [V _]. pose proof (bval_value k v V) as B. destruct V as [_ [d Hd]]. exists d, v. auto.
Qed.
Definition allowed_bracket (k : key) : Prop :=
  negative k = false /\ quanta_dot k = quanta k /\ allowed_triangle (l1_dot k) (l2_dot k) (kL k) = true /\ allowed_triangle (kl1 k) (kl2 k) (kL k) = true.

Lemma sqrt_half : forall a b, 0 <= a -> 0 <= b -> (sqrt (IZR ((2 * b + 1) * (2 * a))) * (1 / 2) = sqrt (IZR a * (IZR b + 1 / 2)))%R.
Proof.
  intros a b Ha Hb. apply IZR_le in Ha, Hb. assert (H : sqrt (/ 4) = (1 / 2)%R).
  { replace (/ 4)%R with ((1 / 2) * (1 / 2))%R by field. rewrite sqrt_square; lra. }
  rewrite <- H at 1. rewrite <- sqrt_mult_alt.
  - f_equal. rewrite !mult_IZR, plus_IZR, mult_IZR. field.
  - rewrite mult_IZR, plus_IZR, !mult_IZR. nra.
Qed.
Lemma rsq_up_ok : forall n l, 0 <= n -> 0 <= l -> rsq_up n l = (- sqrt (IZR n * (IZR n + IZR l + 1 / 2)))%R.
Proof.
  intros n l Hn Hl. unfold rsq_up, coordinate_sqr. replace (2 * n + l - (2 * (n - 1) + l)) with 2 by lia. rewrite Z.sub_diag. cbn [Z.eqb]. unfold fsqrt.
  destruct (Z.ltb_spec ((2 * (n - 1) + l + l + 3) * (2 * (n - 1) + l - l + 2)) 0); [nia|]. cbn [nscale val].
  replace ((2 * (n - 1) + l + l + 3) * (2 * (n - 1) + l - l + 2)) with ((2 * (n + l) + 1) * (2 * n)) by ring.
  rewrite <- plus_IZR. rewrite <- (sqrt_half n (n + l)) by lia. change (2 =? 2)%positive with true. cbn [val]. field.
Qed.
Lemma sqrt2_div : forall x, 0 <= x -> (sqrt (IZR x) / sqrt 2 = sqrt (IZR x / 2))%R.
Proof. intros x H. apply IZR_le in H. rewrite sqrt_div; [reflexivity|exact H|lra]. Qed.
Lemma r_up_more : forall n l, 0 <= n -> r_up n l (n - 1) (l + 1) = (- sqrt (IZR n))%R.
Proof.
  intros n l Hn. unfold r_up, cdagger. replace (2 * n + l - (2 * (n - 1) + (l + 1))) with 1 by lia. replace (l - (l + 1)) with (-1) by lia. cbn [Z.eqb]. unfold fsqrt.
  change (Pos.eqb 1 1) with true. cbv iota. replace (2 * (n - 1) + (l + 1) - (l + 1) + 2) with (2 * n) by ring. destruct (Z.ltb_spec (2 * n) 0); [lia|]. cbn [nscale val].
  replace (sqrt (IZR n)) with (sqrt (IZR (2 * n)) / sqrt 2)%R; [|rewrite sqrt2_div by lia; f_equal; rewrite mult_IZR; field]. field. apply Rgt_not_eq, sqrt_lt_R0. lra.
Qed.
Lemma r_up_less : forall n l, 0 <= n -> 0 <= l -> r_up n l n (l - 1) = sqrt (IZR n + IZR l + 1 / 2)%R.
Proof.
  intros n l Hn Hl. unfold r_up, cdagger. replace (2 * n + l - (2 * n + (l - 1))) with 1 by lia. replace (l - (l - 1)) with 1 by lia. cbn [Z.eqb]. unfold fsqrt.
  change (Pos.eqb 1 1) with true. cbv iota. destruct (Z.ltb_spec (2 * n + (l - 1) + (l - 1) + 3) 0); [lia|]. cbn [nscale val].
  rewrite sqrt2_div by lia. f_equal. rewrite !plus_IZR, mult_IZR, minus_IZR. field.
Qed.
Lemma c1_more : forall l, c1 l (l + 1) = (- sqrt (IZR (l + 1)))%R.
Proof. intros l. unfold c1. destruct (Z.eqb_spec (l + 1) (l - 1)); [lia|]. rewrite Z.eqb_refl. reflexivity. Qed.
Lemma c1_less : forall l, c1 l (l - 1) = sqrt (IZR l).
Proof. intros l. unfold c1. rewrite Z.eqb_refl. reflexivity. Qed.
Lemma parity_shift : forall z, parity_sign (z + 1) = (- parity_sign z)%R.
Proof. intros z. unfold parity_sign. rewrite Z.even_add. destruct (Z.even z); cbn; ring. Qed.
Lemma sqrt_zero : sqrt (IZR 0) = 0%R.
Proof. exact sqrt_0. Qed.

Lemma sqrt4 : forall a b c d, (0 <= a -> 0 <= b -> 0 <= c -> sqrt (a * b * c * d) = sqrt a * sqrt b * sqrt c * sqrt d)%R.
Proof. intros a b c d Ha Hb Hc. rewrite !sqrt_mult_alt; auto. apply Rmult_le_pos; auto. apply Rmult_le_pos; [apply Rmult_le_pos|]; auto. Qed.

Theorem recursion : forall k, allowed_bracket k -> 0 < kn1 k -> 2 * quanta k + 1 <= fmax ->
  let '(m1, d1, m2, d2) := (n1_dot k, l1_dot k, n2_dot k, l2_dot k) in
  let '(n1, l1, n2, l2, L) := (kn1 k, kl1 k, kn2 k, kl2 k, kL k) in
  (rsq_up n1 l1 * bval k =
   1 / 2 * rsq_up m1 d1 * bval (K (m1 - 1) d1 m2 d2 (n1 - 1) l1 n2 l2 L)
   + 1 / 2 * rsq_up m2 d2 * bval (K m1 d1 (m2 - 1) d2 (n1 - 1) l1 n2 l2 L)
   + (dot_up w6j m1 d1 m2 d2 (m1 - 1) (d1 + 1) (m2 - 1) (d2 + 1) L * bval (K (m1 - 1) (d1 + 1) (m2 - 1) (d2 + 1) (n1 - 1) l1 n2 l2 L)
      + dot_up w6j m1 d1 m2 d2 (m1 - 1) (d1 + 1) m2 (d2 - 1) L * bval (K (m1 - 1) (d1 + 1) m2 (d2 - 1) (n1 - 1) l1 n2 l2 L)
      + dot_up w6j m1 d1 m2 d2 m1 (d1 - 1) (m2 - 1) (d2 + 1) L * bval (K m1 (d1 - 1) (m2 - 1) (d2 + 1) (n1 - 1) l1 n2 l2 L)
      + dot_up w6j m1 d1 m2 d2 m1 (d1 - 1) m2 (d2 - 1) L * bval (K m1 (d1 - 1) m2 (d2 - 1) (n1 - 1) l1 n2 l2 L)))%R.
Proof.
  intros k (Hn & Hq & Ht1 & Ht2) Hn1 Hf. destruct (pure_exists k Hf) as (d & v & Ed & Ev).
  destruct d as [|d]; [discriminate|]. cbn [pure] in Ed. rewrite Hn, Hq, Z.eqb_refl, Ht1, Ht2 in Ed. cbn [negb orb] in Ed.
  destruct (Z.eqb_spec (kn1 k) 0); [lia|]. cbn [andb] in Ed. destruct (padd (pure fmax w6j u6j d) (terms w6j k) 0%R) as [w| |] eqn:Ew; try discriminate.
  injection Ed as Ed. apply padd_sum in Ew. rewrite Ev, <- Ed, Ew. clear Ev Ed Ew v w. apply (negative_false fmax w6j u6j) in Hn. destruct Hn as (H1 & H2 & H3 & H4 & H5 & H6 & H7 & H8).
  rewrite !rsq_up_ok by lia. unfold terms. cbn [lsum fst snd]. unfold dot_up.
  set (m1 := n1_dot k) in *. set (d1 := l1_dot k) in *. set (m2 := n2_dot k) in *. set (d2 := l2_dot k) in *. set (n1 := kn1 k) in *. set (l1 := kl1 k) in *. set (L := kL k) in *.
  rewrite !c1_more, !c1_less, !r_up_more, !r_up_less by lia.
  replace (d1 + 1 + d2 + L) with (d1 + d2 + L + 1) by ring. rewrite parity_shift.
  assert (Ep : parity_sign (d1 - 1 + d2 + L) = (- parity_sign (d1 + d2 + L))%R).
  { replace (d1 + d2 + L) with (d1 - 1 + d2 + L + 1) by ring. rewrite parity_shift. ring. } rewrite Ep.
  set (sg := parity_sign (d1 + d2 + L)).
  assert (Hs : (sqrt (IZR n1 * (IZR n1 + IZR l1 + 1 / 2)) <> 0)%R).
  { apply Rgt_not_eq, sqrt_lt_R0. apply IZR_lt in Hn1. apply IZR_le in H6. apply Rmult_lt_0_compat; lra. }
  apply IZR_le in H1 as R1. apply IZR_le in H2 as R2. apply IZR_le in H3 as R3. apply IZR_le in H4 as R4.
  set (S := sqrt (IZR n1 * (IZR n1 + IZR l1 + 1 / 2))) in *. apply Rmult_eq_reg_r with (/ S)%R; [|apply Rinv_neq_0_compat; exact Hs].
  match goal with |- (_ * ?B * / S = _)%R => replace (- S * B * / S)%R with (- (S * B * / S))%R by ring end.
  rewrite !mult_IZR. rewrite !sqrt4 by (rewrite ?plus_IZR; lra). rewrite !(sqrt_mult_alt (IZR _)) by lra.
  set (b1 := bval (K (m1 - 1) d1 m2 d2 (n1 - 1) l1 (kn2 k) (kl2 k) L)). set (b2 := bval (K m1 d1 (m2 - 1) d2 (n1 - 1) l1 (kn2 k) (kl2 k) L)).
  set (b3 := bval (K (m1 - 1) (d1 + 1) (m2 - 1) (d2 + 1) (n1 - 1) l1 (kn2 k) (kl2 k) L)). set (b4 := bval (K (m1 - 1) (d1 + 1) m2 (d2 - 1) (n1 - 1) l1 (kn2 k) (kl2 k) L)).
  set (b5 := bval (K m1 (d1 - 1) (m2 - 1) (d2 + 1) (n1 - 1) l1 (kn2 k) (kl2 k) L)). set (b6 := bval (K m1 (d1 - 1) m2 (d2 - 1) (n1 - 1) l1 (kn2 k) (kl2 k) L)).
  set (q1 := sqrt (IZR m1 + IZR d1 + 1 / 2)). set (q2 := sqrt (IZR m2 + IZR d2 + 1 / 2)).
  set (w1 := w6j d1 (d1 + 1) 1 (d2 + 1) d2 L). set (w2 := w6j d1 (d1 + 1) 1 (d2 - 1) d2 L). set (w3 := w6j d1 (d1 - 1) 1 (d2 + 1) d2 L). set (w4 := w6j d1 (d1 - 1) 1 (d2 - 1) d2 L).
  set (x1 := sqrt (IZR (d1 + 1))). set (x2 := sqrt (IZR (d2 + 1))).
  assert (Z0 : forall z, z = 0 -> sqrt (IZR z) = 0%R) by (intros z ->; exact sqrt_0).
  set (u1 := sqrt (IZR m1)) in *. set (u2 := sqrt (IZR m2)) in *. set (y1 := sqrt (IZR d1)) in *. set (y2 := sqrt (IZR d2)) in *.
  assert (U1 : m1 = 0 -> u1 = 0%R) by (apply Z0). assert (U2 : m2 = 0 -> u2 = 0%R) by (apply Z0). assert (Y1 : d1 = 0 -> y1 = 0%R) by (apply Z0). assert (Y2 : d2 = 0 -> y2 = 0%R) by (apply Z0).
  clearbody b1 b2 b3 b4 b5 b6 q1 q2 w1 w2 w3 w4 x1 x2 u1 u2 y1 y2 sg S.
  destruct (Z.eqb_spec m1 0) as [E1|E1]; [rewrite (U1 E1)|]; (destruct (Z.eqb_spec m2 0) as [E2|E2]; [rewrite (U2 E2)|]);
    (destruct (Z.eqb_spec d1 0) as [E3|E3]; [rewrite (Y1 E3)|]); (destruct (Z.eqb_spec d2 0) as [E4|E4]; [rewrite (Y2 E4)|]); cbn [negb andb]; field; exact Hs.
Qed.

(** the particles exchanged: r changes sign, and the coupling order changes *)
Theorem exchange : forall k, allowed_bracket k -> kn1 k = 0 -> 0 < kn2 k -> 2 * quanta k + 1 <= fmax ->
  bval k = (parity_sign (kl1 k + kl2 k - kL k) * parity_sign (l1_dot k) * bval (K (n1_dot k) (l1_dot k) (n2_dot k) (l2_dot k) (kn2 k) (kl2 k) (kn1 k) (kl1 k) (kL k)))%R.
Proof.
  intros k (Hn & Hq & Ht1 & Ht2) Hn1 Hn2 Hf. destruct (pure_exists k Hf) as (d & v & Ed & Ev).
  destruct d as [|d]; [discriminate|]. cbn [pure] in Ed. rewrite Hn, Hq, Z.eqb_refl, Ht1, Ht2 in Ed. cbn [negb orb] in Ed.
  destruct (Z.eqb_spec (kn1 k) 0); [|lia]. destruct (Z.eqb_spec (kn2 k) 0); [lia|]. cbn [andb] in Ed.
  match type of Ed with context [pure _ _ _ d ?k'] => destruct (pure fmax w6j u6j d k') as [w| |] eqn:Ew; try discriminate end.
  injection Ed as Ed. rewrite Ev, <- Ed. rewrite (bval_value _ w); [|split; [discriminate|exists d; exact Ew]].
  f_equal. unfold parity_sign. unfold quanta_dot, quanta in Hq.
  assert (E : Z.even (l2_dot k - kL k) = Bool.eqb (Z.even (kl1 k + kl2 k - kL k)) (Z.even (l1_dot k))).
  { assert (H : Z.even (l1_dot k + l2_dot k) = Z.even (kl1 k + kl2 k)).
    { replace (kl1 k + kl2 k) with (l1_dot k + l2_dot k + 2 * (n1_dot k + n2_dot k - kn1 k - kn2 k)) by lia. rewrite Z.even_add_mul_2. reflexivity. }
    rewrite Z.even_add in H. rewrite !Z.even_sub, <- H. destruct (Z.even (l1_dot k)), (Z.even (l2_dot k)), (Z.even (kL k)); reflexivity. }
  rewrite E. destruct (Z.even (kl1 k + kl2 k - kL k)), (Z.even (l1_dot k)); cbn; ring.
Qed.
End PROOF.

(** ** The seeds *)
(** z! *)
Definition fac (z : Z) : R := INR (fact (Z.to_nat z)).
Section SEEDS.
Variable fmax : Z.
Variables w6j u6j : Z -> Z -> Z -> Z -> Z -> Z -> R.
Definition a_sum (l1 d1 l2 d2 kappa : Z) : R :=
  (sqrt (fac (l1 + d1 + kappa + 1) * fac (l1 + d1 - kappa) * fac (l1 - d1 + kappa) / fac (d1 - l1 + kappa)
         * (fac (l2 + d2 + kappa + 1) * fac (l2 + d2 - kappa) * fac (l2 - d2 + kappa)) / fac (d2 - l2 + kappa))
   * lsum (by_two (kappa + Z.rem (kappa + d1 + l1) 2) (Z.min (d1 + l1) (d2 + l2))) (fun q =>
       parity_sign (Z.quot (d1 - l1 + q) 2) / (fac (q - kappa) * fac (q + kappa + 1)) * fac (d1 - l1 + q) / (fac (Z.quot (d1 - l1 + q) 2) * fac (Z.quot (d1 + l1 - q) 2))
       * fac (d2 - l2 + q) / (fac (Z.quot (d2 - l2 + q) 2) * fac (Z.quot (d2 + l2 - q) 2))))%R.
Definition seed_sum (m1 d1 m2 d2 l1 l2 L : Z) : R :=
  (parity_sign (m1 + d1 + d2 - L)
   * sqrt (fac l1 * fac l2 / (fac (2 * l1) * fac (2 * l2)) * IZR ((2 * d1 + 1) * (2 * d2 + 1)) / 2 ^ (Z.to_nat (d1 + d2))
           * fac (m1 + d1) / (fac m1 * fac (2 * m1 + 2 * d1 + 1)) * fac (m2 + d2) / (fac m2 * fac (2 * m2 + 2 * d2 + 1)))
   * lsum (zrange (Z.max (Z.abs (l1 - d1)) (Z.abs (l2 - d2))) (Z.min (l1 + d1) (l2 + d2))) (fun kappa =>
       IZR (2 * kappa + 1) * a_sum l1 d1 l2 d2 kappa / (int_hat L * int_hat kappa) * u6j d1 d2 L l2 l1 kappa))%R.

Lemma gfact_zf : forall z v, gfact fmax z = Ok v -> v = fac z.
Proof. intros z v. unfold gfact, fac. destruct (_ && _); [intros H; injection H as <-; reflexivity|discriminate]. Qed.
Ltac facts := repeat match goal with
  | H : bind (gfact fmax ?z) _ = Ok _ |- _ => let f := fresh "f" in let E := fresh "E" in destruct (gfact fmax z) as [f| | |] eqn:E; cbn [bind] in H; try discriminate H; apply gfact_zf in E; subst f end.
Lemma sum_over_lsum : forall {A} (l : list A) body f v, (forall x t, body x = Ok t -> t = f x) -> sum_over l body = Ok v -> v = lsum l f.
Proof.
  intros A l body f v Hb. unfold sum_over. enough (G : forall l acc v, for_each l (fun x s => t <- body x ;; Ok (s + t)%R) acc = Ok v -> v = (acc + lsum l f)%R).
  { intros H. apply G in H. rewrite H. ring. } clear l v. induction l as [|x l IH]; intros acc v H; cbn [for_each lsum] in *; [injection H as <-; ring|].
  destruct (body x) as [t| | |] eqn:E; cbn [bind] in H; try discriminate. apply Hb in E. subst t. apply IH in H. rewrite H. ring.
Qed.
Lemma a_term_zf : forall l1 d1 l2 d2 kappa q t, a_term fmax l1 d1 l2 d2 kappa q = Ok t ->
  t = (parity_sign (Z.quot (d1 - l1 + q) 2) / (fac (q - kappa) * fac (q + kappa + 1)) * fac (d1 - l1 + q) / (fac (Z.quot (d1 - l1 + q) 2) * fac (Z.quot (d1 + l1 - q) 2))
       * fac (d2 - l2 + q) / (fac (Z.quot (d2 - l2 + q) 2) * fac (Z.quot (d2 + l2 - q) 2)))%R.
Proof. intros l1 d1 l2 d2 kappa q t H. unfold a_term in H. facts. injection H as <-. reflexivity. Qed.
Lemma a_zf : forall l1 d1 l2 d2 kappa v, a_coefficient fmax l1 d1 l2 d2 kappa = Ok v -> v = a_sum l1 d1 l2 d2 kappa.
Proof.
  intros l1 d1 l2 d2 kappa v H. unfold a_coefficient in H. facts. destruct (sum_over _ _) as [s| | |] eqn:Es; cbn [bind] in H; try discriminate. injection H as <-.
  unfold a_sum. f_equal. revert Es. apply sum_over_lsum. apply a_term_zf.
Qed.
Lemma seed_zf : forall m1 d1 m2 d2 l1 l2 L v, seed fmax u6j m1 d1 m2 d2 l1 l2 L = Ok v -> v = seed_sum m1 d1 m2 d2 l1 l2 L.
Proof.
  intros m1 d1 m2 d2 l1 l2 L v H. unfold seed in H. facts. destruct (sum_over _ _) as [s| | |] eqn:Es; cbn [bind] in H; try discriminate. injection H as <-.
  unfold seed_sum. f_equal. revert Es. apply sum_over_lsum. intros x t Ht. destruct (a_coefficient _ _ _ _ _ _) as [a| | |] eqn:Ea; cbn [bind] in Ht; try discriminate.
  injection Ht as <-. apply a_zf in Ea. subst a. reflexivity.
Qed.
Theorem seed_formula : forall m1 d1 m2 d2 l1 l2 L, 2 * (l1 + l2) + 1 <= fmax -> allowed_bracket (K m1 d1 m2 d2 0 l1 0 l2 L) ->
  bval fmax w6j u6j (K m1 d1 m2 d2 0 l1 0 l2 L) = seed_sum m1 d1 m2 d2 l1 l2 L.
Proof.
  intros m1 d1 m2 d2 l1 l2 L Hf (Hn & Hq & Ht1 & Ht2). destruct (pure_exists fmax w6j u6j (K m1 d1 m2 d2 0 l1 0 l2 L)) as (d & v & Ed & Ev); [unfold quanta; cbn [kn1 kl1 kn2 kl2]; lia|].
  destruct d as [|d]; [discriminate|]. cbn [pure] in Ed. rewrite Hn, Hq, Z.eqb_refl, Ht1, Ht2 in Ed. cbn [negb orb kn1 kn2 Z.eqb andb n1_dot l1_dot n2_dot l2_dot kl1 kl2 kL] in Ed.
  destruct (seed fmax u6j m1 d1 m2 d2 l1 l2 L) as [w| | |] eqn:Es; try discriminate. injection Ed as <-. rewrite Ev. apply seed_zf. exact Es.
Qed.

(** a recoupling coefficient with one momentum equal to zero is one *)
Definition u6j_stretched : Prop := forall a b c d e f,
  allowed_triangle a b c = true -> allowed_triangle d e c = true -> allowed_triangle a e f = true -> allowed_triangle d b f = true ->
  a = 0 \/ b = 0 \/ d = 0 \/ e = 0 -> u6j a b c d e f = 1%R.
Lemma one_term : forall sg P Q H1 H2 c T s z, (0 <= P -> 0 <= Q -> 0 < H1 -> 0 < H2 -> 0 <= sg * s * (c * T) -> s * s = 1 -> (c * T) * (c * T) * (P * Q / (H1 * H2)) = z -> sg * sg = 1 ->
  sg * sqrt P * (c * (sqrt Q * T) / (sqrt H1 * sqrt H2) * 1 + 0) = s * sqrt z)%R.
Proof.
  intros sg P Q H1 H2 c T s z HP HQ h1 h2 Hs Hss Hz Hg. subst z. assert (H0 : (0 <= P * Q / (H1 * H2))%R).
  { apply Rmult_le_pos; [apply Rmult_le_pos; assumption|]. apply Rlt_le, Rinv_0_lt_compat, Rmult_lt_0_compat; assumption. }
  rewrite (sqrt_mult_alt ((c * T) * (c * T))); [|nra]. replace ((c * T) * (c * T))%R with ((sg * s * (c * T)) * (sg * s * (c * T)))%R by (replace ((sg * s * (c * T)) * (sg * s * (c * T)))%R with ((sg * sg) * (s * s) * ((c * T) * (c * T)))%R by ring; rewrite Hg, Hss; ring).
  rewrite sqrt_square by exact Hs. rewrite sqrt_div; [|apply Rmult_le_pos; assumption|apply Rmult_lt_0_compat; assumption]. rewrite !sqrt_mult by lra.
  replace (s * (sg * s * (c * T) * (sqrt P * sqrt Q / (sqrt H1 * sqrt H2))))%R with ((s * s) * (sg * (c * T) * (sqrt P * sqrt Q / (sqrt H1 * sqrt H2))))%R by ring. rewrite Hss. field.
  split; apply Rgt_not_eq, sqrt_lt_R0; assumption.
Qed.
Hypothesis Hu : u6j_stretched.
Hypothesis Hf : 5 <= fmax.
Lemma zf0 : fac 0 = 1%R. Proof. unfold fac. rewrite INR_IZR_INZ. f_equal. Qed.
Lemma zf1 : fac 1 = 1%R. Proof. unfold fac. rewrite INR_IZR_INZ. f_equal. Qed.
Lemma zf2 : fac 2 = 2%R. Proof. unfold fac. rewrite INR_IZR_INZ. f_equal. Qed.
Lemma zf3 : fac 3 = 6%R. Proof. unfold fac. rewrite INR_IZR_INZ. f_equal. Qed.
Lemma zf4 : fac 4 = 24%R. Proof. unfold fac. rewrite INR_IZR_INZ. f_equal. Qed.
Lemma zf5 : fac 5 = 120%R. Proof. unfold fac. rewrite INR_IZR_INZ. f_equal. Qed.
Ltac znorm := repeat match goal with
  | |- context [fac ?z] => let z' := eval vm_compute in z in progress (change z with z')
  | |- context [parity_sign ?z] => let b := eval vm_compute in (Z.even z) in match b with true => change (parity_sign z) with 1%R | false => change (parity_sign z) with (-1)%R end
  end.
Ltac go :=
  rewrite seed_formula; [|lia|repeat split]; unfold seed_sum, a_sum;
  repeat match goal with |- context [zrange ?a ?b] => let l := eval vm_compute in (zrange a b) in change (zrange a b) with l end; cbn [lsum];
  repeat match goal with |- context [by_two ?a ?b] => let l := eval vm_compute in (by_two a b) in change (by_two a b) with l end; cbn [lsum];
  rewrite Hu by (first [reflexivity|lia]); unfold int_hat; znorm.
(** <n1' l1' n2' l2' | 0 l1 0 l2; L>, sign and square *)
Theorem small_values : Forall (fun '(k, s, z) => bval fmax w6j u6j k = (s * sqrt z)%R) 
  [ (K 0 0 0 0 0 0 0 0 0, 1, 1);
    (K 0 0 0 1 0 0 0 1 1, 1, 1 / 2); (K 0 0 0 1 0 1 0 0 1, 1, 1 / 2); (K 0 1 0 0 0 0 0 1 1, -1, 1 / 2); (K 0 1 0 0 0 1 0 0 1, 1, 1 / 2);
    (K 0 0 0 2 0 0 0 2 2, 1, 1 / 4); (K 0 0 0 2 0 1 0 1 2, 1, 1 / 2); (K 0 0 0 2 0 2 0 0 2, 1, 1 / 4);
    (K 0 1 0 1 0 0 0 2 2, -1, 1 / 2); (K 0 1 0 1 0 2 0 0 2, 1, 1 / 2);
    (K 0 2 0 0 0 0 0 2 2, 1, 1 / 4); (K 0 2 0 0 0 1 0 1 2, -1, 1 / 2); (K 0 2 0 0 0 2 0 0 2, 1, 1 / 4);
    (K 0 0 1 0 0 1 0 1 0, 1, 1 / 2); (K 1 0 0 0 0 1 0 1 0, -1, 1 / 2) ]%R.
Proof.
  repeat constructor; go; rewrite ?zf0, ?zf1, ?zf2, ?zf3, ?zf4, ?zf5;
  repeat match goal with |- context [IZR ?z] => let z' := eval vm_compute in z in progress (change z with z') end;
  repeat match goal with |- context [(2 ^ ?n)%R] => let n' := eval vm_compute in n in change n with n'; cbn [pow] end;
  apply one_term; lra.
Qed.
End SEEDS.

(** the recursion at work: two particles of which one is in the 2s shell *)
Lemma two_s : forall fmax w6j u6j, 5 <= fmax -> u6j_stretched u6j -> bval fmax w6j u6j (K 1 0 0 0 1 0 0 0 0) = (1 / 2)%R.
Proof.
  intros fmax w6j u6j Hf Hu. assert (A : allowed_bracket (K 1 0 0 0 1 0 0 0 0)) by (repeat split).
  assert (Hq : 2 * quanta (K 1 0 0 0 1 0 0 0 0) + 1 <= fmax) by (unfold quanta; cbn [kn1 kl1 kn2 kl2]; lia).
  pose proof (recursion fmax w6j u6j _ A ltac:(cbn [kn1]; lia) Hq) as R.
  cbn [kn1 kl1 kn2 kl2 kL n1_dot l1_dot n2_dot l2_dot] in R. change (1 - 1) with 0 in R.
  pose proof (small_values fmax w6j u6j Hu Hf) as V. inversion V as [|x l V0 _]; subst. rewrite V0 in R. clear V V0.
  unfold dot_up in R. rewrite !rsq_up_ok in R by lia. rewrite !c1_less, !(r_up_more 0) in R by lia. rewrite sqrt_0, sqrt_1 in R.
  replace (IZR 0 * (IZR 0 + IZR 0 + 1 / 2))%R with 0%R in R by ring. rewrite sqrt_0 in R.
  assert (Hs : (sqrt (1 * (1 + 0 + 1 / 2)) <> 0)%R) by (apply Rgt_not_eq, sqrt_lt_R0; lra).
  set (S := sqrt (1 * (1 + 0 + 1 / 2))) in *. apply Rmult_eq_reg_l with (- S)%R; [|lra]. rewrite R. field.
Qed.
