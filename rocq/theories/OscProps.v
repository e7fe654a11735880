(** C26-C31, C55: analytic oscillator matrix elements and the relative radial matrices built from them. *)
From Coq Require Import List ZArith Reals Bool Lra Lia.
From Verif Require Import Base RMat OscModel OscSpec OscProof OscFinal.
Import ListNotations.
Open Scope R_scope.

(** C26: raising and lowering elements are numbers (never NaN), transposes of each other, and nonzero exactly when
    quanta and angular momentum change by one. *)
Theorem C26_adjoint : forall bN bl kN kl, ho bN bl -> ho kN kl ->
  exists x, cdagger bN bl kN kl = Num x /\ clower kN kl bN bl = Num x
     /\ (x <> 0 <-> (bN = kN + 1)%Z /\ one_step kl bl).
Proof. exact ladder. Qed.
Print Assumptions C26_adjoint.
(** outside the selection rules the elements vanish for arbitrary arguments *)
Theorem C26_selection : forall bN bl kN kl,
  (~ (bN = kN + 1 /\ one_step kl bl)%Z -> cdagger bN bl kN kl = Num 0)
  /\ (~ (kN = bN + 1 /\ one_step kl bl)%Z -> clower bN bl kN kl = Num 0).
Proof. exact ladder_zero. Qed.
Print Assumptions C26_selection.
Example C26_ex : ho 3 1 /\ ho 2 2 /\ cdagger 3 1 2 2 = Num (- sqrt 2) /\ clower 2 2 3 1 = Num (- sqrt 2).
Proof.
  split; [split; [lia|reflexivity]|]. split; [split; [lia|reflexivity]|].
  unfold cdagger, clower, fsqrt. cbn. split; f_equal; ring.
Qed.

(** C27: r is the sum and ik the difference of lowering and raising elements, over the constant of the code ... *)
Theorem C27_sum : forall bN bl kN kl, ho bN bl -> ho kN kl -> one_step kl bl ->
  exists u d, cdagger bN bl kN kl = Num u /\ clower bN bl kN kl = Num d
  /\ coordinate bN bl kN kl 1 = Ok (Num ((u + d) / k_sqrt_2))
  /\ coordinate bN bl kN kl (-1) = Ok (Num ((d - u) / k_sqrt_2)).
Proof. exact coordinate_sum. Qed.
Print Assumptions C27_sum.
(** ... which is sqrt 2 to fifteen decimals *)
Theorem C27_constant : Rabs (k_sqrt_2 - sqrt 2) <= / 1000000000000000.
Proof. exact k_close. Qed.
Print Assumptions C27_constant.
(** r is symmetric, ik antisymmetric *)
Theorem C27_symmetric : forall bN bl kN kl, ho bN bl -> ho kN kl -> one_step kl bl ->
  coordinate bN bl kN kl 1 = coordinate kN kl bN bl 1
  /\ oval (coordinate bN bl kN kl (-1)) = - oval (coordinate kN kl bN bl (-1)).
Proof. exact coordinate_symmetric. Qed.
Print Assumptions C27_symmetric.
(** any other change of angular momentum violates the assertion *)
Theorem C27_assert : forall bN bl kN kl s, ~ one_step kl bl -> coordinate bN bl kN kl s = AssertFail.
Proof. exact coordinate_assert. Qed.
Print Assumptions C27_assert.
Example C27_ex : coordinate 3 1 2 2 (-1) = Ok (Num (sqrt 2 / k_sqrt_2)) /\ coordinate 2 2 3 1 (-1) = Ok (Num (- sqrt 2 / k_sqrt_2)).
Proof. unfold coordinate, cdagger, clower, fsqrt. cbn. split; f_equal; f_equal; field; unfold k_sqrt_2; lra. Qed.

(** C28: the elements of r^2 and (ik)^2 are sums over the states of any admissible intermediate angular momentum of
    products of elements of r or ik; the factor is due to the rounded constant and is 1 to sixteen decimals. *)
Theorem C28_product : forall bN bl kN kl li s Ns, ho bN bl -> ho kN kl -> sign_ok s -> (0 <= li)%Z ->
  one_step kl li -> one_step li bl -> states_up_to (kN + 1) li Ns ->
  coordinate_sqr bN bl kN kl s = Num (k_sqrt_2 * k_sqrt_2 / 2 *
    lsum Ns (fun N => oval (coordinate bN bl N li s) * oval (coordinate N li kN kl s))).
Proof. exact sqr_product. Qed.
Print Assumptions C28_product.
Theorem C28_constant : Rabs (k_sqrt_2 * k_sqrt_2 / 2 - 1) <= / 10000000000000000.
Proof. exact k_sqr_close. Qed.
Print Assumptions C28_constant.
Example C28_ex : ho 4 2 /\ ho 2 0 /\ states_up_to (2 + 1) 1 [1; 3]%Z /\ coordinate_sqr 4 2 2 0 1 = Num (5 / 10 * sqrt 35).
Proof.
  split; [split; [lia|reflexivity]|]. split; [split; [lia|reflexivity]|]. split; [|reflexivity]. split; [|split].
  - constructor; [cbn; lia|constructor; [cbn; tauto|constructor]].
  - intros N [<-|[<-|[]]]; split; try lia; reflexivity.
  - intros N HN Hle. destruct (ho_step_even _ _ HN) as [m [-> Hm]]. assert (E : m = 0%Z \/ m = 1%Z) by lia. destruct E as [-> | ->]; cbn; auto.
Qed.

(** C29 *)
Theorem C29_virial : forall bN kN l, ho bN l -> ho kN l ->
  exists x y, coordinate_sqr bN l kN l 1 = Num x /\ coordinate_sqr bN l kN l (-1) = Num y
  /\ x - y = (if (bN =? kN)%Z then 2 * IZR kN + 3 else 0).
Proof. exact virial. Qed.
Print Assumptions C29_virial.
(** both are symmetric matrices, for every change of angular momentum *)
Theorem C29_symmetric : forall bN bl kN kl s, ho bN bl -> ho kN kl -> coordinate_sqr bN bl kN kl s = coordinate_sqr kN kl bN bl s.
Proof. exact sqr_symmetric. Qed.
Print Assumptions C29_symmetric.
Example C29_ex : coordinate_sqr 4 2 2 2 1 = Num (- (5 / 10) * sqrt 14) /\ coordinate_sqr 4 2 2 2 (-1) = Num (- (5 / 10) * sqrt 14).
Proof. split; reflexivity. Qed.

(** C30: the radial matrix of r is complete; that of r^2 is complete for delta_L = 0 and -2 ... *)
Theorem C30_radial : forall bd kd L dL s, (0 <= L)%Z -> (0 <= L + dL)%Z -> (dL = -1 \/ dL = 1)%Z ->
  exists m, radial_matrix bd kd L dL s = Ok m /\ rows m = bd /\ cols m = kd
  /\ forall i j, (i < bd)%nat -> (j < kd)%nat ->
     coordinate (2 * Z.of_nat i + (L + dL)) (L + dL) (2 * Z.of_nat j + L) L s = Ok (at_ m i j).
Proof. exact radial_complete. Qed.
Print Assumptions C30_radial.
Theorem C30_radial_sqr : forall bd kd L dL s, (0 <= L)%Z -> (0 <= L + dL)%Z -> (dL = 0 \/ (dL = -2 /\ s = 1))%Z ->
  exists m, radial_sqr_matrix bd kd L dL s = Ok m /\ rows m = bd /\ cols m = kd
  /\ forall i j, (i < bd)%nat -> (j < kd)%nat ->
     at_ m i j = coordinate_sqr (2 * Z.of_nat i + (L + dL)) (L + dL) (2 * Z.of_nat j + L) L s.
Proof. exact radial_sqr_complete. Qed.
Print Assumptions C30_radial_sqr.
(** ... but not for delta_L = 2, where exactly the elements with n' = n - 2 are left out, and they are nonzero *)
Theorem C30_radial_sqr_upward : forall bd kd L, (0 <= L)%Z ->
  exists m, radial_sqr_matrix bd kd L 2 1 = Ok m /\ rows m = bd /\ cols m = kd
  /\ forall i j, (i < bd)%nat -> (j < kd)%nat ->
     if (Nat.eqb (i + 2) j) then at_ m i j = Num 0 /\ exists x, 0 < x /\ coordinate_sqr (2 * Z.of_nat i + (L + 2)) (L + 2) (2 * Z.of_nat j + L) L 1 = Num x
     else at_ m i j = coordinate_sqr (2 * Z.of_nat i + (L + 2)) (L + 2) (2 * Z.of_nat j + L) L 1.
Proof. exact radial_sqr_upward. Qed.
Print Assumptions C30_radial_sqr_upward.
Theorem C30_refuted : exists bd kd L dL s m i j, radial_sqr_matrix bd kd L dL s = Ok m /\ (i < bd)%nat /\ (j < kd)%nat
  /\ at_ m i j <> coordinate_sqr (2 * Z.of_nat i + (L + dL)) (L + dL) (2 * Z.of_nat j + L) L s.
Proof.
  destruct (radial_sqr_upward 3 3 0 (Z.le_refl 0)) as (m & E & _ & _ & A). exists 3%nat, 3%nat, 0%Z, 2%Z, 1%Z, m, 0%nat, 2%nat.
  split; [exact E|]. split; [lia|]. split; [lia|]. specialize (A 0%nat 2%nat ltac:(lia) ltac:(lia)). cbn [Nat.eqb Nat.add] in A.
  destruct A as [A (x & Hx & Ex)]. rewrite A, Ex. intros F. injection F as F. lra.
Qed.
Print Assumptions C30_refuted.

(** C31: the blocks of the relative r^2 and k^2 operators *)
Theorem C31_blocks : forall T0_min T0_max l ct, (T0_min <= 0 <= T0_max)%Z -> (forall x, In x l -> 0 <= r_L (snd x))%Z ->
  exists bs, construct_coordinate_sqr 0 0 T0_min T0_max l ct 0 = Ok bs /\ length bs = length l
  /\ forall q x, nth_error l q = Some x -> exists m, nth_error bs q = Some m
    /\ (~ scalar_sector x -> m = mzero (Num 0) (r_dim (fst x)) (r_dim (snd x)))
    /\ (scalar_sector x -> rows m = r_dim (snd x) /\ cols m = r_dim (snd x) /\
        forall i j, (i < r_dim (snd x))%nat -> (j < r_dim (snd x))%nat ->
        at_ m i j = nscale (match ct with KR => 2 | KK => 1 / 2 end)
          (coordinate_sqr (2 * Z.of_nat i + r_L (snd x)) (r_L (snd x)) (2 * Z.of_nat j + r_L (snd x)) (r_L (snd x))
            (match ct with KR => 1 | KK => -1 end))).
Proof. exact coordinate_sqr_operator. Qed.
Print Assumptions C31_blocks.
(** isovector component: the isospin generator contributes 2 sqrt(T(T+1)) *)
Theorem C31_isovector : forall T0_min T0_max l ct, (T0_min <= 1 <= T0_max)%Z -> (forall x, In x l -> 0 <= r_L (snd x))%Z ->
  exists bs, construct_coordinate_sqr 0 0 T0_min T0_max l ct 1 = Ok bs /\ length bs = length l
  /\ forall q x, nth_error l q = Some x -> exists m, nth_error bs q = Some m
    /\ (~ scalar_sector x -> m = mzero (Num 0) (r_dim (fst x)) (r_dim (snd x)))
    /\ (scalar_sector x -> rows m = r_dim (snd x) /\ cols m = r_dim (snd x) /\
        forall i j, (i < r_dim (snd x))%nat -> (j < r_dim (snd x))%nat ->
        at_ m i j = nscale (2 * sqrt (IZR (r_T (snd x) * (r_T (snd x) + 1))) * match ct with KR => 2 | KK => 1 / 2 end)
          (coordinate_sqr (2 * Z.of_nat i + r_L (snd x)) (r_L (snd x)) (2 * Z.of_nat j + r_L (snd x)) (r_L (snd x))
            (match ct with KR => 1 | KK => -1 end))).
Proof. exact coordinate_sqr_isovector. Qed.
Print Assumptions C31_isovector.
(** other operator labels fail an assertion *)
Theorem C31_labels : forall J0 g0 T0_min T0_max l ct T0, J0 <> 0%Z \/ g0 <> 0%Z \/ ~ (T0 = 0 \/ T0 = 1)%Z \/ ~ (T0_min <= T0 <= T0_max)%Z ->
  construct_coordinate_sqr J0 g0 T0_min T0_max l ct T0 = AssertFail.
Proof. exact coordinate_sqr_labels. Qed.
Print Assumptions C31_labels.
(** the diagonal of r^2 is positive, that of "k^2" is the negative of the announced one *)
Theorem C31_diagonal : forall T0_min T0_max l ct q x i, (T0_min <= 0 <= T0_max)%Z -> (forall x, In x l -> 0 <= r_L (snd x))%Z ->
  nth_error l q = Some x -> scalar_sector x -> (i < r_dim (snd x))%nat ->
  exists bs m, construct_coordinate_sqr 0 0 T0_min T0_max l ct 0 = Ok bs /\ nth_error bs q = Some m
  /\ at_ m i i = Num (match ct with KR => 2 * (2 * INR i + IZR (r_L (snd x)) + 3 / 2)
                                  | KK => - (1 / 2 * (2 * INR i + IZR (r_L (snd x)) + 3 / 2)) end).
Proof. exact coordinate_sqr_diagonal. Qed.
Print Assumptions C31_diagonal.
Definition sub0 : rsub := RSub 0 0 0 1 0 2.
Theorem C31_refuted : exists l q x i bs m y, nth_error l q = Some x /\ scalar_sector x /\ (i < r_dim (snd x))%nat
  /\ construct_coordinate_sqr 0 0 0 0 l KK 0 = Ok bs /\ nth_error bs q = Some m /\ at_ m i i = Num y /\ y < 0.
Proof.
  destruct (coordinate_sqr_diagonal 0 0 [(sub0, sub0)] KK 0 (sub0, sub0) 0) as (bs & m & E & N & A); try reflexivity; try lia.
  - intros x [<-|[]]. cbn. lia.
  - repeat split.
  - cbn. lia.
  - exists [(sub0, sub0)], 0%nat, (sub0, sub0), 0%nat, bs, m. eexists. split; [reflexivity|]. split; [repeat split|].
    split; [cbn; lia|]. split; [exact E|]. split; [exact N|]. split; [exact A|]. cbn. lra.
Qed.
Print Assumptions C31_refuted.

(** C55: with the angular factors of a vector operator, the ladder elements give the number operator and the canonical
    commutator. *)
Theorem C55_number : forall bN kN l Ns, ho bN l -> ho kN l -> (forall li, states_up_to (kN + 1) li (Ns li)) ->
  over_intermediate l Ns (fun N li => val (cdagger bN l N li) * val (clower N li kN l)) = delta bN kN * IZR kN.
Proof. exact number_operator. Qed.
Print Assumptions C55_number.
Theorem C55_commutator : forall bN kN l Ns, ho bN l -> ho kN l -> (forall li, states_up_to (kN + 1) li (Ns li)) ->
  over_intermediate l Ns (fun N li => val (clower bN l N li) * val (cdagger N li kN l))
  - over_intermediate l Ns (fun N li => val (cdagger bN l N li) * val (clower N li kN l)) = 3 * delta bN kN.
Proof. exact canonical_commutator. Qed.
Print Assumptions C55_commutator.
(** lists as required exist *)
Definition states_list (M l : Z) : list Z := filter (fun N => (0 <=? l)%Z && (l <=? N)%Z && Z.even (N - l)) (zrange 0 M).
Example C55_ex : forall M l, states_up_to M l (states_list M l).
Proof.
  intros M l. split; [|split].
  - apply NoDup_filter, NoDup_zrange.
  - intros N HN. apply filter_In in HN. destruct HN as [_ HN]. apply andb_prop in HN. destruct HN as [HN E]. apply andb_prop in HN.
    rewrite !Z.leb_le in HN. split; [lia|exact E].
  - intros N [H1 H2] H3. apply filter_In. split; [apply in_zrange; lia|]. rewrite H2, Bool.andb_true_r.
    apply andb_true_intro. rewrite !Z.leb_le. lia.
Qed.
