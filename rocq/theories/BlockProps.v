(** C32, C33, C56, C57: one-body operators stored by sectors. *)
From Coq Require Import List ZArith Reals Bool Lra Lia.
From Verif Require Import Base RMat H2Model MapModel OscModel OscSpec OscProof BlockModel BlockSpec BlockProof BlockFinal.
Import ListNotations.
Open Scope R_scope.

(** C32: the composition is the product of the full matrices in every output sector. *)
Theorem C32_product : forall bra inner ket sa ma sb mb s, op_ok bra inner sa ma -> op_ok inner ket sb mb -> NoDup s ->
  (forall x, In x s -> (fst x < length bra)%nat /\ (snd x < length ket)%nat) ->
  exists r, compose bra inner inner ket sa ma sb mb s = Ok r /\ op_ok bra ket s r
  /\ forall I i K k, In (I, K) s -> (i < sub_dim bra I)%nat -> (k < sub_dim ket K)%nat ->
     entry s r I i K k = ssum inner (fun J j => entry sa ma I i J j * entry sb mb J j K k).
Proof. exact compose_product. Qed.
Print Assumptions C32_product.
(** different inner spaces are refused *)
Theorem C32_assert : forall bra inner inner' ket sa ma sb mb s, inner <> inner' -> compose bra inner inner' ket sa ma sb mb s = AssertFail.
Proof. exact compose_assert. Qed.
Print Assumptions C32_assert.
(** associativity, when the intermediate sector lists contain every sector of the product *)
Theorem C32_associative : forall s1 s2 s3 s4 sa ma sb mb sc mc sab sbc s mab mbc r r',
  op_ok s1 s2 sa ma -> op_ok s2 s3 sb mb -> op_ok s3 s4 sc mc -> NoDup sab -> NoDup sbc -> NoDup s ->
  (forall x, In x sab -> (fst x < length s1)%nat /\ (snd x < length s3)%nat) -> (forall x, In x sbc -> (fst x < length s2)%nat /\ (snd x < length s4)%nat) ->
  (forall x, In x s -> (fst x < length s1)%nat /\ (snd x < length s4)%nat) ->
  product_sectors sa sb sab -> product_sectors sb sc sbc ->
  compose s1 s2 s2 s3 sa ma sb mb sab = Ok mab -> compose s2 s3 s3 s4 sb mb sc mc sbc = Ok mbc ->
  compose s1 s3 s3 s4 sab mab sc mc s = Ok r -> compose s1 s2 s2 s4 sa ma sbc mbc s = Ok r' ->
  op_ok s1 s4 s r /\ op_ok s1 s4 s r' /\
  forall I i K k, In (I, K) s -> (i < sub_dim s1 I)%nat -> (k < sub_dim s4 K)%nat -> entry s r I i K k = entry s r' I i K k.
Proof. exact compose_assoc. Qed.
Print Assumptions C32_associative.

(** an example space with two subspaces, and an operator with one off-diagonal sector *)
Definition bsp : lspace := [(LL SP 0 1, [0; 1]%Z); (LL SP 1 1, [0]%Z)].
Definition bsec : lsectors := [(0, 0)%nat; (0, 1)%nat; (1, 1)%nat].
Definition bm00 : mat R := Mat 2 2 (fun i j => if Nat.eqb i 0 then (if Nat.eqb j 0 then 1 else 2) else (if Nat.eqb j 0 then 3 else 4)).
Definition bm01 : mat R := Mat 2 1 (fun i j => if Nat.eqb i 0 then 5 else 6).
Definition bm11 : mat R := Mat 1 1 (fun _ _ => 7).
Definition bops : blocks R := [bm00; bm01; bm11].
Lemma bop_ok : op_ok bsp bsp bsec bops.
Proof.
  split; [repeat constructor; cbn; intuition congruence|]. repeat constructor; cbn; lia.
Qed.
Example C32_ex : op_ok bsp bsp bsec bops /\ product_sectors bsec bsec bsec
  /\ exists r, compose bsp bsp bsp bsp bsec bops bsec bops bsec = Ok r /\ entry bsec r 0 1 1 0 = 3 * 5 + 4 * 6 + 6 * 7.
Proof.
  split; [exact bop_ok|]. split.
  - intros I J K [[= <- <-]|[[= <- <-]|[[= <- <-]|[]]]] [[= <-]|[[= <-]|[[= <-]|[]]]]; try discriminate; cbn; auto.
  - eexists. split; [reflexivity|]. cbn. unfold rsum. cbn. ring.
Qed.

(** C33: the similarity transformation is U^T O U of the full matrices; sectors whose subspaces are absent from the source
    are zero (the sum is then empty of nonzero terms); when an operator or transformation sector is missing the assertion
    fails. *)
Theorem C33_product : forall source target sx mx so mo s, op_ok source target sx mx -> op_ok source source so mo ->
  scalar_sectors source target sx -> distinct_labels source -> NoDup s ->
  (forall x, In x s -> (fst x < length target)%nat /\ (snd x < length target)%nat) ->
  (covered source target sx so s ->
    exists r, similarity 0 0 0 source target sx mx so mo s = Ok r /\ op_ok target target s r
    /\ forall I i K k, In (I, K) s -> (i < sub_dim target I)%nat -> (k < sub_dim target K)%nat ->
       entry s r I i K k = ssum source (fun A a => ssum source (fun B b => entry sx mx A a I i * entry so mo A a B b * entry sx mx B b K k)))
  /\ (~ covered source target sx so s -> similarity 0 0 0 source target sx mx so mo s = AssertFail).
Proof. exact similarity_product. Qed.
Print Assumptions C33_product.
Theorem C33_identity : forall sp sx mx so mo s r, op_ok sp sp sx mx -> op_ok sp sp so mo ->
  scalar_sectors sp sp sx -> distinct_labels sp -> NoDup s -> (forall x, In x s -> (fst x < length sp)%nat /\ (snd x < length sp)%nat) ->
  identity_matrix_on sp sx mx -> similarity 0 0 0 sp sp sx mx so mo s = Ok r ->
  forall I i K k, In (I, K) s -> (i < sub_dim sp I)%nat -> (k < sub_dim sp K)%nat -> entry s r I i K k = entry so mo I i K k.
Proof. exact similarity_identity. Qed.
Print Assumptions C33_identity.
Theorem C33_symmetric : forall source target sx mx so mo s r, op_ok source target sx mx -> op_ok source source so mo ->
  scalar_sectors source target sx -> distinct_labels source -> NoDup s -> (forall x, In x s -> (fst x < length target)%nat /\ (snd x < length target)%nat) ->
  symmetric_on source so mo -> similarity 0 0 0 source target sx mx so mo s = Ok r ->
  forall I i K k, In (I, K) s -> In (K, I) s -> (i < sub_dim target I)%nat -> (k < sub_dim target K)%nat -> entry s r I i K k = entry s r K k I i.
Proof. exact similarity_symmetric. Qed.
Print Assumptions C33_symmetric.
(** transforming twice is transforming with the composed transformation *)
Theorem C33_twice : forall s1 s2 s3 su mu sv mv sw mw so mo t mt r r' s,
  op_ok s1 s2 su mu -> op_ok s2 s3 sv mv -> op_ok s1 s1 so mo -> scalar_sectors s1 s2 su -> scalar_sectors s2 s3 sv -> scalar_sectors s1 s3 sw ->
  distinct_labels s1 -> distinct_labels s2 -> NoDup t -> NoDup s -> NoDup sw ->
  (forall x, In x t -> (fst x < length s2)%nat /\ (snd x < length s2)%nat) -> (forall x, In x s -> (fst x < length s3)%nat /\ (snd x < length s3)%nat) ->
  (forall x, In x sw -> (fst x < length s1)%nat /\ (snd x < length s3)%nat) -> product_sectors su sv sw ->
  compose s1 s2 s2 s3 su mu sv mv sw = Ok mw ->
  similarity 0 0 0 s1 s2 su mu so mo t = Ok mt -> similarity 0 0 0 s2 s3 sv mv t mt s = Ok r -> similarity 0 0 0 s1 s3 sw mw so mo s = Ok r' ->
  forall I i K k, In (I, K) s -> (i < sub_dim s3 I)%nat -> (k < sub_dim s3 K)%nat -> entry s r I i K k = entry s r' I i K k.
Proof. exact similarity_twice. Qed.
Print Assumptions C33_twice.
(** Only scalar transformations are accepted. *)
Theorem C33_scalar : forall J0 g0 Tz0 source target sx mx so mo s, (J0, g0, Tz0) <> (0, 0, 0)%Z ->
  similarity J0 g0 Tz0 source target sx mx so mo s = AssertFail.
Proof. exact similarity_refused. Qed.
Print Assumptions C33_scalar.
(** source without the second subspace of the target: that part of the output is zero *)
Definition bsrc : lspace := [(LL SP 0 1, [0; 1]%Z)].
Definition bU : blocks R := [Mat 2 2 (fun i j => if Nat.eqb i j then 2 else 1)].
Example C33_ex : op_ok bsrc bsp [(0, 0)%nat] bU /\ op_ok bsrc bsrc [(0, 0)%nat] [bm00] /\ scalar_sectors bsrc bsp [(0, 0)%nat]
  /\ covered bsrc bsp [(0, 0)%nat] [(0, 0)%nat] bsec
  /\ exists r, similarity 0 0 0 bsrc bsp [(0, 0)%nat] bU [(0, 0)%nat] [bm00] bsec = Ok r /\ entry bsec r 0 0 0 1 = 21 /\ entry bsec r 0 0 1 0 = 0.
Proof.
  split; [split; [repeat constructor; cbn; tauto|repeat constructor; cbn; lia]|]. split; [split; [repeat constructor; cbn; tauto|repeat constructor; cbn; lia]|].
  split; [intros A I [[= <- <-]|[]]; reflexivity|]. split.
  - intros I K A B Hin HA HB LA LB. cbn in HA, HB. assert (A = 0%nat) by lia. assert (B = 0%nat) by lia. subst A B.
    destruct Hin as [[= <- <-]|[[= <- <-]|[[= <- <-]|[]]]]; try discriminate. cbn. auto.
  - eexists. split; [reflexivity|]. cbn. unfold rsum. cbn. split; ring.
Qed.

(** C56: for the cases with analytic formulas (r or ik of rank 1, r^2 or (ik)^2 of rank 0 or 2) the generated blocks hold the
    analytic elements; no assertion fails and no element is NaN. *)
Theorem C56_oscillator : forall spline is_k order J0 g0 sp s, orbital_space sp -> osc_case order J0 g0 ->
  (forall I K, In (I, K) s -> exists b k, nth_error sp I = Some b /\ nth_error sp K = Some k /\ ljpn_allowed J0 g0 (fst b) (fst k)) ->
  exists bs, radial_operator spline BOscillator is_k order J0 g0 sp s = Ok bs /\ length bs = length s
  /\ forall q I K, nth_error s q = Some (I, K) -> exists m, nth_error bs q = Some m /\ rows m = sub_dim sp I /\ cols m = sub_dim sp K
    /\ forall i j bn kn bl kl, n_of sp I i bn -> n_of sp K j kn -> l_of sp I bl -> l_of sp K kl ->
       (exists x, at_ m i j = Num x) /\
       (if (order =? 1)%Z then coordinate (2 * bn + bl) bl (2 * kn + kl) kl (if is_k then -1 else 1)
        else Ok (coordinate_sqr (2 * bn + bl) bl (2 * kn + kl) kl (if is_k then -1 else 1))) = Ok (at_ m i j).
Proof. exact radial_operator_oscillator. Qed.
Print Assumptions C56_oscillator.
(** Order 0: the unit operator, whatever the basis. *)
Theorem C56_order_0 : forall spline bt is_k J0 g0 sp s, (forall I K, In (I, K) s -> (I < length sp)%nat /\ (K < length sp)%nat) ->
  exists bs, radial_operator spline bt is_k 0 J0 g0 sp s = Ok bs /\ length bs = length s
  /\ forall q I K, nth_error s q = Some (I, K) -> exists m, nth_error bs q = Some m /\ rows m = sub_dim sp I /\ cols m = sub_dim sp K
    /\ forall i j bn kn bl kl, n_of sp I i bn -> n_of sp K j kn -> l_of sp I bl -> l_of sp K kl ->
       at_ m i j = if (bn =? kn)%Z && (bl =? kl)%Z then Num 1 else Num 0.
Proof. exact radial_operator_order_0. Qed.
Print Assumptions C56_order_0.
(** All other cases: the numerical integral between the two states in this basis at unit scale. *)
Theorem C56_numerical : forall spline bt is_k order J0 g0 sp s, (forall I K, In (I, K) s -> (I < length sp)%nat /\ (K < length sp)%nat) ->
  order <> 0%Z -> (bt = BOscillator -> ~ osc_case order J0 g0) ->
  exists bs, radial_operator spline bt is_k order J0 g0 sp s = Ok bs /\ length bs = length s
  /\ forall q I K, nth_error s q = Some (I, K) -> exists m, nth_error bs q = Some m /\ rows m = sub_dim sp I /\ cols m = sub_dim sp K
    /\ forall i j bn kn bl kl, n_of sp I i bn -> n_of sp K j kn -> l_of sp I bl -> l_of sp K kl -> at_ m i j = spline bn bl bt kn kl 1 bt is_k order.
Proof. exact radial_operator_spline. Qed.
Print Assumptions C56_numerical.
Example C56_ex : orbital_space bsp /\ osc_case 1 1 1 /\ ljpn_allowed 1 1 (LL SP 0 1) (LL SP 1 1)
  /\ forall spline, exists m, radial_operator spline BOscillator true 1 1 1 bsp [(0, 1)%nat] = Ok [m]
     /\ at_ m 0 0 = Num (sqrt 3 / k_sqrt_2).
Proof.
  split; [repeat constructor; cbn; lia|]. split; [left; auto|]. split; [split; cbn; [lia|reflexivity]|]. intros spline. eexists. split; [reflexivity|].
  cbn. unfold cdagger, clower, fsqrt. cbn. f_equal. field. unfold k_sqrt_2; lra.
Qed.

(** C57: the overlaps of a basis with itself at unit scale are the identity, and transforming with them changes nothing. *)
Theorem C57_identity : forall spline bt scale sp s, distinct_labels sp -> Forall (fun x => NoDup (snd x)) sp -> NoDup s ->
  (forall I K, In (I, K) s -> (I < length sp)%nat /\ (K < length sp)%nat) -> scalar_sectors sp sp s -> (forall I, (I < length sp)%nat -> In (I, I) s) ->
  exists bs, radial_overlaps spline 0 0 0 bt bt scale true sp sp s = Ok bs /\ op_ok sp sp s (map real_block bs)
  /\ identity_matrix_on sp s (map real_block bs) /\ Forall no_nan bs.
Proof. exact self_overlaps. Qed.
Print Assumptions C57_identity.
Theorem C57_transform : forall spline bt scale sp s bs so mo t r, distinct_labels sp -> Forall (fun x => NoDup (snd x)) sp -> NoDup s -> NoDup t ->
  (forall I K, In (I, K) s -> (I < length sp)%nat /\ (K < length sp)%nat) -> scalar_sectors sp sp s -> (forall I, (I < length sp)%nat -> In (I, I) s) ->
  op_ok sp sp so mo -> (forall x, In x t -> (fst x < length sp)%nat /\ (snd x < length sp)%nat) ->
  radial_overlaps spline 0 0 0 bt bt scale true sp sp s = Ok bs -> similarity 0 0 0 sp sp s (map real_block bs) so mo t = Ok r ->
  forall I i K k, In (I, K) t -> (i < sub_dim sp I)%nat -> (k < sub_dim sp K)%nat -> entry t r I i K k = entry so mo I i K k.
Proof. exact self_overlap_similarity. Qed.
Print Assumptions C57_transform.
(** Different bases or another scale: the numerical overlaps of bra and ket. *)
Theorem C57_numerical : forall spline bb kb scale scale_is_1 bra ket s, (forall I K, In (I, K) s -> (I < length bra)%nat /\ (K < length ket)%nat) ->
  bb <> kb \/ scale_is_1 = false ->
  exists bs, radial_overlaps spline 0 0 0 bb kb scale scale_is_1 bra ket s = Ok bs /\ length bs = length s
  /\ forall q I K, nth_error s q = Some (I, K) -> exists m, nth_error bs q = Some m /\ rows m = sub_dim bra I /\ cols m = sub_dim ket K
    /\ forall i j bn kn bl kl, n_of bra I i bn -> n_of ket K j kn -> l_of bra I bl -> l_of ket K kl -> at_ m i j = spline bn bl bb kn kl scale kb false 0%Z.
Proof. exact radial_overlaps_spline. Qed.
Print Assumptions C57_numerical.
Theorem C57_scalar : forall spline J0 g0 Tz0 bb kb scale scale_is_1 bra ket s, (J0, g0, Tz0) <> (0, 0, 0)%Z ->
  radial_overlaps spline J0 g0 Tz0 bb kb scale scale_is_1 bra ket s = AssertFail.
Proof. exact overlaps_refused. Qed.
Print Assumptions C57_scalar.
Example C57_ex : distinct_labels bsp /\ Forall (fun x => NoDup (snd x)) bsp /\ scalar_sectors bsp bsp [(0, 0)%nat; (1, 1)%nat]
  /\ forall spline scale, exists bs r, radial_overlaps spline 0 0 0 BLaguerre BLaguerre scale true bsp bsp [(0, 0)%nat; (1, 1)%nat] = Ok bs
     /\ similarity 0 0 0 bsp bsp [(0, 0)%nat; (1, 1)%nat] (map real_block bs) bsec bops bsec = Ok r /\ entry bsec r 0 1 1 0 = 6.
Proof.
  split; [unfold distinct_labels; cbn; constructor; [cbn; intuition congruence|constructor; [cbn; tauto|constructor]]|].
  split; [repeat constructor; cbn; intuition congruence|].
  split; [intros A I [[= <- <-]|[[= <- <-]|[]]]; reflexivity|]. intros spline scale. eexists. eexists. split; [reflexivity|]. split; [reflexivity|].
  cbn. unfold rsum. cbn. ring.
Qed.
Example C56_C57_numerical_ex : ~ osc_case 2 1 0 /\ (BOscillator <> BLaguerre) /\ n_of bsp 0 1 1 /\ l_of bsp 1 1
  /\ forall spline, exists m, radial_operator spline BOscillator false 0 0 0 bsp [(0, 1)%nat] = Ok [m] /\ at_ m 0 0 = Num 0 /\ at_ m 1 0 = Num 0.
Proof.
  split; [unfold osc_case; lia|]. split; [discriminate|]. split; [eexists; split; reflexivity|]. split; [eexists; split; reflexivity|].
  intros spline. eexists. split; [reflexivity|]. split; reflexivity.
Qed.
