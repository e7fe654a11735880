(** C82-C88: one-body operators: obme.cpp, obmixer, ew-gen. *)
From Coq Require Import String List ZArith Reals Bool Lra Lia.
From Verif Require Import Base RMat H2Model MapModel OscModel BlockModel BlockSpec ObioModel MixModel ObmModel ObmSpec ObmProof ObmFinal ObmFin2 ObmFin3 ObmFin4 ObmFin5 ObmFin6.
Import ListNotations.
Open Scope R_scope.

(** C82: element of a tensor product: sum over all intermediate states, in every sector of the result *)
Theorem C82_product : forall (racah : Z -> Z -> Z -> Z -> Z -> Z -> R), forall sp qa sa ma qb sb mb q s, op_ok sp sp sa ma -> op_ok sp sp sb mb -> NoDup s ->
  (forall x, In x s -> (fst x < length sp)%nat /\ (snd x < length sp)%nat) -> product_qn qa qb q ->
  exists r, tensor_product racah sp qa sa ma qb sb mb q s = Ok r /\ op_ok sp sp s r
  /\ forall I i K k, In (I, K) s -> (i < sub_dim sp I)%nat -> (k < sub_dim sp K)%nat ->
     entry s r I i K k = ssum sp (fun P p => racah (two_j sp I) (two_j sp K) (two_j sp P) (rank qa) (rank qb) (rank q) * entry sa ma I i P p * entry sb mb P p K k).
Proof. exact tensor_ok. Qed.
Print Assumptions C82_product.

(** C82: nothing is lost if the recoupling factor vanishes for j', J0, j that cannot be coupled: the product on all states *)
Theorem C82_complete : forall (racah : Z -> Z -> Z -> Z -> Z -> Z -> R), forall sp qa sa ma qb sb mb q, tensor_op sp qa sa ma -> tensor_op sp qb sb mb -> product_qn qa qb q ->
  (forall j' j j'' Ja Jb J, ~ coupled j (2 * J)%Z j' -> racah j' j j'' Ja Jb J = 0) ->
  exists r, tensor_product racah sp qa sa ma qb sb mb q (sectors_of sp sp q) = Ok r /\ tensor_op sp q (sectors_of sp sp q) r
  /\ forall I i K k, state sp I i -> state sp K k ->
     entry (sectors_of sp sp q) r I i K k = ssum sp (fun P p => racah (two_j sp I) (two_j sp K) (two_j sp P) (rank qa) (rank qb) (rank q) * entry sa ma I i P p * entry sb mb P p K k).
Proof. exact tensor_complete. Qed.
Print Assumptions C82_complete.

(** C82: a rank, parity or charge that the product does not have is refused *)
Theorem C82_refused : forall (racah : Z -> Z -> Z -> Z -> Z -> Z -> R), forall sp qa sa ma qb sb mb q s, ~ product_qn qa qb q -> tensor_product racah sp qa sa ma qb sb mb q s = AssertFail.
Proof. exact tensor_refused. Qed.
Print Assumptions C82_refused.

(** C82: for scalars this is the matrix product *)
Theorem C82_scalar : forall (racah : Z -> Z -> Z -> Z -> Z -> Z -> R), forall sp sa ma sb mb s r r', op_ok sp sp sa ma -> op_ok sp sp sb mb -> NoDup s ->
  (forall x, In x s -> (fst x < length sp)%nat /\ (snd x < length sp)%nat) ->
  sa = sectors_of sp sp (0, 0, 0)%Z -> sb = sectors_of sp sp (0, 0, 0)%Z ->
  (forall j, racah j j j 0%Z 0%Z 0%Z = 1) ->
  tensor_product racah sp (0, 0, 0)%Z sa ma (0, 0, 0)%Z sb mb (0, 0, 0)%Z s = Ok r -> compose sp sp sp sp sa ma sb mb s = Ok r' ->
  forall I i K k, In (I, K) s -> (i < sub_dim sp I)%nat -> (k < sub_dim sp K)%nat -> entry s r I i K k = entry s r' I i K k.
Proof. exact tensor_scalar. Qed.
Print Assumptions C82_scalar.

(** C82: the channel of obmixer *)
Theorem C82_channel : forall (racah : Z -> Z -> Z -> Z -> Z -> Z -> R), forall id a b J0 scale ops sp qa qb fa fb, assoc ops id = None -> holds ops a sp qa fa -> holds ops b sp qb fb -> coupled (rank qa) (rank qb) J0 ->
  (forall j' j j'' Ja Jb J, ~ coupled j (2 * J)%Z j' -> racah j' j j'' Ja Jb J = 0) ->
  exists q s m, tensor_channel racah id a b J0 scale ops = Ok ((id, data_of sp q s m) :: ops) /\ product_qn qa qb q /\ rank q = J0 /\ tensor_op sp q s m
  /\ forall I i K k, state sp I i -> state sp K k ->
     entry s m I i K k = scale * ssum sp (fun P p => racah (two_j sp I) (two_j sp K) (two_j sp P) (rank qa) (rank qb) J0 * fa I i P p * fb P p K k).
Proof. exact tensor_channel_ok. Qed.
Print Assumptions C82_channel.

Theorem C82_channel_refused : forall (racah : Z -> Z -> Z -> Z -> Z -> Z -> R), forall id a b J0 scale ops, assoc ops id = None ->
  (forall sp qa qb fa fb, holds ops a sp qa fa -> holds ops b sp qb fb -> ~ coupled (rank qa) (rank qb) J0 -> tensor_channel racah id a b J0 scale ops = AssertFail)
  /\ (forall sp sp' qa qb fa fb, holds ops a sp qa fa -> holds ops b sp' qb fb -> sp <> sp' -> tensor_channel racah id a b J0 scale ops = AssertFail)
  /\ (a <> id -> assoc ops a = None -> tensor_channel racah id a b J0 scale ops = Exit)
  /\ (b <> id -> assoc ops b = None -> tensor_channel racah id a b J0 scale ops = Exit)
  /\ tensor_channel racah id id id J0 scale ops = UB.
Proof. exact tensor_channel_refused. Qed.
Print Assumptions C82_channel_refused.

Example C82_ex : forall racah : Z -> Z -> Z -> Z -> Z -> Z -> R, exists r,
  tensor_product racah sp_space (1, 0, 0)%Z (sectors_of sp_space sp_space (1, 0, 0)%Z) (const_blocks sp_space (sectors_of sp_space sp_space (1, 0, 0)%Z) 2)
    (1, 1, 0)%Z (sectors_of sp_space sp_space (1, 1, 0)%Z) (const_blocks sp_space (sectors_of sp_space sp_space (1, 1, 0)%Z) 5) (2, 1, 0)%Z (sectors_of sp_space sp_space (2, 1, 0)%Z) = Ok r
  /\ entry (sectors_of sp_space sp_space (2, 1, 0)%Z) r 1 0 0 0 = racah 3%Z 1%Z 3%Z 1%Z 1%Z 2%Z * 10.
Proof. exact C82_case. Qed.

(** C83: l, s, j are diagonal in n, with the reduced element of the angular momentum, if the subspaces list their n alike *)
Theorem C83_am : forall (am_rme : am_type -> Z -> Z -> Z -> Z -> R), forall t sp, aligned sp -> distinct_n sp -> exists r, angular_momentum am_rme t sp (1, 0, 0)%Z (sectors_of sp sp (1, 0, 0)%Z) = Ok r
  /\ tensor_op sp (1, 0, 0)%Z (sectors_of sp sp (1, 0, 0)%Z) r
  /\ elements sp (1, 0, 0)%Z (sectors_of sp sp (1, 0, 0)%Z) r (fun a n b n' => if (n =? n')%Z then am_rme t (ll_l a) (ll_2j a) (ll_l b) (ll_2j b) else 0).
Proof. exact am_ok. Qed.
Print Assumptions C83_am.

Theorem C83_am_refused : forall (am_rme : am_type -> Z -> Z -> Z -> Z -> R), forall t sp q s, q <> (1, 0, 0)%Z -> angular_momentum am_rme t sp q s = AssertFail.
Proof. exact am_refused. Qed.
Print Assumptions C83_am_refused.

(** C83: l2, s2, j2 *)
Theorem C83_am_square : forall t sp, orbital_space sp -> distinct_labels sp -> exists r, angular_momentum_squared t sp (0, 0, 0)%Z (sectors_of sp sp (0, 0, 0)%Z) = Ok r
  /\ tensor_op sp (0, 0, 0)%Z (sectors_of sp sp (0, 0, 0)%Z) r
  /\ forall I i K k a n, orbital_at sp I i a n -> state sp K k -> entry (sectors_of sp sp (0, 0, 0)%Z) r I i K k = if Nat.eqb I K && Nat.eqb i k then casimir t a else 0.
Proof. exact am_square_ok. Qed.
Print Assumptions C83_am_square.

Theorem C83_am_square_refused : forall t sp q s, q <> (0, 0, 0)%Z -> angular_momentum_squared t sp q s = AssertFail.
Proof. exact am_square_refused. Qed.
Print Assumptions C83_am_square_refused.

(** C83: tz, t+, t-, under the same condition *)
Theorem C83_isospin : forall sp Tz0, aligned sp -> distinct_n sp -> exists r, isospin sp (0, 0, Tz0)%Z (sectors_of sp sp (0, 0, Tz0)%Z) = Ok r
  /\ tensor_op sp (0, 0, Tz0)%Z (sectors_of sp sp (0, 0, Tz0)%Z) r
  /\ elements sp (0, 0, Tz0)%Z (sectors_of sp sp (0, 0, Tz0)%Z) r
       (fun a n b n' => if (n =? n')%Z then if (Tz0 =? 0)%Z then match ll_sp b with SP => 1 / 2 | SN => - (1 / 2) end else 1 else 0).
Proof. exact isospin_ok. Qed.
Print Assumptions C83_isospin.

(** C83: t- is the adjoint of t+ *)
Theorem C83_isospin_adjoint : forall sp p m, isospin sp (0, 0, 1)%Z (sectors_of sp sp (0, 0, 1)%Z) = Ok p -> isospin sp (0, 0, -1)%Z (sectors_of sp sp (0, 0, -1)%Z) = Ok m ->
  forall I i K k, state sp I i -> state sp K k -> entry (sectors_of sp sp (0, 0, -1)%Z) m I i K k = entry (sectors_of sp sp (0, 0, 1)%Z) p K k I i.
Proof. exact isospin_adjoint. Qed.
Print Assumptions C83_isospin_adjoint.

(** C83: [t+, t-] = 2 tz if every orbital exists for both species *)
Theorem C83_isospin_commutator : forall sp p m z, orbital_space sp -> distinct_labels sp -> charge_symmetric sp ->
  isospin sp (0, 0, 1)%Z (sectors_of sp sp (0, 0, 1)%Z) = Ok p -> isospin sp (0, 0, -1)%Z (sectors_of sp sp (0, 0, -1)%Z) = Ok m ->
  isospin sp (0, 0, 0)%Z (sectors_of sp sp (0, 0, 0)%Z) = Ok z ->
  forall I i K k, state sp I i -> state sp K k ->
  ssum sp (fun P x => entry (sectors_of sp sp (0, 0, 1)%Z) p I i P x * entry (sectors_of sp sp (0, 0, -1)%Z) m P x K k)
  - ssum sp (fun P x => entry (sectors_of sp sp (0, 0, -1)%Z) m I i P x * entry (sectors_of sp sp (0, 0, 1)%Z) p P x K k)
  = 2 * entry (sectors_of sp sp (0, 0, 0)%Z) z I i K k.
Proof. exact isospin_commutator. Qed.
Print Assumptions C83_isospin_commutator.

(** C83: Without the condition: t+ connects different n *)
Theorem C83_isospin_refuted : exists sp r, orbital_space sp /\ distinct_labels sp /\ distinct_n sp
  /\ isospin sp (0, 0, 1)%Z (sectors_of sp sp (0, 0, 1)%Z) = Ok r
  /\ orbital_at sp 0 0 (LL SP 0 1) 0 /\ orbital_at sp 1 0 (LL SN 0 1) 1 /\ entry (sectors_of sp sp (0, 0, 1)%Z) r 0 0 1 0 = 1.
Proof. exact isospin_index_refuted. Qed.
Print Assumptions C83_isospin_refuted.

(** and does not connect equal n *)
Theorem C83_isospin_missing_refuted : exists sp r, orbital_space sp /\ distinct_labels sp /\ distinct_n sp
  /\ isospin sp (0, 0, 1)%Z (sectors_of sp sp (0, 0, 1)%Z) = Ok r
  /\ orbital_at sp 0 1 (LL SP 0 1) 1 /\ orbital_at sp 1 0 (LL SN 0 1) 1 /\ entry (sectors_of sp sp (0, 0, 1)%Z) r 0 1 1 0 = 0.
Proof. exact isospin_missing_refuted. Qed.
Print Assumptions C83_isospin_missing_refuted.

(** and l, s, j connect different n *)
Theorem C83_am_refuted : forall am_rme t, exists sp r, orbital_space sp /\ distinct_labels sp /\ distinct_n sp
  /\ angular_momentum am_rme t sp (1, 0, 0)%Z (sectors_of sp sp (1, 0, 0)%Z) = Ok r
  /\ orbital_at sp 0 0 (LL SP 1 1) 0 /\ orbital_at sp 1 0 (LL SP 1 3) 1 /\ entry (sectors_of sp sp (1, 0, 0)%Z) r 0 0 1 0 = am_rme t 1%Z 1%Z 1%Z 3%Z.
Proof. exact am_index_refuted. Qed.
Print Assumptions C83_am_refuted.

Example C83_ex : exists p z j, isospin pn_space (0, 0, 1)%Z (sectors_of pn_space pn_space (0, 0, 1)%Z) = Ok p /\ isospin pn_space (0, 0, 0)%Z (sectors_of pn_space pn_space (0, 0, 0)%Z) = Ok z
  /\ angular_momentum_squared ATotal pn_space (0, 0, 0)%Z (sectors_of pn_space pn_space (0, 0, 0)%Z) = Ok j
  /\ entry (sectors_of pn_space pn_space (0, 0, 1)%Z) p 0 1 1 1 = 1 /\ entry (sectors_of pn_space pn_space (0, 0, 1)%Z) p 0 0 1 1 = 0 /\ entry (sectors_of pn_space pn_space (0, 0, 1)%Z) p 1 1 0 1 = 0
  /\ entry (sectors_of pn_space pn_space (0, 0, 0)%Z) z 1 1 1 1 = - (1 / 2) /\ entry (sectors_of pn_space pn_space (0, 0, 0)%Z) j 1 0 1 0 = 15 / 4.
Proof. exact C83_case. Qed.

(** C83: isospin operators are scalars of positive parity *)
Theorem C83_isospin_refused : forall sp J0 g0 Tz0 s, (J0, g0) <> (0, 0)%Z -> isospin sp (J0, g0, Tz0) s = AssertFail.
Proof. exact isospin_refused. Qed.
Print Assumptions C83_isospin_refused.

(** C83: the operators known by name *)
Theorem C83_angular_names : forall id x, assoc angular_momenta id = Some x <-> In (id, x)
  [("l"%string, (GAm AOrbital, 1%Z, (1, 0, 0)%Z)); ("s"%string, (GAm ASpin, 1%Z, (1, 0, 0)%Z)); ("j"%string, (GAm ATotal, 1%Z, (1, 0, 0)%Z));
   ("l2"%string, (GAm AOrbital, 2%Z, (0, 0, 0)%Z)); ("s2"%string, (GAm ASpin, 2%Z, (0, 0, 0)%Z)); ("j2"%string, (GAm ATotal, 2%Z, (0, 0, 0)%Z))].
Proof. exact angular_table. Qed.
Print Assumptions C83_angular_names.

Theorem C83_isospin_names : forall id x, assoc isospins id = Some x <-> In (id, x)
  [("tz"%string, (GIso, 1%Z, (0, 0, 0)%Z)); ("t+"%string, (GIso, 1%Z, (0, 0, 1)%Z)); ("t-"%string, (GIso, 1%Z, (0, 0, -1)%Z))].
Proof. exact isospin_table. Qed.
Print Assumptions C83_isospin_names.

(** C83: the channels of obmixer, on the space of the run or of the orbital file of the channel *)
Theorem C83_generated_am : forall (spline : spline_me) (crme : Z -> Z -> Z -> Z -> Z -> R) (am_rme : am_type -> Z -> Z -> Z -> Z -> R) (inv_sqrt_4pi : R), forall rp id t space ops, let sp := channel_space rp space in id <> "identity"%string -> assoc ops id = None -> aligned sp -> distinct_n sp ->
  exists s m, generated_channel spline crme am_rme inv_sqrt_4pi rp id (GAm t) 1 (1, 0, 0)%Z space ops = Ok ((id, data_of sp (1, 0, 0)%Z s m) :: ops) /\ tensor_op sp (1, 0, 0)%Z s m
  /\ elements sp (1, 0, 0)%Z s m (fun a n b n' => if (n =? n')%Z then am_rme t (ll_l a) (ll_2j a) (ll_l b) (ll_2j b) else 0).
Proof. exact generated_am. Qed.
Print Assumptions C83_generated_am.

Theorem C83_generated_square : forall (spline : spline_me) (crme : Z -> Z -> Z -> Z -> Z -> R) (am_rme : am_type -> Z -> Z -> Z -> Z -> R) (inv_sqrt_4pi : R), forall rp id t space ops, let sp := channel_space rp space in id <> "identity"%string -> assoc ops id = None -> orbital_space sp -> distinct_labels sp ->
  exists s m, generated_channel spline crme am_rme inv_sqrt_4pi rp id (GAm t) 2 (0, 0, 0)%Z space ops = Ok ((id, data_of sp (0, 0, 0)%Z s m) :: ops) /\ tensor_op sp (0, 0, 0)%Z s m
  /\ forall I i K k a n, orbital_at sp I i a n -> state sp K k -> entry s m I i K k = if Nat.eqb I K && Nat.eqb i k then casimir t a else 0.
Proof. exact generated_square. Qed.
Print Assumptions C83_generated_square.

Theorem C83_generated_isospin : forall (spline : spline_me) (crme : Z -> Z -> Z -> Z -> Z -> R) (am_rme : am_type -> Z -> Z -> Z -> Z -> R) (inv_sqrt_4pi : R), forall rp id order Tz0 space ops, let sp := channel_space rp space in id <> "identity"%string -> assoc ops id = None -> aligned sp -> distinct_n sp ->
  exists s m, generated_channel spline crme am_rme inv_sqrt_4pi rp id GIso order (0, 0, Tz0)%Z space ops = Ok ((id, data_of sp (0, 0, Tz0)%Z s m) :: ops) /\ tensor_op sp (0, 0, Tz0)%Z s m
  /\ elements sp (0, 0, Tz0)%Z s m (fun a n b n' => if (n =? n')%Z then if (Tz0 =? 0)%Z then match ll_sp b with SP => 1 / 2 | SN => - (1 / 2) end else 1 else 0).
Proof. exact generated_isospin. Qed.
Print Assumptions C83_generated_isospin.

(** C84: elements of solid harmonics: radial element times angular factor *)
Theorem C84_solid_harmonic : forall (spline : spline_me) (crme : Z -> Z -> Z -> Z -> Z -> R), forall bt t order sp J0 g0 Tz0 (rad : llabel -> Z -> llabel -> Z -> R),
  (forall I i K k a n b n', orbital_at sp I i a n -> orbital_at sp K k b n' -> allowed (J0, g0, Tz0) a b ->
     radial_value spline bt t order J0 g0 n (ll_l a) n' (ll_l b) (rad a n b n')) ->
  exists r, solid_harmonic spline crme bt t order sp (J0, g0, Tz0) (sectors_of sp sp (J0, g0, Tz0)) = Ok r /\ tensor_op sp (J0, g0, Tz0) (sectors_of sp sp (J0, g0, Tz0)) r
  /\ elements sp (J0, g0, Tz0) (sectors_of sp sp (J0, g0, Tz0)) r (fun a n b n' => rad a n b n' * crme (ll_l a) (ll_2j a) (ll_l b) (ll_2j b) J0).
Proof. exact solid_ok. Qed.
Print Assumptions C84_solid_harmonic.

(** C84: operators of obmixer: units of length; the factor for Y is that of the power, not of the rank *)
Theorem C84_generated_partial : forall (spline : spline_me) (crme : Z -> Z -> Z -> Z -> Z -> R) (am_rme : am_type -> Z -> Z -> Z -> Z -> R) (inv_sqrt_4pi : R), forall rp id t order J0 g0 Tz0 ops (rad : llabel -> Z -> llabel -> Z -> R), id <> "identity"%string -> assoc ops id = None ->
  (forall I i K k a n b n', orbital_at (rn_space rp) I i a n -> orbital_at (rn_space rp) K k b n' -> allowed (J0, g0, Tz0) a b ->
     radial_value spline (rn_basis rp) t order J0 g0 n (ll_l a) n' (ll_l b) (rad a n b n')) ->
  exists s m, generated_channel spline crme am_rme inv_sqrt_4pi rp id (GRadial t) order (J0, g0, Tz0) None ops = Ok ((id, data_of (rn_space rp) (J0, g0, Tz0) s m) :: ops)
  /\ tensor_op (rn_space rp) (J0, g0, Tz0) s m
  /\ elements (rn_space rp) (J0, g0, Tz0) s m (fun a n b n' => length_power t order (rn_length rp)
       * (match assoc kinematic id with Some _ => 1 | None => sqrt (IZR (2 * order + 1)) * inv_sqrt_4pi end)
       * rad a n b n' * crme (ll_l a) (ll_2j a) (ll_l b) (ll_2j b) J0).
Proof. exact generated_solid. Qed.
Print Assumptions C84_generated_partial.

Theorem C84_identity : forall (spline : spline_me) (crme : Z -> Z -> Z -> Z -> Z -> R) (am_rme : am_type -> Z -> Z -> Z -> Z -> R) (inv_sqrt_4pi : R), forall rp t order q ops, assoc ops "identity"%string = None ->
  exists s m, generated_channel spline crme am_rme inv_sqrt_4pi rp "identity" t order q None ops = Ok (("identity"%string, data_of (rn_space rp) q s m) :: ops)
  /\ tensor_op (rn_space rp) q s m
  /\ forall I i K k a n b n', orbital_at (rn_space rp) I i a n -> orbital_at (rn_space rp) K k b n' -> allowed q a b ->
     entry s m I i K k = if Nat.eqb i k then 1 else 0.
Proof. exact generated_identity. Qed.
Print Assumptions C84_identity.

Theorem C84_exists : forall (spline : spline_me) (crme : Z -> Z -> Z -> Z -> Z -> R) (am_rme : am_type -> Z -> Z -> Z -> Z -> R) (inv_sqrt_4pi : R), forall rp id t order q space ops o, assoc ops id = Some o -> generated_channel spline crme am_rme inv_sqrt_4pi rp id t order q space ops = Exit.
Proof. exact generated_exists. Qed.
Print Assumptions C84_exists.

(** C84: r^2 of rank 0 requested as solid harmonic is not normalised like Y_0 *)
Theorem C84_normalisation_refuted : forall spline crme am_rme inv_sqrt_4pi, inv_sqrt_4pi <> 0 -> crme 0%Z 1%Z 0%Z 1%Z 0%Z <> 0 ->
  exists rp id s m x, generated_channel spline crme am_rme inv_sqrt_4pi rp id (GRadial TR) 2 (0, 0, 0)%Z None [] = Ok [(id, data_of (rn_space rp) (0, 0, 0)%Z s m)]
  /\ radial_value spline (rn_basis rp) TR 2 0 0 0 0 0 0 x /\ orbital_at (rn_space rp) 0 0 (LL SP 0 1) 0
  /\ entry s m 0 0 0 0 <> length_power TR 2 (rn_length rp) * (sqrt (IZR (2 * 0 + 1)) * inv_sqrt_4pi) * x * crme 0%Z 1%Z 0%Z 1%Z 0%Z.
Proof. exact solid_normalisation_refuted. Qed.
Print Assumptions C84_normalisation_refuted.

(** C84: an operator named identity is the identity *)
Theorem C84_name_refuted : forall spline crme am_rme inv_sqrt_4pi, exists rp s m x,
  generated_channel spline crme am_rme inv_sqrt_4pi rp "identity" (GRadial TR) 2 (0, 0, 0)%Z None [] = Ok [("identity"%string, data_of (rn_space rp) (0, 0, 0)%Z s m)]
  /\ radial_value spline (rn_basis rp) TR 2 0 0 0 0 0 0 x /\ orbital_at (rn_space rp) 0 0 (LL SP 0 1) 0 /\ entry s m 0 0 0 0 = 1 /\ x = 3 / 2.
Proof. exact name_identity_refuted. Qed.
Print Assumptions C84_name_refuted.

(** C84: the names known; not the documented k and k.k *)
Theorem C84_names : forall id, (exists x, assoc kinematic id = Some x) <-> (id = "identity" \/ id = "r" \/ id = "ik" \/ id = "r.r" \/ id = "ik.ik")%string.
Proof. exact kinematic_ids. Qed.
Print Assumptions C84_names.

Example C84_ex : forall spline crme am_rme inv_sqrt_4pi, exists s m,
  generated_channel spline crme am_rme inv_sqrt_4pi (Run BOscillator 2 [(LL SP 0 1, [0%Z])]) "r.r" (GRadial TR) 2 (0, 0, 0)%Z None [] = Ok [("r.r"%string, data_of [(LL SP 0 1, [0%Z])] (0, 0, 0)%Z s m)]
  /\ entry s m 0 0 0 0 = 4 * (3 / 2) * crme 0%Z 1%Z 0%Z 1%Z 0%Z.
Proof. exact C84_case. Qed.

(** C84: ladder operators: the oscillator element times the angular factor *)
Theorem C84_ladder : forall (crme : Z -> Z -> Z -> Z -> Z -> R), forall up sp J0 g0 Tz0, orbital_space sp ->
  exists r, ladder crme BOscillator up sp (J0, g0, Tz0) (sectors_of sp sp (J0, g0, Tz0)) = Ok r /\ tensor_op sp (J0, g0, Tz0) (sectors_of sp sp (J0, g0, Tz0)) r
  /\ elements sp (J0, g0, Tz0) (sectors_of sp sp (J0, g0, Tz0)) r
       (fun a n b n' => crme (ll_l a) (ll_2j a) (ll_l b) (ll_2j b) J0 * ladder_value up n (ll_l a) n' (ll_l b)).
Proof. exact ladder_ok. Qed.
Print Assumptions C84_ladder.

(** C84: in another basis they are refused *)
Theorem C84_ladder_refused : forall (crme : Z -> Z -> Z -> Z -> Z -> R), forall bt up sp q s, bt <> BOscillator -> ladder crme bt up sp q s = AssertFail.
Proof. exact ladder_refused. Qed.
Print Assumptions C84_ladder_refused.

(** C84: what the names mean *)
Theorem C84_kinematic_names : forall id x, assoc kinematic id = Some x <-> In (id, x)
  [("identity"%string, (GRadial TOther, 0%Z, (0, 0, 0)%Z)); ("r"%string, (GRadial TR, 1%Z, (1, 1, 0)%Z)); ("ik"%string, (GRadial TK, 1%Z, (1, 1, 0)%Z));
   ("r.r"%string, (GRadial TR, 2%Z, (0, 0, 0)%Z)); ("ik.ik"%string, (GRadial TK, 2%Z, (0, 0, 0)%Z))].
Proof. exact kinematic_table. Qed.
Print Assumptions C84_kinematic_names.

Theorem C84_ladder_names : forall id x, assoc ladders id = Some x <-> In (id, x) [("c+"%string, (GLadder true, 1%Z, (1, 1, 0)%Z)); ("c"%string, (GLadder false, 1%Z, (1, 1, 0)%Z))].
Proof. exact ladder_table. Qed.
Print Assumptions C84_ladder_names.

Theorem C84_generated_ladder : forall (spline : spline_me) (crme : Z -> Z -> Z -> Z -> Z -> R) (am_rme : am_type -> Z -> Z -> Z -> Z -> R) (inv_sqrt_4pi : R), forall rp id up order J0 g0 Tz0 space ops, let sp := channel_space rp space in id <> "identity"%string -> assoc ops id = None -> orbital_space sp -> rn_basis rp = BOscillator ->
  exists s m, generated_channel spline crme am_rme inv_sqrt_4pi rp id (GLadder up) order (J0, g0, Tz0) space ops = Ok ((id, data_of sp (J0, g0, Tz0) s m) :: ops) /\ tensor_op sp (J0, g0, Tz0) s m
  /\ elements sp (J0, g0, Tz0) s m (fun a n b n' => crme (ll_l a) (ll_2j a) (ll_l b) (ll_2j b) J0 * ladder_value up n (ll_l a) n' (ll_l b)).
Proof. exact generated_ladder. Qed.
Print Assumptions C84_generated_ladder.

(** C84: with an orbital file, the channel is that of a run on the space of the file *)
Theorem C84_orbital_file : forall (spline : spline_me) (crme : Z -> Z -> Z -> Z -> Z -> R) (am_rme : am_type -> Z -> Z -> Z -> Z -> R) (inv_sqrt_4pi : R), forall rp id t order q sp ops, generated_channel spline crme am_rme inv_sqrt_4pi rp id t order q (Some sp) ops = generated_channel spline crme am_rme inv_sqrt_4pi (Run (rn_basis rp) (rn_length rp) sp) id t order q None ops.
Proof. exact generated_space. Qed.
Print Assumptions C84_orbital_file.

Example C84_ladder_ex : forall crme, exists up down, ladder crme BOscillator true sp_orbitals (1, 1, 0)%Z (sectors_of sp_orbitals sp_orbitals (1, 1, 0)%Z) = Ok up
  /\ ladder crme BOscillator false sp_orbitals (1, 1, 0)%Z (sectors_of sp_orbitals sp_orbitals (1, 1, 0)%Z) = Ok down
  /\ entry (sectors_of sp_orbitals sp_orbitals (1, 1, 0)%Z) up 1 0 0 0 = crme 1%Z 3%Z 0%Z 1%Z 1%Z * sqrt 3
  /\ entry (sectors_of sp_orbitals sp_orbitals (1, 1, 0)%Z) up 0 0 1 0 = 0
  /\ entry (sectors_of sp_orbitals sp_orbitals (1, 1, 0)%Z) down 0 0 1 0 = crme 0%Z 1%Z 1%Z 3%Z 1%Z * sqrt 3.
Proof. exact C84_ladder_case. Qed.

(** C85: what is written: the elements of the states of the target space, 0 for states that are not in the space of the operator *)
Theorem C85_written : forall (spline : spline_me), forall rp id ops sp q s m, assoc ops id = Some (data_of sp q s m) -> tensor_op sp q s m ->
  orbital_space sp -> distinct_labels sp -> distinct_n sp -> orbital_space (rn_space rp) ->
  exists s' m', write_channel spline rp id ops = Ok (ObFile (rn_space rp) (rn_space rp) q s' m') /\ tensor_op (rn_space rp) q s' m'
  /\ (forall I i K k A a B b, same_orbital (rn_space rp) I i sp A a -> same_orbital (rn_space rp) K k sp B b -> entry s' m' I i K k = entry s m A a B b)
  /\ (forall I i K k, state (rn_space rp) I i -> state (rn_space rp) K k ->
        (forall A a, ~ same_orbital (rn_space rp) I i sp A a) \/ (forall B b, ~ same_orbital (rn_space rp) K k sp B b) -> entry s' m' I i K k = 0).
Proof. exact write_ok. Qed.
Print Assumptions C85_written.

Example C85_ex : forall spline, exists s m, let ops := [("a"%string, data_of [(LL SP 0 1, [0; 1]%Z)] (0, 0, 0)%Z [(0, 0)%nat] [Mat 2 2 (fun i j => INR (10 * i + j))])] in
  write_channel spline (Run BOscillator 1 [(LL SP 0 1, [1; 2]%Z)]) "a" ops = Ok (ObFile [(LL SP 0 1, [1; 2]%Z)] [(LL SP 0 1, [1; 2]%Z)] (0, 0, 0)%Z s m)
  /\ entry s m 0 0 0 0 = 11 /\ entry s m 0 1 0 1 = 0.
Proof. exact C85_case. Qed.

(** C85: operators read from files *)
Theorem C85_input : forall id f q ops, assoc ops id = None -> of_bra f = of_ket f -> q = of_q f ->
  input_channel id f q ops = Ok ((id, data_of (of_bra f) (of_q f) (of_sectors f) (of_blocks f)) :: ops).
Proof. exact input_ok. Qed.
Print Assumptions C85_input.

Theorem C85_input_refused : forall id f q ops,
  (assoc ops id <> None -> input_channel id f q ops = Exit)
  /\ (assoc ops id = None -> of_bra f <> of_ket f \/ q <> of_q f -> input_channel id f q ops = AssertFail).
Proof. exact input_refused. Qed.
Print Assumptions C85_input_refused.

(** C85: transformations are scalars *)
Theorem C85_xform_scalar : forall f, (of_q f = (0, 0, 0)%Z -> read_xform f = Ok f) /\ (of_q f <> (0, 0, 0)%Z -> read_xform f = AssertFail).
Proof. exact read_xform_scalar. Qed.
Print Assumptions C85_xform_scalar.

(** C85: a transformed operator: sum over states of the source, on the ket space of the transformation *)
Theorem C85_transformed : forall id src xf xs ops f sp q fo, assoc ops id = None -> assoc xs xf = Some f -> holds ops src sp q fo ->
  of_q f = (0, 0, 0)%Z -> of_bra f = sp -> op_ok sp (of_ket f) (of_sectors f) (of_blocks f) -> of_sectors f = sectors_of sp (of_ket f) (0, 0, 0)%Z ->
  orbital_space sp -> orbital_space (of_ket f) -> distinct_labels sp ->
  exists s m, xform_ob_channel id src xf xs ops = Ok ((id, data_of (of_ket f) q s m) :: ops) /\ tensor_op (of_ket f) q s m
  /\ forall I i K k a n b n', orbital_at (of_ket f) I i a n -> orbital_at (of_ket f) K k b n' -> allowed q a b ->
     entry s m I i K k = ssum sp (fun A x => ssum sp (fun B y => file_entry f A x I i * fo A x B y * file_entry f B y K k)).
Proof. exact xform_channel_ok. Qed.
Print Assumptions C85_transformed.

Theorem C85_transformed_refused : forall id src xf xs ops,
  (assoc ops src = None \/ assoc xs xf = None -> xform_ob_channel id src xf xs ops = Exit)
  /\ (assoc ops id <> None -> xform_ob_channel id src xf xs ops = Exit)
  /\ forall o f, assoc ops id = None -> assoc ops src = Some o -> assoc xs xf = Some f ->
     (od_space o <> of_bra f -> xform_ob_channel id src xf xs ops = AssertFail)
     /\ (od_space o = of_bra f -> od_q o <> None -> of_q f <> (0, 0, 0)%Z -> xform_ob_channel id src xf xs ops = AssertFail).
Proof. exact xform_channel_refused. Qed.
Print Assumptions C85_transformed_refused.

Example C85_xform_ex : exists s m,
  xform_ob_channel "b" "a" "x" [("x"%string, ObFile [(LL SP 0 1, [0%Z])] [(LL SP 0 1, [1%Z])] (0, 0, 0)%Z [(0, 0)%nat] [Mat 1 1 (fun _ _ => 1 / 2)])] [("a"%string, one_op (LL SP 0 1) 12)]
  = Ok [("b"%string, data_of [(LL SP 0 1, [1%Z])] (0, 0, 0)%Z s m); ("a"%string, one_op (LL SP 0 1) 12)] /\ entry s m 0 0 0 0 = 3.
Proof. exact C85_xform_case. Qed.

(** C86: linear combinations of operators on one space *)
Theorem C86_sum : forall ops id sp q (co : list (string * R)) (f : string -> nat -> nat -> nat -> nat -> R), assoc ops id = None -> co <> [] ->
  (forall ic, In ic co -> holds ops (fst ic) sp q (f (fst ic))) ->
  exists s m, linear_channel id co ops = Ok ((id, data_of sp q s m) :: ops) /\ tensor_op sp q s m
  /\ forall I i K k, state sp I i -> state sp K k -> entry s m I i K k = lsum co (fun ic => snd ic * f (fst ic) I i K k).
Proof. exact linear_ok. Qed.
Print Assumptions C86_sum.

Theorem C86_exists : forall ops id co o, assoc ops id = Some o -> linear_channel id co ops = Exit.
Proof. exact linear_exists. Qed.
Print Assumptions C86_exists.

Theorem C86_quantum_numbers : forall ops id sp q ic ic' co f o q', assoc ops id = None -> holds ops (fst ic) sp q f ->
  fst ic' <> id -> assoc ops (fst ic') = Some o -> od_q o = Some q' -> q' <> q -> linear_channel id (ic :: ic' :: co) ops = AssertFail.
Proof. exact linear_q. Qed.
Print Assumptions C86_quantum_numbers.

(** C86: operators on different spaces are added *)
Theorem C86_spaces_refuted : exists ops id co od, linear_channel id co ops = Ok ((id, od) :: ops)
  /\ holds ops "a" [(LL SP 0 1, [0%Z])] (0, 0, 0)%Z (fun _ _ _ _ => 3) /\ holds ops "b" [(LL SN 1 3, [0%Z])] (0, 0, 0)%Z (fun _ _ _ _ => 4)
  /\ co = [("a"%string, 1); ("b"%string, 1)] /\ od_space od = [(LL SP 0 1, [0%Z])] /\ entry (od_sectors od) (od_blocks od) 0 0 0 0 = 7.
Proof. exact linear_spaces_refuted. Qed.
Print Assumptions C86_spaces_refuted.

(** C86: an operator may be a term of itself *)
Theorem C86_self_refuted : exists ops id co od, linear_channel id co ops = Ok ((id, od) :: ops) /\ assoc ops id = None
  /\ holds ops "a" [(LL SP 0 1, [0%Z])] (0, 0, 0)%Z (fun _ _ _ _ => 3)
  /\ co = [("a"%string, 1); (id, 1)] /\ entry (od_sectors od) (od_blocks od) 0 0 0 0 = 6.
Proof. exact linear_self_refuted. Qed.
Print Assumptions C86_self_refuted.

Example C86_ex : exists od, linear_channel "c" [("a"%string, 2); ("b"%string, 3)] [("a"%string, one_op (LL SP 0 1) 3); ("b"%string, one_op (LL SP 0 1) 4)]
    = Ok [("c"%string, od); ("a"%string, one_op (LL SP 0 1) 3); ("b"%string, one_op (LL SP 0 1) 4)] /\ entry (od_sectors od) (od_blocks od) 0 0 0 0 = 18.
Proof. exact C86_case. Qed.

(** C87: operator files that ew-gen accepts *)
Theorem C87_load : forall f spherical, (of_bra f = of_ket f -> spherical = true -> ew_load f spherical = Ok f)
  /\ (of_bra f <> of_ket f \/ spherical = false -> ew_load f spherical = Exit).
Proof. exact ew_load_ok. Qed.
Print Assumptions C87_load.

(** C87: electric targets *)
Theorem C87_electric : forall sp b0 radial lambda species f, find_op Z.eqb radial lambda = Some f -> file_ok f sp (lambda, Z.rem lambda 2, 0)%Z ->
  exists g, target_E sp (Some b0) radial lambda species = Ok g /\ file_ok g sp (lambda, Z.rem lambda 2, 0)%Z
  /\ forall I i K k a n, orbital_at sp I i a n -> state sp K k -> file_entry g I i K k = species_factor species a * powerRZ b0 lambda * file_entry f I i K k.
Proof. exact target_E_ok. Qed.
Print Assumptions C87_electric.

Theorem C87_electric_missing : forall sp b0 radial lambda species, find_op Z.eqb radial lambda = None -> target_E sp b0 radial lambda species = Exit.
Proof. exact target_E_missing. Qed.
Print Assumptions C87_electric_missing.

Theorem C87_electric_space : forall sp b0 radial lambda species f, find_op Z.eqb radial lambda = Some f -> of_bra f <> sp -> target_E sp b0 radial lambda species = AssertFail.
Proof. exact target_E_space. Qed.
Print Assumptions C87_electric_space.

(** C87: no scale factor set *)
Theorem C87_electric_unset : forall sp radial lambda species f, find_op Z.eqb radial lambda = Some f -> file_ok f sp (lambda, Z.rem lambda 2, 0)%Z ->
  of_sectors f <> [] -> target_E sp None radial lambda species = UB.
Proof. exact target_E_unset. Qed.
Print Assumptions C87_electric_unset.

(** C87: Fermi and Gamow-Teller targets *)
Theorem C87_fermi : forall (racah : Z -> Z -> Z -> Z -> Z -> Z -> R), forall sp am iso f, find_op Z.eqb iso 1%Z = Some f -> file_ok f sp (0, 0, 1)%Z ->
  exists g, target_weak racah sp am iso false = Ok g /\ file_ok g sp (0, 0, 1)%Z /\ forall I i K k, file_entry g I i K k = file_entry f I i K k.
Proof. exact target_F_ok. Qed.
Print Assumptions C87_fermi.

Theorem C87_gamow_teller : forall (racah : Z -> Z -> Z -> Z -> Z -> Z -> R), forall sp am iso f a, find_op Z.eqb iso 1%Z = Some f -> file_ok f sp (0, 0, 1)%Z -> find_op am_eqb am ASpin = Some a -> file_ok a sp (1, 0, 0)%Z ->
  (forall j' j j'' Ja Jb J, ~ coupled j (2 * J)%Z j' -> racah j' j j'' Ja Jb J = 0) ->
  exists g, target_weak racah sp am iso true = Ok g /\ file_ok g sp (1, 0, 1)%Z
  /\ forall I i K k, state sp I i -> state sp K k -> file_entry g I i K k = product_entry racah sp (1, 0, 0)%Z (0, 0, 1)%Z (1, 0, 1)%Z a f I i K k.
Proof. exact target_GT_ok. Qed.
Print Assumptions C87_gamow_teller.

(** C87: the rank of the input is not compared with that of the target *)
Theorem C87_rank_refuted : exists sp b0 radial lambda f g, file_ok f sp (0, 0, 0)%Z /\ find_op Z.eqb radial lambda = Some f
  /\ target_E sp (Some b0) radial lambda None = Ok g /\ of_q g = (2, 0, 0)%Z /\ file_entry g 0 0 0 0 = 1 /\ state sp 0 0.
Proof. exact ew_rank_refuted. Qed.
Print Assumptions C87_rank_refuted.

Theorem C87_rank_blocks_refuted : exists sp b0 radial lambda f, file_ok f sp (0, 0, 0)%Z /\ find_op Z.eqb radial lambda = Some f
  /\ orbital_space sp /\ target_E sp (Some b0) radial lambda None = UB.
Proof. exact ew_rank_blocks_refuted. Qed.
Print Assumptions C87_rank_blocks_refuted.

Example C87_ex : exists g g', target_E p32 (Some 3) [(2%Z, const_file p32 (2, 0, 0)%Z 5)] 2 (Some SP) = Ok g /\ target_E p32 (Some 3) [(2%Z, const_file p32 (2, 0, 0)%Z 5)] 2 (Some SN) = Ok g'
  /\ file_entry g 0 0 0 0 = 45 /\ file_entry g' 0 0 0 0 = 0.
Proof. exact C87_case. Qed.

(** C88: dipole targets Dl and Ds *)
Theorem C88_dipole : forall (racah : Z -> Z -> Z -> Z -> Z -> Z -> R) (inv_sqrt_4pi : R), forall sp b0 radial am (orbital : bool) species f, find_op am_eqb am (if orbital then AOrbital else ASpin) = Some f -> file_ok f sp (1, 0, 0)%Z ->
  exists g, target_M racah inv_sqrt_4pi sp (Some b0) radial am orbital 1 species = Ok g /\ file_ok g sp (1, 0, 0)%Z
  /\ forall I i K k a n, orbital_at sp I i a n -> state sp K k ->
     file_entry g I i K k = species_factor species a * (sqrt 3 * inv_sqrt_4pi) * file_entry f I i K k.
Proof. exact target_M1_ok. Qed.
Print Assumptions C88_dipole.

(** C88: Ds of higher rank *)
Theorem C88_spin : forall (racah : Z -> Z -> Z -> Z -> Z -> Z -> R) (inv_sqrt_4pi : R), forall sp b0 radial am lambda species f r, (2 <= lambda)%Z -> find_op am_eqb am ASpin = Some f -> file_ok f sp (1, 0, 0)%Z ->
  find_op Z.eqb radial (lambda - 1)%Z = Some r -> file_ok r sp (lambda - 1, Z.rem (lambda - 1) 2, 0)%Z ->
  (forall j' j j'' Ja Jb J, ~ coupled j (2 * J)%Z j' -> racah j' j j'' Ja Jb J = 0) ->
  exists g, target_M racah inv_sqrt_4pi sp (Some b0) radial am false lambda species = Ok g /\ file_ok g sp (lambda, Z.rem (lambda - 1) 2, 0)%Z
  /\ forall I i K k a n, orbital_at sp I i a n -> state sp K k ->
     file_entry g I i K k = species_factor species a * gradient_factor b0 lambda
       * product_entry racah sp (1, 0, 0)%Z (lambda - 1, Z.rem (lambda - 1) 2, 0)%Z (lambda, Z.rem (lambda - 1) 2, 0)%Z f r I i K k.
Proof. exact target_Ds_ok. Qed.
Print Assumptions C88_spin.

(** C88: Dl of higher rank is 0: 2 / (lambda + 1) is a division of integers *)
Theorem C88_orbital_zero : forall (racah : Z -> Z -> Z -> Z -> Z -> Z -> R) (inv_sqrt_4pi : R), forall sp b0 radial am lambda species f r, (2 <= lambda)%Z -> find_op am_eqb am AOrbital = Some f -> file_ok f sp (1, 0, 0)%Z ->
  find_op Z.eqb radial (lambda - 1)%Z = Some r -> file_ok r sp (lambda - 1, Z.rem (lambda - 1) 2, 0)%Z ->
  (forall j' j j'' Ja Jb J, ~ coupled j (2 * J)%Z j' -> racah j' j j'' Ja Jb J = 0) ->
  exists g, target_M racah inv_sqrt_4pi sp (Some b0) radial am true lambda species = Ok g /\ file_ok g sp (lambda, Z.rem (lambda - 1) 2, 0)%Z
  /\ forall I i K k, state sp I i -> state sp K k -> file_entry g I i K k = 0.
Proof. exact target_Dl_zero. Qed.
Print Assumptions C88_orbital_zero.

Theorem C88_orbital_refuted : forall racah inv_sqrt_4pi, (forall j' j j'' Ja Jb J, ~ coupled j (2 * J)%Z j' -> racah j' j j'' Ja Jb J = 0) -> racah 3%Z 1%Z 3%Z 1%Z 1%Z 2%Z <> 0 ->
  exists sp b0 radial am lambda f r g I i K k,
    find_op am_eqb am AOrbital = Some f /\ file_ok f sp (1, 0, 0)%Z /\ find_op Z.eqb radial (lambda - 1)%Z = Some r /\ file_ok r sp (lambda - 1, Z.rem (lambda - 1) 2, 0)%Z
    /\ target_M racah inv_sqrt_4pi sp (Some b0) radial am true lambda None = Ok g /\ state sp I i /\ state sp K k
    /\ file_entry g I i K k = 0
    /\ gradient_factor b0 lambda * orbital_factor lambda * product_entry racah sp (1, 0, 0)%Z (lambda - 1, Z.rem (lambda - 1) 2, 0)%Z (lambda, Z.rem (lambda - 1) 2, 0)%Z f r I i K k <> 0.
Proof. exact Dl_refuted. Qed.
Print Assumptions C88_orbital_refuted.

Example C88_ex : forall racah inv_sqrt_4pi, exists g, target_M racah inv_sqrt_4pi p32 (Some 7) [] [(AOrbital, const_file p32 (1, 0, 0)%Z 5)] true 1 None = Ok g
  /\ file_entry g 0 0 0 0 = sqrt 3 * inv_sqrt_4pi * 5.
Proof. exact C88_case. Qed.

