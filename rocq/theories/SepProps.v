(** C23, C24, C25, C53, C54. *)
From Coq Require Import List ZArith Reals Bool Permutation.
From Verif Require Import Base H2Model MapModel MapSpec RMat XformModel XformSpec SepModel SepSpec SepProof SepFinal ExXform ExSep SepCharge.
Import ListNotations.
Open Scope R_scope.

(** C23: the elements of an upgraded one-body operator are the normalised, antisymmetrised elements of T(1)+T(2),
    over A-1. *)
Theorem C23_upgrade_elements : forall F1 F2 op os x A, in_range os (s_bra x) -> in_range os (s_ket x) -> orbitals_half os ->
  (A <> 1 /\ - two31 <= A - 1 < two31)%Z ->
  exists r, upgrade F1 F2 op os x A = Ok r /\ dims r x
  /\ (tri_ok (ss_J (s_bra x)) (ss_J (s_ket x)) (ob_J0 op) -> forall i j c d a b, orbs_of os (s_bra x) i (c, d) -> orbs_of os (s_ket x) j (a, b) ->
      at_ r i j = / IZR (A - 1) * (nfactor c d * nfactor a b *
        antisymmetrised (sum_of_both F1 F2 op (ss_J (s_bra x)) (ss_J (s_ket x))) c d (ss_J (s_bra x)) a b (ss_J (s_ket x))))
  /\ (~ tri_ok (ss_J (s_bra x)) (ss_J (s_ket x)) (ob_J0 op) -> forall i j, at_ r i j = 0).
Proof. exact upgrade_perm. Qed.
Print Assumptions C23_upgrade_elements.
(** one-body elements are used exactly inside the selection rules *)
Theorem C23_selection : forall op x y, half_int x -> half_int y ->
  (selection_rules op x y -> matel op x y = ob_me op x y) /\ (~ selection_rules op x y -> matel op x y = 0).
Proof. exact matel_spec. Qed.
Print Assumptions C23_selection.
(** C23: exchanging the orbitals of a ket, or of a bra, multiplies the element by the exchange phase. *)
Theorem C23_upgrade_exchange : forall F1 F2 op os x A r, in_range os (s_bra x) -> in_range os (s_ket x) -> orbitals_half os ->
  (A <> 1 /\ - two31 <= A - 1 < two31)%Z -> upgrade F1 F2 op os x A = Ok r ->
  (forall i j j' a b, (i < rows r)%nat -> orbs_of os (s_ket x) j (a, b) -> orbs_of os (s_ket x) j' (b, a) ->
     at_ r i j' = exch (ss_J (s_ket x)) a b * at_ r i j)
  /\ (forall i i' j c d, (j < cols r)%nat -> orbs_of os (s_bra x) i (c, d) -> orbs_of os (s_bra x) i' (d, c) ->
     at_ r i' j = exch (ss_J (s_bra x)) c d * at_ r i j).
Proof. exact upgrade_exchange. Qed.
Print Assumptions C23_upgrade_exchange.
Theorem C23_tensor_exchange_ket : forall F12 same op1 op2 os x K r, in_range os (s_bra x) -> in_range os (s_ket x) -> orbitals_half os ->
  tri_ok (ob_J0 op1) (ob_J0 op2) K -> tensor F12 same op1 op2 os x K = Ok r ->
  forall i j j' a b, (i < rows r)%nat -> orbs_of os (s_ket x) j (a, b) -> orbs_of os (s_ket x) j' (b, a) ->
     at_ r i j' = exch (ss_J (s_ket x)) a b * at_ r i j.
Proof. exact tensor_exchange_ket. Qed.
Print Assumptions C23_tensor_exchange_ket.
(** for equal ranks the bra exchange uses the symmetry of the 9-j symbol, as the code does *)
Theorem C23_tensor_exchange_bra : forall F12 same op1 op2 os x K r, in_range os (s_bra x) -> in_range os (s_ket x) -> orbitals_half os ->
  tri_ok (ob_J0 op1) (ob_J0 op2) K -> (same = true -> op1 = op2) ->
  (ob_J0 op1 = ob_J0 op2 -> exchange_symmetric F12 (ob_J0 op1) K) -> tensor F12 same op1 op2 os x K = Ok r ->
  forall i i' j c d, (j < cols r)%nat -> orbs_of os (s_bra x) i (c, d) -> orbs_of os (s_bra x) i' (d, c) ->
     at_ r i' j = exch (ss_J (s_bra x)) c d * at_ r i j.
Proof. exact tensor_exchange_bra. Qed.
Print Assumptions C23_tensor_exchange_bra.
Example C23_ex : in_range xos xboth /\ orbitals_half xos /\ orbs_of xos xboth 0 (p0, p1) /\ orbs_of xos xboth 1 (p1, p0)
  /\ exists r, upgrade xF xF xop xos xsecb 3 = Ok r /\ at_ r 0 0 = 3 /\ at_ r 0 1 = -3.
Proof. exact (conj xb_range (conj x_half (conj xb_0 (conj xb_1 x_upgrade_value)))). Qed.

(** C24: with or without the shortcut for equal ranks, the elements are the normalised, antisymmetrised elements of the
    product with every coefficient evaluated. *)
Theorem C24_tensor_elements : forall F12 same op1 op2 os x K, in_range os (s_bra x) -> in_range os (s_ket x) -> orbitals_half os ->
  tri_ok (ob_J0 op1) (ob_J0 op2) K -> (same = true -> op1 = op2) ->
  (ob_J0 op1 = ob_J0 op2 -> exchange_symmetric F12 (ob_J0 op1) K) ->
  exists r, tensor F12 same op1 op2 os x K = Ok r /\ dims r x
  /\ (tri_ok (ss_J (s_bra x)) (ss_J (s_ket x)) K -> forall i j c d a b, orbs_of os (s_bra x) i (c, d) -> orbs_of os (s_ket x) j (a, b) ->
      at_ r i j = nfactor c d * nfactor a b *
        antisymmetrised (product_of_both F12 op1 op2 K (ss_J (s_bra x)) (ss_J (s_ket x))) c d (ss_J (s_bra x)) a b (ss_J (s_ket x)))
  /\ (~ tri_ok (ss_J (s_bra x)) (ss_J (s_ket x)) K -> forall i j, at_ r i j = 0).
Proof. exact tensor_formula. Qed.
Print Assumptions C24_tensor_elements.
Theorem C24_same_objects : forall F12 op os x K, tensor F12 true op op os x K = tensor F12 false op op os x K.
Proof. exact tensor_same_objects. Qed.
Print Assumptions C24_same_objects.
Example C24_ex : (forall k K, exchange_symmetric xF12 k K)
  /\ exists r, tensor xF12 false xop xop xos xsecb 0 = Ok r /\ at_ r 0 0 <> 0.
Proof. exact (conj x_symF x_tensor_value). Qed.

(** C25: the generated identity sums to one over the A(A-1)/2 pairs. *)
Theorem C25_identity : forall x A, s_bi x = s_ki x -> (2 <= A)%Z -> (A * (A - 1) < two31)%Z ->
  exists r, identity_matrix x A = Ok r /\ rows r = ss_size (s_ket x) /\ cols r = ss_size (s_ket x)
  /\ forall i j, (i = j -> IZR (A * (A - 1)) / 2 * at_ r i j = 1) /\ (i <> j -> at_ r i j = 0).
Proof. exact identity_matrix_ok. Qed.
Print Assumptions C25_identity.
Example C25_ex : exists r, identity_matrix xsec 3 = Ok r /\ at_ r 1 1 = 1 / 3 /\ at_ r 0 1 = 0.
Proof. exact x_identity_value. Qed.
(** the matrices of the timing tests: -1 in the upper triangle if the loop runs and stores, otherwise zero; diagonal sectors only *)
Theorem C25_timing : forall x, s_bi x = s_ki x ->
  (exists r, timing_matrix x true true = Ok r /\ rows r = ss_size (s_ket x) /\ cols r = ss_size (s_ket x)
     /\ forall i j, (i < ss_size (s_ket x))%nat -> (j < ss_size (s_ket x))%nat -> at_ r i j = if Nat.leb i j then -1 else 0)
  /\ (forall store, exists r, timing_matrix x false store = Ok r /\ rows r = ss_size (s_ket x) /\ cols r = ss_size (s_ket x) /\ forall i j, at_ r i j = 0)
  /\ (exists r, timing_matrix x true false = Ok r /\ rows r = ss_size (s_ket x) /\ cols r = ss_size (s_ket x) /\ forall i j, at_ r i j = 0).
Proof. exact timing_matrix_ok. Qed.
Print Assumptions C25_timing.
Theorem C25_timing_off : forall x loop store, s_bi x <> s_ki x -> timing_matrix x loop store = AssertFail.
Proof. exact timing_matrix_off. Qed.
Print Assumptions C25_timing_off.

(** C53: the number operator, upgraded to two-body form, is 2/(A-1) times the identity; summed over the A(A-1)/2
    pairs it counts A particles. *)
Theorem C53_number_operator : forall F1 F2 os x A, unit_scalar F1 -> unit_scalar F2 -> orbitals_half os -> orbitals_pos os ->
  s_bra x = s_ket x -> states_ok os (s_ket x) -> (0 <= ss_J (s_ket x))%Z -> (A <> 1 /\ - two31 <= A - 1 < two31)%Z ->
  exists r, upgrade F1 F2 number_op os x A = Ok r /\ dims r x
  /\ forall i j, (i < rows r)%nat -> (j < cols r)%nat ->
     (i = j -> at_ r i j = 2 / IZR (A - 1)) /\ (i <> j -> at_ r i j = 0).
Proof. exact number_ok. Qed.
Print Assumptions C53_number_operator.
Example C53_ex : unit_scalar xF /\ orbitals_half xos /\ orbitals_pos xos /\ complete xos xpp /\ complete xos xpn.
Proof. exact (conj (fun _ _ _ => eq_refl) (conj x_half (conj x_pos (conj x_pp x_pn)))). Qed.

(** C54: parallel evaluation of the elements in any order gives the same matrix; hermitian operators give symmetric
    matrices. *)
Theorem C54_schedule : forall F1 F2 F12 same op op1 op2 os x A K order,
  in_range os (s_bra x) -> in_range os (s_ket x) -> orbitals_half os ->
  Permutation order (pairs (ss_size (s_bra x)) (ss_size (s_ket x))) ->
  (A <> 1 /\ - two31 <= A - 1 < two31)%Z -> tri_ok (ob_J0 op1) (ob_J0 op2) K ->
  (exists r r', upgrade_ord order F1 F2 op os x A = Ok r /\ upgrade F1 F2 op os x A = Ok r' /\ same_matrix r r')
  /\ (exists r r', tensor_ord order F12 same op1 op2 os x K = Ok r /\ tensor F12 same op1 op2 os x K = Ok r' /\ same_matrix r r').
Proof. exact schedule_ok. Qed.
Print Assumptions C54_schedule.
Theorem C54_symmetric : forall F1 F2 op os x A r, in_range os (s_ket x) -> orbitals_half os ->
  (A <> 1 /\ - two31 <= A - 1 < two31)%Z -> s_bra x = s_ket x ->
  (forall c d a b J, F1 c d J a b J (ob_J0 op) = F1 a b J c d J (ob_J0 op)) ->
  (forall c d a b J, F2 c d J a b J (ob_J0 op) = F2 a b J c d J (ob_J0 op)) ->
  (forall p q, matel op p q = matel op q p) ->
  upgrade F1 F2 op os x A = Ok r -> symmetric r.
Proof. exact upgrade_symmetric. Qed.
Print Assumptions C54_symmetric.
Example C54_ex : (forall p q, matel xop p q = matel xop q p)
  /\ exists r, upgrade xF xF xop xos xsecb 3 = Ok r /\ at_ r 0 0 = 3 /\ at_ r 0 1 = -3.
Proof. exact (conj x_sym_op x_upgrade_value). Qed.

(** C23.  A nonzero element of an operator with Tz0 = 1 leads from a neutron to a proton, with -1 from a proton to a neutron, with 0 between nucleons of the same kind. *)
Theorem C23_charge : forall op x y, matel op x y <> 0 ->
  match o_sp x, o_sp y with SP, SN => ob_Tz0 op = 1%Z | SN, SP => ob_Tz0 op = (-1)%Z | _, _ => ob_Tz0 op = 0%Z end.
Proof. exact charge_rule. Qed.
Print Assumptions C23_charge.

Example C23_charge_ex : matel raising (Orb SP 0 (OL 0 0 1)) (Orb SN 0 (OL 0 0 1)) = 1 /\ matel raising (Orb SN 0 (OL 0 0 1)) (Orb SP 0 (OL 0 0 1)) = 0.
Proof. exact charge_case. Qed.
