(** C94-C99: operators in the relative LSJT basis and the program relative-gen.
    The definitions used in the statements are in RmeSpec.v (stored elements, unit vector, reduced elements), TrfSpec.v (labels, selection rules) and RmeModel.v
    (code). *)
From Coq Require Import String List ZArith Reals Bool.
From Verif Require Import Base RMat OscModel OscSpec BlockModel JpvModel JpvSpec IsoModel TrfModel TrfSpec RmeModel RmeSpec RmeProof RmeFinal RmeUnit RmeSym RmeCase.
Import ListNotations.
Open Scope Z_scope.

(** C94.  Every element of (tau1 - tau2) v is stored, with the code's factors for the direction and the length of v. *)
Theorem C94_dipole_elements : forall racah1 racah2 : Z -> Z -> Z -> Z -> Z -> Z -> Z -> R, forall Nmax sp o ct, rme_space Nmax sp -> o_J0 o = 1 -> o_g0 o = 1 -> in_range o 1 -> 0 <= o_T0_min o -> o_T0_max o <= 2 ->
  exists c, dipole racah1 racah2 o sp ct 1 = Ok c /\ stores_num sp o c (dipole_rme racah1 racah2 code_direction (code_radial ct)).
Proof. exact dipole_stored. Qed.
Print Assumptions C94_dipole_elements.

(** C94.  The reduced elements of the unit vector: Hermitian, and its square is one. *)
Theorem C94_unit_vector : hermitian_vector unit_rme /\ forall L, 0 <= L -> square_of unit_rme L = 1%R.
Proof. exact unit_vector. Qed.
Print Assumptions C94_unit_vector.

(** C94.  The code's direction factor is that of the unit vector for L' = L + 1 ... *)
Theorem C94_direction_up : forall L, 0 <= L -> code_direction (L + 1) L = unit_rme (L + 1) L.
Proof. exact code_direction_up. Qed.
Print Assumptions C94_direction_up.

(** C94.  ... but has the opposite sign and is too small for L' = L - 1, the only case stored in a space ordered by L. *)
Theorem C94_direction_down : forall L, 1 <= L ->
  code_direction (L - 1) L = (- sqrt (IZR (2 * L - 1) / IZR (2 * L + 1)) * unit_rme (L - 1) L)%R /\ (sqrt (IZR (2 * L - 1) / IZR (2 * L + 1)) < 1)%R
  /\ unit_rme (L - 1) L <> 0%R.
Proof. exact code_direction_down. Qed.
Print Assumptions C94_direction_down.

(** C94.  Completed by hermiticity, the stored factors are those of a vector shorter than one, whatever the phase convention. *)
Theorem C94_direction_square : forall v, hermitian_vector v -> (forall L, 1 <= L -> v (L - 1) L = code_direction (L - 1) L) ->
  forall L, 0 <= L -> square_of v L = (IZR (L + 1) / IZR (2 * L + 3) + IZR L * IZR (2 * L - 1) / (IZR (2 * L + 1) * IZR (2 * L + 1)))%R /\ (square_of v L < 1)%R.
Proof. exact code_direction_square. Qed.
Print Assumptions C94_direction_square.

(** C94 refuted: the operator stored for the coordinate is not (tau1 - tau2) r. *)
Theorem C94_dipole_refuted : forall racah1 racah2 : Z -> Z -> Z -> Z -> Z -> Z -> Z -> R, pair_values racah1 racah2 ->
  (forall L' L, racah1 (2 * L') 0 (2 * L') (2 * L) 0 (2 * L) 2 = 1%R) ->
  exists Nmax sp o c, rme_space Nmax sp /\ dipole racah1 racah2 o sp KR 1 = Ok c
  /\ ~ stores_num sp o c (dipole_rme racah1 racah2 unit_rme (radial_rel KR)).
Proof. exact dipole_wrong. Qed.
Print Assumptions C94_dipole_refuted.

(** C95.  The momentum operator is one half of the coordinate operator. *)
Theorem C95_momentum_is_coordinate : forall racah1 racah2 : Z -> Z -> Z -> Z -> Z -> Z -> Z -> R, forall o sp Nmax, rme_space Nmax sp -> o_J0 o = 1 -> o_g0 o = 1 -> in_range o 1 -> 0 <= o_T0_min o -> o_T0_max o <= 2 ->
  exists c c', dipole racah1 racah2 o sp KR 1 = Ok c /\ dipole racah1 racah2 o sp KK 1 = Ok c'
  /\ stores_num sp o c (dipole_rme racah1 racah2 code_direction (code_radial KR))
  /\ stores_num sp o c' (fun T0 x N' y N => / 2 * dipole_rme racah1 racah2 code_direction (code_radial KR) T0 x N' y N)%R.
Proof. exact dipole_momentum. Qed.
Print Assumptions C95_momentum_is_coordinate.

(** C95 refuted: it is not the momentum, whatever the direction factors and units are. *)
Theorem C95_momentum_refuted : forall racah1 racah2 : Z -> Z -> Z -> Z -> Z -> Z -> Z -> R, pair_values racah1 racah2 ->
  (forall L' L, racah1 (2 * L') 0 (2 * L') (2 * L) 0 (2 * L) 2 = 1%R) ->
  exists Nmax sp o c, rme_space Nmax sp /\ dipole racah1 racah2 o sp KK 1 = Ok c
  /\ forall red, ~ stores_num sp o c (dipole_rme racah1 racah2 red (radial_rel KK)).
Proof. exact dipole_momentum_wrong. Qed.
Print Assumptions C95_momentum_refuted.

(** C96.  L, and (tau1 + tau2) L. *)
Theorem C96_orbital_elements : forall racah1 : Z -> Z -> Z -> Z -> Z -> Z -> Z -> R, forall Nmax sp o T0, rme_space Nmax sp -> o_J0 o = 1 -> o_g0 o = 0 -> T0 = 0 \/ T0 = 1 -> in_range o T0 -> 0 <= o_T0_min o -> o_T0_max o <= 2 ->
  exists c, orbital_am racah1 o sp T0 = Ok c /\ stores_num sp o c (orbital_rme racah1 T0).
Proof. exact orbital_stored. Qed.
Print Assumptions C96_orbital_elements.

(** C96.  S, and s1 tau1 + s2 tau2. *)
Theorem C96_spin_elements : forall racah1 racah2 : Z -> Z -> Z -> Z -> Z -> Z -> Z -> R, forall Nmax sp o T0, rme_space Nmax sp -> o_J0 o = 1 -> o_g0 o = 0 -> T0 = 0 \/ T0 = 1 -> in_range o T0 -> 0 <= o_T0_min o -> o_T0_max o <= 2 ->
  exists c, spin_am racah1 racah2 o sp T0 = Ok c /\ stores_num sp o c (spin_rme racah1 racah2 T0).
Proof. exact spin_stored. Qed.
Print Assumptions C96_spin_elements.

(** C96.  L + S is the total angular momentum. *)
Theorem C96_orbital_plus_spin : forall racah1 racah2 : Z -> Z -> Z -> Z -> Z -> Z -> Z -> R, generator_sum racah1 racah2 -> forall T0 L' s' J' T' N' L s J T N, 0 <= L -> 0 <= s -> couples L s J -> couples L' s' J' -> couples J' 1 J ->
  (orbital_rme racah1 0 T0 (L', s', J', T') N' (L, s, J, T) N + spin_rme racah1 racah2 0 T0 (L', s', J', T') N' (L, s, J, T) N
   = total_rme T0 (L', s', J', T') N' (L, s, J, T) N)%R.
Proof. exact orbital_plus_spin. Qed.
Print Assumptions C96_orbital_plus_spin.

(** C96.  Values of the isovector spin factor. *)
Theorem C96_isovector_spin_values : forall racah1 racah2 : Z -> Z -> Z -> Z -> Z -> Z -> Z -> R, pair_values racah1 racah2 ->
  (spin_factor racah1 racah2 1 1 1 1 1 = 2 /\ spin_factor racah1 racah2 1 1 0 1 0 = 1 /\ spin_factor racah1 racah2 1 0 1 0 1 = 3 /\ spin_factor racah1 racah2 1 0 1 1 0 = - sqrt 3
   /\ spin_factor racah1 racah2 1 1 0 0 1 = - sqrt 3 /\ spin_factor racah1 racah2 1 1 1 1 0 = 0 /\ spin_factor racah1 racah2 1 1 0 1 1 = 0 /\ spin_factor racah1 racah2 1 0 0 1 1 = 0)%R.
Proof. exact isovector_spin_values. Qed.
Print Assumptions C96_isovector_spin_values.

(** C96.  The isospin operator. *)
Theorem C96_isospin_elements : forall jrme : Z -> Z -> R, forall Nmax sp o, (forall T' T, jrme T' T = if (T' =? T)%Z then sqrt (IZR (T * (T + 1))) else 0%R) -> rme_space Nmax sp ->
  o_J0 o = 0 -> o_g0 o = 0 -> in_range o 1 -> 0 <= o_T0_min o -> o_T0_max o <= 2 ->
  exists c, isospin_op jrme o sp = Ok c /\ stores_num sp o c isospin_rme.
Proof. exact isospin_stored. Qed.
Print Assumptions C96_isospin_elements.

(** C96.  Operator labels which do not fit end the program at an assertion. *)
Theorem C96_labels_refused : forall racah1 racah2 w3j w6j jrme o sp ct T0,
  (~ (o_J0 o = 1 /\ o_g0 o = 1 /\ T0 = 1 /\ in_range o T0) -> dipole racah1 racah2 o sp ct T0 = AssertFail)
  /\ (~ (o_J0 o = 2 /\ o_g0 o = 0 /\ (T0 = 0 \/ T0 = 1) /\ in_range o T0 /\ ct = KR) -> quadrupole w3j w6j o sp ct T0 = AssertFail)
  /\ (~ (o_J0 o = 1 /\ o_g0 o = 0 /\ (T0 = 0 \/ T0 = 1) /\ in_range o T0) -> orbital_am racah1 o sp T0 = AssertFail /\ spin_am racah1 racah2 o sp T0 = AssertFail)
  /\ (~ (o_J0 o = 0 /\ o_g0 o = 0 /\ in_range o 1) -> isospin_op jrme o sp = AssertFail)
  /\ (~ (o_J0 o = 0 /\ o_g0 o = 0 /\ o_T0_min o = 0 /\ 0 <= o_T0_max o) -> su4_casimir o sp = AssertFail).
Proof. exact labels_refused. Qed.
Print Assumptions C96_labels_refused.

(** C97.  A quarter of the sum of the squares of the SU(4) generators of two nucleons. *)
Theorem C97_su4_elements : forall Nmax sp o, rme_space Nmax sp -> o_J0 o = 0 -> o_g0 o = 0 -> o_T0_min o = 0 -> 0 <= o_T0_max o <= 2 ->
  exists c, su4_casimir o sp = Ok c /\ stores_num sp o c su4_rme.
Proof. exact su4_stored. Qed.
Print Assumptions C97_su4_elements.

(** C97.  The documented formula for A nucleons: [e i j] is the value of a quarter of the products of the generators of nucleons i and j. *)
Theorem C97_su4_many_body : forall (A : nat) (e : nat -> nat -> R), (2 <= A)%nat -> (forall i, (i < A)%nat -> e i i = 15 / 4)%R ->
  (rsum A (fun i => rsum A (fun j => e i j))
   = pairs_sum A (fun i j => e i i + e i j + e j i + e j j) - (INR A - 2) / (INR A - 1) * pairs_sum A (fun _ _ => 15 / 2))%R.
Proof. exact su4_many. Qed.
Print Assumptions C97_su4_many_body.

(** C98.  One half of r^2 Y_2. *)
Theorem C98_quadrupole_elements : forall w3j w6j : Z -> Z -> Z -> Z -> Z -> Z -> R, forall Nmax sp o T0, rme_space Nmax sp -> o_J0 o = 2 -> o_g0 o = 0 -> T0 = 0 \/ T0 = 1 -> in_range o T0 -> 0 <= o_T0_min o -> o_T0_max o <= 2 ->
  exists c, quadrupole w3j w6j o sp KR T0 = Ok c /\ stores_num sp o c (quadrupole_rme w3j w6j T0).
Proof. exact quadrupole_stored. Qed.
Print Assumptions C98_quadrupole_elements.

(** C98.  The momentum version is refused. *)
Theorem C98_quadrupole_momentum : forall w3j w6j : Z -> Z -> Z -> Z -> Z -> Z -> R, forall o sp T0, o_J0 o = 2 -> o_g0 o = 0 -> quadrupole w3j w6j o sp KK T0 = AssertFail.
Proof. exact quadrupole_momentum. Qed.
Print Assumptions C98_quadrupole_momentum.

(** C99.  One element is one, all others are zero. *)
Theorem C99_unit_stored : forall (Nmax : Z) (sp : rspace) (o : oplab) (u : unit_labels), rme_space Nmax sp -> rspace_ok sp -> 0 <= o_T0_min o -> o_T0_max o <= 2 ->
  forall (ib ik : nat) (b k : rsub), nth_error sp ib = Some b -> nth_error sp ik = Some k ->
  rl b = (u_Lp u, u_Sp u, u_Jp u, u_Tp u) -> rl k = (u_L u, u_S u, u_J u, u_T u) -> forall i j, in_range o (u_T0 u) ->
  jt_rule (o_J0 o) (u_T0 u) (o_g0 o) (r_J b) (r_T b) (r_g b) (r_J k) (r_T k) (r_g k) ->
  (i < r_dim b)%nat -> (j < r_dim k)%nat -> u_Np u = u_Lp u + 2 * Z.of_nat i -> u_N u = u_L u + 2 * Z.of_nat j ->
  ((ib < ik)%nat \/ ib = ik /\ (i <= j)%nat) ->
  exists c, symmunit o sp u = Ok c /\ stores_num sp o c (unit_element u).
Proof. exact unit_stored. Qed.
Print Assumptions C99_unit_stored.

(** C99.  States that are not in the subspaces are refused. *)
Theorem C99_no_state : forall (Nmax : Z) (sp : rspace) (o : oplab) (u : unit_labels), rme_space Nmax sp -> rspace_ok sp -> 0 <= o_T0_min o -> o_T0_max o <= 2 ->
  forall (ib ik : nat) (b k : rsub), nth_error sp ib = Some b -> nth_error sp ik = Some k ->
  rl b = (u_Lp u, u_Sp u, u_Jp u, u_Tp u) -> rl k = (u_L u, u_S u, u_J u, u_T u) -> in_range o (u_T0 u) -> (ib <= ik)%nat -> jt_rule (o_J0 o) (u_T0 u) (o_g0 o) (r_J b) (r_T b) (r_g b) (r_J k) (r_T k) (r_g k) ->
  (forall i j, (i < r_dim b)%nat -> (j < r_dim k)%nat -> ~ (u_Np u = u_Lp u + 2 * Z.of_nat i /\ u_N u = u_L u + 2 * Z.of_nat j)) ->
  symmunit o sp u = AssertFail.
Proof. exact unit_no_state. Qed.
Print Assumptions C99_no_state.

(** C99.  Labels of a subspace that is not there are not refused ... *)
Theorem C99_no_subspace : forall sp o u, 0 <= o_T0_min o -> o_T0_max o <= 2 ->
  (forall x, In x sp -> rl x <> (u_Lp u, u_Sp u, u_Jp u, u_Tp u)) \/ (forall x, In x sp -> rl x <> (u_L u, u_S u, u_J u, u_T u)) ->
  symmunit o sp u = UB.
Proof. exact unit_no_subspace. Qed.
Print Assumptions C99_no_subspace.

(** C99.  ... nor are labels of a sector that is not there. *)
Theorem C99_no_sector : forall (Nmax : Z) (sp : rspace) (o : oplab) (u : unit_labels), rme_space Nmax sp -> rspace_ok sp -> 0 <= o_T0_min o -> o_T0_max o <= 2 ->
  forall (ib ik : nat) (b k : rsub), nth_error sp ib = Some b -> nth_error sp ik = Some k ->
  rl b = (u_Lp u, u_Sp u, u_Jp u, u_Tp u) -> rl k = (u_L u, u_S u, u_J u, u_T u) -> ~ (in_range o (u_T0 u) /\ (ib <= ik)%nat /\ jt_rule (o_J0 o) (u_T0 u) (o_g0 o) (r_J b) (r_T b) (r_g b) (r_J k) (r_T k) (r_g k)) ->
  symmunit o sp u = UB.
Proof. exact unit_no_sector. Qed.
Print Assumptions C99_no_sector.

(** C99 refuted: labels of the lower triangle, which the selection rules allow, are undefined behaviour. *)
Theorem C99_labels_refuted : exists Nmax sp o u, rme_space Nmax sp /\ rspace_ok sp /\ 0 <= o_T0_min o /\ o_T0_max o <= 2 /\ in_range o (u_T0 u)
  /\ (exists b k, In b sp /\ In k sp /\ rl b = (u_Lp u, u_Sp u, u_Jp u, u_Tp u) /\ rl k = (u_L u, u_S u, u_J u, u_T u)
      /\ jt_rule (o_J0 o) (u_T0 u) (o_g0 o) (r_J b) (r_T b) (r_g b) (r_J k) (r_T k) (r_g k))
  /\ symmunit o sp u = UB.
Proof. exact unit_labels_unchecked. Qed.
Print Assumptions C99_labels_refuted.

Open Scope string_scope.
(** C99.  The operator made is the one named. *)
Theorem C99_by_name : forall racah1 racah2 w3j w6j jrme other o sp, let generate := generate racah1 racah2 w3j w6j jrme other o sp in
  forall T0 l,
  generate "zero" l = zero_operator o sp /\ generate "isospin" l = isospin_op jrme o sp /\ generate "su4casimir" l = su4_casimir o sp
  /\ generate "rsqr" l = coordinate_sqr_op o sp KR 0 /\ generate "ksqr" l = coordinate_sqr_op o sp KK 0
  /\ generate "orbital-am" (WInt T0 :: l) = orbital_am racah1 o sp T0 /\ generate "spin-am" (WInt T0 :: l) = spin_am racah1 racah2 o sp T0
  /\ generate "coordinate-sqr" (WStr "r" :: WInt T0 :: l) = coordinate_sqr_op o sp KR T0 /\ generate "coordinate-sqr" (WStr "k" :: WInt T0 :: l) = coordinate_sqr_op o sp KK T0
  /\ generate "dipole" (WStr "r" :: WInt T0 :: l) = dipole racah1 racah2 o sp KR T0 /\ generate "dipole" (WStr "k" :: WInt T0 :: l) = dipole racah1 racah2 o sp KK T0
  /\ generate "quadrupole" (WStr "r" :: WInt T0 :: l) = quadrupole w3j w6j o sp KR T0 /\ generate "quadrupole" (WStr "k" :: WInt T0 :: l) = quadrupole w3j w6j o sp KK T0
  /\ (forall a1 a2 a3 a4 a5 b1 b2 b3 b4 b5, generate "symmunit" (WInt T0 :: WInt a1 :: WInt a2 :: WInt a3 :: WInt a4 :: WInt a5 :: WInt b1 :: WInt b2 :: WInt b3 :: WInt b4 :: WInt b5 :: l)
      = symmunit o sp (UL T0 a1 a2 a3 a4 a5 b1 b2 b3 b4 b5))
  /\ forall name, In name ["identity"; "coulomb"; "interaction"; "LENPIC-LOGT"; "LENPIC-N2LOGT"] -> generate name l = other name.
Proof. exact generate_by_name. Qed.
Print Assumptions C99_by_name.

(** C99.  Unknown names end the program. *)
Theorem C99_unknown_name : forall racah1 racah2 w3j w6j jrme other o sp, let generate := generate racah1 racah2 w3j w6j jrme other o sp in
  forall name l, ~ In name operator_names -> generate name l = Exit.
Proof. exact generate_unknown. Qed.
Print Assumptions C99_unknown_name.

Theorem C99_unknown_coordinate : forall racah1 racah2 w3j w6j jrme other o sp, let generate := generate racah1 racah2 w3j w6j jrme other o sp in
  forall name c T0 l, In name ["coordinate-sqr"; "dipole"; "quadrupole"] -> c <> "r" -> c <> "k" ->
  generate name (WStr c :: WInt T0 :: l) = Exit.
Proof. exact generate_unknown_coordinate. Qed.
Print Assumptions C99_unknown_coordinate.

Theorem C99_missing_parameters : forall racah1 racah2 w3j w6j jrme other o sp, let generate := generate racah1 racah2 w3j w6j jrme other o sp in
  forall name, In name ["orbital-am"; "spin-am"; "coordinate-sqr"; "dipole"; "quadrupole"; "symmunit"] -> generate name [] = Exit.
Proof. exact generate_missing. Qed.
Print Assumptions C99_missing_parameters.

Close Scope string_scope.

Example C94_case : forall racah1 racah2, exists c s ms m, dipole racah1 racah2 (OpLab 1 1 0 2) small KR 1 = Ok c /\ nth_error c 1 = Some (s, ms)
  /\ s = [(0, 2)]%nat /\ nth_error ms 0 = Some m /\ rows m = 2%nat /\ cols m = 1%nat.
Proof. exact case_dipole. Qed.

Example C94_case_labels : forall racah1 racah2 sp ct, dipole racah1 racah2 (OpLab 1 0 0 2) sp ct 1 = AssertFail /\ dipole racah1 racah2 (OpLab 0 1 0 2) sp ct 1 = AssertFail
  /\ dipole racah1 racah2 (OpLab 1 1 0 2) sp ct 0 = AssertFail /\ dipole racah1 racah2 (OpLab 1 1 0 0) sp ct 1 = AssertFail.
Proof. exact case_dipole_labels. Qed.

Example C96_case_orbital : forall racah1, exists c s ms m, orbital_am racah1 (OpLab 1 0 0 1) small 0 = Ok c /\ nth_error c 0 = Some (s, ms) /\ s = [(0, 0); (1, 1); (2, 2)]%nat
  /\ nth_error ms 1 = Some m /\ at_ m 0 0 = Num (racah1 2 0 2 2 0 2 2 * sqrt 2).
Proof. exact case_orbital. Qed.

Example C96_case_spin : forall racah1 racah2, exists c s ms m, spin_am racah1 racah2 (OpLab 1 0 0 1) small 1 = Ok c /\ nth_error c 1 = Some (s, ms)
  /\ s = [(1, 2); (2, 2)]%nat /\ nth_error ms 0 = Some m
  /\ at_ m 0 0 = Num (3 / 2 * racah2 2 0 2 2 2 2 2 * (racah1 1 1 0 1 1 2 2 * racah1 1 1 0 1 1 2 2 + racah2 1 1 0 1 1 2 2 * racah2 1 1 0 1 1 2 2)).
Proof. exact case_spin_isovector. Qed.

Example C97_case : exists c s ms m, su4_casimir (OpLab 0 0 0 0) small = Ok c /\ nth_error c 0 = Some (s, ms) /\ s = [(0, 0); (1, 1); (2, 2)]%nat
  /\ nth_error ms 0 = Some m /\ at_ m 0 0 = Num 5 /\ at_ m 0 1 = Num 0 /\ at_ m 1 1 = Num 5 /\ (exists m', nth_error ms 1 = Some m' /\ at_ m' 0 0 = Num 9)
  /\ (exists m', nth_error ms 2 = Some m' /\ at_ m' 0 0 = Num 9).
Proof. exact case_su4. Qed.

Example C97_case_three : let e := (fun i j : nat => if Nat.eqb i j then 15 / 4 else - (5 / 4))%R in
  (rsum 3 (fun i => rsum 3 (fun j => e i j)) = 15 / 4 /\ pairs_sum 3 (fun i j => e i i + e i j + e j i + e j j) = 15
   /\ pairs_sum 3 (fun _ _ => 15 / 2) = 45 / 2)%R.
Proof. exact case_su4_three. Qed.

Example C98_case : forall w3j w6j, exists c s ms m m', quadrupole w3j w6j (OpLab 2 0 0 1) [RSub 0 1 1 0 0 2; RSub 2 1 1 0 0 1] KR 0 = Ok c /\ nth_error c 0 = Some (s, ms)
  /\ s = [(0, 0); (0, 1); (1, 1)]%nat /\ nth_error ms 0 = Some m /\ at_ m 0 0 = Num 0 /\ at_ m 0 1 = Num 0 /\ nth_error ms 1 = Some m' /\ rows m' = 2%nat /\ cols m' = 1%nat.
Proof. exact case_quadrupole. Qed.

Example C99_case : exists c, symmunit (OpLab 0 0 0 1) small (UL 0 0 0 1 1 0 2 0 1 1 0) = Ok c /\ stores_num small (OpLab 0 0 0 1) c (unit_element (UL 0 0 0 1 1 0 2 0 1 1 0))
  /\ unit_element (UL 0 0 0 1 1 0 2 0 1 1 0) 0 (0, 1, 1, 0) 0 (0, 1, 1, 0) 2 = 1%R /\ unit_element (UL 0 0 0 1 1 0 2 0 1 1 0) 0 (0, 1, 1, 0) 2 (0, 1, 1, 0) 0 = 0%R.
Proof. exact case_unit. Qed.

Example C99_case_bad : symmunit (OpLab 0 0 0 1) small (UL 0 0 0 1 1 0 2 2 1 1 0) = UB /\ symmunit (OpLab 1 1 0 1) small (UL 1 1 1 1 1 1 0 0 1 1 0) = UB
  /\ symmunit (OpLab 0 0 0 1) small (UL 3 0 0 1 1 0 2 0 1 1 0) = UB /\ symmunit (OpLab 0 0 0 1) small (UL 0 0 0 1 1 0 4 0 1 1 0) = AssertFail
  /\ symmunit (OpLab 0 0 0 1) small (UL 0 2 0 1 1 0 0 0 1 1 0) = AssertFail.
Proof. exact case_unit_bad. Qed.

