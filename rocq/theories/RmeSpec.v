(** Vocabulary for C94-C99: operators on relative LSJT states, independently of how they are computed. *)
From Coq Require Import List ZArith Reals Bool.
From Verif Require Import Base RMat OscModel OscSpec BlockModel JpvModel JpvSpec TrfModel TrfSpec RmeModel.
Import ListNotations.
Open Scope Z_scope.

(** the matrix elements [F T0 x N y M] of an operator are stored: for every component the sectors of the upper triangle which the selection rules
    allow, each once and no others, every block complete; other components are empty *)
Definition stores_num (sp : rspace) (o : oplab) (c : ncomponents) (F : Z -> rlab -> Z -> rlab -> Z -> R) : Prop :=
  length c = 3%nat /\
  forall T0, 0 <= T0 <= 2 -> exists sectors ms, nth_error c (Z.to_nat T0) = Some (sectors, ms) /\ NoDup sectors /\ length ms = length sectors
  /\ (forall i k, In (i, k) sectors <-> in_range o T0 /\ (i <= k)%nat /\ exists x y, nth_error sp i = Some x /\ nth_error sp k = Some y
        /\ jt_rule (o_J0 o) T0 (o_g0 o) (r_J x) (r_T x) (r_g x) (r_J y) (r_T y) (r_g y))
  /\ (forall q i k x y, nth_error sectors q = Some (i, k) -> nth_error sp i = Some x -> nth_error sp k = Some y ->
        exists m, nth_error ms q = Some m /\ rows m = r_dim x /\ cols m = r_dim y
        /\ forall u v, (u < r_dim x)%nat -> (v < r_dim y)%nat ->
           at_ m u v = Num (F T0 (rl x) (r_L x + 2 * Z.of_nat u) (rl y) (r_L y + 2 * Z.of_nat v))).
(** a relative space: subspaces allowed by antisymmetry with the states up to Nmax quanta, in the order of L *)
Definition rme_space (Nmax : Z) (sp : rspace) : Prop :=
  (forall x, In x sp -> 0 <= r_L x <= Nmax /\ 0 <= r_S x <= 1 /\ 0 <= r_T x <= 1 /\ couples (r_L x) (r_S x) (r_J x)
     /\ Z.odd (r_L x + r_S x + r_T x) = true /\ r_g x = r_L x mod 2 /\ Z.of_nat (r_dim x) = (Nmax - r_L x) / 2 + 1)
  /\ (forall i k x y, (i <= k)%nat -> nth_error sp i = Some x -> nth_error sp k = Some y -> r_L x <= r_L y).

(** * The unit vector *)
(** matrix element of cos theta between the spherical harmonics with m = 0 *)
Definition cos_me (L' L : Z) : R := (IZR (Z.max L' L) / sqrt (IZR ((2 * L' + 1) * (2 * L + 1))))%R.
(** Clebsch-Gordan coefficient (L 0 1 0 | L' 0) for L' = L + 1, L - 1 *)
Definition cg_1 (L L' : Z) : R := if L' =? L + 1 then sqrt (IZR (L + 1) / IZR (2 * L + 1)) else (- sqrt (IZR L / IZR (2 * L + 1)))%R.
(** reduced matrix element in the convention of Rose: matrix element = Clebsch-Gordan coefficient times reduced matrix element *)
Definition unit_rme (L' L : Z) : R := (cos_me L' L / cg_1 L L')%R.
(** expectation value of v.v for a Hermitian vector operator with the reduced elements [v] *)
Definition square_of (v : Z -> Z -> R) (L : Z) : R :=
  (IZR (2 * L + 3) / IZR (2 * L + 1) * (v (L + 1)%Z L * v (L + 1)%Z L)
   + (if (L =? 0)%Z then 0 else IZR (2 * L - 1) / IZR (2 * L + 1) * (v (L - 1)%Z L * v (L - 1)%Z L)))%R.
(** elements of the lower triangle follow from those of the upper one *)
Definition hermitian_vector (v : Z -> Z -> R) : Prop := forall L, 0 <= L -> (sqrt (IZR (2 * L + 3)) * v (L + 1)%Z L = - (sqrt (IZR (2 * L + 1)) * v L (L + 1)%Z))%R.
Definition sign_of (z : Z) : R := if Z.even z then 1%R else (-1)%R.

Section Elements.
Variable racah1 racah2 : Z -> Z -> Z -> Z -> Z -> Z -> Z -> R.
Definition coupled1 (x y : rlab) : R :=
  let '(L', s', J', _) := x in let '(L, s, J, _) := y in racah1 (2 * L') (2 * s') (2 * J') (2 * L) (2 * s) (2 * J) 2.
Definition coupled2 (x y : rlab) : R :=
  let '(L', s', J', _) := x in let '(L, s, J, _) := y in racah2 (2 * L') (2 * s') (2 * J') (2 * L) (2 * s) (2 * J) 2.
(** reduced elements of tau1 - tau2 between two-nucleon isospins; the reduced element of tau is sqrt 3 *)
Definition tau_difference (T' T : Z) : R := (sqrt 3 * racah1 1 1 (2 * T') 1 1 (2 * T) 2 - sqrt 3 * racah2 1 1 (2 * T') 1 1 (2 * T) 2)%R.
(** radial elements of the relative position, or i times the relative wave vector, for b_rel = sqrt 2 *)
Definition radial_rel (ct : coordinate_type) (N' L' N L : Z) : R :=
  match ct with KR => sqrt 2 * oval (coordinate N' L' N L 1) | KK => / sqrt 2 * oval (coordinate N' L' N L (-1)) end%R.
(** reduced elements of (tau1 - tau2) v, v a vector with the elements [red] of its direction and [radial] of its length *)
Definition dipole_rme (red : Z -> Z -> R) (radial : Z -> Z -> Z -> Z -> R) (T0 : Z) (x : rlab) (N' : Z) (y : rlab) (N : Z) : R :=
  let '(L', s', J', T') := x in let '(L, s, J, T) := y in
  if (T0 =? 1) && ((L' =? L + 1) || (L' =? L - 1)) && (s' =? s) && couplesb T' 1 T then
    (coupled1 x y * tau_difference T' T * red L' L * radial N' L' N L)%R
  else 0%R.
(** operators of orbital or spin degrees of freedom which leave the radial state as it is *)
Definition same (b : bool) (f : R) : R := if b then f else 0%R.
(** (1 or tau1 + tau2) times L *)
Definition generator (T0 T : Z) : R := if T0 =? 0 then 1%R else (2 * sqrt (IZR (T * (T + 1))))%R.
Definition orbital_rme (t : Z) (T0 : Z) (x : rlab) (N' : Z) (y : rlab) (N : Z) : R :=
  let '(L', s', J', T') := x in let '(L, s, J, T) := y in
  same ((T0 =? t) && (L' =? L) && (s' =? s) && (T' =? T) && (N' =? N)) (coupled1 x y * sqrt (IZR (L * (L + 1))) * generator t T)%R.
(** S, or s1 tau1 + s2 tau2 with the reduced elements sqrt 3 / 2 of s and sqrt 3 of tau *)
Definition spin_factor (t s' s T' T : Z) : R :=
  if t =? 0 then same ((s' =? s) && (T' =? T)) (sqrt (IZR (s * (s + 1))))
  else same (couplesb s' 1 s && couplesb T' 1 T)
         ((sqrt 3 / 2 * racah1 1 1 (2 * s') 1 1 (2 * s) 2) * (sqrt 3 * racah1 1 1 (2 * T') 1 1 (2 * T) 2)
          + (sqrt 3 / 2 * racah2 1 1 (2 * s') 1 1 (2 * s) 2) * (sqrt 3 * racah2 1 1 (2 * T') 1 1 (2 * T) 2))%R.
Definition spin_rme (t : Z) (T0 : Z) (x : rlab) (N' : Z) (y : rlab) (N : Z) : R :=
  let '(L', s', J', T') := x in let '(L, s, J, T) := y in
  same ((T0 =? t) && (L' =? L) && (N' =? N)) (coupled2 x y * spin_factor t s' s T' T)%R.
(** identities of the coefficients: L + S is the total angular momentum *)
Definition generator_sum : Prop := forall L s J' J, 0 <= L -> 0 <= s -> couples L s J -> couples L s J' -> couples J' 1 J ->
  (racah1 (2 * L) (2 * s) (2 * J') (2 * L) (2 * s) (2 * J) 2 * sqrt (IZR (L * (L + 1)))
   + racah2 (2 * L) (2 * s) (2 * J') (2 * L) (2 * s) (2 * J) 2 * sqrt (IZR (s * (s + 1))) = if (J' =? J)%Z then sqrt (IZR (J * (J + 1))) else 0)%R.
(** values for two spins 1/2: S', S *)
Definition pair_values : Prop :=
  (racah1 1 1 2 1 1 2 2 = sqrt (2 / 3) /\ racah2 1 1 2 1 1 2 2 = sqrt (2 / 3) /\ racah1 1 1 2 1 1 0 2 = / sqrt 3 /\ racah2 1 1 2 1 1 0 2 = - / sqrt 3
   /\ racah1 1 1 0 1 1 2 2 = -1 /\ racah2 1 1 0 1 1 2 2 = 1)%R.
Variable w3j w6j : Z -> Z -> Z -> Z -> Z -> Z -> R.
(** Edmonds reduced element of Y_2 in LS coupling, Suhonen (2.57) with spin S, divided by hat J' *)
Definition y2_rme (x y : rlab) : R :=
  let '(L', s', J', _) := x in let '(L, s, J, _) := y in
  (sign_of (L' + s + J) * sqrt (IZR (2 * J + 1)) * w6j L' J' s J L 2
   * (sign_of L' * sqrt (5 / (4 * PI)) * sqrt (IZR (2 * L' + 1)) * sqrt (IZR (2 * L + 1)) * w3j L 2 L' 0 0 0))%R.
End Elements.
(** (1 or tau1 + tau2) times half of r^2 Y_2, relative position for b_rel = sqrt 2 *)
Definition quadrupole_rme (w3j w6j : Z -> Z -> Z -> Z -> Z -> Z -> R) (t : Z) (T0 : Z) (x : rlab) (N' : Z) (y : rlab) (N : Z) : R :=
  let '(L', s', J', T') := x in let '(L, s, J, T) := y in
  same ((T0 =? t) && couplesb L' 2 L && (s' =? s) && (T' =? T)) (/ 2 * y2_rme w3j w6j x y * generator t T * (2 * val (coordinate_sqr N' L' N L 1)))%R.

(** * SU(4) *)
(** sigma1.sigma2 (or tau1.tau2) in the state of spin (isospin) S *)
Definition pair_product (s : Z) : R := IZR (2 * (s * (s + 1)) - 3).
(** a quarter of the sum of the squares of sigma1 + sigma2, tau1 + tau2 and sigma1 tau1 + sigma2 tau2 *)
Definition su4_value (s T : Z) : R := (/ 4 * ((3 + 3 + 2 * pair_product s) + (3 + 3 + 2 * pair_product T) + (9 + 9 + 2 * (pair_product s * pair_product T))))%R.
Definition su4_rme (T0 : Z) (x : rlab) (N' : Z) (y : rlab) (N : Z) : R :=
  let '(L', s', J', T') := x in let '(L, s, J, T) := y in
  same ((T0 =? 0) && (L' =? L) && (s' =? s) && (T' =? T) && (N' =? N)) (su4_value s T).
Definition isospin_rme (T0 : Z) (x : rlab) (N' : Z) (y : rlab) (N : Z) : R :=
  let '(L', s', J', T') := x in let '(L, s, J, T) := y in
  same ((T0 =? 1) && (L' =? L) && (s' =? s) && (T' =? T) && (N' =? N)) (sqrt (IZR (T * (T + 1)))).
(** sum over the pairs of A particles *)
Definition pairs_sum (A : nat) (f : nat -> nat -> R) : R := rsum A (fun j => rsum j (fun i => f i j)).

(** * What the code uses *)
(** direction factors of relative_me.cpp:402-407 *)
Definition code_direction (L' L : Z) : R := if L' =? L - 1 then sqrt (IZR L / IZR (2 * L + 1)) else sqrt (IZR (L + 1) / IZR (2 * L + 3)).
Definition code_radial (ct : coordinate_type) (N' L' N L : Z) : R := ((match ct with KR => sqrt 2 | KK => / sqrt 2 end) * oval (coordinate N' L' N L 1))%R.

(** * Unit tensors *)
Definition rlab_eqb (x y : rlab) : bool :=
  let '(L', s', J', T') := x in let '(L, s, J, T) := y in (L' =? L) && (s' =? s) && (J' =? J) && (T' =? T).
(** one for the element asked for and zero for all others *)
Definition unit_element (u : unit_labels) (T0 : Z) (x : rlab) (N' : Z) (y : rlab) (N : Z) : R :=
  if (T0 =? u_T0 u) && rlab_eqb x (u_Lp u, u_Sp u, u_Jp u, u_Tp u) && rlab_eqb y (u_L u, u_S u, u_J u, u_T u) && ((N' =? u_Np u) && (N =? u_N u))
  then 1%R else 0%R.
