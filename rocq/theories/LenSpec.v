(** Vocabulary for the chiral operators (C112-C119): the operators in terms of radial integrals and reduced elements. *)
From Coq Require Import List ZArith Reals Bool.
From Verif Require Import Base RMat OscModel TrfModel RmeModel JpvSpec TrfSpec RmeSpec LenModel WfModel WfSpec.
Import ListNotations.
Open Scope R_scope.

(** * Radial functions *)
(** oscillator functions of the relative coordinate for the single-particle length b *)
Definition psi (tgamma : R -> R) (b : R) (l : Z) (n : nat) (r : R) : R := osc (tgamma (INR (Z.to_nat l) + 3 / 2)) n (Z.to_nat l) (b * sqrt 2) r.
(** local regulator, none for range 0 *)
Definition regulator (range r : R) : R := if Req_EM_T range 0 then 1 else (1 - exp (- (r * r) / (range * range))) ^ 6.
(** smeared delta function of the range *)
Definition smeared (range r : R) : R := exp (- (r * r) / (range * range)) / (sqrt (PI * (range * range))) ^ 3.
(** f, g with e^(-M r)/r^k, regularised *)
Definition yukawa (k : nat) (M range : R) (f g : R -> R) (r : R) : R := f r * (exp (- (M * r)) / r ^ k) * regulator range r * g r.
(** ... with the radial factor of the tensor force *)
Definition tensor_yukawa (M range : R) (f g : R -> R) (r : R) : R := f r * (exp (- (M * r)) / r * (1 + 3 * (1 + M * r) / (M * r) ^ 2)) * regulator range r * g r.
Definition with_contact (range : R) (f : R -> R) (r : R) : R := f r * smeared range r.

(** * Integrals by quadrature *)
(** the function of z which has to be integrated from 0 to 1, r = c z/(1-z); zero at the ends *)
Definition on_mesh (c : R) (h : R -> R) (z : R) : R :=
  if Rlt_dec 0 z then if Rlt_dec z 1 then h (z / (1 - z) * c) * (c / ((1 - z) * (1 - z))) else 0 else 0.
(** equidistant points from 0 to 1 *)
Definition points (n : nat) : list R := map (fun i => INR i / (INR n - 1)) (seq 0 n).
Definition samples (c : R) (h : R -> R) (zs : list R) : list fl := map (fun z => Fin (on_mesh c h z)) zs.
(** the quadrature gives a number for numbers *)
Definition quad_ok (quad : list R -> list fl -> num) : Prop := forall zs (v : list R), exists x, quad zs (map Fin v) = Num x.
Definition num_val (x : num) : R := match x with Num v => v | OscModel.NaN => 0 end.
(** quadratures are linear; here: a common factor of the values is one of the integral *)
Definition homogeneous (quad : list R -> list fl -> num) : Prop :=
  forall zs k (v : list R), num_val (quad zs (map Fin (map (Rmult k) v))) = k * num_val (quad zs (map Fin v)).
Section Q.
Variables (quad : list R -> list fl -> num) (npts : nat) (c : R).
Definition Q (h : R -> R) : R := num_val (quad (points npts) (samples c h (points npts))).
End Q.
(** integrals for which a quadrature on the mesh makes sense: the function of z tends to the end values that are used, and its integral is that of h *)
Definition mesh_correct (c : R) (h : R -> R) : Prop :=
  lim0 (on_mesh c h) 0 /\ lim1 (on_mesh c h) 0 /\ on_mesh c h 0 = 0 /\ on_mesh c h 1 = 0
  /\ exists v, integral h v /\ integral01 (on_mesh c h) v.

(** * Gamow-Teller *)
Section GT.
Variables (tgamma : R -> R) (quad : list R -> list fl -> num).
Variables (racah1 racah2 : Z -> Z -> Z -> Z -> Z -> Z -> Z -> R) (racah12 : Z -> Z -> Z -> Z -> Z -> Z -> Z -> Z -> Z -> R) (crme : Z -> Z -> Z -> R).
(** reduced elements of [sigma1 sigma2]_k between two spins 1/2 *)
Definition cross (k s' s : Z) : R := (if couplesb s' k s then sqrt 3 * sqrt 3 * racah12 1 1 (2 * s') 1 1 (2 * s) 2 2 (2 * k) else 0).
(** coupling of a tensor of rank k1 for L with one of rank k2 for S *)
Definition coupled12 (k1 k2 : Z) (x y : rlab) : R :=
  let '(L', s', J', _) := x in let '(L, s, J, _) := y in racah12 (2 * L') (2 * s') (2 * J') (2 * L) (2 * s) (2 * J) (2 * k1) (2 * k2) 2.
(** sigma1 tau1 + sigma2 tau2 *)
Definition sigma_tau (x y : rlab) : R := let '(_, s', _, T') := x in let '(_, s, _, T) := y in 2 * spin_factor racah1 racah2 1 s' s T' T.
(** [sigma1 sigma2]_1 [tau1 tau2]_1 *)
Definition sigma_tau_cross (x y : rlab) : R := let '(_, s', _, T') := x in let '(_, s, _, T) := y in cross 1 s' s * cross 1 T' T.
(** G: without, C: with a C_2 for the angles *)
Definition central (f : R) (x y : rlab) : R := let '(L', _, _, _) := x in let '(L, _, _, _) := y in if (L' =? L)%Z then coupled2 racah2 x y * f else 0.
Definition tensor (f : R) (x y : rlab) : R :=
  let '(L', _, _, _) := x in let '(L, _, _, _) := y in if couplesb L' 2 L then coupled12 2 1 x y * crme L' L 2 * f else 0.
(** pion-range part and contact part; M: pion mass, F: pion decay constant *)
Definition gt_pion (M F g c3 c4 b range : R) (npts : nat) (x : rlab) (N' : Z) (y : rlab) (N : Z) : R :=
  let '(L', _, _, _) := x in let '(L, _, _, _) := y in
  let f := psi tgamma b L' (Z.to_nat ((N' - L') / 2)) in let h := psi tgamma b L (Z.to_nat ((N - L) / 2)) in
  let I := Q quad npts (b * sqrt 2) in
  g * M ^ 3 / (12 * PI * F ^ 2) *
  (I (yukawa 1 M range f h) / M * (- c3 * central (sigma_tau x y) x y + 2 * c4 * central (sigma_tau_cross x y) x y)
   + sqrt 10 * (I (tensor_yukawa M range f h) / M) * (c3 * tensor (sigma_tau x y) x y + c4 * tensor (sigma_tau_cross x y) x y)).
Definition gt_contact (D b range : R) (npts : nat) (x : rlab) (N' : Z) (y : rlab) (N : Z) : R :=
  let '(L', _, _, _) := x in let '(L, _, _, _) := y in
  let f := psi tgamma b L' (Z.to_nat ((N' - L') / 2)) in let h := psi tgamma b L (Z.to_nat ((N - L) / 2)) in
  let I := Q quad npts (b * sqrt 2) in
  - (D / 4) * central (sigma_tau x y) x y * (I (with_contact range f) * I (with_contact range h)).
Definition gt_rme (M F g c3 c4 D b range : R) (npts : nat) (T0 : Z) (x : rlab) (N' : Z) (y : rlab) (N : Z) : R :=
  if (T0 =? 1)%Z then gt_pion M F g c3 c4 b range npts x N' y N + gt_contact D b range npts x N' y N else 0.
End GT.
(** low-energy constant cD of the regulator R = 0.9 fm, 1.0 fm, and D = cD / (F^2 Lambda), with hbar c in MeV fm *)
Definition value_cD (range : R) : R := if Rlt_dec range (95 / 100) then 21 / 10 else 72 / 10.
Definition hc : R := 1973269804 / 10000000.
Definition value_D (range : R) : R := value_cD range / ((924 / 10 / hc) ^ 2 * (700 / hc)).
Definition known_range (range : R) : Prop := Rabs (range - 9 / 10) < 1 / 10000 \/ Rabs (range - 1) < 1 / 10000.
(** the second coupling factor belongs to an operator which does not act on the first subsystem *)
Definition diagonal2 (racah2 : Z -> Z -> Z -> Z -> Z -> Z -> Z -> R) : Prop := forall L' s' J' L s J k, L' <> L -> racah2 L' s' J' L s J k = 0.
(** reduced elements of the spin of one of two nucleons *)
Definition one_spin (jhalf : R) (racah1 racah2 : Z -> Z -> Z -> Z -> Z -> Z -> Z -> R) (cj1 cj2 : Z -> Z -> R) : Prop :=
  (jhalf = sqrt 3 / 2
  /\ (forall a b, cj1 a b = sqrt 3 / 2 * racah1 1%Z 1%Z (2 * a)%Z 1%Z 1%Z (2 * b)%Z 2%Z)
  /\ (forall a b, cj2 a b = sqrt 3 / 2 * racah2 1%Z 1%Z (2 * a)%Z 1%Z 1%Z (2 * b)%Z 2%Z))%R.

(** * M1 *)
(** states of relative and centre-of-mass motion: subspace labels L S J T g with the states Nr lr Nc lc *)
Definition cm_labels (s : csub) : Z * Z * Z * Z := (c_L (fst s), c_S (fst s), c_J (fst s), c_T (fst s)).
(** the elements [F T0 x u y v] are stored *)
Definition cm_stores (sp : cspace) (o : oplab) (c : ncomponents) (F : Z -> Z * Z * Z * Z -> four -> Z * Z * Z * Z -> four -> R) : Prop :=
  length c = 3%nat /\
  forall T0, (0 <= T0 <= 2)%Z -> exists sectors ms, nth_error c (Z.to_nat T0) = Some (sectors, ms) /\ NoDup sectors /\ length ms = length sectors
  /\ (forall i k, In (i, k) sectors <-> in_range o T0 /\ (i <= k)%nat /\ exists x y, nth_error sp i = Some x /\ nth_error sp k = Some y
        /\ jt_rule (o_J0 o) T0 (o_g0 o) (c_J (fst x)) (c_T (fst x)) (c_g (fst x)) (c_J (fst y)) (c_T (fst y)) (c_g (fst y)))
  /\ (forall q i k x y, nth_error sectors q = Some (i, k) -> nth_error sp i = Some x -> nth_error sp k = Some y ->
        exists m, nth_error ms q = Some m /\ rows m = length (snd x) /\ cols m = length (snd y)
        /\ forall u v a b, nth_error (snd x) u = Some a -> nth_error (snd y) v = Some b ->
           at_ m u v = Num (F T0 (cm_labels x) a (cm_labels y) b)).
(** spaces of relative and centre-of-mass states up to Nmax quanta *)
Definition cm_space (Nmax : Z) (sp : cspace) : Prop :=
  forall x, In x sp -> (0 <= c_S (fst x) <= 1)%Z /\ (0 <= c_T (fst x) <= 1)%Z
  /\ forall Nr lr Nc lc, In (Nr, lr, Nc, lc) (snd x) -> (OscSpec.ho Nr lr /\ OscSpec.ho Nc lc /\ Nr + Nc <= Nmax)%Z.
Section M1.
Variables (tgamma : R -> R) (quad : list R -> list fl -> num).
Variables (racah1 racah2 : Z -> Z -> Z -> Z -> Z -> Z -> Z -> R) (racah12 : Z -> Z -> Z -> Z -> Z -> Z -> Z -> Z -> Z -> R) (crme : Z -> Z -> Z -> R).
(** coefficient of [[C_k(r) C_m(R)]_K [sigma1 sigma2]_q]_1 *)
Definition angular (k m K q : Z) (x : Z * Z * Z * Z) (a : four) (y : Z * Z * Z * Z) (b : four) : R :=
  let '(L', s', J', _) := x in let '(L, s, J, _) := y in let '(_, lr', _, lc') := a in let '(_, lr, _, lc) := b in
  if couplesb lr' k lr && couplesb lc' m lc && couplesb L' K L && couplesb s' q s then
    racah12 (2 * lr') (2 * lc') (2 * L') (2 * lr) (2 * lc) (2 * L) (2 * k) (2 * m) (2 * K)
    * crme lr' lr k * crme lc' lc m * racah12 (2 * L') (2 * s') (2 * J') (2 * L) (2 * s) (2 * J) (2 * K) (2 * q) 2 * cross racah12 q s' s
  else 0.
(** [sigma1 sigma2]_1 alone, and with a C_2 for the relative angles *)
Definition spin_only (x : Z * Z * Z * Z) (a : four) (y : Z * Z * Z * Z) (b : four) : R :=
  let '(L', s', J', _) := x in let '(L, s, J, _) := y in let '(_, lr', _, lc') := a in let '(_, lr, _, lc) := b in
  if (lr' =? lr)%Z && (lc' =? lc)%Z && (L' =? L)%Z then racah2 (2 * L') (2 * s') (2 * J') (2 * L) (2 * s) (2 * J) 2 * cross racah12 1 s' s else 0.
Definition spin_tensor (x : Z * Z * Z * Z) (a : four) (y : Z * Z * Z * Z) (b : four) : R :=
  let '(L', s', J', _) := x in let '(L, s, J, _) := y in let '(_, lr', _, lc') := a in let '(_, lr, _, lc) := b in
  if couplesb lr' 2 lr && (lc' =? lc)%Z && couplesb L' 2 L then
    sqrt 10 * racah1 (2 * lr') (2 * lc') (2 * L') (2 * lr) (2 * lc) (2 * L) 4 * crme lr' lr 2
    * racah12 (2 * L') (2 * s') (2 * J') (2 * L) (2 * s) (2 * J) 4 2 2 * cross racah12 1 s' s
  else 0.
(** sums of the terms of rank 2 in the spins, and of all *)
Definition rank2_terms (x : Z * Z * Z * Z) (a : four) (y : Z * Z * Z * Z) (b : four) : R :=
  sqrt (3 / 5) * angular 1 1 1 2 x a y b + sqrt (9 / 5) * angular 1 1 2 2 x a y b
  + sqrt (14 / 5) * angular 3 1 2 2 x a y b + sqrt (28 / 5) * angular 3 1 3 2 x a y b.
Definition all_terms (x : Z * Z * Z * Z) (a : four) (y : Z * Z * Z * Z) (b : four) : R := - sqrt 3 * angular 1 1 1 0 x a y b + rank2_terms x a y b.
(** radial elements of the centre of mass: of 1, and of R for the length b / sqrt 2 *)
Definition cm_same (a b : four) : R := let '(_, _, Nc', lc') := a in let '(_, _, Nc, lc) := b in if (Nc' =? Nc)%Z && (lc' =? lc)%Z then 1 else 0.
Definition cm_radius (b0 : R) (a b : four) : R :=
  let '(_, _, Nc', lc') := a in let '(_, _, Nc, lc) := b in
  if (Z.abs (Nc' - Nc) =? 1)%Z && (Z.abs (lc' - lc) =? 1)%Z then b0 / sqrt 2 * OscSpec.oval (coordinate Nc' lc' Nc lc 1) else 0.
Definition m1_rme (M F g MN b0 range : R) (npts : nat) (T0 : Z) (x : Z * Z * Z * Z) (a : four) (y : Z * Z * Z * Z) (b : four) : R :=
  let '(_, _, _, T') := x in let '(_, _, _, T) := y in let '(Nr', lr', _, _) := a in let '(Nr, lr, _, _) := b in
  let f k := Q quad npts (b0 * sqrt 2) (yukawa k M range (psi tgamma b0 lr' (Z.to_nat ((Nr' - lr') / 2))) (psi tgamma b0 lr (Z.to_nat ((Nr - lr) / 2)))) in
  if (T0 =? 1)%Z then
    - sqrt (3 / (4 * PI)) * (g ^ 2 * MN * M / (24 * PI * F ^ 2)) * cross racah12 1 T' T *
    (cm_same a b * (f 0%nat * (spin_tensor x a y b + 2 * spin_only x a y b) + f 1%nat / M * (spin_tensor x a y b - spin_only x a y b))
     + M * cm_radius b0 a b * (f 0%nat * all_terms x a y b + 3 * (f 1%nat / M + f 2%nat / M ^ 2) * rank2_terms x a y b))
  else 0.
End M1.
(** [tau1 tau2]_1 changes sign under exchange of the nucleons, so it has no elements between states of the same isospin *)
Definition cross_antisymmetric (racah12 : Z -> Z -> Z -> Z -> Z -> Z -> Z -> Z -> Z -> R) : Prop :=
  forall t, (0 <= t <= 1)%Z -> racah12 1%Z 1%Z (2 * t)%Z 1%Z 1%Z (2 * t)%Z 2%Z 2%Z 2%Z = 0.
