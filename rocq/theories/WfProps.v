(** C106-C111: oscillator functions by recurrence, the mesh of the radial integrals, and the analytic oscillator elements as integrals.
    The definitions used in the statements are in WfSpec.v (Laguerre polynomials, oscillator functions, integrals), WfModel.v and OscModel.v (code), and
    code_value of WfFinal.v (the number returned at one point). *)
From Coq Require Import List ZArith Reals Bool.
From Verif Require Import Base OscModel WfModel WfSpec WfProof WfOsc WfEl WfSqr WfMesh WfGrid WfFinal WfCase.
Import ListNotations.
Open Scope R_scope.

(** C106.  Position functions, at a positive coordinate: r^shift times the oscillator function. *)
Theorem C106_closed_form : forall tgamma l b, 0 < tgamma (INR l + 3 / 2) -> 0 < b -> forall shift nmax n coord i r, (Z.of_nat n <= nmax)%Z -> nth_error coord i = Some (Fin r) -> 0 < r ->
  exists w, nth_error (wave_functions tgamma true nmax (Z.of_nat l) b coord shift) n = Some w
    /\ nth_error w i = Some (Fin (Rpower r shift * osc (tgamma (INR l + 3 / 2)) n l b r)).
Proof. exact closed_form. Qed.
Print Assumptions C106_closed_form.

(** C106.  At the origin they vanish; ... *)
Theorem C106_origin : forall tgamma l b, 0 < tgamma (INR l + 3 / 2) -> 0 < b -> forall shift nmax n coord i, (Z.of_nat n <= nmax)%Z -> nth_error coord i = Some (Fin 0) -> 0 < INR l + 1 + shift ->
  exists w, nth_error (wave_functions tgamma true nmax (Z.of_nat l) b coord shift) n = Some w /\ nth_error w i = Some (Fin 0).
Proof. exact closed_form0. Qed.
Print Assumptions C106_origin.

(** C106.  ... at infinity they are not numbers. *)
Theorem C106_infinity : forall tgamma l b, 0 < tgamma (INR l + 3 / 2) -> 0 < b -> forall shift nmax n coord i, (Z.of_nat n <= nmax)%Z -> nth_error coord i = Some (Inf true) -> 0 < INR l + 1 + shift ->
  exists w, nth_error (wave_functions tgamma true nmax (Z.of_nat l) b coord shift) n = Some w /\ nth_error w i = Some NaN.
Proof. exact closed_form_inf. Qed.
Print Assumptions C106_infinity.

(** C106.  nmax + 1 arrays of the length of the array of coordinates. *)
Theorem C106_shape : forall tgamma pos nmax l b coord shift, (-1 <= nmax)%Z ->
  Z.of_nat (length (wave_functions tgamma pos nmax l b coord shift)) = (nmax + 1)%Z
  /\ Forall (fun w => length w = length coord) (wave_functions tgamma pos nmax l b coord shift).
Proof. exact shapes. Qed.
Print Assumptions C106_shape.

Example C106_case : forall tgamma, 0 < tgamma (INR 0 + 3 / 2) ->
  wave_functions tgamma true 1 0 1 [Fin 1; Fin 0; Inf true] 0 =
    [[Fin (sqrt (2 / tgamma (INR 0 + 3 / 2)) * exp (- 1 / 2)); Fin 0; NaN];
     [Fin (sqrt (4 / (3 * tgamma (INR 0 + 3 / 2))) * exp (- 1 / 2) * (1 / 2)); Fin 0; NaN]].
Proof. exact case_value. Qed.

(** C107.  The functions of the code are orthonormal; a shift of the power by s in one and -s in the other cancels. *)
Theorem C107_orthonormal : forall tgamma l b n m shift, gamma_fn tgamma -> 0 < b ->
  integral (fun r => code_value tgamma true n l b shift r * code_value tgamma true m l b (- shift) r) (delta n m).
Proof. exact code_orthonormal. Qed.
Print Assumptions C107_orthonormal.

(** C107.  There is a function with the values tgamma has to have ... *)
Theorem C107_gamma_exists : exists f, gamma_fn f.
Proof. exact gamma_fn_exists. Qed.
Print Assumptions C107_gamma_exists.

(** C107.  ... and its values at l + 3/2 are the only ones. *)
Theorem C107_gamma_unique : forall f h l, gamma_fn f -> gamma_fn h -> f (INR l + 3 / 2) = h (INR l + 3 / 2).
Proof. exact gamma_fn_unique. Qed.
Print Assumptions C107_gamma_unique.

Example C107_case : exists tgamma, gamma_fn tgamma /\ 0 < tgamma (INR 0 + 3 / 2) /\ tgamma (INR 1 + 3 / 2) = 3 / 2 * tgamma (INR 0 + 3 / 2)
  /\ integral (fun r => code_value tgamma true 3 1 2 (-1) r * code_value tgamma true 3 1 2 1 r) 1
  /\ integral (fun r => code_value tgamma true 3 1 2 0 r * code_value tgamma true 0 1 2 0 r) 0.
Proof. exact case_gamma. Qed.

(** C108.  The momentum functions for n = 0 and n = 1 are orthonormal. *)
Theorem C108_first : forall tgamma l b n m, gamma_fn tgamma -> 0 < b -> (n <= 1)%nat -> (m <= 1)%nat ->
  integral (fun k => code_value tgamma false n l b 0 k * code_value tgamma false m l b 0 k) (delta n m).
Proof. exact momentum_first. Qed.
Print Assumptions C108_first.

(** C108.  n = 0: the function of length 1/b. *)
Theorem C108_value_0 : forall tgamma l b shift, 0 < tgamma (INR l + 3 / 2) -> 0 < b -> forall k, 0 < k -> code_value tgamma false 0 l b shift k = Rpower k shift * osc (tgamma (INR l + 3 / 2)) 0 l (/ b) k.
Proof. exact momentum_0. Qed.
Print Assumptions C108_value_0.

(** C108.  n = 1: minus the function of length 1/b. *)
Theorem C108_value_1 : forall tgamma l b shift, 0 < tgamma (INR l + 3 / 2) -> 0 < b -> forall k, 0 < k -> code_value tgamma false 1 l b shift k = - (Rpower k shift * osc (tgamma (INR l + 3 / 2)) 1 l (/ b) k).
Proof. exact momentum_1. Qed.
Print Assumptions C108_value_1.

(** C108.  n = 2: the sign also multiplies the second term of the recurrence, so that a multiple of n = 0 is added. *)
Theorem C108_value_2 : forall tgamma l b shift, 0 < tgamma (INR l + 3 / 2) -> 0 < b -> forall k, 0 < k -> code_value tgamma false 2 l b shift k
  = Rpower k shift * (osc (tgamma (INR l + 3 / 2)) 2 l (/ b) k + 2 * (sqrt (INR l + 3 / 2) / sqrt (2 * (INR l + 5 / 2))) * osc (tgamma (INR l + 3 / 2)) 0 l (/ b) k).
Proof. exact momentum_2. Qed.
Print Assumptions C108_value_2.

(** C108 refuted: n = 2 is not orthogonal to n = 0. *)
Theorem C108_orthogonal_refuted : exists l n m, n <> m /\ forall tgamma b, gamma_fn tgamma -> 0 < b ->
  exists v, 0 < v /\ integral (fun k => code_value tgamma false n l b 0 k * code_value tgamma false m l b 0 k) v.
Proof. exact momentum_refuted. Qed.
Print Assumptions C108_orthogonal_refuted.

(** C108.  The overlap with n = 0, for every l and b, ... *)
Theorem C108_overlap : forall tgamma l b, gamma_fn tgamma -> 0 < b ->
  integral (fun k => code_value tgamma false 2 l b 0 k * code_value tgamma false 0 l b 0 k) (2 * (sqrt (INR l + 3 / 2) / sqrt (2 * (INR l + 5 / 2)))).
Proof. exact momentum_overlap. Qed.
Print Assumptions C108_overlap.

(** C108.  ... and the norm, which is not 1. *)
Theorem C108_norm : forall tgamma l b, gamma_fn tgamma -> 0 < b ->
  integral (fun k => code_value tgamma false 2 l b 0 k * code_value tgamma false 2 l b 0 k) (1 + 2 * (sqrt (INR l + 3 / 2) / sqrt (2 * (INR l + 5 / 2))) * (2 * (sqrt (INR l + 3 / 2) / sqrt (2 * (INR l + 5 / 2))))).
Proof. exact momentum_norm. Qed.
Print Assumptions C108_norm.

Example C108_case : 0 < 2 * (sqrt (INR 0 + 3 / 2) / sqrt (2 * (INR 0 + 5 / 2))).
Proof. exact (wrong_part_pos 0). Qed.

(** C109.  The mesh: i / n for i = 0, ..., n. *)
Theorem C109_points : forall n i, (0 < n)%nat -> length (uniform_mesh (S n)) = S n /\ ((i <= n)%nat -> nth_error (uniform_mesh (S n)) i = Some (INR i / INR n)).
Proof. exact mesh_points. Qed.
Print Assumptions C109_points.

(** C109.  Coordinate and Jacobian: a derivative, increasing from 0 to infinity, so that integrals are unchanged. *)
Theorem C109_map : forall pos b, 0 < b -> exists T J,
  (forall z, z < 1 -> transformed pos b z = Fin (T z) /\ jacobian pos b z = Fin (J z) /\ derivable_pt_lim T z (J z))
  /\ (forall y z, y < z -> z < 1 -> T y < T z)
  /\ T 0 = 0 /\ (forall r, 0 <= r -> exists z, 0 <= z < 1 /\ T z = r)
  /\ transformed pos b 1 = Inf true /\ jacobian pos b 1 = Inf true
  /\ (forall f v, integral f v <-> integral01 (fun z => f (T z) * J z) v).
Proof. exact mesh_map. Qed.
Print Assumptions C109_map.

(** C109.  Values at the ends that are not finite are replaced by 0, all others are kept. *)
Theorem C109_endpoints : forall x a y, fix_endpoints (x :: a ++ [y]) = Ok ((if finite x then x else Fin 0) :: a ++ [if finite y then y else Fin 0]).
Proof. exact endpoints. Qed.
Print Assumptions C109_endpoints.

(** C109.  An empty array has no ends. *)
Theorem C109_endpoints_empty : fix_endpoints [] = AssertFail.
Proof. exact endpoints_empty. Qed.
Print Assumptions C109_endpoints_empty.

(** C109.  The integrand of relative_xform on the mesh: finite everywhere, continuous at the replaced point, and its integral is the overlap of the functions of the two lengths. *)
Theorem C109_integrand : forall tgamma L ratio sd td steps i j, gamma_fn tgamma -> 0 < ratio -> (0 < steps)%nat -> (Z.of_nat i < sd)%Z -> (Z.of_nat j < td)%Z ->
  exists f v, xform_integrand tgamma sd td (Z.of_nat L) ratio steps i j = Ok (map (fun z => Fin (f z)) (uniform_mesh (steps + 1)))
    /\ (forall z, 0 <= z < 1 -> f z = osc (tgamma (INR L + 3 / 2)) i L (1 / sqrt ratio) (z / (1 - z)) * osc (tgamma (INR L + 3 / 2)) j L (sqrt ratio) (z / (1 - z)) / ((1 - z) * (1 - z)))
    /\ f 1 = 0 /\ lim1 f 0
    /\ integral01 f v /\ integral (fun r => osc (tgamma (INR L + 3 / 2)) i L 1 r * osc (tgamma (INR L + 3 / 2)) j L ratio r) v.
Proof. exact xform_mesh. Qed.
Print Assumptions C109_integrand.

(** C109.  For equal lengths the overlap is the identity (the shortcut of the code). *)
Theorem C109_ratio_one : forall tgamma L i j v, gamma_fn tgamma ->
  integral (fun r => osc (tgamma (INR L + 3 / 2)) i L 1 r * osc (tgamma (INR L + 3 / 2)) j L 1 r) v -> v = delta i j.
Proof. exact xform_one. Qed.
Print Assumptions C109_ratio_one.

Example C109_case : uniform_mesh 3 = [0 / (INR 3 - 1); 1 / (INR 3 - 1); 1] /\ transformed true 2 (1 / 2) = Fin 2 /\ jacobian false 2 (1 / 2) = Fin 2
  /\ fix_endpoints [NaN; Fin 1; Inf true] = Ok [Fin 0; Fin 1; Fin 0].
Proof. exact case_mesh. Qed.

(** C110.  The analytic element of r is the integral, up to the decimal sqrt 2: l to l + 1 ... *)
Theorem C110_r_up : forall l g g' b, gamma_value l g -> gamma_value (S l) g' -> 0 < b -> forall n m, exists v,
  integral (fun r => osc g' m (S l) b r * (r / b * osc g n l b r)) v
  /\ coordinate (2 * Z.of_nat m + (Z.of_nat l + 1)) (Z.of_nat l + 1) (2 * Z.of_nat n + Z.of_nat l) (Z.of_nat l) 1 = Ok (Num (v * (sqrt 2 / k_sqrt_2))).
Proof. exact r_up. Qed.
Print Assumptions C110_r_up.

(** C110.  ... and l + 1 to l. *)
Theorem C110_r_down : forall l g g' b, gamma_value l g -> gamma_value (S l) g' -> 0 < b -> forall n m, exists v,
  integral (fun r => osc g m l b r * (r / b * osc g' n (S l) b r)) v
  /\ coordinate (2 * Z.of_nat m + Z.of_nat l) (Z.of_nat l) (2 * Z.of_nat n + (Z.of_nat l + 1)) (Z.of_nat l + 1) 1 = Ok (Num (v * (sqrt 2 / k_sqrt_2))).
Proof. exact r_down. Qed.
Print Assumptions C110_r_down.

(** C110.  That of ik is the integral with d/dr - (l+1)/r ... *)
Theorem C110_k_up : forall l g g' b, gamma_value l g -> gamma_value (S l) g' -> 0 < b -> forall n m, exists D v, (forall r, 0 < r -> derivable_pt_lim (osc g n l b) r (D r))
  /\ integral (fun r => osc g' m (S l) b r * (b * (D r - (INR l + 1) / r * osc g n l b r))) v
  /\ coordinate (2 * Z.of_nat m + (Z.of_nat l + 1)) (Z.of_nat l + 1) (2 * Z.of_nat n + Z.of_nat l) (Z.of_nat l) (-1) = Ok (Num (v * (sqrt 2 / k_sqrt_2))).
Proof. exact k_up. Qed.
Print Assumptions C110_k_up.

(** C110.  ... or d/dr + (l+1)/r. *)
Theorem C110_k_down : forall l g g' b, gamma_value l g -> gamma_value (S l) g' -> 0 < b -> forall n m, exists D v, (forall r, 0 < r -> derivable_pt_lim (osc g' n (S l) b) r (D r))
  /\ integral (fun r => osc g m l b r * (b * (D r + (INR l + 1) / r * osc g' n (S l) b r))) v
  /\ coordinate (2 * Z.of_nat m + Z.of_nat l) (Z.of_nat l) (2 * Z.of_nat n + (Z.of_nat l + 1)) (Z.of_nat l + 1) (-1) = Ok (Num (v * (sqrt 2 / k_sqrt_2))).
Proof. exact k_down. Qed.
Print Assumptions C110_k_down.

(** C110.  r^2, l to l ... *)
Theorem C110_r2_same : forall l g b, gamma_value l g -> 0 < b -> forall n m, exists v, integral (fun r => osc g m l b r * (r / b * (r / b) * osc g n l b r)) v
  /\ coordinate_sqr (2 * Z.of_nat m + Z.of_nat l) (Z.of_nat l) (2 * Z.of_nat n + Z.of_nat l) (Z.of_nat l) 1 = Num v.
Proof. exact rr_same. Qed.
Print Assumptions C110_r2_same.

(** C110.  ... l to l + 2 ... *)
Theorem C110_r2_up : forall l g g2 b, gamma_value l g -> gamma_value (S (S l)) g2 -> 0 < b -> forall n m, exists v, integral (fun r => osc g2 m (S (S l)) b r * (r / b * (r / b) * osc g n l b r)) v
  /\ coordinate_sqr (2 * Z.of_nat m + (Z.of_nat l + 2)) (Z.of_nat l + 2) (2 * Z.of_nat n + Z.of_nat l) (Z.of_nat l) 1 = Num v.
Proof. exact rr_up. Qed.
Print Assumptions C110_r2_up.

(** C110.  ... and l + 2 to l. *)
Theorem C110_r2_down : forall l g g2 b, gamma_value l g -> gamma_value (S (S l)) g2 -> 0 < b -> forall n m, exists v, integral (fun r => osc g m l b r * (r / b * (r / b) * osc g2 n (S (S l)) b r)) v
  /\ coordinate_sqr (2 * Z.of_nat m + Z.of_nat l) (Z.of_nat l) (2 * Z.of_nat n + (Z.of_nat l + 2)) (Z.of_nat l + 2) 1 = Num v.
Proof. exact rr_down. Qed.
Print Assumptions C110_r2_down.

(** C110.  (ik)^2, l to l: the radial Laplacian ... *)
Theorem C110_k2_same : forall l g b, gamma_value l g -> 0 < b -> forall n m, exists D D2 v, (forall r, 0 < r -> derivable_pt_lim (osc g n l b) r (D r) /\ derivable_pt_lim D r (D2 r))
  /\ integral (fun r => osc g m l b r * (b * b * (D2 r - INR l * (INR l + 1) / (r * r) * osc g n l b r))) v
  /\ coordinate_sqr (2 * Z.of_nat m + Z.of_nat l) (Z.of_nat l) (2 * Z.of_nat n + Z.of_nat l) (Z.of_nat l) (-1) = Num v.
Proof. exact kk_same. Qed.
Print Assumptions C110_k2_same.

(** C110.  ... l to l + 2 ... *)
Theorem C110_k2_up : forall l g g2 b, gamma_value l g -> gamma_value (S (S l)) g2 -> 0 < b -> forall n m, exists D D2 v, (forall r, 0 < r -> derivable_pt_lim (osc g n l b) r (D r) /\ derivable_pt_lim D r (D2 r))
  /\ integral (fun r => osc g2 m (S (S l)) b r * (b * b * (D2 r - (2 * INR l + 3) / r * D r + (INR l + 1) * (INR l + 3) / (r * r) * osc g n l b r))) v
  /\ coordinate_sqr (2 * Z.of_nat m + (Z.of_nat l + 2)) (Z.of_nat l + 2) (2 * Z.of_nat n + Z.of_nat l) (Z.of_nat l) (-1) = Num v.
Proof. exact kk_up. Qed.
Print Assumptions C110_k2_up.

(** C110.  ... and l + 2 to l. *)
Theorem C110_k2_down : forall l g g2 b, gamma_value l g -> gamma_value (S (S l)) g2 -> 0 < b -> forall n m, exists D D2 v, (forall r, 0 < r -> derivable_pt_lim (osc g2 n (S (S l)) b) r (D r) /\ derivable_pt_lim D r (D2 r))
  /\ integral (fun r => osc g m l b r * (b * b * (D2 r + (2 * INR l + 3) / r * D r + INR l * (INR l + 2) / (r * r) * osc g2 n (S (S l)) b r))) v
  /\ coordinate_sqr (2 * Z.of_nat m + Z.of_nat l) (Z.of_nat l) (2 * Z.of_nat n + (Z.of_nat l + 2)) (Z.of_nat l + 2) (-1) = Num v.
Proof. exact kk_down. Qed.
Print Assumptions C110_k2_down.

Example C110_case : exists g, gamma_value 0 g /\ coordinate 1 1 0 0 1 = Ok (Num (sqrt 3 / k_sqrt_2)) /\ coordinate_sqr 0 0 0 0 (-1) = Num (-1 * (0 + 15 / 10)).
Proof.
  destruct gamma_exists0 as (g & H). exists g. split; [exact H|]. split; [|reflexivity].
  unfold coordinate, cdagger, clower, OscModel.fsqrt. cbn. f_equal. f_equal. unfold Rdiv. ring.
Qed.

(** C111.  For arrays the single function is that of the list, and each point is evaluated by itself. *)
Theorem C111_single : forall tgamma pos l b coord shift nmax n, (Z.of_nat n <= nmax)%Z ->
  nth_error (wave_functions tgamma pos nmax l b coord shift) n = Some (wave_function tgamma pos (Z.of_nat n) l b coord shift)
  /\ length (wave_function tgamma pos (Z.of_nat n) l b coord shift) = length coord
  /\ (forall i c, nth_error coord i = Some c -> exists v, wave_function tgamma pos (Z.of_nat n) l b [c] shift = [v]
        /\ nth_error (wave_function tgamma pos (Z.of_nat n) l b coord shift) i = Some v).
Proof. exact single_function. Qed.
Print Assumptions C111_single.

(** C111.  For a double: n = 0 ... *)
Theorem C111_scalar_0 : forall tgamma pos l b c shift, exists v, wave_function1 tgamma pos 0 l b c shift = Ok v /\ wave_function tgamma pos 0 l b [c] shift = [v].
Proof. exact scalar_0. Qed.
Print Assumptions C111_scalar_0.

(** C111.  ... is the only defined case with n >= 0. *)
Theorem C111_scalar_undefined : forall tgamma, forall pos n l b c shift, (0 < n)%Z -> wave_function1 tgamma pos n l b c shift = UB.
Proof. exact wave_function1_UB. Qed.
Print Assumptions C111_scalar_undefined.

(** C111.  A negative n gives an empty array. *)
Theorem C111_negative : forall tgamma pos l b shift coord, forall n, (n < 0)%Z -> wave_function tgamma pos n l b coord shift = [] /\ wave_functions tgamma pos n l b coord shift = [].
Proof. exact wave_function_neg. Qed.
Print Assumptions C111_negative.

(** C111.  For a double a negative n gives 0. *)
Theorem C111_scalar_negative : forall tgamma pos n l b c shift, (n < 0)%Z -> wave_function1 tgamma pos n l b c shift = Ok (Fin 0).
Proof. exact scalar_negative. Qed.
Print Assumptions C111_scalar_negative.

(** C111 refuted: for a double and n > 0 an indeterminate value is exchanged. *)
Theorem C111_scalar_refuted : exists n, (0 < n)%Z /\ forall tgamma pos l b c shift, wave_function1 tgamma pos n l b c shift = UB.
Proof. exact scalar_refuted. Qed.
Print Assumptions C111_scalar_refuted.

Example C111_case : forall tgamma, length (wave_function tgamma true 3 1 2 [Fin 1; Fin 2] 0) = 2%nat.
Proof. reflexivity. Qed.
