(** libraries/quadrature/oscillator_wf.h (oscillator functions by recurrence) and mesh.h (mesh for integrals from 0 to
    infinity).

    Simplifications: a double is a real number, an infinity or not-a-number; rounding is left out, zero has no sign.
    std::tgamma is a parameter.  Eigen::ArrayXd is a list, on which the operations act element by element; LinSpaced
    gives its last point exactly.  int is Z. *)
From Coq Require Import List ZArith Reals Bool.
From Verif Require Import Base.
Import ListNotations.
Open Scope R_scope.
Open Scope outcome_scope.

(** * double *)
Inductive fl : Type := Fin (x : R) | Inf (pos : bool) | NaN.
Definition sgn (x : R) : comparison := match total_order_T x 0 with inleft (left _) => Lt | inleft (right _) => Eq | inright _ => Gt end.
Definition fneg (a : fl) : fl := match a with Fin x => Fin (- x) | Inf p => Inf (negb p) | NaN => NaN end.
Definition fadd (a b : fl) : fl :=
  match a, b with
  | Fin x, Fin y => Fin (x + y)
  | Inf p, Fin _ | Fin _, Inf p => Inf p
  | Inf p, Inf q => if Bool.eqb p q then Inf p else NaN
  | _, _ => NaN
  end.
Definition fsub (a b : fl) : fl := fadd a (fneg b).
Definition inf_times (p : bool) (x : R) : fl := match sgn x with Gt => Inf p | Lt => Inf (negb p) | Eq => NaN end.
Definition fmul (a b : fl) : fl :=
  match a, b with
  | Fin x, Fin y => Fin (x * y)
  | Inf p, Fin x | Fin x, Inf p => inf_times p x
  | Inf p, Inf q => Inf (Bool.eqb p q)
  | _, _ => NaN
  end.
Definition fdiv (a b : fl) : fl :=
  match a, b with
  | Fin x, Fin y => match sgn y, sgn x with Eq, Gt => Inf true | Eq, Lt => Inf false | Eq, Eq => NaN | _, _ => Fin (x / y) end
  | Inf p, Fin y => match sgn y with Lt => Inf (negb p) | _ => Inf p end
  | Fin _, Inf _ => Fin 0
  | _, _ => NaN
  end.
Definition fexp (a : fl) : fl := match a with Fin x => Fin (exp x) | Inf true => Inf true | Inf false => Fin 0 | NaN => NaN end.
Definition fsqrt (a : fl) : fl :=
  match a with Fin x => match sgn x with Lt => NaN | _ => Fin (sqrt x) end | Inf true => Inf true | _ => NaN end.
(** std::pow; a negative base is met nowhere *)
Definition fpow (a : fl) (p : R) : fl :=
  match sgn p with
  | Eq => Fin 1
  | Gt => match a with
          | Fin x => match sgn x with Gt => Fin (Rpower x p) | Eq => Fin 0 | Lt => NaN end
          | Inf true => Inf true | _ => NaN end
  | Lt => match a with
          | Fin x => match sgn x with Gt => Fin (Rpower x p) | Eq => Inf true | Lt => NaN end
          | Inf true => Fin 0 | _ => NaN end
  end.
Definition finite (a : fl) : bool := match a with Fin _ => true | _ => false end.

(** * mesh.h *)
(** mesh.h:24-39 UniformMesh: LinSpaced(num_points, 0, 1); a single point is the upper end *)
Definition mesh_point (n i : nat) : R := if Nat.eqb (S i) n then 1 else INR i / (INR n - 1).
Definition uniform_mesh (n : nat) : list R := map (mesh_point n) (seq 0 n).
(** mesh.h:41-65 TransformedCoordinate; [pos]: coord_sign = +1 *)
Definition transformed (pos : bool) (b : R) (z : R) : fl :=
  let q := fdiv (Fin z) (Fin (1 - z)) in if pos then fmul q (Fin b) else fdiv q (Fin b).
(** mesh.h:67-91 TransformedCoordinateJacobian *)
Definition jacobian (pos : bool) (b : R) (z : R) : fl :=
  let q := fdiv (Fin 1) (Fin ((1 - z) * (1 - z))) in if pos then fmul q (Fin b) else fdiv q (Fin b).
(** mesh.h:93-107 FixEndpointSingularitiesToZero; Eigen asserts that the index is in range *)
Fixpoint fix_last (l : list fl) : list fl :=
  match l with [] => [] | [x] => [if finite x then x else Fin 0] | x :: l' => x :: fix_last l' end.
Definition fix_endpoints (l : list fl) : outcome (list fl) :=
  match l with [] => AssertFail | x :: l' => Ok (fix_last ((if finite x then x else Fin 0) :: l')) end.

(** * oscillator_wf.h *)
Section Wf.
Variable tgamma : R -> R.
(** oscillator_wf.h:26-34 UnitlessCoordSqr *)
Definition unitless (pos : bool) (b : R) (c : fl) : fl :=
  if pos then fdiv (fmul c c) (fmul (Fin b) (Fin b)) else fmul (fmul c c) (fmul (Fin b) (Fin b)).
(** oscillator_wf.h:35-52 OscillatorWaveFunctionRecurrence0 *)
Definition rec0 (pos : bool) (l : Z) (b shift : R) (x2 : fl) : fl :=
  let g := tgamma (IZR l + 3 / 2) in
  let norm := if pos then fmul (fsqrt (fdiv (Fin 2) (Fin (b * g)))) (fpow (Fin b) shift)
              else fmul (fsqrt (fdiv (Fin (2 * b)) (Fin g))) (fpow (Fin b) (- shift)) in
  fmul (fmul norm (fexp (fdiv (fneg x2) (Fin 2)))) (fpow x2 ((IZR l + 1 + shift) / 2)).
Definition coord_sign (pos : bool) : R := if pos then 1 else -1.
(** oscillator_wf.h:54-60 OscillatorWaveFunctionRecurrence1 *)
Definition rec1 (pos : bool) (l : Z) (x2 wf1 : fl) : fl :=
  fmul (fmul (Fin (coord_sign pos)) (fdiv (fsub (Fin (3 / 2 + IZR l)) x2) (fsqrt (Fin (IZR l + 3 / 2))))) wf1.
(** oscillator_wf.h:62-72 OscillatorWaveFunctionRecurrenceN *)
Definition recn (pos : bool) (n l : Z) (x2 wf1 wf2 : fl) : fl :=
  fdiv (fmul (Fin (coord_sign pos))
         (fsub (fmul (fadd (fneg x2) (Fin (IZR (2 * n + l) - 1 / 2))) wf1)
               (fmul (fsqrt (Fin (IZR (n - 1) * (IZR (n + l) - 1 / 2)))) wf2)))
       (fsqrt (Fin (IZR n * (IZR (n + l) + 1 / 2)))).

(** element by element *)
Fixpoint zip2 (f : fl -> fl -> fl) (a b : list fl) : list fl :=
  match a, b with x :: a', y :: b' => f x y :: zip2 f a' b' | _, _ => [] end.
Fixpoint zip3 (f : fl -> fl -> fl -> fl) (a b c : list fl) : list fl :=
  match a, b, c with x :: a', y :: b', z :: c' => f x y z :: zip3 f a' b' c' | _, _, _ => [] end.
(** the loop of oscillator_wf.h:128-133; [fuel]: number of turns left; the functions found so far, last one first *)
Fixpoint wf_loop (pos : bool) (l : Z) (x2 : list fl) (n : Z) (fuel : nat) (acc : list (list fl)) : list (list fl) :=
  match fuel, acc with
  | S k, w1 :: w2 :: _ => wf_loop pos l x2 (n + 1) k (zip3 (recn pos n l) x2 w1 w2 :: acc)
  | _, _ => acc
  end.
(** oscillator_wf.h:74-136 OscillatorWaveFunctions: the functions n = 0, ..., nmax on an array of points *)
Definition wave_functions (pos : bool) (nmax l : Z) (b : R) (coord : list fl) (shift : R) : list (list fl) :=
  if (nmax <? 0)%Z then [] else
  let x2 := map (unitless pos b) coord in
  let w0 := map (rec0 pos l b shift) x2 in
  if (nmax =? 0)%Z then [w0] else
  let w1 := zip2 (rec1 pos l) x2 w0 in
  if (nmax =? 1)%Z then [w0; w1] else
  rev (wf_loop pos l x2 2 (Z.to_nat (nmax - 1)) [w1; w0]).

(** oscillator_wf.h:138-201 OscillatorWaveFunction: one function, with three variables exchanged by std::swap.
    For an array the variables start empty. *)
Fixpoint swap_loop (pos : bool) (l : Z) (x2 : list fl) (i : Z) (fuel : nat) (wf m1 m2 : list fl) : list fl :=
  match fuel with
  | O => wf
  | S k =>
      let '(m2, m1) := (m1, m2) in
      let '(wf, m1) := (m1, wf) in
      let wf := zip3 (recn pos i l) x2 m1 m2 in
      swap_loop pos l x2 (i + 1) k wf m1 m2
  end.
Definition wave_function (pos : bool) (n l : Z) (b : R) (coord : list fl) (shift : R) : list fl :=
  if (n <? 0)%Z then [] else
  let x2 := map (unitless pos b) coord in
  let wf := map (rec0 pos l b shift) x2 in
  if (n =? 0)%Z then wf else
  let '(wf, m1) := (@nil fl, wf) in
  let wf := zip2 (rec1 pos l) x2 m1 in
  if (n =? 1)%Z then wf else
  swap_loop pos l x2 2 (Z.to_nat (n - 1)) wf m1 [].

(** the same for a double: the variables start indeterminate (None), and std::swap of an indeterminate double is
    undefined behaviour *)
Definition swap (a b : option fl) : outcome (option fl * option fl) :=
  match a, b with Some x, Some y => Ok (Some y, Some x) | _, _ => UB end.
Fixpoint swap_loop1 (pos : bool) (l : Z) (x2 : fl) (i : Z) (fuel : nat) (wf m1 m2 : option fl) : outcome fl :=
  match fuel with
  | O => get wf
  | S k =>
      ' (m2, m1) <- swap m2 m1 ;;
      ' (wf, m1) <- swap wf m1 ;;
      v1 <- get m1 ;; v2 <- get m2 ;;
      swap_loop1 pos l x2 (i + 1) k (Some (recn pos i l x2 v1 v2)) m1 m2
  end.
Definition wave_function1 (pos : bool) (n l : Z) (b : R) (coord : fl) (shift : R) : outcome fl :=
  if (n <? 0)%Z then Ok (Fin 0) else
  let x2 := unitless pos b coord in
  let wf := Some (rec0 pos l b shift x2) in
  if (n =? 0)%Z then get wf else
  ' (wf, m1) <- swap wf None ;;
  v1 <- get m1 ;;
  let wf := rec1 pos l x2 v1 in
  if (n =? 1)%Z then Ok wf else
  swap_loop1 pos l x2 2 (Z.to_nat (n - 1)) (Some wf) m1 None.
End Wf.

(** * the radial integrands of relative_xform.cpp *)
(** relative_xform.cpp:48-86, up to the call of spline::CubicIntegrate: the values on the mesh of one integrand *)
Definition xform_integrand (tgamma : R -> R) (source_dim target_dim L : Z) (b_ratio : R) (num_steps : nat) (source_n target_n : nat) : outcome (list fl) :=
  let source_b := 1 / sqrt b_ratio in
  let target_b := sqrt b_ratio in
  let z_grid := uniform_mesh (num_steps + 1) in
  let r_grid := map (transformed true 1) z_grid in
  let jacobian_grid := map (jacobian true 1) z_grid in
  s <- get (nth_error (wave_functions tgamma true (source_dim - 1) L source_b r_grid 0) source_n) ;;
  t <- get (nth_error (wave_functions tgamma true (target_dim - 1) L target_b r_grid 0) target_n) ;;
  fix_endpoints (zip2 fmul (zip2 fmul s t) jacobian_grid).
