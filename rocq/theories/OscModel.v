(** Model of libraries/analytic/radial_oscillator_me.h and of the radial matrices and the r^2 / k^2 operators of
    libraries/relative/relative_me.cpp.

    Simplifications: int is Z (quantum numbers are far below 2^30, so no difference or sum overflows); double
    arithmetic is real arithmetic, except that std::sqrt of a negative argument gives NaN, which is kept as a
    separate value and absorbs every operation. *)
From Coq Require Import List ZArith Reals Bool.
From Verif Require Import Base RMat.
Import ListNotations.
Open Scope R_scope.

(** a double: a real number or not-a-number *)
Inductive num : Type := NaN | Num (x : R).
Definition num_map2 (f : R -> R -> R) (a b : num) : num :=
  match a, b with Num x, Num y => Num (f x y) | _, _ => NaN end.
Definition nadd := num_map2 Rplus.
Definition nscale (c : R) (a : num) : num := match a with Num x => Num (c * x) | NaN => NaN end.
(** std::sqrt of an integer-valued double *)
Definition fsqrt (z : Z) : num := if (z <? 0)%Z then NaN else Num (sqrt (IZR z)).

(** radial_oscillator_me.h:31: constexpr double k_sqrt_2 = 1.414213562373095 (taken as this decimal fraction) *)
Definition k_sqrt_2 : R := 1414213562373095 / 1000000000000000.

(** radial_oscillator_me.h:33-58 CDaggerOscillatorMatrixElement *)
Definition cdagger (bN bl kN kl : Z) : num :=
  if (bN - kN =? 1)%Z then
    if (bl - kl =? 1)%Z then fsqrt (kN + kl + 3)
    else if (bl - kl =? -1)%Z then nscale (-1) (fsqrt (kN - kl + 2))
    else Num 0
  else Num 0.

(** radial_oscillator_me.h:60-85 COscillatorMatrixElement *)
Definition clower (bN bl kN kl : Z) : num :=
  if (bN - kN =? -1)%Z then
    if (bl - kl =? 1)%Z then nscale (-1) (fsqrt (kN - kl))
    else if (bl - kl =? -1)%Z then fsqrt (kN + kl + 1)
    else Num 0
  else Num 0.

(** radial_oscillator_me.h:87-122 CoordinateOscillatorMatrixElement *)
Definition coordinate (bN bl kN kl sign : Z) : outcome num :=
  cassert ((bl - kl =? -1)%Z || (bl - kl =? 1)%Z) ;;;
  Ok (nscale (/ k_sqrt_2) (nadd (nscale (IZR sign) (cdagger bN bl kN kl)) (clower bN bl kN kl))).

(** radial_oscillator_me.h:124-196 CoordinateSqrOscillatorMatrixElement *)
Definition coordinate_sqr (bN bl kN kl sign : Z) : num :=
  let dl := (bl - kl)%Z in
  let dN := (bN - kN)%Z in
  let N := kN in
  let l := kl in
  if (dN =? 2)%Z then
    if (dl =? 2)%Z then nscale (5 / 10) (fsqrt ((N + l + 5) * (N + l + 3)))
    else if (dl =? 0)%Z then nscale (- (5 / 10)) (fsqrt ((N + l + 3) * (N - l + 2)))
    else if (dl =? -2)%Z then nscale (5 / 10) (fsqrt ((N - l + 2) * (N - l + 4)))
    else Num 0
  else if (dN =? 0)%Z then
    if (dl =? 2)%Z then nscale (- IZR sign) (fsqrt ((N - l) * (N + l + 3)))
    else if (dl =? 0)%Z then Num (IZR sign * (IZR N + 15 / 10))
    else if (dl =? -2)%Z then nscale (- IZR sign) (fsqrt ((N - l + 2) * (N + l + 1)))
    else Num 0
  else if (dN =? -2)%Z then
    if (dl =? 2)%Z then nscale (5 / 10) (fsqrt ((N - l - 2) * (N - l)))
    else if (dl =? 0)%Z then nscale (- (5 / 10)) (fsqrt ((N - l) * (N + l + 1)))
    else if (dl =? -2)%Z then nscale (5 / 10) (fsqrt ((N + l + 1) * (N + l - 1)))
    else Num 0
  else Num 0.

(** for (x : l) s = body(x, s) *)
Fixpoint for_each {A S : Type} (l : list A) (body : A -> S -> outcome S) (s : S) : outcome S :=
  match l with [] => Ok s | x :: l' => s' <- body x s ;; for_each l' body s' end.
(** the integers from, from+1, ..., to *)
Definition zrange (from to : Z) : list Z := map (fun i => (from + Z.of_nat i)%Z) (seq 0 (Z.to_nat (to - from + 1))).

(** the loop shared by relative_me.cpp:93-138 and :181-209: for each ket index, the bra indices of a band; the band is
    indeterminate (use of uninitialised variables) for other values of delta_L *)
Definition banded (bra_dim ket_dim : nat) (L dL : Z) (band : Z -> option (Z * Z))
  (el : Z -> Z -> outcome num) : outcome (mat num) :=
  for_each (zrange 0 (Z.of_nat ket_dim - 1)) (fun ket_n m =>
    ' (lo, hi) <- get (band ket_n) ;;
    for_each (zrange (Z.max lo 0) (Z.min hi (Z.of_nat bra_dim - 1))) (fun bra_n m =>
      x <- el bra_n ket_n ;;
      mat_put m (Z.to_nat bra_n) (Z.to_nat ket_n) x) m) (mzero (Num 0) bra_dim ket_dim).

(** relative_me.cpp:26-141 RadialCoordinateSqrMatrix *)
Definition radial_sqr_matrix (bra_dim ket_dim : nat) (L dL sign : Z) : outcome (mat num) :=
  cassert ((dL =? 0)%Z || (sign =? 1)%Z) ;;;
  banded bra_dim ket_dim L dL
    (fun ket_n => if (dL =? -2)%Z then Some (ket_n, ket_n + 2)%Z
                  else if (dL =? 0)%Z then Some (ket_n - 1, ket_n + 1)%Z
                  else if (dL =? 2)%Z then Some (ket_n - 1, ket_n)%Z
                  else None)
    (fun bra_n ket_n => Ok (coordinate_sqr (2 * bra_n + (L + dL)) (L + dL) (2 * ket_n + L) L sign)).

(** relative_me.cpp:143-212 RadialCoordinateMatrix *)
Definition radial_matrix (bra_dim ket_dim : nat) (L dL sign : Z) : outcome (mat num) :=
  cassert ((dL =? -1)%Z || (dL =? 1)%Z) ;;;
  banded bra_dim ket_dim L dL
    (fun ket_n => if (dL =? -1)%Z then Some (ket_n, ket_n + 1)%Z
                  else if (dL =? 1)%Z then Some (ket_n - 1, ket_n)%Z
                  else None)
    (fun bra_n ket_n => coordinate (2 * bra_n + (L + dL)) (L + dL) (2 * ket_n + L) L sign).

(** a subspace of the relative LSJT basis (basis library, not in the repository): states n = 0, ..., (Nmax-L)/2 *)
Record rsub : Type := RSub { r_L : Z; r_S : Z; r_J : Z; r_T : Z; r_g : Z; r_dim : nat }.
(** a sector: bra and ket subspace *)
Definition rsector : Type := (rsub * rsub)%type.

Inductive coordinate_type : Type := KK | KR.

Definition mat_scale (c : R) (m : mat num) : mat num := Mat (rows m) (cols m) (fun i j => nscale c (at_ m i j)).

(** body of the sector loop of relative_me.cpp:250-327; None: the sector is skipped (and its block stays zero).
    am::AllowedTriangle(a,0,b) is a = b for the angular momenta of subspaces. *)
Definition coordinate_sqr_block (ct : coordinate_type) (T0 : Z) (x : rsector) : outcome (mat num) :=
  let (b, k) := x in
  if negb ((r_L b =? r_L k)%Z && (r_S b =? r_S k)%Z && (r_T b =? r_T k)%Z) then Ok (mzero (Num 0) (r_dim b) (r_dim k)) else
  let sign := (match ct with KR => 1 | KK => -1 end)%Z in
  let angular_factor := (if (T0 =? 1)%Z then 1 * (2 * sqrt (IZR (r_T k * (r_T k + 1)))) else 1) in
  let scale := (match ct with KR => 2 | KK => 1 / 2 end) in
  m <- radial_sqr_matrix (r_dim k) (r_dim k) (r_L k) 0 sign ;;
  Ok (mat_scale (angular_factor * scale) m).

(** relative_me.cpp:218-328 ConstructCoordinateSqr: blocks of the T0 component; (J0, g0, T0_min, T0_max) are the operator
    labels *)
Fixpoint blocks_of (f : rsector -> outcome (mat num)) (l : list rsector) : outcome (list (mat num)) :=
  match l with [] => Ok [] | x :: l' => m <- f x ;; r <- blocks_of f l' ;; Ok (m :: r) end.
Definition construct_coordinate_sqr (J0 g0 T0_min T0_max : Z) (sectors : list rsector) (ct : coordinate_type) (T0 : Z)
  : outcome (list (mat num)) :=
  cassert (J0 =? 0)%Z ;;; cassert (g0 =? 0)%Z ;;; cassert ((T0 =? 0)%Z || (T0 =? 1)%Z) ;;;
  cassert ((T0_min <=? T0)%Z && (T0 <=? T0_max)%Z) ;;;
  blocks_of (coordinate_sqr_block ct T0) sectors.
