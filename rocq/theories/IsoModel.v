(** libraries/moshinsky/moshinsky_xform.cpp:791-1118, TwoBodyMatrixJJJPN: branching of a jjJT operator to the jjJpn scheme.

    Real numbers stand for double, unlimited integers for int.  HalfInt j is kept as 2j.  The basis library is taken as:
    a jjJpn subspace is its labels and list of states, a state two orbitals of which index within their species, N and j are used;
    a jjJT subspace is its labels and list of state labels (N1,j1,N2,j2); CanonicalizeIndicesJT exchanges bra and ket if the bra
    subspace comes after the ket subspace, with a factor [f] which depends on the subspaces (and the operator), and, within a
    diagonal sector, the state indices if the bra state comes after the ket state. *)
From Coq Require Import List ZArith Reals Bool.
From Verif Require Import Base RMat OscModel BlockModel ObioModel MoshModel JpvModel.
Import ListNotations.
Open Scope Z_scope.
Open Scope outcome_scope.

Definition orb : Type := Z * Z. (* N, 2j *)
Record pstate := PS { p_i1 : nat; p_o1 : orb; p_i2 : nat; p_o2 : orb }.
Record psub := PSub { q_J : Z; q_Tz : Z; q_g : Z; q_states : list pstate }.
Record tsub := TSub { t_J : Z; t_T : Z; t_g : Z; t_states : list (orb * orb) }.
Definition tspace : Type := list tsub.
Definition orb_eqb (a b : orb) : bool := (fst a =? fst b) && (snd a =? snd b).
Definition pair_eqb (a b : orb * orb) : bool := orb_eqb (fst a) (fst b) && orb_eqb (snd a) (snd b).
Definition find_tsub (sp : tspace) (J T g : Z) : option nat := find_ix (fun x => (t_J x =? J) && (t_T x =? T) && (t_g x =? g)) sp.

(** moshinsky_xform.cpp:812-842 *)
Definition coeff_T0 : R := 1.
Definition coeff_T10 : list R := [1; 1]%R.
Definition coeff_T01 : list R := [- sqrt (1 / 3); sqrt (1 / 3)]%R.
Definition coeff_T11 : list (list (list R)) :=
  [ [ [1; - sqrt (1 / 2); sqrt (1 / 10)]; [1; 0; - sqrt (2 / 5)]; [1; sqrt (1 / 2); sqrt (1 / 10)] ];
    [ [0; - sqrt (1 / 2); sqrt (3 / 10)]; [0; - sqrt (1 / 2); - sqrt (3 / 10)]; [0; 0; 0] ];
    [ [0; 0; sqrt (3 / 5)]; [0; 0; 0]; [0; 0; 0] ] ]%R.
(** table[i]; a negative or too large index is undefined *)
Definition at_z {A} (l : list A) (i : Z) : outcome A := if i <? 0 then UB else get (nth_error l (Z.to_nat i)).
(** :959-967; the coefficient stays uninitialized for other isospins, which the loops do not reach *)
Definition isospin_coefficient (Tb Tk Tz0 Tzk T0 : Z) : outcome R :=
  if (Tb =? 1) && (Tk =? 1) then a <- at_z coeff_T11 Tz0 ;; b <- at_z a (Tzk + 1) ;; at_z b T0
  else if (Tb =? 0) && (Tk =? 1) then at_z coeff_T01 Tz0
  else if (Tb =? 1) && (Tk =? 0) then at_z coeff_T10 Tz0
  else if (Tb =? 0) && (Tk =? 0) then Ok coeff_T0
  else UB.
Definition parity_sign (n : Z) : R := if Z.even n then 1%R else (-1)%R.
(** :1022-1043: phase and jjJT labels of a state *)
Definition ordered (J T : Z) (s : pstate) : R * (orb * orb) :=
  if Nat.leb (p_i1 s) (p_i2 s) then (1%R, (p_o1 s, p_o2 s))
  else (parity_sign (Z.quot (snd (p_o1 s) + snd (p_o2 s)) 2 + J + T), (p_o2 s, p_o1 s)).
(** :1006-1010 *)
Definition expansion_factor (Tzb Tzk : Z) : R :=
  if negb (Bool.eqb (Tzb =? 0) (Tzk =? 0)) then sqrt (1 / 2) else if (Tzb =? 0) && (Tzk =? 0) then (1 / 2)%R else 1%R.
(** basis::CanonicalizeIndicesJT *)
Definition canonicalize (f : R) (sb sk i j : nat) : nat * nat * R :=
  if Nat.ltb sk sb then (j, i, f) else if Nat.eqb sb sk && Nat.ltb j i then (j, i, 1%R) else (i, j, 1%R).
Definition mat_at (m : mat R) (i j : nat) : outcome R := cassert (Nat.ltb i (rows m) && Nat.ltb j (cols m)) ;;; Ok (at_ m i j).
(** :970-1112, one target element from one source sector; an index kNone fails Eigen's range assertion *)
Definition branch_element (f : R) (bra ket : psub) (diagonal : bool) (Tb Tk : Z) (coefficient : R) (sb sk : nat) (tb tk : tsub) (source : mat R) (i j : nat) (m : mat R)
  : outcome (mat R) :=
  if diagonal && negb (Nat.leb i j) then Ok m else
  b <- get (nth_error (q_states bra) i) ;; k <- get (nth_error (q_states ket) j) ;;
  if Nat.eqb (p_i1 b) (p_i2 b) && negb (Z.rem (q_J bra + Tb) 2 =? 1) then Ok m else
  if Nat.eqb (p_i1 k) (p_i2 k) && negb (Z.rem (q_J ket + Tk) 2 =? 1) then Ok m else
  let '(fb, lb) := ordered (q_J bra) Tb b in
  let '(fk, lk) := ordered (q_J ket) Tk k in
  match find_ix (pair_eqb lb) (t_states tb), find_ix (pair_eqb lk) (t_states tk) with
  | Some ib, Some ik =>
    let '(ib', ik', fc) := canonicalize f sb sk ib ik in
    x <- mat_at source ib' ik' ;;
    mat_put m i j (at_ m i j + expansion_factor (q_Tz bra) (q_Tz ket) * coefficient * (fb * fk * fc * x))%R
  | _, _ => AssertFail
  end.
(** :873-1114, one source sector *)
Definition branch_sector (f : nat -> nat -> R) (sp : tspace) (c : components) (bra ket : psub) (diagonal : bool) (T0 Tb Tk : Z) (m : mat R) : outcome (mat R) :=
  if negb (allowed_triangle Tb T0 Tk) then Ok m else
  match find_tsub sp (q_J bra) Tb (q_g bra), find_tsub sp (q_J ket) Tk (q_g ket) with
  | Some sb, Some sk =>
    tb <- get (nth_error sp sb) ;; tk <- get (nth_error sp sk) ;;
    ' (sectors, ms) <- at_z c T0 ;;
    q <- get (look_up_sector sectors (Nat.min sb sk) (Nat.max sb sk)) ;; source <- get (nth_error ms q) ;;
    coefficient <- isospin_coefficient Tb Tk (q_Tz bra - q_Tz ket) (q_Tz ket) T0 ;;
    loop2 (pairs (length (q_states bra)) (length (q_states ket)))
      (branch_element (f sb sk) bra ket diagonal Tb Tk coefficient sb sk tb tk source) m
  | _, _ => Ok m
  end.
(** [f T0] are the factors of CanonicalizeIndicesJT for component T0 *)
Definition branch (f : Z -> nat -> nat -> R) (T0_min T0_max : Z) (sp : tspace) (c : components) (bra ket : psub) (diagonal : bool) : outcome (mat R) :=
  let Tz0 := q_Tz bra - q_Tz ket in
  cassert (0 <=? Tz0) ;;;
  for_each (zrange (Z.max T0_min Tz0) T0_max) (fun T0 m =>
    for_each (zrange (Z.abs (q_Tz bra)) 1) (fun Tb m =>
      for_each (zrange (Z.abs (q_Tz ket)) 1) (fun Tk m => branch_sector (f T0) sp c bra ket diagonal T0 Tb Tk m) m) m)
    (mzero 0%R (length (q_states bra)) (length (q_states ket))).

(** * relative_me.cpp:970-1098, ConstructCoulombOperator *)
Inductive optype := OpP | OpN | OpTotal.
Definition single_species_factors (t : optype) : option (list R) :=
  match t with OpP => Some [1 / 3; 1 / sqrt 2; sqrt 10 / 6]%R | OpN => Some [1 / 3; - (1) / sqrt 2; sqrt 10 / 6]%R | OpTotal => None end.
(** :1037-1051; None: the sector is passed over *)
Definition coulomb_factor (t : optype) (T0 T : Z) : outcome (option R) :=
  match single_species_factors t with
  | None => Ok (if T0 =? 0 then Some 1%R else None)
  | Some l => if T =? 1 then x <- at_z l T0 ;; Ok (Some x) else Ok None
  end.
(** one sector: :1017-1090.  [radial n' n L] is the value of spline::RadialMatrixElement for 1/r.  Nmax is a label of the subspace *)
Definition coulomb_sector (radial : Z -> Z -> Z -> R) (t : optype) (Nmax : nat -> Z) (sp : rspace) (T0 : Z) (x : nat * nat) (m : mat R) : outcome (mat R) :=
  if negb (Nat.eqb (fst x) (snd x)) then Ok m else
  k <- get (nth_error sp (snd x)) ;;
  let nmax := Z.quot (Nmax (snd x) - r_L k) 2 in
  cassert (nmax =? Z.of_nat (r_dim k) - 1) ;;;
  o <- coulomb_factor t T0 (r_T k) ;;
  match o with
  | None => Ok m
  | Some factor =>
    loop2 (pairs (Z.to_nat (nmax + 1)) (Z.to_nat (nmax + 1))) (fun i j m =>
      mat_put m i j (factor * (1 / sqrt 2) * radial (Z.of_nat i) (Z.of_nat j) (r_L k))%R) m
  end.
Definition coulomb_component (radial : Z -> Z -> Z -> R) (t : optype) (Nmax : nat -> Z) (sp : rspace) (T0 : Z) (sectors : lsectors) (ms : blocks R) : outcome (blocks R) :=
  for_each (seq 0 (length sectors)) (fun ix ms =>
    x <- get (nth_error sectors ix) ;; m <- get (nth_error ms ix) ;; m' <- coulomb_sector radial t Nmax sp T0 x m ;; store ms ix m') ms.
(** [zero]: the zero operator of ConstructZeroOperatorRelativeLSJT *)
Definition coulomb (radial : Z -> Z -> Z -> R) (t : optype) (Nmax : nat -> Z) (J0 g0 T0_min T0_max : Z) (sp : rspace) (zero : components) : outcome components :=
  cassert (J0 =? 0) ;;; cassert (g0 =? 0) ;;;
  for_each (zrange T0_min T0_max) (fun T0 c =>
    ' (sectors, ms) <- at_z c T0 ;; ms' <- coulomb_component radial t Nmax sp T0 sectors ms ;; store c (Z.to_nat T0) (sectors, ms')) zero.
