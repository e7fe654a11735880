(** Model of libraries/obme/radial.cpp: radial operators and overlaps, composition, similarity transformation of one-body
    operators stored by sectors.

    Simplifications: double is R (and [num] where sqrt can fail); the splines (spline::RadialMatrixElement, not in the
    repository) are an abstract function; the parallel loops over the elements of a block are run in order (every
    iteration writes its own element). *)
From Coq Require Import List ZArith Reals Bool.
From Verif Require Import Base RMat H2Model MapModel OscModel.
Import ListNotations.
Open Scope R_scope.

(** labels of a subspace of OrbitalSpaceLJPN: species, l, 2j *)
Record llabel : Type := LL { ll_sp : ospecies; ll_l : Z; ll_2j : Z }.
Definition llabel_eqb (a b : llabel) : bool :=
  osp_eqb (ll_sp a) (ll_sp b) && (ll_l a =? ll_l b)%Z && (ll_2j a =? ll_2j b)%Z.
(** OrbitalSpaceLJPN: subspaces with the radial quantum numbers n of their states *)
Definition lspace : Type := list (llabel * list Z).
Definition sub_dim (s : lspace) (i : nat) : nat := match nth_error s i with Some (_, ns) => length ns | None => 0 end.
(** OrbitalSectorsLJPN: (bra subspace index, ket subspace index); J0, g0, Tz0 kept where they are used *)
Definition lsectors : Type := list (nat * nat).
Definition blocks (D : Type) : Type := list (mat D).

(** BaseSectors::LookUpSectorIndex / ContainsSector; None is basis::kNone *)
Fixpoint find_ix {A} (p : A -> bool) (l : list A) : option nat :=
  match l with [] => None | x :: l' => if p x then Some O else option_map S (find_ix p l') end.
Definition sector_eqb (x y : nat * nat) : bool := Nat.eqb (fst x) (fst y) && Nat.eqb (snd x) (snd y).
Definition look_up_sector (s : lsectors) (b k : nat) : option nat := find_ix (sector_eqb (b, k)) s.
(** BaseSpace::LookUpSubspaceIndex *)
Definition look_up_subspace (s : lspace) (l : llabel) : option nat := find_ix (fun x => llabel_eqb (fst x) l) s.

(** basis::SetOperatorToZero *)
Definition zero_blocks {D} (z : D) (bra ket : lspace) (s : lsectors) : blocks D :=
  map (fun x => mzero z (sub_dim bra (fst x)) (sub_dim ket (snd x))) s.

(** Eigen += : the dimensions are asserted to agree *)
Definition madd_to (a b : mat R) : outcome (mat R) :=
  cassert (Nat.eqb (rows a) (rows b) && Nat.eqb (cols a) (cols b)) ;;;
  Ok (Mat (rows a) (cols a) (fun i j => at_ a i j + at_ b i j)).

Definition lspace_eqb (a b : lspace) : bool :=
  if list_eq_dec (fun x y : llabel * list Z => ltac:(repeat decide equality)) a b then true else false.

(** radial.cpp:180-236 ComposeRadialOperators; the equality of the orbital lists of the inner spaces is modelled as
    equality of the spaces *)
Definition compose_block (inner : lspace) (sa : lsectors) (ma : blocks R) (sb : lsectors) (mb : blocks R)
  (x : nat * nat) (m0 : mat R) : outcome (mat R) :=
  for_each (seq 0 (length inner)) (fun q m =>
    match look_up_sector sa (fst x) q, look_up_sector sb q (snd x) with
    | Some ia, Some ib =>
        a <- get (nth_error ma ia) ;; b <- get (nth_error mb ib) ;;
        p <- mmul a b ;; madd_to m p
    | _, _ => Ok m
    end) m0.
Fixpoint map_blocks {A B} (f : A -> outcome B) (l : list A) : outcome (list B) :=
  match l with [] => Ok [] | x :: l' => m <- f x ;; r <- map_blocks f l' ;; Ok (m :: r) end.
Definition compose (bra inner inner' ket : lspace) (sa : lsectors) (ma : blocks R) (sb : lsectors) (mb : blocks R)
  (s : lsectors) : outcome (blocks R) :=
  cassert (lspace_eqb inner inner') ;;;
  map_blocks (fun x => compose_block inner sa ma sb mb x (mzero 0 (sub_dim bra (fst x)) (sub_dim ket (snd x)))) s.

(** radial.cpp:238-295 SimilarityTransformOperator; (J0, g0, Tz0) are those of the transformation sectors *)
Definition similarity_block (source target : lspace) (sx : lsectors) (mx : blocks R) (so : lsectors) (mo : blocks R)
  (x : nat * nat) : outcome (mat R) :=
  let z := mzero 0 (sub_dim target (fst x)) (sub_dim target (snd x)) in
  lb <- get (nth_error target (fst x)) ;; lk <- get (nth_error target (snd x)) ;;
  match look_up_subspace source (fst lb) with
  | None => Ok z
  | Some b =>
    match look_up_subspace source (fst lk) with
    | None => Ok z
    | Some k =>
      match look_up_sector so b k with
      | None => AssertFail
      | Some io =>
        match look_up_sector sx b (fst x) with
        | None => AssertFail
        | Some il =>
          match look_up_sector sx k (snd x) with
          | None => AssertFail
          | Some ir =>
            ul <- get (nth_error mx il) ;; o <- get (nth_error mo io) ;; ur <- get (nth_error mx ir) ;;
            p <- mmul (transpose ul) o ;; mmul p ur
          end
        end
      end
    end
  end.
Definition similarity (J0 g0 Tz0 : Z) (source target : lspace) (sx : lsectors) (mx : blocks R) (so : lsectors) (mo : blocks R)
  (s : lsectors) : outcome (blocks R) :=
  cassert (J0 =? 0)%Z ;;; cassert (g0 =? 0)%Z ;;; cassert (Tz0 =? 0)%Z ;;;
  map_blocks (similarity_block source target sx mx so mo) s.

Inductive radial_basis : Type := BOscillator | BLaguerre.
(** spline::RadialMatrixElement(bra_n, bra_l, bra basis, ket_n, ket_l, scale, ket basis, operator is k, order) *)
Definition spline_me : Type := Z -> Z -> radial_basis -> Z -> Z -> R -> radial_basis -> bool -> Z -> num.
Definition radial_basis_eqb (a b : radial_basis) : bool :=
  match a, b with BOscillator, BOscillator | BLaguerre, BLaguerre => true | _, _ => false end.

(** radial.cpp:59-104: one element of a radial operator *)
Definition radial_element (spline : spline_me) (bt : radial_basis) (is_k : bool) (order J0 g0 : Z) (bn bl kn kl : Z) : outcome num :=
  if (order =? 0)%Z then Ok (if (bn =? kn)%Z && (bl =? kl)%Z then Num 1 else Num 0)
  else match bt with
  | BOscillator =>
      let bN := (2 * bn + bl)%Z in
      let kN := (2 * kn + kl)%Z in
      let sign := (if is_k then -1 else 1)%Z in
      if (order =? 1)%Z && (J0 =? 1)%Z && (g0 =? 1)%Z then coordinate bN bl kN kl sign
      else if (order =? 2)%Z && ((J0 =? 0)%Z || (J0 =? 2)%Z) && (g0 =? 0)%Z then Ok (coordinate_sqr bN bl kN kl sign)
      else Ok (spline bn bl BOscillator kn kl 1 BOscillator is_k order)
  | BLaguerre => Ok (spline bn bl BLaguerre kn kl 1 BLaguerre is_k order)
  end.
(** radial.cpp:130-172: one overlap; the comparison scale_factor == 1. is [scale_is_1] *)
Definition overlap_element (spline : spline_me) (bb kb : radial_basis) (scale : R) (scale_is_1 : bool) (bn bl kn kl : Z) : num :=
  if scale_is_1 && radial_basis_eqb bb kb then (if (bn =? kn)%Z && (bl =? kl)%Z then Num 1 else Num 0)
  else spline bn bl bb kn kl scale kb false 0%Z.

(** radial.cpp:45-107 (and :143-176): the block of a sector *)
Definition element_block (bra ket : lspace) (el : Z -> Z -> Z -> Z -> outcome num) (x : nat * nat) : outcome (mat num) :=
  b <- get (nth_error bra (fst x)) ;; k <- get (nth_error ket (snd x)) ;;
  fill (Num 0) (length (snd b)) (length (snd k)) (fun i j =>
    bn <- get (nth_error (snd b) i) ;; kn <- get (nth_error (snd k) j) ;;
    el bn (ll_l (fst b)) kn (ll_l (fst k))).
(** radial.cpp:19-109 GenerateRadialOperator *)
Definition radial_operator (spline : spline_me) (bt : radial_basis) (is_k : bool) (order J0 g0 : Z) (space : lspace) (s : lsectors)
  : outcome (blocks num) :=
  map_blocks (element_block space space (radial_element spline bt is_k order J0 g0)) s.
(** radial.cpp:111-178 GenerateRadialOverlaps *)
Definition radial_overlaps (spline : spline_me) (J0 g0 Tz0 : Z) (bb kb : radial_basis) (scale : R) (scale_is_1 : bool)
  (bra ket : lspace) (s : lsectors) : outcome (blocks num) :=
  cassert (J0 =? 0)%Z ;;; cassert (g0 =? 0)%Z ;;; cassert (Tz0 =? 0)%Z ;;;
  map_blocks (element_block bra ket (fun bn bl kn kl => Ok (overlap_element spline bb kb scale scale_is_1 bn bl kn kl))) s.
