(** libraries/relative/relative_me.cpp:330-920: dipole, quadrupole, angular momentum, isospin and SU(4) Casimir operators in the relative LSJT
    basis, and the choice of the operator in programs/relutils/relative-gen.cpp.

    Simplifications: as in OscModel.v (double is R or not-a-number, int has unlimited size).  The coefficients of module am (not in the
    repository) are parameters; those which take HalfInt arguments take twice the angular momenta.  A relative space is the list of its
    subspaces.  basis::ConstructZeroOperatorRelativeLSJT makes the sectors of the upper triangle allowed by J0, T0 and g0, with zero blocks,
    for T0_min..T0_max. *)
From Coq Require Import List ZArith Reals Bool String.
From Verif Require Import Base RMat OscModel BlockModel MoshModel JpvModel IsoModel TrfModel.
Import ListNotations.
Open Scope Z_scope.
Open Scope outcome_scope.

Definition ncomponents : Type := list (lsectors * blocks num).
Definition zero_block (b k : rsub) : mat num := mzero (Num 0) (r_dim b) (r_dim k).
(** basis::ConstructZeroOperatorRelativeLSJT; std::array of three components *)
Definition zero_component (o : oplab) (sp : rspace) (T0 : Z) : outcome (lsectors * blocks num) :=
  if (o_T0_min o <=? T0) && (T0 <=? o_T0_max o) then
    let s := jt_sectors r_J r_T r_g sp (o_J0 o) T0 (o_g0 o) in
    ms <- map_blocks (fun x => b <- get (nth_error sp (fst x)) ;; k <- get (nth_error sp (snd x)) ;; Ok (zero_block b k)) s ;;
    Ok (s, ms)
  else Ok ([], []).
Definition zero_operator (o : oplab) (sp : rspace) : outcome ncomponents :=
  if ((o_T0_min o <? 0) || (2 <? o_T0_max o)) && (o_T0_min o <=? o_T0_max o) then UB else map_blocks (zero_component o sp) [0; 1; 2].
(** the loop over the sectors of component T0; [f] gives the block of a sector *)
Definition with_component (o : oplab) (sp : rspace) (T0 : Z) (f : rsub -> rsub -> outcome (mat num)) : outcome ncomponents :=
  z <- zero_operator o sp ;;
  ' (s, _) <- at_z z T0 ;;
  ms <- map_blocks (fun x => b <- get (nth_error sp (fst x)) ;; k <- get (nth_error sp (snd x)) ;; f b k) s ;;
  store z (Z.to_nat T0) (s, ms).
(** blocks proportional to the identity, e.g. :650-661 *)
Definition identity_block (factor : R) (b k : rsub) : outcome (mat num) :=
  cassert (Nat.eqb (r_dim b) (r_dim k)) ;;;
  for_each (seq 0 (r_dim k)) (fun n m => mat_put m n n (Num factor)) (zero_block b k).
Definition in_labels (o : oplab) (T0 : Z) : bool := (o_T0_min o <=? T0) && (T0 <=? o_T0_max o).

Section Operators.
(** am::RacahReductionFactor1Rose, am::RacahReductionFactor2Rose (J1',J2',J',J1,J2,J,J0), of twice the angular momenta *)
Variable racah1 racah2 : Z -> Z -> Z -> Z -> Z -> Z -> Z -> R.
(** am::Wigner3J(j1,j2,j3,m1,m2,m3), am::Wigner6J *)
Variable w3j w6j : Z -> Z -> Z -> Z -> Z -> Z -> R.
(** am::AngularMomentumJRME(J',J) *)
Variable jrme : Z -> Z -> R.
Definition orbital1 (b k : rsub) : R := racah1 (2 * r_L b) (2 * r_S b) (2 * r_J b) (2 * r_L k) (2 * r_S k) (2 * r_J k) 2.
Definition spin2 (b k : rsub) : R := racah2 (2 * r_L b) (2 * r_S b) (2 * r_J b) (2 * r_L k) (2 * r_S k) (2 * r_J k) 2.
(** factors for a pair of spins or isospins 1/2 *)
Definition pair1 (b k : Z) : R := racah1 1 1 (2 * b) 1 1 (2 * k) 2.
Definition pair2 (b k : Z) : R := racah2 1 1 (2 * b) 1 1 (2 * k) 2.

(** relative_me.cpp:330-434 ConstructDipoleOperator; RadialCoordinateMatrix has its default operator_sign +1 *)
Definition dipole_block (ct : coordinate_type) (b k : rsub) : outcome (mat num) :=
  if negb (allowed_triangle (r_L b) 1 (r_L k) && allowed_triangle (r_S b) 0 (r_S k) && allowed_triangle (r_T b) 1 (r_T k)) then Ok (zero_block b k) else
  let f0 := (sqrt 3 * orbital1 b k * (pair1 (r_T b) (r_T k) - pair2 (r_T b) (r_T k)))%R in
  let L := r_L k in
  let dL := r_L b - r_L k in
  let f := (if dL =? -1 then f0 * sqrt (IZR L / (2 * IZR L + 1)) else if dL =? 1 then f0 * sqrt (IZR (L + 1) / (2 * IZR L + 3)) else f0)%R in
  let scale := match ct with KR => sqrt 2 | KK => sqrt (1 / 2) end in
  m <- radial_matrix (r_dim b) (r_dim k) L dL 1 ;;
  Ok (mat_scale (f * scale) m).
Definition dipole (o : oplab) (sp : rspace) (ct : coordinate_type) (T0 : Z) : outcome ncomponents :=
  cassert (o_J0 o =? 1) ;;; cassert (o_g0 o =? 1) ;;; cassert (T0 =? 1) ;;; cassert (in_labels o T0) ;;;
  with_component o sp T0 (dipole_block ct).

(** relative_me.cpp:436-555 ConstructQuadrupoleOperator *)
Definition hatj (j : Z) : R := sqrt (IZR (2 * j + 1)).
Definition quadrupole_block (T0 : Z) (b k : rsub) : outcome (mat num) :=
  if negb (allowed_triangle (r_L b) 2 (r_L k) && allowed_triangle (r_S b) 0 (r_S k) && (r_T b =? r_T k)) then Ok (zero_block b k) else
  let f0 := (sqrt (5 / (16 * PI)) * parity_sign (r_L b + r_L k + r_S k + r_J k) * hatj (r_J b) * hatj (r_J k) * hatj (r_L b) * hatj (r_L k)
             * w3j (r_L k) 2 (r_L b) 0 0 0 * w6j (r_L b) (r_J b) (r_S k) (r_J k) (r_L k) 2 / hatj (r_J b))%R in
  let f := (if T0 =? 1 then f0 * (2 * sqrt (IZR (r_T k * (r_T k + 1)))) else f0)%R in
  m <- radial_sqr_matrix (r_dim b) (r_dim k) (r_L k) (r_L b - r_L k) 1 ;;
  Ok (mat_scale (f * 2) m).
Definition quadrupole (o : oplab) (sp : rspace) (ct : coordinate_type) (T0 : Z) : outcome ncomponents :=
  cassert (o_J0 o =? 2) ;;; cassert (o_g0 o =? 0) ;;; cassert ((T0 =? 0) || (T0 =? 1)) ;;; cassert (in_labels o T0) ;;;
  cassert (match ct with KR => true | KK => false end) ;;;
  with_component o sp T0 (quadrupole_block T0).

(** relative_me.cpp:557-664 ConstructOrbitalAMOperator *)
Definition orbital_am_block (T0 : Z) (b k : rsub) : outcome (mat num) :=
  if negb (allowed_triangle (r_S b) 0 (r_S k) && (r_L b =? r_L k) && (r_T b =? r_T k)) then Ok (zero_block b k) else
  let f0 := (orbital1 b k * sqrt (IZR (r_L k * (r_L k + 1))))%R in
  identity_block (if T0 =? 1 then f0 * (2 * sqrt (IZR (r_T k * (r_T k + 1)))) else f0)%R b k.
Definition orbital_am (o : oplab) (sp : rspace) (T0 : Z) : outcome ncomponents :=
  cassert (o_J0 o =? 1) ;;; cassert (o_g0 o =? 0) ;;; cassert ((T0 =? 0) || (T0 =? 1)) ;;; cassert (in_labels o T0) ;;;
  with_component o sp T0 (orbital_am_block T0).

(** relative_me.cpp:670-780 ConstructSpinAMOperator *)
Definition spin_am_block (T0 : Z) (b k : rsub) : outcome (mat num) :=
  if negb (allowed_triangle (r_L b) 0 (r_L k) && allowed_triangle (r_S b) 1 (r_S k) && allowed_triangle (r_T b) T0 (r_T k))
     || ((T0 =? 0) && negb (r_S b =? r_S k)) then Ok (zero_block b k) else
  identity_block (if T0 =? 0 then spin2 b k * sqrt (IZR (r_S k * (r_S k + 1)))
                  else 3 / 2 * spin2 b k * (pair1 (r_S b) (r_S k) * pair1 (r_T b) (r_T k) + pair2 (r_S b) (r_S k) * pair2 (r_T b) (r_T k)))%R b k.
Definition spin_am (o : oplab) (sp : rspace) (T0 : Z) : outcome ncomponents :=
  cassert (o_J0 o =? 1) ;;; cassert (o_g0 o =? 0) ;;; cassert ((T0 =? 0) || (T0 =? 1)) ;;; cassert (in_labels o T0) ;;;
  with_component o sp T0 (spin_am_block T0).

(** relative_me.cpp:786-877 ConstructIsospinOperator *)
Definition isospin_block (b k : rsub) : outcome (mat num) :=
  if negb (allowed_triangle (r_L b) 0 (r_L k) && allowed_triangle (r_S b) 0 (r_S k) && allowed_triangle (r_T b) 1 (r_T k)) then Ok (zero_block b k) else
  identity_block (jrme (r_T b) (r_T k)) b k.
Definition isospin_op (o : oplab) (sp : rspace) : outcome ncomponents :=
  cassert (o_J0 o =? 0) ;;; cassert (o_g0 o =? 0) ;;; cassert (in_labels o 1) ;;; with_component o sp 1 isospin_block.

(** relative_me.cpp:883-966 ConstructSU4CasimirOperator *)
Definition su4_block (b k : rsub) : outcome (mat num) :=
  if negb (allowed_triangle (r_L b) 0 (r_L k) && allowed_triangle (r_S b) 0 (r_S k) && allowed_triangle (r_T b) 0 (r_T k)) then Ok (zero_block b k) else
  let S2 := r_S k * (r_S k + 1) in
  let T2 := r_T k * (r_T k + 1) in
  identity_block (IZR (2 * S2 * T2 - 2 * S2 - 2 * T2 + 9)) b k.
Definition su4_casimir (o : oplab) (sp : rspace) : outcome ncomponents :=
  cassert (o_J0 o =? 0) ;;; cassert (o_g0 o =? 0) ;;; cassert ((o_T0_min o =? 0) && (0 <=? o_T0_max o)) ;;; with_component o sp 0 su4_block.

(** relative-gen.cpp:436-524, "symmunit".  LookUpSubspaceIndex, LookUpStateIndex or LookUpSectorIndex of something that is not there give
    kNone; a subspace or sector with that index is undefined, a state index kNone fails Eigen's range assertion *)
Record unit_labels := UL { u_T0 : Z; u_Np : Z; u_Lp : Z; u_Sp : Z; u_Jp : Z; u_Tp : Z; u_N : Z; u_L : Z; u_S : Z; u_J : Z; u_T : Z }.
Definition symmunit (o : oplab) (sp : rspace) (u : unit_labels) : outcome ncomponents :=
  z <- zero_operator o sp ;;
  ib <- get (find_sub sp (u_Lp u) (u_Sp u) (u_Jp u) (u_Tp u) (Z.rem (u_Lp u) 2)) ;; b <- get (nth_error sp ib) ;;
  ik <- get (find_sub sp (u_L u) (u_S u) (u_J u) (u_T u) (Z.rem (u_L u) 2)) ;; k <- get (nth_error sp ik) ;;
  ' (s, ms) <- at_z z (u_T0 u) ;;
  q <- get (look_up_sector s ib ik) ;;
  let nb := rel_state b (u_Np u) in
  let nk := rel_state k (u_N u) in
  cassert (negb (Nat.eqb ib ik) || match nb, nk with Some i, Some j => Nat.leb i j | None, Some _ => false | _, None => true end) ;;;
  m <- get (nth_error ms q) ;;
  match nb, nk with
  | Some i, Some j => cassert (Nat.ltb i (rows m) && Nat.ltb j (cols m)) ;;; m' <- mat_put m i j (Num 1) ;;
                      ms' <- store ms q m' ;; store z (Z.to_nat (u_T0 u)) (s, ms')
  | _, _ => AssertFail
  end.

(** relative-gen.cpp:140-280 and 330-560: the operator by its name, with the parameters read for it; operators of other files (identity,
    coulomb, interaction, LENPIC) are given by [other] *)
Inductive request : Type :=
| RqZero | RqSqr (ct : coordinate_type) (T0 : Z) | RqDipole (ct : coordinate_type) (T0 : Z) | RqQuadrupole (ct : coordinate_type) (T0 : Z)
| RqOrbital (T0 : Z) | RqSpin (T0 : Z) | RqIsospin | RqSU4 | RqUnit (u : unit_labels) | RqOther (name : string).
Inductive word : Type := WInt (z : Z) | WStr (s : string).
(** extraction of an int; ParsingCheck ends the program on failure *)
Definition next_int (l : list word) : outcome (Z * list word) := match l with WInt z :: l' => Ok (z, l') | _ => Exit end.
Definition next_str (l : list word) : outcome (string * list word) := match l with WStr s :: l' => Ok (s, l') | _ => Exit end.
Definition coordinate_of (s : string) : outcome coordinate_type :=
  if String.eqb s "r" then Ok KR else if String.eqb s "k" then Ok KK else Exit.
Open Scope string_scope.
Definition others : list string := ["identity"; "coulomb"; "interaction"; "LENPIC-LOGT"; "LENPIC-N2LOGT"].
Definition read_request (name : string) (l : list word) : outcome request :=
  if String.eqb name "orbital-am" || String.eqb name "spin-am" then
    ' (T0, _) <- next_int l ;; Ok (if String.eqb name "orbital-am" then RqOrbital T0 else RqSpin T0)
  else if String.eqb name "coordinate-sqr" || String.eqb name "dipole" || String.eqb name "quadrupole" then
    ' (s, l1) <- next_str l ;; ' (T0, _) <- next_int l1 ;; ct <- coordinate_of s ;;
    Ok (if String.eqb name "coordinate-sqr" then RqSqr ct T0 else if String.eqb name "dipole" then RqDipole ct T0 else RqQuadrupole ct T0)
  else if String.eqb name "symmunit" then
    ' (T0, l) <- next_int l ;; ' (Np, l) <- next_int l ;; ' (Lp, l) <- next_int l ;; ' (Sp, l) <- next_int l ;; ' (Jp, l) <- next_int l ;;
    ' (Tp, l) <- next_int l ;; ' (N, l) <- next_int l ;; ' (L, l) <- next_int l ;; ' (S_, l) <- next_int l ;; ' (J, l) <- next_int l ;;
    ' (T, l) <- next_int l ;; Ok (RqUnit (UL T0 Np Lp Sp Jp Tp N L S_ J T))
  else if String.eqb name "zero" then Ok RqZero
  else if String.eqb name "rsqr" then Ok (RqSqr KR 0)
  else if String.eqb name "ksqr" then Ok (RqSqr KK 0)
  else if String.eqb name "isospin" then Ok RqIsospin
  else if String.eqb name "su4casimir" then Ok RqSU4
  else if existsb (String.eqb name) others then Ok (RqOther name)
  else Exit.
Close Scope string_scope.
(** relative_me.cpp:218-328 within the whole operator *)
Definition coordinate_sqr_op (o : oplab) (sp : rspace) (ct : coordinate_type) (T0 : Z) : outcome ncomponents :=
  cassert (o_J0 o =? 0) ;;; cassert (o_g0 o =? 0) ;;; cassert ((T0 =? 0) || (T0 =? 1)) ;;; cassert (in_labels o T0) ;;;
  with_component o sp T0 (fun b k => coordinate_sqr_block ct T0 (b, k)).
Definition populate (other : string -> outcome ncomponents) (o : oplab) (sp : rspace) (q : request) : outcome ncomponents :=
  match q with
  | RqZero => zero_operator o sp
  | RqSqr ct T0 => coordinate_sqr_op o sp ct T0
  | RqDipole ct T0 => dipole o sp ct T0
  | RqQuadrupole ct T0 => quadrupole o sp ct T0
  | RqOrbital T0 => orbital_am o sp T0
  | RqSpin T0 => spin_am o sp T0
  | RqIsospin => isospin_op o sp
  | RqSU4 => su4_casimir o sp
  | RqUnit u => symmunit o sp u
  | RqOther name => other name
  end.
End Operators.
