(** libraries/obme/obme.cpp (generated one-body operators, tensor products), the operators of programs/obutils/obmixer.cpp
    and the targets of programs/obutils/ew-gen.cpp.

    Simplifications: double is R; an element that is not a number (square root of a negative number) makes the outcome
    undefined; int has unlimited size.  The functions of module am (angular factors of reduced matrix elements, not in the
    repository) and am::kInvSqrt4Pi are abstract.  Files are represented by what is read from them (ObioModel.v) or
    written to them; orbital lists by the spaces made of them (the weights of orbitals are left out). *)
From Coq Require Import String List ZArith Reals Bool.
From Verif Require Import Base RMat H2Model MapModel OscModel BlockModel ObioModel MixModel.
Import ListNotations.
Open Scope R_scope.
Open Scope outcome_scope.

(** 2 Tz of an orbital subspace *)
Definition two_tz (l : llabel) : Z := match ll_sp l with SP => 1 | SN => -1 end.
Definition triangle_2 (a b c : Z) : bool := (Z.abs (a - b) <=? c)%Z && (c <=? a + b)%Z.
(** selection rules of basis::OrbitalSectorsLJPN (module basis) *)
Definition selection (J0 g0 Tz0 : Z) (b k : llabel) : bool :=
  triangle_2 (ll_2j k) (2 * J0) (ll_2j b) && Z.even (ll_l b + g0 + ll_l k) && (two_tz k + 2 * Tz0 =? two_tz b)%Z.
Definition qn : Type := Z * Z * Z.
Definition sectors_of (bra ket : lspace) (q : qn) : lsectors :=
  let '(J0, g0, Tz0) := q in mk_lsectors selection bra ket J0 g0 Tz0.

Inductive radial_type := TR | TK | TOther.                        (* obme_operator.h:31-36; kO and kGeneric *)
Inductive am_type := AOrbital | ASpin | ATotal.                   (* am::AngularMomentumOperatorType *)
Definition is_TK (t : radial_type) : bool := match t with TK => true | _ => false end.

(** matrices[sector_index] *= factor; the factor depends on the sector *)
Definition block_scale (c : R) (m : mat R) : mat R := Mat (rows m) (cols m) (fun i j => at_ m i j * c).
(** a block of a sector, computed from the labels and sizes of its subspaces *)
Definition sector_blocks {D} (sp : lspace) (f : llabel * list Z -> llabel * list Z -> outcome (mat D)) (s : lsectors)
  : outcome (blocks D) :=
  map_blocks (fun x => b <- get (nth_error sp (fst x)) ;; k <- get (nth_error sp (snd x)) ;; f b k) s.
Definition real (x : num) : outcome R := match x with Num r => Ok r | NaN => UB end.
Definition real_mat (m : mat num) : outcome (mat R) := fill 0 (rows m) (cols m) (fun i j => real (at_ m i j)).
(** OperatorBlock::Identity(rows, cols): ones on the diagonal of a rectangular block *)
Definition eye (r c : nat) : mat R := Mat r c (fun i j => if Nat.eqb i j then 1 else 0).
(** the loop over sectors that changes block after block; a missing block is not defined *)
Definition update_blocks (sp : lspace) (f : llabel -> llabel -> outcome R) (s : lsectors) (ms : blocks R) : outcome (blocks R) :=
  for_each (seq 0 (length s)) (fun i ms =>
    x <- get (nth_error s i) ;; b <- get (nth_error sp (fst x)) ;; k <- get (nth_error sp (snd x)) ;;
    m <- get (nth_error ms i) ;; c <- f (fst b) (fst k) ;; store ms i (block_scale c m)) ms.

Section Obme.
Variable spline : spline_me.
(** am::LJCoupledSphericalHarmonicCRME(l', j', l, j, J0) with 2j for j *)
Variable crme : Z -> Z -> Z -> Z -> Z -> R.
(** am::jjJCoupledAngularMomentum{J1,J2,J}RME(l', 1/2, j', l, 1/2, j) *)
Variable am_rme : am_type -> Z -> Z -> Z -> Z -> R.
(** am::RacahReductionFactorRose(j', j, j'', J0_a, J0_b, J0) *)
Variable racah : Z -> Z -> Z -> Z -> Z -> Z -> R.
Variable inv_sqrt_4pi : R.

Definition angular (J0 : Z) (b k : llabel) : R := crme (ll_l b) (ll_2j b) (ll_l k) (ll_2j k) J0.
(** SolidHarmonicOneBodyOperator, obme.cpp:26-47 *)
Definition solid_harmonic (bt : radial_basis) (t : radial_type) (order : Z) (sp : lspace) (q : qn) (s : lsectors) : outcome (blocks R) :=
  let '(J0, g0, _) := q in
  bs <- radial_operator spline bt (is_TK t) order J0 g0 sp s ;;
  ms <- map_blocks real_mat bs ;;
  update_blocks sp (fun b k => Ok (angular J0 b k)) s ms.
(** LadderOneBodyOperator, obme.cpp:49-119 *)
Definition ladder (bt : radial_basis) (raising : bool) (sp : lspace) (q : qn) (s : lsectors) : outcome (blocks R) :=
  let '(J0, _, _) := q in
  cassert (radial_basis_eqb bt BOscillator) ;;;
  sector_blocks sp (fun b k =>
    fill 0 (length (snd b)) (length (snd k)) (fun i j =>
      bn <- get (nth_error (snd b) i) ;; kn <- get (nth_error (snd k) j) ;;
      let bl := ll_l (fst b) in let kl := ll_l (fst k) in
      let bN := (2 * bn + bl)%Z in let kN := (2 * kn + kl)%Z in
      x <- real (if raising then cdagger bN bl kN kl else clower bN bl kN kl) ;;
      Ok (angular J0 (fst b) (fst k) * x))) s.
(** AngularMomentumOneBodyOperator, obme.cpp:121-172 *)
Definition angular_momentum (t : am_type) (sp : lspace) (q : qn) (s : lsectors) : outcome (blocks R) :=
  let '(J0, g0, Tz0) := q in
  cassert (J0 =? 1)%Z ;;; cassert (g0 =? 0)%Z ;;; cassert (Tz0 =? 0)%Z ;;;
  sector_blocks sp (fun b k =>
    Ok (block_scale (am_rme t (ll_l (fst b)) (ll_2j (fst b)) (ll_l (fst k)) (ll_2j (fst k))) (eye (length (snd b)) (length (snd k))))) s.
Definition am_square (t : am_type) (b : llabel) : R :=
  match t with
  | AOrbital => IZR (ll_l b * (ll_l b + 1))
  | ASpin => 3 / 4
  | ATotal => (IZR (ll_2j b) / 2) * (IZR (ll_2j b + 2) / 2)
  end.
(** AngularMomentumSquaredOneBodyOperator, obme.cpp:174-211; basis::SetOperatorToIdentity makes identity blocks *)
Definition angular_momentum_squared (t : am_type) (sp : lspace) (q : qn) (s : lsectors) : outcome (blocks R) :=
  let '(J0, g0, Tz0) := q in
  cassert (J0 =? 0)%Z ;;; cassert (g0 =? 0)%Z ;;; cassert (Tz0 =? 0)%Z ;;;
  map_blocks (fun x =>
    b <- get (nth_error sp (fst x)) ;; k <- get (nth_error sp (snd x)) ;;
    cassert (Nat.eqb (fst x) (snd x)) ;;;
    Ok (block_scale (am_square t (fst b)) (eye (length (snd b)) (length (snd k))))) s.
(** IsospinOneBodyOperator, obme.cpp:213-241 *)
Definition isospin (sp : lspace) (q : qn) (s : lsectors) : outcome (blocks R) :=
  let '(J0, g0, Tz0) := q in
  cassert (J0 =? 0)%Z ;;; cassert (g0 =? 0)%Z ;;;
  sector_blocks sp (fun b k =>
    Ok (block_scale (if (Tz0 =? 0)%Z then IZR (two_tz (fst k)) / 2 else 1) (eye (length (snd b)) (length (snd k))))) s.
(** OneBodyOperatorTensorProduct, obme.cpp:243-302 *)
Definition tensor_block (sp : lspace) (J0a J0b J0 : Z) (sa : lsectors) (ma : blocks R) (sb : lsectors) (mb : blocks R) (x : nat * nat)
  : outcome (mat R) :=
  b <- get (nth_error sp (fst x)) ;; k <- get (nth_error sp (snd x)) ;;
  for_each (seq 0 (length sp)) (fun p m =>
    match look_up_sector sa (fst x) p, look_up_sector sb p (snd x) with
    | Some ia, Some ib =>
        c <- get (nth_error sp p) ;;
        u <- get (nth_error ma ia) ;; v <- get (nth_error mb ib) ;;
        w <- mmul (block_scale (racah (ll_2j (fst b)) (ll_2j (fst k)) (ll_2j (fst c)) J0a J0b J0) u) v ;;
        madd_to m w
    | _, _ => Ok m
    end) (mzero 0 (sub_dim sp (fst x)) (sub_dim sp (snd x))).
Definition tensor_product (sp : lspace) (qa : qn) (sa : lsectors) (ma : blocks R) (qb : qn) (sb : lsectors) (mb : blocks R) (q : qn) (s : lsectors)
  : outcome (blocks R) :=
  let '(J0a, g0a, Tz0a) := qa in let '(J0b, g0b, Tz0b) := qb in let '(J0, g0, Tz0) := q in
  cassert (triangle_2 J0a J0b J0) ;;; cassert (Z.rem (g0a + g0b + g0) 2 =? 0)%Z ;;; cassert (Tz0a + Tz0b =? Tz0)%Z ;;;
  map_blocks (tensor_block sp J0a J0b J0 sa ma sb mb) s.

(** * obmixer.cpp *)
(** operator tables, obmixer.cpp:85-122: type, order, quantum numbers *)
Inductive gen_type := GRadial (t : radial_type) | GAm (t : am_type) | GIso | GLadder (raising : bool).
Local Open Scope string_scope.
Definition kinematic : list (string * (gen_type * Z * qn)) :=
  [("identity", (GRadial TOther, 0, (0, 0, 0)))%Z; ("r", (GRadial TR, 1, (1, 1, 0)))%Z; ("ik", (GRadial TK, 1, (1, 1, 0)))%Z;
   ("r.r", (GRadial TR, 2, (0, 0, 0)))%Z; ("ik.ik", (GRadial TK, 2, (0, 0, 0)))%Z].
Definition angular_momenta : list (string * (gen_type * Z * qn)) :=
  [("l", (GAm AOrbital, 1, (1, 0, 0)))%Z; ("l2", (GAm AOrbital, 2, (0, 0, 0)))%Z; ("s", (GAm ASpin, 1, (1, 0, 0)))%Z;
   ("s2", (GAm ASpin, 2, (0, 0, 0)))%Z; ("j", (GAm ATotal, 1, (1, 0, 0)))%Z; ("j2", (GAm ATotal, 2, (0, 0, 0)))%Z].
Definition isospins : list (string * (gen_type * Z * qn)) :=
  [("tz", (GIso, 1, (0, 0, 0)))%Z; ("t+", (GIso, 1, (0, 0, 1)))%Z; ("t-", (GIso, 1, (0, 0, -1)))%Z].
Definition ladders : list (string * (gen_type * Z * qn)) :=
  [("c+", (GLadder true, 1, (1, 1, 0)))%Z; ("c", (GLadder false, 1, (1, 1, 0)))%Z].

(** what a file of one-body matrix elements holds (ObioModel.v) *)
Record obfile := ObFile { of_bra : lspace; of_ket : lspace; of_q : qn; of_sectors : lsectors; of_blocks : blocks R }.
(** RunParameters *)
Record runpar := Run { rn_basis : radial_basis; rn_length : R; rn_space : lspace }.
Definition opmap := list (string * obdata).
(** InitializeXforms, obmixer.cpp:657-701: files are read once all lines have been read *)
Definition read_xform (f : obfile) : outcome obfile := cassert (q_eqb (of_q f) (0, 0, 0)%Z) ;;; Ok f.
(** operators.emplace(id, id): an id that exists ends the program *)
Definition add_new (ops : opmap) (id : string) (o : obdata) : outcome opmap :=
  match assoc ops id with Some _ => Exit | None => Ok ((id, o) :: ops) end.
Definition data_of (sp : lspace) (q : qn) (s : lsectors) (ms : blocks R) : obdata := ObData sp (Some q) s ms.

(** OneBodyInputChannel, obmixer.cpp:707-758 *)
Definition input_channel (id : string) (f : obfile) (q : qn) (ops : opmap) : outcome opmap :=
  match assoc ops id with
  | Some _ => Exit
  | None => cassert (lspace_eqb (of_bra f) (of_ket f)) ;;; cassert (q_eqb q (of_q f)) ;;;
            add_new ops id (data_of (of_bra f) (of_q f) (of_sectors f) (of_blocks f))
  end.
(** the factor for the length parameter and for C -> Y, obmixer.cpp:818-827; Hat(j) = sqrt(2j+1) *)
Definition hat (j : Z) : R := sqrt (IZR (2 * j + 1)).
Definition radial_scale (id : string) (t : radial_type) (order : Z) (b : R) : R :=
  let c := match t with TR => powerRZ b order | TK => powerRZ b (- order) | TOther => 1 end in
  match assoc kinematic id with Some _ => c | None => c * (hat order * inv_sqrt_4pi) end.
(** OneBodyGeneratedChannel, obmixer.cpp:760-893; [sp] is the space read from the orbital file, if one is given.
    basis::ScalarMultiplyOperator multiplies every block of a sector *)
Definition generate_blocks (rp : runpar) (id : string) (t : gen_type) (order : Z) (q : qn) (sp : lspace) (s : lsectors) : outcome (blocks R) :=
  if String.eqb id "identity" then sector_blocks sp (fun b k => Ok (eye (length (snd b)) (length (snd k)))) s
  else match t with
  | GRadial rt =>
      ms <- solid_harmonic (rn_basis rp) rt order sp q s ;;
      update_blocks sp (fun _ _ => Ok (radial_scale id rt order (rn_length rp))) s ms
  | GAm at' =>
      if (order =? 1)%Z then angular_momentum at' sp q s
      else if (order =? 2)%Z then angular_momentum_squared at' sp q s else Ok []
  | GIso => isospin sp q s
  | GLadder up => ladder (rn_basis rp) up sp q s
  end.
Definition generated_channel (rp : runpar) (id : string) (t : gen_type) (order : Z) (q : qn) (space : option lspace) (ops : opmap) : outcome opmap :=
  match assoc ops id with
  | Some _ => Exit
  | None =>
      let sp := match space with Some sp => sp | None => rn_space rp end in
      let s := sectors_of sp sp q in
      ms <- generate_blocks rp id t order q sp s ;; add_new ops id (data_of sp q s ms)
  end.
(** OneBodyLinearCombinationChannel, obmixer.cpp:895-967.  As [lc_term] (MixModel.v), but the spaces are not compared *)
Definition ob_lc_term (ops : opmap) (id : string) (ic : string * R) (st : bool * obdata) : outcome (bool * obdata) :=
  let (first, od) := st in
  match (if String.eqb (fst ic) id then Some od else assoc ops (fst ic)) with
  | None => Exit
  | Some src =>
      q <- get (od_q src) ;;
      od1 <- (if first then
                let s := sectors_of (od_space src) (od_space src) q in
                Ok (ObData (od_space src) (Some q) s (zero_blocks 0 (od_space src) (od_space src) s))
              else q' <- get (od_q od) ;; cassert (q_eqb q' q) ;;; Ok od) ;;
      let srcb := if String.eqb (fst ic) id then od_blocks od1 else od_blocks src in
      b <- axpy (od_blocks od1) (snd ic) srcb ;;
      Ok (false, ObData (od_space od1) (od_q od1) (od_sectors od1) b)
  end.
Definition linear_channel (id : string) (co : list (string * R)) (ops : opmap) : outcome opmap :=
  match assoc ops id with
  | Some _ => Exit
  | None => ' (_, od) <- for_each co (ob_lc_term ops id) (true, ob_default) ;; add_new ops id od
  end.
(** OneBodyTensorProductChannel, obmixer.cpp:969-1040; [scale <> 1] is not tested: multiplying by 1 changes nothing.  The new
    operator, empty and with quantum numbers not set, is in the map when the factors are looked up *)
Definition tensor_channel (id a b : string) (J0 : Z) (scale : R) (ops : opmap) : outcome opmap :=
  match assoc ops id with
  | Some _ => Exit
  | None =>
      match assoc ((id, ob_default) :: ops) a, assoc ((id, ob_default) :: ops) b with
      | Some da, Some db =>
          cassert (lspace_eqb (od_space da) (od_space db)) ;;;
          qa <- get (od_q da) ;; qb <- get (od_q db) ;;
          let '(J0a, g0a, Tz0a) := qa in let '(J0b, g0b, Tz0b) := qb in
          cassert (triangle_2 J0a J0b J0) ;;;
          let sp := od_space da in
          let q := (J0, Z.rem (g0a + g0b) 2, (Tz0a + Tz0b)%Z) in
          let s := sectors_of sp sp q in
          ms <- tensor_product sp qa (od_sectors da) (od_blocks da) qb (od_sectors db) (od_blocks db) q s ;;
          ms' <- update_blocks sp (fun _ _ => Ok scale) s ms ;;
          add_new ops id (data_of sp q s ms')
      | _, _ => Exit
      end
  end.
(** OneBodyXformChannel, obmixer.cpp:1042-1112; [xs] are the transformations read *)
Definition xform_ob_channel (id src xf : string) (xs : list (string * obfile)) (ops : opmap) : outcome opmap :=
  match assoc ops src, assoc xs xf with
  | Some o, Some f =>
      match assoc ops id with
      | Some _ => Exit
      | None =>
          cassert (lspace_eqb (od_space o) (of_bra f)) ;;;
          q <- get (od_q o) ;;
          let s := sectors_of (of_ket f) (of_ket f) q in
          let '(J0, g0, Tz0) := of_q f in
          ms <- similarity J0 g0 Tz0 (of_bra f) (of_ket f) (of_sectors f) (of_blocks f) (od_sectors o) (od_blocks o) s ;;
          add_new ops id (data_of (of_ket f) q s ms)
      end
  | _, _ => Exit
  end.
(** TargetChannel::WriteChannel, obmixer.cpp:1114-1193: what is written *)
Definition write_channel (rp : runpar) (id : string) (ops : opmap) : outcome obfile :=
  match assoc ops id with
  | None => Exit
  | Some o =>
      q <- get (od_q o) ;;
      if lspace_eqb (od_space o) (rn_space rp) then Ok (ObFile (od_space o) (od_space o) q (od_sectors o) (od_blocks o))
      else
        let sx := sectors_of (od_space o) (rn_space rp) (0, 0, 0)%Z in
        xm <- radial_overlaps spline 0 0 0 (rn_basis rp) (rn_basis rp) 1 true (od_space o) (rn_space rp) sx ;;
        mx <- map_blocks real_mat xm ;;
        let s := sectors_of (rn_space rp) (rn_space rp) q in
        ms <- similarity 0 0 0 (od_space o) (rn_space rp) sx mx (od_sectors o) (od_blocks o) s ;;
        Ok (ObFile (rn_space rp) (rn_space rp) q s ms)
  end.

(** * ew-gen.cpp *)
(** constructor of OperatorData, ew-gen.cpp:109-133; [spherical]: the operator type stored in the file *)
Definition ew_load (f : obfile) (spherical : bool) : outcome obfile :=
  if negb (lspace_eqb (of_bra f) (of_ket f)) then Exit else if negb spherical then Exit else Ok f.
(** species of an electromagnetic target; None is "total".  The prefactors, ew-gen.cpp:307-324 and 380-404 *)
Definition em_species (t : option ospecies) (b k : llabel) (factor : R) : outcome R :=
  cassert (osp_eqb (ll_sp b) (ll_sp k)) ;;;
  Ok (match t with Some sp => if osp_eqb (ll_sp b) sp then factor else 0 | None => factor end).
Definition prefactor_E (b0 : R) (lambda : Z) : R := powerRZ b0 lambda.
(** [2 / (lambda + 1)] is a division of ints; a square root of a negative number is not modelled *)
Definition prefactor_M (b0 : R) (orbital : bool) (lambda : Z) : outcome R :=
  if (lambda <? 0)%Z then UB
  else Ok (powerRZ b0 (lambda - 1) * (hat lambda * sqrt (IZR lambda)) * (if orbital then IZR (Z.quot 2 (lambda + 1)) else 1)).
(** [radial]: operators stored by power, of the kind r; [am]: by type; [iso]: by Tz0.  GenerateTargetE, ew-gen.cpp:326-378;
    [b0] is scale_factor, None if never set *)
Definition find_op {K} (eqb : K -> K -> bool) (l : list (K * obfile)) (k : K) : option obfile :=
  option_map snd (find (fun p => eqb (fst p) k) l).
Definition target_E (sp : lspace) (b0 : option R) (radial : list (Z * obfile)) (lambda : Z) (species : option ospecies) : outcome obfile :=
  let q := (lambda, Z.rem lambda 2, 0%Z) in
  let s := sectors_of sp sp q in
  match find_op Z.eqb radial lambda with
  | None => Exit
  | Some f =>
      cassert (lspace_eqb (of_bra f) sp) ;;;
      ms <- update_blocks sp (fun b k => b0' <- get b0 ;; em_species species b k (prefactor_E b0' lambda)) s (of_blocks f) ;;
      Ok (ObFile sp sp q s ms)
  end.
Definition am_eqb (a b : am_type) : bool :=
  match a, b with AOrbital, AOrbital | ASpin, ASpin | ATotal, ATotal => true | _, _ => false end.
(** GenerateTargetM, ew-gen.cpp:406-489 *)
Definition target_M (sp : lspace) (b0 : option R) (radial : list (Z * obfile)) (am : list (am_type * obfile)) (orbital : bool) (lambda : Z)
  (species : option ospecies) : outcome obfile :=
  let order := (lambda - 1)%Z in
  let q := (lambda, Z.rem order 2, 0%Z) in
  let s := sectors_of sp sp q in
  match find_op am_eqb am (if orbital then AOrbital else ASpin) with
  | None => Exit
  | Some f =>
      cassert (lspace_eqb (of_bra f) sp) ;;;
      m0 <- (if (order =? 0)%Z then update_blocks sp (fun _ _ => Ok inv_sqrt_4pi) s (of_blocks f)
             else match find_op Z.eqb radial order with
                  | None => Exit
                  | Some r => cassert (lspace_eqb (of_bra r) sp) ;;;
                              tensor_product sp (of_q f) (of_sectors f) (of_blocks f) (of_q r) (of_sectors r) (of_blocks r) q s
                  end) ;;
      ms <- update_blocks sp (fun b k => b0' <- get b0 ;; p <- prefactor_M b0' orbital lambda ;; em_species species b k p) s m0 ;;
      Ok (ObFile sp sp q s ms)
  end.
(** GenerateTargetWeak, ew-gen.cpp:491-561; lambda is 0 for F and 1 for GT *)
Definition target_weak (sp : lspace) (am : list (am_type * obfile)) (iso : list (Z * obfile)) (gt : bool) : outcome obfile :=
  let q := (if gt then 1 else 0, 0, 1)%Z in
  let s := sectors_of sp sp q in
  match find_op Z.eqb iso 1%Z with
  | None => Exit
  | Some f =>
      cassert (lspace_eqb (of_bra f) sp) ;;;
      if gt then
        match find_op am_eqb am ASpin with
        | None => Exit
        | Some a => cassert (lspace_eqb (of_bra a) sp) ;;;
            ms <- tensor_product sp (of_q a) (of_sectors a) (of_blocks a) (of_q f) (of_sectors f) (of_blocks f) q s ;;
            Ok (ObFile sp sp q s ms)
        end
      else Ok (ObFile sp sp q s (of_blocks f))
  end.
End Obme.
