(** contrib/Daejeon16: the function V_Daejeon16 of Daejeon16_public_v2.f90, and Daejeon16_wrapper.cpp.

    Simplifications: numbers are reals; the constants of the data statements are of type REAL, so that they are rounded to single precision, by the parameter [single].  A subscript outside an array is
    undefined.  The label Nmax of a relative subspace is a parameter. *)
From Coq Require Import List ZArith Reals Bool.
From Verif Require Import Base RMat OscModel BlockModel MoshModel JpvModel IsoModel TrfModel RmeModel DjData.
Import ListNotations.
Open Scope Z_scope.
Open Scope outcome_scope.

(** a branch of the if-construct at :890-1081: conditions on JJ, IS, lrel and lprel; the highest values of nrel+1 and nprel+1; the array; what is added to the subscripts nrel+1 and nprel+1 *)
Record channel : Type := Channel { ch_J : Z; ch_S : Z; ch_l : Z; ch_lp : Z; ch_n : Z; ch_np : Z; ch_table : list (list Z); ch_off : Z; ch_offp : Z }.
Definition channels : list channel := [
  Channel 0 0 0 0 31 31 unc1s0 0 0 (* :890 *);
  Channel 0 1 1 1 31 31 unc3p0 0 0 (* :895 *);
  Channel 1 0 1 1 31 31 unc1p1 0 0 (* :900 *);
  Channel 1 1 1 1 31 31 unc3p1 0 0 (* :905 *);
  Channel 2 0 2 2 30 30 unc1d2 0 0 (* :910 *);
  Channel 2 1 2 2 30 30 unc3d2 0 0 (* :915 *);
  Channel 3 0 3 3 30 30 unc1f3 0 0 (* :920 *);
  Channel 3 1 3 3 30 30 unc3f3 0 0 (* :925 *);
  Channel 4 0 4 4 29 29 unc1g4 0 0 (* :930 *);
  Channel 4 1 4 4 29 29 unc3g4 0 0 (* :935 *);
  Channel 5 0 5 5 29 29 unc1h5 0 0 (* :940 *);
  Channel 5 1 5 5 29 29 unc3h5 0 0 (* :945 *);
  Channel 6 0 6 6 28 28 unc1i6 0 0 (* :950 *);
  Channel 6 1 6 6 28 28 unc3i6 0 0 (* :955 *);
  Channel 1 1 0 0 31 31 coup3sd 0 0 (* :961 *);
  Channel 1 1 0 2 31 30 coup3sd 0 31 (* :966 *);
  Channel 1 1 2 0 30 31 coup3sd 31 0 (* :971 *);
  Channel 1 1 2 2 30 30 coup3sd 31 31 (* :976 *);
  Channel 2 1 1 1 31 31 coup3pf 0 0 (* :981 *);
  Channel 2 1 1 3 31 30 coup3pf 0 31 (* :986 *);
  Channel 2 1 3 1 30 31 coup3pf 31 0 (* :991 *);
  Channel 2 1 3 3 30 30 coup3pf 31 31 (* :996 *);
  Channel 3 1 2 2 30 30 coup3dg 0 0 (* :1001 *);
  Channel 3 1 2 4 30 29 coup3dg 0 31 (* :1006 *);
  Channel 3 1 4 2 29 30 coup3dg 31 0 (* :1011 *);
  Channel 3 1 4 4 29 29 coup3dg 31 31 (* :1016 *);
  Channel 4 1 3 3 30 30 coup3fh 0 0 (* :1021 *);
  Channel 4 1 3 5 30 29 coup3fh 0 31 (* :1026 *);
  Channel 4 1 5 3 29 30 coup3fh 31 0 (* :1031 *);
  Channel 4 1 5 5 29 29 coup3fh 31 31 (* :1036 *);
  Channel 5 1 4 4 29 29 coup3gi 0 0 (* :1041 *);
  Channel 5 1 4 6 29 28 coup3gi 0 31 (* :1046 *);
  Channel 5 1 6 4 28 29 coup3gi 31 0 (* :1051 *);
  Channel 5 1 6 6 28 28 coup3gi 31 31 (* :1056 *);
  Channel 6 1 5 5 29 29 coup3hj 0 0 (* :1061 *);
  Channel 6 1 5 7 29 28 coup3hj 0 31 (* :1066 *);
  Channel 6 1 7 5 28 29 coup3hj 31 0 (* :1071 *);
  Channel 6 1 7 7 28 28 coup3hj 31 31 (* :1076 *)].

(** element (i,j) of an array, subscripts from 1 *)
Definition subscript (t : list (list Z)) (i j : Z) : outcome Z :=
  if (i <? 1) || (j <? 1) then UB else c <- get (nth_error t (Z.to_nat (j - 1))) ;; get (nth_error c (Z.to_nat (i - 1))).
Section Daejeon.
Variable single : R -> R.
Definition constant (z : Z) : R := single (IZR z / IZR (10 ^ 15))%R.
(** :25-1093 *)
Definition v_daejeon16 (nrel nprel lrel lprel JJ IS keyhw keyph : Z) : outcome R :=
  mtxE <- match find (fun c => (JJ =? ch_J c) && (IS =? ch_S c) && (lrel =? ch_l c) && (lprel =? ch_lp c)) channels with
          | Some c => if (nrel + 1 <=? ch_n c) && (nprel + 1 <=? ch_np c) then z <- subscript (ch_table c) (ch_off c + nrel + 1) (ch_offp c + nprel + 1) ;; Ok (constant z) else Ok 0%R
          | None => Ok 0%R
          end ;;
  let phase := if Z.even (nrel + nprel) then 1%R else (-1)%R in
  let hoin := 25%R in
  let mtxE := if keyhw =? 0 then (mtxE / hoin)%R else mtxE in
  let mtxE := if keyph =? 1 then (mtxE * phase)%R else mtxE in
  Ok mtxE.

(** Daejeon16_wrapper.cpp:31-93 ConstructDaejeon16Operator *)
Variable Nmax_of : rsub -> Z.
Definition daejeon_block (b k : rsub) : outcome (mat num) :=
  let bra_nmax := Z.quot (Nmax_of b - r_L b) 2 in
  let ket_nmax := Z.quot (Nmax_of k - r_L k) 2 in
  if negb (r_S b =? r_S k) then Ok (zero_block b k) else
  for_each (zrange 0 ket_nmax) (fun ket_n m => for_each (zrange 0 bra_nmax) (fun bra_n m =>
    v <- v_daejeon16 bra_n ket_n (r_L b) (r_L k) (r_J b) (r_S b) 1 0 ;; mat_put m (Z.to_nat bra_n) (Z.to_nat ket_n) (Num v)) m) (zero_block b k).
Definition daejeon16 (o : oplab) (sp : rspace) : outcome ncomponents :=
  cassert (o_J0 o =? 0) ;;; cassert (o_g0 o =? 0) ;;; cassert ((o_T0_min o =? 0) && (0 <=? o_T0_max o)) ;;;
  with_component o sp 0 daejeon_block.
End Daejeon.
