(** Models of programs/relutils/relative-filter.cpp and libraries/relative/relative_xform.cpp.

    Simplifications: double is R; the overlap integral of two oscillator functions (mesh, wave functions, spline) is an abstract function,
    [None] for a NaN, which throws inside a parallel region and so ends the process; the operator components T0 = 0, 1, 2 are functions of
    T0; reading and writing of the files, progress output and the number of integration steps are not modelled. *)
From Coq Require Import String List ZArith Reals Bool.
From Verif Require Import Base RMat OscModel BlockModel JpvModel MixModel.
Import ListNotations.
Open Scope outcome_scope.

(** basis::SetOperatorToZero *)
Definition rzero_blocks (sp : rspace) (s : lsectors) : blocks R := map (fun x => mzero 0%R (rdim sp (fst x)) (rdim sp (snd x))) s.

(** ** relative-filter.cpp *)
(** Parameters (lines 48-57); the name and the cutoff of the filter are never read from the input (lines 80-83) *)
Record fparams := FParams { fp_source : string; fp_target : string; fp_filter : option string; fp_cutoff : option Z }.
(** ReadParameters (lines 59-85): the words of the input lines *)
Definition read_fparams (lines : list (list string)) : outcome fparams :=
  match lines with
  | (source :: target :: _) :: _ => Ok (FParams source target None None)
  | _ => Exit
  end.
(** matrix element access: Eigen asserts the range *)
Definition mat_get (m : mat R) (i j : nat) : outcome R := cassert (Nat.ltb i (rows m) && Nat.ltb j (cols m)) ;;; Ok (at_ m i j).
(** FilterOperator (lines 91-165), one sector *)
Definition filter_block (sp : rspace) (x : nat * nat) (source : mat R) : outcome (mat R) :=
  let bd := rdim sp (fst x) in
  let kd := rdim sp (snd x) in
  loop2 (pairs bd kd) (fun i j m =>
    if Nat.eqb (fst x) (snd x) && negb (Nat.leb i j) then Ok m
    else v <- mat_get source i j ;; mat_put m i j v) (mzero 0%R bd kd).
(** one component *)
Definition filter_component (p : fparams) (sp : rspace) (s : lsectors) (source : blocks R) : outcome (blocks R) :=
  map_blocks (fun i => x <- get (nth_error s i) ;; b <- get (nth_error source i) ;; filter_block sp x b) (seq 0 (length s)).

(** ** relative_xform.cpp *)
(** basis::OperatorBlock::Identity(rows,cols) *)
Definition identity_block (r c : nat) : mat R := Mat r c (fun i j => if Nat.eqb i j then 1%R else 0%R).
Section Xform.
(** the overlap of oscillator functions n of length 1/sqrt(b_ratio) and n' of length sqrt(b_ratio) for given L *)
Variable overlap : Z -> R -> nat -> nat -> option R.
(** the order in which the parallel loop of PopulateRelativeXformMatrix runs through a matrix *)
Variable schedule : nat -> nat -> list (nat * nat).

(** PopulateRelativeXformMatrix (relative_xform.cpp:25-84) *)
Definition xform_matrix (source_dim target_dim : nat) (L : Z) (b_ratio : R) : outcome (mat R) :=
  if Req_EM_T b_ratio 1 then Ok (identity_block source_dim target_dim)
  else
    cassert (if Rlt_dec 0 b_ratio then true else false) ;;;
    loop2 (schedule source_dim target_dim) (fun i j m =>
      v <- (match overlap L b_ratio i j with Some v => Ok v | None => Exit end) ;; mat_put m i j v)
      (mzero 0%R source_dim target_dim).
(** the map of transformation matrices (lines 160-187): source subspace and matrix for each target subspace; the matrix of a subspace
    which the source does not have is empty *)
Definition xform_entry (src : rspace) (b_ratio : R) (t : rsub) : outcome (option nat * mat R) :=
  match find_sub src (r_L t) (r_S t) (r_J t) (r_T t) (r_g t) with
  | None => Ok (None, mzero 0%R 0 0)
  | Some i => s <- get (nth_error src i) ;; m <- xform_matrix (r_dim s) (r_dim t) (r_L t) b_ratio ;; Ok (Some i, m)
  end.
(** one target sector (lines 206-244); [t0]: the zero block *)
Definition xform_sector (src : rspace) (ssec : lsectors) (sblk : blocks R) (xm : list (option nat * mat R)) (x : nat * nat) (t0 : mat R)
  : outcome (mat R) :=
  bx <- get (nth_error xm (fst x)) ;;
  kx <- get (nth_error xm (snd x)) ;;
  match fst bx, fst kx with
  | Some b, Some k =>
      match look_up_sector ssec b k with
      | None => Ok t0
      | Some i =>
          m <- get (nth_error sblk i) ;;
          let full := if Nat.eqb b k then complete_lower m else m in
          p <- mmul (transpose (snd bx)) full ;; mmul p (snd kx)
      end
  | _, _ => Ok t0
  end.
(** one component (lines 197-245) *)
Definition xform_component (src tgt : rspace) (ssec tsec : lsectors) (sblk : blocks R) (xm : list (option nat * mat R)) : outcome (blocks R) :=
  map_blocks (fun x => xform_sector src ssec sblk xm x (mzero 0%R (rdim tgt (fst x)) (rdim tgt (snd x)))) tsec.
End Xform.

(** RelativeOperatorParametersLSJT, the members used, and the whole TransformRelativeOperatorLSJT (lines 86-262): components T0_min..T0_max
    of the target; the target sectors are those that the basis library constructs *)
Record rparams := RParams { rq_J0 : Z; rq_g0 : Z; rq_T0_min : Z; rq_T0_max : Z; rq_Jmax : Z }.
Definition transform_relative (overlap : Z -> R -> nat -> nat -> option R) (schedule : nat -> nat -> list (nat * nat))
  (sp tp : rparams) (src tgt : rspace) (ssec tsec : Z -> lsectors) (sblk : Z -> blocks R) (b_ratio : R)
  : outcome (list (blocks R)) :=
  cassert (rq_J0 tp =? rq_J0 sp)%Z ;;; cassert (rq_g0 tp =? rq_g0 sp)%Z ;;; cassert (rq_T0_max tp <=? rq_T0_max sp)%Z ;;;
  cassert (rq_T0_min tp >=? rq_T0_min sp)%Z ;;; cassert (rq_Jmax tp <=? rq_Jmax sp)%Z ;;;
  xm <- map_blocks (xform_entry overlap schedule src b_ratio) tgt ;;
  map_blocks (fun T0 => xform_component src tgt (ssec T0) (tsec T0) (sblk T0) xm) (zrange (rq_T0_min tp) (rq_T0_max tp)).
