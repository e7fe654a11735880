(** programs/obutils/natorb-gen.cpp (natural orbitals), radial-compose.cpp (composition of overlap files) and
    radial-xform.cpp (change of basis of a one-body operator file).

    Simplifications: double is R; files are represented by what is read from them or written to them (ObioModel.v); the
    lines of the control file of natorb-gen are given as parsed commands.  Eigen::SelfAdjointEigenSolver and std::sort are
    not in the repository: they are parameters, and the theorems assume what their documentation promises. *)
From Coq Require Import List ZArith Reals Bool.
From Verif Require Import Base RMat H2Model MapModel OscModel BlockModel ObioModel ObmModel.
Import ListNotations.
Open Scope R_scope.
Open Scope outcome_scope.

(** * Files of one-body matrix elements, with the weights of the orbitals *)
(** what InOBMEStream yields and OutOBMEStream writes: operator type (kRadial or kSpherical), J0 g0 Tz0, spaces, blocks *)
Record rfile : Type := RFile {
  rf_radial : bool; rf_q : qn; rf_bra : wspace R; rf_ket : wspace R; rf_sectors : lsectors; rf_blocks : blocks R }.
(** comparison of two std::vector<OrbitalPNInfo>: species, n, l, j and weight *)
Definition oinfo_eq_dec (a b : oinfo R) : {a = b} + {a <> b}.
Proof. decide equality; [apply Req_EM_T|apply Z.eq_dec|repeat decide equality]. Defined.
Definition same_orbitals (a b : list (oinfo R)) : bool := if list_eq_dec oinfo_eq_dec a b then true else false.
(** obme_io.cpp:229-267, 339-380: the assertions of OutOBMEStream::Write; the chopping of elements below 1e-14 and the
    rounding of the printed numbers are part of ObioModel.v and left out here *)
Definition write_ok (bra ket : wspace R) (s : lsectors) (ms : blocks R) : bool :=
  Nat.eqb (length ms) (length s)
  && forallb (fun xm => Nat.eqb (sub_dim (forget bra) (fst (fst xm))) (rows (snd xm))
                        && Nat.eqb (sub_dim (forget ket) (snd (fst xm))) (cols (snd xm))) (combine s ms).
Definition write_rfile (f : rfile) : outcome rfile :=
  cassert (write_ok (rf_bra f) (rf_ket f) (rf_sectors f) (rf_blocks f)) ;;; Ok f.

(** * radial-compose *)
(** radial-compose.cpp:115-183 main: two files of overlaps.  Both tests of the operator type look at the first file
    (:134, :139).  The orbital lists of the inner spaces are compared; the output has J0 = g0 = Tz0 = 0 (:157). *)
Definition radial_compose (f1 f2 : rfile) : outcome rfile :=
  check (rf_radial f1) ;;;
  check (rf_radial f1) ;;;
  check (same_orbitals (orbital_info (rf_ket f1)) (orbital_info (rf_bra f2))) ;;;
  let s := sectors_of (forget (rf_bra f1)) (forget (rf_ket f2)) (0, 0, 0)%Z in
  ms <- compose (forget (rf_bra f1)) (forget (rf_ket f1)) (forget (rf_bra f2)) (forget (rf_ket f2))
          (rf_sectors f1) (rf_blocks f1) (rf_sectors f2) (rf_blocks f2) s ;;
  write_rfile (RFile true (0, 0, 0)%Z (rf_bra f1) (rf_ket f2) s ms).

(** * radial-xform *)
(** radial-xform.cpp:121-203 main: orbital file, overlaps [x], operator [o] *)
Definition radial_xform (orbs : list (oinfo R)) (x o : rfile) : outcome rfile :=
  let space := mk_wspace orbs in
  check (same_orbitals (orbital_info (rf_bra o)) (orbital_info (rf_ket o))) ;;;
  check (same_orbitals (orbital_info space) (orbital_info (rf_ket o))) ;;;
  let '(J0, g0, Tz0) := rf_q x in
  check (rf_radial x && same_orbitals (orbital_info (rf_ket o)) (orbital_info (rf_bra x)) && (Tz0 =? 0)%Z) ;;;
  let target := rf_ket x in
  let s := sectors_of (forget target) (forget target) (rf_q o) in
  ms <- similarity J0 g0 Tz0 (forget space) (forget target) (rf_sectors x) (rf_blocks x) (rf_sectors o) (rf_blocks o) s ;;
  write_rfile (RFile (rf_radial o) (rf_q o) target target s ms).

(** * natorb-gen *)
Section Natorb.
(** Eigen::SelfAdjointEigenSolver<MatrixXd>: eigenvalues, eigenvectors (columns) *)
Variable solve : mat R -> list R * mat R.
(** std::sort(..., basis::OrbitalSortCmpWeight) *)
Variable sort : list (oinfo R) -> list (oinfo R).

(** a line of the control file, natorb-gen.cpp:101-167.  A density file is read as soon as its line is met, for the
    orbitals known at that point; [COther] is a line with another keyword, which has no effect; [CBad] a line that
    ParsingCheck or FileExistCheck refuses. *)
Inductive ncmd : Type :=
| COutput (info : bool)                       (* set-output-xform orbitals xform [info] *)
| CIndexing (orbs : list (oinfo R))           (* set-indexing *)
| CDensities (read : lspace -> outcome density)  (* define-densities *)
| COther
| CBad.
(** RunParameters, natorb-gen.cpp:89-96; a density is kept with the space its sectors refer to; the name of the info file is empty unless given *)
Record npar : Type := NPar { np_space : wspace R; np_dens : option (lspace * density); np_out : option bool }.
Definition np0 : npar := NPar [] None None.
Fixpoint read_parameters (cs : list ncmd) (p : npar) : outcome npar :=
  match cs with
  | [] => Ok p
  | COutput info :: cs' => read_parameters cs' (NPar (np_space p) (np_dens p) (Some info))
  | CIndexing orbs :: cs' => read_parameters cs' (NPar (mk_wspace orbs) (np_dens p) (np_out p))
  | CDensities rd :: cs' =>
      d <- rd (forget (np_space p)) ;;
      read_parameters cs' (NPar (np_space p) (Some (forget (np_space p), d)) (np_out p))
  | COther :: cs' => read_parameters cs' p
  | CBad :: _ => Exit
  end.

(** eigenvalues().reverse() and eigenvectors().rowwise().reverse(), natorb-gen.cpp:205-206 *)
Definition reverse_columns (m : mat R) : mat R := Mat (rows m) (cols m) (fun i j => at_ m i (cols m - 1 - j)).
(** the body of the loop over sectors, natorb-gen.cpp:191-219; Eigen asserts that the matrix is square *)
Definition diagonalise (labs : list (llabel * list Z)) (x : nat * nat) (m : mat R) : outcome (mat R * list (oinfo R)) :=
  lab <- get (nth_error labs (fst x)) ;;
  cassert (Nat.eqb (rows m) (cols m)) ;;;
  let vals := rev (fst (solve m)) in
  let vecs := reverse_columns (snd (solve m)) in
  Ok (vecs, map (fun iv => OI (fst lab) (Z.of_nat (fst iv)) (snd iv)) (combine (seq 0 (length vals)) vals)).
Fixpoint natural_blocks (labs : list (llabel * list Z)) (s : lsectors) (ms : blocks R) : outcome (blocks R * list (oinfo R)) :=
  match s with
  | [] => Ok ([], [])
  | x :: s' =>
      m <- get (nth_error ms 0) ;;
      ' (u, os) <- diagonalise labs x m ;;
      ' (us, os') <- natural_blocks labs s' (tl ms) ;;
      Ok (u :: us, os ++ os')
  end.
(** what is written: orbital file, info file, transformation file *)
Record nat_out : Type := NatOut { no_orbitals : list (oinfo R); no_info : option (list (oinfo R)); no_xform : rfile }.
(** natorb-gen.cpp:175-263 main.  The labels of the density sectors are those of the space [dspace] the density was
    read for; a null density stream is dereferenced (undefined); without a file name for the transformation the file
    cannot be opened. *)
Definition natorb_main (p : npar) : outcome nat_out :=
  ' (dspace, d) <- get (np_dens p) ;;
  q <- multipole_index d 0 ;;
  s <- get (nth_error (de_sectors d) q) ;;
  ms <- get (nth_error (de_blocks d) q) ;;
  ' (us, occ) <- natural_blocks dspace s ms ;;
  let out := sort (orbital_info (np_space p)) in
  let info := match np_out p with Some true => Some (rev (sort occ)) | _ => None end in
  let space' := mk_wspace out in
  let s' := sectors_of (forget (np_space p)) (forget space') (0, 0, 0)%Z in
  check (match np_out p with Some _ => true | None => false end) ;;;
  f <- write_rfile (RFile true (0, 0, 0)%Z (np_space p) space' s' us) ;;
  Ok (NatOut out info f).
Definition natorb_gen (cs : list ncmd) : outcome nat_out := p <- read_parameters cs np0 ;; natorb_main p.
End Natorb.
