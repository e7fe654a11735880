(** programs/obutils/radial-gen.cpp (one-body operator, radial and overlap files), programs/radialutils/radial-extract.cpp
    (transformations as a table) and programs/radialutils/radial-plot.cpp (transformed radial functions).

    Simplifications: double is R, int has unlimited size; an element that is not a number makes the outcome undefined.
    Files are represented by what is read from them or written to them.  Of the absent modules: basis::ParseOrbitalPNStream
    ends the program if the file is missing or holds no orbitals, mcutils::FileExistCheck ends it if a file that must exist
    does not, mcutils::GetLine skips lines without words; an exception that nobody catches ends the program.  The functions of
    modules am and spline are parameters; the parameter of spline::RadialMatrixElement only says whether the coordinate is k,
    so that for the types kO and kGeneric (obme_operator.h:34-35) it gives the elements for r. *)
From Coq Require Import String List ZArith Reals Bool.
From Verif Require Import Base RMat H2Model MapModel OscModel BlockModel ObioModel MixModel ObmModel NatModel.
Import ListNotations.
Open Scope R_scope.
Open Scope outcome_scope.

(** a word of a line: its text and what it is as an int and as a double, if it is one (a word is extracted whole) *)
Record word : Type := Word { w_text : string; w_int : option Z; w_num : option R }.
Definition next_text (l : list word) : outcome (string * list word) := match l with w :: l' => Ok (w_text w, l') | [] => Exit end.
Definition next_i (l : list word) : outcome (Z * list word) :=
  match l with w :: l' => match w_int w with Some z => Ok (z, l') | None => Exit end | [] => Exit end.
Definition next_d (l : list word) : outcome (R * list word) :=
  match l with w :: l' => match w_num w with Some x => Ok (x, l') | None => Exit end | [] => Exit end.

(** contents of files *)
Inductive contents : Type := FOrbitals (os : list (oinfo R)) | FElements (f : rfile) | FText.
Definition files : Type := string -> option contents.
Definition put (fs : files) (name : string) (c : contents) : files := fun n => if String.eqb n name then Some c else fs n.
Definition read_orbitals (fs : files) (name : string) : outcome (list (oinfo R)) :=
  match fs name with Some (FOrbitals os) => Ok os | _ => Exit end.
(** mcutils::FileExistCheck(name, true, false) *)
Definition exists_check (fs : files) (name : string) : outcome unit := match fs name with Some _ => Ok tt | None => Exit end.

(** * radial-gen *)
Inductive rmode : Type :=
| MKinematic (t : radial_type) | MSolid (t : radial_type) | MAm (t : am_type) | MIsospin | MRadial (t : radial_type) | MXform.
(** OperatorParameters, radial-gen.cpp:136-160; [t_op]: mode, order, (J0, g0, Tz0), None if nothing was assigned to them *)
Record rtarget : Type := RTarget {
  t_bra : string; t_ket : string; t_out : string; t_bb : radial_basis; t_kb : radial_basis; t_scale : R;
  t_op : option (rmode * Z * qn) }.

Local Open Scope string_scope.
(** radial-gen.cpp:96-105 (type, order, J0), 107-117, 119-125, 127-132 *)
Definition kinematic_names : list (string * (radial_type * Z * Z)) :=
  [("identity", (TOther, 0%Z, 0%Z)); ("r", (TR, 1%Z, 1%Z)); ("ik", (TK, 1%Z, 1%Z)); ("r.r", (TR, 2%Z, 0%Z)); ("ik.ik", (TK, 2%Z, 0%Z))].
Definition am_names : list (string * (am_type * Z * Z)) :=
  [("l", (AOrbital, 1%Z, 1%Z)); ("l2", (AOrbital, 2%Z, 0%Z)); ("s", (ASpin, 1%Z, 1%Z)); ("s2", (ASpin, 2%Z, 0%Z));
   ("j", (ATotal, 1%Z, 1%Z)); ("j2", (ATotal, 2%Z, 0%Z))].
Definition isospin_names : list (string * Z) := [("tz", 0%Z); ("t+", 1%Z); ("t-", (-1)%Z)].
Definition basis_names : list (string * radial_basis) := [("oscillator", BOscillator); ("laguerre", BLaguerre)].
(** obme_operator.cpp:13-19 kCharCodeRadialOperatorType; kO and kGeneric are TOther *)
Definition radial_names : list (string * radial_type) := [("r", TR); ("k", TK); ("ik", TK); ("o", TOther); ("g", TOther)].
(** a name that is not in the table ends the program, by ParsingError or by the exception of at() *)
Definition named {A} (table : list (string * A)) (id : string) : outcome A := match assoc table id with Some x => Ok x | None => Exit end.

(** the ket basis of the lines that follow: type and orbital file *)
Definition rstate : Type := radial_basis * string.
Definition rstate0 : rstate := (BOscillator, "orbitals.dat").

(** radial-gen.cpp:206-259: what the mode of an operator target assigns, and the rest of the line.  C++ % is Z.rem *)
Definition read_mode (mode id : string) (l : list word) : outcome (option (rmode * Z * qn) * list word) :=
  if String.eqb mode "kinematic" then
    ' (t, order, J0) <- named kinematic_names id ;; Ok (Some (MKinematic t, order, (J0, Z.rem J0 2, 0%Z)), l)
  else if String.eqb mode "solid-harmonic" then
    ' (order, l') <- next_i l ;; t <- named radial_names id ;; Ok (Some (MSolid t, order, (order, Z.rem order 2, 0%Z)), l')
  else if String.eqb mode "am" then
    ' (t, order, J0) <- named am_names id ;; Ok (Some (MAm t, order, (J0, 0%Z, 0%Z)), l)
  else if String.eqb mode "isospin" then
    Tz0 <- named isospin_names id ;; Ok (Some (MIsospin, 0%Z, (0%Z, 0%Z, Tz0)), l)
  else Ok (None, l).
(** radial-gen.cpp:164-327: the body of the loop over lines *)
Definition read_line (fs : files) (st : rstate) (line : list word) : outcome (rstate * list rtarget) :=
  let (kb, kf) := st in
  ' (keyword, l) <- next_text line ;;
  if String.eqb keyword "set-ket-basis" then
    ' (b, l1) <- next_text l ;; ' (f, _) <- next_text l1 ;; bt <- named basis_names b ;; exists_check fs f ;;; Ok ((bt, f), [])
  else if String.eqb keyword "define-operator-target" then
    ' (mode, l1) <- next_text l ;; ' (id, l2) <- next_text l1 ;; ' (op, l3) <- read_mode mode id l2 ;; ' (out, _) <- next_text l3 ;;
    Ok (st, [RTarget kf kf out kb kb 1 op])
  else if String.eqb keyword "define-radial-target" then
    ' (ty, l1) <- next_text l ;; ' (order, l2) <- next_i l1 ;; ' (J0, l3) <- next_i l2 ;; ' (g0, l4) <- next_i l3 ;; ' (Tz0, l5) <- next_i l4 ;;
    ' (out, _) <- next_text l5 ;; t <- named radial_names ty ;;
    Ok (st, [RTarget kf kf out kb kb 1 (Some (MRadial t, order, (J0, g0, Tz0)))])
  else if String.eqb keyword "define-xform-target" then
    ' (scale, l1) <- next_d l ;; ' (b, l2) <- next_text l1 ;; ' (bf, l3) <- next_text l2 ;; ' (out, _) <- next_text l3 ;;
    bb <- named basis_names b ;; exists_check fs bf ;;;
    Ok (st, [RTarget bf kf out bb kb scale (Some (MXform, 0%Z, (0%Z, 0%Z, 0%Z)))])
  else Exit.
Local Close Scope string_scope.
(** ReadParameters, radial-gen.cpp:162-327; lines without words are skipped *)
Fixpoint read_lines (fs : files) (st : rstate) (lines : list (list word)) : outcome (list rtarget) :=
  match lines with
  | [] => Ok []
  | [] :: rest => read_lines fs st rest
  | line :: rest => ' (st', t) <- read_line fs st line ;; ts <- read_lines fs st' rest ;; Ok (t ++ ts)
  end.

Section Build.
Variable spline : spline_me.
Variable crme : Z -> Z -> Z -> Z -> Z -> R.
Variable am_rme : am_type -> Z -> Z -> Z -> Z -> R.
Variable inv_sqrt_4pi : R.

Definition is_1 (x : R) : bool := if Req_EM_T x 1 then true else false.
(** radial-gen.cpp:344-416; [bs], [ks]: spaces of bra and ket, [s]: sectors.  For an angular momentum of another order nothing
    is computed *)
Definition build_blocks (t : rtarget) (m : rmode) (order : Z) (q : qn) (bs ks : lspace) (s : lsectors) : outcome (blocks R) :=
  let '(J0, g0, Tz0) := q in
  match m with
  | MKinematic ty => solid_harmonic spline crme (t_kb t) ty order ks q s
  | MSolid ty =>
      ms <- solid_harmonic spline crme (t_kb t) ty order ks q s ;;
      update_blocks ks (fun _ _ => Ok (hat order * inv_sqrt_4pi)) s ms
  | MAm a => if (order =? 1)%Z then angular_momentum am_rme a ks q s
             else if (order =? 2)%Z then angular_momentum_squared a ks q s else Ok []
  | MIsospin => isospin ks q s
  | MRadial ty => bsn <- radial_operator spline (t_kb t) (is_TK ty) order J0 g0 ks s ;; map_blocks real_mat bsn
  | MXform => bsn <- radial_overlaps spline J0 g0 Tz0 (t_bb t) (t_kb t) (t_scale t) (is_1 (t_scale t)) bs ks s ;; map_blocks real_mat bsn
  end.
(** radial-gen.cpp:418-427: operator type of the file *)
Definition is_radial (m : rmode) : bool := match m with MRadial _ | MXform => true | _ => false end.
(** BuildOperator, radial-gen.cpp:329-436 *)
Definition build (fs : files) (t : rtarget) : outcome files :=
  bo <- read_orbitals fs (t_bra t) ;; ko <- read_orbitals fs (t_ket t) ;;
  let bs := mk_wspace bo in let ks := mk_wspace ko in
  ' (m, order, q) <- get (t_op t) ;;
  let s := sectors_of (forget bs) (forget ks) q in
  ms <- build_blocks t m order q (forget bs) (forget ks) s ;;
  f <- write_rfile (RFile (is_radial m) q bs ks s ms) ;;
  Ok (put fs (t_out t) (FElements f)).
Fixpoint build_all (fs : files) (ts : list rtarget) : outcome files :=
  match ts with [] => Ok fs | t :: ts' => fs' <- build fs t ;; build_all fs' ts' end.
(** main, radial-gen.cpp:438-465 *)
Definition radial_gen (fs : files) (lines : list (list word)) : outcome files :=
  ts <- read_lines fs rstate0 lines ;; build_all fs ts.
End Build.

(** * radial-extract *)
(** a line of the output: n, l, 2j, 2Tz, number of elements, elements *)
Record xline : Type := XLine { x_n : Z; x_l : Z; x_2j : Z; x_2tz : Z; x_size : nat; x_vals : list R }.
(** operator()(i, j) of an Eigen matrix asserts the range *)
Definition element (m : mat R) (i j : nat) : outcome R := cassert (Nat.ltb i (rows m) && Nat.ltb j (cols m)) ;;; Ok (at_ m i j).
(** radial-extract.cpp:101-108: assertions after the file has been read *)
Definition overlap_file (f : rfile) : outcome unit :=
  let '(J0, g0, Tz0) := rf_q f in
  cassert (rf_radial f) ;;; cassert (J0 =? 0)%Z ;;; cassert (g0 =? 0)%Z ;;; cassert (Tz0 =? 0)%Z.
(** radial-extract.cpp:114-136: lines of a subspace of the ket space; an index kNone is used as an index (undefined) *)
Definition extract_subspace (bra : lspace) (s : lsectors) (ms : blocks R) (K : nat) (x : llabel * list Z) : outcome (list xline) :=
  I <- get (look_up_subspace bra (fst x)) ;;
  b <- get (nth_error bra I) ;;
  q <- get (look_up_sector s I K) ;;
  m <- get (nth_error ms q) ;;
  map_blocks (fun kn =>
    vs <- map_blocks (fun i => element m i (fst kn)) (seq 0 (length (snd b))) ;;
    Ok (XLine (snd kn) (ll_l (fst x)) (ll_2j (fst x)) (two_tz (fst x)) (length (snd b)) vs)) (combine (seq 0 (length (snd x))) (snd x)).
Definition radial_extract (f : rfile) : outcome (list xline) :=
  overlap_file f ;;;
  ls <- map_blocks (fun Kx => extract_subspace (forget (rf_bra f)) (rf_sectors f) (rf_blocks f) (fst Kx) (snd Kx))
          (combine (seq 0 (length (rf_ket f))) (forget (rf_ket f))) ;;
  Ok (concat ls).
(** main with its arguments, radial-extract.cpp:52-76, 81-142 *)
Definition radial_extract_main (fs : files) (args : list string) : outcome (list xline) :=
  match args with
  | [xf; _] => match fs xf with Some (FElements f) => radial_extract f | _ => Exit end
  | _ => Exit
  end.

(** * radial-plot *)
Section Plot.
(** spline::basis::WaveFunctionValue(r, WaveFunction(n, l, scale, basis)) *)
Variable wave : Z -> Z -> R -> radial_basis -> R -> R.
(** Eigen::VectorXd::LinSpaced(n, 0, r_max): one point is r_max *)
Definition lin_spaced (n : nat) (r_max : R) : list R :=
  match n with 1%nat => [r_max] | _ => map (fun i => INR i * (r_max / INR (n - 1))) (seq 0 n) end.
(** the arguments as they are after conversion: unreadable numbers are 0 *)
Record plot_args : Type := PArgs { p_basis : string; p_scale : R; p_l : Z; p_2j : Z; p_species : Z; p_points : Z; p_rmax : R }.
Definition species_of (z : Z) : option ospecies := if (z =? 0)%Z then Some SP else if (z =? 1)%Z then Some SN else None.
(** radial-plot.cpp:135-205: the rows of the output, r and one column per state; the labels are looked up in the bra space,
    and the index found is also used for the ket (:164).  Assigning the product to a block of another width is an assertion *)
Definition radial_plot (a : plot_args) (f : rfile) : outcome (list (list R)) :=
  bt <- named basis_names (p_basis a) ;;
  overlap_file f ;;;
  sp <- get (species_of (p_species a)) ;;
  I <- get (look_up_subspace (forget (rf_bra f)) (LL sp (p_l a) (p_2j a))) ;;
  b <- get (nth_error (forget (rf_bra f)) I) ;;
  q <- get (look_up_sector (rf_sectors f) I I) ;;
  cassert (0 <=? p_points a)%Z ;;;
  m <- get (nth_error (rf_blocks f) q) ;;
  let np := Z.to_nat (p_points a) in
  let rs := lin_spaced np (p_rmax a) in
  let wf := Mat np (length (snd b)) (fun i j => wave (nth j (snd b) 0%Z) (p_l a) (p_scale a) bt (nth i rs 0)) in
  p <- mmul wf m ;;
  cassert (Nat.eqb (cols p) (length (snd b))) ;;;
  Ok (map (fun i => nth i rs 0 :: map (fun j => at_ p i j) (seq 0 (length (snd b)))) (seq 0 np)).
End Plot.
