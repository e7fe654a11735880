(** programs/relutils/relative-gen.cpp, relcm-gen.cpp, relative-xform.cpp, jpv2rel.cpp and jpvstat.cpp: the programs as a whole, from their
    input to their output file.  The operators themselves are in RmeModel.v, OscModel.v, IsoModel.v and LenModel.v, the transformation in
    RelxModel.v, reading of interactions in JpvModel.v.

    Simplifications: double is R or not-a-number, int has unlimited size, a word of the input is extracted whole (RgModel.v), output to the
    terminal is left out.  Of the absent modules: the relative and relative-cm spaces and the identity operator of module basis are
    parameters; a file that cannot be opened ends the program; mcutils::ParsingCheck and ParsingError end the program.  A file is what is
    handed to its writer. *)
From Coq Require Import String List ZArith Reals Bool.
From Verif Require Import Base RMat OscModel BlockModel MoshModel JpvModel MixModel IsoModel TrfModel RmeModel WfModel LenModel RelxModel RgModel.
Import ListNotations.
Open Scope Z_scope.
Open Scope outcome_scope.

(** a relative operator file: tensor labels, truncation, components *)
Record relfile (C : Type) : Type := RelFile { rf_o : oplab; rf_Nmax : Z; rf_Jmax : Z; rf_c : C }.
Arguments RelFile {C}. Arguments rf_o {C}. Arguments rf_Nmax {C}. Arguments rf_Jmax {C}. Arguments rf_c {C}.
(** std::getline past the end leaves the line empty *)
Definition input_line (ls : list (list word)) (n : nat) : list word := nth n ls [].

(** ** relative-gen.cpp *)
(** :158-186 Parameters; the optional parameters, which are not initialised unless read *)
Inductive gargs : Type :=
| ANone | AT0 (T0 : Z) | ACoordinate (ct : coordinate_type) (T0 : Z) | ACoulomb (t : optype) (steps : Z) | AUnit (u : unit_labels)
| AInteraction (name : string) | AChiral (reg b : R) (steps : Z).
Record gparams : Type := GParams { g_o : oplab; g_Nmax : Z; g_Jmax : Z; g_name : string; g_args : gargs; g_target : string }.
(** :200-210 *)
Definition read_labels (l : list word) : outcome oplab :=
  ' (J0, l1) <- next_i l ;; ' (g0, l2) <- next_i l1 ;; ' (T0_min, l3) <- next_i l2 ;; ' (T0_max, _) <- next_i l3 ;; Ok (OpLab J0 g0 T0_min T0_max).
Local Open Scope string_scope.
Definition coordinates : list (string * coordinate_type) := [("r", KR); ("k", KK)].
Definition species_types : list (string * optype) := [("p", OpP); ("n", OpN); ("total", OpTotal)].
Definition in_names (name : string) (l : list string) : bool := existsb (String.eqb name) l.
(** :229-312; [daejeon]: compiled with USE_DAEJEON16.  Gives the arguments and Jmax *)
Definition read_args (daejeon : bool) (name : string) (Jmax : Z) (l : list word) : outcome (gargs * Z) :=
  if in_names name ["orbital-am"; "spin-am"] then ' (T0, _) <- next_i l ;; Ok (AT0 T0, Jmax)
  else if in_names name ["coordinate-sqr"; "dipole"; "quadrupole"] then
    ' (code, l1) <- next_text l ;; ' (T0, _) <- next_i l1 ;; ct <- named coordinates code ;; Ok (ACoordinate ct T0, Jmax)
  else if String.eqb name "coulomb" then
    ' (code, l1) <- next_text l ;; ' (steps, _) <- next_i l1 ;; t <- named species_types code ;; Ok (ACoulomb t steps, Jmax)
  else if String.eqb name "symmunit" then
    ' (T0, l) <- next_i l ;; ' (Np, l) <- next_i l ;; ' (Lp, l) <- next_i l ;; ' (Sp, l) <- next_i l ;; ' (Jp, l) <- next_i l ;;
    ' (Tp, l) <- next_i l ;; ' (N, l) <- next_i l ;; ' (L, l) <- next_i l ;; ' (S_, l) <- next_i l ;; ' (J, l) <- next_i l ;;
    ' (T, l) <- next_i l ;; Ok (AUnit (UL T0 Np Lp Sp Jp Tp N L S_ J T), Jmax)
  else if String.eqb name "interaction" then
    ' (which, _) <- next_text l ;; Ok (AInteraction which, if daejeon && String.eqb which "Daejeon16" then Z.min Jmax 6 else Jmax)
  else if String.eqb name "LENPIC-N2LOGT" then
    ' (reg, l1) <- next_d l ;; ' (b, l2) <- next_d l1 ;; ' (steps, _) <- next_i l2 ;; Ok (AChiral reg b steps, Jmax)
  else Ok (ANone, Jmax).
(** :188-324 ReadParameters *)
Definition gen_read (daejeon : bool) (ls : list (list word)) : outcome gparams :=
  o <- read_labels (input_line ls 0) ;;
  ' (Nmax, _) <- next_i (input_line ls 1) ;;
  ' (name, l) <- next_text (input_line ls 2) ;;
  ' (args, Jmax) <- read_args daejeon name (Nmax + 1) l ;;
  ' (target, _) <- next_text (input_line ls 3) ;;
  Ok (GParams o Nmax Jmax name args target).

(** components of reals and of numbers *)
Definition to_num (m : mat R) : mat num := Mat (rows m) (cols m) (fun i j => Num (at_ m i j)).
Definition num_components (c : components) : ncomponents := map (fun x => (fst x, map to_num (snd x))) c.
(** basis::ConstructZeroOperatorRelativeLSJT, as zero_operator *)
Definition zero_components (o : oplab) (sp : rspace) : outcome components :=
  if (((o_T0_min o <? 0) || (2 <? o_T0_max o)) && (o_T0_min o <=? o_T0_max o))%Z then UB else
  Ok (map (fun T0 => if RmeModel.in_labels o T0 then let s := jt_sectors r_J r_T r_g sp (o_J0 o) T0 (o_g0 o) in (s, rzero_blocks sp s) else ([], [])) [0; 1; 2]%Z).

(** module basis *)
Record rellib : Type := RelLib {
  space_of : Z -> Z -> rspace;
  cmspace_of : Z -> cspace;
  identity_of : oplab -> rspace -> outcome ncomponents;
  writable : string -> bool }.

Section Generation.
Variable racah1 racah2 : Z -> Z -> Z -> Z -> Z -> Z -> Z -> R.
Variable w3j w6j : Z -> Z -> Z -> Z -> Z -> Z -> R.
Variable jrme : Z -> Z -> R.
(** parameters of LenModel.v *)
Variable tgamma : R -> R.
Variable quad : list R -> list fl -> num.
Variable racah12 : Z -> Z -> Z -> Z -> Z -> Z -> Z -> Z -> Z -> R.
Variable crme : Z -> Z -> Z -> R.
Variable jhalf : R.
Variable cj1 cj2 : Z -> Z -> R.
(** elements of 1/r with the number of steps of the quadrature: steps, n', n, L *)
Variable inverse_r : Z -> Z -> Z -> Z -> R.
(** contrib::ConstructDaejeon16Operator, if compiled in *)
Variable daejeon : option (oplab -> rspace -> outcome ncomponents).
Variable B : rellib.
Definition has_daejeon : bool := match daejeon with Some _ => true | None => false end.

(** :330-585 PopulateOperator; a parameter that was not read is not initialised *)
Definition gen_populate (p : gparams) : outcome ncomponents :=
  let o := g_o p in
  let sp := space_of B (g_Nmax p) (g_Jmax p) in
  let T0_of (f : Z -> outcome ncomponents) := match g_args p with AT0 T0 => f T0 | _ => UB end in
  let ct_of (f : coordinate_type -> Z -> outcome ncomponents) := match g_args p with ACoordinate ct T0 => f ct T0 | _ => UB end in
  if String.eqb (g_name p) "zero" then zero_operator o sp
  else if String.eqb (g_name p) "identity" then identity_of B o sp
  else if String.eqb (g_name p) "rsqr" then coordinate_sqr_op o sp KR 0
  else if String.eqb (g_name p) "ksqr" then coordinate_sqr_op o sp KK 0
  else if String.eqb (g_name p) "coordinate-sqr" then ct_of (coordinate_sqr_op o sp)
  else if String.eqb (g_name p) "dipole" then ct_of (dipole racah1 racah2 o sp)
  else if String.eqb (g_name p) "quadrupole" then ct_of (quadrupole w3j w6j o sp)
  else if String.eqb (g_name p) "orbital-am" then T0_of (orbital_am racah1 o sp)
  else if String.eqb (g_name p) "spin-am" then T0_of (spin_am racah1 racah2 o sp)
  else if String.eqb (g_name p) "isospin" then isospin_op jrme o sp
  else if String.eqb (g_name p) "su4casimir" then su4_casimir o sp
  else if String.eqb (g_name p) "coulomb" then
    match g_args p with
    | ACoulomb t steps =>
      cassert (o_J0 o =? 0)%Z ;;; cassert (o_g0 o =? 0)%Z ;;;
      z <- zero_components o sp ;;
      c <- coulomb (inverse_r steps) t (fun _ => g_Nmax p) (o_J0 o) (o_g0 o) (o_T0_min o) (o_T0_max o) sp z ;; Ok (num_components c)
    | _ => UB
    end
  else if String.eqb (g_name p) "symmunit" then match g_args p with AUnit u => symmunit o sp u | _ => UB end
  else if String.eqb (g_name p) "interaction" then
    match g_args p with
    | AInteraction which => match daejeon with Some f => if String.eqb which "Daejeon16" then f o sp else Exit | None => Exit end
    | _ => UB
    end
  else if String.eqb (g_name p) "LENPIC-LOGT" then lo_gt racah1 racah2 o sp
  else if String.eqb (g_name p) "LENPIC-N2LOGT" then
    match g_args p with
    | AChiral reg b steps => relative_gen_gt tgamma quad racah2 racah12 crme jhalf cj1 cj2 o (g_Nmax p) sp reg b steps
    | _ => UB
    end
  else Exit.
(** :591-623 main: the name of the file and its contents *)
Definition gen_run (p : gparams) : outcome (string * relfile ncomponents) :=
  c <- gen_populate p ;; check (writable B (g_target p)) ;;; Ok (g_target p, RelFile (g_o p) (g_Nmax p) (g_Jmax p) c).
Definition gen_main (ls : list (list word)) : outcome (string * relfile ncomponents) := p <- gen_read has_daejeon ls ;; gen_run p.

(** ** relcm-gen.cpp:66-135, 143-239 *)
Record cparams : Type := CParams { c_o : oplab; c_Nmax : Z; c_name : string; c_args : option (R * R * Z); c_target : string }.
Definition cm_read (ls : list (list word)) : outcome cparams :=
  o <- read_labels (input_line ls 0) ;;
  ' (Nmax, _) <- next_i (input_line ls 1) ;;
  ' (name, l) <- next_text (input_line ls 2) ;;
  args <- (if String.eqb name "LENPIC-NLOM1" then ' (reg, l1) <- next_d l ;; ' (b, l2) <- next_d l1 ;; ' (steps, _) <- next_i l2 ;; Ok (Some (reg, b, steps)) else Ok None) ;;
  ' (target, _) <- next_text (input_line ls 3) ;;
  Ok (CParams o Nmax name args target).
Definition cm_main (ls : list (list word)) : outcome (string * relfile ncomponents) :=
  p <- cm_read ls ;;
  c <- relcm_gen tgamma quad racah1 racah2 racah12 crme jhalf (c_o p) (c_Nmax p) (cmspace_of B (c_Nmax p)) (c_name p) (c_args p) ;;
  check (writable B (c_target p)) ;;; Ok (c_target p, RelFile (c_o p) (c_Nmax p) 0 c).
End Generation.
Local Close Scope string_scope.

(** ** relative-xform.cpp *)
(** :50-102: mcutils::GetLine gives the lines with words (comments and blank lines are passed over).  [exists_]: mcutils::FileExistCheck *)
Record xparams : Type := XParams { x_source : string; x_Nmax : Z; x_ratio : R; x_steps : Z; x_target : string }.
Definition xf_read (exists_ : string -> bool) (ls : list (list word)) : outcome xparams :=
  ' (source, _) <- next_text (input_line ls 0) ;; check (exists_ source) ;;;
  ' (Nmax, l) <- next_i (input_line ls 1) ;; ' (ratio, l) <- next_d l ;; ' (steps, _) <- next_i l ;;
  ' (target, _) <- next_text (input_line ls 2) ;;
  Ok (XParams source Nmax ratio steps target).
(** component T0 of an operator *)
Definition component (c : components) (T0 : Z) : lsectors * blocks R := nth (Z.to_nat T0) c ([], []).
(** :108-186 main.  [overlap]: overlap integrals with the number of steps of the quadrature *)
Definition xf_run (B : rellib) (overlap : Z -> Z -> R -> nat -> nat -> option R) (schedule : nat -> nat -> list (nat * nat)) (f : relfile components) (p : xparams)
  : outcome (string * relfile (list (lsectors * blocks R))) :=
  let o := rf_o f in
  let src := space_of B (rf_Nmax f) (rf_Jmax f) in
  let tgt := space_of B (x_Nmax p) (rf_Jmax f) in
  let pars := RParams (o_J0 o) (o_g0 o) (o_T0_min o) (o_T0_max o) (rf_Jmax f) in
  let tsec T0 := jt_sectors r_J r_T r_g tgt (o_J0 o) T0 (o_g0 o) in
  bs <- transform_relative (overlap (x_steps p)) schedule pars pars src tgt (fun T0 => fst (component (rf_c f) T0)) tsec (fun T0 => snd (component (rf_c f) T0)) (x_ratio p) ;;
  check (writable B (x_target p)) ;;;
  Ok (x_target p, RelFile o (x_Nmax p) (rf_Jmax f)
        (map (fun T0 => if RmeModel.in_labels o T0 then (tsec T0, nth (Z.to_nat (T0 - o_T0_min o)) bs []) else ([], [])) [0; 1; 2])).
Definition xf_main (B : rellib) overlap schedule (disk : string -> option (relfile components)) (ls : list (list word)) :=
  p <- xf_read (fun f => match disk f with Some _ => true | None => false end) ls ;;
  f <- (match disk (x_source p) with Some f => Ok f | None => Exit end) ;; xf_run B overlap schedule f p.

(** ** jpv2rel.cpp *)
(** :43-103; one source for T0_max = 0, three (pp, nn, pn) for T0_max = 2 *)
Record jparams : Type := JParams { j_Nmax : Z; j_Jmax : Z; j_T0_max : Z; j_sources : list string; j_target : string }.
Definition jpv_read (ls : list (list word)) : outcome jparams :=
  ' (Nmax, l) <- next_i (input_line ls 0) ;; ' (Jmax, l) <- next_i l ;; ' (T0_max, _) <- next_i l ;;
  check ((T0_max =? 0) || (T0_max =? 2)) ;;;
  sources <- (if T0_max =? 0 then ' (f, _) <- next_text (input_line ls 1) ;; Ok [f]
              else ' (f1, l) <- next_text (input_line ls 1) ;; ' (f2, l) <- next_text l ;; ' (f3, _) <- next_text l ;; Ok [f1; f2; f3]) ;;
  ' (target, _) <- next_text (input_line ls 2) ;;
  Ok (JParams Nmax Jmax T0_max sources target).
(** a text file: its lines and whether the last one ends with a newline *)
Definition textfile : Type := list line * bool.
(** ReadJPVOperator of a file into zero blocks; None: more than [depth] headers (JpvModel.v) *)
Definition read_source (depth : nat) (disk : string -> option textfile) (sp : rspace) (Jmax : Z) (s : lsectors) (name : string) : option (outcome (blocks R)) :=
  match disk name with
  | None => Some Exit
  | Some (lines, nl) => read_jpv depth sp Jmax s lines nl (rzero_blocks sp s)
  end.
(** the three files one after the other (jpv_io.cpp:294-398); the program ends with the first one that fails *)
Fixpoint read_sources (depth : nat) (disk : string -> option textfile) (sp : rspace) (Jmax : Z) (s : lsectors) (names : list string)
  : option (outcome (list (blocks R))) :=
  match names with
  | [] => Some (Ok [])
  | n :: names' =>
    match read_source depth disk sp Jmax s n with
    | None => None
    | Some (Ok b) => match read_sources depth disk sp Jmax s names' with Some (Ok l) => Some (Ok (b :: l)) | r => r end
    | Some Exit => Some Exit | Some AssertFail => Some AssertFail | Some UB => Some UB
    end
  end.
(** :109-181 main.  The accumulation of a species changes nothing that the reading of the next one uses *)
Definition jpv_run (B : rellib) (depth : nat) (disk : string -> option textfile) (p : jparams) : option (outcome (string * relfile components)) :=
  let sp := space_of B (j_Nmax p) (j_Jmax p) in
  let o := OpLab 0 0 0 (j_T0_max p) in
  let s0 := jt_sectors r_J r_T r_g sp 0 0 0 in
  let write (c : components) := check (writable B (j_target p)) ;;; Ok (j_target p, RelFile o (j_Nmax p) (j_Jmax p) c) in
  match read_sources depth disk sp (j_Jmax p) s0 (j_sources p) with
  | None => None
  | Some r => Some (
      bs <- r ;; z <- zero_components o sp ;;
      if j_T0_max p =? 0 then b <- get (nth_error bs 0) ;; c <- store z 0 (s0, b) ;; write c
      else c <- accumulate sp s0 bs z ;; write c)
  end.
Definition jpv_main (B : rellib) (depth : nat) (disk : string -> option textfile) (ls : list (list word)) : option (outcome (string * relfile components)) :=
  match jpv_read ls with
  | Ok p => jpv_run B depth disk p
  | Exit => Some Exit | AssertFail => Some AssertFail | UB => Some UB
  end.

(** ** jpvstat.cpp:42-124: the arguments; with more than one the name of the file stays empty *)
Inductive started : Type := Usage | Reads (file : string).
Definition stat_arguments (args : list string) : started :=
  match args with
  | [] => Usage
  | [a] => if String.eqb a "--help" then Usage else Reads a
  | a :: _ => if String.eqb a "--help" then Usage else Reads ""
  end.
Definition stat_main (B : rellib) (depth : nat) (disk : string -> option textfile) (args : list string) : option (outcome unit) :=
  match stat_arguments args with
  | Usage => Some (Ok tt)
  | Reads file =>
    let sp := space_of B 99 99 in
    match read_source depth disk sp 99 (jt_sectors r_J r_T r_g sp 0 0 0) file with
    | None => None
    | Some r => Some (_ <- r ;; Ok tt)
    end
  end.
