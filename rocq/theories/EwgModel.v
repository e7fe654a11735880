(** programs/obutils/ew-gen.cpp: control file and program.  The targets themselves are in ObmModel.v.

    Simplifications: as in ObmModel.v and HmModel.v.  Lines come from std::getline: a line is the list of its words, which may
    be empty.  An operator file is what is read from it and whether its elements are those of a spherical tensor operator; a
    file that cannot be read ends the program, as does an exception that nobody catches.  Radial types o and g are one type
    (neither is ever used).  mcutils::FileExistCheck of an output file only warns. *)
From Coq Require Import String List ZArith Reals Bool.
From Verif Require Import Base RMat H2Model MapModel XformModel SepModel OscModel BlockModel ObioModel MixModel ObmModel NatModel RgModel HmModel.
Import ListNotations.
Open Scope R_scope.
Open Scope outcome_scope.

(** ew-gen.cpp:69-98 *)
Inductive emtype : Type := ElE | ElDl | ElDs.
Local Open Scope string_scope.
Definition em_names : list (string * emtype) := [("E", ElE); ("Dl", ElDl); ("Ds", ElDs)].
Definition weak_names : list (string * bool) := [("F", false); ("GT", true)].
Definition ew_am_names : list (string * am_type) := [("l", AOrbital); ("s", ASpin)].
Definition ew_isospin_names : list (string * Z) := [("tz", 0%Z); ("t+", 1%Z); ("t-", (-1)%Z)].
(** basis::kCharCodeOperatorTypePN; None is the total operator *)
Definition species_names : list (string * option ospecies) := [("p", Some SP); ("n", Some SN); ("total", None)].
(** TargetChannel, ew-gen.cpp:147-161 *)
Inductive ewtarget : Type := EmTarget (t : emtype) (lambda : Z) (species : option ospecies) (file : string) | WeakTarget (gt : bool) (file : string).
Definition ewfile (t : ewtarget) : string := match t with EmTarget _ _ _ f | WeakTarget _ f => f end.
(** RunParameters, ew-gen.cpp:164-172; scale_factor has no initial value *)
Record ewrun : Type := EwRun {
  ew_space : lspace; ew_scale : option R; ew_radial : list (radial_type * Z * obfile); ew_am : list (am_type * obfile); ew_iso : list (Z * obfile);
  ew_targets : list ewtarget }.
Definition ewrun0 : ewrun := EwRun [] None [] [] [] [].
(** orbital files and operator files *)
Record ewdisk : Type := EwDisk { ew_orbitals : string -> option (list (oinfo R)); ew_elements : string -> option (obfile * bool) }.
(** std::map::insert: an element that exists is kept *)
Definition insert_new {K} (eqb : K -> K -> bool) (k : K) (f : obfile) (l : list (K * obfile)) : list (K * obfile) :=
  if existsb (fun p => eqb k (fst p)) l then l else l ++ [(k, f)].
Definition rtype_eqb (a b : radial_type) : bool := match a, b with TR, TR | TK, TK | TOther, TOther => true | _, _ => false end.
Definition label_eqb (a b : radial_type * Z) : bool := rtype_eqb (fst a) (fst b) && (snd a =? snd b)%Z.
(** OperatorData, ew-gen.cpp:105-139 *)
Definition load (d : ewdisk) (file : string) : outcome obfile :=
  match ew_elements d file with Some (f, spherical) => ew_load f spherical | None => Exit end.
(** the body of the loop over lines, ew-gen.cpp:182-304 *)
Definition ew_line (d : ewdisk) (r : ewrun) (line : list word) : outcome ewrun :=
  let '(EwRun sp b ra am iso ts) := r in
  match line with
  | [] => Ok r
  | k :: l =>
    let keyword := w_text k in
    if String.eqb keyword "" || String.eqb keyword "#" then Ok r
    else if String.eqb keyword "set-indexing" then
      ' (file, _) <- next_text l ;; os <- open_file (ew_orbitals d file) ;; Ok (EwRun (forget (mk_wspace os)) b ra am iso ts)
    else if String.eqb keyword "set-basis-scale-factor" then
      ' (x, _) <- next_d l ;; Ok (EwRun sp (Some x) ra am iso ts)
    else if String.eqb keyword "define-radial-source" then
      ' (ty, l1) <- next_text l ;; ' (power, l2) <- next_i l1 ;; ' (file, _) <- next_text l2 ;;
      t <- named radial_names ty ;; f <- load d file ;; Ok (EwRun sp b (insert_new label_eqb (t, power) f ra) am iso ts)
    else if String.eqb keyword "define-am-source" then
      ' (ty, l1) <- next_text l ;; ' (file, _) <- next_text l1 ;;
      t <- named ew_am_names ty ;; f <- load d file ;; Ok (EwRun sp b ra (insert_new am_eqb t f am) iso ts)
    else if String.eqb keyword "define-isospin-source" then
      ' (ty, l1) <- next_text l ;; ' (file, _) <- next_text l1 ;;
      Tz0 <- named ew_isospin_names ty ;; f <- load d file ;; Ok (EwRun sp b ra am (insert_new Z.eqb Tz0 f iso) ts)
    else if String.eqb keyword "define-em-target" then
      ' (ty, l1) <- next_text l ;; ' (lambda, l2) <- next_i l1 ;; ' (code, l3) <- next_text l2 ;; ' (file, _) <- next_text l3 ;;
      t <- named em_names ty ;; s <- named species_names code ;; Ok (EwRun sp b ra am iso (ts ++ [EmTarget t lambda s file]))
    else if String.eqb keyword "define-weak-target" then
      ' (ty, l1) <- next_text l ;; ' (file, _) <- next_text l1 ;;
      gt <- named weak_names ty ;; Ok (EwRun sp b ra am iso (ts ++ [WeakTarget gt file]))
    else Exit
  end.
Definition ew_lines (d : ewdisk) (lines : list (list word)) : outcome ewrun := for_each lines (fun line r => ew_line d r line) ewrun0.
Section Program.
Variable racah : Z -> Z -> Z -> Z -> Z -> Z -> R.
Variable inv_sqrt_4pi : R.
(** look-ups of GenerateTarget are for kR *)
Definition of_kind_r (l : list (radial_type * Z * obfile)) : list (Z * obfile) :=
  map (fun p => (snd (fst p), snd p)) (filter (fun p => rtype_eqb (fst (fst p)) TR) l).
(** GenerateTarget, ew-gen.cpp:563-586 *)
Definition generate (r : ewrun) (t : ewtarget) : outcome obfile :=
  match t with
  | EmTarget ElE lambda s _ => target_E (ew_space r) (ew_scale r) (of_kind_r (ew_radial r)) lambda s
  | EmTarget ElDl lambda s _ => target_M racah inv_sqrt_4pi (ew_space r) (ew_scale r) (of_kind_r (ew_radial r)) (ew_am r) true lambda s
  | EmTarget ElDs lambda s _ => target_M racah inv_sqrt_4pi (ew_space r) (ew_scale r) (of_kind_r (ew_radial r)) (ew_am r) false lambda s
  | WeakTarget gt _ => target_weak racah (ew_space r) (ew_am r) (ew_iso r) gt
  end.
(** main, ew-gen.cpp:588-606: the files written, in this order *)
Definition ewgen (d : ewdisk) (lines : list (list word)) : outcome (list (string * obfile)) :=
  r <- ew_lines d lines ;; map_blocks (fun t => f <- generate r t ;; Ok (ewfile t, f)) (ew_targets r).
End Program.
