(** programs/obutils/obmixer.cpp: control file and program.  The channels themselves are in ObmModel.v.

    Simplifications: as in ObmModel.v and HmModel.v (lines have been through mcutils::GetLine; a word is extracted whole;
    a target does not replace a file that is still to be read; an exception that nobody catches ends the program). *)
From Coq Require Import String List ZArith Reals Bool.
From Verif Require Import Base RMat H2Model MapModel XformModel SepModel OscModel BlockModel ObioModel MixModel ObmModel NatModel RgModel HmModel.
Import ListNotations.
Open Scope R_scope.
Open Scope outcome_scope.

(** channels, obmixer.cpp:260-386 *)
Inductive source : Type :=
| XInput (id file : string) (q : qn)
| XGenerated (id : string) (t : gen_type) (order : Z) (q : qn) (file : string)
| XLinear (id : string) (terms : list (string * R))
| XTensor (id a b : string) (J0 : Z) (scale : R)
| XXform (id src xf : string).
(** RunParameters (obmixer.cpp:135-159) and the lists filled by ReadParameters *)
Record xcontrol : Type := XControl {
  xc_run : runpar; xc_xforms : list (string * string); xc_sources : list source; xc_targets : list (string * string) }.
(** default values, obmixer.cpp:138-140 *)
Definition xcontrol0 : xcontrol := XControl (Run BOscillator 1 []) [] [] [].
(** the orbital space of a file; FileExistCheck and ParseOrbitalPNStream end the program *)
Definition read_space (d : disk) (file : string) : outcome lspace := os <- open_file (d_orbitals d file) ;; Ok (forget (mk_wspace os)).

Local Open Scope string_scope.
(** the operators of a mode, obmixer.cpp:85-122 *)
Definition mode_table (mode : string) : option (list (string * (gen_type * Z * qn))) :=
  if String.eqb mode "kinematic" then Some kinematic
  else if String.eqb mode "am" then Some angular_momenta
  else if String.eqb mode "isospin" then Some isospins
  else if String.eqb mode "ladder" then Some ladders
  else None.
(** define-source, obmixer.cpp:470-612 *)
Definition read_source (blank : bool) (line : list word) : outcome source :=
  ' (mode, l) <- next_text line ;; ' (id, l1) <- next_text l ;;
  match mode_table mode with
  | Some table => ' (t, order, q) <- named table id ;; file <- optional next_text "" blank l1 ;; Ok (XGenerated id t order q file)
  | None =>
    if String.eqb mode "solid-harmonic" then
      ' (coordinate, l2) <- next_text l1 ;; ' (order, l3) <- next_i l2 ;; ' (J0, l4) <- next_i l3 ;;
      t <- named radial_names coordinate ;; file <- optional next_text "" blank l4 ;;
      Ok (XGenerated id (GRadial t) order (J0, Z.rem J0 2, 0%Z) file)
    else if String.eqb mode "input" then ' (file, l2) <- next_text l1 ;; ' (q, _) <- next_q l2 ;; Ok (XInput id file q)
    else if String.eqb mode "linear-combination" then Ok (XLinear id [])
    else if String.eqb mode "tensor-product" then
      ' (a, l2) <- next_text l1 ;; ' (b, l3) <- next_text l2 ;; ' (J0, l4) <- next_i l3 ;;
      scale <- optional next_d 1 blank l4 ;; Ok (XTensor id a b J0 scale)
    else if String.eqb mode "xform" then ' (src, l2) <- next_text l1 ;; ' (xf, _) <- next_text l2 ;; Ok (XXform id src xf)
    else Exit
  end.
(** add-source, obmixer.cpp:613-635 *)
Definition add_source (ic : string * R) (s : source) : outcome source :=
  match s with XLinear id terms => Ok (XLinear id (terms ++ [ic])) | _ => Exit end.
(** the body of the loop over lines, obmixer.cpp:425-649 *)
Definition xread_line (d : disk) (c : xcontrol) (line : cline) : outcome xcontrol :=
  let '(XControl rp xs ss ts) := c in
  ' (keyword, l) <- next_text (cl_words line) ;;
  if String.eqb keyword "set-basis" then
    ' (b, l1) <- next_text l ;; ' (file, _) <- next_text l1 ;; bt <- named basis_names b ;; sp <- read_space d file ;;
    Ok (XControl (Run bt (rn_length rp) sp) xs ss ts)
  else if String.eqb keyword "set-length-parameter" then
    ' (x, _) <- next_d l ;; Ok (XControl (Run (rn_basis rp) x (rn_space rp)) xs ss ts)
  else if String.eqb keyword "define-xform" then
    let (id, l1) := text_or_empty l in let (file, _) := text_or_empty l1 in Ok (XControl rp (add_xform xs id file) ss ts)
  else if String.eqb keyword "define-source" then
    s <- read_source (cl_blank line) l ;; Ok (XControl rp xs (ss ++ [s]) ts)
  else if String.eqb keyword "add-source" then
    cassert (nonempty ss) ;;;
    ' (id, l1) <- next_text l ;; ' (x, _) <- next_d l1 ;; ss' <- on_last (add_source (id, x)) ss ;; Ok (XControl rp xs ss' ts)
  else if String.eqb keyword "define-target" then
    ' (id, l1) <- next_text l ;; ' (file, _) <- next_text l1 ;; Ok (XControl rp xs ss (ts ++ [(id, file)]))
  else Exit.
Definition xread_control (d : disk) (lines : list cline) : outcome xcontrol := for_each lines (fun line c => xread_line d c line) xcontrol0.

Section Program.
Variable d : disk.
(** modules am and spline *)
Variable spline : spline_me.
Variable crme : Z -> Z -> Z -> Z -> Z -> R.
Variable am_rme : am_type -> Z -> Z -> Z -> Z -> R.
Variable inv_sqrt_4pi : R.
Variable racah : Z -> Z -> Z -> Z -> Z -> Z -> R.
(** InitializeXforms, obmixer.cpp:657-701; which of several defective files is reported is not specified *)
Definition xread_xforms (c : xcontrol) : outcome (list (string * obfile)) :=
  map_blocks (fun p => f <- open_file (d_ob d (snd p)) ;; f' <- read_xform f ;; Ok (fst p, f')) (xc_xforms c).
(** ConstructOneBodyOperatorData of a channel: files are opened after the name has been entered *)
Definition xconstruct (rp : runpar) (xs : list (string * obfile)) (s : source) (ops : opmap) : outcome opmap :=
  match s with
  | XInput id file q =>
      match assoc ops id with Some _ => Exit | None => f <- open_file (d_ob d file) ;; input_channel id f q ops end
  | XGenerated id t order q file =>
      match assoc ops id with
      | Some _ => Exit
      | None =>
          space <- (if String.eqb file "" then Ok None else sp <- read_space d file ;; Ok (Some sp)) ;;
          generated_channel spline crme am_rme inv_sqrt_4pi rp id t order q space ops
      end
  | XLinear id terms => linear_channel id terms ops
  | XTensor id a b J0 scale => tensor_channel racah id a b J0 scale ops
  | XXform id src xf => xform_ob_channel id src xf xs ops
  end.
Definition xconstruct_all (rp : runpar) (xs : list (string * obfile)) (ss : list source) : outcome opmap := for_each ss (xconstruct rp xs) [].
(** main, obmixer.cpp:1196-1269: the files written, in this order *)
Definition obmixer (lines : list cline) : outcome (list (string * obfile)) :=
  c <- xread_control d lines ;;
  xs <- xread_xforms c ;;
  ops <- xconstruct_all (xc_run c) xs (xc_sources c) ;;
  map_blocks (fun t => f <- write_channel spline (xc_run c) (fst t) ops ;; Ok (snd t, f)) (xc_targets c).
End Program.
