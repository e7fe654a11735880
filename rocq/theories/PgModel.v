(** programs/relutils/pn2rel.cpp and relative-filter.cpp: the programs as a whole.  Reading of the interaction is in PnModel.v, one component of
    the filter in RelxModel.v.

    Simplifications as in RgnModel.v: a file is what is handed to its writer; a file that cannot be opened ends the program; spaces are parameters. *)
From Coq Require Import String List ZArith Reals Bool.
From Verif Require Import Base RMat OscModel BlockModel MoshModel ObioModel JpvModel MixModel IsoModel TrfModel RmeModel RelxModel PnModel RgnModel.
Import ListNotations.
Open Scope Z_scope.
Open Scope outcome_scope.

(** ** pn2rel.cpp:31-82 main; a text file is its lines *)
Definition pn_main (B : rellib) (to_int : string -> option Z) (disk : string -> option (list line)) (args : list string) : outcome (string * relfile components) :=
  ' (Nmax, Jmax, source, target) <- pn2rel_arguments to_int args ;;
  let sp := space_of B Nmax Jmax in
  let o := OpLab 0 0 0 2 in
  z <- zero_components o sp ;;
  lines <- (match disk source with Some lines => Ok lines | None => Exit end) ;;
  c <- read_pn_pn sp lines z ;;
  check (writable B target) ;;;
  Ok (target, RelFile o Nmax Jmax c).

(** ** relative-filter.cpp *)
(** :91-165 FilterOperator; the sectors are those of the file that was read; an isospin outside 0..2 is an index outside the array *)
Definition filter_operator (p : fparams) (sp : rspace) (o : oplab) (c : components) : outcome components :=
  for_each (zrange (o_T0_min o) (o_T0_max o)) (fun T0 out =>
    ' (s, ms) <- get (if 0 <=? T0 then nth_error c (Z.to_nat T0) else None) ;;
    r <- filter_component p sp s ms ;; store out (Z.to_nat T0) (s, r)) (map (fun x => (fst x, [])) c).
(** :171-212 main *)
Definition filter_main (B : rellib) (disk : string -> option (relfile components)) (lines : list (list string)) : outcome (string * relfile components) :=
  p <- read_fparams lines ;;
  f <- (match disk (fp_source p) with Some f => Ok f | None => Exit end) ;;
  c <- filter_operator p (space_of B (rf_Nmax f) (rf_Jmax f)) (rf_o f) (rf_c f) ;;
  check (writable B (fp_target p)) ;;;
  Ok (fp_target p, RelFile (rf_o f) (rf_Nmax f) (rf_Jmax f) c).
