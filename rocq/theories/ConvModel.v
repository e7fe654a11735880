(** Model of programs/h2utils/h2conv.cpp, over the stream model of H2Model.

    Simplifications: the words of the command line are given, the format as a number (h2conv.cpp:50-57 stops for anything else); input and
    output are different files; progress output and timing are not modelled.  A subspace index basis::kNone makes LookUpSectorIndex give
    kNone, on which SeekToSector asserts (h2_io.cpp:401). *)
From Coq Require Import String List ZArith Bool.
From Verif Require Import Base H2Model MapModel.
Import ListNotations.
Open Scope outcome_scope.

Section Model.
Variable E : env.
Notation D := (dbl E).

(** InH2Stream of either medium, one ReadSector (h2_io.cpp:338-368) *)
Definition any_in := (instream E bstate + instream E (tstate E))%type.
Definition any_ix (st : any_in) : indexing E := match st with inl s => is_ix E bstate s | inr s => is_ix E (tstate E) s end.
Definition read_any (st : any_in) (i : nat) : outcome (mat D * any_in) :=
  match st with
  | inl s =>
      '(m, x) <- read_sector E bstate (length (ix_sectors E (is_ix E bstate s))) b_fail b_tell b_seek
                   (rd_bin E (is_fmt E bstate s) (is_ix E bstate s)) (sk_bin E (is_fmt E bstate s) (is_ix E bstate s)) i (is_state E bstate s) ;;
      Ok (m, inl (InStr E bstate (is_fmt E bstate s) (is_ix E bstate s) x))
  | inr s =>
      '(m, x) <- read_sector E (tstate E) (length (ix_sectors E (is_ix E (tstate E) s))) (t_fail E) (t_tell E) (t_seek E)
                   (rd_txt E (is_fmt E (tstate E) s) (is_ix E (tstate E) s)) (sk_txt E (is_fmt E (tstate E) s) (is_ix E (tstate E) s)) i
                   (is_state E (tstate E) s) ;;
      Ok (m, inr (InStr E (tstate E) (is_fmt E (tstate E) s) (is_ix E (tstate E) s) x))
  end.
(** OutH2Stream of either medium (H2Model); in mode kMatrix only the number of sectors written matters *)
Inductive any_out := OBin (s : outstream E Z) | OTxt (s : outstream E (list (word (txt E)))) | OMat (f : format) (ix : indexing E) (n : nat).
Definition create_any (filename : string) (f : format) (ix : indexing E) : outcome any_out :=
  md <- deduced_io_mode filename ;;
  match md with
  | KBinary => s <- create_bin E f ix ;; Ok (OBin s)
  | KText => s <- create_txt E f ix ;; Ok (OTxt s)
  | KMatrix => cassert (ordering_eqb (ix_ord E ix) (match f with V15200 => KTz | _ => KPN end)) ;;; Ok (OMat f ix 0)
  end.
Definition write_any (st : any_out) (w : nat * mat D * conversion) : outcome any_out :=
  match st with
  | OBin s => s' <- write_sector_bin E s w ;; Ok (OBin s')
  | OTxt s => s' <- write_sector_txt E s w ;; Ok (OTxt s')
  | OMat f ix n => n' <- matrix_write E f ix n w ;; Ok (OMat f ix n')
  end.
Definition close_any (st : any_out) : contents E :=
  match st with
  | OBin s => Bytes E (os_out E Z s)
  | OTxt s => Lines E (TFile E (os_out E (list (word (txt E))) s) true)
  | OMat _ _ _ => Bytes E []
  end.

(** kH2SpaceOrdering (h2_io.h:102-104) *)
Definition space_ordering (f : format) : ordering := match f with V15200 => KTz | _ => KPN end.
(** the output indexing (h2conv.cpp:96-107) *)
Definition conv_indexing (ix : indexing E) (f : format) : indexing E :=
  let space := mk_space E (space_ordering f) (ix_p E ix) (ix_n E ix) (ix_w E ix) in
  Ix E (ix_p E ix) (ix_n E ix) (space_ordering f) (ix_w E ix) space (ix_J0 E ix) (ix_g0 E ix) (ix_Tz0 E ix)
     (mk_sectors E space (ix_J0 E ix) (ix_g0 E ix) (ix_Tz0 E ix)).
(** the input sector of the labels of an output sector (h2conv.cpp:128-135) *)
Definition input_sector (ix : indexing E) (s : sector) : option nat :=
  match lookup labels_eqb (map sub_labels (ix_space E ix)) (sub_labels (s_bra s)),
        lookup labels_eqb (map sub_labels (ix_space E ix)) (sub_labels (s_ket s)) with
  | Some b, Some k => lookup pair_eqb (map (fun s => (s_bi s, s_ki s)) (ix_sectors E ix)) (b, k)
  | _, _ => None
  end.
(** the loop (h2conv.cpp:123-139) over the sector indices [h] *)
Fixpoint conv_loop (out : indexing E) (h : list nat) (ist : any_in) (ost : any_out) : outcome any_out :=
  match h with
  | [] => Ok ost
  | si :: h' =>
      s <- get (nth_error (ix_sectors E out) si) ;;
      i <- (match input_sector (any_ix ist) s with Some i => Ok i | None => AssertFail end) ;;
      '(m, ist') <- read_any ist i ;;
      ost' <- write_any ost (si, m, CNone) ;;
      conv_loop out h' ist' ost'
  end.
(** main (h2conv.cpp:70-158): the contents of the output file.  An unknown format number makes unordered_map::at throw. *)
Definition h2conv (code : Z) (input_name : string) (data : list Z) (file : tfile E) (output_name : string) : outcome (contents E) :=
  ist <- open_file E input_name data file ;;
  f <- format_of_code code ;;
  let out := conv_indexing (any_ix ist) f in
  ost <- create_any output_name f out ;;
  ost' <- conv_loop out (seq 0 (length (ix_sectors E (any_ix ist)))) ist ost ;;
  Ok (close_any ost').
End Model.
