(** The rest of programs/h2utils/h2mixer.cpp: control file, target indexing, transformations, one-body channels, and the
    program as a whole.  Two-body channels and the main loop are in MixModel.v, the operators themselves in ObmModel.v.

    Simplifications: double is R, int has unlimited size; a word is extracted whole; mcutils::GetLine gives the lines with
    words, unchanged (blanks at the end of a line are kept); files are represented by what is read from them, and a target
    does not replace a file that is still to be read; an exception that nobody catches ends the program.  The two-body
    spaces and sectors are built by module basis (absent), they are parameters; its orbital lists are defined below. *)
From Coq Require Import String List ZArith Reals Bool.
From Verif Require Import Base RMat H2Model MapModel XformModel SepModel OscModel BlockModel ObioModel MixModel ObmModel NatModel RgModel.
Import ListNotations.
Open Scope R_scope.
Open Scope outcome_scope.

(** a line: its words, and whether blanks follow the last one *)
Record cline : Type := CLine { cl_words : list word; cl_blank : bool }.
(** basis::WeightMax(wp,wn,wpp,wnn,wpn) *)
Record weights : Type := WMax { wm_p : R; wm_n : R; wm_pp : R; wm_nn : R; wm_pn : R }.
(** basis::WeightMax(rank,cutoff); [tb]: rank kTwoBody *)
Definition oscillator_weights (tb : bool) (N : Z) : weights :=
  let t := if tb then IZR N else IZR (2 * N) in WMax (IZR N) (IZR N) t t t.

(** channels before construction (h2mixer.cpp:238-392, 469-665) *)
Inductive ob_source : Type :=
| OInput (id file : string) (q : qn)
| OBuiltin (id file : string)
| OLinear (id : string) (terms : list (string * R))
| OTensor (id a b : string) (J0 : Z) (scale : R)
| OXform (id src xf : string).
Inductive tb_source : Type :=
| TInput (id file : string)
| TBuiltin (id : string)
| TOperatorU (id ob : string)
| TOperatorV (id a b : string) (scale : R)
| TXform (id file : string) (w : weights) (xf : string).
(** RunParameters (h2mixer.cpp:109-133) and the lists filled by ReadParameters; None: not initialised *)
Record control : Type := Control {
  c_cutoff : Z; c_orbitals : string; c_weights : option weights; c_q : qn; c_mass : option Z; c_format : Z;
  c_xforms : list (string * string); c_ob : list ob_source; c_tb : list tb_source; c_targets : list (string * list (string * R)) }.
Local Open Scope string_scope.
Definition control0 : control := Control (-1) "" None (0, 0, 0)%Z None 0 [] [] [] [].

(** ** ReadParameters, h2mixer.cpp:707-987 *)
(** an argument that is extracted only if eof has not been reached (h2mixer.cpp:807-811, 840-844, 931-935) *)
Definition optional {A} (read : list word -> outcome (A * list word)) (default : A) (blank : bool) (l : list word) : outcome A :=
  match l with
  | [] => if blank then Exit else Ok default
  | _ => ' (x, _) <- read l ;; Ok x
  end.
(** extraction into a string, without ParsingCheck *)
Definition text_or_empty (l : list word) : string * list word := match l with w :: l' => (w_text w, l') | [] => ("", []) end.
Definition next_weights (l : list word) : outcome (weights * list word) :=
  ' (p, l1) <- next_d l ;; ' (n, l2) <- next_d l1 ;; ' (pp, l3) <- next_d l2 ;; ' (nn, l4) <- next_d l3 ;; ' (pn, l5) <- next_d l4 ;;
  Ok (WMax p n pp nn pn, l5).
Definition next_q (l : list word) : outcome (qn * list word) :=
  ' (J0, l1) <- next_i l ;; ' (g0, l2) <- next_i l1 ;; ' (Tz0, l3) <- next_i l2 ;; Ok ((J0, g0, Tz0), l3).
(** h2mixer.cpp:280-305 *)
Definition builtins : list (string * (gen_type * Z * qn)) :=
  ("identity", (GRadial TOther, 0%Z, (0, 0, 0)%Z)) :: angular_momenta ++ isospins ++ ladders.
(** define-ob-source, h2mixer.cpp:784-867 *)
Definition read_ob (blank : bool) (line : list word) : outcome ob_source :=
  ' (sub, l) <- next_text line ;;
  if String.eqb sub "input" then
    ' (id, l1) <- next_text l ;; ' (file, l2) <- next_text l1 ;; ' (q, _) <- next_q l2 ;; Ok (OInput id file q)
  else if String.eqb sub "builtin" then
    ' (id, l1) <- next_text l ;; file <- optional next_text "" blank l1 ;; _x <- named builtins id ;; Ok (OBuiltin id file)
  else if String.eqb sub "linear-combination" then
    ' (id, _) <- next_text l ;; Ok (OLinear id [])
  else if String.eqb sub "tensor-product" then
    ' (id, l1) <- next_text l ;; ' (a, l2) <- next_text l1 ;; ' (b, l3) <- next_text l2 ;; ' (J0, l4) <- next_i l3 ;;
    scale <- optional next_d 1 blank l4 ;; Ok (OTensor id a b J0 scale)
  else if String.eqb sub "xform" then
    ' (id, l1) <- next_text l ;; ' (src, l2) <- next_text l1 ;; ' (xf, _) <- next_text l2 ;; Ok (OXform id src xf)
  else Exit.
(** define-tb-source, h2mixer.cpp:889-963; the builtin operators are those of lines 506-508 *)
Definition read_tb (blank : bool) (line : list word) : outcome tb_source :=
  ' (sub, l) <- next_text line ;;
  if String.eqb sub "input" then ' (id, l1) <- next_text l ;; ' (file, _) <- next_text l1 ;; Ok (TInput id file)
  else if String.eqb sub "builtin" then
    ' (id, _) <- next_text l ;; if String.eqb id "identity" || String.eqb id "loop-test" then Ok (TBuiltin id) else Exit
  else if String.eqb sub "operatorU" then ' (id, l1) <- next_text l ;; ' (ob, _) <- next_text l1 ;; Ok (TOperatorU id ob)
  else if String.eqb sub "operatorV" then
    ' (id, l1) <- next_text l ;; ' (a, l2) <- next_text l1 ;; ' (b, l3) <- next_text l2 ;;
    scale <- optional next_d 1 blank l3 ;; Ok (TOperatorV id a b scale)
  else if String.eqb sub "xform" then
    ' (id, l1) <- next_text l ;; ' (file, l2) <- next_text l1 ;; ' (w, l3) <- next_weights l2 ;; ' (xf, _) <- next_text l3 ;;
    Ok (TXform id file w xf)
  else Exit.
(** back() of a vector that is not empty *)
Fixpoint on_last {A} (f : A -> outcome A) (l : list A) : outcome (list A) :=
  match l with [] => UB | [x] => y <- f x ;; Ok [y] | x :: l' => r <- on_last f l' ;; Ok (x :: r) end.
Definition nonempty {A} (l : list A) : bool := match l with [] => false | _ => true end.
Definition add_term (ic : string * R) (s : ob_source) : outcome ob_source :=
  match s with OLinear id terms => Ok (OLinear id (terms ++ [ic])) | _ => Exit end.
(** XformMap::emplace: a name that exists keeps its entry *)
Definition add_xform (xs : list (string * string)) (id file : string) : list (string * string) :=
  match assoc xs id with Some _ => xs | None => (xs ++ [(id, file)])%list end.
(** the body of the loop over lines *)
Definition read_line (c : control) (line : cline) : outcome control :=
  let '(Control cut orbs w q A fmt xs ob tb tg) := c in
  let blank := cl_blank line in
  ' (keyword, l) <- next_text (cl_words line) ;;
  if String.eqb keyword "set-target-indexing" then
    ' (f, l1) <- next_text l ;; ' (w', _) <- next_weights l1 ;; Ok (Control cut f (Some w') q A fmt xs ob tb tg)
  else if String.eqb keyword "set-target-indexing-oscillator" then
    ' (rank, l1) <- next_text l ;; ' (N, _) <- next_i l1 ;;
    if String.eqb rank "ob" then Ok (Control N orbs (Some (oscillator_weights false N)) q A fmt xs ob tb tg)
    else if String.eqb rank "tb" then Ok (Control N orbs (Some (oscillator_weights true N)) q A fmt xs ob tb tg)
    else Exit
  else if String.eqb keyword "set-target-multipolarity" then
    ' (q', _) <- next_q l ;; Ok (Control cut orbs w q' A fmt xs ob tb tg)
  else if String.eqb keyword "set-mass" then
    ' (A', _) <- next_i l ;; Ok (Control cut orbs w q (Some A') fmt xs ob tb tg)
  else if String.eqb keyword "set-output-format" then
    ' (fmt', _) <- next_i l ;; Ok (Control cut orbs w q A fmt' xs ob tb tg)
  else if String.eqb keyword "define-xform" then
    let (id, l1) := text_or_empty l in let (file, _) := text_or_empty l1 in
    Ok (Control cut orbs w q A fmt (add_xform xs id file) ob tb tg)
  else if String.eqb keyword "define-ob-source" then
    s <- read_ob blank l ;; Ok (Control cut orbs w q A fmt xs (ob ++ [s]) tb tg)
  else if String.eqb keyword "add-ob-source" then
    cassert (nonempty ob) ;;;
    ' (id, l1) <- next_text l ;; ' (x, _) <- next_d l1 ;; ob' <- on_last (add_term (id, x)) ob ;;
    Ok (Control cut orbs w q A fmt xs ob' tb tg)
  else if String.eqb keyword "define-tb-source" then
    s <- read_tb blank l ;; Ok (Control cut orbs w q A fmt xs ob (tb ++ [s]) tg)
  else if String.eqb keyword "define-target" then
    ' (f, _) <- next_text l ;; Ok (Control cut orbs w q A fmt xs ob tb (tg ++ [(f, [])]))
  else if String.eqb keyword "add-source" then
    cassert (nonempty tg) ;;;
    ' (id, l1) <- next_text l ;; ' (x, _) <- next_d l1 ;;
    tg' <- on_last (fun t => Ok (fst t, (snd t ++ [(id, x)])%list)) tg ;; Ok (Control cut orbs w q A fmt xs ob tb tg')
  else Exit.
Definition read_control (lines : list cline) : outcome control := for_each lines (fun line c => read_line c line) control0.

(** ** Target indexing, h2mixer.cpp:1420-1454 *)
(** basis::TruncateOrbitalList: the orbitals up to the one-body weight of their species *)
Definition truncate (w : weights) (os : list (oinfo R)) : list (oinfo R) :=
  filter (fun o => if Rle_dec (oi_w o) (match ll_sp (oi_lab o) with SP => wm_p w | SN => wm_n w end) then true else false) os.
(** basis::OrbitalSpacePN(orbital_info): by species, in the order of the list *)
Definition orbital_space_pn (os : list (oinfo R)) : ospace :=
  fun sp => map (fun o => OL (oi_n o) (ll_l (oi_lab o)) (ll_2j (oi_lab o))) (filter (fun o => osp_eqb (ll_sp (oi_lab o)) sp) os).
(** keys of shell::kH2SpaceOrdering (h2_io.h:103); at() *)
Definition known_format (f : Z) : bool := ((f =? 0) || (f =? 15099) || (f =? 15200))%Z.

(** what is on the disk: orbital lists, one-body operators, two-body operators *)
Record h2file : Type := H2File { h_file : infile; h_pre : weights -> qn -> tindex }.
Record disk : Type := Disk { d_orbitals : string -> option (list (oinfo R)); d_ob : string -> option obfile; d_h2 : string -> option h2file }.
(** ParseOrbitalPNStream, InOBMEStream, InH2Stream of a file that is missing or of another kind end the program *)
Definition open_file {A} (o : option A) : outcome A := match o with Some x => Ok x | None => Exit end.

Section Program.
Variable d : disk.
(** orbitals of basis::OrbitalSpacePN(N), basis::TwoBodySpaceJJJPN for orbitals, truncation and format (its ordering),
    basis::TwoBodySectorsJJJPN *)
Variable oscillator_orbitals : Z -> list (oinfo R).
Variable mk_space : list (oinfo R) -> weights -> Z -> list subspace.
Variable mk_sectors : list subspace -> qn -> list sector.
(** modules am and spline *)
Variable spline : spline_me.
Variable crme : Z -> Z -> Z -> Z -> Z -> R.
Variable am_rme : am_type -> Z -> Z -> Z -> Z -> R.
Variable inv_sqrt_4pi : R.
Variable racah : Z -> Z -> Z -> Z -> Z -> Z -> R.
Variable F1 F2 : factor1.
Variable F12 : factor12.
Variable tol : R.

Definition target_orbitals (c : control) : outcome (list (oinfo R)) :=
  check (known_format (c_format c)) ;;;
  if (0 <=? c_cutoff c)%Z then Ok (oscillator_orbitals (c_cutoff c))
  else os <- open_file (d_orbitals d (c_orbitals c)) ;; w <- get (c_weights c) ;; Ok (truncate w os).
Definition target_index (c : control) : outcome (list (oinfo R) * tindex) :=
  os <- target_orbitals c ;; w <- get (c_weights c) ;; 
  let sp := mk_space os w (c_format c) in Ok (os, TIx (orbital_space_pn os) sp (mk_sectors sp (c_q c)) (c_q c)).

(** InitializeXforms, h2mixer.cpp:995-1041.  The order of an unordered_map is not specified; it decides only about which
    of several defective files is reported *)
Definition read_xforms (c : control) : outcome (list (string * obfile)) :=
  map_blocks (fun p => f <- open_file (d_ob d (snd p)) ;; f' <- read_xform f ;; Ok (fst p, f')) (c_xforms c).

(** ** One-body channels, h2mixer.cpp:1047-1415; [tsp] is OrbitalSpaceLJPN(target_indexing.orbital_space) *)
(** OneBodyInputChannel, h2mixer.cpp:1047-1098.  The same space is passed to SetToIndexing (obme_io.cpp:34-45) for bra and
    ket, so that it ends as the ket space of the file, and the sectors are those of this space with itself *)
Definition h2_input_channel (id : string) (file : string) (q : qn) (ops : opmap) : outcome opmap :=
  match assoc ops id with
  | Some _ => Exit
  | None =>
      f <- open_file (d_ob d file) ;;
      cassert (q_eqb q (of_q f)) ;;;
      add_new ops id (data_of (of_ket f) (of_q f) (sectors_of (of_ket f) (of_ket f) (of_q f)) (of_blocks f))
  end.
(** OneBodyBuiltinChannel, h2mixer.cpp:1100-1217: as OneBodyGeneratedChannel of obmixer (ObmModel.v), oscillator basis *)
Definition h2_builtin_channel (tsp : lspace) (id file : string) (ops : opmap) : outcome opmap :=
  match assoc ops id with
  | Some _ => Exit
  | None =>
      sp <- (if String.eqb file "" then Ok tsp else os <- open_file (d_orbitals d file) ;; Ok (forget (mk_wspace os))) ;;
      ' (t, order, q) <- named builtins id ;;
      generated_channel spline crme am_rme inv_sqrt_4pi (Run BOscillator 1 tsp) id t order q (Some sp) ops
  end.
(** OneBodyLinearCombinationChannel (1219-1284, MixModel.v), OneBodyTensorProductChannel (1286-1352) and OneBodyXformChannel
    (1354-1415), which are as those of obmixer (ObmModel.v) *)
Definition construct (tsp : lspace) (xs : list (string * obfile)) (s : ob_source) (ops : opmap) : outcome opmap :=
  match s with
  | OInput id file q => h2_input_channel id file q ops
  | OBuiltin id file => h2_builtin_channel tsp id file ops
  | OLinear id terms => linear_combination (fun sp q => sectors_of sp sp q) ops id terms
  | OTensor id a b J0 scale => tensor_channel racah id a b J0 scale ops
  | OXform id src xf => xform_ob_channel id src xf xs ops
  end.
Definition construct_all (tsp : lspace) (xs : list (string * obfile)) (ss : list ob_source) : outcome opmap :=
  for_each ss (construct tsp xs) [].

(** ** Two-body channels *)
(** basis::MatrixElementLJPN as used by tbme_separable.cpp and tbme_xform.cpp; an orbital that the space does not have gives
    0 here (absent module) *)
Definition position (sp : lspace) (s : ospecies) (a : olabel) : option (nat * nat) :=
  match look_up_subspace sp (LL s (ol_l a) (ol_2j a)) with
  | Some X => match nth_error sp X with
              | Some x => match find_ix (Z.eqb (ol_n a)) (snd x) with Some i => Some (X, i) | None => None end
              | None => None
              end
  | None => None
  end.
Definition element (bra ket : lspace) (s : lsectors) (ms : blocks R) (sa : ospecies) (a : olabel) (sb : ospecies) (b : olabel) : R :=
  match position bra sa a, position ket sb b with
  | Some (X, i), Some (Y, k) =>
      match look_up_sector s X Y with
      | Some n => match nth_error ms n with Some m => at_ m i k | None => 0 end
      | None => 0
      end
  | _, _ => 0
  end.
Definition obop_of (o : obdata) (q : qn) : SepModel.obop :=
  let '(J0, g0, Tz0) := q in
  SepModel.ObOp J0 g0 Tz0 (fun x y => element (od_space o) (od_space o) (od_sectors o) (od_blocks o) (o_sp x) (o_lab x) (o_sp y) (o_lab y)).
Definition ospace_of (sp : lspace) : ospace :=
  fun s => flat_map (fun x => if osp_eqb (ll_sp (fst x)) s then map (fun n => OL n (ll_l (fst x)) (ll_2j (fst x))) (snd x) else []) sp.
Definition overlaps_of (f : obfile) : overlaps := fun sp a b => element (of_bra f) (of_ket f) (of_sectors f) (of_blocks f) sp a sp b.
(** the operators whose quantum numbers have been set, as MixModel.v takes them *)
Definition known_ops (ops : opmap) : obmap :=
  flat_map (fun p => match od_q (snd p) with Some q => [(fst p, (ospace_of (od_space (snd p)), obop_of (snd p) q))] | None => [] end) ops.
(** quantum numbers that were never set are read *)
Definition set_q (ops : opmap) (id : string) : outcome unit :=
  match assoc ops id with Some o => match od_q o with Some _ => Ok tt | None => UB end | None => Ok tt end.
(** InitializeChannel of the channels, h2mixer.cpp:1460-1626 *)
Definition tb_channel (c : control) (xs : list (string * obfile)) (ops : opmap) (tgt : tindex) (s : tb_source) : outcome (string * channel) :=
  let '(J0, g0, Tz0) := c_q c in
  let init := initialize (Params J0 g0 Tz0 (c_mass c)) (map (fun p => (fst p, overlaps_of (snd p))) xs) (known_ops ops) tgt in
  match s with
  | TInput id file => f <- open_file (d_h2 d file) ;; init (id, SInput (h_file f))
  | TBuiltin id => init (id, SBuiltin)
  | TOperatorU id ob => set_q ops ob ;;; init (id, SOperatorU ob)
  | TOperatorV id a b scale => set_q ops a ;;; set_q ops b ;;; init (id, SOperatorV a b scale)
  | TXform id file w xf => f <- open_file (d_h2 d file) ;; init (id, SXform (h_file f) (h_pre f w (c_q c)) xf)
  end.
(** main, h2mixer.cpp:1965-2071: the names of the targets, and for each sector the matrix written to each of them *)
Definition h2mixer (lines : list cline) : outcome (list string * list (list (mat R))) :=
  c <- read_control lines ;;
  ' (os, tgt) <- target_index c ;;
  xs <- read_xforms c ;;
  ops <- construct_all (forget (mk_wspace os)) xs (c_ob c) ;;
  cs <- map_blocks (tb_channel c xs ops tgt) (c_tb c) ;;
  let '(J0, g0, Tz0) := c_q c in
  out <- run F1 F2 F12 tol (Params J0 g0 Tz0 (c_mass c)) tgt cs (map snd (c_targets c)) ;;
  Ok (map fst (c_targets c), out).
End Program.
