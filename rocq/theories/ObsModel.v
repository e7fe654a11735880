(** programs/obutils/obscalc-ob.cpp as a program: control file, headers of the density files
    (libraries/density/obdme_io.cpp), output.  The elements of density files and the evaluation of an observable are in
    ObioModel.v.

    Simplifications: double and float are R; int has unlimited size except where a word is extracted; a word is extracted
    whole; of a density file blank lines and comment lines have no words; mcutils::GetLine gives the lines of the control
    file that have words; orbital files and operator files are represented by what is read from them, and a file of another
    kind ends the program; an exception that nobody catches ends the program.  basis::ParseOrbitalPNStream on the orbital
    lines of a density file is a parameter. *)
From Coq Require Import String List ZArith Reals Bool.
From Verif Require Import Base RMat H2Model MapModel OscModel BlockModel ObioModel MixModel ObmModel NatModel RgModel HmModel.
Import ListNotations.
Open Scope R_scope.
Open Scope outcome_scope.

Definition dline : Type := list (tok R).
Definition dtext : Type := list dline * bool.                 (* lines, whether the last one ends with a newline *)

Definition scan_d (l : dline) : outcome (R * dline) :=
  match l with TNum x :: l' => Ok (x, l') | TInt z :: l' => Ok (IZR z, l') | _ => Exit end.
(** std::getline, the contents of the line are not used *)
Definition raw_line (s : stream R) : stream R :=
  if st_fail s || st_eof s then St (st_rest s) (st_nl s) (st_eof s) true
  else match st_rest s with
       | [] => St [] (st_nl s) true true
       | l :: r => let eof := is_nil r && negb (st_nl s) in St r (st_nl s) eof (is_nil l && eof)
       end.
(** basis::OrbitalSpacePN(orbital_space().OrbitalInfo()).GetSubspace(i).size() *)
Definition species_size (sp : wspace R) (s : ospecies) : Z :=
  Z.of_nat (length (filter (fun o => osp_code (ll_sp (oi_lab o)) =? osp_code s)%Z (orbital_info sp))).
(** the assertions on the number of orbitals (:117-118, :165-166, :474-475) *)
Definition orbitals_agree (sp : wspace R) (np nn : Z) : outcome unit :=
  cassert (species_size sp SP =? np)%Z ;;; cassert (species_size sp SN =? nn)%Z.

(** * The multi-file formats *)
(** obdme_io.cpp:101-138 ReadInfoHeader1405: J0_max, number of elements of each species *)
Definition info_header_1405 (sp : wspace R) (s : stream R) : outcome (Z * Z * Z * stream R) :=
  let '(l2, s) := get_line [] s in ' (n, _) <- scan_u l2 ;; orbitals_agree sp n n ;;;
  let '(l3, s) := get_line l2 s in ' (J0_max, _) <- scan_i l3 ;;
  let '(l4, s) := get_line l3 s in ' (np, _) <- scan_u l4 ;;
  Ok (J0_max, np, np, s).
(** obdme_io.cpp:140-184 ReadInfoHeader1500 *)
Definition info_header_1500 (sp : wspace R) (s : stream R) : outcome (Z * Z * Z * stream R) :=
  let '(l2, s) := get_line [] s in ' (J0_max, _) <- scan_i l2 ;;
  let '(l3, s) := get_line l2 s in ' (np, w) <- scan_u l3 ;; ' (nn, _) <- scan_u w ;; orbitals_agree sp np nn ;;;
  let '(l4, s) := get_line l3 s in ' (ep, w) <- scan_u l4 ;; ' (en, _) <- scan_u w ;;
  Ok (J0_max, ep, en, raw_line (raw_line s)).
(** integers of a line *)
Fixpoint scan_ints (n : nat) (l : dline) : outcome (list Z) :=
  match n with O => Ok [] | S n' => ' (z, l') <- scan_i l ;; zs <- scan_ints n' l' ;; Ok (z :: zs) end.
(** n lines, each with a fresh string *)
Fixpoint int_lines (n k : nat) (s : stream R) : outcome (list (list Z) * stream R) :=
  match n with
  | O => Ok ([], s)
  | S n' => let '(l, s) := get_line [] s in zs <- scan_ints k l ;; ' (r, s) <- int_lines n' k s ;; Ok (zs :: r, s)
  end.
(** obdme_io.cpp:198-226 ReadInfo1405, :228-247 ReadInfo1500 *)
Definition fields_1405 (zs : list Z) : Z * (Z * Z * Z) * (Z * Z * Z) * Z :=
  match zs with [i; na; la; ja; nb; lb; jb; J0] => (i, (na, la, ja), (nb, lb, jb), J0) | _ => (0, (0, 0, 0), (0, 0, 0), 0)%Z end.
Definition fields_1500 (zs : list Z) : Z * (Z * Z * Z * Z) * (Z * Z * Z * Z) * Z * Z :=
  match zs with
  | [i; ia; na; la; ja; ib; nb; lb; jb; J0; c] => (i, (ia, na, la, ja), (ib, nb, lb, jb), J0, c)
  | _ => (0, (0, 0, 0, 0), (0, 0, 0, 0), 0, 0)%Z
  end.
(** obdme_io.cpp:79-99, 186-196: version, J0_max, numbers of elements, info lines *)
Definition read_info (sp : wspace R) (f : dtext) : outcome (Z * Z * Z * Z * list info_line) :=
  let '(l1, s) := get_line [] (open_text (fst f) (snd f)) in
  ' (version, _) <- scan_i l1 ;;
  if (version =? 1405)%Z then
    ' (J0_max, np, nn, s) <- info_header_1405 sp s ;;
    ' (zs, _) <- int_lines (Z.to_nat np) 8 s ;; Ok (version, J0_max, np, nn, info_1405 (map fields_1405 zs))
  else if (version =? 1500)%Z then
    ' (J0_max, np, nn, s) <- info_header_1500 sp s ;;
    ' (zs, _) <- int_lines (Z.to_nat np + Z.to_nat nn) 11 s ;; Ok (version, J0_max, np, nn, info_1500 (map fields_1500 zs))
  else Exit.
(** lines 3 and 4 of the data file (:315-341): 2M *)
Definition multi_state (l : dline) (twoJ n : Z) : outcome Z :=
  ' (M, w) <- scan_i l ;; ' (J, w) <- scan_i w ;; ' (k, w) <- scan_i w ;; ' (_, _) <- scan_i w ;;
  cassert (J =? twoJ)%Z ;;; cassert (k =? n)%Z ;;; Ok M.
(** obdme_io.cpp:290-361 ReadDataHeader: 2M of bra and ket *)
Definition data_header (version np nn twoJb nb twoJk nk : Z) (s : stream R) : outcome (Z * Z * stream R) :=
  let '(l1, s) := get_line [] s in ' (v, _) <- scan_i l1 ;; cassert (v =? version)%Z ;;;
  let '(l2, s) := get_line l1 s in ' (_, w) <- scan_i l2 ;; ' (_, _) <- scan_i w ;;
  let '(l3, s) := get_line l2 s in Mb <- multi_state l3 twoJb nb ;;
  let '(l4, s) := get_line l3 s in Mk <- multi_state l4 twoJk nk ;;
  let '(l5, s) := get_line l4 s in
  if (v =? 1405)%Z then
    ' (ep, w) <- scan_u l5 ;; ' (en, _) <- scan_u w ;; cassert (ep =? np)%Z ;;; cassert (en =? nn)%Z ;;; Ok (Mb, Mk, s)
  else
    ' (e, _) <- scan_u l5 ;; cassert (e =? np + nn)%Z ;;; Ok (Mb, Mk, s).
(** the words that operator>> of a double finds in the rest of the file *)
Definition as_number (t : tok R) : option R := match t with TNum x => Some x | TInt z => Some (IZR z) | TChr _ => None end.
Definition rest_words (s : stream R) : list (option R) :=
  if st_fail s || st_eof s then [] else map as_number (concat (st_rest s)).
(** a density stream: labels given when it was defined, and what obscalc-ob uses of it *)
Record dstream : Type := DStream {
  ds_2Jb : Z; ds_gb : Z; ds_nb : Z; ds_2Jk : Z; ds_gk : Z; ds_nk : Z; ds_od : ob_density }.
(** g0(), obdme_io.h:92 *)
Definition g0_of (gb gk : Z) : Z := Z.rem (gb + gk) 2.
(** obdme_io.cpp:51-77, 249-288.  Z and N of the ket are those of the bra, so that Tz0() is 0 *)
Definition multi_stream (sp : wspace R) (twoJb gb nb twoJk gk nk : Z) (info data : dtext) : outcome dstream :=
  ' (version, J0_max, np, nn, lines) <- read_info sp info ;;
  ' (Mb, Mk, s) <- data_header version np nn twoJb nb twoJk nk (open_text (fst data) (snd data)) ;;
  d <- init_storage selection (forget sp) 0 J0_max (g0_of gb gk) 0 ;;
  d <- read_data_loop (forget sp) lines 0 false (rest_words s) d ;;
  Ok (DStream twoJb gb nb twoJk gk nk (ObDe twoJb twoJk Mb Mk (g0_of gb gk) 0 d)).

(** * The single-file format *)
(** lines 2 and 3 (:418-444): Z, N, 2M.  There is no ParsingCheck: a word that is not an integer is taken as 0, what follows
    it or is missing stays indeterminate.  T and E are not used *)
Definition single_state (l : dline) (twoJ g n : Z) : outcome (Z * Z * Z) :=
  match l with
  | TInt z :: TInt a :: TInt _ :: TInt J :: TInt M :: l1 =>
      cassert (J =? twoJ)%Z ;;;
      match l1 with
      | TInt p :: l2 =>
          cassert ((p =? 1) || (p =? -1))%Z ;;; cassert (g =? if (p =? -1) then 1 else 0)%Z ;;;
          match l2 with
          | TInt k :: _ => cassert (k =? n)%Z ;;; Ok (z, a, M)
          | _ :: _ => cassert (0 =? n)%Z ;;; Ok (z, a, M)
          | [] => UB
          end
      | _ :: _ => AssertFail
      | [] => UB
      end
  | TInt z :: TInt a :: TInt _ :: TInt J :: _ :: _ => cassert (J =? twoJ)%Z ;;; UB
  | _ => UB
  end.
Fixpoint take_lines (n : nat) (old : dline) (s : stream R) : list dline * stream R :=
  match n with O => ([], s) | S n' => let '(l, s) := get_line old s in let '(ls, s) := take_lines n' l s in (l :: ls, s) end.
(** an orbital number of a data line *)
Definition orbital_no (orbs : list flab) (i : Z) : outcome flab :=
  match (if (1 <=? i)%Z then nth_error orbs (Z.to_nat (i - 1)) else None) with Some a => Ok a | None => Exit end.
(** obdme_io.cpp:514-542 ReadData1520 on the lines that are left *)
Fixpoint data_1520 (sp : lspace) (orbs : list flab) (nl : bool) (ls : list dline) (d : density) : outcome density :=
  match ls with
  | [] => Ok d
  | l :: ls' =>
      if is_nil l then data_1520 sp orbs nl ls' d
      else if is_nil ls' && negb nl then Ok d
      else
        ' (ia, w) <- scan_i l ;; ' (ib, w) <- scan_i w ;; ' (J0, w) <- scan_i w ;; ' (v, _) <- scan_d w ;;
        a <- orbital_no orbs ia ;; b <- orbital_no orbs ib ;;
        d1 <- put_labelled sp d a b J0 (v / ObioModel.hat (fl_2j a)) ;;
        data_1520 sp orbs nl ls' d1
  end.
Section Parser.
Variable parse_orbitals : list dline -> outcome (list (oinfo R)).
(** obdme_io.cpp:367-390, 392-410, 412-503 *)
Definition single_stream (sp : wspace R) (twoJb gb nb twoJk gk nk : Z) (data : dtext) : outcome dstream :=
  let '(l1, s) := get_line [] (open_text (fst data) (snd data)) in
  ' (version, _) <- scan_i l1 ;;
  if (version =? 1520)%Z then
    let '(l2, s) := get_line [] s in ' (Zb, Nb, Mb) <- single_state l2 twoJb gb nb ;;
    let '(l3, s) := get_line l2 s in ' (Zk, Nk, Mk) <- single_state l3 twoJk gk nk ;;
    cassert (Z.even (Zb - Nb - (Zk - Nk))) ;;;
    let '(l4, s) := get_line l3 s in ' (J0_min, _) <- scan_i l4 ;;
    let '(l5, s) := get_line l4 s in ' (J0_max, _) <- scan_i l5 ;;
    let '(l6, s) := get_line l5 s in ' (np, w) <- scan_u l6 ;; ' (nn, _) <- scan_u w ;; orbitals_agree sp np nn ;;;
    let '(l7, s) := get_line l6 s in ' (_, w) <- scan_u l7 ;; ' (_, _) <- scan_u w ;;
    let '(ls, s) := take_lines (Z.to_nat np + Z.to_nat nn) l7 s in
    orbs <- parse_orbitals ls ;;
    let Tz0 := ((Zb - Nb - (Zk - Nk)) / 2)%Z in
    d <- init_storage selection (forget sp) J0_min J0_max (g0_of gb gk) Tz0 ;;
    d <- (if st_fail s || st_eof s then Ok d else data_1520 (forget sp) (map full_labels orbs) (st_nl s) (st_rest s) d) ;;
    Ok (DStream twoJb gb nb twoJk gk nk (ObDe twoJb twoJk Mb Mk (g0_of gb gk) Tz0 d))
  else Exit.

(** * obscalc-ob *)
Inductive ocontents : Type := OOrbitals (os : list (oinfo R)) | OElements (f : rfile) | OText (t : dtext).
Variable files : string -> option ocontents.
Variable opens : string -> bool -> bool.                      (* whether the output file can be opened, given the name and append *)
Variable w3j : Z -> Z -> Z -> Z -> Z -> Z -> R.

(** RunParameters, obscalc-ob.cpp:105-112; [r_out]: name and append, None if nothing was assigned to file_mode *)
Record orun : Type := ORun { r_out : option (string * bool); r_space : wspace R; r_ops : list (string * rfile); r_dens : list dstream }.
Local Open Scope string_scope.
Definition orun0 : orun := ORun None [] [] [].
(** conversion of float to int *)
Definition to_int (x : R) : Z := if Rle_dec 0 x then Int_part x else (- Int_part (- x))%Z.
Definition text_file (name : string) : outcome dtext := match files name with Some (OText t) => Ok t | _ => Exit end.
(** OneBodyOperator, obscalc-ob.cpp:82-102; comparison of the orbital lists of bra and ket *)
Definition read_operator (name file : string) : outcome (string * rfile) :=
  match files file with
  | Some (OElements f) => cassert (same_orbitals (orbital_info (rf_bra f)) (orbital_info (rf_ket f))) ;;; Ok (name, f)
  | _ => Exit
  end.
(** obscalc-ob.cpp:120-187: the body of the loop over lines *)
Definition obs_line (r : orun) (line : cline) : outcome orun :=
  ' (keyword, l) <- next_text (cl_words line) ;;
  if String.eqb keyword "set-output-file" then
    ' (name, l1) <- next_text l ;;
    mode <- optional next_text "" (cl_blank line) l1 ;;
    Ok (ORun (Some (name, String.eqb mode "append")) (r_space r) (r_ops r) (r_dens r))
  else if String.eqb keyword "set-indexing" then
    ' (file, _) <- next_text l ;;
    match files file with
    | Some (OOrbitals os) => Ok (ORun (r_out r) (mk_wspace os) (r_ops r) (r_dens r))
    | _ => Exit
    end
  else if String.eqb keyword "define-operator" then
    ' (name, l1) <- next_text l ;; ' (file, _) <- next_text l1 ;;
    op <- read_operator name file ;; Ok (ORun (r_out r) (r_space r) (r_ops r ++ [op]) (r_dens r))
  else if String.eqb keyword "define-densities" then
    ' (Jf, l1) <- next_d l ;; ' (gf, l2) <- next_i l1 ;; ' (nf, l3) <- next_i l2 ;;
    ' (Ji, l4) <- next_d l3 ;; ' (gi, l5) <- next_i l4 ;; ' (ni, l6) <- next_i l5 ;; ' (data, l7) <- next_text l6 ;;
    check (match files data with Some _ => true | None => false end) ;;;
    d <- match l7 with
         | [] => if cl_blank line then Exit
                 else t <- text_file data ;; single_stream (r_space r) (to_int (2 * Jf)) gf nf (to_int (2 * Ji)) gi ni t
         | w :: _ => i <- text_file (w_text w) ;; t <- text_file data ;;
                     multi_stream (r_space r) (to_int (2 * Jf)) gf nf (to_int (2 * Ji)) gi ni i t
         end ;;
    Ok (ORun (r_out r) (r_space r) (r_ops r) (r_dens r ++ [d]))
  else Exit.
Fixpoint obs_lines (r : orun) (lines : list cline) : outcome orun :=
  match lines with [] => Ok r | l :: lines' => r' <- obs_line r l ;; obs_lines r' lines' end.
Local Close Scope string_scope.

(** a line of output: 2Jf gf nf 2Ji gi ni and the reduced matrix element *)
Record oline : Type := OLine { ol_2Jf : Z; ol_gf : Z; ol_nf : Z; ol_2Ji : Z; ol_gi : Z; ol_ni : Z; ol_rme : R }.
(** a section: J0 g0 Tz0 name, lines *)
Record osection : Type := OSection { os_q : qn; os_name : string; os_lines : list oline }.
Definition operator_of (f : rfile) : ob_operator :=
  let '(J0, g0, Tz0) := rf_q f in ObioModel.ObOp J0 g0 Tz0 (rf_sectors f) (rf_blocks f).
(** the loop over densities, obscalc-ob.cpp:304-316 *)
Fixpoint section_lines (sp : lspace) (op : ob_operator) (ds : list dstream) : outcome (list oline) :=
  match ds with
  | [] => Ok []
  | d :: ds' =>
      v <- observable w3j sp op (ds_od d) ;;
      ls <- section_lines sp op ds' ;;
      Ok (match v with Num x => [OLine (ds_2Jb d) (ds_gb d) (ds_nb d) (ds_2Jk d) (ds_gk d) (ds_nk d) x] | NaN => [] end ++ ls)
  end.
(** the loop over operators, obscalc-ob.cpp:286-333; a section without lines is not written *)
Fixpoint sections_of (sp : lspace) (ops : list (string * rfile)) (ds : list dstream) : outcome (list osection) :=
  match ops with
  | [] => Ok []
  | (name, f) :: ops' =>
      ls <- section_lines sp (operator_of f) ds ;;
      ss <- sections_of sp ops' ds ;;
      Ok (match ls with [] => [] | _ => [OSection (rf_q f) name ls] end ++ ss)
  end.
(** main, obscalc-ob.cpp:265-334: name of the output file, append, sections *)
Definition obscalc (lines : list cline) : outcome (string * bool * list osection) :=
  r <- obs_lines orun0 lines ;;
  ' (name, append) <- match r_out r with Some o => Ok o | None => UB end ;;
  check (opens name append) ;;;
  ss <- sections_of (forget (r_space r)) (r_ops r) (r_dens r) ;;
  Ok (name, append, ss).
End Parser.
