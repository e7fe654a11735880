(** Model of one-body matrix element files (libraries/obme/obme_io.cpp), of density files
    (libraries/density/obdme_io.cpp) and of the evaluation of one-body observables (programs/obutils/obscalc-ob.cpp).

    A text file is a list of lines and a line a list of words; blank lines and comment lines have no words.
    Stand-ins for absent libraries: mcutils::GetLine (next line with words), mcutils::ParsingCheck (ends the process if an
    extraction failed), basis::OrbitalSpaceLJPN / OrbitalSectorsLJPN (below), the text form of orbitals and of numbers (abstract). *)
From Coq Require Import List ZArith Reals Bool Ascii.
From Verif Require Import Base RMat H2Model MapModel OscModel BlockModel.
Import ListNotations.
Open Scope Z_scope.

(** * Text streams *)
Inductive tok (T : Type) : Type := TInt (z : Z) | TChr (c : ascii) | TNum (t : T).
Arguments TInt {T}. Arguments TChr {T}. Arguments TNum {T}.
(** remaining lines, whether the file ends with a newline, eofbit, failbit *)
Record stream (T : Type) : Type := St { st_rest : list (list (tok T)); st_nl : bool; st_eof : bool; st_fail : bool }.
Arguments St {T}. Arguments st_rest {T}. Arguments st_nl {T}. Arguments st_eof {T}. Arguments st_fail {T}.
Definition open_text {T} (lines : list (list (tok T))) (nl : bool) : stream T := St lines nl false false.

Definition is_nil {A} (l : list A) : bool := match l with [] => true | _ => false end.
(** mcutils::GetLine on the remaining lines.  std::getline erases [line] only if the stream was good: after a last line
    without newline (eofbit set) a further call leaves [line] as it was. *)
Fixpoint next_line {T} (old : list (tok T)) (rest : list (list (tok T))) (nl : bool) : list (tok T) * stream T :=
  match rest with
  | [] => ([], St [] nl true true)
  | l :: r =>
      let eof := is_nil r && negb nl in
      if is_nil l then (if eof then ([], St r nl true true) else next_line l r nl)
      else (l, St r nl eof false)
  end.
Definition get_line {T} (old : list (tok T)) (s : stream T) : list (tok T) * stream T :=
  if st_fail s || st_eof s then (old, St (st_rest s) (st_nl s) (st_eof s) true)
  else next_line old (st_rest s) (st_nl s).

(** extraction followed by ParsingCheck (simplification: a word is extracted whole) *)
Definition scan_i {T} (l : list (tok T)) : outcome (Z * list (tok T)) :=
  match l with TInt z :: l' => if in_i32 z then Ok (z, l') else Exit | _ => Exit end.
Definition scan_u {T} (l : list (tok T)) : outcome (Z * list (tok T)) :=
  match l with TInt z :: l' => if in_u64 z then Ok (z, l') else Exit | _ => Exit end.
Definition scan_c {T} (l : list (tok T)) : outcome (ascii * list (tok T)) :=
  match l with TChr c :: l' => Ok (c, l') | _ => Exit end.

(** * Orbital spaces and sectors (basis/nlj_orbital.h, absent) *)
(** OrbitalPNInfo: labels, n, weight *)
Record oinfo (W : Type) : Type := OI { oi_lab : llabel; oi_n : Z; oi_w : W }.
Arguments OI {W}. Arguments oi_lab {W}. Arguments oi_n {W}. Arguments oi_w {W}.
(** OrbitalSpaceLJPN with the weights of its states *)
Definition wspace (W : Type) : Type := list (llabel * list (Z * W)).
Definition forget {W} (s : wspace W) : lspace := map (fun x => (fst x, map fst (snd x))) s.
Definition osp_code (s : ospecies) : Z := match s with SP => 0 | SN => 1 end.
(** lexicographic order of (species, l, j), the order of std::set *)
Definition lab_ltb (a b : llabel) : bool :=
  (osp_code (ll_sp a) <? osp_code (ll_sp b))
  || ((osp_code (ll_sp a) =? osp_code (ll_sp b))
      && ((ll_l a <? ll_l b) || ((ll_l a =? ll_l b) && (ll_2j a <? ll_2j b)))).
(** std::set::insert *)
Fixpoint lab_insert (a : llabel) (l : list llabel) : list llabel :=
  match l with
  | [] => [a]
  | b :: l' => if lab_ltb a b then a :: l else if lab_ltb b a then b :: lab_insert a l' else l
  end.
Definition states_of {W} (a : llabel) (os : list (oinfo W)) : list (Z * W) :=
  map (fun o => (oi_n o, oi_w o)) (filter (fun o => llabel_eqb (oi_lab o) a) os).
(** OrbitalSpaceLJPN::OrbitalSpaceLJPN(states): one subspace for each set of labels that occurs, in the order of the
    labels; its states in the order of the list *)
Definition mk_wspace {W} (os : list (oinfo W)) : wspace W :=
  map (fun a => (a, states_of a os)) (fold_right lab_insert [] (map oi_lab os)).
(** OrbitalSpaceLJPN::OrbitalInfo: the states of the subspaces in turn *)
Definition orbital_info {W} (s : wspace W) : list (oinfo W) :=
  flat_map (fun x => map (fun p => OI (fst x) (fst p) (snd p)) (snd x)) s.
(** OrbitalSectorsLJPN(bra, ket, J0, g0, Tz0): the allowed pairs, bra index major *)
Definition mk_lsectors (allowed : Z -> Z -> Z -> llabel -> llabel -> bool) (bra ket : lspace) (J0 g0 Tz0 : Z) : lsectors :=
  filter (fun p => match nth_error bra (fst p), nth_error ket (snd p) with
                   | Some b, Some k => allowed J0 g0 Tz0 (fst b) (fst k) | _, _ => false end)
         (list_prod (seq 0 (length bra)) (seq 0 (length ket))).

(** What is external to the repository: numbers, their printed form, orbital lines, selection rules *)
Record oenv : Type := OEnv {
  oD : Type; oT : Type;
  o_fmt : oD -> oT;                         (* mcutils::FormatMatrix element format *)
  o_scan : tok oT -> option oD;             (* stream >> double *)
  o_chop : oD -> oD;                        (* mcutils::ChopMatrix(...,1e-14) on an element *)
  o_orb_lines : list (oinfo oD) -> list (list (tok oT));        (* OrbitalDefinitionStr(...,false,kVersion15200) *)
  o_parse : list (list (tok oT)) -> outcome (list (oinfo oD));  (* ParseOrbitalPNStream(...,false,kVersion15200) *)
  o_parse_old : list (nat * list (tok oT)) -> outcome (list (oinfo oD));
                                            (* the same with kVersion15099 on lines with the index put in front *)
  o_allowed : Z -> Z -> Z -> llabel -> llabel -> bool           (* selection rules of OrbitalSectorsLJPN *)
}.

Section Obme.
Variable E : oenv.
Notation D := (oD E).
Notation line := (list (tok (oT E))).

(** OBMEStreamBase (obme_io.h): [None] is an operator type that was never set *)
Record obme : Type := Obme {
  ob_type : option ascii; ob_J0 : Z; ob_g0 : Z; ob_Tz0 : Z; ob_bra : wspace D; ob_ket : wspace D; ob_sectors : lsectors }.

(** * Output *)
(** obme_io.cpp:269-337 OutOBMEStream::WriteHeader *)
Definition write_header (verbose : bool) (o : obme) : outcome (list line) :=
  ty <- get (ob_type o) ;;
  let bra := orbital_info (ob_bra o) in
  let ket := orbital_info (ob_ket o) in
  let comment := if verbose then [[]] else [] in
  Ok ([ []; []; []; []; [];
        [TInt 2];
        [TChr ty; TInt (ob_J0 o); TInt (ob_g0 o); TInt (ob_Tz0 o)];
        [TInt (Z.of_nat (length bra)); TInt (Z.of_nat (length ket))];
        [] ]
      ++ comment ++ o_orb_lines E bra ++ [[]] ++ comment ++ o_orb_lines E ket ++ [[]]).
(** mcutils::FormatMatrix and the end of line after it: one line per row, a blank line for a matrix without rows *)
Definition row_line (m : mat D) (i : nat) : line := map (fun j => TNum (o_fmt E (o_chop E (at_ m i j)))) (seq 0 (cols m)).
Definition format_matrix (m : mat D) : list line :=
  match rows m with O => [[]] | _ => map (row_line m) (seq 0 (rows m)) end.
(** obme_io.cpp:339-380 WriteNextSector *)
Definition write_sector (verbose : bool) (o : obme) (si : nat) (m : mat D) : outcome (list line) :=
  x <- get (nth_error (ob_sectors o) si) ;;
  cassert (Nat.eqb (sub_dim (forget (ob_bra o)) (fst x)) (rows m)) ;;;
  cassert (Nat.eqb (sub_dim (forget (ob_ket o)) (snd x)) (cols m)) ;;;
  Ok ((if verbose then [[]; []] else []) ++ format_matrix m ++ [[]]).
Fixpoint write_sectors (verbose : bool) (o : obme) (si : nat) (ms : blocks D) : outcome (list line) :=
  match ms with
  | [] => Ok []
  | m :: ms' => l <- write_sector verbose o si m ;; r <- write_sectors verbose o (S si) ms' ;; Ok (l ++ r)
  end.
(** obme_io.cpp:229-267: constructor, Write, Close; every line ends with a newline *)
Definition write_file (verbose : bool) (o : obme) (ms : blocks D) : outcome (list line) :=
  h <- write_header verbose o ;;
  cassert (Nat.eqb (length ms) (length (ob_sectors o))) ;;;
  b <- write_sectors verbose o 0 ms ;;
  Ok (h ++ b).

(** * Input *)
(** the loops over orbital lines, obme_io.cpp:152-184 *)
Fixpoint read_lines (n : nat) (line0 : line) (s : stream (oT E)) : list line * (line * stream (oT E)) :=
  match n with
  | O => ([], (line0, s))
  | S n' => let '(l, s1) := get_line line0 s in
            let '(ls, e) := read_lines n' l s1 in (l :: ls, e)
  end.
Definition parse_orbitals (version : Z) (ls : list line) : outcome (list (oinfo D)) :=
  if (version =? 2) then o_parse E ls else o_parse_old E (combine (seq 0 (length ls)) ls).
(** obme_io.cpp:61-197 InOBMEStream::ReadHeader *)
Definition read_header (s0 : stream (oT E)) : outcome (obme * stream (oT E)) :=
  let '(l0, s1) := get_line [] s0 in
  ' (version, _) <- scan_i l0 ;;
  ' (ty, J0, g0, Tz0, nb, nk, l, s) <-
    (if version =? 0 then
       let '(l, s) := get_line l0 s1 in
       ' (_, w) <- scan_c l ;; ' (l0max, w) <- scan_i w ;; ' (Tz0, w) <- scan_i w ;;
       ' (nb, w) <- scan_u w ;; ' (nk, _) <- scan_u w ;;
       cassert (l0max =? 0) ;;;
       Ok (None, 0, 0, Tz0, nb, nk, l, s)
     else if version =? 1 then
       let '(l1, s2) := get_line l0 s1 in
       ' (_, w) <- scan_c l1 ;; ' (_, _) <- scan_i w ;;
       let '(l2, s3) := get_line l1 s2 in
       ' (mode, w) <- scan_c l2 ;;
       ' (J0, g0, Tz0) <-
         (if Ascii.eqb mode "R" then
            (* the assertion precedes the ParsingCheck: without a word, l0max is indeterminate *)
            match w with
            | [] => UB
            | _ => ' (l0max, w) <- scan_i w ;; cassert (l0max =? 0) ;;; ' (Tz0, _) <- scan_i w ;; Ok (0, 0, Tz0)
            end
          else if Ascii.eqb mode "S" then
            ' (J0, w) <- scan_i w ;; ' (g0, w) <- scan_i w ;; ' (Tz0, _) <- scan_i w ;; Ok (J0, g0, Tz0)
          else UB) ;;    (* J0, g0, Tz0 are never set and used below *)
       let '(l3, s4) := get_line l2 s3 in
       ' (nb, w) <- scan_u l3 ;; ' (nk, _) <- scan_u w ;;
       Ok (Some "R"%char, J0, g0, Tz0, nb, nk, l3, s4)
     else if version =? 2 then
       let '(l1, s2) := get_line l0 s1 in
       ' (c, w) <- scan_c l1 ;; ' (J0, w) <- scan_i w ;; ' (g0, w) <- scan_i w ;; ' (Tz0, _) <- scan_i w ;;
       let '(l2, s3) := get_line l1 s2 in
       ' (nb, w) <- scan_u l2 ;; ' (nk, _) <- scan_u w ;;
       Ok (Some c, J0, g0, Tz0, nb, nk, l2, s3)
     else UB) ;;         (* no branch taken: num_orbitals_bra is indeterminate *)
  let '(bls, (l', s')) := read_lines (Z.to_nat nb) l s in
  bra <- parse_orbitals version bls ;;
  let '(kls, (_, s'')) := read_lines (Z.to_nat nk) l' s' in
  ket <- parse_orbitals version kls ;;
  let B := mk_wspace bra in
  let K := mk_wspace ket in
  Ok (Obme ty J0 g0 Tz0 B K (mk_lsectors (o_allowed E) (forget B) (forget K) J0 g0 Tz0), s'').

(** one row: the columns of a line *)
Fixpoint scan_row (n : nat) (l : line) : outcome (list D) :=
  match n with
  | O => Ok []
  | S n' => match l with
            | w :: l' => match o_scan E w with Some x => r <- scan_row n' l' ;; Ok (x :: r) | None => Exit end
            | [] => Exit
            end
  end.
Fixpoint read_rows (r c : nat) (line0 : line) (s : stream (oT E)) : outcome (list (list D) * stream (oT E)) :=
  match r with
  | O => Ok ([], s)
  | S r' => let '(l, s1) := get_line line0 s in
            x <- scan_row c l ;;
            ' (xs, s2) <- read_rows r' c l s1 ;; Ok (x :: xs, s2)
  end.
(** a matrix given by its rows; [None] outside *)
Definition of_rows (d : D) (r c : nat) (xs : list (list D)) : mat D := Mat r c (fun i j => nth j (nth i xs []) d).
(** obme_io.cpp:199-227 ReadNextSector; [d] is never seen (every element is read) *)
Definition read_sector (d : D) (o : obme) (si : nat) (s : stream (oT E)) : outcome (mat D * stream (oT E)) :=
  x <- get (nth_error (ob_sectors o) si) ;;
  let r := sub_dim (forget (ob_bra o)) (fst x) in
  let c := sub_dim (forget (ob_ket o)) (snd x) in
  ' (xs, s') <- read_rows r c [] s ;;
  Ok (of_rows d r c xs, s').
Fixpoint read_sectors (d : D) (o : obme) (si n : nat) (s : stream (oT E)) : outcome (blocks D * stream (oT E)) :=
  match n with
  | O => Ok ([], s)
  | S n' => ' (m, s1) <- read_sector d o si s ;; ' (ms, s2) <- read_sectors d o (S si) n' s1 ;; Ok (m :: ms, s2)
  end.
(** obme_io.cpp:23-59: constructor, Read *)
Definition read_file (d : D) (lines : list line) (nl : bool) : outcome (obme * blocks D) :=
  ' (o, s) <- read_header (open_text lines nl) ;;
  ' (ms, _) <- read_sectors d o 0 (length (ob_sectors o)) s ;;
  Ok (o, ms).
End Obme.

(** * Density files (libraries/density) *)
Open Scope R_scope.
(** obdme_io.cpp:23 *)
Definition k_sqrt_4pi : R := 354490770181103205459633496668229 / (10 ^ 32).
(** Hat(j), given 2j *)
Definition hat (twoj : Z) : R := sqrt (IZR (twoj + 1)).
(** FullOrbitalLabels; the species is [None] for an enumeration value other than kP, kN *)
Record flab : Type := FL { fl_sp : option ospecies; fl_n : Z; fl_l : Z; fl_2j : Z }.
(** InOBDMEStreamMulti::InfoLine, obdme_io.h:159-165 *)
Record info_line : Type := IL { il_bra : flab; il_ket : flab; il_J0 : Z }.
(** sectors_ and matrices_ of InOBDMEStream *)
Record density : Type := Dens { de_min : Z; de_max : Z; de_sectors : list lsectors; de_blocks : list (blocks R) }.

(** obdme_io.cpp:35-46 InitStorage; a negative number of multipoles makes std::vector::resize throw, which ends the process *)
Definition init_storage (allowed : Z -> Z -> Z -> llabel -> llabel -> bool) (sp : lspace) (J0_min J0_max g0 Tz0 : Z) : outcome density :=
  check (0 <=? J0_max - J0_min + 1)%Z ;;;
  let ss := map (fun J0 => mk_lsectors allowed sp sp J0 g0 Tz0) (zrange J0_min J0_max) in
  Ok (Dens J0_min J0_max ss (map (fun s => zero_blocks 0 sp sp s) ss)).

(** obdme_io.cpp:195-224 ReadInfo1405, after the extraction of the eight integers of each line *)
Definition info_1405 (lines : list (Z * (Z * Z * Z) * (Z * Z * Z) * Z)) : list info_line :=
  let p := map (fun '(_, (na, la, ja), (nb, lb, jb), J0) => IL (FL (Some SP) na la ja) (FL (Some SP) nb lb jb) J0) lines in
  p ++ map (fun i => IL (FL (Some SN) (fl_n (il_bra i)) (fl_l (il_bra i)) (fl_2j (il_bra i)))
                        (FL (Some SN) (fl_n (il_ket i)) (fl_l (il_ket i)) (fl_2j (il_ket i))) (il_J0 i)) p.
(** obdme_io.cpp:226-244 ReadInfo1500, after the extraction of the eleven integers of each line *)
Definition class_species (cls : Z) : option ospecies := if (cls =? 1)%Z then Some SP else if (cls =? 2)%Z then Some SN else None.
Definition info_1500 (lines : list (Z * (Z * Z * Z * Z) * (Z * Z * Z * Z) * Z * Z)) : list info_line :=
  map (fun '(_, (_, na, la, ja), (_, nb, lb, jb), J0, cls) =>
         IL (FL (class_species cls) na la ja) (FL (class_species cls) nb lb jb) J0) lines.

(** basis::MatrixElementIndicesLJPN; [None]: one of the indices is basis::kNone *)
Definition state_index (sp : lspace) (o : flab) : option (nat * nat) :=
  match fl_sp o with
  | None => None
  | Some s =>
    match look_up_subspace sp (LL s (fl_l o) (fl_2j o)) with
    | None => None
    | Some P => match nth_error sp P with
                | None => None
                | Some x => option_map (fun i => (P, i)) (find_ix (fun n => (n =? fl_n o)%Z) (snd x))
                end
    end
  end.
Definition me_indices (sp : lspace) (s : lsectors) (b k : flab) : option (nat * nat * nat) :=
  match state_index sp b, state_index sp k with
  | Some (P, i), Some (Q, j) => option_map (fun x => (x, i, j)) (look_up_sector s P Q)
  | _, _ => None
  end.

(** sectors(J0), matrices(J0): obdme_io.h:98-106, 130-138 *)
Definition multipole_index (d : density) (J0 : Z) : outcome nat :=
  cassert ((de_min d <=? J0)%Z && (J0 <=? de_max d)%Z) ;;; Ok (Z.to_nat (J0 - de_min d)).
(** matrices(J0)[sector_index](bra_index,ket_index) = x *)
Definition put (d : density) (q x i j : nat) (v : R) : outcome density :=
  bs <- get (nth_error (de_blocks d) q) ;;
  b <- get (nth_error bs x) ;;
  b' <- mat_put b i j v ;;
  bs' <- store bs x b' ;;
  all <- store (de_blocks d) q bs' ;;
  Ok (Dens (de_min d) (de_max d) (de_sectors d) all).
(** the part common to ReadData (obdme_io.cpp:264-285) and ReadData1520 (:524-541): locate, assert, store *)
Definition put_labelled (sp : lspace) (d : density) (b k : flab) (J0 : Z) (v : R) : outcome density :=
  q <- multipole_index d J0 ;;
  ss <- get (nth_error (de_sectors d) q) ;;
  match me_indices sp ss b k with
  | None => AssertFail
  | Some (x, i, j) => put d q x i j v
  end.

(** data_stream >> double on the rest of a file: [None] is a word that is not a number (it sets the variable to 0 and
    failbit); without a word, and when the stream has failed, the variable keeps its value *)
Definition extract (x : R) (fail : bool) (ws : list (option R)) : R * bool * list (option R) :=
  if fail then (x, true, ws)
  else match ws with [] => (x, true, []) | Some v :: ws' => (v, false, ws') | None :: ws' => (0, true, ws') end.
(** obdme_io.cpp:246-289 ReadData, after the header *)
Fixpoint read_data_loop (sp : lspace) (info : list info_line) (x : R) (fail : bool) (ws : list (option R)) (d : density) : outcome density :=
  match info with
  | [] => Ok d
  | i :: info' =>
      let '(x1, fail1, ws1) := extract x fail ws in
      let x2 := x1 * k_sqrt_4pi / hat (fl_2j (il_bra i)) in
      d1 <- put_labelled sp d (il_bra i) (il_ket i) (il_J0 i) x2 ;;
      read_data_loop sp info' x2 fail1 ws1 d1
  end.
(** the header of the data file announces [announced] elements, which is asserted to be the number of info lines
    (obdme_io.cpp:336-352) *)
Definition read_multi (allowed : Z -> Z -> Z -> llabel -> llabel -> bool) (sp : lspace) (J0_max g0 Tz0 : Z)
  (info : list info_line) (announced : nat) (ws : list (option R)) : outcome density :=
  cassert (Nat.eqb announced (length info)) ;;;
  d <- init_storage allowed sp 0 J0_max g0 Tz0 ;;
  read_data_loop sp info 0 false ws d.

(** ** Single file, version 1520 *)
(** an orbital of the list in the file *)
Definition full_labels {W} (o : oinfo W) : flab := FL (Some (ll_sp (oi_lab o))) (oi_n o) (ll_l (oi_lab o)) (ll_2j (oi_lab o)).
(** a data line: ia ib J0 value *)
Record data_line : Type := DL { dl_a : Z; dl_b : Z; dl_J0 : Z; dl_v : R }.
(** obdme_io.cpp:513-542 ReadData1520.  Lines that GetLine skips are left out, each line is parsed whole; std::vector::at
    throws on a bad index, which ends the process.  A last line without newline sets eofbit and ends the loop before it is used. *)
Fixpoint read_data_1520 (sp : lspace) (orbs : list flab) (nl : bool) (ls : list data_line) (d : density) : outcome density :=
  match ls with
  | [] => Ok d
  | l :: ls' =>
      if is_nil ls' && negb nl then Ok d
      else
        a <- match (if (1 <=? dl_a l)%Z then nth_error orbs (Z.to_nat (dl_a l - 1)) else None) with Some a => Ok a | None => Exit end ;;
        b <- match (if (1 <=? dl_b l)%Z then nth_error orbs (Z.to_nat (dl_b l - 1)) else None) with Some b => Ok b | None => Exit end ;;
        d1 <- put_labelled sp d a b (dl_J0 l) (dl_v l / hat (fl_2j a)) ;;
        read_data_1520 sp orbs nl ls' d1
  end.
(** the numbers of elements announced in the header (num_proton_obdme_, num_neutron_obdme_) are read and not used *)
Definition read_single (allowed : Z -> Z -> Z -> llabel -> llabel -> bool) (sp : lspace) (J0_min J0_max g0 Tz0 : Z)
  (orbs : list flab) (announced : nat) (nl : bool) (ls : list data_line) : outcome density :=
  d <- init_storage allowed sp J0_min J0_max g0 Tz0 ;;
  read_data_1520 sp orbs nl ls d.

(** * One-body observables *)
(** what obscalc-ob.cpp uses of an operator and of a density stream; angular momenta as twice their value *)
Record ob_operator : Type := ObOp { op_J0 : Z; op_g0 : Z; op_Tz0 : Z; op_sectors : lsectors; op_blocks : blocks R }.
Record ob_density : Type := ObDe { od_2Jb : Z; od_2Jk : Z; od_2Mb : Z; od_2Mk : Z; od_g0 : Z; od_Tz0 : Z; od_dens : density }.
Definition allowed_triangle2 (a b c : Z) : bool :=
  (Z.abs (a - b) <=? c)%Z && (c <=? a + b)%Z && Z.even (a + b + c).
(** obscalc-ob.cpp:185-256 CalculateMatrixElement.  [w3j]: am::Wigner3J of twice the arguments.  Indexing a block outside
    its dimensions is an assertion of Eigen. *)
Definition block_at (m : mat R) (i j : nat) : outcome R :=
  cassert (Nat.ltb i (rows m) && Nat.ltb j (cols m)) ;;; Ok (at_ m i j).
Definition observable (w3j : Z -> Z -> Z -> Z -> Z -> Z -> R) (sp : lspace) (op : ob_operator) (od : ob_density) : outcome num :=
  cassert (Z.even (od_2Mb od - od_2Mk od)) ;;;
  if negb (od_g0 od =? op_g0 op)%Z then Ok NaN
  else if negb (od_Tz0 od =? op_Tz0 op)%Z then Ok NaN
  else if negb (allowed_triangle2 (od_2Jb od) (2 * op_J0 op) (od_2Jk od)) then Ok NaN
  else if Rlt_dec (Rabs (w3j (od_2Jb od) (2 * op_J0 op) (od_2Jk od) (- od_2Mb od) (od_2Mb od - od_2Mk od) (od_2Mk od))%Z) (/ 10 ^ 8) then Ok NaN
  else if (op_J0 op <? de_min (od_dens od))%Z || (de_max (od_dens od) <? op_J0 op)%Z then Ok NaN
  else
    q <- multipole_index (od_dens od) (op_J0 op) ;;
    dblocks <- get (nth_error (de_blocks (od_dens od)) q) ;;
    v <- for_each (list_prod (seq 0 (length sp)) (seq 0 (length sp))) (fun ab v =>
      match look_up_sector (op_sectors op) (fst ab) (snd ab) with
      | None => Ok v
      | Some x =>
        a <- get (nth_error sp (fst ab)) ;; b <- get (nth_error sp (snd ab)) ;;
        o <- get (nth_error (op_blocks op) x) ;; r <- get (nth_error dblocks x) ;;
        for_each (list_prod (seq 0 (length (snd a))) (seq 0 (length (snd b)))) (fun ij v =>
          e <- block_at o (fst ij) (snd ij) ;; f <- block_at r (fst ij) (snd ij) ;;
          Ok (v + IZR (ll_2j (fst a) + 1) * e * f)) v
      end) 0 ;;
    Ok (Num (v / hat (2 * op_J0 op))).
