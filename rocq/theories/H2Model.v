(** Model of libraries/tbme/h2_io.h, h2_io.cpp, h2_io_v15200.cpp, h2_io_v15099.cpp,
    h2_io_v0.cpp: H2 two-body matrix element files. *)
From Coq Require Import String List ZArith Lia Bool.
From Verif Require Import Base.
Import ListNotations.
Open Scope Z_scope.
Open Scope outcome_scope.

(** * Types of the (absent) basis library that the code uses *)

(** basis::TwoBodySpeciesPN, integer values kPP=0, kNN=1, kPN=2
    (h2_io_v15200.cpp:190-192, size_by_type()[0]=pp, [1]=nn, [2]=pn) *)
Inductive species := PP | NN | PN.
(** basis::OrbitalSpeciesPN *)
Inductive ospecies := SP | SN.
(** basis::TwoBodySpaceJJJPNOrdering (h2_io.cpp:46-50) *)
Inductive ordering := KPN | KTz.
(** H2Format (h2_io.h): format code numbers 0, 15099, 15200 *)
Inductive format := V0 | V15099 | V15200.
(** H2Mode (h2_io.h) *)
Inductive mode := KText | KBinary | KMatrix.
(** basis::NormalizationConversion; [CAny] stands for the values other than kNone, kASToNAS *)
Inductive conversion := CNone | CASToNAS | CAny.

Definition species_eqb (a b : species) : bool :=
  match a, b with PP, PP | NN, NN | PN, PN => true | _, _ => false end.

(** basis::kTwoBodySpeciesPNCodeDecimal: 11, 22, 12 for pp, nn, pn *)
Definition species_code (s : species) : Z :=
  match s with PP => 11 | NN => 22 | PN => 12 end.

Definition format_code (f : format) : Z :=
  match f with V0 => 0 | V15099 => 15099 | V15200 => 15200 end.

(** species of the two orbital subspaces of a two-body subspace *)
Definition sp1 (s : species) : ospecies := match s with NN => SN | _ => SP end.
Definition sp2 (s : species) : ospecies := match s with PP => SP | _ => SN end.

(** basis::OrbitalPNInfo; [o_2j] is TwiceValue(j) *)
Record orbital (D : Type) := Orb { o_sp : ospecies; o_n : Z; o_l : Z; o_2j : Z; o_w : D }.
Arguments Orb {D}.
Arguments o_sp {D}.
Arguments o_n {D}.
Arguments o_l {D}.
Arguments o_2j {D}.
Arguments o_w {D}.

(** basis::WeightMax *)
Record wmax (D : Type) := WMax { w_p : D; w_n : D; w_pp : D; w_nn : D; w_pn : D }.
Arguments WMax {D}.
Arguments w_p {D}.
Arguments w_n {D}.
Arguments w_pp {D}.
Arguments w_nn {D}.
Arguments w_pn {D}.

(** basis::TwoBodySubspaceJJJPN: species, J, g and for each state the pair
    (index1, index2) of orbital indices within the species *)
Record subspace := Sub { ss_species : species; ss_J : Z; ss_g : Z; ss_states : list (nat * nat) }.
Definition ss_size (s : subspace) : nat := length (ss_states s).

(** basis::TwoBodySectorsJJJPN::SectorType, with bra and ket subspaces resolved *)
Record sector := Sec { s_bra : subspace; s_ket : subspace; s_bi : nat; s_ki : nat }.
(** SectorType::IsDiagonal, IsUpperTriangle (basis library: comparison of subspace indices) *)
Definition is_diag (s : sector) : bool := Nat.eqb (s_bi s) (s_ki s).
Definition is_upper (s : sector) : bool := Nat.leb (s_bi s) (s_ki s).

(** * Environment: floating point, text formatting and the basis library

    Everything in this record is external to the repository's text; theorems
    are quantified over it. *)
Inductive word (T : Type) := WInt (z : Z) | WTxt (t : T).
Arguments WInt {T}.
Arguments WTxt {T}.

Record env := Env {
  dbl : Type;                       (* double *)
  d0 : dbl;                         (* 0. *)
  d1 : dbl;                         (* 1. *)
  dinvsqrt2 : dbl;                  (* 1/sqrt(2.) *)
  dmul : dbl -> dbl -> dbl;
  deqb : dbl -> dbl -> bool;
  d_to_int : dbl -> Z;              (* int(x) *)
  narrow : dbl -> Z;                (* double -> float, as the 32 bits of the float *)
  widen : Z -> dbl;                 (* float -> double *)
  txt : Type;                       (* printed form of a floating point number *)
  fmt_f : Z -> txt;                 (* "{:+16.7e}" applied to a float *)
  fmt_d : dbl -> txt;               (* "{:e}" applied to a double *)
  scan_f : word txt -> option Z;    (* stream >> float *)
  orb_lines : format -> list (orbital dbl) -> list (list (word txt));
                                    (* basis::OrbitalDefinitionStr(...,standalone=false) *)
  parse_orbs : format -> list (list (word txt)) -> outcome (list (orbital dbl));
                                    (* basis::ParseOrbitalPNStream(...,standalone=false) *)
  weight_max_of : list (orbital dbl) -> dbl;
                                    (* OrbitalSubspacePN::weight_max *)
  osc_orbitals : Z -> list (orbital dbl) * list (orbital dbl);
                                    (* basis::OrbitalSpacePN(N1max) *)
  osc_wmax : Z -> Z -> wmax dbl;    (* basis::WeightMax(N1max,N2max) *)
  mk_space : ordering -> list (orbital dbl) -> list (orbital dbl) -> wmax dbl -> list subspace;
                                    (* basis::TwoBodySpaceJJJPN(...) *)
  mk_sectors : list subspace -> Z -> Z -> Z -> list sector
                                    (* basis::TwoBodySectorsJJJPN(space,J0,g0,Tz0) *)
}.

Section Model.
Variable E : env.
Notation D := (dbl E).
Notation line := (list (word (txt E))).

(** The indexing an H2 stream carries: orbital_space_, space_, sectors_
    (h2_io.h:193-195). *)
Record indexing := Ix {
  ix_p : list (orbital D);          (* orbital_space().GetSubspace(0) *)
  ix_n : list (orbital D);          (* orbital_space().GetSubspace(1) *)
  ix_ord : ordering;                (* space().space_ordering() *)
  ix_w : wmax D;                    (* space().weight_max() *)
  ix_space : list subspace;
  ix_J0 : Z; ix_g0 : Z; ix_Tz0 : Z;
  ix_sectors : list sector
}.

(** * Size counting *)

(** three-element arrays indexed by int(two_body_species) *)
Record tri (A : Type) := Tri { t_pp : A; t_nn : A; t_pn : A }.
Arguments Tri {A}.
Arguments t_pp {A}.
Arguments t_nn {A}.
Arguments t_pn {A}.
Definition tget {A} (t : tri A) (s : species) : A :=
  match s with PP => t_pp t | NN => t_nn t | PN => t_pn t end.
Definition tset {A} (t : tri A) (s : species) (x : A) : tri A :=
  match s with
  | PP => Tri x (t_nn t) (t_pn t)
  | NN => Tri (t_pp t) x (t_pn t)
  | PN => Tri (t_pp t) (t_nn t) x
  end.

(** EvaluateJmaxByType, h2_io.cpp:56-83 *)
Definition evaluate_Jmax (space : list subspace) : tri Z :=
  fold_left (fun t ss => tset t (ss_species ss) (Z.max (tget t (ss_species ss)) (ss_J ss)))
            space (Tri 0 0 0).

(** GetSectorCount, h2_io.cpp:85-104 *)
Definition sector_count (s : sector) : nat :=
  if is_diag s then
    let dimension := ss_size (s_ket s) in Nat.div (dimension * (dimension + 1)) 2
  else if is_upper s then ss_size (s_bra s) * ss_size (s_ket s)
  else 0.

(** EvaluateCountsByType (size_by_type), h2_io.cpp:106-147; keyed by the bra species *)
Definition evaluate_sizes (sectors : list sector) : tri nat :=
  fold_left (fun t s => tset t (ss_species (s_bra s)) (tget t (ss_species (s_bra s)) + sector_count s)%nat)
            sectors (Tri O O O).

(** EvaluateCountsByType (num_sectors_by_type), h2_io.cpp:106-147 *)
Definition evaluate_nums (sectors : list sector) : tri nat :=
  fold_left (fun t s => tset t (ss_species (s_bra s)) (tget t (ss_species (s_bra s)) + 1)%nat)
            sectors (Tri O O O).

(** * Mode from file name *)

(** DeducedIOMode, h2_io.cpp:157-176 *)
Definition deduced_io_mode (filename : string) : outcome mode :=
  if Nat.ltb (String.length filename) 4 then Exit
  else
    let suffix := String.substring (String.length filename - 4) 4 filename in
    if String.eqb suffix ".dat" then Ok KText
    else if String.eqb suffix ".mat" then Ok KMatrix
    else if String.eqb suffix ".bin" then Ok KBinary
    else Exit.

(** * Position of a sector among the sectors of its type *)

(** SectorIsFirstOfType, h2_io.cpp:182-196 *)
Definition first_of_type (sectors : list sector) (si : nat) : outcome bool :=
  cassert (Nat.ltb si (length sectors)) ;;;
  if Nat.eqb si 0 then Ok true
  else
    current <- get (nth_error sectors si) ;;
    prev <- get (nth_error sectors (si - 1)) ;;
    Ok (negb (species_eqb (ss_species (s_bra current)) (ss_species (s_bra prev)))).

(** SectorIsLastOfType, h2_io.cpp:198-212 *)
Definition last_of_type (sectors : list sector) (si : nat) : outcome bool :=
  cassert (Nat.ltb si (length sectors)) ;;;
  if Nat.eqb si (length sectors - 1) then Ok true
  else
    current <- get (nth_error sectors si) ;;
    next <- get (nth_error sectors (si + 1)) ;;
    Ok (negb (species_eqb (ss_species (s_bra current)) (ss_species (s_bra next)))).

(** * Input file streams

    std::ifstream opened on the bytes [b_data]; eof and fail are the stream state bits. *)
Record bstate := BSt { b_data : list Z; b_pos : nat; b_eof : bool; b_fail : bool }.

(** istream::read of k bytes (reading 0 bytes from a good stream succeeds anywhere) *)
Definition b_read (k : nat) (s : bstate) : option (list Z) * bstate :=
  if b_fail s || b_eof s then (None, BSt (b_data s) (b_pos s) (b_eof s) true)
  else if Nat.eqb k 0 || Nat.leb (b_pos s + k) (length (b_data s))
  then (Some (firstn k (skipn (b_pos s) (b_data s))),
        BSt (b_data s) (b_pos s + k) (b_eof s) (b_fail s))
  else (None, BSt (b_data s) (length (b_data s)) true true).

(** istream::tellg; [None] is pos_type(-1).  A stream with eofbit set is not good(), so the
    sentry sets failbit. *)
Definition b_tell (s : bstate) : option nat * bstate :=
  if b_fail s || b_eof s then (None, BSt (b_data s) (b_pos s) (b_eof s) true)
  else (Some (b_pos s), s).

(** istream::seekg(pos): clears eofbit; seeking to pos_type(-1) fails *)
Definition b_seek (p : option nat) (s : bstate) : bstate :=
  if b_fail s then BSt (b_data s) (b_pos s) false true
  else match p with
       | Some n => BSt (b_data s) n false false
       | None => BSt (b_data s) (b_pos s) false true
       end.

(** istream::seekg(off, std::ios_base::cur); seeking past the end of the file succeeds *)
Definition b_seek_cur (off : nat) (s : bstate) : bstate :=
  if b_fail s then BSt (b_data s) (b_pos s) false true
  else BSt (b_data s) (b_pos s + off) false false.

(** mcutils::ReadBinary<int32_t> into an uninitialised variable: a failed read leaves the
    variable indeterminate *)
Definition rd_i32 (s : bstate) : outcome (Z * bstate) :=
  match b_read 4 s with
  | (Some bs, s') => Ok (dec_i32 bs, s')
  | (None, _) => UB
  end.
(** mcutils::ReadBinary<float> into an uninitialised variable (bits of the float) *)
Definition rd_f32 (s : bstate) : outcome (Z * bstate) :=
  match b_read 4 s with
  | (Some bs, s') => Ok (dec_u32 bs, s')
  | (None, _) => UB
  end.
(** mcutils::ReadBinary<int64_t> *)
Definition rd_i64 (s : bstate) : outcome (Z * bstate) :=
  match b_read 8 s with
  | (Some bs, s') => Ok (dec_i64 bs, s')
  | (None, _) => UB
  end.
(** mcutils::VerifyBinary<int>: read and compare with the expected value, exit on mismatch *)
Definition verify (v : Z) (s : bstate) : outcome bstate :=
  '(x, s') <- rd_i32 s ;;
  check (x =? i32 v) ;;;
  Ok s'.

(** a counted loop of reads with push_back *)
Fixpoint rd_many {A} (rd : bstate -> outcome (A * bstate)) (n : nat) (s : bstate)
  : outcome (list A * bstate) :=
  match n with
  | O => Ok ([], s)
  | S n' =>
      '(x, s1) <- rd s ;;
      '(xs, s2) <- rd_many rd n' s1 ;;
      Ok (x :: xs, s2)
  end.

(** mcutils::ReadBinary<float>(stream,buffer.data(),n) into a buffer initialised to 0.: on a
    short read failbit is set; the buffer contents are then irrelevant because every caller
    checks the stream afterwards (simplification: left at 0.) *)
Definition rd_buffer (n : nat) (s : bstate) : list Z * bstate :=
  match b_read (4 * n) s with
  | (Some bs, s') => (dec_words n bs, s')
  | (None, s') => (repeat 0 n, s')
  end.

(** ** Text files

    A text file is a list of lines, a line is a list of white-space separated words; blank and
    comment lines are lines without words.  [f_nl] tells whether the last line ends with a
    newline.  Positions are line numbers (the code only ever tells/seeks at line starts). *)
Record tfile := TFile { f_lines : list line; f_nl : bool }.
Record tstate := TSt { t_file : tfile; t_pos : nat; t_eof : bool; t_fail : bool }.

(** std::getline *)
Definition t_getline (s : tstate) : line * tstate :=
  if t_fail s || t_eof s then ([], TSt (t_file s) (t_pos s) (t_eof s) true)
  else match nth_error (f_lines (t_file s)) (t_pos s) with
       | Some l =>
           (l, TSt (t_file s) (S (t_pos s))
                   (Nat.eqb (S (t_pos s)) (length (f_lines (t_file s))) && negb (f_nl (t_file s)))
                   false)
       | None => ([], TSt (t_file s) (t_pos s) true true)
       end.

(** mcutils::GetLine: next line that is neither blank nor a comment; the fuel is the number
    of lines that remain *)
Fixpoint t_GetLine_fuel (fuel : nat) (s : tstate) : line * tstate :=
  match t_getline s with
  | ([], s') =>
      match fuel with
      | O => ([], s')
      | S fuel' => if t_fail s' then ([], s') else t_GetLine_fuel fuel' s'
      end
  | (l, s') => (l, s')
  end.
Definition t_GetLine (s : tstate) : line * tstate :=
  t_GetLine_fuel (S (length (f_lines (t_file s)) - t_pos s)) s.

Definition t_tell (s : tstate) : option nat * tstate :=
  if t_fail s || t_eof s then (None, TSt (t_file s) (t_pos s) (t_eof s) true)
  else (Some (t_pos s), s).
Definition t_seek (p : option nat) (s : tstate) : tstate :=
  if t_fail s then TSt (t_file s) (t_pos s) false true
  else match p with
       | Some n => TSt (t_file s) n false false
       | None => TSt (t_file s) (t_pos s) false true
       end.

(** line_stream >> int: fails on a missing word, on a value outside int, and (simplification:
    a prefix of digits is not split off) on a word that is not an integer *)
Definition scan_int (l : line) : outcome (Z * line) :=
  match l with
  | WInt z :: l' => if in_i32 z then Ok (z, l') else Exit
  | _ => Exit
  end.
(** line_stream >> std::size_t (simplification: no wrap-around of negative input) *)
Definition scan_size (l : line) : outcome (Z * line) :=
  match l with
  | WInt z :: l' => if in_u64 z then Ok (z, l') else Exit
  | _ => Exit
  end.
(** line_stream >> long int *)
Definition scan_long (l : line) : outcome (Z * line) :=
  match l with
  | WInt z :: l' => if in_i64 z then Ok (z, l') else Exit
  | _ => Exit
  end.
(** line_stream >> float *)
Definition scan_float (l : line) : outcome (Z * line) :=
  match l with
  | w :: l' => match scan_f E w with Some x => Ok (x, l') | None => Exit end
  | [] => Exit
  end.

(** * Random access machine common to all formats

    State of an InH2Stream apart from the (constant) header: sector_index_,
    stream_sector_positions_ and the stream itself.  [S] is the stream type. *)
Record instate (S : Type) := InSt { in_si : nat; in_posns : list (option nat); in_st : S }.
Arguments InSt {S}.
Arguments in_si {S}.
Arguments in_posns {S}.
Arguments in_st {S}.

Section Machine.
  Variable S : Type.
  Variable nsec : nat.                                         (* sectors().size() *)
  Variable failed : S -> bool.                                 (* !bool(stream()) *)
  Variable tell : S -> option nat * S.
  Variable seek : option nat -> S -> S.
  Variable rd : nat -> S -> outcome (mat D * S).               (* ReadSector_Version* *)
  Variable sk : nat -> S -> outcome S.                         (* SkipSector_Version* *)

  (** the end of ReadSector and SkipSector: StreamCheck, increment, store position;
      h2_io.cpp:359-367, 388-396 *)
  Definition finish (si : nat) (posns : list (option nat)) (s : S) : outcome (instate S) :=
    check (negb (failed s)) ;;;
    let si' := (si + 1)%nat in
    if Nat.ltb (length posns - 1) si' then
      let (p, s') := tell s in Ok (InSt si' (posns ++ [p]) s')
    else Ok (InSt si' posns s).

  (** InH2Stream::SkipSector, h2_io.cpp:370-397 *)
  Definition skip_sector (st : instate S) : outcome (instate S) :=
    s' <- sk (in_si st) (in_st st) ;;
    finish (in_si st) (in_posns st) s'.

  (** while (sector_index_<seek_index) SkipSector(), h2_io.cpp:413-414; the number of
      iterations is seek_index - sector_index_ because SkipSector increments sector_index_ *)
  Fixpoint skip_n (n : nat) (st : instate S) : outcome (instate S) :=
    match n with
    | O => Ok st
    | Datatypes.S n' => st' <- skip_sector st ;; skip_n n' st'
    end.

  (** InH2Stream::SeekToSector, h2_io.cpp:399-416 *)
  Definition seek_to_sector (i : nat) (st : instate S) : outcome (instate S) :=
    cassert (Nat.ltb i nsec) ;;;
    if Nat.leb i (length (in_posns st) - 1) then
      p <- get (nth_error (in_posns st) i) ;;
      Ok (InSt i (in_posns st) (seek p (in_st st)))
    else skip_n (i - in_si st) st.

  (** InH2Stream::ReadSector, h2_io.cpp:338-368 *)
  Definition read_sector (i : nat) (st : instate S) : outcome (mat D * instate S) :=
    st1 <- seek_to_sector i st ;;
    '(m, s') <- rd (in_si st1) (in_st st1) ;;
    st2 <- finish (in_si st1) (in_posns st1) s' ;;
    Ok (m, st2).

  (** a history of ReadSector calls *)
  Fixpoint read_history (h : list nat) (st : instate S) : outcome (list (mat D) * instate S) :=
    match h with
    | [] => Ok ([], st)
    | i :: h' =>
        '(m, st1) <- read_sector i st ;;
        '(ms, st2) <- read_history h' st1 ;;
        Ok (m :: ms, st2)
    end.
End Machine.

(** * Reading and skipping sectors *)

(** number of matrix elements in a sector as computed inside the read/write functions,
    e.g. h2_io_v15200.cpp:324-337 (no case for lower triangle sectors) *)
Definition sector_entries (s : sector) : nat :=
  if is_diag s then
    let dimension := ss_size (s_ket s) in Nat.div (dimension * (dimension + 1)) 2
  else ss_size (s_bra s) * ss_size (s_ket s).

(** the [continue] condition of the element loops: diagonal sector restricted to the upper
    triangle, e.g. h2_io_v15200.cpp:350-353 *)
Definition skipped (s : sector) (b k : nat) : bool := is_diag s && negb (Nat.leb b k).

(** binary element loop of ReadSector_Version*: matrix(b,k) = buffer[i++] *)
Definition rd_loop_bin (s : sector) (buffer : list Z) : outcome (mat D) :=
  '(m, _) <- loop2 (pairs (ss_size (s_bra s)) (ss_size (s_ket s)))
    (fun b k '(m, i) =>
       if skipped s b k then Ok (m, i)
       else x <- get (nth_error buffer i) ;; Ok (mset m b k (widen E x), (i + 1)%nat))
    (mzero (d0 E) (ss_size (s_bra s)) (ss_size (s_ket s)), O) ;;
  Ok m.

(** offset to convert an index within a species to an index in all orbitals,
    h2_io_v15200.cpp:313-317 (int arithmetic) *)
Definition index_offset (num_p : nat) (sp : ospecies) : Z :=
  match sp with SP => 1 | SN => i32 (Z.of_nat num_p + 1) end.

(** input_i == index + offset: int compared with std::size_t *)
Definition label_ok (input : Z) (index : nat) (offset : Z) : bool :=
  u64 input =? u64 (Z.of_nat index + offset).

(** one text line of a sector in version 15200, h2_io_v15200.cpp:366-387 *)
Definition rd_line_15200 (num_p : nat) (bra ket : subspace) (b k : nat * nat) (l : line) : outcome Z :=
  '(i1, l) <- scan_int l ;;
  '(i2, l) <- scan_int l ;;
  '(i3, l) <- scan_int l ;;
  '(i4, l) <- scan_int l ;;
  '(tJb, l) <- scan_int l ;;
  '(tJk, l) <- scan_int l ;;
  '(x, l) <- scan_float l ;;
  check (label_ok i1 (fst b) (index_offset num_p (sp1 (ss_species bra)))
         && label_ok i2 (snd b) (index_offset num_p (sp2 (ss_species bra)))
         && label_ok i3 (fst k) (index_offset num_p (sp1 (ss_species ket)))
         && label_ok i4 (snd k) (index_offset num_p (sp2 (ss_species ket)))
         && (tJb =? i32 (2 * ss_J bra)) && (tJk =? i32 (2 * ss_J ket))) ;;;
  Ok x.

(** one text line of a sector in version 15099, h2_io_v15099.cpp:474-495 *)
Definition rd_line_15099 (bra ket : subspace) (b k : nat * nat) (l : line) : outcome Z :=
  '(i1, l) <- scan_int l ;;
  '(i2, l) <- scan_int l ;;
  '(i3, l) <- scan_int l ;;
  '(i4, l) <- scan_int l ;;
  '(tJb, l) <- scan_int l ;;
  '(tJk, l) <- scan_int l ;;
  '(code, l) <- scan_int l ;;
  '(x, l) <- scan_float l ;;
  check (label_ok i1 (fst b) 1 && label_ok i2 (snd b) 1
         && label_ok i3 (fst k) 1 && label_ok i4 (snd k) 1
         && (tJb =? i32 (2 * ss_J bra)) && (tJk =? i32 (2 * ss_J ket))
         && (code =? species_code (ss_species ket))) ;;;
  Ok x.

(** one text line of a sector in version 0, h2_io_v0.cpp:220-239 *)
Definition rd_line_0 (bra ket : subspace) (b k : nat * nat) (l : line) : outcome Z :=
  '(i1, l) <- scan_int l ;;
  '(i2, l) <- scan_int l ;;
  '(i3, l) <- scan_int l ;;
  '(i4, l) <- scan_int l ;;
  '(tJ, l) <- scan_int l ;;
  '(code, l) <- scan_int l ;;
  '(x, l) <- scan_float l ;;
  check (label_ok i1 (fst b) 1 && label_ok i2 (snd b) 1
         && label_ok i3 (fst k) 1 && label_ok i4 (snd k) 1
         && (tJ =? i32 (2 * ss_J ket))
         && (code =? species_code (ss_species ket))) ;;;
  Ok x.

Definition rd_line (f : format) (num_p : nat) :=
  match f with
  | V15200 => rd_line_15200 num_p
  | V15099 => rd_line_15099
  | V0 => rd_line_0
  end.

(** text element loop of ReadSector_Version* *)
Definition rd_loop_txt (f : format) (num_p : nat) (s : sector) (st : tstate) : outcome (mat D * tstate) :=
  loop2 (pairs (ss_size (s_bra s)) (ss_size (s_ket s)))
    (fun b k '(m, st) =>
       if skipped s b k then Ok (m, st)
       else
         bs <- get (nth_error (ss_states (s_bra s)) b) ;;
         ks <- get (nth_error (ss_states (s_ket s)) k) ;;
         let (l, st') := t_GetLine st in
         x <- rd_line f num_p (s_bra s) (s_ket s) bs ks l ;;
         Ok (mset m b k (widen E x), st'))
    (mzero (d0 E) (ss_size (s_bra s)) (ss_size (s_ket s)), st).

(** sector_entries GetLine calls of SkipSector_Version* in text mode *)
Fixpoint skip_lines (n : nat) (st : tstate) : tstate :=
  match n with
  | O => st
  | S n' => skip_lines n' (snd (t_GetLine st))
  end.

(** record delimiter value entries*kIntegerSize, converted to int;
    the species is that of the ket (h2_io_v15099.cpp:419-424, h2_io_v0.cpp:297-301) *)
Definition delimiter (sectors : list sector) (s : sector) : Z :=
  4 * Z.of_nat (tget (evaluate_sizes sectors) (ss_species (s_ket s))).

(** verify a record delimiter if [b] *)
Definition verify_if (b : bool) (v : Z) (st : bstate) : outcome bstate :=
  if b then verify v st else Ok st.

(** ReadSector_Version15200, binary mode: h2_io_v15200.cpp:295-396 *)
Definition rd_bin_15200 (ix : indexing) (si : nat) (st : bstate) : outcome (mat D * bstate) :=
  s <- get (nth_error (ix_sectors ix) si) ;;
  cassert (is_upper s) ;;;
  let (buffer, st) := rd_buffer (sector_entries s) st in
  m <- rd_loop_bin s buffer ;;
  Ok (m, st).

(** ReadSector_Version15099, binary mode: h2_io_v15099.cpp:399-514 *)
Definition rd_bin_15099 (ix : indexing) (si : nat) (st : bstate) : outcome (mat D * bstate) :=
  s <- get (nth_error (ix_sectors ix) si) ;;
  cassert (is_upper s) ;;;
  first <- first_of_type (ix_sectors ix) si ;;
  st <- verify_if first (delimiter (ix_sectors ix) s) st ;;
  let (buffer, st) := rd_buffer (sector_entries s) st in
  m <- rd_loop_bin s buffer ;;
  last <- last_of_type (ix_sectors ix) si ;;
  st <- verify_if last (delimiter (ix_sectors ix) s) st ;;
  Ok (m, st).

(** ReadSector_Version0, binary mode: h2_io_v0.cpp:136-258.  Here the number of entries is an
    int and entries*kIntegerSize is an int product (overflow is undefined). *)
Definition delimiter_0 (sectors : list sector) (s : sector) : outcome Z :=
  let entries := i32 (Z.of_nat (tget (evaluate_sizes sectors) (ss_species (s_ket s)))) in
  if in_i32 (entries * 4) then Ok (entries * 4) else UB.
Definition rd_bin_0 (ix : indexing) (si : nat) (st : bstate) : outcome (mat D * bstate) :=
  s <- get (nth_error (ix_sectors ix) si) ;;
  cassert (is_upper s) ;;;
  cassert (is_diag s) ;;;
  first <- first_of_type (ix_sectors ix) si ;;
  st <- (if first then v <- delimiter_0 (ix_sectors ix) s ;; verify v st else Ok st) ;;
  let (buffer, st) := rd_buffer (sector_entries s) st in
  m <- rd_loop_bin s buffer ;;
  last <- last_of_type (ix_sectors ix) si ;;
  st <- (if last then v <- delimiter_0 (ix_sectors ix) s ;; verify v st else Ok st) ;;
  Ok (m, st).

Definition rd_bin (f : format) :=
  match f with V15200 => rd_bin_15200 | V15099 => rd_bin_15099 | V0 => rd_bin_0 end.

(** ReadSector_Version15200 / 15099 / 0, text mode: h2_io_v15200.cpp:295-396,
    h2_io_v15099.cpp:399-514, h2_io_v0.cpp:136-258 (version 0 also asserts a diagonal sector) *)
Definition rd_txt (f : format) (ix : indexing) (si : nat) (st : tstate) : outcome (mat D * tstate) :=
  s <- get (nth_error (ix_sectors ix) si) ;;
  cassert (is_upper s) ;;;
  (match f with V0 => cassert (is_diag s) | _ => Ok tt end) ;;;
  rd_loop_txt f (length (ix_p ix)) s st.

(** SkipSector_Version15200, binary mode: h2_io_v15200.cpp:398-429 *)
Definition sk_bin_15200 (ix : indexing) (si : nat) (st : bstate) : outcome bstate :=
  s <- get (nth_error (ix_sectors ix) si) ;;
  cassert (is_upper s) ;;;
  Ok (b_seek_cur (sector_count s * 4) st).

(** SkipSector_Version15099, binary mode: h2_io_v15099.cpp:516-581 *)
Definition sk_bin_15099 (ix : indexing) (si : nat) (st : bstate) : outcome bstate :=
  s <- get (nth_error (ix_sectors ix) si) ;;
  cassert (is_upper s) ;;;
  first <- first_of_type (ix_sectors ix) si ;;
  st <- verify_if first (delimiter (ix_sectors ix) s) st ;;
  let st := b_seek_cur (sector_entries s * 4) st in
  last <- last_of_type (ix_sectors ix) si ;;
  verify_if last (delimiter (ix_sectors ix) s) st.

(** SkipSector_Version0, binary mode: h2_io_v0.cpp:260-345 (here entries is a std::size_t) *)
Definition sk_bin_0 (ix : indexing) (si : nat) (st : bstate) : outcome bstate :=
  s <- get (nth_error (ix_sectors ix) si) ;;
  cassert (is_upper s) ;;;
  cassert (is_diag s) ;;;
  first <- first_of_type (ix_sectors ix) si ;;
  st <- verify_if first (delimiter (ix_sectors ix) s) st ;;
  let st := b_seek_cur (sector_entries s * 4) st in
  last <- last_of_type (ix_sectors ix) si ;;
  verify_if last (delimiter (ix_sectors ix) s) st.

Definition sk_bin (f : format) :=
  match f with V15200 => sk_bin_15200 | V15099 => sk_bin_15099 | V0 => sk_bin_0 end.

(** SkipSector_Version*, text mode: h2_io_v15200.cpp:412-423 (GetSectorCount),
    h2_io_v15099.cpp:540-565, h2_io_v0.cpp:304-329 *)
Definition sk_txt (f : format) (ix : indexing) (si : nat) (st : tstate) : outcome tstate :=
  s <- get (nth_error (ix_sectors ix) si) ;;
  cassert (is_upper s) ;;;
  (match f with V0 => cassert (is_diag s) | _ => Ok tt end) ;;;
  Ok (skip_lines (match f with V15200 => sector_count s | _ => sector_entries s end) st).

(** * Headers, input *)

(** basis::OrbitalSpacePN(orbitals): orbitals of each species in order of appearance *)
Definition is_p (o : orbital D) : bool := match o_sp o with SP => true | SN => false end.
Definition select_p (os : list (orbital D)) := filter is_p os.
Definition select_n (os : list (orbital D)) := filter (fun o => negb (is_p o)) os.

(** a std::size_t made from a sum of two ints, used as a loop count: negative values wrap to
    a huge count (treated as undefined) *)
Definition count_of (z : Z) : outcome nat := if z <? 0 then UB else Ok (Z.to_nat z).

(** basis::OrbitalPNInfo(n,l,j,tz,weight): species from tz = +1/2 (p), -1/2 (n);
    other values are not in the library's table (treated as undefined) *)
Fixpoint zip_orbitals (ns ls js tzs ws : list Z) : outcome (list (orbital D)) :=
  match ns, ls, js, tzs, ws with
  | n :: ns, l :: ls, j :: js, tz :: tzs, w :: ws =>
      sp <- (if tz =? 1 then Ok SP else if tz =? -1 then Ok SN else UB) ;;
      os <- zip_orbitals ns ls js tzs ws ;;
      Ok (Orb sp n l j (widen E w) :: os)
  | _, _, _, _, _ => Ok []
  end.

(** the header as it comes out of the reading phase: orbitals, weights, J0 g0 Tz0, and the
    announced sizes (and 2Jmax for version 15099) *)
Definition sizes_match (announced : tri Z) (actual : tri nat) : bool :=
  (u64 (t_pp announced) =? Z.of_nat (t_pp actual))
  && (u64 (t_nn announced) =? Z.of_nat (t_nn actual))
  && (u64 (t_pn announced) =? Z.of_nat (t_pn actual)).

(** end of ReadHeader_Version15200, h2_io_v15200.cpp:167-192: wp, wn come from the orbitals
    through a float; asserts compare a long int with a std::size_t *)
Definition finish_header_15200 (os : list (orbital D)) (J0 g0 Tz0 : Z) (wpp wpn wnn : Z)
    (sizes : tri Z) : outcome indexing :=
  let p := select_p os in
  let n := select_n os in
  let w := WMax (widen E (narrow E (weight_max_of E p))) (widen E (narrow E (weight_max_of E n)))
                (widen E wpp) (widen E wnn) (widen E wpn) in
  let space := mk_space E KTz p n w in
  let sectors := mk_sectors E space J0 g0 Tz0 in
  cassert (sizes_match sizes (evaluate_sizes sectors)) ;;;
  Ok (Ix p n KTz w space J0 g0 Tz0 sectors).

(** ReadHeader_Version15200, binary: h2_io_v15200.cpp:80-192 *)
Definition rd_header_bin_15200 (s : bstate) : outcome (indexing * bstate) :=
  '(np, s) <- rd_i32 s ;;
  '(nn, s) <- rd_i32 s ;;
  num <- count_of (i32 (np + nn)) ;;
  '(ns, s) <- rd_many rd_i32 num s ;;
  '(ls, s) <- rd_many rd_i32 num s ;;
  '(js, s) <- rd_many rd_i32 num s ;;
  '(tzs, s) <- rd_many rd_i32 num s ;;
  '(ws, s) <- rd_many rd_f32 num s ;;
  os <- zip_orbitals ns ls js tzs ws ;;
  '(J0, s) <- rd_i32 s ;;
  '(g0, s) <- rd_i32 s ;;
  '(Tz0, s) <- rd_i32 s ;;
  '(wpp, s) <- rd_f32 s ;;
  '(wpn, s) <- rd_f32 s ;;
  '(wnn, s) <- rd_f32 s ;;
  '(spp, s) <- rd_i64 s ;;
  '(spn, s) <- rd_i64 s ;;
  '(snn, s) <- rd_i64 s ;;
  ix <- finish_header_15200 os J0 g0 Tz0 wpp wpn wnn (Tri spp snn spn) ;;
  Ok (ix, s).

(** n GetLine calls collecting the lines *)
Fixpoint get_lines (n : nat) (st : tstate) : list line * tstate :=
  match n with
  | O => ([], st)
  | S n' => let (l, st1) := t_GetLine st in
            let (ls, st2) := get_lines n' st1 in
            (l :: ls, st2)
  end.

(** orbital listing in text mode, h2_io_v15200.cpp:31-54, h2_io_v15099.cpp:30-49 *)
Definition rd_orbitals_txt (f : format) (st : tstate) : outcome (list (orbital D) * tstate) :=
  let (l, st) := t_GetLine st in
  '(np, l) <- scan_size l ;;
  '(nn, _) <- scan_size l ;;
  let (ls, st) := get_lines (Z.to_nat (u64 (np + nn))) st in
  os <- parse_orbs E f ls ;;
  Ok (os, st).

(** ReadHeader_Version15200, text: h2_io_v15200.cpp:25-79, 167-192 *)
Definition rd_header_txt_15200 (st : tstate) : outcome (indexing * tstate) :=
  '(os, st) <- rd_orbitals_txt V15200 st ;;
  let (l, st) := t_GetLine st in
  '(J0, l) <- scan_int l ;;
  '(g0, l) <- scan_int l ;;
  '(Tz0, _) <- scan_int l ;;
  let (l, st) := t_GetLine st in
  '(wpp, l) <- scan_float l ;;
  '(wpn, l) <- scan_float l ;;
  '(wnn, _) <- scan_float l ;;
  let (l, st) := t_GetLine st in
  '(spp, l) <- scan_long l ;;
  '(spn, l) <- scan_long l ;;
  '(snn, _) <- scan_long l ;;
  ix <- finish_header_15200 os J0 g0 Tz0 wpp wpn wnn (Tri spp snn spn) ;;
  Ok (ix, st).

(** end of ReadHeader_Version15099, h2_io_v15099.cpp:224-264 *)
Definition finish_header_15099 (os : list (orbital D)) (J0 g0 Tz0 : Z) (wp wn wpp wnn wpn : Z)
    (tJ sizes : tri Z) : outcome indexing :=
  let p := select_p os in
  let n := select_n os in
  let w := WMax (widen E wp) (widen E wn) (widen E wpp) (widen E wnn) (widen E wpn) in
  let space := mk_space E KPN p n w in
  check (Tz0 =? 0) ;;;
  let sectors := mk_sectors E space J0 g0 Tz0 in
  let Jmax := evaluate_Jmax space in
  cassert (sizes_match sizes (evaluate_sizes sectors)) ;;;
  cassert ((Z.quot (t_pp tJ) 2 =? t_pp Jmax) && (Z.quot (t_nn tJ) 2 =? t_nn Jmax)
           && (Z.quot (t_pn tJ) 2 =? t_pn Jmax)) ;;;
  Ok (Ix p n KPN w space J0 g0 Tz0 sectors).

(** a Fortran record of n words: delimiter, words, delimiter (h2_io_v15099.cpp:124-162) *)
Definition rd_record {A} (rd : bstate -> outcome (A * bstate)) (n : nat) (s : bstate)
  : outcome (list A * bstate) :=
  s <- verify (Z.of_nat n * 4) s ;;
  '(xs, s) <- rd_many rd n s ;;
  s <- verify (Z.of_nat n * 4) s ;;
  Ok (xs, s).

(** orbital body of one species, h2_io_v15099.cpp:107-175 *)
Definition rd_species_bin_15099 (sp : ospecies) (num : nat) (s : bstate)
  : outcome (list (orbital D) * bstate) :=
  '(ns, s) <- rd_record rd_i32 num s ;;
  '(ls, s) <- rd_record rd_i32 num s ;;
  '(js, s) <- rd_record rd_i32 num s ;;
  '(ws, s) <- rd_record rd_f32 num s ;;
  let tz := match sp with SP => 1 | SN => -1 end in
  os <- zip_orbitals ns ls js (repeat tz num) ws ;;
  Ok (os, s).

(** ReadHeader_Version15099, binary: h2_io_v15099.cpp:91-264 *)
Definition rd_header_bin_15099 (s : bstate) : outcome (indexing * bstate) :=
  s <- verify 8 s ;;
  '(np, s) <- rd_i32 s ;;
  '(nn, s) <- rd_i32 s ;;
  s <- verify 8 s ;;
  num_p <- count_of np ;;
  num_n <- count_of nn ;;
  '(ops, s) <- rd_species_bin_15099 SP num_p s ;;
  '(ons, s) <- rd_species_bin_15099 SN num_n s ;;
  s <- verify 12 s ;;
  '(J0, s) <- rd_i32 s ;;
  '(g0, s) <- rd_i32 s ;;
  '(Tz0, s) <- rd_i32 s ;;
  s <- verify 12 s ;;
  s <- verify 8 s ;;
  '(wp, s) <- rd_f32 s ;;
  '(wn, s) <- rd_f32 s ;;
  s <- verify 8 s ;;
  s <- verify 12 s ;;
  '(wpp, s) <- rd_f32 s ;;
  '(wnn, s) <- rd_f32 s ;;
  '(wpn, s) <- rd_f32 s ;;
  s <- verify 12 s ;;
  s <- verify 12 s ;;
  '(Jpp, s) <- rd_i32 s ;;
  '(Jnn, s) <- rd_i32 s ;;
  '(Jpn, s) <- rd_i32 s ;;
  s <- verify 12 s ;;
  s <- verify 12 s ;;
  '(spp, s) <- rd_i32 s ;;
  '(snn, s) <- rd_i32 s ;;
  '(spn, s) <- rd_i32 s ;;
  s <- verify 12 s ;;
  ix <- finish_header_15099 (ops ++ ons) J0 g0 Tz0 wp wn wpp wnn wpn
          (Tri Jpp Jnn Jpn) (Tri spp snn spn) ;;
  Ok (ix, s).

(** ReadHeader_Version15099, text: h2_io_v15099.cpp:24-90, 224-264 *)
Definition rd_header_txt_15099 (st : tstate) : outcome (indexing * tstate) :=
  '(os, st) <- rd_orbitals_txt V15099 st ;;
  let (l, st) := t_GetLine st in
  '(J0, l) <- scan_int l ;;
  '(g0, l) <- scan_int l ;;
  '(Tz0, _) <- scan_int l ;;
  let (l, st) := t_GetLine st in
  '(wp, l) <- scan_float l ;;
  '(wn, _) <- scan_float l ;;
  let (l, st) := t_GetLine st in
  '(wpp, l) <- scan_float l ;;
  '(wnn, l) <- scan_float l ;;
  '(wpn, _) <- scan_float l ;;
  let (l, st) := t_GetLine st in
  '(Jpp, l) <- scan_int l ;;
  '(Jnn, l) <- scan_int l ;;
  '(Jpn, _) <- scan_int l ;;
  let (l, st) := t_GetLine st in
  '(spp, l) <- scan_int l ;;
  '(snn, l) <- scan_int l ;;
  '(spn, _) <- scan_int l ;;
  ix <- finish_header_15099 os J0 g0 Tz0 wp wn wpp wnn wpn
          (Tri Jpp Jnn Jpn) (Tri spp snn spn) ;;
  Ok (ix, st).

(** end of ReadHeader_Version0, h2_io_v0.cpp:67-91 *)
Definition finish_header_0 (num_types N1max N2max size_pp_nn size_pn : Z) : outcome indexing :=
  let (p, n) := osc_orbitals E N1max in
  let w := osc_wmax E N1max N2max in
  let space := mk_space E KPN p n w in
  let sectors := mk_sectors E space 0 0 0 in
  let sizes := evaluate_sizes sectors in
  cassert (num_types =? 2) ;;;
  cassert (u64 size_pp_nn =? Z.of_nat (t_pp sizes)) ;;;
  cassert (u64 size_pn =? Z.of_nat (t_pn sizes)) ;;;
  Ok (Ix p n KPN w space 0 0 0 sectors).

(** ReadHeader_Version0, binary: h2_io_v0.cpp:54-91 *)
Definition rd_header_bin_0 (s : bstate) : outcome (indexing * bstate) :=
  s <- verify 20 s ;;
  '(num_types, s) <- rd_i32 s ;;
  '(N1max, s) <- rd_i32 s ;;
  '(N2max, s) <- rd_i32 s ;;
  '(size_pp_nn, s) <- rd_i32 s ;;
  '(size_pn, s) <- rd_i32 s ;;
  s <- verify 20 s ;;
  ix <- finish_header_0 num_types N1max N2max size_pp_nn size_pn ;;
  Ok (ix, s).

(** ReadHeader_Version0, text: h2_io_v0.cpp:17-53, 67-91 *)
Definition rd_header_txt_0 (st : tstate) : outcome (indexing * tstate) :=
  let (l, st) := t_GetLine st in
  '(num_types, _) <- scan_int l ;;
  let (l, st) := t_GetLine st in
  '(N1max, _) <- scan_int l ;;
  let (l, st) := t_GetLine st in
  '(N2max, _) <- scan_int l ;;
  let (l, st) := t_GetLine st in
  '(size_pp_nn, l) <- scan_int l ;;
  '(size_pn, _) <- scan_int l ;;
  ix <- finish_header_0 num_types N1max N2max size_pp_nn size_pn ;;
  Ok (ix, st).

(** dispatch on the version, h2_io.cpp:318-329 *)
Definition format_of_code (c : Z) : outcome format :=
  if c =? 0 then Ok V0
  else if c =? 15099 then Ok V15099
  else if c =? 15200 then Ok V15200
  else Exit.

(** an open InH2Stream *)
Record instream (S : Type) := InStr { is_fmt : format; is_ix : indexing; is_state : instate S }.
Arguments InStr {S}.
Arguments is_fmt {S}.
Arguments is_ix {S}.
Arguments is_state {S}.

(** ReadVersion (binary, h2_io.cpp:263-272) and InH2Stream constructor (h2_io.cpp:301-330);
    the position of the first sector is stored at the end of ReadHeader_Version* *)
Definition open_bin (data : list Z) : outcome (instream bstate) :=
  let s := BSt data 0 false false in
  s <- verify 4 s ;;
  '(c, s) <- rd_i32 s ;;
  s <- verify 4 s ;;
  check (negb (b_fail s)) ;;;
  f <- format_of_code c ;;
  '(ix, s) <- (match f with
               | V0 => rd_header_bin_0 s
               | V15099 => rd_header_bin_15099 s
               | V15200 => rd_header_bin_15200 s
               end) ;;
  let (p, s) := b_tell s in
  Ok (InStr f ix (InSt 0 [p] s)).

(** ReadVersion (text, h2_io.cpp:249-272; plain std::getline) and constructor *)
Definition open_txt (file : tfile) : outcome (instream tstate) :=
  let (l, s) := t_getline (TSt file 0 false false) in
  '(c, _) <- scan_int l ;;
  check (negb (t_fail s)) ;;;
  f <- format_of_code c ;;
  '(ix, s) <- (match f with
               | V0 => rd_header_txt_0 s
               | V15099 => rd_header_txt_15099 s
               | V15200 => rd_header_txt_15200 s
               end) ;;
  let (p, s) := t_tell s in
  Ok (InStr f ix (InSt 0 [p] s)).

(** a history of InH2Stream::ReadSector calls on an open stream *)
Definition reads_bin (st : instream bstate) (h : list nat) : outcome (list (mat D) * instream bstate) :=
  '(ms, s) <- read_history bstate (length (ix_sectors (is_ix st))) b_fail b_tell b_seek
                (rd_bin (is_fmt st) (is_ix st)) (sk_bin (is_fmt st) (is_ix st)) h (is_state st) ;;
  Ok (ms, InStr (is_fmt st) (is_ix st) s).
Definition reads_txt (st : instream tstate) (h : list nat) : outcome (list (mat D) * instream tstate) :=
  '(ms, s) <- read_history tstate (length (ix_sectors (is_ix st))) t_fail t_tell t_seek
                (rd_txt (is_fmt st) (is_ix st)) (sk_txt (is_fmt st) (is_ix st)) h (is_state st) ;;
  Ok (ms, InStr (is_fmt st) (is_ix st) s).

(** * Output *)

(** conversion_factor, h2_io_v15200.cpp:494-504 (identical in the other versions) *)
Definition same_pair (ss : subspace) (st : nat * nat) : bool :=
  negb (species_eqb (ss_species ss) PN) && Nat.eqb (fst st) (snd st).
Definition conversion_factor (c : conversion) (bra ket : subspace) (b k : nat * nat) : D :=
  match c with
  | CASToNAS =>
      let f1 := if same_pair bra b then dmul E (d1 E) (dinvsqrt2 E) else d1 E in
      if same_pair ket k then dmul E f1 (dinvsqrt2 E) else f1
  | _ => d1 E
  end.

(** output_matrix_element (bits of the float) for states b, k; h2_io_v15200.cpp:507 *)
Definition out_element (c : conversion) (s : sector) (m : mat D) (bi ki : nat) : outcome Z :=
  b <- get (nth_error (ss_states (s_bra s)) bi) ;;
  k <- get (nth_error (ss_states (s_ket s)) ki) ;;
  Ok (narrow E (dmul E (conversion_factor c (s_bra s) (s_ket s) b k) (at_ m bi ki))).

(** the [continue] condition of the write loops; version 0 (h2_io_v0.cpp:402-404) skips the
    lower triangle unconditionally *)
Definition wskipped (f : format) (s : sector) (b k : nat) : bool :=
  match f with V0 => negb (Nat.leb b k) | _ => skipped s b k end.

(** binary element loop of WriteSector_Version*: buffer[i++] = element;
    h2_io_v15200.cpp:476-537 *)
Definition wr_loop_bin (f : format) (c : conversion) (s : sector) (m : mat D) : outcome (list Z) :=
  '(buffer, _) <- loop2 (pairs (ss_size (s_bra s)) (ss_size (s_ket s)))
    (fun b k '(buffer, i) =>
       if wskipped f s b k then Ok (buffer, i)
       else
         x <- out_element c s m b k ;;
         buffer <- store buffer i x ;;
         Ok (buffer, (i + 1)%nat))
    (repeat 0 (sector_entries s), O) ;;
  Ok buffer.

(** text line of one matrix element: h2_io_v15200.cpp:512-526, h2_io_v15099.cpp:665-681,
    h2_io_v0.cpp:428-442 (int labels) *)
Definition out_line (f : format) (num_p : nat) (bra ket : subspace) (b k : nat * nat) (x : Z) : line :=
  match f with
  | V15200 =>
      [ WInt (i32 (Z.of_nat (fst b) + index_offset num_p (sp1 (ss_species bra))));
        WInt (i32 (Z.of_nat (snd b) + index_offset num_p (sp2 (ss_species bra))));
        WInt (i32 (Z.of_nat (fst k) + index_offset num_p (sp1 (ss_species ket))));
        WInt (i32 (Z.of_nat (snd k) + index_offset num_p (sp2 (ss_species ket))));
        WInt (i32 (2 * ss_J bra)); WInt (i32 (2 * ss_J ket)); WTxt (fmt_f E x) ]
  | V15099 =>
      [ WInt (i32 (Z.of_nat (fst b) + 1)); WInt (i32 (Z.of_nat (snd b) + 1));
        WInt (i32 (Z.of_nat (fst k) + 1)); WInt (i32 (Z.of_nat (snd k) + 1));
        WInt (i32 (2 * ss_J bra)); WInt (i32 (2 * ss_J ket));
        WInt (species_code (ss_species ket)); WTxt (fmt_f E x) ]
  | V0 =>
      [ WInt (i32 (Z.of_nat (fst b) + 1)); WInt (i32 (Z.of_nat (snd b) + 1));
        WInt (i32 (Z.of_nat (fst k) + 1)); WInt (i32 (Z.of_nat (snd k) + 1));
        WInt (i32 (2 * ss_J ket));
        WInt (species_code (ss_species ket)); WTxt (fmt_f E x) ]
  end.

(** text element loop of WriteSector_Version* *)
Definition wr_loop_txt (f : format) (num_p : nat) (c : conversion) (s : sector) (m : mat D)
  : outcome (list line) :=
  loop2 (pairs (ss_size (s_bra s)) (ss_size (s_ket s)))
    (fun bi ki out =>
       if wskipped f s bi ki then Ok out
       else
         x <- out_element c s m bi ki ;;
         b <- get (nth_error (ss_states (s_bra s)) bi) ;;
         k <- get (nth_error (ss_states (s_ket s)) ki) ;;
         Ok (out ++ [out_line f num_p (s_bra s) (s_ket s) b k x]))
    [].

(** kMaxRecordLength, h2_io.cpp:40 *)
Definition kMaxRecordLength : Z := 2147483647 - 8.

(** WriteSector_Version15200, binary: h2_io_v15200.cpp:431-539 *)
Definition wr_bin_15200 (ix : indexing) (si : nat) (m : mat D) (c : conversion) : outcome (list Z) :=
  s <- get (nth_error (ix_sectors ix) si) ;;
  cassert (is_upper s) ;;;
  buffer <- wr_loop_bin V15200 c s m ;;
  Ok (flat_map enc32 buffer).

(** WriteSector_Version15099, binary: h2_io_v15099.cpp:583-700 *)
Definition wr_bin_15099 (ix : indexing) (si : nat) (m : mat D) (c : conversion) : outcome (list Z) :=
  s <- get (nth_error (ix_sectors ix) si) ;;
  cassert (is_upper s) ;;;
  first <- first_of_type (ix_sectors ix) si ;;
  (if first then cassert (delimiter (ix_sectors ix) s <? kMaxRecordLength) else Ok tt) ;;;
  buffer <- wr_loop_bin V15099 c s m ;;
  last <- last_of_type (ix_sectors ix) si ;;
  Ok ((if first then enc32 (delimiter (ix_sectors ix) s) else [])
      ++ flat_map enc32 buffer
      ++ (if last then enc32 (delimiter (ix_sectors ix) s) else [])).

(** WriteSector_Version0, binary: h2_io_v0.cpp:347-461 *)
Definition wr_bin_0 (ix : indexing) (si : nat) (m : mat D) (c : conversion) : outcome (list Z) :=
  s <- get (nth_error (ix_sectors ix) si) ;;
  cassert (is_upper s) ;;;
  cassert (is_diag s) ;;;
  first <- first_of_type (ix_sectors ix) si ;;
  (if first then cassert (delimiter (ix_sectors ix) s <? kMaxRecordLength) else Ok tt) ;;;
  buffer <- wr_loop_bin V0 c s m ;;
  last <- last_of_type (ix_sectors ix) si ;;
  Ok ((if first then enc32 (delimiter (ix_sectors ix) s) else [])
      ++ flat_map enc32 buffer
      ++ (if last then enc32 (delimiter (ix_sectors ix) s) else [])).

Definition wr_bin (f : format) :=
  match f with V15200 => wr_bin_15200 | V15099 => wr_bin_15099 | V0 => wr_bin_0 end.

(** WriteSector_Version*, text *)
Definition wr_txt (f : format) (ix : indexing) (si : nat) (m : mat D) (c : conversion)
  : outcome (list line) :=
  s <- get (nth_error (ix_sectors ix) si) ;;
  cassert (is_upper s) ;;;
  (match f with V0 => cassert (is_diag s) | _ => Ok tt end) ;;;
  wr_loop_txt f (length (ix_p ix)) c s m.

(** ** Headers, output *)

Definition ordering_eqb (a b : ordering) : bool :=
  match a, b with KPN, KPN | KTz, KTz => true | _, _ => false end.

Definition twice_tz (o : orbital D) : Z := match o_sp o with SP => 1 | SN => -1 end.

(** WriteHeader_Version15200, binary: h2_io_v15200.cpp:195-198, 236-291;
    orbital_space().OrbitalInfo() lists the orbitals of species p, then n *)
Definition wr_header_bin_15200 (ix : indexing) : outcome (list Z) :=
  cassert (ordering_eqb (ix_ord ix) KTz) ;;;
  let os := ix_p ix ++ ix_n ix in
  let sizes := evaluate_sizes (ix_sectors ix) in
  cassert (deqb E (weight_max_of E (ix_p ix)) (w_p (ix_w ix))) ;;;
  cassert (deqb E (weight_max_of E (ix_n ix)) (w_n (ix_w ix))) ;;;
  Ok (enc32 (Z.of_nat (length (ix_p ix))) ++ enc32 (Z.of_nat (length (ix_n ix)))
      ++ flat_map enc32 (map o_n os)
      ++ flat_map enc32 (map o_l os)
      ++ flat_map enc32 (map o_2j os)
      ++ flat_map enc32 (map twice_tz os)
      ++ flat_map enc32 (map (fun o => narrow E (o_w o)) os)
      ++ enc32 (ix_J0 ix) ++ enc32 (ix_g0 ix) ++ enc32 (ix_Tz0 ix)
      ++ enc32 (narrow E (w_pp (ix_w ix)))
      ++ enc32 (narrow E (w_pn (ix_w ix)))
      ++ enc32 (narrow E (w_nn (ix_w ix)))
      ++ enc64 (Z.of_nat (t_pp sizes))
      ++ enc64 (Z.of_nat (t_pn sizes))
      ++ enc64 (Z.of_nat (t_nn sizes))).

(** WriteHeader_Version15200, text: h2_io_v15200.cpp:201-235 *)
Definition wr_header_txt_15200 (ix : indexing) : outcome (list line) :=
  cassert (ordering_eqb (ix_ord ix) KTz) ;;;
  let sizes := evaluate_sizes (ix_sectors ix) in
  cassert (deqb E (weight_max_of E (ix_p ix)) (w_p (ix_w ix))) ;;;
  cassert (deqb E (weight_max_of E (ix_n ix)) (w_n (ix_w ix))) ;;;
  Ok ([[WInt (Z.of_nat (length (ix_p ix))); WInt (Z.of_nat (length (ix_n ix)))]]
      ++ orb_lines E V15200 (ix_p ix ++ ix_n ix)
      ++ [ [WInt (ix_J0 ix); WInt (ix_g0 ix); WInt (ix_Tz0 ix)];
           [WTxt (fmt_d E (w_pp (ix_w ix))); WTxt (fmt_d E (w_pn (ix_w ix))); WTxt (fmt_d E (w_nn (ix_w ix)))];
           [WInt (Z.of_nat (t_pp sizes)); WInt (Z.of_nat (t_pn sizes)); WInt (Z.of_nat (t_nn sizes))] ]).

(** a Fortran record: h2_io_v15099.cpp:329-347 *)
Definition wr_record (ws : list Z) : list Z :=
  enc32 (Z.of_nat (length ws) * 4) ++ flat_map enc32 ws ++ enc32 (Z.of_nat (length ws) * 4).

(** orbital records of one species: h2_io_v15099.cpp:322-348 *)
Definition wr_species_bin_15099 (os : list (orbital D)) : list Z :=
  wr_record (map o_n os) ++ wr_record (map o_l os) ++ wr_record (map o_2j os)
  ++ wr_record (map (fun o => narrow E (o_w o)) os).

(** WriteHeader_Version15099, binary: h2_io_v15099.cpp:267-270, 308-395 *)
Definition wr_header_bin_15099 (ix : indexing) : outcome (list Z) :=
  cassert (ordering_eqb (ix_ord ix) KPN) ;;;
  let sizes := evaluate_sizes (ix_sectors ix) in
  let Jmax := evaluate_Jmax (ix_space ix) in
  Ok (wr_record [Z.of_nat (length (ix_p ix)); Z.of_nat (length (ix_n ix))]
      ++ wr_species_bin_15099 (ix_p ix)
      ++ wr_species_bin_15099 (ix_n ix)
      ++ wr_record [ix_J0 ix; ix_g0 ix; ix_Tz0 ix]
      ++ wr_record [narrow E (w_p (ix_w ix)); narrow E (w_n (ix_w ix))]
      ++ wr_record [narrow E (w_pp (ix_w ix)); narrow E (w_nn (ix_w ix)); narrow E (w_pn (ix_w ix))]
      ++ wr_record [2 * t_pp Jmax; 2 * t_nn Jmax; 2 * t_pn Jmax]
      ++ wr_record [Z.of_nat (t_pp sizes); Z.of_nat (t_nn sizes); Z.of_nat (t_pn sizes)]).

(** WriteHeader_Version15099, text: h2_io_v15099.cpp:273-307 *)
Definition wr_header_txt_15099 (ix : indexing) : outcome (list line) :=
  cassert (ordering_eqb (ix_ord ix) KPN) ;;;
  let sizes := evaluate_sizes (ix_sectors ix) in
  let Jmax := evaluate_Jmax (ix_space ix) in
  Ok ([[WInt (Z.of_nat (length (ix_p ix))); WInt (Z.of_nat (length (ix_n ix)))]]
      ++ orb_lines E V15099 (ix_p ix ++ ix_n ix)
      ++ [ [WInt (ix_J0 ix); WInt (ix_g0 ix); WInt (ix_Tz0 ix)];
           [WTxt (fmt_d E (w_p (ix_w ix))); WTxt (fmt_d E (w_n (ix_w ix)))];
           [WTxt (fmt_d E (w_pp (ix_w ix))); WTxt (fmt_d E (w_nn (ix_w ix))); WTxt (fmt_d E (w_pn (ix_w ix)))];
           [WInt (2 * t_pp Jmax); WInt (2 * t_nn Jmax); WInt (2 * t_pn Jmax)];
           [WInt (Z.of_nat (t_pp sizes)); WInt (Z.of_nat (t_nn sizes)); WInt (Z.of_nat (t_pn sizes))] ]).

(** WriteHeader_Version0: h2_io_v0.cpp:94-134 (sizes and cutoffs are converted to int) *)
Definition v0_header_fields (ix : indexing) : list Z :=
  let sizes := evaluate_sizes (ix_sectors ix) in
  [2; d_to_int E (w_p (ix_w ix)); d_to_int E (w_pp (ix_w ix));
   i32 (Z.of_nat (t_pp sizes)); i32 (Z.of_nat (t_pn sizes))].
Definition wr_header_bin_0 (ix : indexing) : outcome (list Z) :=
  cassert (ordering_eqb (ix_ord ix) KPN) ;;;
  Ok (wr_record (v0_header_fields ix)).
Definition wr_header_txt_0 (ix : indexing) : outcome (list line) :=
  cassert (ordering_eqb (ix_ord ix) KPN) ;;;
  match v0_header_fields ix with
  | [num_types; N1max; N2max; size_pp_nn; size_pn] =>
      Ok [[WInt num_types]; [WInt N1max]; [WInt N2max]; [WInt size_pp_nn; WInt size_pn]]
  | _ => UB
  end.

(** An open OutH2Stream: sector_index_ and what has been written so far. *)
Record outstream (U : Type) := OutStr { os_fmt : format; os_ix : indexing; os_si : nat; os_out : list U }.
Arguments OutStr {U}.
Arguments os_fmt {U}.
Arguments os_ix {U}.
Arguments os_si {U}.
Arguments os_out {U}.

(** OutH2Stream constructor and WriteVersion, h2_io.cpp:276-294, 423-469 *)
Definition create_bin (f : format) (ix : indexing) : outcome (outstream Z) :=
  h <- (match f with
        | V0 => wr_header_bin_0 ix
        | V15099 => wr_header_bin_15099 ix
        | V15200 => wr_header_bin_15200 ix
        end) ;;
  Ok (OutStr f ix 0 (wr_record [format_code f] ++ h)).
Definition create_txt (f : format) (ix : indexing) : outcome (outstream line) :=
  h <- (match f with
        | V0 => wr_header_txt_0 ix
        | V15099 => wr_header_txt_15099 ix
        | V15200 => wr_header_txt_15200 ix
        end) ;;
  Ok (OutStr f ix 0 ([WInt (format_code f)] :: h)).

(** the asserts at the start of OutH2Stream::WriteSector, h2_io.cpp:477-488 *)
Definition write_checks (ix : indexing) (cur si : nat) (m : mat D) (c : conversion) : outcome unit :=
  s <- get (nth_error (ix_sectors ix) cur) ;;
  cassert (Nat.eqb si cur) ;;;
  cassert (Nat.eqb (rows m) (ss_size (s_bra s)) && Nat.eqb (cols m) (ss_size (s_ket s))) ;;;
  cassert (match c with CAny => false | _ => true end).

(** OutH2Stream::WriteSector, h2_io.cpp:471-506 *)
Definition write_sector_bin (st : outstream Z) (w : nat * mat D * conversion) : outcome (outstream Z) :=
  let '(si, m, c) := w in
  write_checks (os_ix st) (os_si st) si m c ;;;
  bytes <- wr_bin (os_fmt st) (os_ix st) (os_si st) m c ;;
  Ok (OutStr (os_fmt st) (os_ix st) (os_si st + 1) (os_out st ++ bytes)).
Definition write_sector_txt (st : outstream line) (w : nat * mat D * conversion) : outcome (outstream line) :=
  let '(si, m, c) := w in
  write_checks (os_ix st) (os_si st) si m c ;;;
  lines <- wr_txt (os_fmt st) (os_ix st) (os_si st) m c ;;
  Ok (OutStr (os_fmt st) (os_ix st) (os_si st + 1) (os_out st ++ lines)).

(** a history of WriteSector calls *)
Fixpoint write_history {U} (wr : outstream U -> nat * mat D * conversion -> outcome (outstream U))
    (h : list (nat * mat D * conversion)) (st : outstream U) : outcome (outstream U) :=
  match h with
  | [] => Ok st
  | w :: h' => st' <- wr st w ;; write_history wr h' st'
  end.

(** construct an OutH2Stream, perform the writes, close: the resulting file contents *)
Definition write_file_bin (f : format) (ix : indexing) (h : list (nat * mat D * conversion))
  : outcome (list Z) :=
  st <- create_bin f ix ;;
  st <- write_history write_sector_bin h st ;;
  Ok (os_out st).
Definition write_file_txt (f : format) (ix : indexing) (h : list (nat * mat D * conversion))
  : outcome tfile :=
  st <- create_txt f ix ;;
  st <- write_history write_sector_txt h st ;;
  Ok (TFile (os_out st) true).

(** * Choice of mode by file name

    InH2Stream::InH2Stream(filename), h2_io.cpp:301-330, on a file that holds the bytes [data]
    (opened as text: the lines [file]).  In mode kMatrix ReadVersion (h2_io.cpp:249-272) reads
    nothing, so the dispatch is on the member h2_format_, which no constructor initialises
    (h2_io.h:214): undefined. *)
Definition open_file (filename : string) (data : list Z) (file : tfile)
  : outcome (instream bstate + instream tstate) :=
  md <- deduced_io_mode filename ;;
  match md with
  | KBinary => st <- open_bin data ;; Ok (inl st)
  | KText => st <- open_txt file ;; Ok (inr st)
  | KMatrix => UB
  end.

(** OutH2Stream::OutH2Stream(filename,...), h2_io.cpp:423-469, the writes, and closing.  In mode
    kMatrix WriteVersion, WriteHeader_Version* and WriteSector_Version* write nothing; their
    only effect is the assertion on the space ordering (h2_io_v0.cpp:103, h2_io_v15099.cpp:270,
    h2_io_v15200.cpp:198), the assertions of WriteSector (h2_io.cpp:477-488) and those at the
    start of WriteSector_Version* (sector in the upper triangle; diagonal for version 0). *)
Definition matrix_write (f : format) (ix : indexing) (n : nat) (w : nat * mat D * conversion) : outcome nat :=
  let '(si, m, c) := w in
  write_checks ix n si m c ;;;
  s <- get (nth_error (ix_sectors ix) n) ;;
  cassert (is_upper s) ;;;
  (match f with V0 => cassert (is_diag s) | _ => Ok tt end) ;;;
  Ok (n + 1)%nat.
Fixpoint matrix_writes (f : format) (ix : indexing) (h : list (nat * mat D * conversion)) (n : nat)
  : outcome unit :=
  match h with
  | [] => Ok tt
  | w :: h' => n' <- matrix_write f ix n w ;; matrix_writes f ix h' n'
  end.
Inductive contents := Bytes (data : list Z) | Lines (file : tfile).
Definition write_file (filename : string) (f : format) (ix : indexing)
    (h : list (nat * mat D * conversion)) : outcome contents :=
  md <- deduced_io_mode filename ;;
  match md with
  | KBinary => d <- write_file_bin f ix h ;; Ok (Bytes d)
  | KText => t <- write_file_txt f ix h ;; Ok (Lines t)
  | KMatrix =>
      cassert (ordering_eqb (ix_ord ix) (match f with V15200 => KTz | _ => KPN end)) ;;;
      matrix_writes f ix h 0 ;;; Ok (Bytes [])
  end.

End Model.
Arguments Tri {A}.
Arguments t_pp {A}.
Arguments t_nn {A}.
Arguments t_pn {A}.
