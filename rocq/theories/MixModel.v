(** Model of programs/h2utils/h2mixer.cpp: mixing of two-body matrix elements, and its one-body linear combinations.

    Simplifications: double is R; an open input file is its indexing and the matrix that ReadSector gives for each sector
    (C06 shows that this does not depend on earlier reads); the files of the targets are the sequences of matrices handed
    to OutH2Stream::WriteSector; the indexings built by the basis library are given; xforms are the overlaps used by
    tbme_xform (XformModel); parsing of the control file and diagnostic output are not modelled. *)
From Coq Require Import String List ZArith Reals Bool.
From Verif Require Import Base H2Model MapModel RMat XformModel SepModel OscModel BlockModel.
Import ListNotations.
Open Scope R_scope.
Open Scope outcome_scope.

(** TwoBodyOperatorIndexing (h2mixer.cpp:139-145); [ti_q]: J0, g0, Tz0 of the sectors *)
Record tindex := TIx { ti_orb : ospace; ti_space : list subspace; ti_sectors : list sector; ti_q : Z * Z * Z }.
(** an open InH2Stream *)
Record infile := InFile { if_ix : tindex; if_read : nat -> outcome (mat R) }.

(** RunParameters (h2mixer.cpp:109-133), the members used here.  The constructor does not initialise A: [None] until
    set-mass is read. *)
Record params := Params { rp_J0 : Z; rp_g0 : Z; rp_Tz0 : Z; rp_A : option Z }.

(** OneBodyOperatorMap, XformMap: look-up by name *)
Definition obmap := list (string * (ospace * obop)).
Definition xmap := list (string * overlaps).
Fixpoint assoc {A} (l : list (string * A)) (id : string) : option A :=
  match l with [] => None | (x, a) :: l' => if String.eqb id x then Some a else assoc l' id end.

(** equality of the orbital lists (OrbitalInfo) *)
Definition olist_eqb (a b : list olabel) : bool :=
  if list_eq_dec (fun x y : olabel => ltac:(decide equality; apply Z.eq_dec)) a b then true else false.
Definition ospace_eqb (a b : ospace) : bool := olist_eqb (a SP) (b SP) && olist_eqb (a SN) (b SN).

(** what define-tb-source gives (h2mixer.cpp:469-665, 880-961); the pre-xform indexing of an xform channel is the one
    built from the orbitals of the input file and the given truncation *)
Inductive source :=
| SInput (f : infile)
| SBuiltin
| SOperatorU (ob : string)
| SOperatorV (a b : string) (scale : R)
| SXform (f : infile) (pre : tindex) (xf : string).
(** an initialised channel *)
Inductive channel :=
| CInput (f : infile) (mp : mapping)
| CBuiltin
| COperatorU (os : ospace) (op : obop)
| COperatorV (same : bool) (a b : obop) (scale : R)
| CXform (f : infile) (pre : tindex) (mp : mapping) (ov : overlaps).

(** InitializeChannel (h2mixer.cpp:1460-1643) *)
Definition initialize (rp : params) (xs : xmap) (obs : obmap) (tgt : tindex) (s : string * source)
  : outcome (string * channel) :=
  let (id, src) := s in
  match src with
  | SInput f =>
      mp <- make_mapping (ti_orb (if_ix f)) (ti_space (if_ix f)) (ti_orb tgt) (ti_space tgt) ;;
      Ok (id, CInput f mp)
  | SBuiltin => Ok (id, CBuiltin)
  | SOperatorU ob =>
      match assoc obs ob with
      | None => Exit
      | Some (os, op) =>
          cassert (ob_J0 op =? rp_J0 rp)%Z ;;; cassert (ob_g0 op =? rp_g0 rp)%Z ;;;
          cassert (ob_Tz0 op =? rp_Tz0 rp)%Z ;;; Ok (id, COperatorU os op)
      end
  | SOperatorV a b scale =>
      match assoc obs a, assoc obs b with
      | Some (osa, opa), Some (osb, opb) =>
          cassert (ospace_eqb osa osb) ;;;
          cassert (triangle (2 * ob_J0 opa) (2 * ob_J0 opb) (2 * rp_J0 rp)) ;;;
          cassert (Z.rem (ob_g0 opa + ob_g0 opb + rp_g0 rp) 2 =? 0)%Z ;;;
          cassert (ob_Tz0 opa + ob_Tz0 opb =? rp_Tz0 rp)%Z ;;;
          Ok (id, COperatorV (String.eqb a b) opa opb scale)
      | _, _ => Exit
      end
  | SXform f pre xf =>
      mp <- make_mapping (ti_orb (if_ix f)) (ti_space (if_ix f)) (ti_orb pre) (ti_space pre) ;;
      match assoc xs xf with
      | None => Exit
      | Some ov =>
          _mp <- make_mapping (ti_orb pre) (ti_space pre) (ti_orb tgt) (ti_space tgt) ;;
          Ok (id, CXform f pre mp ov)
      end
  end.

(** h2mixer.cpp:1676-1683, 1813-1825: the index of the sector of the same labels; LookUpSectorIndex is keyed by the
    indices of bra and ket subspaces; [None] for basis::kNone *)
Definition counterpart (ix : tindex) (ts : sector) : option nat :=
  match lookup labels_eqb (map sub_labels (ti_space ix)) (sub_labels (s_bra ts)),
        lookup labels_eqb (map sub_labels (ti_space ix)) (sub_labels (s_ket ts)) with
  | Some b, Some k => lookup pair_eqb (map (fun s => (s_bi s, s_ki s)) (ti_sectors ix)) (b, k)
  | _, _ => None
  end.

(** mcutils::CompleteLowerTriangle *)
Definition complete_lower (m : mat R) : mat R :=
  Mat (rows m) (cols m) (fun i j => if Nat.ltb j i then at_ m j i else at_ m i j).
(** ReadSector and completion (h2mixer.cpp:1698-1707, 1839-1848) *)
Definition read_full (f : infile) (i : nat) (s : sector) : outcome (mat R) :=
  m <- if_read f i ;; Ok (if is_diag s then complete_lower m else m).

Definition rscale (z : Z) (x : R) : R := IZR z * x.

(** PopulateSourceMatrix of an InputChannel (h2mixer.cpp:1667-1720); [None]: returns without storing a matrix *)
Definition populate_input (f : infile) (mp : mapping) (ts : sector) : outcome (option (mat R)) :=
  match counterpart (if_ix f) ts with
  | None => Ok None
  | Some i =>
      ss <- get (nth_error (ti_sectors (if_ix f)) i) ;;
      m <- read_full f i ss ;;
      r <- remap R 0 rscale ss ts mp m ;; Ok (Some r)
  end.
(** of an XformChannel (h2mixer.cpp:1804-1887) *)
Definition populate_xform (f : infile) (pre : tindex) (mp : mapping) (ov : overlaps) (tgt : tindex) (ts : sector)
  : outcome (option (mat R)) :=
  match counterpart (if_ix f) ts, counterpart pre ts with
  | Some i, Some j =>
      ss <- get (nth_error (ti_sectors (if_ix f)) i) ;;
      ps <- get (nth_error (ti_sectors pre) j) ;;
      m <- read_full f i ss ;;
      p <- remap R 0 rscale ss ps mp m ;;
      r <- transformed ov (ti_orb pre) (ti_orb tgt) ps ts p ;; Ok (Some r)
  | _, _ => Ok None
  end.

Section Mixer.
(** Racah reduction factors of the am library (SepModel) and the tolerance of mcutils::ChopMatrix *)
Variable F1 F2 : factor1.
Variable F12 : factor12.
Variable tol : R.

(** A as an argument; an uninitialised int is undefined behaviour *)
Definition mass (rp : params) : outcome Z := match rp_A rp with Some A => Ok A | None => UB end.

(** PopulateSourceMatrix of all kinds of channel (h2mixer.cpp:1667-1887); an unknown builtin was refused by the parser
    (h2mixer.cpp:899-900) *)
Definition populate (rp : params) (tgt : tindex) (ts : sector) (c : string * channel) : outcome (option (mat R)) :=
  match snd c with
  | CInput f mp => populate_input f mp ts
  | CBuiltin =>
      if String.eqb (fst c) "identity" then A <- mass rp ;; m <- identity_matrix ts A ;; Ok (Some m)
      else if String.eqb (fst c) "loop-test" then m <- timing_matrix ts true true ;; Ok (Some m)
      else Exit
  | COperatorU os op => A <- mass rp ;; m <- upgrade F1 F2 op (ti_orb tgt) ts A ;; Ok (Some m)
  | COperatorV same a b scale =>
      m <- tensor F12 same a b (ti_orb tgt) ts (rp_J0 rp) ;;
      Ok (Some (Mat (rows m) (cols m) (fun i j => at_ m i j * scale)))
  | CXform f pre mp ov => populate_xform f pre mp ov tgt ts
  end.

(** OperatorBlockMap source_matrices (h2mixer.cpp:399): std::map from names to matrices *)
Definition smap := string -> option (mat R).
Definition sput (m : smap) (id : string) (x : mat R) : smap := fun k => if String.eqb k id then Some x else m k.
(** h2mixer.cpp:2049-2057 *)
Fixpoint populate_all (rp : params) (tgt : tindex) (ts : sector) (cs : list (string * channel)) (sm : smap)
  : outcome smap :=
  match cs with
  | [] => Ok sm
  | c :: cs' =>
      r <- populate rp tgt ts c ;;
      populate_all rp tgt ts cs' (match r with Some x => sput sm (fst c) x | None => sm end)
  end.

(** mcutils::ChopMatrix *)
Definition chop (x : R) : R := if Rlt_dec (Rabs x) tol then 0 else x.
(** TargetChannel::GenerateTargetMatrix (h2mixer.cpp:1889-1919): the matrix handed to WriteSector *)
Definition generate (sm : smap) (ts : sector) (coefficients : list (string * R)) : outcome (mat R) :=
  m <- for_each coefficients (fun ic m =>
         match sm (fst ic) with
         | Some x => madd_to m (Mat (rows x) (cols x) (fun i j => snd ic * at_ x i j))
         | None => Ok m
         end) (mzero 0 (ss_size (s_bra ts)) (ss_size (s_ket ts))) ;;
  Ok (Mat (rows m) (cols m) (fun i j => chop (at_ m i j))).

(** main (h2mixer.cpp:2040-2071): for each target sector the matrix written to each target *)
Definition run_sector (rp : params) (tgt : tindex) (cs : list (string * channel)) (targets : list (list (string * R)))
  (ts : sector) : outcome (list (mat R)) :=
  sm <- populate_all rp tgt ts cs (fun _ => None) ;;
  map_blocks (generate sm ts) targets.
Definition run (rp : params) (tgt : tindex) (cs : list (string * channel)) (targets : list (list (string * R)))
  : outcome (list (list (mat R))) :=
  map_blocks (run_sector rp tgt cs targets) (ti_sectors tgt).
(** main (h2mixer.cpp:2025-2071) *)
Definition mixer (rp : params) (xs : xmap) (obs : obmap) (tgt : tindex) (sources : list (string * source))
  (targets : list (list (string * R))) : outcome (list (list (mat R))) :=
  cs <- map_blocks (initialize rp xs obs tgt) sources ;; run rp tgt cs targets.
End Mixer.

(** ** One-body linear combinations (h2mixer.cpp:1219-1284)

    OneBodyOperatorData with the sectors and matrices; J0, g0, Tz0 of a default-constructed OrbitalSectorsLJPN are not
    initialised: [None]. *)
Record obdata := ObData { od_space : lspace; od_q : option (Z * Z * Z); od_sectors : lsectors; od_blocks : blocks R }.
Definition ob_default : obdata := ObData [] None [] [].
(** basis::OperatorLinearCombination with first coefficient 1 *)
Definition axpy (a : blocks R) (c : R) (b : blocks R) : outcome (blocks R) :=
  map_blocks (fun i => x <- get (nth_error a i) ;; y <- get (nth_error b i) ;;
                       madd_to x (Mat (rows y) (cols y) (fun i j => c * at_ y i j))) (seq 0 (length a)).
Definition q_eqb (a b : Z * Z * Z) : bool :=
  let '(x, y, z) := a in let '(x', y', z') := b in ((x =? x') && (y =? y') && (z =? z'))%Z.
Section LinearCombination.
(** basis::OrbitalSectorsLJPN(space,J0,g0,Tz0) *)
Variable mk_sectors : lspace -> Z * Z * Z -> lsectors.
(** one term; [st]: first_term and operator_data.  The new operator is already in the map under its own name (line
    1236), so that a source of that name is operator_data itself. *)
Definition lc_term (ops : list (string * obdata)) (id : string) (ic : string * R) (st : bool * obdata)
  : outcome (bool * obdata) :=
  let (first, od) := st in
  match (if String.eqb (fst ic) id then Some od else assoc ops (fst ic)) with
  | None => Exit
  | Some src =>
      q <- get (od_q src) ;;
      od1 <- (if first then
                let s := mk_sectors (od_space src) q in
                Ok (ObData (od_space src) (Some q) s (zero_blocks 0 (od_space src) (od_space src) s))
              else
                q' <- get (od_q od) ;;
                cassert (lspace_eqb (od_space src) (od_space od)) ;;; cassert (q_eqb q' q) ;;; Ok od) ;;
      let srcb := if String.eqb (fst ic) id then od_blocks od1 else od_blocks src in
      b <- axpy (od_blocks od1) (snd ic) srcb ;;
      Ok (false, ObData (od_space od1) (od_q od1) (od_sectors od1) b)
  end.
Definition linear_combination (ops : list (string * obdata)) (id : string) (coefficients : list (string * R))
  : outcome (list (string * obdata)) :=
  match assoc ops id with
  | Some _ => Exit
  | None => ' (_, od) <- for_each coefficients (lc_term ops id) (true, ob_default) ;; Ok ((id, od) :: ops)
  end.
End LinearCombination.
