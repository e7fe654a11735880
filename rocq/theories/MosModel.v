(** programs/relutils/moshinsky.cpp: the program as a whole, from its input to its output file.

    Simplifications: double is R, int has unlimited size, HalfInt j is 2j.  Output to the terminal and timers are left out.  A word
    of the input is extracted whole (RgModel.v).  Of the absent modules: the spaces, the enumeration of jjJpn sectors, reading of
    relative and relative-cm files (with the scattering by N of the latter) and gathering are parameters; TwoBodyCutoffs(rank, N)
    gives N, 2N for the one-body rank and N, N for the two-body rank; mcutils::ParsingCheck and ParsingError end the program, as
    does an exception that nobody catches; the writers of module basis end the program if the file cannot be opened, a plain
    std::ofstream does not.  A file is what is handed to its writer, before the normalization. *)
From Coq Require Import String List ZArith Reals Bool.
From Verif Require Import Base RMat OscModel BlockModel ObioModel MapModel MixModel MoshModel JpvModel IsoModel TrfModel RgModel.
Import ListNotations.
Open Scope Z_scope.
Open Scope outcome_scope.

(** moshinsky.cpp:68-70 *)
Inductive coupling : Type := KRel | KRelcm | KLsjt | KJjjt | KJjjpn.
Definition place (c : coupling) : Z := match c with KRel => 0 | KRelcm => 1 | KLsjt => 2 | KJjjt => 3 | KJjjpn => 4 end.
Local Open Scope string_scope.
(** :72-80 *)
Definition couplings : list (string * coupling) := [("rel", KRel); ("relcm", KRelcm); ("lsjt", KLsjt); ("jjjt", KJjjt); ("jjjpn", KJjjpn)].
Inductive rank : Type := OneBody | TwoBody.
Definition ranks : list (string * rank) := [("ob", OneBody); ("tb", TwoBody)].
Local Close Scope string_scope.
(** :82-100; the format and Tz0 for target jjjpn *)
Record mparams : Type := MParams {
  m_rank : rank; m_cutoff : Z; m_source : string; m_from : coupling; m_target : string; m_to : coupling; m_format : Z; m_Tz0 : Z }.

(** :102-177.  std::getline past the end leaves the line empty *)
Definition line_of (ls : list (list word)) (n : nat) : list word := nth n ls [].
Definition mos_read (none : Z) (ls : list (list word)) : outcome mparams :=
  ' (code, l1) <- next_text (line_of ls 0) ;; ' (cutoff, _) <- next_i l1 ;; r <- named ranks code ;;
  ' (input, l2) <- next_text (line_of ls 1) ;; ' (code, _) <- next_text l2 ;; from <- named couplings code ;;
  ' (output, l3) <- next_text (line_of ls 2) ;; ' (code, l3) <- next_text l3 ;; to <- named couplings code ;;
  match to with
  | KJjjpn => ' (format, l3) <- next_i l3 ;; ' (Tz0, _) <- next_i l3 ;; Ok (MParams r cutoff input from output to format Tz0)
  | _ => Ok (MParams r cutoff input from output to none 0)
  end.

(** the output file: couplings and format, and the blocks *)
Inductive mfile : Type :=
| FRelcm (o : oplab) (c : components) | FLsjt (o : oplab) (c : components) | FJjjt (o : oplab) (c : components)
| FH2 (format : Z) (bs : list (nat * nat * mat R)).
(** what the program has written when it ends with success: name and contents, or nothing *)
Definition written : Type := option (string * mfile).
(** h2_io.cpp:46-50 kH2SpaceOrdering *)
Inductive ordering : Type := ByPN | ByTz.
Definition orderings : list (Z * ordering) := [(0, ByPN); (15099, ByPN); (15200, ByTz)].
Definition ordering_of (format : Z) : outcome ordering :=
  match find (fun x => fst x =? format) orderings with Some x => Ok (snd x) | None => Exit end.
Definition N1max (r : rank) (N : Z) : Z := N.
Definition N2max (r : rank) (N : Z) : Z := match r with OneBody => 2 * N | TwoBody => N end.

(** module basis *)
Record basislib : Type := BasisLib {
  cm_of : Z -> list lssub;
  tb_of : rank -> Z -> list lssub;
  jj_of : rank -> Z -> list jjsub;
  jt_of : rank -> Z -> tspace;
  pn_of : rank -> Z -> ordering -> list psub;
  pn_sectors : list psub -> Z -> Z -> Z -> list (nat * nat);
  gather_cm : oplab -> list lssub -> components -> Z -> outcome components;
  gather_ls : oplab -> list lssub -> components -> rank -> Z -> outcome components;
  gather_jj : oplab -> list jjsub -> components -> tspace -> outcome components;
  read_rel : string -> outcome (oplab * relspace * components);
  read_cm : string -> outcome (oplab * Z * components);
  can_write : string -> bool }.

Section Program.
Variable u6jz : Z -> Z -> Z -> Z -> Z -> Z -> R.
Variable racah1 : Z -> Z -> Z -> Z -> Z -> Z -> Z -> R.
Variable u9j : Z -> Z -> Z -> Z -> Z -> Z -> Z -> R.
Variable mosh : Z -> Z -> Z -> Z -> Z -> Z -> Z -> Z -> Z -> R.
Variable flip : Z -> Z -> Z -> Z -> Z -> R.
(** tolerance of mcutils::ChopMatrix *)
Variable tol : R.
Variable B : basislib.

(** the factors of CanonicalizeIndicesJT in the jjJT space *)
Definition jt_factor (sp : tspace) (T0 : Z) (i k : nat) : R :=
  match nth_error sp i, nth_error sp k with Some x, Some y => flip T0 (t_J x) (t_T x) (t_J y) (t_T y) | _, _ => 1%R end.
(** mcutils::ChopMatrix *)
Definition chop_matrix (m : mat R) : mat R := Mat (rows m) (cols m) (fun i j => chop tol (at_ m i j)).

(** :452-508: the relative-cm operator, for the sources rel and relcm; for others it stays empty *)
Definition relcm_stage (p : mparams) : outcome (oplab * list lssub * components) :=
  match m_from p with
  | KRel => ' (o, rs, c) <- read_rel B (m_source p) ;;
            let cm := cm_of B (N2max (m_rank p) (m_cutoff p)) in
            c' <- to_relcm u6jz racah1 flip o rs c cm ;; Ok (o, cm, c')
  | KRelcm => ' (o, N, c) <- read_cm B (m_source p) ;; Ok (o, cm_of B N, c)
  | _ => Ok (OpLab 0 0 0 0, [], no_components)
  end.
(** :512-517, 564-568: diagnostics of the components T0_min..T0_max of an std::array<..., 3> *)
Definition diagnostics (o : oplab) (c : components) : outcome unit :=
  for_each (zrange (o_T0_min o) (o_T0_max o)) (fun T0 _ => _ <- at_z c T0 ;; Ok tt) tt.
(** :681-703, one sector *)
Definition pn_block (o : oplab) (sp : tspace) (c : components) (pn : list psub) (x : nat * nat) : outcome (nat * nat * mat R) :=
  bra <- get (nth_error pn (fst x)) ;; ket <- get (nth_error pn (snd x)) ;;
  m <- branch (jt_factor sp) (o_T0_min o) (o_T0_max o) sp c bra ket (Nat.eqb (fst x) (snd x)) ;;
  Ok (fst x, snd x, chop_matrix m).
(** :651-704; the sectors are written one after the other *)
Definition pn_stage (p : mparams) (o : oplab) (sp : tspace) (c : components) : outcome written :=
  ord <- ordering_of (m_format p) ;;
  let pn := pn_of B (m_rank p) (m_cutoff p) ord in
  check (can_write B (m_target p)) ;;;
  bs <- for_each (pn_sectors B pn (o_J0 o) (o_g0 o) (m_Tz0 p)) (fun x bs => b <- pn_block o sp c pn x ;; Ok (bs ++ [b])) [] ;;
  Ok (Some (m_target p, FH2 (m_format p) bs)).
(** :582-649 *)
Definition jj_stage (p : mparams) (o : oplab) (tb : list lssub) (c : components) : outcome written :=
  match m_from p with
  | KRel | KRelcm | KLsjt =>
    let jj := jj_of B (m_rank p) (m_cutoff p) in
    cj <- to_jjjt u9j flip o tb c jj ;;
    let sp := jt_of B (m_rank p) (m_cutoff p) in
    ct <- gather_jj B o jj cj sp ;;
    match m_to p with
    | KJjjt => diagnostics o ct ;;; Ok (if can_write B (m_target p) then Some (m_target p, FJjjt o ct) else None)
    | _ => pn_stage p o sp ct
    end
  | _ => Exit
  end.
(** :530-580 *)
Definition ls_stage (p : mparams) (o : oplab) (cm : list lssub) (c : components) : outcome written :=
  match m_from p with
  | KRel | KRelcm =>
    let tb := tb_of B (m_rank p) (m_cutoff p) in
    ct <- to_two_body mosh o cm c tb ;; diagnostics o ct ;;;
    match m_to p with
    | KLsjt => g <- gather_ls B o tb ct (m_rank p) (m_cutoff p) ;; diagnostics o g ;;;
               Ok (if can_write B (m_target p) then Some (m_target p, FLsjt o g) else None)
    | _ => jj_stage p o tb ct
    end
  | KLsjt => Exit
  | _ => jj_stage p o [] no_components
  end.
(** :418-717; success is EXIT_SUCCESS *)
Definition mos_run (p : mparams) : outcome written :=
  check (negb (place (m_from p) =? place (m_to p))) ;;;
  check (negb (place (m_to p) <? place (m_from p))) ;;;
  ' (o, cm, c) <- relcm_stage p ;;
  (if place (m_from p) <=? 1 then diagnostics o c else Ok tt) ;;;
  match m_to p with
  | KRelcm => g <- gather_cm B o cm c (N2max (m_rank p) (m_cutoff p)) ;; check (can_write B (m_target p)) ;;; Ok (Some (m_target p, FRelcm o g))
  | _ => ls_stage p o cm c
  end.
Definition mos_main (none : Z) (ls : list (list word)) : outcome written := p <- mos_read none ls ;; mos_run p.
End Program.
