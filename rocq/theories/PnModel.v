(** libraries/relative/pn_io.cpp: relative interaction files in the format of P. Navratil, and the command line of
    programs/relutils/pn2rel.cpp.

    Lines, words, relative subspaces and isospin components are those of JpvModel.v, with the same simplifications.  Writing
    the output file (basis library) is not modelled. *)
From Coq Require Import String List ZArith Reals Bool.
From Verif Require Import Base RMat OscModel BlockModel ObioModel JpvModel.
Import ListNotations.
Open Scope Z_scope.
Open Scope outcome_scope.

(** a line: n' L' n L S J Tz me *)
Record pline := PL { pl_np : Z; pl_Lp : Z; pl_n : Z; pl_L : Z; pl_S : Z; pl_J : Z; pl_Tz : Z; pl_me : R }.
(** pn_io.cpp:57-58; the rest of the line is not read *)
Definition read_fields (l : line) : outcome pline :=
  ' (np, l1) <- scan_i l ;; ' (Lp, l2) <- scan_i l1 ;; ' (n, l3) <- scan_i l2 ;; ' (L, l4) <- scan_i l3 ;; ' (S_, l5) <- scan_i l4 ;;
  ' (J, l6) <- scan_i l5 ;; ' (Tz, l7) <- scan_i l6 ;; ' (me, l8) <- scan_d l7 ;;
  Ok (PL np Lp n L S_ J Tz me).
(** index of std::array<...,3>, not checked *)
Definition array_index (i : Z) : option nat := if (0 <=? i) && (i <? 3) then Some (Z.to_nat i) else None.
(** Eigen: m(i,j) = v; a negative index fails the range assertion *)
Definition put_z (m : mat R) (i j : Z) (v : R) : outcome (mat R) :=
  cassert ((0 <=? i) && (0 <=? j)) ;;; mat_put m (Z.to_nat i) (Z.to_nat j) v.
(** pn_io.cpp:60-109, one line; [ms] are the blocks of Tz = -1, 0, 1.  GetSector of a sector that is not there is not defined *)
Definition store_line (sp : rspace) (sectors : lsectors) (p : pline) (ms : list (blocks R)) : outcome (list (blocks R)) :=
  let T := Z.rem (pl_L p + pl_S p + 1) 2 in
  let Tp := Z.rem (pl_Lp p + pl_S p + 1) 2 in
  let g := Z.rem (pl_L p) 2 in
  let gp := Z.rem (pl_Lp p) 2 in
  match find_sub sp (pl_Lp p) (pl_S p) (pl_J p) Tp gp, find_sub sp (pl_L p) (pl_S p) (pl_J p) T g with
  | Some bra, Some ket =>
      a <- get (array_index (pl_Tz p + 1)) ;;
      matrices <- get (nth_error ms a) ;;
      let '(b, k, np, n) := if Nat.ltb ket bra then (ket, bra, pl_n p, pl_np p) else (bra, ket, pl_np p, pl_n p) in
      ix <- get (look_up_sector sectors b k) ;;
      if (np <? Z.of_nat (rdim sp b)) && (n <? Z.of_nat (rdim sp k)) then
        m <- get (nth_error matrices ix) ;;
        m1 <- put_z m np n (pl_me p) ;;
        m2 <- (if Nat.eqb bra ket then put_z m1 n np (pl_me p) else Ok m1) ;;
        matrices' <- store matrices ix m2 ;;
        store ms a matrices'
      else Ok ms
  | _, _ => Exit
  end.
(** ReadPNOperator, pn_io.cpp:22-111 *)
Definition read_pn (sp : rspace) (sectors : lsectors) (lines : list line) (ms : list (blocks R)) : outcome (list (blocks R)) :=
  for_each lines (fun l ms => p <- read_fields l ;; store_line sp sectors p ms) ms.

(** pn_io.cpp:155-160: row T0, column Tz+1 *)
Definition pn_to_t (T0 : nat) (Tz : Z) : R :=
  (1 / 3 * (match T0, Tz with
            | 0%nat, _ => 1%R
            | 1%nat, (-1)%Z => sqrt (9 / 2) | 1%nat, 0%Z => 0%R | 1%nat, _ => - sqrt (9 / 2)
            | _, (-1)%Z => sqrt (5 / 2) | _, 0%Z => - sqrt 10 | _, _ => sqrt (5 / 2)
            end))%R.
(** pn_io.cpp:203-240, one sector and Tz *)
Definition pn_sector (sp : rspace) (input_sectors : lsectors) (input : blocks R) (ix : nat) (Tz : Z) (c : components) : outcome components :=
  x <- get (nth_error input_sectors ix) ;;
  m <- get (nth_error input ix) ;;
  b <- get (nth_error sp (fst x)) ;; k <- get (nth_error sp (snd x)) ;;
  if negb (r_T b =? r_T k) then Ok c
  else if r_T k =? 0 then (if Tz =? 0 then add_to 0 ix m c else Ok c)
  else if r_T k =? 1 then
    for_each [0; 1; 2]%nat (fun T0 c =>
      ' (s, ms) <- get (nth_error c T0) ;; t <- get (look_up_sector s (fst x) (snd x)) ;; add_to T0 t (mscale (pn_to_t T0 Tz) m) c) c
  else Ok c.
(** pn_io.cpp:188-241 *)
Definition pn_accumulate (sp : rspace) (input_sectors : lsectors) (inputs : list (blocks R)) (c : components) : outcome components :=
  for_each (seq 0 (length input_sectors)) (fun ix c =>
    for_each [-1; 0; 1] (fun Tz c => input <- get (nth_error inputs (Z.to_nat (Tz + 1))) ;; pn_sector sp input_sectors input ix Tz c) c) c.
(** ReadPNOperatorPN, pn_io.cpp:114-242: the three sets of blocks start as the zero blocks of component 0 *)
Definition read_pn_pn (sp : rspace) (lines : list line) (c : components) : outcome components :=
  ' (sectors0, _) <- get (nth_error c 0) ;;
  let zero := map (fun x => mzero 0%R (rdim sp (fst x)) (rdim sp (snd x))) sectors0 in
  inputs <- read_pn sp sectors0 lines [zero; zero; zero] ;;
  pn_accumulate sp sectors0 inputs c.

(** * pn2rel.cpp:33-43.  [args] is argv[0], ..., argv[argc-1]; a string made of argv[argc] (a null pointer) or of what lies
    behind it is not defined.  A failing stoi ends the process. *)
Definition stoi (to_int : string -> option Z) (s : string) : outcome Z := match to_int s with Some z => Ok z | None => Exit end.
Definition pn2rel_arguments (to_int : string -> option Z) (args : list string) : outcome (Z * Z * string * string) :=
  if Nat.ltb (List.length args) 3 then Exit else
  Nmax <- (a <- get (nth_error args 1) ;; stoi to_int a) ;;
  Jmax <- (a <- get (nth_error args 2) ;; stoi to_int a) ;;
  source <- get (nth_error args 3) ;;
  target <- get (nth_error args 4) ;;
  Ok (Nmax, Jmax, source, target).
