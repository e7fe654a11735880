(** libraries/relative/jpv_io.cpp: relative interaction files in the format of J. P. Vary.

    A line is a list of words; a word is an integer, another number, or something that is not a number.  A word is extracted
    whole (simplification: "1.5" read into an int would leave ".5" behind).  Real numbers stand for double and integers of
    unlimited size for int.  A relative subspace is its labels and dimension, a space a list of subspaces with Jmax. *)
From Coq Require Import List ZArith Reals Bool Ascii.
From Verif Require Import Base RMat OscModel BlockModel ObioModel.
Import ListNotations.
Open Scope Z_scope.
Open Scope outcome_scope.

Definition line : Type := list (tok R).
Definition rspace : Type := list rsub.
(** basis::RelativeSpaceLSJT::LookUpSubspaceIndex *)
Definition has_labels (L S J T g : Z) (x : rsub) : bool :=
  (r_L x =? L) && (r_S x =? S) && (r_J x =? J) && (r_T x =? T) && (r_g x =? g).
Definition find_sub (sp : rspace) (L S J T g : Z) : option nat := find_ix (has_labels L S J T g) sp.
Definition rdim (sp : rspace) (i : nat) : nat := match nth_error sp i with Some x => r_dim x | None => 0%nat end.

(** std::getline: after the end of the file (eofbit) the string is left as it was *)
Definition raw_line (old : line) (s : stream R) : line * stream R :=
  if st_fail s || st_eof s then (old, St (st_rest s) (st_nl s) (st_eof s) true)
  else match st_rest s with
       | [] => ([], St [] (st_nl s) true true)
       | l :: r => (l, St r (st_nl s) (is_nil r && negb (st_nl s)) false)
       end.
(** extraction of a double *)
Definition word_value (w : tok R) : option R := match w with TInt z => Some (IZR z) | TNum x => Some x | TChr _ => None end.
Definition scan_d (l : line) : outcome (R * line) :=
  match l with w :: l' => match word_value w with Some x => Ok (x, l') | None => Exit end | [] => Exit end.

Record header := Hd { h_J : Z; h_S : Z; h_L : Z; h_Lp : Z; h_dim : Z }.
(** jpv_io.cpp:66-82, None for the terminating line; Nmax, mn, hw and identifier are not used further *)
Definition read_head (l : line) : outcome (option header) :=
  ' (J, l1) <- scan_i l ;;
  if J =? 99999 then Ok None else
  ' (S_, l2) <- scan_i l1 ;; ' (L, l3) <- scan_i l2 ;; ' (Lp, l4) <- scan_i l3 ;; ' (Nmax, l5) <- scan_i l4 ;; ' (d, l6) <- scan_i l5 ;;
  ' (mn, l7) <- scan_d l6 ;; ' (hw, l8) <- scan_d l7 ;; ' (identifier, l9) <- scan_i l8 ;;
  Ok (Some (Hd J S_ L Lp d)).

(** the matrix being filled, the number of elements read, and the next row and column *)
Record bstate := BS { b_m : mat R; b_count : Z; b_row : Z; b_col : Z }.
(** jpv_io.cpp:199-231, one element *)
Definition store_element (flip : bool) (v : R) (b : bstate) : outcome bstate :=
  let '(np, n) := if flip then (b_col b, b_row b) else (b_row b, b_col b) in
  m <- (if (np <? Z.of_nat (rows (b_m b))) && (n <? Z.of_nat (cols (b_m b))) then mat_put (b_m b) (Z.to_nat np) (Z.to_nat n) v else Ok (b_m b)) ;;
  let row := b_row b + 1 in
  Ok (if row >? b_col b then BS m (b_count b + 1) 0 (b_col b + 1) else BS m (b_count b + 1) row (b_col b)).
(** jpv_io.cpp:189-231, the words of a line: an extraction that fails ends the line *)
Fixpoint take_words (flip : bool) (expected : Z) (l : line) (b : bstate) : outcome (bstate * bool) :=
  match l with
  | [] => Ok (b, false)
  | w :: l' => match word_value w with
               | None => Ok (b, false)
               | Some v => b' <- store_element flip v b ;; if b_count b' =? expected then Ok (b', true) else take_words flip expected l' b'
               end
  end.
(** jpv_io.cpp:179-240; a failing getline ends the process (StreamCheck).  Returns the matrix, the last line and the stream *)
Fixpoint read_elements (flip : bool) (expected : Z) (rest : list line) (nl : bool) (b : bstate) : outcome (mat R * line * stream R) :=
  match rest with
  | [] => Exit
  | l :: r => ' (b', done) <- take_words flip expected l b ;;
              if (done : bool) then Ok (b_m b', l, St r nl (is_nil r && negb nl) false) else read_elements flip expected r nl b'
  end.
(** jpv_io.cpp:92-143, the sector and whether the element labels are exchanged *)
Definition block_sector (sp : rspace) (Jmax : Z) (sectors : lsectors) (h : header) : outcome (nat * bool) :=
  let flip := h_Lp h >? h_L h in
  let '(Lp, L) := if flip then (h_L h, h_Lp h) else (h_Lp h, h_L h) in
  cassert (h_J h <=? Jmax) ;;;
  let T := Z.rem (L + h_S h + 1) 2 in
  let Tp := Z.rem (Lp + h_S h + 1) 2 in
  cassert (Tp =? T) ;;;
  match find_sub sp Lp (h_S h) (h_J h) Tp (Z.rem Lp 2), find_sub sp L (h_S h) (h_J h) T (Z.rem L 2) with
  | Some b, Some k => cassert (Nat.leb b k) ;;; s <- get (look_up_sector sectors b k) ;; Ok (s, flip)
  | _, _ => Exit
  end.
(** one block after its header; an empty block reads nothing *)
Definition read_block (sp : rspace) (Jmax : Z) (sectors : lsectors) (h : header) (l : line) (s : stream R) (ms : blocks R)
  : outcome (blocks R * line * stream R) :=
  ' (ix, flip) <- block_sector sp Jmax sectors h ;;
  m <- get (nth_error ms ix) ;;
  let expected := Z.quot (h_dim h * (h_dim h + 1)) 2 in
  if expected =? 0 then Ok (ms, l, s)
  else if st_eof s then Exit
  else ' (m', l', s') <- read_elements flip expected (st_rest s) (st_nl s) (BS m 0 0 0) ;; ms' <- store ms ix m' ;; Ok (ms', l', s').
(** ReadJPVOperator, jpv_io.cpp:21-253: at most [depth] headers are read; None if that is not enough *)
Fixpoint read_blocks (depth : nat) (sp : rspace) (Jmax : Z) (sectors : lsectors) (old : line) (s : stream R) (ms : blocks R) : option (outcome (blocks R)) :=
  match depth with
  | O => None
  | S depth =>
    let '(l, s1) := raw_line old s in
    match read_head l with
    | Ok None => Some (Ok ms)
    | Ok (Some h) =>
      match read_block sp Jmax sectors h l s1 ms with
      | Ok (ms', l', s') => read_blocks depth sp Jmax sectors l' s' ms'
      | Exit => Some Exit | AssertFail => Some AssertFail | UB => Some UB
      end
    | Exit => Some Exit | AssertFail => Some AssertFail | UB => Some UB
    end
  end.
Definition read_jpv (depth : nat) (sp : rspace) (Jmax : Z) (sectors : lsectors) (lines : list line) (nl : bool) (ms : blocks R) : option (outcome (blocks R)) :=
  read_blocks depth sp Jmax sectors [] (open_text lines nl) ms.

(** * ReadJPVOperatorPN, jpv_io.cpp:255-416 *)
(** row T0, columns pp, nn, pn *)
Definition tz_to_t (T0 : nat) (species : nat) : R :=
  (1 / 3 * match T0, species with
           | 0%nat, _ => 1
           | 1%nat, 0%nat => sqrt (9 / 2) | 1%nat, 1%nat => - sqrt (9 / 2) | 1%nat, _ => 0
           | _, 0%nat => sqrt (5 / 2) | _, 1%nat => sqrt (5 / 2) | _, _ => - sqrt 10
           end)%R.
Definition mscale (c : R) (m : mat R) : mat R := Mat (rows m) (cols m) (fun i j => (c * at_ m i j)%R).
(** sectors and blocks of each isospin component *)
Definition components : Type := list (lsectors * blocks R).
Definition add_to (T0 ix : nat) (x : mat R) (c : components) : outcome components :=
  ' (s, ms) <- get (nth_error c T0) ;; m <- get (nth_error ms ix) ;; m' <- madd_to m x ;; ms' <- store ms ix m' ;; store c T0 (s, ms').
(** jpv_io.cpp:345-411, one sector of one species (0 pp, 1 nn, 2 pn) *)
Definition accumulate_sector (sp : rspace) (species : nat) (input_sectors : lsectors) (input : blocks R) (ix : nat) (c : components) : outcome components :=
  x <- get (nth_error input_sectors ix) ;; m <- get (nth_error input ix) ;;
  b <- get (nth_error sp (fst x)) ;; k <- get (nth_error sp (snd x)) ;;
  if negb (r_T b =? r_T k) then Ok c
  else if r_T k =? 0 then (if Nat.eqb species 2 then add_to 0 ix m c else Ok c)
  else if r_T k =? 1 then
    for_each [0; 1; 2]%nat (fun T0 c =>
      ' (s, ms) <- get (nth_error c T0) ;; t <- get (look_up_sector s (fst x) (snd x)) ;; add_to T0 t (mscale (tz_to_t T0 species) m) c) c
  else Ok c.
(** [inputs]: what ReadJPVOperator returned for pp, nn, pn, started from zero blocks *)
Definition accumulate (sp : rspace) (sectors0 : lsectors) (inputs : list (blocks R)) (c : components) : outcome components :=
  for_each (combine (seq 0 (length inputs)) inputs) (fun p c =>
    for_each (seq 0 (length sectors0)) (fun ix c => accumulate_sector sp (fst p) sectors0 (snd p) ix c) c) c.
