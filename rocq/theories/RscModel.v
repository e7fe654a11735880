(** Programs that are kept in the repository but switched off in its makefiles:
    programs/radialutils/radial-scale.cpp, libraries/moshinsky/moshinsky_bracket_table.cpp and
    programs/h2utils/make-radial-permutation.cpp.

    Simplifications: a double is a real number, an infinity or not-a-number (WfModel.v); the rounding of the scale factors to
    float is the parameter [single].  Files are what is read or written.  radial-scale asks the input stream for the type and
    power of the radial operator, which obme_io.h no longer offers; here they are fields of the file. *)
From Coq Require Import List ZArith Reals Bool.
From Verif Require Import Base RMat H2Model MapModel OscModel BlockModel WfModel.
Import ListNotations.
Open Scope Z_scope.
Open Scope outcome_scope.

(** * radial-scale.cpp *)
(** obme_operator.h:31-36 *)
Inductive rtype := RR | RK | RO | RG.
Record rfile := RF { rf_type : rtype; rf_power : Z; rf_Tz0 : Z; rf_bra : lspace; rf_ket : lspace; rf_sectors : lsectors; rf_blocks : blocks fl }.
(** std::pow of a number with an integer; pow of zero with a negative integer is an infinity (zero has no sign here) *)
Definition pow_int (x : R) (p : Z) : fl := if (p <? 0) && (if Req_EM_T x 0 then true else false) then Inf true else Fin (powerRZ x p).
Definition in_int (z : Z) : bool := (-2147483648 <=? z) && (z <=? 2147483647).
(** :135-143; -1*radial_operator_power may overflow *)
Definition scale_factor (single : fl -> fl) (t : rtype) (ratio : R) (power : Z) : outcome fl :=
  match t with
  | RR => Ok (single (pow_int ratio power))
  | RK => if in_int (-1 * power) then Ok (single (pow_int ratio (-1 * power))) else UB
  | _ => Ok (Fin 1)
  end.
(** Eigen *= *)
Definition scale_block (f : fl) (m : mat fl) : mat fl := Mat (rows m) (cols m) (fun i j => fmul (at_ m i j) f).
(** :149-158, one iteration *)
Definition scale_sector (bra : lspace) (sectors : lsectors) (fp fn : fl) (ix : nat) (ms : blocks fl) : outcome (blocks fl) :=
  x <- get (nth_error sectors ix) ;; b <- get (nth_error bra (fst x)) ;; m <- get (nth_error ms ix) ;;
  match ll_sp (fst b) with
  | SP => store ms ix (scale_block fp m)
  | SN => store ms ix (scale_block fn m)
  end.
(** :107-177 main; [order] is the order of the parallel iterations *)
Definition radial_scale (single : fl -> fl) (order : list nat) (proton neutron : R) (f : rfile) : outcome rfile :=
  check (match rf_type f with RO => false | _ => true end) ;;;
  check (match rf_type f with RG => false | _ => true end) ;;;
  check (rf_Tz0 f =? 0) ;;;
  fp <- scale_factor single (rf_type f) proton (rf_power f) ;;
  fn <- scale_factor single (rf_type f) neutron (rf_power f) ;;
  ms <- for_each order (scale_sector (rf_bra f) (rf_sectors f) fp fn) (rf_blocks f) ;;
  Ok (RF (rf_type f) (rf_power f) (rf_Tz0 f) (rf_bra f) (rf_ket f) (rf_sectors f) ms).

(** * moshinsky_bracket_table.cpp *)
(** for (int x = a; x <= b; x += 2) *)
Definition by_twos (a b : Z) : list Z := map (fun i => a + 2 * Z.of_nat i) (seq 0 (Z.to_nat ((b - a) / 2 + 1))).
(** N1, l1, N2, l2 *)
Definition nlpair : Type := (Z * Z) * (Z * Z).
(** :69-86 TwoBodySpaceNL, as quoted in the program; nonnegative operands, so C++ % is mod *)
Definition two_body_space (N L : Z) : list nlpair :=
  flat_map (fun N1 => flat_map (fun l1 =>
    let N2 := N - N1 in
    let p := (N2 + l1 + L) mod 2 in
    let l2_min := Z.abs (l1 - L) + p in
    let l2_max := Z.min N2 (l1 + L - p) in
    map (fun l2 => ((N1, l1), (N2, l2))) (by_twos l2_min l2_max)) (by_twos (N1 mod 2) N1)) (zrange 0 N).
(** one line: bra, ket, L, bracket *)
Definition table_line (D : Type) : Type := nlpair * nlpair * Z * D.
(** :64-113; [bracket] is shell::MoshinskyBracket of two states with their L *)
Definition bracket_table {D} (bracket : nlpair -> nlpair -> Z -> D) (N_max : Z) : list (table_line D) :=
  flat_map (fun N => flat_map (fun L =>
    flat_map (fun bra => map (fun ket => (bra, ket, L, bracket bra ket L)) (two_body_space N L)) (two_body_space N L))
    (zrange 0 N)) (zrange 0 N_max).

(** * make-radial-permutation.cpp *)
(** :43-54, one sector *)
Definition slash_block (r c : nat) : outcome (mat R) :=
  cassert (Nat.eqb r c) ;;;
  for_each (seq 0 r) (fun row m => mat_put m row (r - row - 1) 1%R) (mzero 0%R r c).
(** basis::OrbitalSpaceLJPN(Nmax): for each species, l = 0..Nmax and j = l-1/2, l+1/2; n = 0..(Nmax-l)/2 *)
Definition oscillator_space (Nmax : Z) : lspace :=
  flat_map (fun sp => flat_map (fun l => flat_map (fun tj =>
    if tj <? 0 then [] else [(LL sp l tj, zrange 0 ((Nmax - l) / 2))]) [2 * l - 1; 2 * l + 1]) (zrange 0 Nmax)) [SP; SN].
(** :32-60; the sectors of module basis are a parameter *)
Definition radial_permutation (Nmax : Z) (sectors : lsectors) : outcome (blocks R) :=
  map_blocks (fun x => slash_block (sub_dim (oscillator_space Nmax) (fst x)) (sub_dim (oscillator_space Nmax) (snd x))) sectors.
