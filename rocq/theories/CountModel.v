(** Models of programs/obutils/orbital-gen.cpp (triangular truncation) and programs/statecount/statecount.cpp.

    Simplifications: int and long are Z.  A loop that may not end takes fuel, with [None] when the fuel is used up.
    std::sort is a function that permutes its argument.  In statecount.cpp the classes SPOrbitalNlj and HalfInt and
    AllowedTriangle come from headers that are not in the repository: an orbital runs through the shells N = 0, 1, ... and, within a
    shell, through j = 1/2, ..., N + 1/2; a half-integer is its double; IValue stops the program unless its argument is an integer. *)
From Coq Require Import List ZArith Reals Bool.
From Verif Require Import Base H2Model OscModel SepModel.
Import ListNotations.

(** ** orbital-gen.cpp *)
(** basis::OrbitalPNInfo *)
Record oinfo := OInfo { oi_sp : ospecies; oi_n : Z; oi_l : Z; oi_2j : Z; oi_w : R }.
Section Triangular.
(** the computed values of a*n and a*n + b*l *)
Variable wn : Z -> R.
Variable wt : Z -> Z -> R.
Variable weight_max : R.
(** orbital-gen.cpp:248-254 *)
Definition orbitals_at (sp : ospecies) (n l : Z) : list oinfo :=
  (if (l >? 0)%Z then [OInfo sp n l (2 * l - 1) (wt n l)] else []) ++ [OInfo sp n l (2 * l + 1) (wt n l)].
(** orbital-gen.cpp:247 *)
Fixpoint l_loop (fuel : nat) (sp : ospecies) (n l : Z) : option (list oinfo) :=
  match fuel with
  | O => None
  | S f => if Rle_dec (wt n l) weight_max
           then option_map (app (orbitals_at sp n l)) (l_loop f sp n (l + 1)%Z)
           else Some []
  end.
(** orbital-gen.cpp:246 *)
Fixpoint n_loop (lfuel fuel : nat) (sp : ospecies) (n : Z) : option (list oinfo) :=
  match fuel with
  | O => None
  | S f => if Rle_dec (wn n) weight_max
           then match l_loop lfuel sp n 0, n_loop lfuel f sp (n + 1)%Z with
                | Some x, Some y => Some (x ++ y)
                | _, _ => None
                end
           else Some []
  end.
(** orbital-gen.cpp:244-257 *)
Definition triangular (fuel : nat) : option (list oinfo) :=
  match n_loop fuel fuel SP 0, n_loop fuel fuel SN 0 with Some p, Some n => Some (p ++ n) | _, _ => None end.
End Triangular.
(** orbital-gen.cpp:240-269 in exact arithmetic *)
Definition orbital_gen (sort : list oinfo -> list oinfo) (fuel : nat) (weight_max a b : R) : option (outcome (list oinfo)) :=
  option_map (fun l => match l with [] => Exit | _ => Ok (sort l) end)
    (triangular (fun n => a * IZR n)%R (fun n l => a * IZR n + b * IZR l)%R weight_max fuel).

(** ** statecount.cpp *)
Open Scope Z_scope.
Open Scope outcome_scope.
(** IValue *)
Definition ivalue (t : Z) : outcome Z := if Z.even t then Ok (t / 2) else Exit.
(** statecount.cpp:34-37 OrbitalDimension; [j]: doubled *)
Definition orbital_dimension (N j : Z) : outcome Z := ivalue (2 * N - j + 3).
(** an orbital: shell and doubled angular momentum; the orbitals up to shell [K] *)
Definition sporb := (Z * Z)%type.
Definition sporbitals (K : Z) : list sporb := flat_map (fun N => map (fun i => (N, 2 * i + 1)) (zrange 0 N)) (zrange 0 K).
(** statecount.cpp:137-148, 178-189: the number of intermediate values *)
Definition couplings (ja jb jc J : Z) : outcome Z :=
  x <- ivalue (ja - jb) ;; y <- ivalue (J - jc) ;; z <- ivalue (ja + jb) ;; w <- ivalue (J + jc) ;;
  Ok (Z.max (- Z.max (Z.abs x) (Z.abs y) + Z.min z w + 1) 0).
(** for (x = first; cond(x); ++x) over the orbitals: the list begins with the first one; the body also gets the list from x on *)
Fixpoint orb_loop {S} (cond : sporb -> bool) (body : sporb -> list sporb -> S -> outcome S) (l : list sporb) (s : S) : outcome S :=
  match l with
  | [] => Ok s
  | x :: l' => if cond x then s' <- body x l s ;; orb_loop cond body l' s' else Ok s
  end.
(** the triple loops a <= b <= c with conditions on the shells (statecount.cpp:115-117, 131-134, 156-159, 172-175) *)
Definition triple_loop (ca : Z -> bool) (cb : Z -> Z -> bool) (cc : Z -> Z -> Z -> bool) (orbs : list sporb)
  (body : Z -> Z -> Z -> Z -> outcome Z) : outcome Z :=
  orb_loop (fun a => ca (fst a)) (fun a la s =>
    orb_loop (fun b => cb (fst a) (fst b)) (fun b lb s =>
      orb_loop (fun c => cc (fst a) (fst b) (fst c)) (fun c _ s => body (snd a) (snd b) (snd c) s) lb s) la s) orbs 0.
Definition add_if_coupled (J1 J ja jb jc s : Z) : outcome Z :=
  Ok (if triangle ja jb (2 * J1) && triangle (2 * J1) jc J then s + 1 else s).
Definition add_couplings (J ja jb jc s : Z) : outcome Z := k <- couplings ja jb jc J ;; Ok (s + k).
Definition one_body_cut (N : Z) := triple_loop (fun a => a <=? N) (fun _ b => b <=? N) (fun _ _ c => c <=? N).
Definition three_body_cut (N : Z) := triple_loop (fun a => a <=? N) (fun a b => a + b <=? N) (fun a b c => a + b + c <=? N).
(** ThreeBodyDimensionOneBodyCut (N, J1, J), (N, J); the lists of orbitals go beyond the last shell that is counted *)
Definition dim_one_J1 (orbs : list sporb) (N J1 J : Z) : outcome Z := one_body_cut N orbs (add_if_coupled J1 J).
Definition dim_one (orbs : list sporb) (N J : Z) : outcome Z := one_body_cut N orbs (add_couplings J).
(** ThreeBodyDimensionThreeBodyCut (N, J1, J), (N, J) *)
Definition dim_three_J1 (orbs : list sporb) (N J1 J : Z) : outcome Z := three_body_cut N orbs (add_if_coupled J1 J).
Definition dim_three (orbs : list sporb) (N J : Z) : outcome Z := three_body_cut N orbs (add_couplings J).
