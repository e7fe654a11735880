(** Model of the two-body counts, the counts by angular momentum and the tables of programs/statecount/statecount.cpp.

    Simplifications: as in CountModel (int and long are Z, a half-integer is its double, an orbital is its shell and its doubled
    angular momentum; SPOrbitalNlj, Shelljmax, HalfInt and AllowedTriangle come from headers that are not in the repository).  The
    products of dimensions, which the program forms in int, do not overflow.  The layout of the tables and the timing are not modelled. *)
From Coq Require Import List ZArith Bool.
From Verif Require Import Base H2Model OscModel SepModel CountModel.
Import ListNotations.
Open Scope Z_scope.
Open Scope outcome_scope.

(** Shelljmax(N), doubled *)
Definition shelljmax (N : Z) : Z := 2 * N + 1.
(** for (HalfInt j = ja; j <= top; ++j), doubled *)
Definition halves (ja top : Z) : list Z := map (fun i => ja + 2 * i) (zrange 0 ((top - ja) / 2)).

(** statecount.cpp:46-60 TwoBodyDimensionOneBodyCutAMCentric; [J] is an integer *)
Definition am_two (N J : Z) : outcome Z :=
  for_each (halves 1 (shelljmax N)) (fun ja s => for_each (halves ja (shelljmax N)) (fun jb s =>
    if triangle ja jb (2 * J) then
      da <- orbital_dimension N ja ;; db <- orbital_dimension N jb ;; Ok (s + da * db)
    else Ok s) s) 0.

(** the double loops a <= b (statecount.cpp:67-71, 80-84) *)
Definition pair_loop (ca : Z -> bool) (cb : Z -> Z -> bool) (orbs : list sporb) (J : Z) : outcome Z :=
  orb_loop (fun a => ca (fst a)) (fun a la s =>
    orb_loop (fun b => cb (fst a) (fst b)) (fun b _ s => Ok (if triangle (snd a) (snd b) (2 * J) then s + 1 else s)) la s) orbs 0.
(** statecount.cpp:62-73 TwoBodyDimensionOneBodyCut; the list of orbitals goes beyond the last shell that is counted *)
Definition two_one (orbs : list sporb) (N J : Z) : outcome Z := pair_loop (fun a => a <=? N) (fun _ b => b <=? N) orbs J.
(** statecount.cpp:75-86 TwoBodyDimensionTwoBodyCut *)
Definition two_two (orbs : list sporb) (N J : Z) : outcome Z := pair_loop (fun a => a <=? N) (fun a b => a + b <=? N) orbs J.

(** statecount.cpp:92-107 ThreeBodyDimensionOneBodyCutAMCentric (N, J1, J); [J1]: an integer; [J]: doubled *)
Definition am_three_J1 (N J1 J : Z) (s : Z) : outcome Z :=
  for_each (halves 1 (shelljmax N)) (fun ja s => for_each (halves ja (shelljmax N)) (fun jb s => for_each (halves jb (shelljmax N)) (fun jc s =>
    if triangle ja jb (2 * J1) && triangle (2 * J1) jc J then
      da <- orbital_dimension N ja ;; db <- orbital_dimension N jb ;; dc <- orbital_dimension N jc ;; Ok (s + da * db * dc)
    else Ok s) s) s) s.
(** statecount.cpp:109-118 ThreeBodyDimensionOneBodyCutAMCentric (N, J); the bound TwiceValue(Shelljmax(N)) is an integer *)
Definition am_three (N J : Z) : outcome Z :=
  for_each (zrange 0 (shelljmax N)) (fun J1 s => k <- am_three_J1 N J1 J 0 ;; Ok (s + k)) 0.

(** statecount.cpp:200-240: the rows of the two-body table; [orbs] as above *)
Definition two_body_table (orbs : list sporb) (N2b_max : Z) : outcome (list (Z * Z * Z * Z * Z)) :=
  for_each (zrange 0 N2b_max) (fun N t => for_each (zrange 0 ((shelljmax N + shelljmax N) / 2)) (fun J t =>
    x <- am_two N J ;; y <- two_one orbs N J ;; z <- two_two orbs N J ;; Ok (t ++ [(N, J, x, y, z)])) t) [].
