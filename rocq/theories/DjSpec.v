(** Vocabulary for C158-C160: the Daejeon16 interaction by its tables. *)
From Coq Require Import List ZArith Reals Bool.
From Verif Require Import Base RMat JpvSpec DjData.
Import ListNotations.
Open Scope Z_scope.

(** element of a table, counted from 0; zero outside *)
Definition entry (t : list (list Z)) (i j : nat) : Z := nth i (nth j t []) 0.
(** singlet channels and uncoupled triplet channels of J = 0..6 (the triplet of J=0 is 3p0), coupled triplet channels of J = 1..6 *)
Definition singlet (J : Z) : list (list Z) := nth (Z.to_nat J) [unc1s0; unc1p1; unc1d2; unc1f3; unc1g4; unc1h5; unc1i6] [].
Definition triplet (J : Z) : list (list Z) := nth (Z.to_nat J) [unc3p0; unc3p1; unc3d2; unc3f3; unc3g4; unc3h5; unc3i6] [].
Definition coupled (J : Z) : list (list Z) := nth (Z.to_nat J) [[]; coup3sd; coup3pf; coup3dg; coup3fh; coup3gi; coup3hj] [].
(** two orbital momenta in a coupled channel: the lower one comes first *)
Definition lower (J L : Z) : bool := L =? J - 1.
Definition upper (J L : Z) : bool := L =? J + 1.
Definition place (J L : Z) (n : nat) : nat := if upper J L then 31 + n else n.
(** element between states of n < 31 and n' < 31, in units of 10^-15 MeV *)
Definition tabulated (J S L : Z) (n : nat) (L' : Z) (n' : nat) : Z :=
  if (0 <=? J) && (J <=? 6) && Nat.ltb n 31 && Nat.ltb n' 31 then
    if S =? 0 then if (L =? J) && (L' =? J) then entry (singlet J) n n' else 0
    else if S =? 1 then
      if (J =? 0) then if (L =? 1) && (L' =? 1) then entry (triplet J) n n' else 0
      else if (L =? J) && (L' =? J) then entry (triplet J) n n'
      else if (lower J L || upper J L) && (lower J L' || upper J L') then entry (coupled J) (place J L n) (place J L' n') else 0
    else 0
  else 0.
(** the interaction, in MeV *)
Definition daejeon (single : R -> R) : Z -> Z -> Z -> nat -> Z -> nat -> R := fun J S L n L' n' => single (IZR (tabulated J S L n L' n') / IZR (10 ^ 15))%R.
