(** What a relative interaction file says, independently of how it is read. *)
From Coq Require Import List ZArith Reals Bool Lia.
From Verif Require Import Base OscModel BlockModel ObioModel JpvModel.
Import ListNotations.
Open Scope Z_scope.

(** position of element (i, j), i <= j, of a triangle stored column by column *)
Definition tri (i j : nat) : nat := (Nat.div2 (j * (j + 1)) + i)%nat.
(** a block: the two orbital angular momenta of its header in the order of the file, and its numbers *)
Record jblock := JB { jb_J : Z; jb_S : Z; jb_first : Z; jb_second : Z; jb_dim : nat; jb_vals : list R }.
(** its text: a header line, then the numbers in any division into lines; the last line is not empty *)
Definition block_text (b : jblock) (lines : list line) : Prop :=
  exists nmax id mn hw body vmn vhw, lines = [TInt (jb_J b); TInt (jb_S b); TInt (jb_first b); TInt (jb_second b); TInt nmax; TInt (Z.of_nat (jb_dim b)); mn; hw; TInt id] :: body
  /\ forallb in_i32 [jb_J b; jb_S b; jb_first b; jb_second b; nmax; Z.of_nat (jb_dim b); id] = true /\ jb_J b <> 99999
  /\ word_value mn = Some vmn /\ word_value hw = Some vhw
  /\ Forall2 (fun w v => word_value w = Some v) (concat body) (jb_vals b) /\ length (jb_vals b) = tri 0 (jb_dim b)
  /\ (body = [] \/ last body [] <> []).
(** the block gives element (a, b) of the sector of the smaller (bra) and the larger (ket) angular momentum *)
Definition gives (b : jblock) (x y : nat) : option R :=
  let '(i, j) := if jb_second b >? jb_first b then (y, x) else (x, y) in
  if Nat.leb i j && Nat.ltb j (jb_dim b) then nth_error (jb_vals b) (tri i j) else None.
(** its sector *)
Definition sub_for (S J L : Z) (x : rsub) : Prop := r_L x = L /\ r_S x = S /\ r_J x = J /\ r_T x = (L + S + 1) mod 2 /\ r_g x = L mod 2.
Definition belongs (sp : rspace) (Jmax : Z) (sectors : lsectors) (b : jblock) (s : nat) : Prop :=
  0 <= jb_S b /\ 0 <= jb_first b /\ 0 <= jb_second b /\ (jb_first b + jb_second b) mod 2 = 0 /\ jb_J b <= Jmax
  /\ exists i k x y, nth_error sectors s = Some (i, k) /\ (i <= k)%nat /\ nth_error sp i = Some x /\ nth_error sp k = Some y
  /\ sub_for (jb_S b) (jb_J b) (Z.min (jb_first b) (jb_second b)) x /\ sub_for (jb_S b) (jb_J b) (Z.max (jb_first b) (jb_second b)) y.
Definition labels_of (x : rsub) : Z * Z * Z * Z * Z := (r_L x, r_S x, r_J x, r_T x, r_g x).
Definition rspace_ok (sp : rspace) : Prop := NoDup (map labels_of sp).
(** blocks of the dimensions of their sectors *)
Definition rblocks_ok (sp : rspace) (sectors : lsectors) (ms : blocks R) : Prop :=
  Forall2 (fun x m => rows m = rdim sp (fst x) /\ cols m = rdim sp (snd x)) sectors ms.
Definition in_sector (sp : rspace) (sectors : lsectors) (s x y : nat) : Prop :=
  exists b k, nth_error sectors s = Some (b, k) /\ (x < rdim sp b)%nat /\ (y < rdim sp k)%nat.
Definition entry_of (ms : blocks R) (s x y : nat) : R := match nth_error ms s with Some m => at_ m x y | None => 0%R end.
(** element (x, y) of sector [s] after a file: given by the last block of the sector that gives it, or as before *)
Definition latest (bs : list (jblock * nat)) (s x y : nat) (before : R) : R :=
  fold_left (fun v p => if Nat.eqb (snd p) s then match gives (fst p) x y with Some w => w | None => v end else v) bs before.
(** a block written from the matrix elements [V] of an interaction, where [V L i L' j] is between radial states i of L and j of L':
    element (i, j), i <= j, of the triangle is between state j of the first angular momentum of the header and state i of the second *)
Definition written_from (V : Z -> nat -> Z -> nat -> R) (b : jblock) : Prop :=
  forall i j, (i <= j)%nat -> (j < jb_dim b)%nat -> nth_error (jb_vals b) (tri i j) = Some (V (jb_first b) j (jb_second b) i).
Definition symmetric_V (V : Z -> Z -> Z -> nat -> Z -> nat -> R) : Prop := forall J S L i L' j, V J S L i L' j = V J S L' j L i.
(** every number of the block is at one place of the triangle *)
Definition triangle_place (d n i j : nat) : Prop := (i <= j)%nat /\ (j < d)%nat /\ tri i j = n.
