(** Vocabulary for C169-C171. *)
From Coq Require Import List ZArith Reals Bool.
From Verif Require Import Base RMat H2Model MapModel BlockModel WfModel RscModel.
Import ListNotations.
Open Scope Z_scope.

(** C169.  A file as the reader gives it: one block for each sector, sectors between subspaces that exist *)
Definition file_ok (f : rfile) : Prop :=
  length (rf_blocks f) = length (rf_sectors f) /\ forall x, In x (rf_sectors f) -> (fst x < length (rf_bra f))%nat.
(** [g] has the indexing and the operator of [f] *)
Definition same_operator (f g : rfile) : Prop :=
  rf_type g = rf_type f /\ rf_power g = rf_power f /\ rf_Tz0 g = rf_Tz0 f /\ rf_bra g = rf_bra f /\ rf_ket g = rf_ket f
  /\ rf_sectors g = rf_sectors f /\ length (rf_blocks g) = length (rf_blocks f).
(** the element in sector ix, row i, column j, and the species of the bra orbitals there *)
Definition element (f : rfile) (ix i j : nat) (e : fl) : Prop :=
  exists m, nth_error (rf_blocks f) ix = Some m /\ (i < rows m)%nat /\ (j < cols m)%nat /\ at_ m i j = e.
Definition sector_species (f : rfile) (ix : nat) (s : ospecies) : Prop :=
  exists x b, nth_error (rf_sectors f) ix = Some x /\ nth_error (rf_bra f) (fst x) = Some b /\ ll_sp (fst b) = s.
(** the dimension of the operator as a power of length: r^k has k, k^k has -k *)
Definition length_power (f : rfile) : Z := match rf_type f with RK => - rf_power f | _ => rf_power f end.
(** a file of r^k or k^k without charge exchange whose power can be negated *)
Definition can_scale (f : rfile) : Prop := (rf_type f = RR \/ rf_type f = RK) /\ rf_Tz0 f = 0 /\ -2147483648 < rf_power f <= 2147483647.
Definition by_species (p n : R) (s : ospecies) : R := match s with SP => p | SN => n end.
(** the elements are those of an operator with length_power k in oscillator functions of the lengths bp and bn: its elements in
    functions of length one, times b^k *)
Definition has_lengths (bp bn : R) (el : nat -> nat -> nat -> R) (f : rfile) : Prop :=
  forall ix i j s e, element f ix i j e -> sector_species f ix s -> e = Fin (powerRZ (by_species bp bn s) (length_power f) * el ix i j).
(** no rounding *)
Definition exact (single : fl -> fl) : Prop := forall x, single x = x.

(** C170.  Two nucleons in oscillator orbitals (N,l), N quanta together, coupled to L *)
Definition is_orbital (a : Z * Z) : Prop := 0 <= snd a <= fst a /\ Z.even (fst a - snd a) = true.
Definition couples (l1 l2 L : Z) : Prop := Z.abs (l1 - l2) <= L <= l1 + l2.
Definition nl_state (N L : Z) (s : nlpair) : Prop :=
  is_orbital (fst s) /\ is_orbital (snd s) /\ fst (fst s) + fst (snd s) = N /\ couples (snd (fst s)) (snd (snd s)) L.
(** the order of the header: by N1, l1 and then l2 (N2 is N - N1) *)
Definition state_before (s t : nlpair) : Prop :=
  let '((N1, l1), (_, l2)) := s in let '((N1', l1'), (_, l2')) := t in
  N1 < N1' \/ (N1 = N1' /\ (l1 < l1' \/ (l1 = l1' /\ l2 < l2'))).
Definition quanta (s : nlpair) : Z := fst (fst s) + fst (snd s).
(** lines by N, L, bra, ket *)
Definition line_before {D} (x y : table_line D) : Prop :=
  let '(b, k, L, _) := x in let '(b', k', L', _) := y in
  quanta b < quanta b' \/ (quanta b = quanta b' /\ (L < L' \/ (L = L' /\ (state_before b b' \/ (b = b' /\ state_before k k'))))).

(** C171.  The permutation that reverses the order of the radial functions of a subspace *)
Definition reverses (m : mat R) : Prop :=
  rows m = cols m /\ forall i j, (i < rows m)%nat -> (j < cols m)%nat -> at_ m i j = if Nat.eqb (i + j + 1) (rows m) then 1%R else 0%R.
(** sectors between subspaces with the same l *)
Definition same_l (sp : lspace) (sectors : lsectors) : Prop :=
  forall x, In x sectors -> exists a b, nth_error sp (fst x) = Some a /\ nth_error sp (snd x) = Some b /\ ll_l (fst a) = ll_l (fst b).
