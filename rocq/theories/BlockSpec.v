(** Vocabulary for C32, C33, C56, C57: full matrices of operators stored by sectors. *)
From Coq Require Import List ZArith Reals Bool.
From Verif Require Import Base RMat H2Model MapModel OscModel OscSpec BlockModel.
Import ListNotations.
Open Scope R_scope.

(** element of the full matrix between state i of subspace I and state j of subspace J: that of the block of the sector
    (I,J), zero if there is no such sector *)
Fixpoint entry (s : lsectors) (m : blocks R) (I i J j : nat) : R :=
  match s, m with
  | (I', J') :: s', b :: m' => if Nat.eq_dec I' I then if Nat.eq_dec J' J then at_ b i j else entry s' m' I i J j else entry s' m' I i J j
  | _, _ => 0
  end.
(** blocks of the right number and dimensions, each sector once, between existing subspaces *)
Definition op_ok (bra ket : lspace) (s : lsectors) (m : blocks R) : Prop :=
  NoDup s /\ Forall2 (fun x b => (fst x < length bra)%nat /\ (snd x < length ket)%nat
    /\ rows b = sub_dim bra (fst x) /\ cols b = sub_dim ket (snd x)) s m.
(** sum over all states of a space *)
Definition ssum (sp : lspace) (f : nat -> nat -> R) : R := rsum (length sp) (fun J => rsum (sub_dim sp J) (fun j => f J j)).
(** a state of a space *)
Definition state (sp : lspace) (I i : nat) : Prop := (I < length sp)%nat /\ (i < sub_dim sp I)%nat.
(** the sectors [s] contain every pair of subspaces connected through the sectors of two factors *)
Definition product_sectors (sa sb s : lsectors) : Prop := forall I J K, In (I, J) sa -> In (J, K) sb -> In (I, K) s.
(** the transformation connects subspaces of equal labels only *)
Definition label_of (sp : lspace) (I : nat) : option llabel := option_map fst (nth_error sp I).
Definition scalar_sectors (source target : lspace) (sx : lsectors) : Prop :=
  forall A I, In (A, I) sx -> label_of source A = label_of target I.
Definition distinct_labels (sp : lspace) : Prop := NoDup (map fst sp).
(** every output sector whose subspaces exist in the source has its operator and transformation sectors *)
Definition covered (source target : lspace) (sx so s : lsectors) : Prop :=
  forall I K A B, In (I, K) s -> (A < length source)%nat -> (B < length source)%nat ->
    label_of source A = label_of target I -> label_of source B = label_of target K ->
    In (A, B) so /\ In (A, I) sx /\ In (B, K) sx.
(** the identity matrix *)
Definition identity_matrix_on (sp : lspace) (s : lsectors) (m : blocks R) : Prop :=
  forall A a I i, state sp A a -> state sp I i -> entry s m A a I i = if Nat.eqb A I && Nat.eqb a i then 1 else 0.
Definition symmetric_on (sp : lspace) (s : lsectors) (m : blocks R) : Prop :=
  forall A a B b, state sp A a -> state sp B b -> entry s m A a B b = entry s m B b A a.

(** spin-1/2 orbital labels: j = l + 1/2 or l - 1/2, positive *)
Definition spin_half (l : llabel) : Prop := (0 <= ll_l l)%Z /\ (0 < ll_2j l)%Z /\ (ll_2j l = 2 * ll_l l + 1 \/ ll_2j l = 2 * ll_l l - 1)%Z.
(** selection rules of a sector of an operator of rank J0 and parity g0 *)
Definition ljpn_allowed (J0 g0 : Z) (b k : llabel) : Prop :=
  (Z.abs (ll_2j b - ll_2j k) <= 2 * J0 <= ll_2j b + ll_2j k)%Z /\ Z.even (ll_l b + ll_l k + g0) = true.
(** a space of spin-1/2 orbitals with non-negative radial quantum numbers *)
Definition orbital_space (sp : lspace) : Prop := Forall (fun x => spin_half (fst x) /\ Forall (fun n => (0 <= n)%Z) (snd x)) sp.
(** the radial quantum number of a state, and the orbital angular momentum of a subspace *)
Definition n_of (sp : lspace) (I i : nat) (n : Z) : Prop := exists x, nth_error sp I = Some x /\ nth_error (snd x) i = Some n.
Definition l_of (sp : lspace) (I : nat) (l : Z) : Prop := exists x, nth_error sp I = Some x /\ ll_l (fst x) = l.
(** blocks of doubles as blocks of numbers *)
Definition real_block (m : mat num) : mat R := Mat (rows m) (cols m) (fun i j => val (at_ m i j)).
Definition no_nan (m : mat num) : Prop := forall i j, (i < rows m)%nat -> (j < cols m)%nat -> at_ m i j <> NaN.
