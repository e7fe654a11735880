(** Vocabulary for C49, C50. *)
From Coq Require Import String List ZArith Reals Bool Permutation.
From Verif Require Import Base RMat OscModel BlockModel JpvModel JpvSpec RelxModel.
Import ListNotations.

(** the filters of the documentation, and the elements they accept between states of N and N' relative quanta *)
Inductive filter := FIdentity | FNrelmax (cutoff : Z) | FN0max (cutoff : Z).
Definition accepts (f : filter) (N N' : Z) : Prop :=
  match f with FIdentity => True | FNrelmax c => N <= c /\ N' <= c | FN0max c => Z.abs (N - N') <= c end%Z.
(** quanta of radial state [n] of a subspace *)
Definition quanta (sp : rspace) (i n : nat) : Z := match nth_error sp i with Some x => r_L x + 2 * Z.of_nat n | None => 0 end%Z.
(** element of the stored triangle of a sector *)
Definition kept_triangle (x : nat * nat) (i j : nat) : Prop := fst x = snd x -> (i <= j)%nat.

(** element (x, y) of a stored block; of a diagonal block only the upper triangle counts *)
Definition full_element (x : nat * nat) (m : mat R) (i j : nat) : R :=
  if (Nat.eqb (fst x) (snd x) && Nat.ltb j i)%bool then at_ m j i else at_ m i j.
(** source subspace [i] has the labels of target subspace [t] *)
Definition same_labels (src tgt : rspace) (i t : nat) : Prop :=
  exists x y, nth_error src i = Some x /\ nth_error tgt t = Some y /\ labels_of x = labels_of y.
(** spaces with their sectors *)
Definition rsectors_ok (sp : rspace) (s : lsectors) : Prop := NoDup s /\ forall x, In x s -> (fst x < length sp)%nat /\ (snd x < length sp)%nat.
(** a schedule runs through all the elements *)
Definition complete_schedule (schedule : nat -> nat -> list (nat * nat)) : Prop := forall a b, Permutation (schedule a b) (pairs a b).
(** operator element of target sector [t] in terms of the source: the sum over radial states of overlaps and elements *)
Definition transformed_element (O : Z -> nat -> nat -> R) (src tgt : rspace) (ssec : lsectors) (sblk : blocks R) (t : nat * nat) (a b : nat) (v : R) : Prop :=
  (exists q s m xb xk, nth_error ssec q = Some s /\ nth_error sblk q = Some m /\ same_labels src tgt (fst s) (fst t) /\ same_labels src tgt (snd s) (snd t)
     /\ nth_error tgt (fst t) = Some xb /\ nth_error tgt (snd t) = Some xk
     /\ v = rsum (rdim src (fst s)) (fun i => rsum (rdim src (snd s)) (fun j => O (r_L xb) i a * full_element s m i j * O (r_L xk) j b))%R)
  \/ ((forall s, In s ssec -> ~ (same_labels src tgt (fst s) (fst t) /\ same_labels src tgt (snd s) (snd t))) /\ v = 0%R).
