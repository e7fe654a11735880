(** Vocabulary for C26-C31 and C55. *)
From Coq Require Import List ZArith Reals Bool.
From Verif Require Import Base RMat OscModel.
Import ListNotations.
Open Scope R_scope.

(** an oscillator state: N quanta, orbital angular momentum l *)
Definition ho (N l : Z) : Prop := (0 <= l <= N)%Z /\ Z.even (N - l) = true.
(** a change of orbital angular momentum by one *)
Definition one_step (l l' : Z) : Prop := (l' = l + 1 \/ l' = l - 1)%Z.
(** the number in a double (0 for not-a-number) *)
Definition val (a : num) : R := match a with Num x => x | NaN => 0 end.
(** the number returned by a call *)
Definition oval (o : outcome num) : R := match o with Ok a => val a | _ => 0 end.
(** a list of the oscillator states of angular momentum l that contains all those with at most M quanta *)
Definition states_up_to (M l : Z) (Ns : list Z) : Prop :=
  NoDup Ns /\ (forall N, In N Ns -> ho N l) /\ (forall N, ho N l -> (N <= M)%Z -> In N Ns).
(** square of the angular factor of a vector operator between l and l' (Rowe (97)) *)
Definition angular_sqr (l l' : Z) : R := IZR (Z.max l l') / IZR (2 * l + 1).
(** [sum over l' of the angular weight times sum over states of l' of f] *)
Definition over_intermediate (l : Z) (Ns : Z -> list Z) (f : Z -> Z -> R) : R :=
  angular_sqr l (l + 1) * lsum (Ns (l + 1)%Z) (fun N => f N (l + 1)%Z)
  + angular_sqr l (l - 1) * lsum (Ns (l - 1)%Z) (fun N => f N (l - 1)%Z).
Definition delta (a b : Z) : R := if (a =? b)%Z then 1 else 0.
(** a sector between subspaces of equal L, S and T *)
Definition scalar_sector (x : rsector) : Prop := r_L (fst x) = r_L (snd x) /\ r_S (fst x) = r_S (snd x) /\ r_T (fst x) = r_T (snd x).
Definition sign_ok (s : Z) : Prop := (s = 1 \/ s = -1)%Z.
