(** Common vocabulary: outcomes of C++ calls, machine integers, byte encodings,
    double loops over a matrix. *)
From Coq Require Import List ZArith Lia Bool.
Import ListNotations.
Open Scope Z_scope.

(** * Outcomes of a C++ call

    [Exit]: the process ends through std::exit after an error message
    (mcutils::StreamCheck, mcutils::ParsingCheck, mcutils::ParsingError,
    mcutils::VerifyBinary, explicit std::exit).
    [AssertFail]: an assert() fails (NDEBUG is not defined in the repository).
    [UB]: undefined behaviour or use of an indeterminate value. *)
Inductive outcome (A : Type) : Type :=
| Ok (a : A)
| Exit
| AssertFail
| UB.
Arguments Ok {A} a.
Arguments Exit {A}.
Arguments AssertFail {A}.
Arguments UB {A}.

Definition bind {A B} (m : outcome A) (k : A -> outcome B) : outcome B :=
  match m with
  | Ok a => k a
  | Exit => Exit
  | AssertFail => AssertFail
  | UB => UB
  end.

Declare Scope outcome_scope.
Delimit Scope outcome_scope with outcome.
Notation "x <- m ;; k" := (bind m (fun x => k))
  (at level 61, m at next level, right associativity) : outcome_scope.
Notation "' p <- m ;; k" := (bind m (fun x => match x with p => k end))
  (at level 61, p pattern, m at next level, right associativity) : outcome_scope.
Notation "m ;;; k" := (bind m (fun _ => k))
  (at level 61, right associativity) : outcome_scope.
Open Scope outcome_scope.

(** assert(b) *)
Definition cassert (b : bool) : outcome unit := if b then Ok tt else AssertFail.
(** a check that ends the process with an error message when it fails *)
Definition check (b : bool) : outcome unit := if b then Ok tt else Exit.
(** vector access without bounds check: out of range is undefined *)
Definition get {A} (o : option A) : outcome A :=
  match o with Some a => Ok a | None => UB end.

Definition is_ok {A} (o : outcome A) : Prop := exists a, o = Ok a.

(** * Machine integers *)

Definition two31 : Z := 2147483648.
Definition two32 : Z := 4294967296.
Definition two63 : Z := 9223372036854775808.
Definition two64 : Z := 18446744073709551616.

(** conversion to a 32-bit int (two's complement wrap-around) *)
Definition i32 (z : Z) : Z := (z + two31) mod two32 - two31.
(** conversion to a 64-bit signed integer *)
Definition i64 (z : Z) : Z := (z + two63) mod two64 - two63.
(** conversion to std::size_t *)
Definition u64 (z : Z) : Z := z mod two64.

Definition in_i32 (z : Z) : bool := (- two31 <=? z) && (z <? two31).
Definition in_i64 (z : Z) : bool := (- two63 <=? z) && (z <? two63).
Definition in_u64 (z : Z) : bool := (0 <=? z) && (z <? two64).

(** * Little-endian byte encodings *)

Fixpoint le_bytes (n : nat) (z : Z) : list Z :=
  match n with
  | O => []
  | S n' => (z mod 256) :: le_bytes n' (z / 256)
  end.

Fixpoint le_value (bs : list Z) : Z :=
  match bs with
  | [] => 0
  | b :: bs' => b + 256 * le_value bs'
  end.

(** bytes of a 4-byte word (int32_t or the bits of a float) *)
Definition enc32 (z : Z) : list Z := le_bytes 4 (z mod two32).
(** bytes of an int64_t *)
Definition enc64 (z : Z) : list Z := le_bytes 8 (z mod two64).
Definition dec_i32 (bs : list Z) : Z := i32 (le_value bs).
Definition dec_u32 (bs : list Z) : Z := le_value bs.
Definition dec_i64 (bs : list Z) : Z := i64 (le_value bs).

(** consecutive 4-byte words *)
Fixpoint dec_words (n : nat) (bs : list Z) : list Z :=
  match n with
  | O => []
  | S n' => dec_u32 (firstn 4 bs) :: dec_words n' (skipn 4 bs)
  end.

(** * Loops over matrix elements

    [for (i=0; i<nb; ++i) for (j=0; j<nk; ++j) body(i,j)] *)
Definition pairs (nb nk : nat) : list (nat * nat) := list_prod (seq 0 nb) (seq 0 nk).

Fixpoint loop2 {S : Type} (ix : list (nat * nat)) (body : nat -> nat -> S -> outcome S) (s : S)
  : outcome S :=
  match ix with
  | [] => Ok s
  | (i, j) :: ix' => s' <- body i j s ;; loop2 ix' body s'
  end.

(** vector store v[i] = x; out of range is undefined *)
Fixpoint store {A} (v : list A) (i : nat) (x : A) : outcome (list A) :=
  match v, i with
  | [], _ => UB
  | _ :: v', O => Ok (x :: v')
  | y :: v', S i' => r <- store v' i' x ;; Ok (y :: r)
  end.

(** * Matrices (Eigen::MatrixXd): dimensions and element access *)
Record mat (D : Type) : Type := Mat { rows : nat; cols : nat; at_ : nat -> nat -> D }.
Arguments Mat {D}.
Arguments rows {D}.
Arguments cols {D}.
Arguments at_ {D}.

Definition mzero {D} (z : D) (r c : nat) : mat D := Mat r c (fun _ _ => z).
Definition mset {D} (m : mat D) (i j : nat) (x : D) : mat D :=
  Mat (rows m) (cols m)
    (fun i' j' => if Nat.eqb i' i && Nat.eqb j' j then x else at_ m i' j').
