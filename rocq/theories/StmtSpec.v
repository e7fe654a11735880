(** Vocabulary for control files: the first, the last and all statements of a kind, and sections of statements. *)
From Coq Require Import List.
Import ListNotations.
Section Statements.
Context {S : Type}.
Fixpoint the_first {A} (f : S -> option A) (l : list S) : option A :=
  match l with [] => None | s :: l' => match f s with Some x => Some x | None => the_first f l' end end.
Definition the_last {A} (f : S -> option A) (l : list S) : option A := the_first f (rev l).
Definition every {A} (f : S -> option A) (l : list S) : list A := flat_map (fun s => match f s with Some x => [x] | None => [] end) l.
(** the statements up to the next one that starts something *)
Fixpoint up_to {A} (start : S -> option A) (l : list S) : list S :=
  match l with [] => [] | s :: l' => match start s with Some _ => [] | None => s :: up_to start l' end end.
(** everything that is started, with the items that follow it before the next start *)
Fixpoint parts {A B} (start : S -> option A) (item : S -> option B) (l : list S) : list (A * list B) :=
  match l with
  | [] => []
  | s :: l' => match start s with
               | Some a => (a, every item (up_to start l')) :: parts start item l'
               | None => parts start item l'
               end
  end.
End Statements.
Definition otherwise {A} (o : option A) (x : A) : A := match o with Some y => y | None => x end.
