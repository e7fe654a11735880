(** programs/h2utils/h2stat.cpp, over the stream model of H2Model.v and ConvModel.v.

    Simplifications: of the output only what the mode is about is kept (the text of the tables is left out); matrices are given as
    matrices.  A file that cannot be opened ends the program.  The program has the file name and the contents in both media. *)
From Coq Require Import String List ZArith Bool.
From Verif Require Import Base H2Model ConvModel.
Import ListNotations.
Open Scope outcome_scope.
Local Open Scope string_scope.

(** h2stat.cpp:49-91 ProcessArguments *)
Inductive asked := AskUsage | AskNothing | AskMode (mode file : string).
Definition h2stat_arguments (args : list string) : asked :=
  match args with
  | [] => AskUsage
  | a :: l =>
    if String.eqb a "--help" then AskUsage
    else match l with
         | [] => AskMode "header" a
         | f :: _ => if String.eqb (substring 0 2 a) "--" then AskMode (substring 2 (String.length a - 2) a) f else AskNothing
         end
  end.

Section Model.
Variable E : env.
Notation D := (dbl E).
(** what is printed *)
Inductive report : Type :=
| RUsage
| RHeader (ix : indexing E)
| ROrbitals (ix : indexing E) (p n : list (orbital D))
| RIndexing (ix : indexing E) (p n : list (orbital D)) (space : list subspace) (sectors : list sector)
| RVerified (ix : indexing E) (count : nat)
| RMatrices (ix : indexing E) (ms : list (sector * mat D)).
(** reading all sectors in order: DoVerify (:151-168), DoMatrices (:170-207) *)
Fixpoint scan (st : any_in E) (h : list nat) : outcome (list (mat D)) :=
  match h with
  | [] => Ok []
  | i :: h' => '(m, st') <- read_any E st i ;; ms <- scan st' h' ;; Ok (m :: ms)
  end.
(** mcutils::CompleteLowerTriangle *)
Definition complete_lower (m : mat D) : mat D := Mat (rows m) (cols m) (fun i j => if Nat.ltb j i then at_ m j i else at_ m i j).
Definition shown (s : sector) (m : mat D) : mat D := if is_diag s then complete_lower m else m.
(** :214-286 main *)
Definition h2stat (disk : string -> option (list Z * tfile E)) (args : list string) : outcome report :=
  match h2stat_arguments args with
  | AskUsage => Ok RUsage
  | AskNothing => Exit
  | AskMode mode file =>
    match disk file with
    | None => Exit
    | Some (data, text) =>
      st <- open_file E file data text ;;
      let ix := any_ix E st in
      let all := seq 0 (length (ix_sectors E ix)) in
      if String.eqb mode "header" then Ok (RHeader ix)
      else if String.eqb mode "orbitals" then Ok (ROrbitals ix (ix_p E ix) (ix_n E ix))
      else if String.eqb mode "indexing" then Ok (RIndexing ix (ix_p E ix) (ix_n E ix) (ix_space E ix) (ix_sectors E ix))
      else if String.eqb mode "verify" then ms <- scan st all ;; Ok (RVerified ix (length ms))
      else if String.eqb mode "matrices" then ms <- scan st all ;; Ok (RMatrices ix (map (fun p => (fst p, shown (fst p) (snd p))) (combine (ix_sectors E ix) ms)))
      else Exit
    end
  end.
End Model.
Arguments RUsage {E}. Arguments RHeader {E}. Arguments ROrbitals {E}. Arguments RIndexing {E}. Arguments RVerified {E}. Arguments RMatrices {E}.
