(** Vocabulary for C44, C45 and C66-C70. *)
From Coq Require Import String List ZArith Reals Bool.
From Verif Require Import Base H2Model MapModel MapSpec RMat XformModel SepModel OscModel BlockModel MixModel.
Import ListNotations.
Open Scope R_scope.

(** [y] is [x] with numbers below the tolerance replaced by zero *)
Definition chopped (tol x y : R) : Prop := (Rabs x < tol -> y = 0) /\ (tol <= Rabs x -> y = x).

(** the combination with the given coefficients of numbers that belong to names *)
Definition combination (coefficients : list (string * R)) (v : string -> R) : R :=
  lsum coefficients (fun ic => snd ic * v (fst ic)).

(** files and indexings as the library provides them *)
Record index_ok (ix : tindex) : Prop := {
  xk_space : space_ok (ti_orb ix) (ti_space ix);
  xk_sectors : Forall (sector_of (ti_space ix)) (ti_sectors ix);
  xk_once : NoDup (map (fun s => (s_bi s, s_ki s)) (ti_sectors ix))
}.
Record file_ok (f : infile) : Prop := {
  fk_index : index_ok (if_ix f);
  fk_read : forall i s, nth_error (ti_sectors (if_ix f)) i = Some s -> exists m, if_read f i = Ok m /\ dims m s
}.

(** element of a stored sector; of a diagonal sector only the upper triangle counts *)
Definition stored (s : sector) (m : mat R) (b k : nat) : R :=
  if (Nat.eqb (s_bi s) (s_ki s) && Nat.ltb k b)%bool then at_ m k b else at_ m b k.

(** [x] is the element of file [f] between the states [a], [b] of target sector [ts]: the stored element between the
    states of the same orbitals, with the phases of their order, and zero where the file has no such states *)
Inductive labelled (f : infile) (tgt : tindex) (ts : sector) (a b : nat) : R -> Prop :=
| lab_stored : forall i s m sb sk pb pk, nth_error (ti_sectors (if_ix f)) i = Some s -> same_sector s ts ->
    if_read f i = Ok m ->
    same_state (ti_orb (if_ix f)) (s_bra s) sb (ti_orb tgt) (s_bra ts) a pb ->
    same_state (ti_orb (if_ix f)) (s_ket s) sk (ti_orb tgt) (s_ket ts) b pk ->
    labelled f tgt ts a b (IZR (pb * pk) * stored s m sb sk)
| lab_no_sector : (forall s, In s (ti_sectors (if_ix f)) -> ~ same_sector s ts) -> labelled f tgt ts a b 0
| lab_no_state : forall s, In s (ti_sectors (if_ix f)) -> same_sector s ts ->
    (forall i p, ~ same_state (ti_orb (if_ix f)) (s_bra s) i (ti_orb tgt) (s_bra ts) a p)
    \/ (forall i p, ~ same_state (ti_orb (if_ix f)) (s_ket s) i (ti_orb tgt) (s_ket ts) b p) ->
    labelled f tgt ts a b 0.

(** all the sources are input files *)
Definition inputs (fs : list (string * infile)) : list (string * source) := map (fun p => (fst p, SInput (snd p))) fs.

(** the numbers [v] of element (a,b) that the channels have produced *)
Definition produced (pop : string * channel -> outcome (option (mat R))) (cs : list (string * channel)) (a b : nat)
  (v : string -> R) : Prop :=
  (forall c x, In c cs -> pop c = Ok (Some x) -> v (fst c) = at_ x a b)
  /\ (forall c, In c cs -> pop c = Ok None -> v (fst c) = 0)
  /\ (forall id, ~ In id (map fst cs) -> v id = 0).

(** the blocks of a one-body operator have the dimensions of its sectors *)
Definition ob_ok (mk : lspace -> Z * Z * Z -> lsectors) (o : obdata) : Prop :=
  exists q, od_q o = Some q /\ od_sectors o = mk (od_space o) q
  /\ Forall2 (fun x m => rows m = sub_dim (od_space o) (fst x) /\ cols m = sub_dim (od_space o) (snd x))
       (od_sectors o) (od_blocks o).

(** selection rules of a two-body operator with quantum numbers J0, g0, Tz0 between subspaces *)
Definition tz_of (s : species) : Z := match s with PP => 1 | NN => -1 | PN => 0 end.
Definition allowed (q : Z * Z * Z) (s : sector) : Prop :=
  let '(J0, g0, Tz0) := q in
  (Z.abs (ss_J (s_bra s) - ss_J (s_ket s)) <= J0 <= ss_J (s_bra s) + ss_J (s_ket s))%Z
  /\ ((ss_g (s_bra s) + ss_g (s_ket s) + g0) mod 2 = 0)%Z
  /\ (tz_of (ss_species (s_bra s)) = tz_of (ss_species (s_ket s)) + Tz0)%Z.

(** the sum of the terms of a one-body linear combination, element (a,b) of sector [i] *)
Definition ob_element (ops : list (string * obdata)) (id : string) (i a b : nat) : R :=
  match assoc ops id with
  | Some o => match nth_error (od_blocks o) i with Some m => at_ m a b | None => 0 end
  | None => 0
  end.
