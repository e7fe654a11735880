(** Vocabulary for C46. *)
From Coq Require Import String List ZArith Bool Permutation.
From Verif Require Import Base H2Model H2Spec MapModel ConvModel.
Import ListNotations.

Section Spec.
Variable E : env.
Notation D := (dbl E).

(** an object of the basis library: the labels of the subspaces are different, the sectors connect the subspaces of their indices and
    are different *)
Record library_indexing (ix : indexing E) : Prop := {
  li_labels : NoDup (map sub_labels (ix_space E ix));
  li_sectors : Forall (fun s => nth_error (ix_space E ix) (s_bi s) = Some (s_bra s) /\ nth_error (ix_space E ix) (s_ki s) = Some (s_ket s))
                 (ix_sectors E ix);
  li_different : NoDup (map (fun s => (s_bi s, s_ki s)) (ix_sectors E ix));
  li_canonical : Forall canonical_sector (ix_sectors E ix)
}.
(** two sectors between the same subspaces *)
Definition same_ends (s s' : sector) : Prop := s_bra s = s_bra s' /\ s_ket s = s_ket s'.
(** the sectors of two objects are the same up to their order *)
Definition reordered (ix ix' : indexing E) : Prop :=
  Permutation (map (fun s => (s_bra s, s_ket s)) (ix_sectors E ix)) (map (fun s => (s_bra s, s_ket s)) (ix_sectors E ix')).
(** reading the sectors [h] of a stream one after the other *)
Fixpoint reads_any (st : any_in E) (h : list nat) : outcome (list (mat D)) :=
  match h with
  | [] => Ok []
  | i :: h' => bind (read_any E st i) (fun x => bind (reads_any (snd x) h') (fun ms => Ok (fst x :: ms)))
  end.
(** a whole file: every sector can be read, giving [ms]; in a text file the last line is complete *)
Definition holds (name : string) (data : list Z) (file : tfile E) (st : any_in E) (ms : list (mat D)) : Prop :=
  open_file E name data file = Ok st /\ f_nl E file = true /\ reads_any st (seq 0 (length (ix_sectors E (any_ix E st)))) = Ok ms.
(** conversion of a single precision number to double, multiplication by one and conversion back do not change it *)
Definition exact_singles : Prop := forall x, widen E (narrow E (dmul E (d1 E) (widen E x))) = widen E x.
(** what the medium of a file makes of a number read from another file *)
Definition copied (via : Z -> Z) (v : D) : D := widen E (via (narrow E (dmul E (d1 E) v))).
(** what is read back for sector [i'] of the output, in terms of the sectors [ms] of the input *)
Definition conv_result (st : any_in E) (ms : list (mat D)) (f : format) (via : Z -> Z) (i' : nat) (r : mat D) : Prop :=
  exists s' i s m, nth_error (ix_sectors E (conv_indexing E (any_ix E st) f)) i' = Some s' /\ nth_error (ix_sectors E (any_ix E st)) i = Some s
  /\ same_ends s s' /\ nth_error ms i = Some m /\ rows r = rows m /\ cols r = cols m
  /\ (forall b k, held s' b k -> at_ r b k = copied via (at_ m b k)) /\ (forall b k, ~ held s' b k -> at_ r b k = at_ m b k).
(** [v] is the element of a sector between the states of the orbitals [a], [b] and [c], [d] *)
Definition orbs_of (ix : indexing E) (sp : species) : list (orbital D) * list (orbital D) :=
  match sp with PP => (ix_p E ix, ix_p E ix) | NN => (ix_n E ix, ix_n E ix) | PN => (ix_p E ix, ix_n E ix) end.
Definition state_of (ix : indexing E) (x : subspace) (t : nat) (a b : orbital D) : Prop :=
  exists i j, nth_error (ss_states x) t = Some (i, j) /\ nth_error (fst (orbs_of ix (ss_species x))) i = Some a
  /\ nth_error (snd (orbs_of ix (ss_species x))) j = Some b.
Definition labelled (ix : indexing E) (s : sector) (m : mat D) (a b c d : orbital D) (v : D) : Prop :=
  exists t u, state_of ix (s_bra s) t a b /\ state_of ix (s_ket s) u c d /\ at_ m t u = v.
End Spec.

(** The basis library: the subspaces of pp, nn and pn in the two orders, sectors between the subspaces i <= j that a selection rule connects;
    for Tz0 = 0 the rule connects only subspaces of the same species. *)
Fixpoint upper_ends (rule : subspace -> subspace -> bool) (space : list subspace) : list (subspace * subspace) :=
  match space with
  | [] => []
  | x :: l => map (pair x) (filter (rule x) (x :: l)) ++ upper_ends rule l
  end.
Definition library_order (E : env) (p n : list (orbital (dbl E))) (w : wmax (dbl E)) (J0 g0 : Z) : Prop :=
  exists pp nn pn rule,
  Forall (fun x => ss_species x = PP) pp /\ Forall (fun x => ss_species x = NN) nn /\ Forall (fun x => ss_species x = PN) pn
  /\ mk_space E KPN p n w = pp ++ nn ++ pn /\ mk_space E KTz p n w = pp ++ pn ++ nn
  /\ (forall x y, ss_species x <> ss_species y -> rule x y = false)
  /\ forall o, map (fun s => (s_bra s, s_ket s)) (mk_sectors E (mk_space E o p n w) J0 g0 0) = upper_ends rule (mk_space E o p n w).
