(** Model of libraries/tbme/tbme_mapping.h, tbme_mapping.cpp: remapping of two-body matrices
    between two indexings. *)
From Coq Require Import List ZArith Lia Bool.
From Verif Require Import Base H2Model.
Import ListNotations.
Open Scope Z_scope.
Open Scope outcome_scope.

(** basis::OrbitalSubspacePN state labels (n,l,j); j is given as 2j *)
Record olabel := OL { ol_n : Z; ol_l : Z; ol_2j : Z }.
Definition olabel_eqb (a b : olabel) : bool :=
  (ol_n a =? ol_n b) && (ol_l a =? ol_l b) && (ol_2j a =? ol_2j b).

(** basis::OrbitalSpacePN: the two subspaces (tbme_mapping.cpp:34-35 asserts that there are two) *)
Definition ospace := ospecies -> list olabel.

(** subspace labels (species, J, g) (basis::TwoBodySubspaceJJJPN) *)
Definition sub_labels (s : subspace) : species * Z * Z := (ss_species s, ss_J s, ss_g s).
Definition labels_eqb (a b : species * Z * Z) : bool :=
  let '(s1, J1, g1) := a in let '(s2, J2, g2) := b in
  species_eqb s1 s2 && (J1 =? J2) && (g1 =? g2).
Definition pair_eqb (a b : nat * nat) : bool := Nat.eqb (fst a) (fst b) && Nat.eqb (snd a) (snd b).

(** LookUpStateIndex, LookUpSubspaceIndex of the basis library: the index of the given labels,
    [None] for basis::kNone.  (First index; the labels of a real subspace are distinct.) *)
Fixpoint lookup {A} (eqb : A -> A -> bool) (l : list A) (x : A) : option nat :=
  match l with
  | [] => None
  | y :: l' => if eqb x y then Some O else option_map S (lookup eqb l' x)
  end.

(** tbme_mapping.cpp:38-74: orbital_mapping *)
Definition orbital_mapping (src tgt : ospace) (sp : ospecies) : list (option nat) :=
  map (lookup olabel_eqb (tgt sp)) (src sp).

(** comparison of std::size_t indices, basis::kNone being the largest value (tbme_mapping.cpp:147) *)
Definition idx_gt (a b : option nat) : bool :=
  match a, b with
  | Some a, Some b => Nat.ltb b a
  | None, Some _ => true
  | _, None => false
  end.

Definition osp_eqb (a b : ospecies) : bool := match a, b with SP, SP | SN, SN => true | _, _ => false end.

(** std::pow(-1, z) converted to int *)
Definition pow_m1 (z : Z) : Z := if Z.even z then 1 else -1.

(** tbme_mapping.cpp:157-165: no state has a label kNone *)
Definition lookup_state (t : subspace) (i1 i2 : option nat) : option nat :=
  match i1, i2 with
  | Some a, Some b => lookup pair_eqb (ss_states t) (a, b)
  | _, _ => None
  end.

(** tbme_mapping.cpp:133-169: entry (target state index, relative phase) for one source state.
    The phase is an int stored in a std::size_t component (tbme_mapping.h:94). int arithmetic
    is taken to be exact; static_cast<int> of a half-integer sum divides the doubled value. *)
Definition map_state (src : ospace) (om : ospecies -> list (option nat)) (s t : subspace) (ij : nat * nat)
  : outcome (option nat * Z) :=
  let a := sp1 (ss_species s) in
  let b := sp2 (ss_species s) in
  o1 <- get (nth_error (src a) (fst ij)) ;;
  o2 <- get (nth_error (src b) (snd ij)) ;;
  t1 <- get (nth_error (om a) (fst ij)) ;;
  t2 <- get (nth_error (om b) (snd ij)) ;;
  let swap := osp_eqb a b && idx_gt t1 t2 in
  let grel := Z.quot (ol_2j o1 + ol_2j o2) 2 + ss_J s in
  let phase := if swap then pow_m1 (grel + 1) else 1 in
  let k := if swap then lookup_state t t2 t1 else lookup_state t t1 t2 in
  let phase := match k with None => 0 | Some _ => phase end in
  Ok (k, u64 phase).

(** tbme_mapping.cpp:126-183: all states of one source subspace: entries, domain_states_covered,
    num_target_states_found *)
Fixpoint map_states (src : ospace) (om : ospecies -> list (option nat)) (s t : subspace) (l : list (nat * nat))
    (entries : list (option nat * Z)) (dsta : bool) (n : nat) : outcome (list (option nat * Z) * bool * nat) :=
  match l with
  | [] => Ok (entries, dsta, n)
  | ij :: l' =>
      e <- map_state src om s t ij ;;
      match fst e with
      | None => map_states src om s t l' (entries ++ [e]) false n
      | Some _ => map_states src om s t l' (entries ++ [e]) dsta (S n)
      end
  end.

(** TwoBodyMapping (tbme_mapping.h:70-103) *)
Record mapping := Mapping {
  m_orb : ospecies -> list (option nat);
  m_sub : list (option nat);
  m_state : list (list (option nat * Z));
  m_dsub : bool;      (* domain_subspaces_covered *)
  m_dsta : bool;      (* domain_states_covered *)
  m_rsub : bool;      (* range_subspaces_covered *)
  m_rsta : bool       (* range_states_covered *)
}.

(** tbme_mapping.cpp:81-187: loop over source subspaces *)
Fixpoint map_subspaces (src : ospace) (om : ospecies -> list (option nat)) (tgt : list subspace)
    (l : list subspace) (m : mapping) (found : nat) : outcome (mapping * nat) :=
  match l with
  | [] => Ok (m, found)
  | s :: l' =>
      let k := lookup labels_eqb (map sub_labels tgt) (sub_labels s) in
      match k with
      | None =>
          map_subspaces src om tgt l'
            (Mapping (m_orb m) (m_sub m ++ [k]) (m_state m ++ [[]]) false false (m_rsub m) (m_rsta m)) found
      | Some ti =>
          t <- get (nth_error tgt ti) ;;
          ' (entries, dsta, n) <- map_states src om s t (ss_states s) [] (m_dsta m) 0 ;;
          map_subspaces src om tgt l'
            (Mapping (m_orb m) (m_sub m ++ [k]) (m_state m ++ [entries]) (m_dsub m) dsta (m_rsub m)
               (m_rsta m && Nat.eqb n (ss_size t))) (S found)
      end
  end.

(** TwoBodyMapping::TwoBodyMapping (tbme_mapping.cpp:20-193) *)
Definition make_mapping (src : ospace) (ssp : list subspace) (tgt : ospace) (tsp : list subspace) : outcome mapping :=
  let om := orbital_mapping src tgt in
  ' (m, found) <- map_subspaces src om tsp ssp (Mapping om [] [] true true true true) 0 ;;
  let rsub := m_rsub m && Nat.eqb found (length tsp) in
  Ok (Mapping om (m_sub m) (m_state m) (m_dsub m) (m_dsta m) rsub (m_rsta m && rsub)).

Section Remap.
(** double, 0. and the product int*double *)
Variable D : Type.
Variable d0 : D.
Variable dscale : Z -> D -> D.

(** Eigen element access: an index out of range fails an assertion *)
Definition mget (m : mat D) (i j : nat) : outcome D :=
  cassert (Nat.ltb i (rows m) && Nat.ltb j (cols m)) ;;; Ok (at_ m i j).
Definition mput (m : mat D) (i j : nat) (x : D) : outcome (mat D) :=
  cassert (Nat.ltb i (rows m) && Nat.ltb j (cols m)) ;;; Ok (mset m i j x).

(** the element of the vector of vectors state_mapping *)
Definition entry (m : mapping) (i j : nat) : outcome (option nat * Z) :=
  l <- get (nth_error (m_state m) i) ;; get (nth_error l j).

(** body of the loop tbme_mapping.cpp:294-312 *)
Definition remap_body (ss : sector) (mp : mapping) (src : mat D) (b k : nat) (t : mat D) : outcome (mat D) :=
  ' (rb, pb) <- entry mp (s_bi ss) b ;;
  match rb with
  | None => Ok t
  | Some rb =>
      ' (rk, pk) <- entry mp (s_ki ss) k ;;
      match rk with
      | None => Ok t
      | Some rk => x <- mget src b k ;; mput t rb rk (dscale (i32 pb * i32 pk) x)
      end
  end.

(** RemappedMatrixJJJPN (tbme_mapping.cpp:264-315) with the iterations of the parallel loop
    executed in the order [order] *)
Definition remap_in_order (order : list (nat * nat)) (ss ts : sector) (mp : mapping) (src : mat D) : outcome (mat D) :=
  loop2 order (remap_body ss mp src) (mzero d0 (ss_size (s_bra ts)) (ss_size (s_ket ts))).
Definition remap (ss ts : sector) (mp : mapping) (src : mat D) : outcome (mat D) :=
  remap_in_order (pairs (ss_size (s_bra ss)) (ss_size (s_ket ss))) ss ts mp src.
End Remap.
