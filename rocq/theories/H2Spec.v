(** Specification vocabulary for the H2 file theorems, independent of the I/O code. *)
From Coq Require Import String List ZArith Lia Bool.
From Verif Require Import Base H2Model.
Import ListNotations.
Open Scope nat_scope.

Section Spec.
Variable E : env.
Notation D := (dbl E).

(** What any TwoBodySectorsJJJPN object in canonical ("upper triangle") form satisfies: bra
    index at most ket index, and equal indices name the same subspace. *)
Definition canonical_sector (s : sector) : Prop :=
  s_bi s <= s_ki s /\ (s_bi s = s_ki s -> s_bra s = s_ket s).

(** An element of a sector is held in the file unless it lies strictly below the diagonal of a
    diagonal sector. *)
Definition held (s : sector) (b k : nat) : Prop :=
  b < length (ss_states (s_bra s)) /\ k < length (ss_states (s_ket s))
  /\ (s_bi s = s_ki s -> b <= k).

(** A two-body state of two like particles in the same orbital. *)
Definition like_pair (ss : subspace) (i : nat) : bool :=
  match ss_species ss with
  | PN => false
  | _ => let '(a, b) := nth i (ss_states ss) (0, 0) in Nat.eqb a b
  end.

(** Factor converting an antisymmetrised (AS) to a normalised antisymmetrised (NAS) matrix
    element: one factor 1/sqrt(2) for each side that is a like pair. *)
Definition nas_factor (c : conversion) (s : sector) (b k : nat) : D :=
  match c with
  | CASToNAS =>
      match like_pair (s_bra s) b, like_pair (s_ket s) k with
      | false, false => d1 E
      | true, false | false, true => dmul E (d1 E) (dinvsqrt2 E)
      | true, true => dmul E (dmul E (d1 E) (dinvsqrt2 E)) (dinvsqrt2 E)
      end
  | _ => d1 E
  end.

(** The single-precision number (as bits) that a writer commits to the file for an element:
    the value converted to NAS normalisation and rounded to single precision. *)
Definition file_bits (c : conversion) (s : sector) (m : mat D) (b k : nat) : Z :=
  narrow E (dmul E (nas_factor c s b k) (at_ m b k)).

(** What a medium does to a single-precision number between writing and reading back: a binary
    file keeps it, a text file prints it with "{:+16.7e}" and scans it. *)
Definition via_binary (x : Z) : Z := x.
Definition via_text (x : Z) : Z :=
  match scan_f E (WTxt (fmt_f E x)) with Some y => y | None => x end.

(** [r] is what reading back a sector written from [m] must give. *)
Definition reads_back (via : Z -> Z) (c : conversion) (s : sector) (m r : mat D) : Prop :=
  rows r = length (ss_states (s_bra s)) /\ cols r = length (ss_states (s_ket s))
  /\ (forall b k, held s b k -> at_ r b k = widen E (via (file_bits c s m b k)))
  /\ (forall b k, ~ held s b k -> at_ r b k = d0 E).

(** Same dimensions and same elements. *)
Definition mat_eq {A} (m1 m2 : mat A) : Prop :=
  rows m1 = rows m2 /\ cols m1 = cols m2
  /\ forall b k, b < rows m1 -> k < cols m1 -> at_ m1 b k = at_ m2 b k.

(** The number of elements a sector holds in a file (upper triangle of a diagonal sector, all
    elements of an off-diagonal one), counted element by element. *)
Definition count_held (s : sector) : nat :=
  length (filter (fun p : nat * nat => let '(b, k) := p in
                    negb (Nat.eqb (s_bi s) (s_ki s)) || Nat.leb b k)
                 (list_prod (seq 0 (length (ss_states (s_bra s))))
                            (seq 0 (length (ss_states (s_ket s)))))).

(** Total number of elements held in sectors with bra species [sp]. *)
Definition total_held (sp : species) (ss : list sector) : nat :=
  list_sum (map count_held (filter (fun s => species_eqb (ss_species (s_bra s)) sp) ss)).

(** Maximal J among the subspaces of a species (0 if there are none). *)
Definition max_J (sp : species) (space : list subspace) : Z :=
  fold_right Z.max 0%Z (map ss_J (filter (fun ss => species_eqb (ss_species ss) sp) space)).

(** The indexing objects handed to the constructor of an output stream belong together: spaces
    and sectors are those the basis library builds, in canonical form. *)
Record indexing_ok (ix : indexing E) : Prop := {
  iok_space : ix_space E ix = mk_space E (ix_ord E ix) (ix_p E ix) (ix_n E ix) (ix_w E ix);
  iok_sectors : ix_sectors E ix = mk_sectors E (ix_space E ix) (ix_J0 E ix) (ix_g0 E ix) (ix_Tz0 E ix);
  iok_canonical : Forall canonical_sector (ix_sectors E ix);
  iok_p : Forall (fun o => o_sp o = SP) (ix_p E ix);
  iok_n : Forall (fun o => o_sp o = SN) (ix_n E ix)
}.

(** A double that is exactly a single-precision number. *)
Definition single (x : D) : Prop := widen E (narrow E x) = x.

(** Header quantities fit their fields in the file. *)
Record header_fits (ix : indexing E) : Prop := {
  hf_n : Forall (fun o => in_i32 (o_n o) = true) (ix_p E ix ++ ix_n E ix);
  hf_l : Forall (fun o => in_i32 (o_l o) = true) (ix_p E ix ++ ix_n E ix);
  hf_j : Forall (fun o => in_i32 (o_2j o) = true) (ix_p E ix ++ ix_n E ix);
  hf_w : Forall (fun o => single (o_w o)) (ix_p E ix ++ ix_n E ix);
  hf_num : (4 * Z.of_nat (length (ix_p E ix) + length (ix_n E ix)) < two31)%Z;
  hf_J0 : in_i32 (ix_J0 E ix) = true;
  hf_g0 : in_i32 (ix_g0 E ix) = true;
  hf_Tz0 : in_i32 (ix_Tz0 E ix) = true;
  hf_wp : single (w_p (ix_w E ix));
  hf_wn : single (w_n (ix_w E ix));
  hf_wpp : single (w_pp (ix_w E ix));
  hf_wnn : single (w_nn (ix_w E ix));
  hf_wpn : single (w_pn (ix_w E ix))
}.

(** Text form of header quantities: every printed weight scans back to itself, orbital lines
    parse back to the orbitals. *)
Definition text_weight (x : D) : Prop :=
  exists y, scan_f E (WTxt (fmt_d E x)) = Some y /\ widen E y = x.
Record header_fits_text (f : format) (ix : indexing E) : Prop := {
  ht_orbs : parse_orbs E f (orb_lines E f (ix_p E ix ++ ix_n E ix)) = Ok (ix_p E ix ++ ix_n E ix);
  ht_lines : length (orb_lines E f (ix_p E ix ++ ix_n E ix)) = length (ix_p E ix ++ ix_n E ix);
  ht_nonblank : Forall (fun l => l <> []) (orb_lines E f (ix_p E ix ++ ix_n E ix));
  ht_num : (Z.of_nat (length (ix_p E ix) + length (ix_n E ix)) < two31 - 1)%Z;
  ht_J0 : in_i32 (ix_J0 E ix) = true;
  ht_g0 : in_i32 (ix_g0 E ix) = true;
  ht_Tz0 : in_i32 (ix_Tz0 E ix) = true;
  ht_wp : text_weight (w_p (ix_w E ix));
  ht_wn : text_weight (w_n (ix_w E ix));
  ht_wpp : text_weight (w_pp (ix_w E ix));
  ht_wnn : text_weight (w_nn (ix_w E ix));
  ht_wpn : text_weight (w_pn (ix_w E ix))
}.

(** Orbital labels (1-based, over all orbitals) of the states of a sector fit an int. *)
Definition labels_fit (num_p : nat) (s : sector) : Prop :=
  forall a b, In (a, b) (ss_states (s_bra s)) \/ In (a, b) (ss_states (s_ket s)) ->
    (Z.of_nat (num_p + a + 1) < two31 /\ Z.of_nat (num_p + b + 1) < two31)%Z.

(** Every element written prints as a number (it is finite). *)
Definition prints (c : conversion) (s : sector) (m : mat D) : Prop :=
  forall b k, held s b k -> exists y, scan_f E (WTxt (fmt_f E (file_bits c s m b k))) = Some y.

(** Number of elements of each type at most [n]. *)
Definition sizes_below (n : Z) (ss : list sector) : Prop :=
  forall sp, (Z.of_nat (total_held sp ss) <= n)%Z.

(** The floating point environment: the bits of a float are a 32-bit word, and [deqb] is
    equality. *)
Record env_ok : Prop := {
  eo_narrow : forall x, (0 <= narrow E x < two32)%Z;
  eo_eqb : forall x y, deqb E x y = true <-> x = y
}.

(** the writes 0, 1, 2, ... of a whole operator *)
Definition whole_operator (ws : list (mat D * conversion)) : list (nat * mat D * conversion) :=
  combine (combine (seq 0 (length ws)) (map fst ws)) (map snd ws).

(** matrices of the right dimensions with an allowed normalisation, one per sector *)
Definition fits_sector (s : sector) (w : mat D * conversion) : Prop :=
  rows (fst w) = length (ss_states (s_bra s)) /\ cols (fst w) = length (ss_states (s_ket s))
  /\ snd w <> CAny.
(** Version 15099 stores 2J as an int. *)
Definition Jmax_fits (ix : indexing E) : Prop :=
  forall sp, (2 * max_J sp (ix_space E ix) < 2147483648)%Z.

(** The spaces a version 0 file can describe: the oscillator orbitals and truncation generated
    from two integers N1max and N2max, scalar operators. *)
Record v0_scheme (ix : indexing E) : Prop := {
  v0_orb : osc_orbitals E (d_to_int E (w_p (ix_w E ix))) = (ix_p E ix, ix_n E ix);
  v0_w : osc_wmax E (d_to_int E (w_p (ix_w E ix))) (d_to_int E (w_pp (ix_w E ix))) = ix_w E ix;
  v0_N1 : in_i32 (d_to_int E (w_p (ix_w E ix))) = true;
  v0_N2 : in_i32 (d_to_int E (w_pp (ix_w E ix))) = true;
  v0_J0 : ix_J0 E ix = 0%Z; v0_g0 : ix_g0 E ix = 0%Z; v0_Tz0 : ix_Tz0 E ix = 0%Z
}.

(** Fortran records of matrix elements (versions 0 and 15099, binary) have a length in bytes
    below the maximum the code allows. *)
Definition record_fits (f : format) (ix : indexing E) : Prop :=
  match f with
  | V15200 => True
  | _ => forall sp, (4 * Z.of_nat (total_held sp (ix_sectors E ix)) < 2147483639)%Z
  end.

(** What a file format can hold in binary mode: the two-body space ordering it prescribes,
    header quantities and counts in the range of its fields; version 15099 holds only charge
    conserving operators, version 0 only operators with diagonal sectors. *)
Definition scheme (f : format) (ix : indexing E) : Prop :=
  match f with
  | V0 => ix_ord E ix = KPN /\ v0_scheme ix /\ sizes_below (two31 - 1) (ix_sectors E ix)
          /\ Forall (fun s => s_bi s = s_ki s) (ix_sectors E ix)
  | V15099 => ix_ord E ix = KPN /\ header_fits ix /\ ix_Tz0 E ix = 0%Z /\ Jmax_fits ix
              /\ sizes_below (two31 - 1) (ix_sectors E ix)
  | V15200 => ix_ord E ix = KTz /\ header_fits ix /\ sizes_below (two63 - 1) (ix_sectors E ix)
              /\ weight_max_of E (ix_p E ix) = w_p (ix_w E ix)
              /\ weight_max_of E (ix_n E ix) = w_n (ix_w E ix)
  end.

(** The same for text mode. *)
Definition text_scheme (f : format) (ix : indexing E) : Prop :=
  match f with
  | V0 => ix_ord E ix = KPN /\ v0_scheme ix /\ sizes_below (two31 - 1) (ix_sectors E ix)
          /\ Forall (fun s => s_bi s = s_ki s) (ix_sectors E ix)
  | V15099 => ix_ord E ix = KPN /\ header_fits_text V15099 ix /\ ix_Tz0 E ix = 0%Z /\ Jmax_fits ix
              /\ sizes_below (two31 - 1) (ix_sectors E ix)
  | V15200 => ix_ord E ix = KTz /\ header_fits_text V15200 ix
              /\ single (w_p (ix_w E ix)) /\ single (w_n (ix_w E ix))
              /\ sizes_below (two63 - 1) (ix_sectors E ix)
              /\ weight_max_of E (ix_p E ix) = w_p (ix_w E ix)
              /\ weight_max_of E (ix_n E ix) = w_n (ix_w E ix)
  end.
(** ** Fortran records: the payload between two equal 4-byte lengths *)
Definition fortran_record (payload : list Z) : list Z :=
  enc32 (Z.of_nat (length payload)) ++ payload ++ enc32 (Z.of_nat (length payload)).

(** The elements a sector holds, in the order of the file (row by row). *)
Definition held_list (s : sector) : list (nat * nat) :=
  filter (fun p : nat * nat => let '(b, k) := p in
            negb (Nat.eqb (s_bi s) (s_ki s)) || Nat.leb b k)
         (list_prod (seq 0 (length (ss_states (s_bra s))))
                    (seq 0 (length (ss_states (s_ket s))))).
(** The single-precision words stored for a sector. *)
Definition sector_words (s : sector) (w : mat D * conversion) : list Z :=
  map (fun p => file_bits (snd w) s (fst w) (fst p) (snd p)) (held_list s).
(** The words stored for all sectors of a species. *)
Definition species_words (sp : species) (ss : list sector) (ws : list (mat D * conversion)) : list Z :=
  flat_map (fun p => if species_eqb (ss_species (s_bra (fst p))) sp
                     then sector_words (fst p) (snd p) else []) (combine ss ws).

(** The sectors come in groups of one species each, different groups having different species
    (the order pp, nn, pn of the space ordering kPN). *)
Definition grouped (groups : list (species * list sector)) (ss : list sector) : Prop :=
  ss = concat (map snd groups) /\ NoDup (map fst groups)
  /\ Forall (fun g => snd g <> [] /\
       Forall (fun s => ss_species (s_bra s) = fst g /\ ss_species (s_ket s) = fst g) (snd g)) groups.

(** ** Labels of a line in a text file *)

(** Label of an orbital: position counted from 1 among the orbitals of its species (versions 0
    and 15099) or among all orbitals, protons first (version 15200). *)
Definition orbital_label (f : format) (num_p : nat) (sp : ospecies) (a : nat) : Z :=
  match f, sp with
  | V15200, SN => Z.of_nat (num_p + a + 1)
  | _, _ => Z.of_nat (a + 1)
  end.
Definition species1 (sp : species) : ospecies := match sp with NN => SN | _ => SP end.
Definition species2 (sp : species) : ospecies := match sp with PP => SP | _ => SN end.
(** 11, 22, 12 for pp, nn, pn *)
Definition species_number (sp : species) : Z :=
  match sp with PP => 11 | NN => 22 | PN => 12 end%Z.

(** The labels that a line for element (b,k) of a sector carries in front of the value. *)
Definition element_labels (f : format) (num_p : nat) (s : sector) (b k : nat) : list Z :=
  let bra := s_bra s in let ket := s_ket s in
  let '(a1, a2) := nth b (ss_states bra) (0, 0) in
  let '(a3, a4) := nth k (ss_states ket) (0, 0) in
  [orbital_label f num_p (species1 (ss_species bra)) a1;
   orbital_label f num_p (species2 (ss_species bra)) a2;
   orbital_label f num_p (species1 (ss_species ket)) a3;
   orbital_label f num_p (species2 (ss_species ket)) a4]
  ++ match f with
     | V15200 => [2 * ss_J bra; 2 * ss_J ket]%Z
     | V15099 => [2 * ss_J bra; 2 * ss_J ket; species_number (ss_species ket)]%Z
     | V0 => [2 * ss_J ket; species_number (ss_species ket)]%Z
     end.

(** Line [l] carries the labels of element (b,k) followed by a word that scans as [x]. *)
Definition line_carries (f : format) (num_p : nat) (s : sector) (b k : nat)
    (l : list (word (txt E))) (x : Z) : Prop :=
  exists w rest, l = map WInt (element_labels f num_p s b k) ++ w :: rest /\ scan_f E w = Some x.

(** Twice the angular momenta of a sector fit an int. *)
Definition J_fits (s : sector) : Prop :=
  in_i32 (2 * ss_J (s_bra s)) = true /\ in_i32 (2 * ss_J (s_ket s)) = true.

(** Lines that are neither blank nor comments. *)
Definition nonblank (ls : list (list (word (txt E)))) : list (list (word (txt E))) :=
  filter (fun l => match l with [] => false | _ => true end) ls.

(** ** Header fields that announce the numbers of elements, per format *)
Definition size_fields (f : format) (ss : list sector) : list Z :=
  let n sp := Z.of_nat (total_held sp ss) in
  match f with
  | V15200 => enc64 (n PP) ++ enc64 (n PN) ++ enc64 (n NN)
  | V15099 => fortran_record (enc32 (n PP) ++ enc32 (n NN) ++ enc32 (n PN))
  | V0 => enc32 (n PP) ++ enc32 (n PN) ++ enc32 20
  end.
Definition size_words (f : format) (ss : list sector) : list (word (txt E)) :=
  let n sp := WInt (Z.of_nat (total_held sp ss)) in
  match f with
  | V15200 => [n PP; n PN; n NN]
  | V15099 => [n PP; n NN; n PN]
  | V0 => [n PP; n PN]
  end.

(** ** Names, versions, order of writing *)
(** a file name ends with the given characters *)
Definition ends_with (suf name : string) : Prop := exists b, name = (b ++ suf)%string.
(** format numbers the library supports *)
Definition supported (v : Z) : Prop := (v = 0 \/ v = 15099 \/ v = 15200)%Z.
(** the writes of a history are those of sectors 0, 1, 2, ... with matrices of their dimensions *)
Definition in_order (ix : indexing E) (h : list (nat * mat D * conversion)) : Prop :=
  map (fun w => fst (fst w)) h = seq 0 (length h) /\ length h <= length (ix_sectors E ix)
  /\ Forall2 (fun s w => fits_sector s (snd (fst w), snd w)) (firstn (length h) (ix_sectors E ix)) h.
End Spec.
