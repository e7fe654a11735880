(** Vocabulary for C34-C37, C58-C61: what files say, independent of how they are read. *)
From Coq Require Import List ZArith Reals Bool Ascii.
From Verif Require Import Base RMat H2Model MapModel OscModel OscSpec BlockModel BlockSpec ObioModel.
Import ListNotations.
Open Scope R_scope.

Section Obme.
Variable E : oenv.
Notation D := (oD E).

(** the value that the printed form of a (chopped) element stands for *)
Definition printed (x : D) : D := match o_scan E (TNum (o_fmt E (o_chop E x))) with Some y => y | None => x end.
Definition prints_as_number (x : D) : Prop := exists y, o_scan E (TNum (o_fmt E (o_chop E x))) = Some y.
(** orbitals of a space survive their text form: one non-blank line per orbital, parsed back to the orbitals *)
Definition orbital_text_ok (s : wspace D) : Prop :=
  o_parse E (o_orb_lines E (orbital_info s)) = Ok (orbital_info s)
  /\ length (o_orb_lines E (orbital_info s)) = length (orbital_info s)
  /\ Forall (fun l => l <> []) (o_orb_lines E (orbital_info s)).
(** an operator on spaces and sectors built by the basis library, with header quantities that fit their fields *)
Record obme_ok (o : obme E) : Prop := {
  bo_bra : exists os, ob_bra E o = mk_wspace os;
  bo_ket : exists os, ob_ket E o = mk_wspace os;
  bo_sectors : ob_sectors E o = mk_lsectors (o_allowed E) (forget (ob_bra E o)) (forget (ob_ket E o)) (ob_J0 E o) (ob_g0 E o) (ob_Tz0 E o);
  bo_type : exists c, ob_type E o = Some c;
  bo_J0 : in_i32 (ob_J0 E o) = true; bo_g0 : in_i32 (ob_g0 E o) = true; bo_Tz0 : in_i32 (ob_Tz0 E o) = true;
  bo_nb : (Z.of_nat (length (orbital_info (ob_bra E o))) < two31)%Z;
  bo_nk : (Z.of_nat (length (orbital_info (ob_ket E o))) < two31)%Z;
  bo_bra_text : orbital_text_ok (ob_bra E o);
  bo_ket_text : orbital_text_ok (ob_ket E o)
}.
(** a block has the dimensions of its sector *)
Definition block_fits (o : obme E) (x : nat * nat) (m : mat D) : Prop :=
  rows m = sub_dim (forget (ob_bra E o)) (fst x) /\ cols m = sub_dim (forget (ob_ket E o)) (snd x).
Definition block_prints (m : mat D) : Prop := forall i j, (i < rows m)%nat -> (j < cols m)%nat -> prints_as_number (at_ m i j).
(** [m'] holds the printed values of [m] *)
Definition printed_block (m m' : mat D) : Prop :=
  rows m' = rows m /\ cols m' = cols m /\ forall i j, (i < rows m)%nat -> (j < cols m)%nat -> at_ m' i j = printed (at_ m i j).
(** lines with words *)
Definition text_lines {T} (ls : list (list (tok T))) : nat := length (filter (fun l => negb (is_nil l)) ls).
End Obme.

(** * Densities *)
(** state (P,p) of a space carries the labels [o] *)
Definition carries (sp : lspace) (o : flab) (P p : nat) : Prop :=
  exists s x, fl_sp o = Some s /\ nth_error sp P = Some x /\ fst x = LL s (fl_l o) (fl_2j o) /\ nth_error (snd x) p = Some (fl_n o).
(** element of the multipole J0 of a density between two states *)
Definition density_entry (d : density) (J0 : Z) (P p Q q : nat) : R :=
  match nth_error (de_sectors d) (Z.to_nat (J0 - de_min d)), nth_error (de_blocks d) (Z.to_nat (J0 - de_min d)) with
  | Some s, Some m => entry s m P p Q q
  | _, _ => 0
  end.
(** an element with labels of the space that the selection rules allow *)
Definition located (allowed : Z -> Z -> Z -> llabel -> llabel -> bool) (sp : lspace) (J0_min J0_max g0 Tz0 : Z) (b k : flab) (J0 : Z) : Prop :=
  (J0_min <= J0 <= J0_max)%Z
  /\ exists P p Q q, carries sp b P p /\ carries sp k Q q /\ In (P, Q) (mk_lsectors allowed sp sp J0 g0 Tz0).
(** subspaces with distinct labels, states with distinct n *)
Definition space_ok (sp : lspace) : Prop := distinct_labels sp /\ Forall (fun x => NoDup (snd x)) sp.
(** storage of the right shape *)
Definition density_ok (allowed : Z -> Z -> Z -> llabel -> llabel -> bool) (sp : lspace) (g0 Tz0 : Z) (d : density) : Prop :=
  de_sectors d = map (fun J0 => mk_lsectors allowed sp sp J0 g0 Tz0) (zrange (de_min d) (de_max d))
  /\ Forall2 (op_ok sp sp) (de_sectors d) (de_blocks d).
