(** What h2mixer computes, from the statements of its control file. *)
From Coq Require Import String List ZArith Reals Bool.
From Verif Require Import Base RMat H2Model MapModel MapSpec XformModel XformSpec SepModel SepSpec XformStates OscModel BlockModel BlockSpec ObioModel MixModel MixSpec ObmModel ObmSpec NatModel RgModel HmModel HmSpec HmOspec.
Import ListNotations.
Open Scope R_scope.
Open Scope string_scope.

Section Final.
Variable d : disk.
Variable oscillator_orbitals : Z -> list (oinfo R).
Variable mk_space : list (oinfo R) -> weights -> Z -> list subspace.
Variable mk_sectors : list subspace -> qn -> list sector.
Variable sts : list statement.

(** the orbitals within the one-body truncation of their species, in the order of the file *)
Definition within (w : weights) (o : oinfo R) : Prop := oi_w o <= match ll_sp (oi_lab o) with SP => wm_p w | SN => wm_n w end.
Inductive truncated (w : weights) : list (oinfo R) -> list (oinfo R) -> Prop :=
| tr_nil : truncated w [] []
| tr_keep : forall o l l', within w o -> truncated w l l' -> truncated w (o :: l) (o :: l')
| tr_drop : forall o l l', ~ within w o -> truncated w l l' -> truncated w (o :: l) l'.
Definition the_q : qn := or_else (last_of q_of_statement sts) (0, 0, 0)%Z.
Definition the_format : Z := or_else (last_of format_of sts) 0%Z.
Definition the_cutoff : Z := or_else (last_of cutoff_of sts) (-1)%Z.
Definition the_file : string := or_else (last_of orbitals_of sts) "".
(** the target: oscillator orbitals once any cutoff that is not negative is the last one given, otherwise those of the file *)
Record setting (os : list (oinfo R)) (tgt : tindex) : Prop := Setting {
  set_format : In the_format [0; 15099; 15200]%Z;
  set_weights : exists w, last_of weights_of sts = Some w
    /\ (((0 <= the_cutoff)%Z /\ os = oscillator_orbitals the_cutoff)
        \/ ((the_cutoff < 0)%Z /\ exists all, d_orbitals d the_file = Some all /\ truncated w all os))
    /\ ti_space tgt = mk_space os w the_format;
  set_sectors : ti_sectors tgt = mk_sectors (ti_space tgt) the_q;
  set_q : ti_q tgt = the_q;
  set_orbitals : ti_orb tgt = fun s => map (fun o => OL (oi_n o) (ll_l (oi_lab o)) (ll_2j (oi_lab o))) (filter (fun o => osp_eqb (ll_sp (oi_lab o)) s) os) }.
(** transformations: the file of the first definition of a name *)
Definition xform_of (id : string) : option obfile := match first_of (xform_named id) sts with Some file => d_ob d file | None => None end.
Definition xforms_fine : Prop := forall id file, first_of (xform_named id) sts = Some file -> exists f, d_ob d file = Some f /\ of_q f = (0, 0, 0)%Z.
Definition the_channels : list ob_source := map with_terms (sections ob_of ob_term_of sts).
Definition tb_id (s : tb_source) : string :=
  match s with TInput id _ | TBuiltin id | TOperatorU id _ | TOperatorV id _ _ _ | TXform id _ _ _ => id end.

(** the elements of an operator, by the orbitals *)
Definition at_orbital (sp : lspace) (I i : nat) (x : orb) : Prop :=
  orbital_at sp I i (LL (o_sp x) (ol_l (o_lab x)) (ol_2j (o_lab x))) (ol_n (o_lab x)).
Definition represents (sp : lspace) (q : qn) (f : nat -> nat -> nat -> nat -> R) (op : SepModel.obop) : Prop :=
  (SepModel.ob_J0 op, SepModel.ob_g0 op, SepModel.ob_Tz0 op) = q
  /\ forall x y, (forall I i K k, at_orbital sp I i x -> at_orbital sp K k y -> SepModel.ob_me op x y = f I i K k)
     /\ ((forall I i, ~ at_orbital sp I i x) \/ (forall K k, ~ at_orbital sp K k y) -> SepModel.ob_me op x y = 0).

(** the overlaps given by a file: its elements between orbitals with the same species, l and j, zero for orbitals it does not have *)
Definition overlaps_in (f : obfile) (u : orb -> orb -> R) : Prop :=
  forall x y, (forall I i K k, same_slj x y -> at_orbital (of_bra f) I i x -> at_orbital (of_ket f) K k y -> u x y = file_entry f I i K k)
  /\ (~ same_slj x y \/ (forall I i, ~ at_orbital (of_bra f) I i x) \/ (forall K k, ~ at_orbital (of_ket f) K k y) -> u x y = 0).

Variable F1 F2 : factor1.
Variable F12 : factor12.
Variable env : list (string * opval).
Variable tgt : tindex.
(** what a two-body source contributes to element (a,b) of a sector *)
Inductive worth (ts : sector) (a b : nat) : tb_source -> R -> Prop :=
| worth_input : forall id file h x, d_h2 d file = Some h -> labelled (h_file h) tgt ts a b x -> worth ts a b (TInput id file) x
| worth_identity : forall A x, last_of mass_of sts = Some A -> IZR (A * (A - 1)) / 2 * x = (if Nat.eqb a b then 1 else 0) ->
    worth ts a b (TBuiltin "identity") x
| worth_U : forall id ob sp f op A x, assoc env ob = Some (sp, the_q, f) -> last_of mass_of sts = Some A -> represents sp the_q f op ->
    (forall c d p r, orbs_of (ti_orb tgt) (s_bra ts) a (c, d) -> orbs_of (ti_orb tgt) (s_ket ts) b (p, r) ->
      x = / IZR (A - 1) * (nfactor c d * nfactor p r *
            antisymmetrised (sum_of_both F1 F2 op (ss_J (s_bra ts)) (ss_J (s_ket ts))) c d (ss_J (s_bra ts)) p r (ss_J (s_ket ts)))) ->
    worth ts a b (TOperatorU id ob) x
| worth_V : forall id o1 o2 scale sp1 q1 f1 op1 sp2 q2 f2 op2 x, assoc env o1 = Some (sp1, q1, f1) -> assoc env o2 = Some (sp2, q2, f2) ->
    represents sp1 q1 f1 op1 -> represents sp2 q2 f2 op2 ->
    (forall c d p r, orbs_of (ti_orb tgt) (s_bra ts) a (c, d) -> orbs_of (ti_orb tgt) (s_ket ts) b (p, r) ->
      x = nfactor c d * nfactor p r *
          antisymmetrised (product_of_both F12 op1 op2 (rank the_q) (ss_J (s_bra ts)) (ss_J (s_ket ts))) c d (ss_J (s_bra ts)) p r (ss_J (s_ket ts)) * scale) ->
    worth ts a b (TOperatorV id o1 o2 scale) x
| worth_xform : forall id file w xf h f u ps nb nk p bras kets ab cd x, d_h2 d file = Some h -> xform_of xf = Some f -> overlaps_in f u ->
    In ps (ti_sectors (h_pre h w the_q)) -> same_sector ps ts -> nb = length (ss_states (s_bra ps)) -> nk = length (ss_states (s_ket ps)) ->
    (forall i j, (i < nb)%nat -> (j < nk)%nat -> labelled (h_file h) (h_pre h w the_q) ps i j (p i j)) ->
    (forall i, (i < nb)%nat -> orbs_of (ti_orb (h_pre h w the_q)) (s_bra ps) i (bras i)) -> (forall j, (j < nk)%nat -> orbs_of (ti_orb (h_pre h w the_q)) (s_ket ps) j (kets j)) ->
    orbs_of (ti_orb tgt) (s_bra ts) a ab -> orbs_of (ti_orb tgt) (s_ket ts) b cd ->
    x = rsum nb (fun i => rsum nk (fun j => state_overlap u (bras i) ab (ss_J (s_bra ps)) * p i j * state_overlap u (kets j) cd (ss_J (s_ket ps)))) ->
    worth ts a b (TXform id file w xf) x
| worth_xform_none : forall id file w xf h, d_h2 d file = Some h -> (forall ps, In ps (ti_sectors (h_pre h w the_q)) -> ~ same_sector ps ts) ->
    worth ts a b (TXform id file w xf) 0.
(** the sources whose elements are given above exist and fit the target *)
Definition usable (s : tb_source) : Prop :=
  match s with
  | TInput _ file => exists h, d_h2 d file = Some h /\ MixSpec.file_ok (h_file h)
  | TBuiltin id => id = "identity" /\ (exists A, last_of mass_of sts = Some A /\ (2 <= A /\ A * (A - 1) < two31)%Z) /\ forall ts, In ts (ti_sectors tgt) -> s_bi ts = s_ki ts
  | TOperatorU _ ob => exists sp f A, assoc env ob = Some (sp, the_q, f) /\ distinct_labels sp /\ distinct_n sp
      /\ last_of mass_of sts = Some A /\ (A <> 1 /\ - two31 <= A - 1 < two31)%Z
  | TOperatorV _ o1 o2 _ => exists sp q1 f1 q2 f2, assoc env o1 = Some (sp, q1, f1) /\ assoc env o2 = Some (sp, q2, f2) /\ distinct_labels sp /\ distinct_n sp
      /\ product_qn q1 q2 the_q /\ (rank q1 = rank q2 -> exchange_symmetric F12 (rank q1) (rank the_q))
  | TXform _ file w xf => exists h f, d_h2 d file = Some h /\ MixSpec.file_ok (h_file h) /\ index_ok (h_pre h w the_q)
      /\ (forall ps, In ps (ti_sectors (h_pre h w the_q)) -> states_ok (ti_orb (h_pre h w the_q)) (s_bra ps) /\ states_ok (ti_orb (h_pre h w the_q)) (s_ket ps))
      /\ (forall ts, In ts (ti_sectors tgt) -> states_ok (ti_orb tgt) (s_bra ts) /\ states_ok (ti_orb tgt) (s_ket ts))
      /\ xform_of xf = Some f /\ distinct_labels (of_bra f) /\ distinct_n (of_bra f) /\ distinct_labels (of_ket f) /\ distinct_n (of_ket f)
  end.
Record target_fine : Prop := TargetFine {
  tf_index : index_ok tgt;
  tf_half : orbitals_half (ti_orb tgt);
  tf_sectors : forall ts, In ts (ti_sectors tgt) -> in_range (ti_orb tgt) (s_bra ts) /\ in_range (ti_orb tgt) (s_ket ts) /\ tri_ok (ss_J (s_bra ts)) (ss_J (s_ket ts)) (rank the_q) }.
End Final.
