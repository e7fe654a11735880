(** Defects and cases for C126-C130. *)
From Coq Require Import String List ZArith Reals Bool Lra Lia FunctionalExtensionality.
From Verif Require Import Base BaseLemmas RMat H2Model MapModel MapSpec XformModel XformSpec SepModel SepSpec XformStates OscModel BlockModel BlockSpec BlockProof
  ObioModel MixModel MixSpec MixProof MixFinal ObmModel ObmSpec ObmProof NatModel RgModel HmModel HmSpec HmOspec HmProof HmMeans HmFspec HmOb HmFinal.
Import ListNotations.
Open Scope R_scope.
Open Scope string_scope.
Open Scope outcome_scope.

(** ** C127: the control file *)
Definition tx (s : string) : word := Word s None None.
Definition iw (s : string) (z : Z) : word := Word s (Some z) (Some (IZR z)).
Theorem xform_without_file_refuted : exists line c, (exists k i, cl_words line = [k; i] /\ w_text k = "define-xform" /\ w_text i = "a") /\ read_control [line] = Ok c /\ assoc (c_xforms c) "a" = Some "".
Proof. exists (CLine [tx "define-xform"; tx "a"] false). eexists. split; [exists (tx "define-xform"), (tx "a"); auto|]. split; reflexivity. Qed.
Theorem xform_twice : forall lines sts c id f1 pre mid f2 post, Forall2 says lines sts -> sts = (pre ++ DefXform id f1 :: mid ++ DefXform id f2 :: post)%list -> (forall f, ~ In (DefXform id f) pre) ->
  read_control lines = Ok c -> assoc (c_xforms c) id = Some f1.
Proof.
  intros lines sts c id f1 pre mid f2 post S E N H. destruct (control_inv _ _ H) as (sts' & S' & _ & M).
  assert (sts' = sts) as ->.
  { clear - S S'. revert sts' S'. induction S as [|x s l m Hs S IH]; intros sts' S'; inversion S' as [|x' s' l' m' Hs' S'']; subst; [reflexivity|]. f_equal; [exact (says_one _ _ _ Hs' Hs)|exact (IH _ S'')]. }
  rewrite (m_xforms _ _ M), E. clear - N. induction pre as [|s pre IH]; cbn; [rewrite String.eqb_refl; reflexivity|].
  destruct (xform_named id s) as [f|] eqn:Ex; [|apply IH; intros f Hf; exact (N f (or_intror Hf))]. exfalso. destruct s; try discriminate. cbn in Ex. destruct (String.eqb_spec id0 id) as [->|]; [|discriminate].
  exact (N file (or_introl eq_refl)).
Qed.
Theorem xform_twice_refuted : exists l1 l2 c, says l1 (DefXform "a" "old.dat") /\ says l2 (DefXform "a" "new.dat") /\ read_control [l1; l2] = Ok c /\ assoc (c_xforms c) "a" = Some "old.dat".
Proof.
  exists (CLine [tx "define-xform"; tx "a"; tx "old.dat"] false), (CLine [tx "define-xform"; tx "a"; tx "new.dat"] false). eexists. split; [|split; [|split; [reflexivity|reflexivity]]].
  - exact (say_xform (tx "define-xform") (tx "a") (tx "old.dat") [] false eq_refl).
  - exact (say_xform (tx "define-xform") (tx "a") (tx "new.dat") [] false eq_refl).
Qed.
(** nothing after the last mandatory word, but a blank at the end of the line *)
Theorem blank_refused : forall l1 l2 sts k s i a b j,  Forall2 says l1 sts -> placed sts ->
  let ends ws := read_control (l1 ++ CLine ws true :: l2) = Exit in
  (w_text k = "define-ob-source" -> w_text s = "builtin" -> ends [k; s; i])
  /\ (w_text k = "define-ob-source" -> w_text s = "tensor-product" -> ends [k; s; i; a; b; j])
  /\ (w_text k = "define-tb-source" -> w_text s = "operatorV" -> ends [k; s; i; a; b]).
Proof.
  intros l1 l2 sts k s i a b j S P. cbn zeta. destruct (control_ok l1 sts S P) as (c & E & _). destruct c as [cut orbs w q A fmt xs ob tb tg].
  split; [|split]; intros Hk Hs; (rewrite (read_app _ _ l2 _ E); cbn [read_line cl_words next_text bind cl_blank]; rewrite Hk; cbn; rewrite Hs; cbn; [|]); try reflexivity; try discriminate.
  all: destruct (w_int j); cbn; try reflexivity; discriminate.
Qed.
Theorem blank_refuted : exists ws c, read_control [CLine ws false] = Ok c /\ read_control [CLine ws true] = Exit.
Proof. exists [tx "define-ob-source"; tx "builtin"; tx "l2"]. eexists. split; reflexivity. Qed.

(** ** C128: target *)
Section Target.
Variable d : disk.
Variable oscillator_orbitals : Z -> list (oinfo R).
Variable mk_space : list (oinfo R) -> weights -> Z -> list subspace.
Variable mk_sectors : list subspace -> qn -> list sector.
Notation target_index := (target_index d oscillator_orbitals mk_space mk_sectors).
Notation setting := (setting d oscillator_orbitals mk_space mk_sectors).
Theorem target_iff : forall c sts os tgt, means c sts -> (target_index c = Ok (os, tgt) <-> setting sts os tgt).
Proof. intros c sts os tgt M. split; [apply target_inv; exact M|apply target_ok; exact M]. Qed.
(** an orbital file does not replace an oscillator basis, but its truncation does *)
Theorem target_mixed : forall sts os tgt tb N file w, setting (sts ++ [Oscillator tb N; Indexing file w])%list os tgt -> (0 <= N)%Z -> os = oscillator_orbitals N /\ ti_space tgt = mk_space os w (the_format sts).
Proof.
  intros sts os tgt tb N file w [_ (w' & W & H & E) _ _ _] HN. change [Oscillator tb N; Indexing file w] with ([Oscillator tb N] ++ [Indexing file w])%list in *. rewrite app_assoc in *.
  unfold the_cutoff, the_format in *. rewrite !last_of_snoc in *. cbn in *. injection W as <-. destruct H as [[_ H]|[H _]]; [|lia]. split; [exact H|exact E].
Qed.
Theorem no_indexing : forall c sts, means c sts -> In (the_format sts) [0; 15099; 15200]%Z -> (forall s, In s sts -> cutoff_of s = None /\ orbitals_of s = None) -> d_orbitals d "" = None -> target_index c = Exit.
Proof.
  intros c sts M F N D. apply (target_refused d oscillator_orbitals mk_space mk_sectors c sts M). right. unfold the_cutoff, the_file.
  assert (last_of cutoff_of sts = None) as -> by (destruct (last_of cutoff_of sts) eqn:E; [|reflexivity]; apply last_in in E; destruct E as (st & Hst & E); destruct (N st Hst); congruence).
  assert (last_of orbitals_of sts = None) as -> by (destruct (last_of orbitals_of sts) eqn:E; [|reflexivity]; apply last_in in E; destruct E as (st & Hst & E); destruct (N st Hst); congruence).
  split; [reflexivity|exact D].
Qed.
End Target.

(** ** C129: one-body channels *)
Section Channels.
Variable d : disk.
Variable spline : spline_me.
Variable crme : Z -> Z -> Z -> Z -> Z -> R.
Variable am_rme : am_type -> Z -> Z -> Z -> Z -> R.
Variable inv_sqrt_4pi : R.
Variable racah : Z -> Z -> Z -> Z -> Z -> Z -> R.
Notation construct := (construct d spline crme am_rme inv_sqrt_4pi racah).
Theorem input_refused : forall tsp xs id file q ops,
  (assoc ops id <> None -> construct tsp xs (OInput id file q) ops = Exit)
  /\ (d_ob d file = None -> construct tsp xs (OInput id file q) ops = Exit)
  /\ (forall f, assoc ops id = None -> d_ob d file = Some f -> of_q f <> q -> construct tsp xs (OInput id file q) ops = AssertFail).
Proof.
  intros tsp xs id file q ops. cbn [HmModel.construct]. unfold h2_input_channel. split; [|split].
  - intros H. destruct (assoc ops id); [reflexivity|contradiction].
  - intros H. destruct (assoc ops id); [reflexivity|]. rewrite H. reflexivity.
  - intros f Hno H Hq. rewrite Hno, H. cbn [open_file bind]. destruct (q_eqb q (of_q f)) eqn:E; [|reflexivity]. exfalso. apply Hq.
    unfold q_eqb in E. destruct q as [[x y] z]. destruct (of_q f) as [[x' y'] z']. rewrite !andb_true_iff, !Z.eqb_eq in E. destruct E as [[-> ->] ->]. reflexivity.
Qed.
Theorem builtin_refused : forall tsp xs id file ops, assoc ops id <> None \/ (file <> "" /\ d_orbitals d file = None) -> construct tsp xs (OBuiltin id file) ops = Exit.
Proof.
  intros tsp xs id file ops H. cbn [HmModel.construct]. unfold h2_builtin_channel. destruct (assoc ops id); [reflexivity|]. destruct H as [H|[H1 H2]]; [contradiction|].
  apply String.eqb_neq in H1. rewrite H1, H2. reflexivity.
Qed.
(** a file of an operator between different spaces is taken for one on the ket space *)
Theorem two_spaces : forall tsp xs id file f ops, assoc ops id = None -> d_ob d file = Some f ->
  construct tsp xs (OInput id file (of_q f)) ops = Ok ((id, data_of (of_ket f) (of_q f) (sectors_of (of_ket f) (of_ket f) (of_q f)) (of_blocks f)) :: ops).
Proof. intros tsp xs id file f ops Hno H. cbn [HmModel.construct]. unfold h2_input_channel. rewrite Hno, H. cbn [open_file bind]. rewrite q_eqb_refl. cbn [cassert bind]. unfold add_new. rewrite Hno. reflexivity. Qed.
(** a linear combination without terms is accepted; using it is undefined *)
Theorem no_terms : forall tsp xs id ops, assoc ops id = None -> exists od, construct tsp xs (OLinear id []) ops = Ok ((id, od) :: ops)
  /\ forall c xs' tgt id2, tb_channel d c xs' ((id, od) :: ops) tgt (TOperatorU id2 id) = UB.
Proof.
  intros tsp xs id ops Hno. exists ob_default. split; [cbn [HmModel.construct]; unfold linear_combination; rewrite Hno; reflexivity|]. intros c xs' tgt id2. unfold tb_channel. destruct (c_q c) as [[J0 g0] Tz0].
  unfold HmModel.set_q. cbn [assoc]. rewrite String.eqb_refl. reflexivity.
Qed.
End Channels.
(** p3/2 and s1/2 bra, p3/2 ket: the block of the p3/2 is number 0 of the file *)
Definition s1 : llabel := LL SP 0 1.
Definition p3 : llabel := LL SP 1 3.
Definition two_file (x : R) : obfile := ObFile [(s1, [0%Z]); (p3, [0%Z])] [(p3, [0%Z])] (0, 0, 0)%Z [(1, 0)]%nat [Mat 1 1 (fun _ _ => x)].
Definition only_ob (f : obfile) : disk := Disk (fun _ => None) (fun n => if String.eqb n "op.dat" then Some f else None) (fun _ => None).
Theorem two_spaces_refuted : forall spline crme am_rme inv racah tsp xs x, of_bra (two_file x) <> of_ket (two_file x)
  /\ op_ok (of_bra (two_file x)) (of_ket (two_file x)) (of_sectors (two_file x)) (of_blocks (two_file x))
  /\ exists ops, construct (only_ob (two_file x)) spline crme am_rme inv racah tsp xs (OInput "O" "op.dat" (0, 0, 0)%Z) [] = Ok ops
     /\ holds ops "O" [(p3, [0%Z])] (0, 0, 0)%Z (fun _ _ _ _ => x).
Proof.
  intros spline crme am_rme inv racah tsp xs x. split; [discriminate|]. split.
  - split; [constructor; [intros []|constructor]|]. constructor; [cbn; repeat split; lia|constructor].
  - eexists. split; [exact (two_spaces (only_ob (two_file x)) spline crme am_rme inv racah tsp xs "O" "op.dat" (two_file x) [] eq_refl eq_refl)|].
    exists [(0, 0)]%nat, [Mat 1 1 (fun _ _ => x)]. split; [reflexivity|]. split.
    + split; [|reflexivity]. split; [constructor; [intros []|constructor]|]. constructor; [cbn; repeat split; lia|constructor].
    + intros I i K k [H1 _] [H2 _]. cbn in H1, H2. assert (I = 0%nat) as -> by lia. assert (K = 0%nat) as -> by lia. reflexivity.
Qed.

(** ** a control file, from its lines to its target *)
Definition case_lines : list cline :=
  [CLine [tx "set-target-indexing"; tx "orbitals.dat"; iw "2" 2; iw "2" 2; iw "4" 4; iw "4" 4; iw "4" 4] false;
   CLine [tx "set-mass"; iw "2" 2] true;
   CLine [tx "define-ob-source"; tx "builtin"; tx "identity"] false;
   CLine [tx "define-ob-source"; tx "builtin"; tx "l2"] false;
   CLine [tx "define-ob-source"; tx "linear-combination"; tx "sum"] false;
   CLine [tx "add-ob-source"; tx "identity"; iw "3" 3] false;
   CLine [tx "add-ob-source"; tx "l2"; iw "-1" (-1)] false;
   CLine [tx "define-tb-source"; tx "operatorU"; tx "U"; tx "sum"] false;
   CLine [tx "define-tb-source"; tx "input"; tx "V"; tx "v.bin"] false;
   CLine [tx "define-tb-source"; tx "builtin"; tx "identity"] false;
   CLine [tx "define-target"; tx "h.bin"] false;
   CLine [tx "add-source"; tx "V"; iw "3" 3] false;
   CLine [tx "add-source"; tx "identity"; iw "2" 2; tx "#"; tx "extra"] false].
Definition case_weights : weights := WMax (IZR 2) (IZR 2) (IZR 4) (IZR 4) (IZR 4).
Definition case_sts : list statement :=
  [Indexing "orbitals.dat" case_weights; Mass 2; DefOb (OBuiltin "identity" ""); DefOb (OBuiltin "l2" ""); DefOb (OLinear "sum" []);
   AddOb "identity" (IZR 3); AddOb "l2" (IZR (-1)); DefTb (TOperatorU "U" "sum"); DefTb (TInput "V" "v.bin"); DefTb (TBuiltin "identity"); DefTarget "h.bin"; Add "V" (IZR 3); Add "identity" (IZR 2)].
Lemma case_says : Forall2 says case_lines case_sts.
Proof.
  unfold case_lines, case_sts, case_weights. repeat apply Forall2_cons; [..|apply Forall2_nil].
  - exact (say_indexing (tx "set-target-indexing") (tx "orbitals.dat") (iw "2" 2) (iw "2" 2) (iw "4" 4) (iw "4" 4) (iw "4" 4) [] false _ _ _ _ _ eq_refl eq_refl eq_refl eq_refl eq_refl eq_refl).
  - exact (say_mass (tx "set-mass") (iw "2" 2) [] true _ eq_refl eq_refl).
  - exact (say_ob_builtin (tx "define-ob-source") (tx "builtin") (tx "identity") [] false _ eq_refl eq_refl (or_introl eq_refl) no_text).
  - exact (say_ob_builtin (tx "define-ob-source") (tx "builtin") (tx "l2") [] false _ eq_refl eq_refl (or_intror (or_intror (or_introl eq_refl))) no_text).
  - exact (say_ob_linear (tx "define-ob-source") (tx "linear-combination") (tx "sum") [] false eq_refl eq_refl).
  - exact (say_ob_add (tx "add-ob-source") (tx "identity") (iw "3" 3) [] false _ eq_refl eq_refl).
  - exact (say_ob_add (tx "add-ob-source") (tx "l2") (iw "-1" (-1)) [] false _ eq_refl eq_refl).
  - exact (say_tb_U (tx "define-tb-source") (tx "operatorU") (tx "U") (tx "sum") [] false eq_refl eq_refl).
  - exact (say_tb_input (tx "define-tb-source") (tx "input") (tx "V") (tx "v.bin") [] false eq_refl eq_refl).
  - exact (say_tb_builtin (tx "define-tb-source") (tx "builtin") (tx "identity") [] false eq_refl eq_refl (or_introl eq_refl)).
  - exact (say_target (tx "define-target") (tx "h.bin") [] false eq_refl).
  - exact (say_add (tx "add-source") (tx "V") (iw "3" 3) [] false _ eq_refl eq_refl).
  - exact (say_add (tx "add-source") (tx "identity") (iw "2" 2) [tx "#"; tx "extra"] false _ eq_refl eq_refl).
Qed.
Lemma case_placed : placed case_sts.
Proof.
  unfold case_sts. intros pre s post. do 13 (destruct pre as [|? pre]; [intros H; injection H as <- <-; try exact I; try (eexists _, _; reflexivity); try (eexists; cbn; tauto)|intros H; injection H as <- H; revert H]).
  intros H. destruct pre; discriminate H.
Qed.
Theorem control_case : Forall2 says case_lines case_sts /\ placed case_sts /\ exists c, read_control case_lines = Ok c
  /\ c_ob c = [OBuiltin "identity" ""; OBuiltin "l2" ""; OLinear "sum" [("identity", IZR 3); ("l2", IZR (-1))]] /\ c_targets c = [("h.bin", [("V", IZR 3); ("identity", IZR 2)])] /\ c_mass c = Some 2%Z.
Proof.
  split; [exact case_says|]. split; [exact case_placed|]. destruct (control_ok _ _ case_says case_placed) as (c & E & M). exists c. split; [exact E|].
  rewrite (m_ob _ _ M), (m_targets _ _ M), (m_mass _ _ M). split; [reflexivity|]. split; reflexivity.
Qed.

Definition case_orbitals : list (oinfo R) := [OI (LL SP 1 3) 0%Z 1; OI (LL SN 1 3) 0%Z 1; OI (LL SP 3 7) 0%Z 3].
Definition case_kept : list (oinfo R) := [OI (LL SP 1 3) 0%Z 1; OI (LL SN 1 3) 0%Z 1].
Definition case_space : lspace := [(LL SP 1 3, [0%Z]); (LL SN 1 3, [0%Z])].
Definition case_disk : disk := Disk (fun n => if String.eqb n "orbitals.dat" then Some case_orbitals else None) (fun _ => None)
  (fun n => if String.eqb n "v.bin" then Some (H2File (x_file 0 5) (fun _ _ => x_index 0)) else None).
Definition case_mk (os : list (oinfo R)) (w : weights) (f : Z) : list subspace := [x_sub].
Definition case_sec (sp : list subspace) (q : qn) : list sector := [x_sec].
Lemma case_orb : x_orb = orbital_space_pn case_kept.
Proof. apply functional_extensionality. intros []; reflexivity. Qed.
Theorem target_case : forall osc, setting case_disk osc case_mk case_sec case_sts case_kept (x_index 0).
Proof.
  intros osc. constructor; try reflexivity.
  - left. reflexivity.
  - exists case_weights. split; [reflexivity|]. split; [|reflexivity]. right. split; [reflexivity|]. exists case_orbitals. split; [reflexivity|].
    apply tr_keep; [unfold within; cbn; lra|]. apply tr_keep; [unfold within; cbn; lra|]. apply tr_drop; [unfold within; cbn; lra|]. constructor.
  - exact case_orb.
Qed.
Definition delta (x : R) : nat -> nat -> nat -> nat -> R := fun I i K k => if Nat.eqb I K then x else 0.
Lemma case_regular : regular case_space.
Proof.
  split; [|split; [|split]].
  - repeat constructor; cbn; lia.
  - repeat constructor; cbn; intuition discriminate.
  - repeat constructor; cbn; intuition.
  - intros I K i n n' (x & E1 & N1) (y & E2 & N2). destruct I as [|[|[|I]]]; cbn in E1; try discriminate; injection E1 as <-; destruct K as [|[|[|K]]]; cbn in E2; try discriminate; injection E2 as <-;
      destruct i as [|[|i]]; cbn in *; congruence.
Qed.
Lemma case_orbital : forall I i a n, orbital_at case_space I i a n -> n = 0%Z /\ i = 0%nat /\ ((I = 0%nat /\ a = LL SP 1 3) \/ (I = 1%nat /\ a = LL SN 1 3)).
Proof. intros I i a n (ns & E & N). destruct I as [|[|[|I]]]; cbn in E; try discriminate; injection E as <- <-; destruct i as [|[|i]]; cbn in N; try discriminate; injection N as <-; auto. Qed.
Lemma case_describes : forall x g, g (LL SP 1 3) 0%Z (LL SP 1 3) 0%Z = x -> g (LL SN 1 3) 0%Z (LL SN 1 3) 0%Z = x -> describes case_space (0, 0, 0)%Z (delta x) g.
Proof.
  intros x g G1 G2 I i K k a n b n' O1 O2. apply case_orbital in O1. apply case_orbital in O2. destruct O1 as (-> & -> & O1). destruct O2 as (-> & -> & O2). unfold allowed, coupled, delta.
  destruct O1 as [[-> ->]|[-> ->]], O2 as [[-> ->]|[-> ->]]; cbn; split; intros H; try (symmetry; assumption); try reflexivity; try (destruct H as (_ & _ & H); lia); exfalso; apply H; split; try lia; split; try reflexivity; exists 1%Z; reflexivity.
Qed.
Section Case.
Variable crme : Z -> Z -> Z -> Z -> Z -> R.
Variable am_rme : am_type -> Z -> Z -> Z -> Z -> R.
Variable racah : Z -> Z -> Z -> Z -> Z -> Z -> R.
Definition case_values (id : string) : nat -> nat -> nat -> nat -> R := if String.eqb id "l2" then delta 2 else delta 1.
Definition case_env : list (string * opval) :=
  [("sum", (case_space, (0, 0, 0)%Z, fun I i K k => lsum [("identity", IZR 3); ("l2", IZR (-1))] (fun ic => snd ic * case_values (fst ic) I i K k)));
   ("l2", (case_space, (0, 0, 0)%Z, delta 2)); ("identity", (case_space, (0, 0, 0)%Z, delta 1))].
Theorem stage_case : stage case_disk crme am_rme racah (forget (mk_wspace case_kept)) (xform_of case_disk case_sts) (the_channels case_sts) case_env.
Proof.
  change (forget (mk_wspace case_kept)) with case_space.
  change (the_channels case_sts) with (((([] ++ [OBuiltin "identity" ""]) ++ [OBuiltin "l2" ""]) ++ [OLinear "sum" [("identity", IZR 3); ("l2", IZR (-1))]])%list).
  unfold case_env. apply (stage_snoc _ _ _ _ _ _ _ _ (OLinear "sum" [("identity", IZR 3); ("l2", IZR (-1))])); [apply (stage_snoc _ _ _ _ _ _ _ _ (OBuiltin "l2" "")); [apply (stage_snoc _ _ _ _ _ _ _ _ (OBuiltin "identity" "")); [constructor|reflexivity|]|reflexivity|]|reflexivity|].
  - eapply def_builtin; [left; auto|exact case_regular|apply b_identity|]. apply case_describes; reflexivity.
  - eapply def_builtin; [left; auto|exact case_regular|apply (b_square _ _ "l2" AOrbital); left; reflexivity|]. apply case_describes; unfold diagonal, casimir; cbn -[IZR]; lra.
  - apply def_linear; [discriminate|]. intros ic [<-|[<-|[]]]; reflexivity.
Qed.
End Case.
Theorem program_case : forall osc spline crme am_rme inv F1 F2 F12, exists m,
  h2mixer case_disk osc case_mk case_sec spline crme am_rme inv (fun _ _ _ _ _ _ => 0) F1 F2 F12 (/ 10) case_lines = Ok (["h.bin"], [[m]]) /\ at_ m 0 0 = 17.
Proof.
  intros osc spline crme am_rme inv F1 F2 F12.
  destruct (program_ok case_disk osc case_mk case_sec spline crme am_rme inv (fun _ _ _ _ _ _ => 0) F1 F2 F12 (/ 10) ltac:(reflexivity) case_lines case_sts case_kept (x_index 0) (case_env)
    case_says case_placed (target_case osc)) as (out & E & L & V).
  - intros id file H. discriminate.
  - apply stage_case.
  - split; [apply x_index_ok|intros s; repeat constructor|]. intros ts [<-|[]]. split; [repeat constructor; cbn; lia|]. split; [repeat constructor; cbn; lia|]. unfold tri_ok. cbn. lia.
  - cbn. repeat constructor; cbn; intuition discriminate.
  - repeat apply Forall_cons; [..|apply Forall_nil].
    + exists case_space, (fun I i K k => lsum [("identity", IZR 3); ("l2", IZR (-1))] (fun ic => snd ic * case_values (fst ic) I i K k)), 2%Z. destruct case_regular as (_ & R2 & R3 & _).
      split; [reflexivity|]. split; [exact R2|]. split; [exact R3|]. split; [reflexivity|]. unfold two31. lia.
    + exists (H2File (x_file 0 5) (fun _ _ => x_index 0)). split; [reflexivity|apply x_file_ok].
    + split; [reflexivity|]. split; [exists 2%Z; split; [reflexivity|unfold two31; lia]|]. intros ts [<-|[]]. reflexivity.
  - destruct out as [|row [|? ?]]; try discriminate L. destruct (V 0%nat x_sec row eq_refl eq_refl) as [RL RV]. destruct row as [|m [|? ?]]; try discriminate RL.
    exists m. split; [exact E|]. destruct (RV 0%nat "h.bin" [("V", IZR 3); ("identity", IZR 2)] m eq_refl eq_refl) as [[D1 D2] W]. destruct (W 0%nat 0%nat) as (v & W1 & _ & Ch); [rewrite D1; cbn; lia|rewrite D2; cbn; lia|].
    assert (A := W1 (TInput "V" "v.bin") ltac:(cbn; tauto)). assert (B := W1 (TBuiltin "identity") ltac:(cbn; tauto)). cbn [tb_id] in A, B.
    inversion A as [id0 file0 h0 x0 Eh Lh| | | | |]; subst. cbn in Eh. injection Eh as <-. cbn [h_file] in Lh. apply x_labelled in Lh.
    inversion B as [|A0 x0 EA Ex| | | |]; subst. cbn in EA. injection EA as <-. cbn in Ex. unfold combination in Ch. cbn [lsum fst snd] in Ch. rewrite Lh in Ch. replace (v "identity") with 1 in Ch by lra.
    destruct Ch as [_ Ch]. rewrite Ch; [lra|]. rewrite Rabs_right by lra. lra.
Qed.
Theorem target_mixed_refuted : exists d osc mk_space mk_sectors sts file w all os tgt, d_orbitals d file = Some all
  /\ setting d osc mk_space mk_sectors (sts ++ [Indexing file w])%list os tgt /\ ~ truncated w all os.
Proof.
  exists case_disk, (fun _ => []), case_mk, case_sec, [Oscillator false 2], "orbitals.dat", case_weights, case_orbitals, [], (TIx (fun s => []) [x_sub] [x_sec] (0, 0, 0)%Z).
  split; [reflexivity|]. split.
  - constructor; try reflexivity; [left; reflexivity|]. exists case_weights. split; [reflexivity|]. split; [|reflexivity]. left. split; [cbn; lia|reflexivity].
  - intros H. inversion H as [| |o l l' H1 H2]; subst. apply H1. unfold within. cbn. lra.
Qed.
Definition empty_lines : list cline :=
  [CLine [tx "set-target-indexing"; tx "orbitals.dat"; iw "2" 2; iw "2" 2; iw "4" 4; iw "4" 4; iw "4" 4] false;
   CLine [tx "define-ob-source"; tx "linear-combination"; tx "sum"] false; CLine [tx "define-tb-source"; tx "operatorU"; tx "U"; tx "sum"] false].
Definition empty_sts : list statement := [Indexing "orbitals.dat" case_weights; DefOb (OLinear "sum" []); DefTb (TOperatorU "U" "sum")].
Theorem no_terms_refuted : forall osc spline crme am_rme inv racah F1 F2 F12 tol,
  h2mixer case_disk osc case_mk case_sec spline crme am_rme inv racah F1 F2 F12 tol empty_lines = UB.
Proof.
  intros osc spline crme am_rme inv racah F1 F2 F12 tol.
  assert (S : Forall2 says empty_lines empty_sts).
  { unfold empty_lines, empty_sts, case_weights. repeat apply Forall2_cons; [..|apply Forall2_nil].
    - exact (say_indexing (tx "set-target-indexing") (tx "orbitals.dat") (iw "2" 2) (iw "2" 2) (iw "4" 4) (iw "4" 4) (iw "4" 4) [] false _ _ _ _ _ eq_refl eq_refl eq_refl eq_refl eq_refl eq_refl).
    - exact (say_ob_linear (tx "define-ob-source") (tx "linear-combination") (tx "sum") [] false eq_refl eq_refl).
    - exact (say_tb_U (tx "define-tb-source") (tx "operatorU") (tx "U") (tx "sum") [] false eq_refl eq_refl). }
  assert (P : placed empty_sts).
  { unfold empty_sts. intros pre s post. do 3 (destruct pre as [|? pre]; [intros H; injection H as <- <-; exact I|intros H; injection H as <- H; revert H]). intros H. destruct pre; discriminate H. }
  destruct (control_ok _ _ S P) as (c & Ec & M). unfold h2mixer. rewrite Ec. cbn [bind].
  assert (T : setting case_disk osc case_mk case_sec empty_sts case_kept (x_index 0)).
  { constructor; try reflexivity; [left; reflexivity| |exact case_orb]. exists case_weights. split; [reflexivity|]. split; [|reflexivity]. right. split; [reflexivity|]. exists case_orbitals. split; [reflexivity|].
    apply tr_keep; [unfold within; cbn; lra|]. apply tr_keep; [unfold within; cbn; lra|]. apply tr_drop; [unfold within; cbn; lra|]. constructor. }
  rewrite (target_ok _ _ _ _ c empty_sts case_kept (x_index 0) M T). cbn [bind].
  destruct (xforms_ok case_disk c empty_sts M) as (xs & Ex & _); [intros id file H; discriminate|]. rewrite Ex. cbn [bind]. rewrite (m_ob _ _ M), (m_tb _ _ M).
  change (map with_terms (sections ob_of ob_term_of empty_sts)) with [OLinear "sum" []]. unfold construct_all. cbn [for_each]. destruct (no_terms case_disk spline crme am_rme inv racah (forget (mk_wspace case_kept)) xs "sum" [] eq_refl) as (od & -> & U).
  cbn [bind]. change (all_of tb_of empty_sts) with [TOperatorU "U" "sum"]. cbn [map_blocks]. rewrite U. reflexivity.
Qed.
(** a transformed source: both overlaps are 2, so that the state gets the factor 4 *)
Definition xform_file : obfile := ObFile case_space case_space (0, 0, 0)%Z [(0, 0); (1, 1)]%nat [Mat 1 1 (fun _ _ => 2); Mat 1 1 (fun _ _ => 2)].
Definition xform_disk : disk := Disk (fun n => if String.eqb n "orbitals.dat" then Some case_orbitals else None) (fun n => if String.eqb n "x.dat" then Some xform_file else None)
  (fun n => if String.eqb n "v.bin" then Some (H2File (x_file 0 5) (fun _ _ => x_index 0)) else None).
Definition xform_lines : list cline :=
  [CLine [tx "set-target-indexing"; tx "orbitals.dat"; iw "2" 2; iw "2" 2; iw "4" 4; iw "4" 4; iw "4" 4] false; CLine [tx "define-xform"; tx "x"; tx "x.dat"] false;
   CLine [tx "define-tb-source"; tx "xform"; tx "W"; tx "v.bin"; iw "2" 2; iw "2" 2; iw "4" 4; iw "4" 4; iw "4" 4; tx "x"] false;
   CLine [tx "define-target"; tx "t.bin"] false; CLine [tx "add-source"; tx "W"; iw "1" 1] false].
Definition xform_sts : list statement := [Indexing "orbitals.dat" case_weights; DefXform "x" "x.dat"; DefTb (TXform "W" "v.bin" case_weights "x"); DefTarget "t.bin"; Add "W" (IZR 1)].
Lemma x_states : XformSpec.states_ok x_orb x_sub.
Proof.
  split; [repeat constructor; intros []|]. repeat constructor. exists (OL 0 1 3), (OL 0 1 3). cbn. repeat split; try reflexivity; try lia. 
Qed.
Lemma x_orbs : forall p, orbs_of x_orb x_sub 0 p -> o_sp (fst p) = SP /\ o_sp (snd p) = SP /\ o_lab (fst p) = OL 0 1 3 /\ o_lab (snd p) = OL 0 1 3 /\ o_ix (fst p) = 0%nat /\ o_ix (snd p) = 0%nat.
Proof.
  intros [a b] (la & lb & (i & j & N & Hi & Hj) & N' & Ea & Eb & Sa & Sb). cbn in *. injection N as <- <-. injection N' as X Y. cbn in Hi, Hj. injection Hi as E1. injection Hj as E2. subst. auto 10.
Qed.
Theorem xform_case : forall osc spline crme am_rme inv F1 F2 F12, exists m,
  h2mixer xform_disk osc case_mk case_sec spline crme am_rme inv (fun _ _ _ _ _ _ => 0) F1 F2 F12 (/ 10) xform_lines = Ok (["t.bin"], [[m]]) /\ at_ m 0 0 = 80.
Proof.
  intros osc spline crme am_rme inv F1 F2 F12.
  assert (HS : Forall2 says xform_lines xform_sts).
  { unfold xform_lines, xform_sts, case_weights. repeat apply Forall2_cons; [..|apply Forall2_nil].
    - exact (say_indexing (tx "set-target-indexing") (tx "orbitals.dat") (iw "2" 2) (iw "2" 2) (iw "4" 4) (iw "4" 4) (iw "4" 4) [] false _ _ _ _ _ eq_refl eq_refl eq_refl eq_refl eq_refl eq_refl).
    - exact (say_xform (tx "define-xform") (tx "x") (tx "x.dat") [] false eq_refl).
    - exact (say_tb_xform (tx "define-tb-source") (tx "xform") (tx "W") (tx "v.bin") (iw "2" 2) (iw "2" 2) (iw "4" 4) (iw "4" 4) (iw "4" 4) (tx "x") [] false _ _ _ _ _ eq_refl eq_refl eq_refl eq_refl eq_refl eq_refl eq_refl).
    - exact (say_target (tx "define-target") (tx "t.bin") [] false eq_refl).
    - exact (say_add (tx "add-source") (tx "W") (iw "1" 1) [] false _ eq_refl eq_refl). }
  assert (HP : placed xform_sts).
  { unfold xform_sts. intros pre s post. do 4 (destruct pre as [|? pre]; [intros H; injection H as <- <-; exact I|intros H; injection H as <- H; revert H]).
    destruct pre as [|? pre]; [intros H; injection H as <- <-|intros H; injection H as <- H; destruct pre; discriminate H]. eexists. cbn. tauto. }
  assert (T : setting xform_disk osc case_mk case_sec xform_sts case_kept (x_index 0)).
  { constructor; try reflexivity; [left; reflexivity| |exact case_orb]. exists case_weights. split; [reflexivity|]. split; [|reflexivity]. right. split; [reflexivity|]. exists case_orbitals. split; [reflexivity|].
    apply tr_keep; [unfold within; cbn; lra|]. apply tr_keep; [unfold within; cbn; lra|]. apply tr_drop; [unfold within; cbn; lra|]. constructor. }
  destruct (program_ok xform_disk osc case_mk case_sec spline crme am_rme inv (fun _ _ _ _ _ _ => 0) F1 F2 F12 (/ 10) ltac:(reflexivity) xform_lines xform_sts case_kept (x_index 0) [] HS HP T) as (out & E & L & V).
  - intros id file H. unfold xform_sts in H. cbn -[String.eqb] in H. destruct (String.eqb "x" id); [|discriminate]. injection H as <-. exists xform_file. split; reflexivity.
  - constructor.
  - split; [apply x_index_ok|intros s; repeat constructor|]. intros ts [<-|[]]. split; [repeat constructor; cbn; lia|]. split; [repeat constructor; cbn; lia|]. unfold tri_ok. cbn. lia.
  - cbn. repeat constructor; cbn; intuition discriminate.
  - apply Forall_cons; [|apply Forall_nil]. exists (H2File (x_file 0 5) (fun _ _ => x_index 0)), xform_file. destruct case_regular as (_ & R2 & R3 & _).
    split; [reflexivity|]. split; [apply x_file_ok|]. split; [apply x_index_ok|]. split; [intros ps [<-|[]]; split; exact x_states|]. split; [intros ps [<-|[]]; split; exact x_states|].
    split; [reflexivity|]. repeat split; assumption.
  - destruct out as [|row [|? ?]]; try discriminate L. destruct (V 0%nat x_sec row eq_refl eq_refl) as [RL RV]. destruct row as [|m [|? ?]]; try discriminate RL.
    exists m. split; [exact E|]. destruct (RV 0%nat "t.bin" [("W", IZR 1)] m eq_refl eq_refl) as [[D1 D2] W]. destruct (W 0%nat 0%nat) as (v & W1 & _ & Ch); [rewrite D1; cbn; lia|rewrite D2; cbn; lia|].
    assert (A := W1 (TXform "W" "v.bin" case_weights "x") ltac:(cbn; tauto)). cbn [tb_id] in A.
    assert (Val : v "W" = 80).
    { inversion A as [| | | |? ? ? ? h f u ps nb nk p bras kets ab cd x Eh Ef U Hps Hs Enb Enk Hp HB HK Ha Hc Hx|? ? ? ? h Eh Hno]; subst.
      - cbn in Eh. injection Eh as <-. cbn in Ef. injection Ef as <-. destruct Hps as [<-|[]]. cbn [x_sec s_bra s_ket x_sub ss_states length ss_J h_pre ti_orb x_index] in *. cbn [rsum] in Hx.
        assert (P0 := Hp 0%nat 0%nat ltac:(lia) ltac:(lia)). apply x_labelled in P0. assert (B0 := x_orbs _ (HB 0%nat ltac:(lia))). assert (K0 := x_orbs _ (HK 0%nat ltac:(lia))). assert (A0 := x_orbs _ Ha). assert (C0 := x_orbs _ Hc).
        assert (G : forall x y, o_sp x = SP -> o_lab x = OL 0 1 3 -> o_sp y = SP -> o_lab y = OL 0 1 3 -> u x y = 2).
        { intros x y X1 X2 Y1 Y2. destruct (U x y) as [U1 _]. rewrite (U1 0%nat 0%nat 0%nat 0%nat); [reflexivity| | |].
          - unfold same_slj. rewrite X1, X2, Y1, Y2. auto.
          - unfold at_orbital. rewrite X1, X2. exists [0%Z]. split; reflexivity.
          - unfold at_orbital. rewrite Y1, Y2. exists [0%Z]. split; reflexivity. }
        assert (S : forall p q, (o_sp (fst p) = SP /\ o_sp (snd p) = SP /\ o_lab (fst p) = OL 0 1 3 /\ o_lab (snd p) = OL 0 1 3 /\ o_ix (fst p) = 0%nat /\ o_ix (snd p) = 0%nat) ->
          (o_sp (fst q) = SP /\ o_sp (snd q) = SP /\ o_lab (fst q) = OL 0 1 3 /\ o_lab (snd q) = OL 0 1 3 /\ o_ix (fst q) = 0%nat /\ o_ix (snd q) = 0%nat) -> state_overlap u p q 2 = 4).
        { intros p' q' (p1 & p2 & p3 & p4 & p5 & p6) (q1 & q2 & q3 & q4 & q5 & q6). unfold state_overlap, antisymmetrised, nfactor, orb_eqb, exch, exchange_phase.
          rewrite p1, p2, p3, p4, p5, p6, q1, q2, q3, q4, q5, q6. rewrite !G by assumption. cbn -[sqrt IZR]. assert (Q : sqrt 2 * sqrt 2 = 2) by (apply sqrt_sqrt; lra). assert (Q0 : sqrt 2 <> 0) by (intros Q'; rewrite Q' in Q; lra).
          replace (/ sqrt 2 * / sqrt 2) with (/ 2) by (rewrite <- Rinv_mult, Q; reflexivity). cbn. lra. }
        unfold rsum in Hx; cbn [seq map lsum fold_right] in Hx; rewrite (S _ _ B0 A0), (S _ _ K0 C0), P0 in Hx. lra.
      - exfalso. cbn in Eh. injection Eh as <-. apply (Hno x_sec); [left; reflexivity|split; reflexivity]. }
    unfold combination in Ch. cbn [lsum fst snd] in Ch. rewrite Val in Ch. destruct Ch as [_ Ch]. rewrite Ch; [lra|]. rewrite Rabs_right by lra. lra.
Qed.
