(** C136-C138: control file of obmixer and the whole program.
    The definitions used in the statements are in StmtSpec.v, ObxSpec.v (control file, operators, files written, documented format), HmSpec.v (optional words),
    HmOspec.v (describes, diagonal, regular), ObmSpec.v, BlockSpec.v, ObxModel.v (code), and, in the cases, the control file of ObxCase.v. *)
From Coq Require Import String List ZArith Reals Bool.
From Verif Require Import Base RMat H2Model MapModel OscModel BlockModel BlockSpec ObioModel MixModel ObmModel ObmSpec RgModel HmModel HmSpec HmOspec HmCase StmtSpec ObxModel ObxSpec ObxProof ObxMain ObxCase.
Import ListNotations.
Open Scope R_scope.
Open Scope string_scope.
Open Scope list_scope.

(** C136.  Statements in an admissible order are read: basis, length, transformations, channels with their terms, targets. *)
Theorem C136_read : forall d lines sts, Forall2 xsays lines sts -> well_placed d sts -> exists c, xread_control d lines = Ok c /\ xmeans d c sts.
Proof. exact xcontrol_ok. Qed.
Print Assumptions C136_read.

(** C136.  Nothing else is read. *)
Theorem C136_only : forall d lines c, xread_control d lines = Ok c -> exists sts, Forall2 xsays lines sts /\ well_placed d sts /\ xmeans d c sts.
Proof. exact xcontrol_inv. Qed.
Print Assumptions C136_only.

(** C136.  A line makes one statement. *)
Theorem C136_one_meaning : forall line s t, xsays line s -> xsays line t -> s = t.
Proof. exact xsays_one. Qed.
Print Assumptions C136_one_meaning.

(** C136.  A line that makes none ends the program. *)
Theorem C136_refused : forall d l1 line l2 sts, Forall2 xsays l1 sts -> well_placed d sts -> (forall s, ~ xsays line s) ->
  xread_control d (l1 ++ line :: l2) = Exit
  \/ (xread_control d (l1 ++ line :: l2) = AssertFail /\ keyword line "add-source" /\ every source_of sts = []).
Proof. exact xcontrol_refused. Qed.
Print Assumptions C136_refused.

(** C136.  A term that follows no linear combination, and a basis without its file, end the program. *)
Theorem C136_misplaced : forall d l1 line l2 sts s, Forall2 xsays l1 sts -> well_placed d sts -> xsays line s -> ~ fits d sts s ->
  xread_control d (l1 ++ line :: l2) = match s with Term _ _ => match the_last source_of sts with None => AssertFail | Some _ => Exit end | _ => Exit end.
Proof. exact xcontrol_misplaced. Qed.
Print Assumptions C136_misplaced.

(** C136, partial: documented lines are accepted, but for those of k, k.k and solid harmonics, and for blanks at the end. *)
Theorem C136_documented_partial : forall ws, documented ws -> ~ momentum ws -> ~ solid ws -> exists s, xsays (CLine ws false) s.
Proof. exact documented_ok. Qed.
Print Assumptions C136_documented_partial.

(** C136 refuted: the documented lines of k.k and of a solid harmonic are refused ... *)
Theorem C136_documented_refuted : exists w1 w2 w3, documented w1 /\ documented w2 /\ documented w3 /\ forall d c bl,
  xread_line d c (CLine w1 bl) = Exit /\ xread_line d c (CLine w2 bl) = Exit /\ xread_line d c (CLine w3 bl) = Exit.
Proof. exact documented_refuted. Qed.
Print Assumptions C136_documented_refuted.

(** C136.  ... for all lines of k and k.k ... *)
Theorem C136_momentum : forall d c ws bl, momentum ws -> xread_line d c (CLine ws bl) = Exit.
Proof. exact momentum_refused. Qed.
Print Assumptions C136_momentum.

(** C136.  ... and all solid harmonics without a rank. *)
Theorem C136_solid : forall d c k m i co a rest bl, w_text k = "define-source" -> w_text m = "solid-harmonic" ->
  (forall b rest', rest = b :: rest' -> w_int b = None) -> xread_line d c (CLine (k :: m :: i :: co :: a :: rest) bl) = Exit.
Proof. exact solid_refused. Qed.
Print Assumptions C136_solid.

(** C136 refuted: a documented orbital file whose name is a number is taken as the rank. *)
Theorem C136_solid_refuted : exists ws, documented ws /\ xsays (CLine ws false) (Source (XGenerated "Y2" (GRadial TR) 2 (8, 0, 0)%Z "")).
Proof. exact solid_misread_refuted. Qed.
Print Assumptions C136_solid_refuted.

(** C136 refuted: a blank at the end of the line in place of an optional argument ends the program. *)
Theorem C136_blank_refuted : exists ws s, xsays (CLine ws false) s /\ forall d c, xread_line d c (CLine ws true) = Exit.
Proof. exact xblank_refuted. Qed.
Print Assumptions C136_blank_refuted.

(** C136 refuted: of two transformations of one name the first counts; one without name and file is accepted when it is read. *)
Theorem C136_xform_refuted : exists l1 l2 l3, xsays l1 (Transformation "a" "old.dat") /\ xsays l2 (Transformation "a" "new.dat") /\ xsays l3 (Transformation "" "") /\
  forall d, exists c, xread_control d [l1; l2; l3] = Ok c /\ assoc (xc_xforms c) "a" = Some "old.dat" /\ assoc (xc_xforms c) "" = Some "".
Proof. exact xxform_refuted. Qed.
Print Assumptions C136_xform_refuted.

(** C137.  A file for each target, on the orbitals of the run, with the elements of its operator. *)
Theorem C137_program : forall d spline crme am_rme inv_sqrt_4pi racah, (forall j' j j'' Ja Jb J, ~ coupled j (2 * J) j' -> racah j' j j'' Ja Jb J = 0) ->
  let xstage := xstage d spline crme am_rme inv_sqrt_4pi racah in let obmixer := obmixer d spline crme am_rme inv_sqrt_4pi racah in
  forall lines sts env, Forall2 xsays lines sts -> well_placed d sts -> xforms_good d sts ->
  xstage (run_of d sts) (xform_file d sts) (sources_of sts) env -> orbital_space (run_space d sts) ->
  (forall t, In t (every ObxSpec.target_in sts) -> target_fine env (fst t)) ->
  exists out, obmixer lines = Ok out /\ Forall2 (output_of (run_space d sts) env) (every ObxSpec.target_in sts) out.
Proof. exact obmixer_ok. Qed.
Print Assumptions C137_program.

(** C137.  A run that ends writes exactly the targets, all on the orbitals of the run. *)
Theorem C137_only : forall d spline crme am_rme inv_sqrt_4pi racah, let obmixer := obmixer d spline crme am_rme inv_sqrt_4pi racah in
  forall lines out, obmixer lines = Ok out -> exists sts, Forall2 xsays lines sts /\ well_placed d sts /\ xforms_good d sts
  /\ NoDup (map source_id (sources_of sts)) /\ map fst out = map snd (every ObxSpec.target_in sts)
  /\ (forall t, In t (every ObxSpec.target_in sts) -> In (fst t) (map source_id (sources_of sts)))
  /\ (forall o, In o out -> of_bra (snd o) = run_space d sts /\ of_ket (snd o) = run_space d sts).
Proof. exact obmixer_inv. Qed.
Print Assumptions C137_only.

Example C137_case : forall spline crme am_rme inv, exists F1 F2, obmixer xcase_disk spline crme am_rme inv (fun _ _ _ _ _ _ => 0) xcase_lines = Ok [("one.dat", F1); ("sum.dat", F2)]
  /\ of_bra F1 = xcase_space /\ file_entry F1 0 0 0 0 = 1 /\ file_entry F1 0 1 0 1 = 0 /\ file_entry F1 1 0 1 0 = 0 /\ file_entry F2 0 1 0 1 = 9 / 4 /\ file_entry F2 1 0 1 0 = 45 / 4.
Proof. exact xprogram_case. Qed.

(** C138.  A channel whose name is taken, or for which a file, an operator or a transformation is missing, ends the program. *)
Theorem C138_lacking : forall d spline crme am_rme inv_sqrt_4pi racah, (forall j' j j'' Ja Jb J, ~ coupled j (2 * J) j' -> racah j' j j'' Ja Jb J = 0) ->
  let xstage := xstage d spline crme am_rme inv_sqrt_4pi racah in let obmixer := obmixer d spline crme am_rme inv_sqrt_4pi racah in
  forall lines sts pre s post env, Forall2 xsays lines sts -> well_placed d sts -> xforms_good d sts ->
  sources_of sts = pre ++ s :: post -> xstage (run_of d sts) (xform_file d sts) pre env -> lacking d (xform_file d sts) env s -> obmixer lines = Exit.
Proof. exact obmixer_lacking. Qed.
Print Assumptions C138_lacking.

(** C138.  So does a target without an operator. *)
Theorem C138_no_operator : forall d spline crme am_rme inv_sqrt_4pi racah, (forall j' j j'' Ja Jb J, ~ coupled j (2 * J) j' -> racah j' j j'' Ja Jb J = 0) ->
  let xstage := xstage d spline crme am_rme inv_sqrt_4pi racah in let obmixer := obmixer d spline crme am_rme inv_sqrt_4pi racah in
  forall lines sts env pre id file post, Forall2 xsays lines sts -> well_placed d sts -> xforms_good d sts ->
  xstage (run_of d sts) (xform_file d sts) (sources_of sts) env -> orbital_space (run_space d sts) ->
  every ObxSpec.target_in sts = pre ++ (id, file) :: post -> (forall t, In t pre -> target_fine env (fst t)) -> assoc env id = None -> obmixer lines = Exit.
Proof. exact obmixer_no_operator. Qed.
Print Assumptions C138_no_operator.

(** C138.  So does a transformation without a file or with a file that is no scalar, used or not. *)
Theorem C138_xform : forall d spline crme am_rme inv_sqrt_4pi racah, let obmixer := obmixer d spline crme am_rme inv_sqrt_4pi racah in
  forall lines sts id file, Forall2 xsays lines sts -> well_placed d sts -> the_first (xform_called id) sts = Some file ->
  (d_ob d file = None \/ exists f, d_ob d file = Some f /\ of_q f <> (0, 0, 0)%Z) -> obmixer lines = Exit \/ obmixer lines = AssertFail.
Proof. exact obmixer_xform. Qed.
Print Assumptions C138_xform.

(** C138 refuted: a linear combination without terms can be written, which is undefined. *)
Theorem C138_no_terms_refuted : forall d spline crme am_rme inv racah, exists lines sts, Forall2 xsays lines sts /\ well_placed d sts /\ obmixer d spline crme am_rme inv racah lines = UB.
Proof. exact xno_terms_refuted. Qed.
Print Assumptions C138_no_terms_refuted.

(** C138 refuted: without set-basis the targets are written without elements. *)
Theorem C138_no_basis_refuted : forall spline crme am_rme inv racah, exists d lines sts F, Forall2 xsays lines sts /\ well_placed d sts
  /\ (exists f, d_ob d "a.dat" = Some f /\ file_ok f [(LL SP 0 1, [0%Z])] (0, 0, 0)%Z /\ file_entry f 0 0 0 0 = 5)
  /\ sts = [Source (XInput "a" "a.dat" (0, 0, 0)%Z); Target "a" "out.dat"] /\ obmixer d spline crme am_rme inv racah lines = Ok [("out.dat", F)] /\ of_blocks F = [].
Proof. exact xno_basis_refuted. Qed.
Print Assumptions C138_no_basis_refuted.

