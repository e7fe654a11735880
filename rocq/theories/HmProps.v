(** C126-C130: control file, one-body channels and the whole of h2mixer.
    The definitions used in the statements are in HmSpec.v (statements of the control file), HmOspec.v (one-body channels), HmFspec.v (target, two-body
    sources), ObmSpec.v, BlockSpec.v, MixSpec.v, SepSpec.v (operators, elements), HmModel.v (code), and, in the cases, the files of HmCase.v. *)
From Coq Require Import String List ZArith Reals Bool.
From Verif Require Import Base RMat H2Model MapModel MapSpec XformModel SepModel SepSpec OscModel BlockModel BlockSpec ObioModel MixModel MixSpec MixFinal ObmModel ObmSpec NatModel RgModel
  HmModel HmSpec HmOspec HmFspec HmProof HmMeans HmOb HmFinal HmCase.
Import ListNotations.
Open Scope R_scope.
Open Scope string_scope.
Open Scope list_scope.
Open Scope outcome_scope.

(** C126.  Lines which say something, with terms in their places, are read, and mean what they say. *)
Theorem C126_read : forall lines sts, Forall2 says lines sts -> placed sts -> exists c, read_control lines = Ok c /\ means c sts.
Proof. exact control_ok. Qed.
Print Assumptions C126_read.

(** C126.  Nothing else is accepted. *)
Theorem C126_only : forall lines c, read_control lines = Ok c -> exists sts, Forall2 says lines sts /\ placed sts /\ means c sts.
Proof. exact control_inv. Qed.
Print Assumptions C126_only.

(** C126.  A line says one thing. *)
Theorem C126_one_meaning : forall line s t, says line s -> says line t -> s = t.
Proof. exact says_one. Qed.
Print Assumptions C126_one_meaning.

(** C126.  The first line that says nothing ends the program ... *)
Theorem C126_refused : forall l1 line l2 sts, Forall2 says l1 sts -> placed sts -> (forall s, ~ says line s) ->
  read_control (l1 ++ line :: l2) = Exit
  \/ (read_control (l1 ++ line :: l2) = AssertFail /\ (keyword line "add-ob-source" /\ all_of ob_of sts = [] \/ keyword line "add-source" /\ all_of target_of sts = [])).
Proof. exact control_refused. Qed.
Print Assumptions C126_refused.

(** C126.  ... and so does a term without anything to add it to. *)
Theorem C126_misplaced : forall l1 line l2 sts s, Forall2 says l1 sts -> placed sts -> says line s -> ~ placed (sts ++ [s]) ->
  match s with
  | AddOb _ _ => read_control (l1 ++ line :: l2) = match last_of ob_of sts with None => AssertFail | Some _ => Exit end
  | _ => read_control (l1 ++ line :: l2) = AssertFail
  end.
Proof. exact control_misplaced. Qed.
Print Assumptions C126_misplaced.

Example C126_case : Forall2 says case_lines case_sts /\ placed case_sts /\ exists c, read_control case_lines = Ok c
  /\ c_ob c = [OBuiltin "identity" ""; OBuiltin "l2" ""; OLinear "sum" [("identity", IZR 3); ("l2", IZR (-1))]] /\ c_targets c = [("h.bin", [("V", IZR 3); ("identity", IZR 2)])] /\ c_mass c = Some 2%Z.
Proof. exact control_case. Qed.

(** C127 refuted: a transformation without a file is accepted. *)
Theorem C127_no_file_refuted : exists line c, (exists k i, cl_words line = [k; i] /\ w_text k = "define-xform" /\ w_text i = "a") /\ read_control [line] = Ok c /\ assoc (c_xforms c) "a" = Some "".
Proof. exact xform_without_file_refuted. Qed.
Print Assumptions C127_no_file_refuted.

(** C127.  Of several definitions of a transformation the first is used ... *)
Theorem C127_defined_twice : forall lines sts c id f1 pre mid f2 post, Forall2 says lines sts -> sts = (pre ++ DefXform id f1 :: mid ++ DefXform id f2 :: post)%list -> (forall f, ~ In (DefXform id f) pre) ->
  read_control lines = Ok c -> assoc (c_xforms c) id = Some f1.
Proof. exact xform_twice. Qed.
Print Assumptions C127_defined_twice.

(** C127 refuted: ... without any message. *)
Theorem C127_defined_twice_refuted : exists l1 l2 c, says l1 (DefXform "a" "old.dat") /\ says l2 (DefXform "a" "new.dat") /\ read_control [l1; l2] = Ok c /\ assoc (c_xforms c) "a" = Some "old.dat".
Proof. exact xform_twice_refuted. Qed.
Print Assumptions C127_defined_twice_refuted.

(** C127.  A blank at the end of a line whose optional argument is left out ends the program. *)
Theorem C127_blank : forall l1 l2 sts k s i a b j,  Forall2 says l1 sts -> placed sts ->
  let ends ws := read_control (l1 ++ CLine ws true :: l2) = Exit in
  (w_text k = "define-ob-source" -> w_text s = "builtin" -> ends [k; s; i])
  /\ (w_text k = "define-ob-source" -> w_text s = "tensor-product" -> ends [k; s; i; a; b; j])
  /\ (w_text k = "define-tb-source" -> w_text s = "operatorV" -> ends [k; s; i; a; b]).
Proof. exact blank_refused. Qed.
Print Assumptions C127_blank.

(** C127 refuted: the same words with and without a blank at the end. *)
Theorem C127_blank_refuted : exists ws c, read_control [CLine ws false] = Ok c /\ read_control [CLine ws true] = Exit.
Proof. exact blank_refuted. Qed.
Print Assumptions C127_blank_refuted.

(** C128.  Orbitals, states and sectors of the target. *)
Theorem C128_target : forall d oscillator_orbitals mk_space mk_sectors, let target_index := target_index d oscillator_orbitals mk_space mk_sectors in let setting := setting d oscillator_orbitals mk_space mk_sectors in
  forall c sts os tgt, means c sts -> (target_index c = Ok (os, tgt) <-> setting sts os tgt).
Proof. exact (fun d oscillator_orbitals mk_space mk_sectors => target_iff d oscillator_orbitals mk_space mk_sectors). Qed.
Print Assumptions C128_target.

(** C128.  Unknown formats and missing orbital files end the program ... *)
Theorem C128_refused : forall d oscillator_orbitals mk_space mk_sectors, let target_index := target_index d oscillator_orbitals mk_space mk_sectors in let setting := setting d oscillator_orbitals mk_space mk_sectors in
  forall c sts, means c sts -> ~ In (the_format sts) [0; 15099; 15200]%Z \/ ((the_cutoff sts < 0)%Z /\ d_orbitals d (the_file sts) = None) -> target_index c = Exit.
Proof. exact target_refused. Qed.
Print Assumptions C128_refused.

(** C128.  ... and so do control files without indexing, if there is no file without a name. *)
Theorem C128_no_indexing : forall d oscillator_orbitals mk_space mk_sectors, let target_index := target_index d oscillator_orbitals mk_space mk_sectors in let setting := setting d oscillator_orbitals mk_space mk_sectors in
  forall c sts, means c sts -> In (the_format sts) [0; 15099; 15200]%Z -> (forall s, In s sts -> cutoff_of s = None /\ orbitals_of s = None) -> d_orbitals d "" = None -> target_index c = Exit.
Proof. exact no_indexing. Qed.
Print Assumptions C128_no_indexing.

(** C128.  Of two indexings, the orbitals of the first and the truncation of the second may be used. *)
Theorem C128_mixed : forall d oscillator_orbitals mk_space mk_sectors, let target_index := target_index d oscillator_orbitals mk_space mk_sectors in let setting := setting d oscillator_orbitals mk_space mk_sectors in
  forall sts os tgt tb N file w, setting (sts ++ [Oscillator tb N; Indexing file w])%list os tgt -> (0 <= N)%Z -> os = oscillator_orbitals N /\ ti_space tgt = mk_space os w (the_format sts).
Proof. exact target_mixed. Qed.
Print Assumptions C128_mixed.

(** C128 refuted: the last line asks for the orbitals of a file, and others are used. *)
Theorem C128_mixed_refuted : exists d osc mk_space mk_sectors sts file w all os tgt, d_orbitals d file = Some all
  /\ setting d osc mk_space mk_sectors (sts ++ [Indexing file w])%list os tgt /\ ~ truncated w all os.
Proof. exact target_mixed_refuted. Qed.
Print Assumptions C128_mixed_refuted.

Example C128_case : forall osc, setting case_disk osc case_mk case_sec case_sts case_kept (x_index 0).
Proof. exact target_case. Qed.

(** C129.  Channels make the operators they define. *)
Theorem C129_operators : forall d spline crme am_rme inv_sqrt_4pi racah, (forall j' j j'' Ja Jb J, ~ coupled j (2 * J) j' -> racah j' j j'' Ja Jb J = 0) ->
  let construct_all := construct_all d spline crme am_rme inv_sqrt_4pi racah in let stage := stage d crme am_rme racah in
  forall tsp l xs ss env, (forall id, assoc l id = xs id) -> stage tsp xs ss env -> exists ops, construct_all tsp l ss = Ok ops /\ map fst ops = map fst env
  /\ forall id sp q f, assoc env id = Some (sp, q, f) -> holds ops id sp q f.
Proof. exact stage_ok. Qed.
Print Assumptions C129_operators.

(** C129.  A name is used once ... *)
Theorem C129_names : forall d spline crme am_rme inv_sqrt_4pi racah, let construct_all := construct_all d spline crme am_rme inv_sqrt_4pi racah in
  forall tsp xs ss ops, construct_all tsp xs ss = Ok ops -> map fst ops = rev (map id_of ss) /\ NoDup (map id_of ss).
Proof. exact names_once. Qed.
Print Assumptions C129_names.

(** C129.  ... and operators stay as they were made. *)
Theorem C129_kept : forall d spline crme am_rme inv_sqrt_4pi racah, let construct_all := construct_all d spline crme am_rme inv_sqrt_4pi racah in
  forall tsp xs s1 s2 ops1 ops2 id o, construct_all tsp xs s1 = Ok ops1 -> construct_all tsp xs (s1 ++ s2) = Ok ops2 -> assoc ops1 id = Some o -> assoc ops2 id = Some o.
Proof. exact kept. Qed.
Print Assumptions C129_kept.

(** C129.  Transformations are those of the files, which are scalar ... *)
Theorem C129_xforms : forall d, forall c sts, means c sts -> xforms_fine d sts -> exists xs, read_xforms d c = Ok xs /\ forall id, assoc xs id = xform_of d sts id.
Proof. exact xforms_ok. Qed.
Print Assumptions C129_xforms.

(** C129.  ... or the program ends. *)
Theorem C129_xforms_only : forall d, forall c sts xs, means c sts -> read_xforms d c = Ok xs -> xforms_fine d sts /\ forall id, assoc xs id = xform_of d sts id.
Proof. exact xforms_inv. Qed.
Print Assumptions C129_xforms_only.

(** C129.  Input files: name in use, missing file, other quantum numbers. *)
Theorem C129_input_refused : forall d spline crme am_rme inv_sqrt_4pi racah, let construct := construct d spline crme am_rme inv_sqrt_4pi racah in
  forall tsp xs id file q ops,
  (assoc ops id <> None -> construct tsp xs (OInput id file q) ops = Exit)
  /\ (d_ob d file = None -> construct tsp xs (OInput id file q) ops = Exit)
  /\ (forall f, assoc ops id = None -> d_ob d file = Some f -> of_q f <> q -> construct tsp xs (OInput id file q) ops = AssertFail).
Proof. exact input_refused. Qed.
Print Assumptions C129_input_refused.

(** C129.  Generated operators: name in use, missing orbitals. *)
Theorem C129_builtin_refused : forall d spline crme am_rme inv_sqrt_4pi racah, let construct := construct d spline crme am_rme inv_sqrt_4pi racah in
  forall tsp xs id file ops, assoc ops id <> None \/ (file <> "" /\ d_orbitals d file = None) -> construct tsp xs (OBuiltin id file) ops = Exit.
Proof. exact builtin_refused. Qed.
Print Assumptions C129_builtin_refused.

(** C129.  A file between different spaces is read as an operator on its ket space ... *)
Theorem C129_two_spaces : forall d spline crme am_rme inv_sqrt_4pi racah, let construct := construct d spline crme am_rme inv_sqrt_4pi racah in
  forall tsp xs id file f ops, assoc ops id = None -> d_ob d file = Some f ->
  construct tsp xs (OInput id file (of_q f)) ops = Ok ((id, data_of (of_ket f) (of_q f) (sectors_of (of_ket f) (of_ket f) (of_q f)) (of_blocks f)) :: ops).
Proof. exact two_spaces. Qed.
Print Assumptions C129_two_spaces.

(** C129 refuted: ... so that elements of one orbital are taken for those of another. *)
Theorem C129_two_spaces_refuted : forall spline crme am_rme inv racah tsp xs x, of_bra (two_file x) <> of_ket (two_file x)
  /\ op_ok (of_bra (two_file x)) (of_ket (two_file x)) (of_sectors (two_file x)) (of_blocks (two_file x))
  /\ exists ops, construct (only_ob (two_file x)) spline crme am_rme inv racah tsp xs (OInput "O" "op.dat" (0, 0, 0)%Z) [] = Ok ops
     /\ holds ops "O" [(p3, [0%Z])] (0, 0, 0)%Z (fun _ _ _ _ => x).
Proof. exact two_spaces_refuted. Qed.
Print Assumptions C129_two_spaces_refuted.

(** C129.  A linear combination without terms is accepted; to use it is undefined. *)
Theorem C129_no_terms : forall d spline crme am_rme inv_sqrt_4pi racah, let construct := construct d spline crme am_rme inv_sqrt_4pi racah in
  forall tsp xs id ops, assoc ops id = None -> exists od, construct tsp xs (OLinear id []) ops = Ok ((id, od) :: ops)
  /\ forall c xs' tgt id2, tb_channel d c xs' ((id, od) :: ops) tgt (TOperatorU id2 id) = UB.
Proof. exact no_terms. Qed.
Print Assumptions C129_no_terms.

(** C129 refuted: such a control file. *)
Theorem C129_no_terms_refuted : forall osc spline crme am_rme inv racah F1 F2 F12 tol,
  h2mixer case_disk osc case_mk case_sec spline crme am_rme inv racah F1 F2 F12 tol empty_lines = UB.
Proof. exact no_terms_refuted. Qed.
Print Assumptions C129_no_terms_refuted.

Example C129_case : forall crme am_rme racah, stage case_disk crme am_rme racah (forget (mk_wspace case_kept)) (xform_of case_disk case_sts) (the_channels case_sts) case_env.
Proof. exact stage_case. Qed.

(** C130.  From the control file to the elements of the targets. *)
Theorem C130_program : forall d oscillator_orbitals mk_space mk_sectors spline crme am_rme inv_sqrt_4pi racah F1 F2 F12 tol, let setting := setting d oscillator_orbitals mk_space mk_sectors in
  let h2mixer := h2mixer d oscillator_orbitals mk_space mk_sectors spline crme am_rme inv_sqrt_4pi racah F1 F2 F12 tol in
  (forall j' j j'' Ja Jb J, ~ coupled j (2 * J) j' -> racah j' j j'' Ja Jb J = 0) ->
  forall lines sts os tgt env, Forall2 says lines sts -> placed sts -> setting sts os tgt -> xforms_fine d sts ->
  stage d crme am_rme racah (forget (mk_wspace os)) (xform_of d sts) (the_channels sts) env ->
  target_fine sts tgt -> NoDup (map tb_id (all_of tb_of sts)) -> Forall (usable d sts F12 env tgt) (all_of tb_of sts) ->
  exists out, h2mixer lines = Ok (all_of target_of sts, out) /\ length out = length (ti_sectors tgt)
  /\ forall i ts row, nth_error (ti_sectors tgt) i = Some ts -> nth_error out i = Some row ->
     length row = length (all_of target_of sts)
  /\ forall k name terms m, nth_error (sections target_of term_of sts) k = Some (name, terms) -> nth_error row k = Some m ->
     dims m ts /\ forall a b, (a < rows m)%nat -> (b < cols m)%nat ->
     exists v, (forall s, In s (all_of tb_of sts) -> worth d sts F1 F2 F12 env tgt ts a b s (v (tb_id s)))
       /\ (forall id, ~ In id (map tb_id (all_of tb_of sts)) -> v id = 0) /\ chopped tol (combination terms v) (at_ m a b).
Proof. exact program_ok. Qed.
Print Assumptions C130_program.

(** C130.  What every run that ends well has found in its control file. *)
Theorem C130_runs : forall d oscillator_orbitals mk_space mk_sectors spline crme am_rme inv_sqrt_4pi racah F1 F2 F12 tol, let setting := setting d oscillator_orbitals mk_space mk_sectors in
  let h2mixer := h2mixer d oscillator_orbitals mk_space mk_sectors spline crme am_rme inv_sqrt_4pi racah F1 F2 F12 tol in
  forall lines names out, h2mixer lines = Ok (names, out) -> exists sts os tgt, Forall2 says lines sts /\ placed sts /\ setting sts os tgt /\ xforms_fine d sts
  /\ NoDup (map id_of (the_channels sts)) /\ names = all_of target_of sts /\ length out = length (ti_sectors tgt) /\ Forall (fun row => length row = length names) out.
Proof. exact program_inv. Qed.
Print Assumptions C130_runs.

Example C130_case : forall osc spline crme am_rme inv F1 F2 F12, exists m,
  h2mixer case_disk osc case_mk case_sec spline crme am_rme inv (fun _ _ _ _ _ _ => 0) F1 F2 F12 (/ 10) case_lines = Ok (["h.bin"], [[m]]) /\ at_ m 0 0 = 17.
Proof. exact program_case. Qed.

Example C130_xform_case : forall osc spline crme am_rme inv F1 F2 F12, exists m,
  h2mixer xform_disk osc case_mk case_sec spline crme am_rme inv (fun _ _ _ _ _ _ => 0) F1 F2 F12 (/ 10) xform_lines = Ok (["t.bin"], [[m]]) /\ at_ m 0 0 = 80.
Proof. exact xform_case. Qed.

