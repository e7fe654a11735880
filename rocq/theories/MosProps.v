(** C142-C145: the program moshinsky.
    The definitions used in the statements are in MosSpec.v (input, file, module basis), TrfSpec.v (formulas of the transformations), IsoSpec.v (Wigner-Eckart),
    MosModel.v (code), and, in the cases, MosCase.v and TrfCase.v. *)
From Coq Require Import String List ZArith Reals Bool.
From Verif Require Import Base RMat OscModel BlockModel MixSpec JpvModel IsoModel IsoSpec TrfModel TrfSpec TrfCase RgModel HmCase MosModel MosSpec MosProof MosFile MosCase.
Import ListNotations.
Open Scope Z_scope.

(** C142.  Three lines are read as what they mean, and nothing else is read. *)
Theorem C142_input : forall none ls p, mos_read none ls = Ok p <-> input_means none ls p.
Proof. exact mos_read_iff. Qed.
Print Assumptions C142_input.

(** C142.  Other input ends the program. *)
Theorem C142_refused : forall none ls, (forall p, ~ input_means none ls p) -> mos_read none ls = Exit.
Proof. exact mos_read_refuses. Qed.
Print Assumptions C142_refused.

(** C142.  Input has one meaning. *)
Theorem C142_one_meaning : forall none ls p p', input_means none ls p -> input_means none ls p' -> p = p'.
Proof. exact input_unique. Qed.
Print Assumptions C142_one_meaning.

Example C142_case : mos_read (-1) in_rel_h2 = Ok p_rel_h2
  /\ mos_read (-1) [[tx "ob"; iw "4" 4]; [tx "in.dat"; tx "relcm"]; [tx "out.dat"; tx "lsjt"]] = Ok (MParams OneBody 4 "in.dat" KRelcm "out.dat" KLsjt (-1) 0).
Proof. exact input_case. Qed.

Example C142_refused_case : mos_read (-1) [[tx "tb"; iw "0" 0]; [tx "in.dat"; tx "rel"]; [tx "out.bin"; tx "jjjpn"; iw "15099" 15099]] = Exit
  /\ mos_read (-1) [[tx "three"; iw "0" 0]; [tx "in.dat"; tx "rel"]; [tx "out.dat"; tx "lsjt"]] = Exit
  /\ mos_read (-1) [[tx "tb"; iw "0" 0]; [tx "in.dat"; tx "rel"]] = Exit.
Proof. exact input_refused_case. Qed.

(** C143.  A run that ends with success was one of seven transformations and wrote the target file in the target coupling, or nothing for lsjt and jjjt files which cannot be written. *)
Theorem C143_only : forall u6jz racah1 u9j mosh flip tol B, let mos_run := mos_run u6jz racah1 u9j mosh flip tol B in
  forall p w, mos_run p = Ok w ->
  In (m_from p, m_to p) possible /\
  ((w = None /\ (m_to p = KLsjt \/ m_to p = KJjjt) /\ can_write B (m_target p) = false)
   \/ exists f, w = Some (m_target p, f) /\ in_coupling (m_to p) (m_format p) f /\ can_write B (m_target p) = true).
Proof. exact run_form. Qed.
Print Assumptions C143_only.

(** C143.  It had a source of the coupling rel or relcm, which it read. *)
Theorem C143_source : forall u6jz racah1 u9j mosh flip tol B, let mos_run := mos_run u6jz racah1 u9j mosh flip tol B in
  forall p w, mos_run p = Ok w ->
  (m_from p = KRel /\ exists r, read_rel B (m_source p) = Ok r) \/ (m_from p = KRelcm /\ exists r, read_cm B (m_source p) = Ok r).
Proof. exact run_source. Qed.
Print Assumptions C143_source.

(** C143.  All others end the program, whatever the files. *)
Theorem C143_impossible : forall u6jz racah1 u9j mosh flip tol B, let mos_run := mos_run u6jz racah1 u9j mosh flip tol B in
  forall p, ~ In (m_from p, m_to p) possible -> mos_run p = Exit.
Proof. exact run_impossible. Qed.
Print Assumptions C143_impossible.

Example C143_case : forall u6jz racah1 u9j mosh flip tol B, exists p, mos_read (-1) [[tx "tb"; iw "0" 0]; [tx "in.dat"; tx "lsjt"]; [tx "out.dat"; tx "rel"]] = Ok p
  /\ mos_run u6jz racah1 u9j mosh flip tol B p = Exit.
Proof. exact inverse_case. Qed.

(** C144.  From a relative operator: a block for every sector, with the antisymmetrized matrix elements of the operator. *)
Theorem C144_h2 : forall u6jz racah1 u9j mosh flip tol B, let mos_run := mos_run u6jz racah1 u9j mosh flip tol B in
  forall p o rs c F pn, m_from p = KRel -> m_to p = KJjjpn -> read_rel B (m_source p) = Ok (o, rs, c) -> flip_ok flip -> racah_flip racah1 flip (o_J0 o) ->
  0 <= o_T0_min o -> o_T0_max o <= 2 -> rel_complete rs -> stores_rel rs o c F -> hermitian_rel flip F ->
  let cm := cm_of B (quanta_max (m_rank p) (m_cutoff p)) in
  Forall (fun x => b_N (fst x) <= rel_Nmax rs) cm -> spaces_ok B cm (m_rank p) (m_cutoff p) -> jj_spaces_ok flip B o (m_rank p) (m_cutoff p) ->
  pn_spaces_ok B o (m_rank p) (m_cutoff p) (m_format p) (m_Tz0 p) pn -> can_write B (m_target p) = true -> 0 <= m_Tz0 p ->
  exists bs, mos_run p = Ok (Some (m_target p, FH2 (m_format p) bs))
  /\ h2_blocks tol o pn (pn_sectors B pn (o_J0 o) (o_g0 o) (m_Tz0 p))
       (jt_rme (jt_of B (m_rank p) (m_cutoff p)) (jj_rme u9j (tb_rme mosh (relcm_rme u6jz racah1 (rel_Jmax rs) (o_J0 o) F)))) bs.
Proof. exact run_rel_pn. Qed.
Print Assumptions C144_h2.

(** C144.  From a relative-cm operator. *)
Theorem C144_h2_relcm : forall u6jz racah1 u9j mosh flip tol B, let mos_run := mos_run u6jz racah1 u9j mosh flip tol B in
  forall p o N c G pn, m_from p = KRelcm -> m_to p = KJjjpn -> read_cm B (m_source p) = Ok (o, N, c) -> flip_ok flip ->
  0 <= o_T0_min o -> o_T0_max o <= 2 -> stores_ls (cm_of B N) o c G -> TrfSpec.hermitian flip b_J b_T G ->
  spaces_ok B (cm_of B N) (m_rank p) (m_cutoff p) -> jj_spaces_ok flip B o (m_rank p) (m_cutoff p) ->
  pn_spaces_ok B o (m_rank p) (m_cutoff p) (m_format p) (m_Tz0 p) pn -> can_write B (m_target p) = true -> 0 <= m_Tz0 p ->
  exists bs, mos_run p = Ok (Some (m_target p, FH2 (m_format p) bs))
  /\ h2_blocks tol o pn (pn_sectors B pn (o_J0 o) (o_g0 o) (m_Tz0 p)) (jt_rme (jt_of B (m_rank p) (m_cutoff p)) (jj_rme u9j (tb_rme mosh G))) bs.
Proof. exact run_relcm_pn. Qed.
Print Assumptions C144_h2_relcm.

(** C144.  Target relcm: the relative-cm operator is what is gathered and written. *)
Theorem C144_relcm : forall u6jz racah1 u9j mosh flip tol B, let mos_run := mos_run u6jz racah1 u9j mosh flip tol B in
  forall p o rs c F, m_from p = KRel -> m_to p = KRelcm -> read_rel B (m_source p) = Ok (o, rs, c) -> flip_ok flip ->
  0 <= o_T0_min o -> o_T0_max o <= 2 -> rel_complete rs -> stores_rel rs o c F -> hermitian_rel flip F ->
  let cm := cm_of B (quanta_max (m_rank p) (m_cutoff p)) in Forall (fun x => b_N (fst x) <= rel_Nmax rs) cm -> cm_space cm -> can_write B (m_target p) = true ->
  exists c1, stores_ls cm o c1 (relcm_rme u6jz racah1 (rel_Jmax rs) (o_J0 o) F) /\
  forall g, gather_cm B o cm c1 (quanta_max (m_rank p) (m_cutoff p)) = Ok g -> mos_run p = Ok (Some (m_target p, FRelcm o g)).
Proof. exact run_rel_relcm. Qed.
Print Assumptions C144_relcm.

(** C144.  Target lsjt, from a relative operator ... *)
Theorem C144_lsjt : forall u6jz racah1 u9j mosh flip tol B, let mos_run := mos_run u6jz racah1 u9j mosh flip tol B in
  forall p o rs c F, m_from p = KRel -> m_to p = KLsjt -> read_rel B (m_source p) = Ok (o, rs, c) -> flip_ok flip ->
  0 <= o_T0_min o -> o_T0_max o <= 2 -> rel_complete rs -> stores_rel rs o c F -> hermitian_rel flip F ->
  let cm := cm_of B (quanta_max (m_rank p) (m_cutoff p)) in Forall (fun x => b_N (fst x) <= rel_Nmax rs) cm -> spaces_ok B cm (m_rank p) (m_cutoff p) ->
  exists c', stores_ls (tb_of B (m_rank p) (m_cutoff p)) o c' (tb_rme mosh (relcm_rme u6jz racah1 (rel_Jmax rs) (o_J0 o) F)) /\
  forall g, gather_ls B o (tb_of B (m_rank p) (m_cutoff p)) c' (m_rank p) (m_cutoff p) = Ok g -> has_components o g ->
  mos_run p = Ok (if can_write B (m_target p) then Some (m_target p, FLsjt o g) else None).
Proof. exact run_rel_lsjt. Qed.
Print Assumptions C144_lsjt.

(** C144.  ... and from a relative-cm operator. *)
Theorem C144_lsjt_relcm : forall u6jz racah1 u9j mosh flip tol B, let mos_run := mos_run u6jz racah1 u9j mosh flip tol B in
  forall p o N c G, m_from p = KRelcm -> m_to p = KLsjt -> read_cm B (m_source p) = Ok (o, N, c) -> 0 <= o_T0_min o -> o_T0_max o <= 2 ->
  stores_ls (cm_of B N) o c G -> spaces_ok B (cm_of B N) (m_rank p) (m_cutoff p) ->
  exists c', stores_ls (tb_of B (m_rank p) (m_cutoff p)) o c' (tb_rme mosh G) /\
  forall g, gather_ls B o (tb_of B (m_rank p) (m_cutoff p)) c' (m_rank p) (m_cutoff p) = Ok g -> has_components o g ->
  mos_run p = Ok (if can_write B (m_target p) then Some (m_target p, FLsjt o g) else None).
Proof. exact run_relcm_lsjt. Qed.
Print Assumptions C144_lsjt_relcm.

(** C144.  Target jjjt, from a relative operator ... *)
Theorem C144_jjjt : forall u6jz racah1 u9j mosh flip tol B, let mos_run := mos_run u6jz racah1 u9j mosh flip tol B in
  forall p o rs c F, m_from p = KRel -> m_to p = KJjjt -> read_rel B (m_source p) = Ok (o, rs, c) -> flip_ok flip -> racah_flip racah1 flip (o_J0 o) ->
  0 <= o_T0_min o -> o_T0_max o <= 2 -> rel_complete rs -> stores_rel rs o c F -> hermitian_rel flip F ->
  let cm := cm_of B (quanta_max (m_rank p) (m_cutoff p)) in Forall (fun x => b_N (fst x) <= rel_Nmax rs) cm -> spaces_ok B cm (m_rank p) (m_cutoff p) -> jj_spaces_ok flip B o (m_rank p) (m_cutoff p) ->
  exists g, gathered o (jt_of B (m_rank p) (m_cutoff p)) g (jj_rme u9j (tb_rme mosh (relcm_rme u6jz racah1 (rel_Jmax rs) (o_J0 o) F))) /\
  mos_run p = Ok (if can_write B (m_target p) then Some (m_target p, FJjjt o g) else None).
Proof. exact run_rel_jjjt. Qed.
Print Assumptions C144_jjjt.

(** C144.  ... and from a relative-cm operator. *)
Theorem C144_jjjt_relcm : forall u6jz racah1 u9j mosh flip tol B, let mos_run := mos_run u6jz racah1 u9j mosh flip tol B in
  forall p o N c G, m_from p = KRelcm -> m_to p = KJjjt -> read_cm B (m_source p) = Ok (o, N, c) -> 0 <= o_T0_min o -> o_T0_max o <= 2 ->
  stores_ls (cm_of B N) o c G -> TrfSpec.hermitian flip b_J b_T G -> spaces_ok B (cm_of B N) (m_rank p) (m_cutoff p) -> jj_spaces_ok flip B o (m_rank p) (m_cutoff p) ->
  exists g, gathered o (jt_of B (m_rank p) (m_cutoff p)) g (jj_rme u9j (tb_rme mosh G)) /\
  mos_run p = Ok (if can_write B (m_target p) then Some (m_target p, FJjjt o g) else None).
Proof. exact run_relcm_jjjt. Qed.
Print Assumptions C144_jjjt_relcm.

Example C144_case : forall tol x y, exists bs m1 m2, mos_main one6 one7 one7 one9 one5 tol (basis0 true x y) (-1) in_rel_h2 = Ok (Some ("out.bin"%string, FH2 15099 bs))
  /\ map fst bs = [(0, 0); (1, 1); (2, 2); (3, 3)]%nat /\ In (0%nat, 0%nat, m1) bs /\ In (2%nat, 2%nat, m2) bs /\ chopped tol (2 * x) (at_ m1 0 0) /\ chopped tol y (at_ m2 0 0).
Proof. exact h2_case. Qed.

Example C144_relcm_case : forall tol x y, exists bs, run0 tol true x y (MParams TwoBody 0 "in.dat" KRelcm "out.bin" KJjjpn 15099 0) = Ok (Some ("out.bin"%string, FH2 15099 bs)).
Proof. exact relcm_source_case. Qed.

(** C145 refuted: the program ends with success although no file was written. *)
Theorem C145_unwritten_refuted : exists u6jz racah1 u9j mosh flip tol B p p', m_to p = KLsjt /\ m_to p' = KJjjt
  /\ mos_run u6jz racah1 u9j mosh flip tol B p = Ok None /\ mos_run u6jz racah1 u9j mosh flip tol B p' = Ok None.
Proof. exact nothing_written. Qed.
Print Assumptions C145_unwritten_refuted.

(** C145.  An unknown format of the target never ends with success. *)
Theorem C145_format : forall u6jz racah1 u9j mosh flip tol B p, m_to p = KJjjpn -> ~ In (m_format p) [0; 15099; 15200] ->
  forall w, mos_run u6jz racah1 u9j mosh flip tol B p <> Ok w.
Proof. exact unknown_format. Qed.
Print Assumptions C145_format.

Example C145_format_case : forall tol x y, run0 tol true x y (MParams TwoBody 0 "in.dat" KRel "out.bin" KJjjpn 15000 0) = Exit.
Proof. exact format_case. Qed.

(** C145.  A negative Tz0 for which there are sectors fails an assertion, after the file was opened ... *)
Theorem C145_negative : forall u6jz racah1 u9j mosh flip tol B, let mos_run := mos_run u6jz racah1 u9j mosh flip tol B in
  forall p o rs c F pn, m_from p = KRel -> m_to p = KJjjpn -> read_rel B (m_source p) = Ok (o, rs, c) -> flip_ok flip -> racah_flip racah1 flip (o_J0 o) ->
  0 <= o_T0_min o -> o_T0_max o <= 2 -> rel_complete rs -> stores_rel rs o c F -> hermitian_rel flip F ->
  let cm := cm_of B (quanta_max (m_rank p) (m_cutoff p)) in
  Forall (fun x => b_N (fst x) <= rel_Nmax rs) cm -> spaces_ok B cm (m_rank p) (m_cutoff p) -> jj_spaces_ok flip B o (m_rank p) (m_cutoff p) ->
  pn_spaces_ok B o (m_rank p) (m_cutoff p) (m_format p) (m_Tz0 p) pn -> can_write B (m_target p) = true -> m_Tz0 p < 0 -> pn_sectors B pn (o_J0 o) (o_g0 o) (m_Tz0 p) <> [] ->
  mos_run p = AssertFail.
Proof. exact run_rel_negative. Qed.
Print Assumptions C145_negative.

Example C145_negative_case : forall tol x y, run0 tol true x y (MParams TwoBody 0 "in.dat" KRel "out.bin" KJjjpn 15099 (-1)) = AssertFail.
Proof. exact negative_case. Qed.

Example C145_empty_case : forall tol x y, run0 tol true x y (MParams TwoBody 0 "in.dat" KRel "out.bin" KJjjpn 15099 2) = Ok (Some ("out.bin"%string, FH2 15099 [])).
Proof. exact empty_case. Qed.

(** C145 refuted: a relative-cm file which does not reach the two-body space leaves the outcome undefined. *)
Theorem C145_too_small_refuted : exists B p G, m_from p = KRelcm /\ m_to p = KLsjt /\ read_cm B (m_source p) = Ok (scalar0, 0, [([(0, 0)%nat], [block0 1]); ([], []); ([], [])])
  /\ cm_space (cm_of B 0) /\ stores_ls (cm_of B 0) scalar0 [([(0, 0)%nat], [block0 1]); ([], []); ([], [])] G /\ tb_space (tb_of B TwoBody 0)
  /\ forall tol, mos_run one6 one7 one7 one9 one5 tol B p = UB.
Proof. exact relcm_too_small. Qed.
Print Assumptions C145_too_small_refuted.

Example C145_rel_too_small : forall tol, mos_run one6 one7 one7 one9 one5 tol
  (BasisLib (fun _ => cm2) (fun _ _ => ls0) (fun _ _ => jj0) (fun _ _ => jt0) (fun _ _ _ => pn0) sectors0 (fun _ _ c _ => Ok c) (fun _ _ c _ _ => Ok c) (fun _ _ c _ => Ok c)
     (fun _ => Ok (scalar0, rel0, diag0 1 1)) (fun _ => Exit) (fun _ => true))
  (MParams TwoBody 2 "in.dat" KRel "out.dat" KLsjt (-1) 0) = AssertFail.
Proof. exact rel_too_small. Qed.

