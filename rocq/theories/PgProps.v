(** C161-C164: the programs pn2rel and relative-filter.
    The definitions used in the statements are in PgProof.v (line_between, pn_interaction), PnSpec.v (lines), RgnSpec.v and RgnJpv.v (files, operators), RelxSpec.v, MosSpec.v and TrfSpec.v (moshinsky), PgModel.v (code), and, in the cases, PgCase.v,
    RgnCase.v, MosCase.v and TrfCase.v. *)
From Coq Require Import String List ZArith Reals Bool.
From Verif Require Import Base RMat BaseLemmas OscModel OscSpec OscFinal BlockModel BlockProof ObioModel MixSpec MoshModel JpvModel JpvSpec IsoModel IsoSpec PnModel PnSpec TrfModel TrfSpec TrfCase RmeModel RmeSpec RelxModel RelxSpec RgModel HmCase MosModel MosSpec MosFile MosCase RgnModel RgnSpec RgnInput RgnProof RgnFile RgnJpv RgnChain RgnCase PgModel PgProof PgCase.
Import ListNotations.
Open Scope Z_scope.

(** C161.  pn2rel: the operator written has the isospin components of the interactions of pp, nn and pn in the file; the isospin projection in the file is that of the opposite sign. *)
Theorem C161_made : forall B to_int disk name a b source target more Nmax Jmax V lines, to_int a = Some Nmax -> to_int b = Some Jmax -> disk source = Some lines ->
  let sp := space_of B Nmax Jmax in rme_space Nmax sp -> rspace_ok sp -> (forall Tz, symmetric_V (V Tz)) -> pn_interaction sp V lines -> writable B target = true ->
  exists c, pn_main B to_int disk (name :: a :: b :: source :: target :: more) = Ok (target, RelFile (OpLab 0 0 0 2) Nmax Jmax c) /\ held sp (OpLab 0 0 0 2) c (species_rme V).
Proof. exact pn_made. Qed.
Print Assumptions C161_made.

Example C161_case : exists c, pn_main lib0 digits pn_disk args0 = Ok ("in.dat"%string, RelFile (OpLab 0 0 0 2) 0 1 c) /\ held (spaces0 0 1) (OpLab 0 0 0 2) c (species_rme V3).
Proof. exact pn_case. Qed.

Example C161_file_case : pn_interaction (spaces0 0 1) V3 (map pn_line plines0).
Proof. exact pn_file_case. Qed.

(** C162.  A run of pn2rel that ends with success had five arguments, of which two are numbers, and read every line of its file. *)
Theorem C162_only : forall B to_int disk args target f, pn_main B to_int disk args = Ok (target, f) -> exists name a b source more lines, args = name :: a :: b :: source :: target :: more
  /\ to_int a = Some (rf_Nmax f) /\ to_int b = Some (rf_Jmax f) /\ disk source = Some lines /\ rf_o f = OpLab 0 0 0 2 /\ writable B target = true /\ Forall (fun l => exists p, line_text p l) lines.
Proof. exact pn_only. Qed.
Print Assumptions C162_only.

(** C162.  A file which is not there ends the program. *)
Theorem C162_missing : forall B to_int disk name a b source target more Nmax Jmax, to_int a = Some Nmax -> to_int b = Some Jmax -> disk source = None ->
  pn_main B to_int disk (name :: a :: b :: source :: target :: more) = Exit.
Proof. exact pn_missing. Qed.
Print Assumptions C162_missing.

(** C162.  So does a line which cannot be read, or is about states which are not in the space. *)
Theorem C162_unreadable : forall B to_int disk name a b source target more Nmax Jmax good l rest, to_int a = Some Nmax -> to_int b = Some Jmax -> disk source = Some (good ++ l :: rest) ->
  let sp := space_of B Nmax Jmax in rme_space Nmax sp -> rspace_ok sp -> (exists ps, Forall2 (fun p l => line_text p l /\ line_between sp p) ps good) ->
  (forall p, ~ line_text p l) \/ (exists p, line_text p l /\ ((forall x, In x sp -> (r_L x, r_S x, r_J x) <> (pl_L p, pl_S p, pl_J p)) \/ (forall x, In x sp -> (r_L x, r_S x, r_J x) <> (pl_Lp p, pl_S p, pl_J p)))) ->
  pn_main B to_int disk (name :: a :: b :: source :: target :: more) = Exit.
Proof. exact pn_unreadable. Qed.
Print Assumptions C162_unreadable.

Example C162_case : pn_main lib0 digits pn_disk ["pn2rel"; "0"]%string = Exit /\ pn_main lib0 digits pn_disk ["pn2rel"; "0"; "1"; "w.dat"; "in.dat"]%string = Exit
  /\ pn_main lib0 digits pn_disk ["pn2rel"; "0"; "1"; "v.dat"]%string = UB
  /\ pn_main lib0 digits (fun _ => Some (map pn_line plines0 ++ [[TInt 0; TInt 0]])) args0 = Exit.
Proof. exact pn_refused_case. Qed.

(** C163.  relative-filter: the file written holds the operator of the source, whatever the rest of the input says. *)
Theorem C163_made : forall B disk source target rest lines f F, disk source = Some f -> let sp := space_of B (rf_Nmax f) (rf_Jmax f) in 0 <= o_T0_min (rf_o f) -> o_T0_max (rf_o f) <= 2 ->
  held sp (rf_o f) (rf_c f) F -> writable B target = true ->
  exists c, filter_main B disk ((source :: target :: rest) :: lines) = Ok (target, RelFile (rf_o f) (rf_Nmax f) (rf_Jmax f) c) /\ held sp (rf_o f) c F.
Proof. exact filter_made. Qed.
Print Assumptions C163_made.

(** C163.  Lines after the first are not looked at. *)
Theorem C163_ignored : forall B disk l rest rest', filter_main B disk (l :: rest) = filter_main B disk (l :: rest').
Proof. exact filter_ignored. Qed.
Print Assumptions C163_ignored.

(** C163.  Labels and truncation of the file written are those of the source. *)
Theorem C163_only : forall B disk lines name g, filter_main B disk lines = Ok (name, g) -> exists source rest more f, lines = (source :: name :: rest) :: more /\ disk source = Some f
  /\ rf_o g = rf_o f /\ rf_Nmax g = rf_Nmax f /\ rf_Jmax g = rf_Jmax f /\ writable B name = true.
Proof. exact filter_only. Qed.
Print Assumptions C163_only.

(** C163.  Without two names the program ends. *)
Theorem C163_refused : forall B disk lines, (forall source target rest more, lines <> (source :: target :: rest) :: more) -> filter_main B disk lines = Exit.
Proof. exact filter_refused. Qed.
Print Assumptions C163_refused.

(** C163.  So it does without the source. *)
Theorem C163_missing : forall B disk source target rest lines, disk source = None -> filter_main B disk ((source :: target :: rest) :: lines) = Exit.
Proof. exact filter_missing. Qed.
Print Assumptions C163_missing.

Example C163_case : forall word, exists c, filter_main lib0 disk2 [["a.dat"; "b.dat"; word]]%string = Ok ("b.dat"%string, RelFile scalar0 2 0 c) /\ held (spaces0 2 0) scalar0 c F2.
Proof. exact filter_case. Qed.

Example C163_refused_case : filter_main lib0 disk2 [["a.dat"]]%string = Exit /\ filter_main lib0 disk2 [["c.dat"; "b.dat"]]%string = Exit /\ filter_main lib0 disk2 [] = Exit.
Proof. exact filter_refused_case. Qed.

Example C163_pn_case : exists f g c, pn_main lib0 digits pn_disk args0 = Ok ("in.dat"%string, f) /\ filter_main lib0 (fun s => if String.eqb s "in.dat" then Some f else None) [["in.dat"; "out.dat"]]%string = Ok ("out.dat"%string, g)
  /\ rf_c g = c /\ held (spaces0 0 1) (OpLab 0 0 0 2) c (species_rme V3).
Proof. exact pn_filter_case. Qed.

(** C164.  pn2rel followed by moshinsky. *)
Theorem C164_pn : forall u6jz racah1 u9j mosh flip tol M B, let mos_run := mos_run u6jz racah1 u9j mosh flip tol M in
  let two_body p Jmax J0 F := jt_rme (jt_of M (m_rank p) (m_cutoff p)) (jj_rme u9j (tb_rme mosh (relcm_rme u6jz racah1 Jmax J0 F))) in
  forall to_int disk name a b source target more Nmax Jmax V lines q pn, to_int a = Some Nmax -> to_int b = Some Jmax -> disk source = Some lines ->
  let sp := space_of B Nmax Jmax in rel_space Nmax Jmax sp -> (forall Tz, symmetric_V (V Tz)) -> pn_interaction sp V lines -> writable B target = true ->
  flip_ok flip -> racah_flip racah1 flip 0 ->
  exists f, pn_main B to_int disk (name :: a :: b :: source :: target :: more) = Ok (target, f) /\
  (m_source q = target -> reads_back B M target f -> ready M flip (OpLab 0 0 0 2) Nmax q pn ->
   exists bs, mos_run q = Ok (Some (m_target q, FH2 (m_format q) bs)) /\ h2_blocks tol (OpLab 0 0 0 2) pn (pn_sectors M pn 0 0 (m_Tz0 q)) (two_body q Jmax 0 (species_rme V)) bs).
Proof. exact pn_then_moshinsky. Qed.
Print Assumptions C164_pn.

(** C164.  relative-filter followed by moshinsky. *)
Theorem C164_filter : forall u6jz racah1 u9j mosh flip tol M B, let mos_run := mos_run u6jz racah1 u9j mosh flip tol M in
  let two_body p Jmax J0 F := jt_rme (jt_of M (m_rank p) (m_cutoff p)) (jj_rme u9j (tb_rme mosh (relcm_rme u6jz racah1 Jmax J0 F))) in
  forall disk source target rest lines f F q pn, disk source = Some f -> let sp := space_of B (rf_Nmax f) (rf_Jmax f) in rel_space (rf_Nmax f) (rf_Jmax f) sp ->
  0 <= o_T0_min (rf_o f) -> o_T0_max (rf_o f) <= 2 -> held sp (rf_o f) (rf_c f) F -> hermitian_rel flip F -> writable B target = true -> flip_ok flip -> racah_flip racah1 flip (o_J0 (rf_o f)) ->
  exists g, filter_main B disk ((source :: target :: rest) :: lines) = Ok (target, g) /\
  (m_source q = target -> reads_back B M target g -> ready M flip (rf_o f) (rf_Nmax f) q pn ->
   exists bs, mos_run q = Ok (Some (m_target q, FH2 (m_format q) bs)) /\ h2_blocks tol (rf_o f) pn (pn_sectors M pn (o_J0 (rf_o f)) (o_g0 (rf_o f)) (m_Tz0 q)) (two_body q (rf_Jmax f) (o_J0 (rf_o f)) F) bs).
Proof. exact filter_then_moshinsky. Qed.
Print Assumptions C164_filter.

Example C164_pn_case : forall tol, exists c bs, pn_main lib0 digits pn_disk args0 = Ok ("in.dat"%string, RelFile (OpLab 0 0 0 2) 0 1 c)
  /\ mos_main one6 one7 one7 one9 one5 tol (basis_2 c) (-1) in_rel_h2 = Ok (Some ("out.bin"%string, FH2 15099 bs))
  /\ h2_blocks tol (OpLab 0 0 0 2) pn0 [(0, 0); (1, 1); (2, 2); (3, 3)]%nat (jt_rme jt0 (jj_rme one7 (tb_rme one9 (relcm_rme one6 one7 1 0 (species_rme V3))))) bs.
Proof. exact pn_chain_case. Qed.

Example C164_filter_case : forall tol v w, exists f c bs, jpv_main lib0 3 (disk_v v w) in_jpv = Some (Ok ("in.dat"%string, f))
  /\ filter_main lib0 (fun s => if String.eqb s "in.dat" then Some f else None) [["in.dat"; "in.dat"]]%string = Ok ("in.dat"%string, RelFile scalar0 0 1 c)
  /\ mos_main one6 one7 one7 one9 one5 tol (basis_with c) (-1) in_rel_h2 = Ok (Some ("out.bin"%string, FH2 15099 bs))
  /\ h2_blocks tol scalar0 pn0 [(0, 0); (1, 1); (2, 2); (3, 3)]%nat (jt_rme jt0 (jj_rme one7 (tb_rme one9 (relcm_rme one6 one7 1 0 (isoscalar_rme (V0 v w)))))) bs.
Proof. exact filter_chain_case. Qed.

