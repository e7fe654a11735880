(** C100-C105: natorb-gen, radial-compose, radial-xform.
    The definitions used in the statements are in NatSpec.v (full matrices, what the eigensolver and std::sort promise, densities), BlockSpec.v (blocks and
    sectors) and NatModel.v (code). *)
From Coq Require Import List ZArith Reals Bool Sorted Permutation.
From Verif Require Import Base RMat H2Model MapModel OscModel BlockModel BlockSpec ObioModel ObmModel ObmSpec NatModel NatSpec NatProof NatFinal NatMain NatCase.
Import ListNotations.
Open Scope R_scope.

(** C100.  For a symmetric density the transformation is orthogonal and diagonalises it; occupations descend and sum up to the trace; the info file lists them. *)
Theorem C100_natural_orbitals : forall solve sort os d ms info, sorts sort -> spin_orbitals os -> let sp := forget (mk_wspace os) in density_ok sp d ms -> Forall (solves solve) ms ->
  (forall A a B b, state sp A a -> state sp B b -> rho sp ms A a B b = rho sp ms B b A a) ->
  exists out occ, natorb_main solve sort (NPar (mk_wspace os) (Some (sp, d)) (Some info)) = Ok out
  /\ isometry (no_xform out)
  /\ (forall I i K k, state sp I i -> state sp K k ->
      sum_over (mk_wspace os) (fun A a => sum_over (mk_wspace os) (fun B b => value (no_xform out) A a I i * rho sp ms A a B b * value (no_xform out) B b K k)) = delta I i K k * occ I i)
  /\ (forall I i j, (I < length sp)%nat -> (i <= j < sub_dim sp I)%nat -> occ I j <= occ I i)
  /\ (forall I, (I < length sp)%nat -> rsum (sub_dim sp I) (occ I) = rsum (sub_dim sp I) (fun a => rho sp ms I a I a))
  /\ (info = true -> exists L, no_info out = Some L /\ Permutation L (occupations sp occ) /\ StronglySorted (fun a b => oi_w b <= oi_w a) L).
Proof. exact natural_diagonal. Qed.
Print Assumptions C100_natural_orbitals.

(** C100.  Whatever the density, only its lower triangle is used; the transformation is orthogonal in both directions. *)
Theorem C100_lower_triangle : forall solve sort os d ms info, sorts sort -> spin_orbitals os -> let sp := forget (mk_wspace os) in density_ok sp d ms -> Forall (solves solve) ms ->
  exists out occ, natorb_main solve sort (NPar (mk_wspace os) (Some (sp, d)) (Some info)) = Ok out
  /\ isometry (no_xform out)
  /\ (forall A a B b, state sp A a -> state sp B b -> sum_over (rf_ket (no_xform out)) (fun I i => value (no_xform out) A a I i * value (no_xform out) B b I i) = delta A a B b)
  /\ (forall I i K k, state sp I i -> state sp K k ->
      sum_over (mk_wspace os) (fun A a => sum_over (mk_wspace os) (fun B b => value (no_xform out) A a I i * rho_lower sp ms A a B b * value (no_xform out) B b K k)) = delta I i K k * occ I i)
  /\ (forall I i j, (I < length sp)%nat -> (i <= j < sub_dim sp I)%nat -> occ I j <= occ I i)
  /\ (forall I, (I < length sp)%nat -> rsum (sub_dim sp I) (occ I) = rsum (sub_dim sp I) (fun a => rho sp ms I a I a))
  /\ (info = true -> exists L, no_info out = Some L /\ Permutation L (occupations sp occ) /\ StronglySorted (fun a b => oi_w b <= oi_w a) L)
  /\ (info = false -> no_info out = None).
Proof. exact natural_lower. Qed.
Print Assumptions C100_lower_triangle.

(** C101.  The orbital file holds the input orbitals in the order of their weights, and the transformation file fits both lists. *)
Theorem C101_files : forall solve sort os d ms info, sorts sort -> spin_orbitals os -> let sp := forget (mk_wspace os) in density_ok sp d ms -> Forall (solves solve) ms ->
  exists out, natorb_main solve sort (NPar (mk_wspace os) (Some (sp, d)) (Some info)) = Ok out
  /\ Permutation os (no_orbitals out) /\ StronglySorted lighter (no_orbitals out)
  /\ scalar_file (no_xform out) /\ rf_bra (no_xform out) = mk_wspace os /\ rf_ket (no_xform out) = mk_wspace (no_orbitals out)
  /\ map fst (rf_ket (no_xform out)) = map fst (rf_bra (no_xform out))
  /\ (forall I, sub_dim (forget (rf_ket (no_xform out))) I = sub_dim sp I).
Proof. exact natural_files. Qed.
Print Assumptions C101_files.

(** C101.  radial-xform accepts the files and turns the density into the diagonal matrix of the occupations. *)
Theorem C101_xform : forall solve sort os d ms info, sorts sort -> spin_orbitals os -> let sp := forget (mk_wspace os) in density_ok sp d ms -> Forall (solves solve) ms ->
  (forall A a B b, state sp A a -> state sp B b -> rho sp ms A a B b = rho sp ms B b A a) ->
  exists out r, natorb_main solve sort (NPar (mk_wspace os) (Some (sp, d)) (Some info)) = Ok out
  /\ radial_xform os (no_xform out) (RFile false (0, 0, 0)%Z (mk_wspace os) (mk_wspace os) (sectors_of sp sp (0, 0, 0)%Z) ms) = Ok r
  /\ rf_bra r = mk_wspace (no_orbitals out) /\ rf_ket r = mk_wspace (no_orbitals out)
  /\ (forall I i K k, state (forget (rf_bra r)) I i -> state (forget (rf_bra r)) K k -> (I, i) <> (K, k) -> value r I i K k = 0)
  /\ (forall I i j, state (forget (rf_bra r)) I j -> (i <= j)%nat -> value r I j I j <= value r I i I i).
Proof. exact natural_xform. Qed.
Print Assumptions C101_xform.

(** C102.  If n counts from 0 and weights grow with n, the occupation listed for n l j is that of the orbital n l j of the transformation file. *)
Theorem C102_info_labels : forall solve sort os d ms, sorts sort -> spin_orbitals os -> weights_grow os -> let sp := forget (mk_wspace os) in density_ok sp d ms -> Forall (solves solve) ms ->
  (forall A a B b, state sp A a -> state sp B b -> rho sp ms A a B b = rho sp ms B b A a) ->
  exists out L, natorb_main solve sort (NPar (mk_wspace os) (Some (sp, d)) (Some true)) = Ok out /\ no_info out = Some L
  /\ forall I i lab n, orbital_at (forget (rf_ket (no_xform out))) I i lab n ->
     In (OI lab n (sum_over (mk_wspace os) (fun A a => sum_over (mk_wspace os) (fun B b => value (no_xform out) A a I i * rho sp ms A a B b * value (no_xform out) B b I i)))) L.
Proof. exact info_labels_ok. Qed.
Print Assumptions C102_info_labels.

(** C102 refuted for other weights. *)
Theorem C102_info_labels_refuted : exists solve sort os d ms out L, sorts sort /\ spin_orbitals os /\ density_ok (forget (mk_wspace os)) d ms /\ Forall (solves solve) ms
  /\ (forall A a B b, state (forget (mk_wspace os)) A a -> state (forget (mk_wspace os)) B b -> rho (forget (mk_wspace os)) ms A a B b = rho (forget (mk_wspace os)) ms B b A a)
  /\ natorb_main solve sort (NPar (mk_wspace os) (Some (forget (mk_wspace os), d)) (Some true)) = Ok out /\ no_info out = Some L
  /\ exists I i lab n, orbital_at (forget (rf_ket (no_xform out))) I i lab n
     /\ ~ In (OI lab n (sum_over (mk_wspace os) (fun A a => sum_over (mk_wspace os) (fun B b => value (no_xform out) A a I i * rho (forget (mk_wspace os)) ms A a B b * value (no_xform out) B b I i)))) L.
Proof. exact info_refuted. Qed.
Print Assumptions C102_info_labels_refuted.

(** C103.  Orbitals, then densities; the output files may be named anywhere. *)
Theorem C103_in_order : forall solve sort os rd info, natorb_gen solve sort [CIndexing os; CDensities rd; COutput info]
  = (d <- rd (forget (mk_wspace os)) ;; natorb_main solve sort (NPar (mk_wspace os) (Some (forget (mk_wspace os), d)) (Some info)))%outcome
  /\ natorb_gen solve sort [COutput info; CIndexing os; CDensities rd] = natorb_gen solve sort [CIndexing os; CDensities rd; COutput info].
Proof. exact in_order. Qed.
Print Assumptions C103_in_order.

(** C103.  Nothing is written without file names. *)
Theorem C103_no_output : forall solve sort cs out, (forall info, ~ In (COutput info) cs) -> natorb_gen solve sort cs <> Ok out.
Proof. exact no_output. Qed.
Print Assumptions C103_no_output.

(** C103.  Unknown keywords are ignored ... *)
Theorem C103_other_keywords : forall solve sort cs cs', natorb_gen solve sort (cs ++ COther :: cs') = natorb_gen solve sort (cs ++ cs').
Proof. exact other_ignored. Qed.
Print Assumptions C103_other_keywords.

(** C103.  A line that cannot be read ends the program. *)
Theorem C103_bad_line : forall solve sort cs cs',
  (forall out, natorb_gen solve sort (cs ++ CBad :: cs') <> Ok out)
  /\ ((forall c rd, In c cs -> c <> CDensities rd) -> natorb_gen solve sort (cs ++ CBad :: cs') = Exit).
Proof. exact bad_line. Qed.
Print Assumptions C103_bad_line.

(** C103.  ... and without a density (or with a misspelt keyword) a null pointer is used. *)
Theorem C103_no_density : forall solve sort cs, (forall c, In c cs -> c <> CBad /\ forall rd, c <> CDensities rd) -> natorb_gen solve sort cs = UB.
Proof. exact no_density. Qed.
Print Assumptions C103_no_density.

(** C103 refuted: such a control file. *)
Theorem C103_undefined_refuted : exists solve sort cs, natorb_gen solve sort cs = UB.
Proof. exact undefined_refuted. Qed.
Print Assumptions C103_undefined_refuted.

(** C103 refuted: orbitals given after the densities are combined with them. *)
Theorem C103_late_indexing_refuted : exists solve sort cs out L o, sorts sort /\ natorb_gen solve sort cs = Ok out /\ no_info out = Some L
  /\ In o L /\ ~ In (oi_lab o) (map oi_lab (no_orbitals out)).
Proof. exact late_indexing_refuted. Qed.
Print Assumptions C103_late_indexing_refuted.

(** C104.  The composition of two files of overlaps is the product of the full matrices. *)
Theorem C104_product : forall f1 f2, scalar_file f1 -> scalar_file f2 -> rf_ket f1 = rf_bra f2 ->
  exists f, radial_compose f1 f2 = Ok f /\ scalar_file f /\ rf_bra f = rf_bra f1 /\ rf_ket f = rf_ket f2
  /\ forall I i K k, bra_state f I i -> ket_state f K k ->
     value f I i K k = sum_over (rf_ket f1) (fun J j => value f1 I i J j * value f2 J j K k).
Proof. exact compose_files. Qed.
Print Assumptions C104_product.

(** C104.  Orthonormal columns stay orthonormal. *)
Theorem C104_isometry : forall f1 f2 f, scalar_file f1 -> scalar_file f2 -> rf_ket f1 = rf_bra f2 -> isometry f1 -> isometry f2 ->
  radial_compose f1 f2 = Ok f -> isometry f.
Proof. exact compose_isometry. Qed.
Print Assumptions C104_isometry.

(** C104.  A first file of another type and different orbital lists are refused. *)
Theorem C104_refused : forall f1 f2, (rf_radial f1 = false -> radial_compose f1 f2 = Exit)
  /\ (orbital_info (rf_ket f1) <> orbital_info (rf_bra f2) -> radial_compose f1 f2 = Exit).
Proof. exact compose_refused. Qed.
Print Assumptions C104_refused.

(** C104 refuted: a second file of another type is accepted. *)
Theorem C104_type_refuted : exists f1 f2 f, rfile_ok f1 /\ rfile_ok f2 /\ rf_radial f2 = false /\ radial_compose f1 f2 = Ok f.
Proof. exact compose_type_refuted. Qed.
Print Assumptions C104_type_refuted.

(** C104 refuted: a file of a radial operator with a rank is accepted, and its elements are lost. *)
Theorem C104_rank_refuted : exists f1 f2 f, rfile_ok f1 /\ scalar_file f2 /\ isometry f2 /\ rf_radial f1 = true /\ radial_compose f1 f2 = Ok f
  /\ exists I i K k, bra_state f I i /\ ket_state f K k /\ value f I i K k <> sum_over (rf_ket f1) (fun J j => value f1 I i J j * value f2 J j K k).
Proof. exact compose_rank_refuted. Qed.
Print Assumptions C104_rank_refuted.

(** C105.  The transformed operator is U^T O U in every pair of states. *)
Theorem C105_product : forall orbs x o, scalar_file x -> rfile_ok o -> rf_bra o = mk_wspace orbs -> rf_ket o = mk_wspace orbs -> rf_bra x = mk_wspace orbs ->
  exists r, radial_xform orbs x o = Ok r /\ rfile_ok r /\ rf_radial r = rf_radial o /\ rf_q r = rf_q o /\ rf_bra r = rf_ket x /\ rf_ket r = rf_ket x
  /\ forall I i K k, bra_state r I i -> ket_state r K k ->
     value r I i K k = sum_over (rf_bra o) (fun A a => sum_over (rf_ket o) (fun B b => value x A a I i * value o A a B b * value x B b K k)).
Proof. exact xform_files. Qed.
Print Assumptions C105_product.

(** C105.  Files that do not fit are refused. *)
Theorem C105_refused : forall orbs x o,
  (orbital_info (rf_bra o) <> orbital_info (rf_ket o) -> radial_xform orbs x o = Exit)
  /\ (orbital_info (mk_wspace orbs) <> orbital_info (rf_ket o) -> radial_xform orbs x o = Exit)
  /\ (rf_radial x = false -> radial_xform orbs x o = Exit)
  /\ (orbital_info (rf_ket o) <> orbital_info (rf_bra x) -> radial_xform orbs x o = Exit)
  /\ (forall J0 g0 Tz0, rf_q x = (J0, g0, Tz0) -> (Tz0 <> 0)%Z -> radial_xform orbs x o = Exit)
  /\ (rf_q x <> (0, 0, 0)%Z -> radial_xform orbs x o = Exit \/ radial_xform orbs x o = AssertFail).
Proof. exact xform_refused. Qed.
Print Assumptions C105_refused.

(** C105.  Transforming with U and then with V gives the operator back if U V is the identity. *)
Theorem C105_back : forall orbs orbs' x y o, scalar_file x -> scalar_file y -> rfile_ok o ->
  rf_bra o = mk_wspace orbs -> rf_ket o = mk_wspace orbs -> rf_bra x = mk_wspace orbs -> rf_ket x = mk_wspace orbs' -> rf_bra y = mk_wspace orbs' -> rf_ket y = mk_wspace orbs ->
  (forall A a B b, state (forget (rf_bra o)) A a -> state (forget (rf_bra o)) B b -> sum_over (rf_ket x) (fun I i => value x A a I i * value y I i B b) = delta A a B b) ->
  exists r r', radial_xform orbs x o = Ok r /\ radial_xform orbs' y r = Ok r' /\ rf_bra r' = rf_bra o /\ rf_ket r' = rf_ket o /\ rf_q r' = rf_q o /\ rf_radial r' = rf_radial o
  /\ forall A a B b, bra_state o A a -> ket_state o B b -> value r' A a B b = value o A a B b.
Proof. exact xform_back. Qed.
Print Assumptions C105_back.

Example C100_case : let os := two_s 0 2 in let m := sym2 1 (1 / 2) in
  sorts isort /\ spin_orbitals os /\ weights_grow os /\ density_ok (forget (mk_wspace os)) (one_block m) [m] /\ Forall (solves solve2) [m]
  /\ exists out, natorb_main solve2 isort (NPar (mk_wspace os) (Some (forget (mk_wspace os), one_block m)) (Some true)) = Ok out
     /\ no_orbitals out = os /\ no_info out = Some [OI s_p 0 (3 / 2); OI s_p 1 (1 / 2)] /\ value (no_xform out) 0 0 0 0 = / sqrt 2 /\ value (no_xform out) 0 1 0 1 = - / sqrt 2.
Proof. exact natural_case. Qed.

Example C104_case : exists f, scalar_file (ov_file 2 5) /\ scalar_file (ov_file 3 4) /\ radial_compose (ov_file 2 5) (ov_file 3 4) = Ok f /\ value f 0 0 0 0 = 6 /\ value f 1 0 1 0 = 20.
Proof. exact compose_case. Qed.

Example C105_case : exists r, scalar_file (ov_file 2 5) /\ rfile_ok r_file
  /\ radial_xform [OI s_p 0 0; OI p_p 0 1] (ov_file 2 5) r_file = Ok r /\ rf_q r = (1, 1, 0)%Z /\ value r 0 0 1 0 = 30 /\ value r 0 0 0 0 = 0.
Proof. exact xform_case. Qed.

