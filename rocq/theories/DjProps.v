(** C158-C160: the Daejeon16 interaction.
    The definitions used in the statements are in DjSpec.v (the interaction by its tables), DjData.v (the tables), DjFinal.v (labels_Nmax), DjModel.v (code), RgnSpec.v and RmeSpec.v (input, stored elements), TrfSpec.v and MosSpec.v (moshinsky).
    single is the rounding to single precision, any function that keeps zero. *)
From Coq Require Import String List ZArith Reals Bool.
From Verif Require Import Base RMat OscModel BlockModel JpvModel JpvSpec TrfModel TrfSpec TrfCase RmeModel RmeSpec RgModel HmCase MosModel MosSpec RgnModel RgnSpec RgnInput RgnCase DjData DjModel DjSpec DjProof DjFinal DjCase.
Import ListNotations.
Open Scope Z_scope.

(** C158.  With the options used by the wrapper, the function gives the element of the table of the channel, in MeV, and zero outside the tables. *)
Theorem C158_table : forall single, single 0%R = 0%R ->
  forall J S L n L' n', v_daejeon16 single (Z.of_nat n) (Z.of_nat n') L L' J S 1 0 = Ok (daejeon single J S L n L' n').
Proof. exact v_table. Qed.
Print Assumptions C158_table.

(** C158.  The other options: in units of the oscillator energy, and with the other phase of the radial functions. *)
Theorem C158_options : forall single, single 0%R = 0%R ->
  forall J S L n L' n' keyhw keyph,
  v_daejeon16 single (Z.of_nat n) (Z.of_nat n') L L' J S keyhw keyph = Ok (daejeon single J S L n L' n' / (if keyhw =? 0 then 25 else 1) * (if keyph =? 1 then (-1) ^ (n + n') else 1))%R.
Proof. exact v_options. Qed.
Print Assumptions C158_options.

(** C158.  Negative numbers of nodes are outside the tables of the singlet channels: undefined. *)
Theorem C158_undefined : forall single, forall J n n', 0 <= J <= 6 -> n < 0 \/ n' < 0 -> n <= 27 -> n' <= 27 -> forall keyhw keyph, v_daejeon16 single n n' J J J 0 keyhw keyph = UB.
Proof. exact v_undefined. Qed.
Print Assumptions C158_undefined.

(** C158.  The tables are symmetric. *)
Theorem C158_symmetric : forall single, symmetric_V (daejeon single).
Proof. exact daejeon_symmetric. Qed.
Print Assumptions C158_symmetric.

(** C158.  The elements which are not zero. *)
Theorem C158_range : forall single, single 0%R = 0%R -> forall J S L n L' n', daejeon single J S L n L' n' <> 0%R ->
  0 <= J <= 6 /\ (S = 0 \/ S = 1) /\ Z.even (L - L') = true /\ couples L S J /\ couples L' S J /\ 2 * Z.of_nat n + L <= 60 /\ 2 * Z.of_nat n' + L' <= 60.
Proof. exact daejeon_range. Qed.
Print Assumptions C158_range.

Example C158_table_case : tabulated 0 0 0 0 0 0 = -11670440000000000 /\ tabulated 0 0 0 0 0 1 = -6644545000000000 /\ tabulated 1 1 0 0 2 0 = tabulated 1 1 2 0 0 0 /\ tabulated 1 1 0 0 2 0 <> 0
  /\ tabulated 0 0 0 30 0 30 <> 0 /\ tabulated 0 0 0 0 0 31 = 0 /\ tabulated 1 1 0 0 1 0 = 0 /\ tabulated 7 0 7 0 7 0 = 0.
Proof. exact table_case. Qed.

Example C158_case : forall single, single 0%R = 0%R -> v_daejeon16 single 0 1 0 0 0 0 1 0 = Ok (single (IZR (-6644545000000000) / IZR (10 ^ 15)))%R
  /\ v_daejeon16 single 0 31 0 0 0 0 1 0 = Ok 0%R /\ v_daejeon16 single 0 (-1) 0 0 0 0 1 0 = UB.
Proof. exact v_case. Qed.

(** C159.  Sectors of a scalar, isoscalar operator never change the spin, so that the early return in the wrapper does not apply. *)
Theorem C159_spin : forall Nmax sp i k x y, rme_space Nmax sp -> nth_error sp i = Some x -> nth_error sp k = Some y -> jt_rule 0 0 0 (r_J x) (r_T x) (r_g x) (r_J y) (r_T y) (r_g y) -> r_S x = r_S y.
Proof. exact same_spin. Qed.
Print Assumptions C159_spin.

(** C159.  The wrapper stores the interaction in every sector of the isoscalar component and zero in the others. *)
Theorem C159_stored : forall single, single 0%R = 0%R ->
  forall Nmax_of, forall Nmax sp o, rme_space Nmax sp -> labels_Nmax Nmax_of sp -> o_J0 o = 0 -> o_g0 o = 0 -> o_T0_min o = 0 -> 0 <= o_T0_max o <= 2 ->
  exists c, daejeon16 single Nmax_of o sp = Ok c /\ stores_num sp o c (isoscalar_rme (daejeon single)).
Proof. exact daejeon_stored. Qed.
Print Assumptions C159_stored.

(** C159.  Other labels stop it. *)
Theorem C159_refuses : forall single Nmax_of, forall o sp, ~ (o_J0 o = 0 /\ o_g0 o = 0 /\ o_T0_min o = 0 /\ 0 <= o_T0_max o) -> daejeon16 single Nmax_of o sp = AssertFail.
Proof. exact daejeon_refuses. Qed.
Print Assumptions C159_refuses.

(** C159.  relative-gen writes the interaction up to J=6. *)
Theorem C159_program : forall single, single 0%R = 0%R ->
  forall Nmax_of racah1 racah2 w3j w6j jrme tgamma quad racah12 crme jhalf cj1 cj2 inverse_r B, let gen_main := gen_main racah1 racah2 w3j w6j jrme tgamma quad racah12 crme jhalf cj1 cj2 inverse_r (Some (daejeon16 single Nmax_of)) B in
  forall ls p, gen_input true ls p -> g_name p = "interaction"%string -> g_args p = AInteraction "Daejeon16" -> let sp := space_of B (g_Nmax p) (g_Jmax p) in
  rme_space (g_Nmax p) sp -> labels_Nmax Nmax_of sp -> o_J0 (g_o p) = 0 -> o_g0 (g_o p) = 0 -> o_T0_min (g_o p) = 0 -> 0 <= o_T0_max (g_o p) <= 2 -> writable B (g_target p) = true ->
  g_Jmax p = Z.min (g_Nmax p + 1) 6 /\
  exists c, gen_main ls = Ok (g_target p, RelFile (g_o p) (g_Nmax p) (g_Jmax p) c) /\ stores_num sp (g_o p) c (isoscalar_rme (daejeon single)).
Proof. exact gen_daejeon. Qed.
Print Assumptions C159_program.

(** C159.  With other labels it stops. *)
Theorem C159_program_refused : forall single Nmax_of racah1 racah2 w3j w6j jrme tgamma quad racah12 crme jhalf cj1 cj2 inverse_r B, let gen_main := gen_main racah1 racah2 w3j w6j jrme tgamma quad racah12 crme jhalf cj1 cj2 inverse_r (Some (daejeon16 single Nmax_of)) B in
  forall ls p, gen_input true ls p -> g_name p = "interaction"%string -> g_args p = AInteraction "Daejeon16" ->
  ~ (o_J0 (g_o p) = 0 /\ o_g0 (g_o p) = 0 /\ o_T0_min (g_o p) = 0 /\ 0 <= o_T0_max (g_o p)) -> gen_main ls = AssertFail.
Proof. exact gen_daejeon_refused. Qed.
Print Assumptions C159_program_refused.

Example C159_case : forall single racah1 racah2 w3j w6j jrme tgamma quad racah12 crme jhalf cj1 cj2 inverse_r, single 0%R = 0%R ->
  exists c, gen_main racah1 racah2 w3j w6j jrme tgamma quad racah12 crme jhalf cj1 cj2 inverse_r (Some (daejeon16 single (fun _ => 0%Z))) lib0 in_d16 = Ok ("d16.dat"%string, RelFile (OpLab 0 0 0 0) 0 1 c)
  /\ stores_num (spaces0 0 1) (OpLab 0 0 0 0) c (isoscalar_rme (daejeon single))
  /\ isoscalar_rme (daejeon single) 0 (0, 0, 0, 1)%Z 0 (0, 0, 0, 1)%Z 0 = single (IZR (-11670440000000000) / IZR (10 ^ 15))%R.
Proof. exact d16_case. Qed.

(** C160.  After moshinsky: two-body matrix elements of the interaction. *)
Theorem C160_two_body : forall single, single 0%R = 0%R ->
  forall Nmax_of racah1 racah2 w3j w6j jrme tgamma quad racah12 crme jhalf cj1 cj2 inverse_r B racahm u6jz u9j mosh flip tol M, let gen_main := gen_main racah1 racah2 w3j w6j jrme tgamma quad racah12 crme jhalf cj1 cj2 inverse_r (Some (daejeon16 single Nmax_of)) B in
  let mos_run := mos_run u6jz racahm u9j mosh flip tol M in
  let two_body p Jmax J0 F := jt_rme (jt_of M (m_rank p) (m_cutoff p)) (jj_rme u9j (tb_rme mosh (relcm_rme u6jz racahm Jmax J0 F))) in
  forall ls p q pn, gen_input true ls p -> g_name p = "interaction"%string -> g_args p = AInteraction "Daejeon16" -> let sp := space_of B (g_Nmax p) (g_Jmax p) in
  rel_space (g_Nmax p) (g_Jmax p) sp -> labels_Nmax Nmax_of sp -> o_J0 (g_o p) = 0 -> o_g0 (g_o p) = 0 -> o_T0_min (g_o p) = 0 -> 0 <= o_T0_max (g_o p) <= 2 -> writable B (g_target p) = true ->
  flip_ok flip -> racah_flip racahm flip 0 ->
  exists f, gen_main ls = Ok (g_target p, f) /\
  (m_source q = g_target p -> reads_back_num B M (g_target p) f -> ready M flip (g_o p) (g_Nmax p) q pn ->
   exists bs, mos_run q = Ok (Some (m_target q, FH2 (m_format q) bs))
   /\ h2_blocks tol (g_o p) pn (pn_sectors M pn 0 0 (m_Tz0 q)) (two_body q (g_Jmax p) 0 (isoscalar_rme (daejeon single))) bs).
Proof. exact daejeon_then_moshinsky. Qed.
Print Assumptions C160_two_body.

