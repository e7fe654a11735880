(** C146-C153: the programs relative-gen, relcm-gen, relative-xform, jpv2rel and jpvstat.
    The definitions used in the statements are in RgnSpec.v (input, operators, files), RmeSpec.v (operators, stored elements), LenSpec.v (chiral operators), RelxSpec.v (transformation),
    JpvSpec.v (interaction files), TrfSpec.v and MosSpec.v (moshinsky), RgnModel.v (code), and, in the cases, RgnCase.v, MosCase.v and TrfCase.v. *)
From Coq Require Import String List ZArith Reals Bool.
From Verif Require Import Base RMat BaseLemmas OscModel OscSpec OscFinal BlockModel BlockProof ObioModel MixSpec MoshModel JpvModel JpvSpec IsoModel IsoSpec TrfModel TrfSpec TrfCase RmeModel RmeSpec WfModel WfSpec LenModel LenSpec LenProof LenCm RelxModel RelxSpec RgModel HmCase MosModel MosSpec MosFile MosCase RgnModel RgnSpec RgnInput RgnProof RgnFile RgnJpv RgnChain RgnHerm RgnCase.
Import ListNotations.
Open Scope Z_scope.

(** C146.  relative-gen: four lines are read as what they mean, and nothing else is read. *)
Theorem C146_input : forall d ls p, gen_read d ls = Ok p <-> gen_input d ls p.
Proof. exact gen_read_iff. Qed.
Print Assumptions C146_input.

(** C146.  Other input ends the program. *)
Theorem C146_refused : forall d ls, (forall p, ~ gen_input d ls p) -> gen_read d ls = Exit.
Proof. exact gen_read_refuses. Qed.
Print Assumptions C146_refused.

Example C146_case : gen_read false in_coulomb = Ok p_coulomb
  /\ gen_read false [[iw "1" 1; iw "1" 1; iw "1" 1; iw "1" 1]; [iw "4" 4]; [tx "dipole"; tx "r"; iw "1" 1]; [tx "e1.dat"]] = Ok (GParams (OpLab 1 1 1 1) 4 5 "dipole" (ACoordinate KR 1) "e1.dat")
  /\ gen_read true [[iw "0" 0; iw "0" 0; iw "0" 0; iw "0" 0]; [iw "20" 20]; [tx "interaction"; tx "Daejeon16"]; [tx "d16.dat"]] = Ok (GParams (OpLab 0 0 0 0) 20 6 "interaction" (AInteraction "Daejeon16") "d16.dat").
Proof. exact gen_input_case. Qed.

Example C146_refused_case : gen_read false [[iw "0" 0; iw "0" 0; iw "0" 0; iw "2" 2]; [iw "2" 2]; [tx "coulomb"; tx "np"; iw "500" 500]; [tx "coul.dat"]] = Exit
  /\ gen_read false [[iw "0" 0; iw "0" 0; iw "0" 0; iw "2" 2]; [iw "2" 2]; [tx "spin-am"]; [tx "s.dat"]] = Exit
  /\ gen_read false [[iw "0" 0; iw "0" 0; iw "0" 0; iw "2" 2]; [iw "2" 2]; [tx "rsqr"]] = Exit.
Proof. exact gen_refused_case. Qed.

(** C147.  relative-gen: the file written holds, in every sector of every component, the matrix elements of the operator named. *)
Theorem C147_made : forall racah1 racah2 w3j w6j jrme tgamma quad racah12 crme jhalf cj1 cj2 inverse_r daejeon B, let gen_main := gen_main racah1 racah2 w3j w6j jrme tgamma quad racah12 crme jhalf cj1 cj2 inverse_r daejeon B in
  let gen_populate := gen_populate racah1 racah2 w3j w6j jrme tgamma quad racah12 crme jhalf cj1 cj2 inverse_r daejeon B in let made := made racah1 racah2 w3j w6j tgamma quad racah12 crme inverse_r in
  forall ls p F, gen_input (has_daejeon daejeon) ls p -> let sp := space_of B (g_Nmax p) (g_Jmax p) in rme_space (g_Nmax p) sp -> rspace_ok sp -> identity_ok B ->
  (forall T' T, jrme T' T = if (T' =? T) then sqrt (IZR (T * (T + 1))) else 0%R) ->
  gamma_fn tgamma -> quad_ok quad -> one_spin jhalf racah1 racah2 cj1 cj2 -> diagonal2 racah2 ->
  0 <= o_T0_min (g_o p) -> o_T0_max (g_o p) <= 2 -> made sp (g_name p) (g_args p) (g_o p) F -> writable B (g_target p) = true ->
  exists c, gen_main ls = Ok (g_target p, RelFile (g_o p) (g_Nmax p) (g_Jmax p) c) /\ stores_num sp (g_o p) c F.
Proof. exact gen_made. Qed.
Print Assumptions C147_made.

(** C147.  A run that ends with success had input that means something, for a known operator with suitable labels. *)
Theorem C147_only : forall racah1 racah2 w3j w6j jrme tgamma quad racah12 crme jhalf cj1 cj2 inverse_r daejeon B, let gen_main := gen_main racah1 racah2 w3j w6j jrme tgamma quad racah12 crme jhalf cj1 cj2 inverse_r daejeon B in
  let gen_populate := gen_populate racah1 racah2 w3j w6j jrme tgamma quad racah12 crme jhalf cj1 cj2 inverse_r daejeon B in let made := made racah1 racah2 w3j w6j tgamma quad racah12 crme inverse_r in
  forall ls name f, gen_main ls = Ok (name, f) -> exists p c, gen_input (has_daejeon daejeon) ls p /\ name = g_target p /\ f = RelFile (g_o p) (g_Nmax p) (g_Jmax p) c
  /\ gen_populate p = Ok c /\ In (g_name p) gen_names /\ suits (g_name p) (g_args p) (g_o p) /\ writable B name = true.
Proof. exact gen_only. Qed.
Print Assumptions C147_only.

(** C147.  An operator of any other name ends the program. *)
Theorem C147_unknown : forall racah1 racah2 w3j w6j jrme tgamma quad racah12 crme jhalf cj1 cj2 inverse_r daejeon B, let gen_main := gen_main racah1 racah2 w3j w6j jrme tgamma quad racah12 crme jhalf cj1 cj2 inverse_r daejeon B in
  let gen_populate := gen_populate racah1 racah2 w3j w6j jrme tgamma quad racah12 crme jhalf cj1 cj2 inverse_r daejeon B in let made := made racah1 racah2 w3j w6j tgamma quad racah12 crme inverse_r in
  forall p, ~ In (g_name p) gen_names -> gen_populate p = Exit.
Proof. exact gen_unknown. Qed.
Print Assumptions C147_unknown.

(** C147.  So does an interaction which is not compiled in. *)
Theorem C147_interaction : forall racah1 racah2 w3j w6j jrme tgamma quad racah12 crme jhalf cj1 cj2 inverse_r daejeon B, let gen_main := gen_main racah1 racah2 w3j w6j jrme tgamma quad racah12 crme jhalf cj1 cj2 inverse_r daejeon B in
  let gen_populate := gen_populate racah1 racah2 w3j w6j jrme tgamma quad racah12 crme jhalf cj1 cj2 inverse_r daejeon B in let made := made racah1 racah2 w3j w6j tgamma quad racah12 crme inverse_r in
  forall p which, g_name p = "interaction"%string -> g_args p = AInteraction which -> daejeon = None \/ which <> "Daejeon16"%string -> gen_populate p = Exit.
Proof. exact gen_interaction. Qed.
Print Assumptions C147_interaction.

(** C147.  And other input. *)
Theorem C147_refused : forall racah1 racah2 w3j w6j jrme tgamma quad racah12 crme jhalf cj1 cj2 inverse_r daejeon B, let gen_main := gen_main racah1 racah2 w3j w6j jrme tgamma quad racah12 crme jhalf cj1 cj2 inverse_r daejeon B in
  let gen_populate := gen_populate racah1 racah2 w3j w6j jrme tgamma quad racah12 crme jhalf cj1 cj2 inverse_r daejeon B in let made := made racah1 racah2 w3j w6j tgamma quad racah12 crme inverse_r in
  forall ls, (forall p, ~ gen_input (has_daejeon daejeon) ls p) -> gen_main ls = Exit.
Proof. exact gen_refused. Qed.
Print Assumptions C147_refused.

(** C147.  The Coulomb interaction of protons, with all three components: between two protons only. *)
Theorem C147_species : forall t Tz v, t <> OpTotal -> Z.abs Tz <= 1 ->
  branched Tz (species_part t 0 1 * v) (species_part t 1 1 * v) (species_part t 2 1 * v) = if Tz =? match t with OpP => 1 | _ => -1 end then v else 0%R.
Proof. exact species_branches. Qed.
Print Assumptions C147_species.

Example C147_case : forall racah1 racah2 w3j w6j jrme tgamma quad racah12 crme jhalf cj1 cj2 inverse_r daejeon, let gen_main := gen_main racah1 racah2 w3j w6j jrme tgamma quad racah12 crme jhalf cj1 cj2 inverse_r daejeon lib0 in
  exists c, gen_main (in_coul "p" 0 2) = Ok ("coul.dat"%string, RelFile (OpLab 0 0 0 2) 0 1 c) /\ stores_num (spaces0 0 1) (OpLab 0 0 0 2) c (coulomb_rme (inverse_r 500) OpP)
  /\ coulomb_rme (inverse_r 500) OpP 0 (0, 0, 0, 1) 0 (0, 0, 0, 1) 0 = (1 / 3 * (1 / sqrt 2 * inverse_r 500%Z 0%Z 0%Z 0%Z))%R.
Proof. exact gen_case. Qed.

(** C148 refuted: with labels which have no isoscalar component the Coulomb interaction of any two nucleons is written as zeros, and the program ends with success; the square radius with the same labels is refused. *)
Theorem C148_total_refuted : forall racah1 racah2 w3j w6j jrme tgamma quad racah12 crme jhalf cj1 cj2 inverse_r daejeon, let gen_main := gen_main racah1 racah2 w3j w6j jrme tgamma quad racah12 crme jhalf cj1 cj2 inverse_r daejeon lib0 in
  exists c, gen_main (in_coul "total" 1 1) = Ok ("coul.dat"%string, RelFile (OpLab 0 0 1 1) 0 1 c) /\ stores_num (spaces0 0 1) (OpLab 0 0 1 1) c no_element
  /\ gen_main (in_rsqr 1 1) = AssertFail.
Proof. exact total_zero. Qed.
Print Assumptions C148_total_refuted.

(** C148 refuted: with the isoscalar component only, the interaction of protons acts between two neutrons. *)
Theorem C148_neutrons_refuted : forall racah1 racah2 w3j w6j jrme tgamma quad racah12 crme jhalf cj1 cj2 inverse_r daejeon, let gen_main := gen_main racah1 racah2 w3j w6j jrme tgamma quad racah12 crme jhalf cj1 cj2 inverse_r daejeon lib0 in
  exists c, gen_main (in_coul "p" 0 0) = Ok ("coul.dat"%string, RelFile (OpLab 0 0 0 0) 0 1 c)
  /\ (exists sectors ms q m, nth_error c 0 = Some (sectors, ms) /\ nth_error sectors q = Some (0, 0)%nat /\ nth_error ms q = Some m /\ at_ m 0 0 = Num (1 / 3 * (1 / sqrt 2 * inverse_r 500%Z 0%Z 0%Z 0%Z))%R)
  /\ nth_error c 1 = Some ([], []) /\ nth_error c 2 = Some ([], []) /\ forall v, branched (-1) v 0 0 = v.
Proof. exact neutrons_third. Qed.
Print Assumptions C148_neutrons_refuted.

(** C148 refuted: labels with a component of isospin above 2 or below 0 are not refused. *)
Theorem C148_undefined_refuted : forall racah1 racah2 w3j w6j jrme tgamma quad racah12 crme jhalf cj1 cj2 inverse_r daejeon, let gen_main := gen_main racah1 racah2 w3j w6j jrme tgamma quad racah12 crme jhalf cj1 cj2 inverse_r daejeon lib0 in
  gen_main (in_rsqr 0 3) = UB /\ gen_main (in_rsqr (-1) 0) = UB /\ gen_main (in_coul "total" 0 3) = UB /\ gen_main (in_coul "total" (-1) 0) = UB.
Proof. exact isospin_three. Qed.
Print Assumptions C148_undefined_refuted.

(** C149.  relcm-gen: its input. *)
Theorem C149_input : forall ls p, cm_read ls = Ok p <-> cm_input ls p.
Proof. exact cm_read_iff. Qed.
Print Assumptions C149_input.

(** C149.  Other input is not read. *)
Theorem C149_input_refused : forall ls, (forall p, ~ cm_input ls p) -> cm_read ls = Exit.
Proof. exact cm_read_refuses. Qed.
Print Assumptions C149_input_refused.

(** C149.  The file written holds the matrix elements of the two-body magnetic dipole operator; the number of steps given is not used. *)
Theorem C149_made : forall racah1 racah2 tgamma quad racah12 crme jhalf cj1 cj2 B, let cm_main := cm_main racah1 racah2 tgamma quad racah12 crme jhalf B in
  forall ls p reg b steps, cm_input ls p -> c_name p = "LENPIC-NLOM1"%string -> c_args p = Some (reg, b, steps) ->
  gamma_fn tgamma -> quad_ok quad -> one_spin jhalf racah1 racah2 cj1 cj2 -> cross_antisymmetric racah12 ->
  LenSpec.cm_space (c_Nmax p) (cmspace_of B (c_Nmax p)) -> o_J0 (c_o p) = 1 -> o_g0 (c_o p) = 0 -> in_range (c_o p) 1 -> 0 <= o_T0_min (c_o p) -> o_T0_max (c_o p) <= 2 ->
  (0 < b)%R -> writable B (c_target p) = true ->
  exists c, cm_main ls = Ok (c_target p, RelFile (c_o p) (c_Nmax p) 0 c)
  /\ cm_stores (cmspace_of B (c_Nmax p)) (c_o p) c (m1_values tgamma quad racah1 racah2 racah12 crme b reg (Z.to_nat 3000)).
Proof. exact cm_made. Qed.
Print Assumptions C149_made.

(** C149.  Nothing else is written. *)
Theorem C149_only : forall racah1 racah2 tgamma quad racah12 crme jhalf B, let cm_main := cm_main racah1 racah2 tgamma quad racah12 crme jhalf B in
  forall ls name f, cm_main ls = Ok (name, f) -> exists p c, cm_input ls p /\ name = c_target p /\ f = RelFile (c_o p) (c_Nmax p) 0 c
  /\ c_name p = "LENPIC-NLOM1"%string /\ o_J0 (c_o p) = 1 /\ o_g0 (c_o p) = 0 /\ in_range (c_o p) 1 /\ writable B name = true.
Proof. exact cm_only. Qed.
Print Assumptions C149_only.

(** C149.  Other input ends the program. *)
Theorem C149_refused : forall racah1 racah2 tgamma quad racah12 crme jhalf B, let cm_main := cm_main racah1 racah2 tgamma quad racah12 crme jhalf B in
  forall ls, (forall p, ~ cm_input ls p) -> cm_main ls = Exit.
Proof. exact cm_refused. Qed.
Print Assumptions C149_refused.

Example C149_case : cm_read [[iw "1" 1; iw "0" 0; iw "1" 1; iw "1" 1]; [iw "2" 2]; [tx "LENPIC-NLOM1"; iw "1" 1; iw "2" 2; iw "500" 500]; [tx "m1.dat"]] = Ok (CParams (OpLab 1 0 1 1) 2 "LENPIC-NLOM1" (Some (1, 2, 500%Z)) "m1.dat")%R.
Proof. exact cm_input_case. Qed.

(** C150.  relative-xform: its input. *)
Theorem C150_input : forall ex ls p, xf_read ex ls = Ok p <-> xf_input ex ls p.
Proof. exact xf_read_iff. Qed.
Print Assumptions C150_input.

(** C150.  Other input is not read. *)
Theorem C150_input_refused : forall ex ls, (forall p, ~ xf_input ex ls p) -> xf_read ex ls = Exit.
Proof. exact xf_read_refuses. Qed.
Print Assumptions C150_input_refused.

(** C150.  The file written holds the elements of the operator between the states of the new length, in all sectors of the new space. *)
Theorem C150_made : forall ov schedule B disk ls p f F O, xf_input (fun n => match disk n with Some _ => true | None => false end) ls p -> disk (x_source p) = Some f ->
  let src := space_of B (rf_Nmax f) (rf_Jmax f) in let tgt := space_of B (x_Nmax p) (rf_Jmax f) in
  rel_space (rf_Nmax f) (rf_Jmax f) src -> rel_space (x_Nmax p) (rf_Jmax f) tgt -> in_order src tgt -> 0 <= o_T0_min (rf_o f) -> o_T0_max (rf_o f) <= 2 ->
  held src (rf_o f) (rf_c f) F -> symmetric_within F -> complete_schedule schedule -> (0 < x_ratio p)%R -> x_ratio p <> 1%R ->
  (forall L i j, ov (x_steps p) L (x_ratio p) i j = Some (O L i j)) -> writable B (x_target p) = true ->
  exists c, xf_main B ov schedule disk ls = Ok (x_target p, RelFile (rf_o f) (x_Nmax p) (rf_Jmax f) c) /\ held tgt (rf_o f) c (xform_rme O (rf_Nmax f) F).
Proof. exact xf_made. Qed.
Print Assumptions C150_made.

(** C150.  With ratio one the elements are those of the source, and zero above its truncation. *)
Theorem C150_equal : forall ov schedule B disk ls p f F, xf_input (fun n => match disk n with Some _ => true | None => false end) ls p -> disk (x_source p) = Some f ->
  let src := space_of B (rf_Nmax f) (rf_Jmax f) in let tgt := space_of B (x_Nmax p) (rf_Jmax f) in
  rel_space (rf_Nmax f) (rf_Jmax f) src -> rel_space (x_Nmax p) (rf_Jmax f) tgt -> in_order src tgt -> 0 <= o_T0_min (rf_o f) -> o_T0_max (rf_o f) <= 2 ->
  held src (rf_o f) (rf_c f) F -> x_ratio p = 1%R -> writable B (x_target p) = true ->
  exists c, xf_main B ov schedule disk ls = Ok (x_target p, RelFile (rf_o f) (x_Nmax p) (rf_Jmax f) c) /\ held tgt (rf_o f) c (up_to (rf_Nmax f) F).
Proof. exact xf_equal. Qed.
Print Assumptions C150_equal.

(** C150.  With the truncation of the source as well the operator is unchanged. *)
Theorem C150_unchanged : forall ov schedule B disk ls p f F, xf_input (fun n => match disk n with Some _ => true | None => false end) ls p -> disk (x_source p) = Some f ->
  let src := space_of B (rf_Nmax f) (rf_Jmax f) in rel_space (rf_Nmax f) (rf_Jmax f) src -> 0 <= o_T0_min (rf_o f) -> o_T0_max (rf_o f) <= 2 ->
  held src (rf_o f) (rf_c f) F -> x_ratio p = 1%R -> x_Nmax p = rf_Nmax f -> writable B (x_target p) = true ->
  exists c, xf_main B ov schedule disk ls = Ok (x_target p, RelFile (rf_o f) (rf_Nmax f) (rf_Jmax f) c) /\ held src (rf_o f) c F.
Proof. exact xf_unchanged. Qed.
Print Assumptions C150_unchanged.

(** C150.  Labels and Jmax of the file written are those of the source. *)
Theorem C150_only : forall ov schedule B disk ls name f', xf_main B ov schedule disk ls = Ok (name, f') -> exists p f, xf_input (fun n => match disk n with Some _ => true | None => false end) ls p
  /\ disk (x_source p) = Some f /\ name = x_target p /\ rf_o f' = rf_o f /\ rf_Nmax f' = x_Nmax p /\ rf_Jmax f' = rf_Jmax f /\ writable B name = true.
Proof. exact xf_only. Qed.
Print Assumptions C150_only.

(** C150.  Other input ends the program. *)
Theorem C150_refused : forall ov schedule B disk ls, (forall p, ~ xf_input (fun n => match disk n with Some _ => true | None => false end) ls p) -> xf_main B ov schedule disk ls = Exit.
Proof. exact xf_refused. Qed.
Print Assumptions C150_refused.

(** C150.  A ratio which is not positive fails an assertion. *)
Theorem C150_ratio : forall ov schedule B disk ls p f, xf_input (fun n => match disk n with Some _ => true | None => false end) ls p -> disk (x_source p) = Some f ->
  let src := space_of B (rf_Nmax f) (rf_Jmax f) in let tgt := space_of B (x_Nmax p) (rf_Jmax f) in
  (x_ratio p <= 0)%R -> (exists i t, same_labels src tgt i t) -> xf_main B ov schedule disk ls = AssertFail.
Proof. exact xf_ratio. Qed.
Print Assumptions C150_ratio.

Example C150_case : forall ov schedule, exists c m, xf_main lib0 ov schedule disk2 (in_xform 0 1) = Ok ("b.dat"%string, RelFile scalar0 0 0 c)
  /\ nth_error c 0 = Some ([(0, 0)]%nat, [m]) /\ rows m = 1%nat /\ cols m = 1%nat /\ at_ m 0 0 = 1%R.
Proof. exact xf_case. Qed.

Example C150_input_case : xf_read (String.eqb "a.dat") (in_xform 0 1) = Ok (XParams "a.dat" 0 1 500 "b.dat") /\ xf_read (String.eqb "c.dat") (in_xform 0 1) = Exit.
Proof. exact xf_input_case. Qed.

Example C150_ratio_case : forall ov schedule, xf_main lib0 ov schedule disk2 (in_xform 0 0) = AssertFail.
Proof. exact ratio_case. Qed.

(** C151.  jpv2rel: its input. *)
Theorem C151_input : forall ls p, jpv_read ls = Ok p <-> jpv_input ls p.
Proof. exact jpv_read_iff. Qed.
Print Assumptions C151_input.

(** C151.  Other input is not read. *)
Theorem C151_input_refused : forall ls, (forall p, ~ jpv_input ls p) -> jpv_read ls = Exit.
Proof. exact jpv_read_refuses. Qed.
Print Assumptions C151_input_refused.

(** C151.  One file: the operator written has the elements of the interaction, all other elements zero. *)
Theorem C151_isoscalar : forall depth disk B ls p V name file, jpv_input ls p -> j_T0_max p = 0 -> j_sources p = [name] -> disk name = Some file ->
  let sp := space_of B (j_Nmax p) (j_Jmax p) in rme_space (j_Nmax p) sp -> rspace_ok sp -> symmetric_V V -> interaction_file depth sp (j_Jmax p) V file -> writable B (j_target p) = true ->
  exists c, jpv_main B depth disk ls = Some (Ok (j_target p, RelFile (OpLab 0 0 0 0) (j_Nmax p) (j_Jmax p) c)) /\ held sp (OpLab 0 0 0 0) c (isoscalar_rme V).
Proof. exact jpv_isoscalar. Qed.
Print Assumptions C151_isoscalar.

(** C151.  Three files: the operator written has the isospin components of the interactions of pp, nn and pn. *)
Theorem C151_species : forall depth disk B ls p V pp nn pn fpp fnn fpn, jpv_input ls p -> j_T0_max p = 2 -> j_sources p = [pp; nn; pn] -> disk pp = Some fpp -> disk nn = Some fnn -> disk pn = Some fpn ->
  let sp := space_of B (j_Nmax p) (j_Jmax p) in rme_space (j_Nmax p) sp -> rspace_ok sp -> (forall Tz, symmetric_V (V Tz)) ->
  interaction_file depth sp (j_Jmax p) (V 1) fpp -> interaction_file depth sp (j_Jmax p) (V (-1)) fnn -> interaction_file depth sp (j_Jmax p) (V 0) fpn -> writable B (j_target p) = true ->
  exists c, jpv_main B depth disk ls = Some (Ok (j_target p, RelFile (OpLab 0 0 0 2) (j_Nmax p) (j_Jmax p) c)) /\ held sp (OpLab 0 0 0 2) c (species_rme V).
Proof. exact jpv_species. Qed.
Print Assumptions C151_species.

(** C151.  A run that ends with success read all its files. *)
Theorem C151_only : forall B depth disk ls name f, jpv_main B depth disk ls = Some (Ok (name, f)) -> exists p, jpv_input ls p /\ name = j_target p
  /\ rf_o f = OpLab 0 0 0 (j_T0_max p) /\ rf_Nmax f = j_Nmax p /\ rf_Jmax f = j_Jmax p /\ writable B name = true /\ forall s, In s (j_sources p) -> exists file, disk s = Some file.
Proof. exact jpv_only. Qed.
Print Assumptions C151_only.

(** C151.  Other input ends the program. *)
Theorem C151_refused : forall B depth disk ls, (forall p, ~ jpv_input ls p) -> jpv_main B depth disk ls = Some Exit.
Proof. exact jpv_refused. Qed.
Print Assumptions C151_refused.

Example C151_input_case : jpv_read in_jpv = Ok (JParams 0 1 0 ["v.jpv"]%string "in.dat") /\ jpv_read in_jpv3 = Ok (JParams 0 1 2 ["pp.jpv"; "nn.jpv"; "pn.jpv"]%string "in.dat")
  /\ jpv_read [[iw "0" 0; iw "1" 1; iw "1" 1]; [tx "v.jpv"]; [tx "in.dat"]] = Exit /\ jpv_read [[iw "0" 0; iw "1" 1; iw "2" 2]; [tx "v.jpv"]; [tx "in.dat"]] = Exit.
Proof. exact jpv_input_case. Qed.

Example C151_case : forall v w, exists c, jpv_main lib0 3 (disk_v v w) in_jpv = Some (Ok ("in.dat"%string, RelFile scalar0 0 1 c)) /\ held (spaces0 0 1) scalar0 c (isoscalar_rme (V0 v w)).
Proof. exact jpv_case. Qed.

Example C151_species_case : exists c, jpv_main lib0 3 disk_3 in_jpv3 = Some (Ok ("in.dat"%string, RelFile (OpLab 0 0 0 2) 0 1 c)) /\ held (spaces0 0 1) (OpLab 0 0 0 2) c (species_rme V3).
Proof. exact species_case. Qed.

Example C151_species_value : species_rme V3 0 (0, 0, 0, 1) 0 (0, 0, 0, 1) 0 = 4%R /\ species_rme V3 0 (0, 1, 1, 0) 0 (0, 1, 1, 0) 0 = 2%R /\ species_rme V3 1 (0, 1, 1, 0) 0 (0, 1, 1, 0) 0 = 0%R.
Proof. exact species_value_case. Qed.

Example C151_missing_case : forall v w, jpv_main lib0 3 (disk_v v w) in_jpv3 = Some Exit.
Proof. exact jpv_missing_case. Qed.

(** C152.  jpv2rel followed by moshinsky: the two-body matrix elements are those of the interaction. *)
Theorem C152_jpv : forall u6jz racah1 u9j mosh flip tol M B, let mos_run := mos_run u6jz racah1 u9j mosh flip tol M in
  let two_body p Jmax J0 F := jt_rme (jt_of M (m_rank p) (m_cutoff p)) (jj_rme u9j (tb_rme mosh (relcm_rme u6jz racah1 Jmax J0 F))) in
  forall depth disk ls p V name file q pn, jpv_input ls p -> j_T0_max p = 0 -> j_sources p = [name] -> disk name = Some file ->
  let sp := space_of B (j_Nmax p) (j_Jmax p) in rel_space (j_Nmax p) (j_Jmax p) sp -> symmetric_V V -> interaction_file depth sp (j_Jmax p) V file -> writable B (j_target p) = true ->
  flip_ok flip -> racah_flip racah1 flip 0 ->
  exists f, jpv_main B depth disk ls = Some (Ok (j_target p, f)) /\
  (m_source q = j_target p -> reads_back B M (j_target p) f -> ready M flip (OpLab 0 0 0 0) (j_Nmax p) q pn ->
   exists bs, mos_run q = Ok (Some (m_target q, FH2 (m_format q) bs)) /\ h2_blocks tol (OpLab 0 0 0 0) pn (pn_sectors M pn 0 0 (m_Tz0 q)) (two_body q (j_Jmax p) 0 (isoscalar_rme V)) bs).
Proof. exact jpv_then_moshinsky. Qed.
Print Assumptions C152_jpv.

(** C152.  The same for three interactions. *)
Theorem C152_species : forall u6jz racah1 u9j mosh flip tol M B, let mos_run := mos_run u6jz racah1 u9j mosh flip tol M in
  let two_body p Jmax J0 F := jt_rme (jt_of M (m_rank p) (m_cutoff p)) (jj_rme u9j (tb_rme mosh (relcm_rme u6jz racah1 Jmax J0 F))) in
  forall depth disk ls p V pp nn pn fpp fnn fpn q sub, jpv_input ls p -> j_T0_max p = 2 -> j_sources p = [pp; nn; pn] -> disk pp = Some fpp -> disk nn = Some fnn -> disk pn = Some fpn ->
  let sp := space_of B (j_Nmax p) (j_Jmax p) in rel_space (j_Nmax p) (j_Jmax p) sp -> (forall Tz, symmetric_V (V Tz)) ->
  interaction_file depth sp (j_Jmax p) (V 1) fpp -> interaction_file depth sp (j_Jmax p) (V (-1)) fnn -> interaction_file depth sp (j_Jmax p) (V 0) fpn -> writable B (j_target p) = true ->
  flip_ok flip -> racah_flip racah1 flip 0 ->
  exists f, jpv_main B depth disk ls = Some (Ok (j_target p, f)) /\
  (m_source q = j_target p -> reads_back B M (j_target p) f -> ready M flip (OpLab 0 0 0 2) (j_Nmax p) q sub ->
   exists bs, mos_run q = Ok (Some (m_target q, FH2 (m_format q) bs)) /\ h2_blocks tol (OpLab 0 0 0 2) sub (pn_sectors M sub 0 0 (m_Tz0 q)) (two_body q (j_Jmax p) 0 (species_rme V)) bs).
Proof. exact species_then_moshinsky. Qed.
Print Assumptions C152_species.

(** C152.  relative-xform followed by moshinsky. *)
Theorem C152_xform : forall u6jz racah1 u9j mosh flip tol M B, let mos_run := mos_run u6jz racah1 u9j mosh flip tol M in
  let two_body p Jmax J0 F := jt_rme (jt_of M (m_rank p) (m_cutoff p)) (jj_rme u9j (tb_rme mosh (relcm_rme u6jz racah1 Jmax J0 F))) in
  forall ov schedule disk ls p f F O q pn, xf_input (fun n => match disk n with Some _ => true | None => false end) ls p -> disk (x_source p) = Some f ->
  let src := space_of B (rf_Nmax f) (rf_Jmax f) in let tgt := space_of B (x_Nmax p) (rf_Jmax f) in
  rel_space (rf_Nmax f) (rf_Jmax f) src -> rel_space (x_Nmax p) (rf_Jmax f) tgt -> in_order src tgt -> 0 <= o_T0_min (rf_o f) -> o_T0_max (rf_o f) <= 2 ->
  held src (rf_o f) (rf_c f) F -> hermitian_rel flip F -> symmetric_within F -> complete_schedule schedule -> (0 < x_ratio p)%R -> x_ratio p <> 1%R ->
  (forall L i j, ov (x_steps p) L (x_ratio p) i j = Some (O L i j)) -> writable B (x_target p) = true -> flip_ok flip -> racah_flip racah1 flip (o_J0 (rf_o f)) ->
  exists f', xf_main B ov schedule disk ls = Ok (x_target p, f') /\
  (m_source q = x_target p -> reads_back B M (x_target p) f' -> ready M flip (rf_o f) (x_Nmax p) q pn ->
   exists bs, mos_run q = Ok (Some (m_target q, FH2 (m_format q) bs))
   /\ h2_blocks tol (rf_o f) pn (pn_sectors M pn (o_J0 (rf_o f)) (o_g0 (rf_o f)) (m_Tz0 q)) (two_body q (rf_Jmax f) (o_J0 (rf_o f)) (xform_rme O (rf_Nmax f) F)) bs).
Proof. exact xform_then_moshinsky. Qed.
Print Assumptions C152_xform.

(** C152.  relative-gen of a scalar operator followed by moshinsky. *)
Theorem C152_scalar : forall u6jz racah1 u9j mosh flip tol M B, let mos_run := mos_run u6jz racah1 u9j mosh flip tol M in
  let two_body p Jmax J0 F := jt_rme (jt_of M (m_rank p) (m_cutoff p)) (jj_rme u9j (tb_rme mosh (relcm_rme u6jz racah1 Jmax J0 F))) in
  forall racah1d racah2 w3j w6j jrme tgamma quad racah12 crme jhalf cj1 cj2 inverse_r daejeon,
  let gen_main := gen_main racah1d racah2 w3j w6j jrme tgamma quad racah12 crme jhalf cj1 cj2 inverse_r daejeon B in
  let made := made racah1d racah2 w3j w6j tgamma quad racah12 crme inverse_r in
  forall ls p F q pn, gen_input (has_daejeon daejeon) ls p -> let sp := space_of B (g_Nmax p) (g_Jmax p) in rel_space (g_Nmax p) (g_Jmax p) sp -> identity_ok B ->
  (forall T' T, jrme T' T = if (T' =? T) then sqrt (IZR (T * (T + 1))) else 0%R) ->
  gamma_fn tgamma -> quad_ok quad -> one_spin jhalf racah1d racah2 cj1 cj2 -> diagonal2 racah2 -> (forall steps n' n L, inverse_r steps n' n L = inverse_r steps n n' L) ->
  o_J0 (g_o p) = 0 -> 0 <= o_T0_min (g_o p) -> o_T0_max (g_o p) <= 2 -> In (g_name p) scalar_names -> made sp (g_name p) (g_args p) (g_o p) F -> writable B (g_target p) = true ->
  flip_ok flip -> racah_flip racah1 flip 0 ->
  exists f, gen_main ls = Ok (g_target p, f) /\
  (m_source q = g_target p -> reads_back_num B M (g_target p) f -> ready M flip (g_o p) (g_Nmax p) q pn ->
   exists bs, mos_run q = Ok (Some (m_target q, FH2 (m_format q) bs))
   /\ h2_blocks tol (g_o p) pn (pn_sectors M pn 0 (o_g0 (g_o p)) (m_Tz0 q)) (two_body q (g_Jmax p) 0 (scalar_of F)) bs).
Proof. exact scalar_then_moshinsky. Qed.
Print Assumptions C152_scalar.

(** C152.  relative-gen of any operator followed by moshinsky: relative-gen stores the upper triangle, and the two-body matrix elements are those of the hermitian operator with that upper triangle. *)
Theorem C152_gen : forall u6jz racah1 u9j mosh flip tol M B, let mos_run := mos_run u6jz racah1 u9j mosh flip tol M in
  let two_body p Jmax J0 F := jt_rme (jt_of M (m_rank p) (m_cutoff p)) (jj_rme u9j (tb_rme mosh (relcm_rme u6jz racah1 Jmax J0 F))) in
  forall racah1d racah2 w3j w6j jrme tgamma quad racah12 crme jhalf cj1 cj2 inverse_r daejeon,
  let gen_main := gen_main racah1d racah2 w3j w6j jrme tgamma quad racah12 crme jhalf cj1 cj2 inverse_r daejeon B in
  let made := made racah1d racah2 w3j w6j tgamma quad racah12 crme inverse_r in
  forall ls p F q pn, gen_input (has_daejeon daejeon) ls p -> let sp := space_of B (g_Nmax p) (g_Jmax p) in rel_space (g_Nmax p) (g_Jmax p) sp -> identity_ok B ->
  (forall T' T, jrme T' T = if (T' =? T) then sqrt (IZR (T * (T + 1))) else 0%R) ->
  gamma_fn tgamma -> quad_ok quad -> one_spin jhalf racah1d racah2 cj1 cj2 -> diagonal2 racah2 ->
  0 <= o_T0_min (g_o p) -> o_T0_max (g_o p) <= 2 -> made sp (g_name p) (g_args p) (g_o p) F -> writable B (g_target p) = true ->
  rose_flip flip -> racah_flip racah1 flip (o_J0 (g_o p)) ->
  (exists G, completes flip sp F G) /\
  exists f, gen_main ls = Ok (g_target p, f) /\
  (m_source q = g_target p -> reads_back_num B M (g_target p) f -> ready M flip (g_o p) (g_Nmax p) q pn ->
   exists bs, mos_run q = Ok (Some (m_target q, FH2 (m_format q) bs))
   /\ forall G, completes flip sp F G -> h2_blocks tol (g_o p) pn (pn_sectors M pn (o_J0 (g_o p)) (o_g0 (g_o p)) (m_Tz0 q)) (two_body q (g_Jmax p) (o_J0 (g_o p)) G) bs).
Proof. exact gen_then_moshinsky. Qed.
Print Assumptions C152_gen.

(** C152.  Between the states of the space, there is only one such operator ... *)
Theorem C152_unique : forall flip Nmax sp F G G', rme_space Nmax sp -> completes flip sp F G -> completes flip sp F G' -> same_on sp G G'.
Proof. exact completion_unique. Qed.
Print Assumptions C152_unique.

(** C152.  ... which for the tensor operators of relative-gen, except dipole and symmunit, is the operator itself. *)
Theorem C152_own : forall racah1 racah2 w3j w6j tgamma quad racah12 crme inverse_r flip, rose_flip flip -> exchange1 racah1 -> exchange2 racah2 -> pair_values racah1 racah2 -> exchange_w w3j w6j -> exchange12 racah12 crme ->
  forall Nmax sp name a o F G, rme_space Nmax sp -> made racah1 racah2 w3j w6j tgamma quad racah12 crme inverse_r sp name a o F -> In name tensor_names -> completes flip sp F G -> same_on sp F G.
Proof. exact own_completion. Qed.
Print Assumptions C152_own.

Example C152_completion_case : forall flip G, rose_flip flip -> completes flip [sub_00; sub_11] (unit_element (UL 1 0 0 0 0 1 0 0 1 1 0)) G ->
  G 1 (rl sub_00) 0 (rl sub_11) 0 = 1%R /\ G 1 (rl sub_11) 0 (rl sub_00) 0 = 1%R /\ G 1 (rl sub_00) 0 (rl sub_00) 0 = 0%R /\ unit_element (UL 1 0 0 0 0 1 0 0 1 1 0) 1 (rl sub_11) 0 (rl sub_00) 0 = 0%R.
Proof. exact completion_case. Qed.

Example C152_exchange_case : rose_flip sample_flip /\ exchange1 sample1 /\ exchange2 sample2 /\ forall J0, racah_flip (fun a b c d e f k => sample1 (2 * a) (2 * b) (2 * c) (2 * d) (2 * e) (2 * f) (2 * k)) sample_flip J0.
Proof. exact exchange_case. Qed.

Example C152_exchange12_case : exchange12 sample12 sample_c.
Proof. exact exchange12_case. Qed.

Example C152_case : forall tol v w, exists c bs, jpv_main lib0 3 (disk_v v w) in_jpv = Some (Ok ("in.dat"%string, RelFile scalar0 0 1 c))
  /\ mos_main one6 one7 one7 one9 one5 tol (basis_with c) (-1) in_rel_h2 = Ok (Some ("out.bin"%string, FH2 15099 bs))
  /\ h2_blocks tol scalar0 pn0 [(0, 0); (1, 1); (2, 2); (3, 3)]%nat (jt_rme jt0 (jj_rme one7 (tb_rme one9 (relcm_rme one6 one7 1 0 (isoscalar_rme (V0 v w)))))) bs.
Proof. exact chain_case. Qed.

(** C153.  jpvstat reads the file named by its single argument to the end ... *)
Theorem C153_one : forall B depth disk a V file, a <> "--help"%string -> disk a = Some file -> let sp := space_of B 99 99 in
  rme_space 99 sp -> rspace_ok sp -> symmetric_V V -> interaction_file depth sp 99 V file -> stat_main B depth disk [a] = Some (Ok tt).
Proof. exact stat_one. Qed.
Print Assumptions C153_one.

(** C153.  ... and without arguments, or with --help, reads none. *)
Theorem C153_usage : forall B depth disk args, args = [] \/ (exists l, args = "--help"%string :: l) -> stat_main B depth disk args = Some (Ok tt).
Proof. exact stat_help. Qed.
Print Assumptions C153_usage.

(** C153.  With further arguments the file named by the first is not read: the file of no name is opened, which ends the program. *)
Theorem C153_more : forall B depth disk a b l, a <> "--help"%string -> disk ""%string = None -> stat_main B depth disk (a :: b :: l) = Some Exit.
Proof. exact stat_more. Qed.
Print Assumptions C153_more.

Example C153_case : forall v w B, stat_main B 3 (disk_v v w) ["v.jpv"; "--verify"]%string = Some Exit /\ exists file, disk_v v w "v.jpv" = Some file.
Proof. intros. split; [apply stat_more; [discriminate|reflexivity]|eexists; reflexivity]. Qed.
