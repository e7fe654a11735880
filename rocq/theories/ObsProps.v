(** C131-C135: control file, density files and the whole of obscalc-ob.
    The definitions used in the statements are in ObsSpec.v (control file, density files, what is reported), ObsMain.v (what a statement does), ObsAgree.v,
    ObioSpec.v, ObioFinal.v (line_located), BlockSpec.v, ObsModel.v (code), and, in the cases, the files of ObsCase.v. *)
From Coq Require Import String List ZArith Reals Bool.
From Verif Require Import Base RMat H2Model MapModel OscModel BlockModel BlockSpec ObioModel ObioSpec MixModel ObmModel NatModel RgModel HmModel ObsModel ObsSpec ObsProof ObsSum ObsMain ObsAgree ObsCase.
Import ListNotations.
Open Scope R_scope.
Open Scope string_scope.
Open Scope list_scope.

(** C131.  A line is carried out exactly if it is a statement and the statement can be performed. *)
Theorem C131_line : forall parse_orbitals files, let obs_line := obs_line parse_orbitals files in let performs := performs parse_orbitals files in
  forall r line r', obs_line r line = Ok r' <-> exists st, osays line st /\ performs r st r'.
Proof. exact control_line. Qed.
Print Assumptions C131_line.

(** C131.  Any other line ends the program. *)
Theorem C131_refused : forall parse_orbitals files, let obs_line := obs_line parse_orbitals files in let performs := performs parse_orbitals files in
  forall r line, (forall st, ~ osays line st) -> obs_line r line = Exit.
Proof. exact control_refused. Qed.
Print Assumptions C131_refused.

(** C131.  A line makes one statement. *)
Theorem C131_one_meaning : forall line st st', osays line st -> osays line st' -> st = st'.
Proof. exact one_statement. Qed.
Print Assumptions C131_one_meaning.

(** C131.  Every mode but append overwrites ... *)
Theorem C131_mode : forall parse files r f m, w_text m <> "append" ->
  obs_line parse files r (CLine [tx "set-output-file"; f; m] false) = obs_line parse files r (CLine [tx "set-output-file"; f] false).
Proof. exact mode_any. Qed.
Print Assumptions C131_mode.

(** C131 refuted: ... and a misspelt append does so without any message. *)
Theorem C131_mode_refuted : exists parse files r f m r', w_text m = "apend" /\ obs_line parse files r (CLine [tx "set-output-file"; f; m] false) = Ok r' /\ r_out r' = Some (w_text f, false).
Proof. exact mode_refuted. Qed.
Print Assumptions C131_mode_refuted.

(** C131 refuted: an angular momentum that is neither integer nor half-integer is accepted. *)
Theorem C131_fraction_refuted : exists parse files r w x line r', w_num w = Some x /\ x <> 0
  /\ line = CLine [tx "define-densities"; w; iw "0" 0; iw "1" 1; iw "0" 0; iw "0" 0; iw "1" 1; tx "rho"] false
  /\ osays line (Densities 0 0 1 0 0 1 "rho" None) /\ obs_line parse files r line = Ok r'.
Proof. exact fraction_refuted. Qed.
Print Assumptions C131_fraction_refuted.

(** C131.  A blank after the name of the output file ends the program ... *)
Theorem C131_blank : forall parse files r f, obs_line parse files r (CLine [tx "set-output-file"; f] true) = Exit.
Proof. exact blank_refused. Qed.
Print Assumptions C131_blank.

(** C131.  ... and so does one after the name of a density file. *)
Theorem C131_blank_densities : forall parse files r a b c d e g f, obs_line parse files r (CLine [tx "define-densities"; a; b; c; d; e; g; f] true) = Exit.
Proof. exact blank_densities. Qed.
Print Assumptions C131_blank_densities.

Example C131_case : Forall2 osays case_lines case_sts.
Proof. exact case_says. Qed.

(** C132.  A file of version 1520 is read: the density with its elements, and nothing else. *)
Theorem C132_single : forall parse_orbitals, forall sp t bra ket a b np nn orbl os data, space_ok (forget sp) -> single_file t bra ket a b np nn orbl data ->
  orbitals_in sp SP = np -> orbitals_in sp SN = nn -> parse_orbitals orbl = Ok os -> NoDup (map full_labels os) ->
  Z.even (n_Z bra - n_N bra - (n_Z ket - n_N ket)) = true -> (a <= b + 1)%Z ->
  NoDup (map (fun l => (dl_a l, dl_b l, dl_J0 l)) data) ->
  Forall (ObioFinal.line_located selection (forget sp) a b (parity_change bra ket) (Tz_change bra ket) (map full_labels os)) data ->
  exists d, single_stream parse_orbitals sp (n_2J bra) (n_g bra) (n_n bra) (n_2J ket) (n_g ket) (n_n ket) t
    = Ok (DStream (n_2J bra) (n_g bra) (n_n bra) (n_2J ket) (n_g ket) (n_n ket)
        (ObDe (n_2J bra) (n_2J ket) (n_2M bra) (n_2M ket) (parity_change bra ket) (Tz_change bra ket) d))
  /\ density_of (forget sp) a b (parity_change bra ket) (Tz_change bra ket) (elements_1520 (map full_labels os) data) d.
Proof. exact single_read. Qed.
Print Assumptions C132_single.

(** C132.  The two files of versions 1405 and 1500. *)
Theorem C132_multi : forall sp ti td J0_max version announced info bra ket vs, space_ok (forget sp) -> info_file sp ti J0_max version announced info ->
  multi_data td version bra ket announced vs -> length vs = length info -> (-1 <= J0_max)%Z -> NoDup info ->
  Forall (fun i => located selection (forget sp) 0 J0_max (parity_change bra ket) 0 (il_bra i) (il_ket i) (il_J0 i)) info ->
  exists d, multi_stream sp (n_2J bra) (n_g bra) (n_n bra) (n_2J ket) (n_g ket) (n_n ket) ti td
    = Ok (DStream (n_2J bra) (n_g bra) (n_n bra) (n_2J ket) (n_g ket) (n_n ket)
        (ObDe (n_2J bra) (n_2J ket) (n_2M bra) (n_2M ket) (parity_change bra ket) 0 d))
  /\ density_of (forget sp) 0 J0_max (parity_change bra ket) 0 (elements_multi info vs) d.
Proof. exact multi_read. Qed.
Print Assumptions C132_multi.

(** C132.  A file of version 1520 that is accepted has the quantum numbers of the statement and the orbitals of the space ... *)
Theorem C132_single_agrees : forall parse sp twoJb gb nb twoJk gk nk t d, snd t = true -> single_stream parse sp twoJb gb nb twoJk gk nk t = Ok d ->
  exists l1 l2 l3 l4 l5 l6 rest, with_words (fst t) = [l1; l2; l3; l4; l5; l6] ++ rest /\ ints l1 [1520%Z] /\ agrees l2 twoJb gb nb /\ agrees l3 twoJk gk nk
  /\ counts l6 [orbitals_in sp SP; orbitals_in sp SN].
Proof. exact single_agrees. Qed.
Print Assumptions C132_single_agrees.

(** C132.  ... and one that has not is refused by an assertion. *)
Theorem C132_single_other : forall parse sp t bra ket a b np nn orbl data twoJb gb nb twoJk gk nk, single_file t bra ket a b np nn orbl data ->
  ~ ((n_2J bra = twoJb /\ n_g bra = gb /\ n_n bra = nb) /\ (n_2J ket = twoJk /\ n_g ket = gk /\ n_n ket = nk) /\ np = orbitals_in sp SP /\ nn = orbitals_in sp SN) ->
  single_stream parse sp twoJb gb nb twoJk gk nk t = AssertFail.
Proof. exact single_other. Qed.
Print Assumptions C132_single_other.

(** C132.  Two files that are accepted agree with each other, with the angular momenta and numbers of the statement, and with the orbitals of the space. *)
Theorem C132_multi_agrees : forall sp twoJb gb nb twoJk gk nk ti t d, snd ti = true -> snd t = true -> multi_stream sp twoJb gb nb twoJk gk nk ti t = Ok d ->
  exists v np nn, (exists l1 l2 l3 l4 rest, with_words (fst ti) = [l1; l2; l3; l4] ++ rest /\ ints l1 [v]
    /\ (v = 1405%Z /\ counts l2 [orbitals_in sp SP] /\ orbitals_in sp SN = orbitals_in sp SP /\ counts l4 [np] /\ np = nn
        \/ v = 1500%Z /\ counts l3 [orbitals_in sp SP; orbitals_in sp SN] /\ counts l4 [np; nn]))
  /\ exists l1 l2 l3 l4 l5 rest, with_words (fst t) = [l1; l2; l3; l4; l5] ++ rest /\ ints l1 [v] /\ multi_agrees_line l3 twoJb nb /\ multi_agrees_line l4 twoJk nk
     /\ counts l5 (if (v =? 1405)%Z then [np; nn] else [(np + nn)%Z]).
Proof. exact multi_agrees. Qed.
Print Assumptions C132_multi_agrees.

(** C132.  Other versions are refused ... *)
Theorem C132_single_version : forall parse sp twoJb gb nb twoJk gk nk t v l ls, snd t = true -> with_words (fst t) = (TInt v :: l) :: ls -> v <> 1520%Z ->
  single_stream parse sp twoJb gb nb twoJk gk nk t = Exit.
Proof. exact single_version. Qed.
Print Assumptions C132_single_version.

(** C132.  ... in either format. *)
Theorem C132_multi_version : forall sp twoJb gb nb twoJk gk nk ti t v l ls, snd ti = true -> with_words (fst ti) = (TInt v :: l) :: ls -> v <> 1405%Z -> v <> 1500%Z ->
  multi_stream sp twoJb gb nb twoJk gk nk ti t = Exit.
Proof. exact multi_version. Qed.
Print Assumptions C132_multi_version.

(** C132 refuted: the parities given for files of versions 1405 and 1500 are compared with nothing. *)
Theorem C132_parity_refuted : exists sp ti t d d', multi_stream sp 0 0 1 0 0 1 ti t = Ok d /\ multi_stream sp 0 1 1 0 1 1 ti t = Ok d' /\ ds_od d = ds_od d'.
Proof. exact parity_refuted. Qed.
Print Assumptions C132_parity_refuted.

(** C132 refuted: a short line of quantum numbers is not reported, variables without a value are used. *)
Theorem C132_short_refuted : exists parse sp ls, (length (nth 1 ls []) = 3)%nat /\ single_stream parse sp 0 0 1 0 0 1 (ls, true) = UB.
Proof. exact short_header_refuted. Qed.
Print Assumptions C132_short_refuted.

(** C132 refuted: a word in place of the number of the state is taken as 0. *)
Theorem C132_number_refuted : exists parse sp l2 ls d, nth 1 ls [] = l2 /\ nth_error l2 6 = Some (TChr Ascii.zero) /\ single_stream parse sp 0 0 0 0 0 0 (ls, true) = Ok d.
Proof. exact number_refuted. Qed.
Print Assumptions C132_number_refuted.

(** C132.  A last line without newline is not used ... *)
Theorem C132_no_newline : forall parse sp ls x bra ket a b np nn orbl data twoJb gb nb twoJk gk nk, single_file (ls, true) bra ket a b np nn orbl data -> x <> [] ->
  single_stream parse sp twoJb gb nb twoJk gk nk (ls ++ [x], false) = single_stream parse sp twoJb gb nb twoJk gk nk (ls, true).
Proof. exact single_no_newline. Qed.
Print Assumptions C132_no_newline.

(** C132 refuted: ... so that an element is lost without a message. *)
Theorem C132_no_newline_refuted : exists parse sp ls x e d d', element_line x e /\ single_stream parse sp 0 0 1 0 0 1 (ls ++ [x], true) = Ok d /\ single_stream parse sp 0 0 1 0 0 1 (ls ++ [x], false) = Ok d'
  /\ density_entry (od_dens (ds_od d)) 0 0 0 0 0 = 3 / ObioModel.hat 1 /\ density_entry (od_dens (ds_od d')) 0 0 0 0 0 = 0.
Proof. exact no_newline_refuted. Qed.
Print Assumptions C132_no_newline_refuted.

Example C132_case : density_in case_parse case_files case_space (Densities 0 0 1 0 0 1 "rho" None) case_dens.
Proof. exact case_density_in. Qed.

Example C132_multi_case : exists d, multi_stream case_space 0 0 1 0 0 1 case_info case_multi = Ok d
  /\ density_entry (od_dens (ds_od d)) 0 0 0 0 0 = 2 * k_sqrt_4pi / sqrt 2 /\ density_entry (od_dens (ds_od d)) 0 1 0 1 0 = 4 * k_sqrt_4pi / sqrt 2.
Proof. exact multi_case. Qed.

(** C133.  The report of a run. *)
Theorem C133_report : forall parse_orbitals files opens w3j, let obscalc := obscalc parse_orbitals files opens w3j in
  forall lines sts out file os ops ds, Forall2 osays lines sts -> last_output sts out -> opens (fst out) (snd out) = true ->
  orbitals_first sts file -> files file = Some (OOrbitals os) -> (forall f, In (Orbitals f) sts -> exists os', files f = Some (OOrbitals os')) ->
  space_ok (forget (mk_wspace os)) -> Forall2 (operator_in files (mk_wspace os)) (operators_in sts) ops ->
  Forall2 (density_in parse_orbitals files (mk_wspace os)) (densities_in sts) ds ->
  exists ss, obscalc lines = Ok (out, ss) /\ report w3j ops ds ss.
Proof. exact obscalc_ok. Qed.
Print Assumptions C133_report.

Example C133_case : exists v, obscalc case_parse case_files (fun _ _ => true) case_3j case_lines = Ok ("out", false, [OSection (0, 0, 0)%Z "E" [OLine 0 0 1 0 0 1 v]]) /\ v = 26 * sqrt 2.
Proof. exact case_value. Qed.

(** C134.  Densities named before the orbitals are refused by an assertion ... *)
Theorem C134_before_orbitals : forall parse files r twoJb gb nb twoJk gk nk file t bra ket a b np nn orbl data, r_space r = [] -> files file = Some (OText t) ->
  single_file t bra ket a b np nn orbl data -> orbl <> [] -> perform parse files r (Densities twoJb gb nb twoJk gk nk file None) = AssertFail.
Proof. exact before_orbitals. Qed.
Print Assumptions C134_before_orbitals.

(** C134 refuted: ... but orbitals set after the densities change the results without any message. *)
Theorem C134_reindexed_refuted : exists parse files opens w3j lines line q name J, exists out v v',
  osays line (Orbitals "orb-p")
  /\ obscalc parse files opens w3j lines = Ok (out, [OSection q name [OLine J 0 1 J 0 1 v]])
  /\ obscalc parse files opens w3j (lines ++ [line]) = Ok (out, [OSection q name [OLine J 0 1 J 0 1 v']]) /\ v <> v'.
Proof. exact reindex_refuted. Qed.
Print Assumptions C134_reindexed_refuted.

(** C135.  Without an output file the mode of the file is used without a value ... *)
Theorem C135_no_output : forall parse files opens w3j lines sts r, Forall2 osays lines sts -> obs_lines parse files orun0 lines = Ok r -> (forall f a, ~ In (Output f a) sts) ->
  obscalc parse files opens w3j lines = UB.
Proof. exact no_output. Qed.
Print Assumptions C135_no_output.

(** C135 refuted: ... after all densities and operators have been read. *)
Theorem C135_no_output_refuted : exists parse files opens w3j lines r, obs_lines parse files orun0 lines = Ok r /\ length (r_dens r) = 1%nat /\ length (r_ops r) = 1%nat
  /\ obscalc parse files opens w3j lines = UB.
Proof. exact no_output_refuted. Qed.
Print Assumptions C135_no_output_refuted.

