(** Cases of obscalc-ob. *)
From Coq Require Import Ascii String List ZArith Reals Bool Lra Lia.
From Verif Require Import Base RMat H2Model MapModel OscModel BlockModel BlockSpec BlockProof ObioModel ObioSpec ObioProof ObioFinal MixModel MixProof ObmModel NatModel RgModel HmModel ObsModel ObsSpec ObsProof ObsSum ObsMain ObsAgree.
Import ListNotations.
Open Scope R_scope.
Open Scope string_scope.
Open Scope list_scope.

(** ** Files: the s1/2 orbitals, an operator with elements 3 (protons) and 5 (neutrons), a density between 0+ states *)
Definition s_p : oinfo R := OI (LL SP 0 1) 0 0.
Definition s_n : oinfo R := OI (LL SN 0 1) 0 0.
Definition case_space : wspace R := mk_wspace [s_p; s_n].
Definition case_op : rfile := RFile false (0, 0, 0)%Z case_space case_space [(0, 0); (1, 1)]%nat [Mat 1 1 (fun _ _ => 3); Mat 1 1 (fun _ _ => 5)].
Definition int_line (zs : list Z) : dline := map TInt zs.
Definition state0 : nstate := NState 1 1 0 0 0 1.
Definition case_data : list data_line := [DL 1 1 0 2; DL 2 2 0 4].
Definition case_density : dtext :=
  ([int_line [1520]; int_line [1; 1; 1; 0; 0; 1; 1] ++ [TNum (/ 2)%R]; int_line [1; 1; 1; 0; 0; 1; 1]; int_line [0]; int_line [0]; int_line [1; 1]; int_line [1; 1]%Z;
    int_line [1]; int_line [2]; int_line [1; 1; 0] ++ [TNum 2%R]; int_line [2; 2; 0] ++ [TNum 4%R]]%Z, true).
Definition case_parse (ls : list dline) : outcome (list (oinfo R)) := Ok [s_p; s_n].
Definition case_files (name : string) : option ocontents :=
  if String.eqb name "orb" then Some (OOrbitals [s_p; s_n]) else if String.eqb name "orb-p" then Some (OOrbitals [s_p])
  else if String.eqb name "op" then Some (OElements case_op) else if String.eqb name "rho" then Some (OText case_density) else None.
Definition case_3j (a b c d e f : Z) : R := 1.
Definition tx (s : string) : word := Word s None None.
Definition iw (s : string) (z : Z) : word := Word s (Some z) (Some (IZR z)).
Definition case_lines : list cline :=
  [CLine [tx "set-output-file"; tx "out"] false; CLine [tx "set-indexing"; tx "orb"] false; CLine [tx "define-operator"; tx "E"; tx "op"] false;
   CLine [tx "define-densities"; iw "0" 0; iw "0" 0; iw "1" 1; iw "0" 0; iw "0" 0; iw "1" 1; tx "rho"] false].
Definition case_sts : list ostatement := [Output "out" false; Orbitals "orb"; Operator "E" "op"; Densities 0 0 1 0 0 1 "rho" None].
Lemma twice_0 : twice 0 0.
Proof. left. lra. Qed.
Lemma case_says : Forall2 osays case_lines case_sts.
Proof.
  repeat constructor. eapply (say_densities (tx "define-densities") (iw "0" 0) (iw "0" 0) (iw "1" 1) (iw "0" 0) (iw "0" 0) (iw "1" 1) (tx "rho")); try reflexivity; apply twice_0.
Qed.
Lemma case_space_ok : space_ok (forget case_space).
Proof.
  split.
  - unfold distinct_labels. cbn. repeat constructor; cbn; intuition discriminate.
  - repeat constructor; cbn; tauto.
Qed.
Lemma case_carries : forall a P p, carries (forget case_space) a P p -> (P < 2)%nat /\ p = 0%nat /\ a = match P with O => full_labels s_p | _ => full_labels s_n end.
Proof.
  intros [s n l j] P p (s' & x & Hs & Hx & Hl & Hn). cbn in Hs. subst s. destruct P as [|[|P]]; cbn in Hx; [| |destruct P; discriminate]; injection Hx as <-; cbn in Hl, Hn; injection Hl as <- <- <-;
    (destruct p as [|p]; [|destruct p; discriminate]); injection Hn as <-; split; try lia; split; reflexivity.
Qed.
Definition case_el (a b : flab) : R :=
  match fl_sp a, fl_sp b with Some SP, Some SP => 3 | Some SN, Some SN => 5 | _, _ => 0 end.
Definition case_oper : oper := Oper "E" (0, 0, 0)%Z case_el.
Lemma case_operator : operator_in case_files case_space ("E", "op") case_oper.
Proof.
  exists case_op. repeat split; try reflexivity.
  - repeat constructor; cbn; intuition discriminate.
  - repeat constructor; cbn; lia.
  - intros a b P p Q q Ha Hb. apply case_carries in Ha, Hb. destruct Ha as (HP & -> & ->), Hb as (HQ & -> & ->).
    destruct P as [|[|P]]; [| |lia]; (destruct Q as [|[|Q]]; [| |lia]); cbn; reflexivity.
Qed.
Definition case_dens : dens := DensOf state0 state0 0 0 0 (elements_1520 (map full_labels [s_p; s_n]) case_data).
Lemma case_density_in : density_in case_parse case_files case_space (Densities 0 0 1 0 0 1 "rho" None) case_dens.
Proof.
  apply (in_single case_parse case_files case_space state0 state0 0 0 [int_line [1%Z]; int_line [2%Z]] [s_p; s_n] case_data "rho" case_density); try reflexivity.
  - split; [reflexivity| |reflexivity].
    exists (int_line [1520%Z]), (int_line [1; 1; 1; 0; 0; 1; 1]%Z ++ [TNum (/ 2)]), (int_line [1; 1; 1; 0; 0; 1; 1]%Z), (int_line [0%Z]), (int_line [0%Z]), (int_line [1; 1]%Z), (int_line [1; 1]%Z),
      [int_line [1; 1; 0]%Z ++ [TNum 2]; int_line [2; 2; 0]%Z ++ [TNum 4]], 1%Z, 1%Z.
    split; [reflexivity|]. split; [exists []; split; [reflexivity|repeat constructor]|]. split; [exists 1%Z, 1%Z, [TNum (/ 2)]; split; [reflexivity|left; split; reflexivity]|]. split; [exists 1%Z, 1%Z, []; split; [reflexivity|left; split; reflexivity]|].
    split; [exists []; split; [reflexivity|repeat constructor]|]. split; [exists []; split; [reflexivity|repeat constructor]|]. split; [exists []; split; [reflexivity|repeat constructor]|]. split; [exists []; split; [reflexivity|repeat constructor]|].
    repeat constructor; [exists (TNum 2), []|exists (TNum 4), []]; repeat split; left; reflexivity.
  - repeat constructor; cbn; intuition discriminate.
  - lia.
  - repeat constructor; cbn; intuition discriminate.
  - intros l [<-|[<-|[]]]; (split; [cbn; lia|]; split; [cbn; lia|]).
    + exists (full_labels s_p), (full_labels s_p). split; [reflexivity|]. split; [reflexivity|]. split; [cbn; lia|]. exists 0%nat, 0%nat, 0%nat, 0%nat.
      assert (C : carries (forget case_space) (full_labels s_p) 0 0) by (exists SP, (LL SP 0 1, [0%Z]); repeat split). split; [exact C|]. split; [exact C|]. left. reflexivity.
    + exists (full_labels s_n), (full_labels s_n). split; [reflexivity|]. split; [reflexivity|]. split; [cbn; lia|]. exists 1%nat, 0%nat, 1%nat, 0%nat.
      assert (C : carries (forget case_space) (full_labels s_n) 1 0) by (exists SN, (LL SN 0 1, [0%Z]); repeat split). split; [exact C|]. split; [exact C|]. right. left. reflexivity.
Qed.
Lemma case_first : orbitals_first case_sts "orb".
Proof. exists [Output "out" false], [Operator "E" "op"; Densities 0 0 1 0 0 1 "rho" None]. split; [reflexivity|]. split; [|reflexivity]. intros f [H|[H|[]]]; discriminate. Qed.
Lemma sqrt2 : sqrt 2 * sqrt 2 = 2 /\ sqrt 2 <> 0.
Proof. assert (H : sqrt 2 * sqrt 2 = 2) by (apply sqrt_sqrt; lra). split; [exact H|]. intros E. rewrite E in H. lra. Qed.
(** 2 * 3 * (2 / sqrt 2) + 2 * 5 * (4 / sqrt 2) *)
Lemma case_value : exists v, obscalc case_parse case_files (fun _ _ => true) case_3j case_lines = Ok ("out", false, [OSection (0, 0, 0)%Z "E" [OLine 0 0 1 0 0 1 v]]) /\ v = 26 * sqrt 2.
Proof.
  destruct (obscalc_ok case_parse case_files (fun _ _ => true) case_3j case_lines case_sts ("out", false) "orb" [s_p; s_n] [case_oper] [case_dens] case_says) as (ss & E & Hr).
  - exists [], [Orbitals "orb"; Operator "E" "op"; Densities 0 0 1 0 0 1 "rho" None]. split; [reflexivity|]. intros f a [H|[H|[H|[]]]]; discriminate.
  - reflexivity.
  - apply case_first.
  - reflexivity.
  - intros f [H|[H|[H|[H|[]]]]]; try discriminate. injection H as <-. eexists. reflexivity.
  - apply case_space_ok.
  - constructor; [apply case_operator|constructor].
  - constructor; [apply case_density_in|constructor].
  - assert (Ho : observed case_3j case_oper case_dens).
    { cbn. repeat split; try lia. unfold case_3j. rewrite Rabs_R1. assert (/ 10 ^ 8 <= / 1); [|lra]. apply Rinv_le_contravar; lra. }
    exists (rme case_oper case_dens). split.
    + rewrite E. inversion Hr as [|? ? ? ls ss' Hl Hn Hr'|? ? ? ? Hl Hr']; subst.
      * inversion Hr'; subst. inversion Hl as [|? ? ls' _ Hl'|? ? ? Hno]; subst; [|contradiction]. inversion Hl'; subst. reflexivity.
      * inversion Hl; subst. contradiction.
    + unfold rme. cbn [o_q case_oper d_els case_dens]. unfold elements_1520, case_data. cbn -[sqrt IZR]. replace (sqrt (IZR 1)) with 1 by (symmetry; apply sqrt_1).
      change (Pos.to_nat 1) with 1%nat. cbn -[sqrt IZR]. destruct sqrt2 as [S S0].
      replace ((2 * 3 * (2 / sqrt 2) + (2 * 5 * (4 / sqrt 2) + 0)) / 1) with (52 / sqrt 2) by (field; exact S0). apply (Rmult_eq_reg_r (sqrt 2)); [|exact S0]. rewrite Rmult_assoc, S. field. exact S0.
Qed.
Definition case_stored : density :=
  Dens 0 0 [[(0, 0); (1, 1)]%nat] [[mset (Mat 1 1 (fun _ _ => 0)) 0 0 (2 / ObioModel.hat 1); mset (Mat 1 1 (fun _ _ => 0)) 0 0 (4 / ObioModel.hat 1)]].
Lemma case_stream : single_stream case_parse case_space 0 0 1 0 0 1 case_density = Ok (DStream 0 0 1 0 0 1 (ObDe 0 0 0 0 0 0 case_stored)).
Proof. lazy -[Rdiv Rmult Rplus Rinv sqrt IZR ObioModel.hat]. reflexivity. Qed.
Lemma case_run : run case_parse case_files orun0 case_sts = Ok (ORun (Some ("out", false)) case_space [("E", case_op)] [DStream 0 0 1 0 0 1 (ObDe 0 0 0 0 0 0 case_stored)]).
Proof.
  cbn [run case_sts perform bind orun0 r_out r_space r_ops r_dens]. change (case_files "orb") with (Some (OOrbitals [s_p; s_n])). cbn [bind r_out r_space r_ops r_dens].
  rewrite (proj2 (read_operator_ok case_files "E" "op" ("E", case_op))) by (exists case_op; repeat split). cbn [bind r_out r_space r_ops r_dens app].
  unfold stream_for, text_file. change (case_files "rho") with (Some (OText case_density)). cbn [check bind]. change (mk_wspace [s_p; s_n]) with case_space. rewrite case_stream. reflexivity.
Qed.
Lemma hat_1 : ObioModel.hat 1 = sqrt 2. Proof. reflexivity. Qed.
Lemma hat_0 : ObioModel.hat 0 = 1. Proof. unfold ObioModel.hat. cbn. apply sqrt_1. Qed.
Lemma observed_p : forall sp, sp = forget (mk_wspace [s_p]) -> observable case_3j sp (operator_of case_op) (ObDe 0 0 0 0 0 0 case_stored) = Ok (Num (6 * sqrt 2)).
Proof.
  intros sp ->. unfold observable. cbn -[Rlt_dec Rabs IZR Rplus Rmult Rdiv ObioModel.hat pow]. destruct (Rlt_dec (Rabs (case_3j 0 0 0 0 0 0)) (/ 10 ^ 8)) as [H|H].
  - exfalso. unfold case_3j in H. rewrite Rabs_R1 in H. assert (/ 10 ^ 8 <= / 1); [apply Rinv_le_contravar; lra|lra].
  - do 2 f_equal. rewrite hat_1, hat_0. destruct sqrt2 as [S S0]. replace (IZR (1 + 1)) with 2 by reflexivity.
    replace ((0 + 2 * 3 * (2 / sqrt 2)) / 1) with (12 / sqrt 2) by (field; exact S0). apply (Rmult_eq_reg_r (sqrt 2)); [|exact S0]. rewrite Rmult_assoc, S. field. exact S0.
Qed.
Definition reindex_line : cline := CLine [tx "set-indexing"; tx "orb-p"] false.
(** a further set-indexing changes the result, without any message *)
Theorem reindex_refuted : exists parse files opens w3j lines line q name J, exists out v v',
  osays line (Orbitals "orb-p")
  /\ obscalc parse files opens w3j lines = Ok (out, [OSection q name [OLine J 0 1 J 0 1 v]])
  /\ obscalc parse files opens w3j (lines ++ [line]) = Ok (out, [OSection q name [OLine J 0 1 J 0 1 v']]) /\ v <> v'.
Proof.
  destruct case_value as (v & E & Hv). exists case_parse, case_files, (fun _ _ => true), case_3j, case_lines, reindex_line, (0, 0, 0)%Z, "E", 0%Z, ("out", false), v, (6 * sqrt 2).
  split; [apply (say_orbitals (tx "set-indexing") (tx "orb-p")); reflexivity|]. split; [exact E|]. split.
  - assert (HS : Forall2 osays (case_lines ++ [reindex_line]) (case_sts ++ [Orbitals "orb-p"])).
    { apply Forall2_app; [apply case_says|]. constructor; [|constructor]. apply (say_orbitals (tx "set-indexing") (tx "orb-p")). reflexivity. }
    unfold obscalc. rewrite (run_lines _ _ _ _ orun0 HS), run_app, case_run. cbn [bind run perform r_out r_space r_ops r_dens]. change (case_files "orb-p") with (Some (OOrbitals [s_p])). cbn [bind r_out r_space r_ops r_dens check sections_of section_lines ds_od].
    rewrite (observed_p _ eq_refl). cbn [bind app ds_2Jb ds_gb ds_nb ds_2Jk ds_gk ds_nk case_op rf_q]. reflexivity.
  - rewrite Hv. destruct sqrt2 as [S S0]. lra.
Qed.

(** ** Control files *)
(** a fraction: J = 0.3 is taken as 0 *)
Theorem fraction_refuted : exists parse files r w x line r', w_num w = Some x /\ x <> 0
  /\ line = CLine [tx "define-densities"; w; iw "0" 0; iw "1" 1; iw "0" 0; iw "0" 0; iw "1" 1; tx "rho"] false
  /\ osays line (Densities 0 0 1 0 0 1 "rho" None) /\ obs_line parse files r line = Ok r'.
Proof.
  exists case_parse, case_files, (ORun None case_space [] []), (Word "0.3" None (Some (3 / 10))), (3 / 10). eexists. eexists. split; [reflexivity|]. split; [lra|]. split; [reflexivity|].
  assert (H : osays (CLine [tx "define-densities"; Word "0.3" None (Some (3 / 10)); iw "0" 0; iw "1" 1; iw "0" 0; iw "0" 0; iw "1" 1; tx "rho"] false) (Densities 0 0 1 0 0 1 "rho" None)).
  { eapply (say_densities (tx "define-densities") (Word "0.3" None (Some (3 / 10))) (iw "0" 0) (iw "1" 1) (iw "0" 0) (iw "0" 0) (iw "1" 1) (tx "rho")); try reflexivity; [left; lra|apply twice_0]. }
  split; [exact H|]. apply control_line. exists (Densities 0 0 1 0 0 1 "rho" None). split; [exact H|]. eapply performs_single; [reflexivity|apply case_stream].
Qed.
(** every word but append overwrites *)
Theorem mode_any : forall parse files r f m, w_text m <> "append" ->
  obs_line parse files r (CLine [tx "set-output-file"; f; m] false) = obs_line parse files r (CLine [tx "set-output-file"; f] false).
Proof. intros parse files r f m H. rewrite !line_performs. unfold parsed. cbn [cl_words cl_blank tx w_text]. change (String.eqb "set-output-file" "set-output-file") with true. cbv iota. destruct (String.eqb_spec (w_text m) "append"); [contradiction|reflexivity]. Qed.
Theorem mode_refuted : exists parse files r f m r', w_text m = "apend" /\ obs_line parse files r (CLine [tx "set-output-file"; f; m] false) = Ok r' /\ r_out r' = Some (w_text f, false).
Proof. exists case_parse, case_files, orun0, (tx "out"), (tx "apend"), (ORun (Some ("out", false)) [] [] []). split; [reflexivity|]. split; reflexivity. Qed.
(** a blank at the end of a line *)
Theorem blank_refused : forall parse files r f, obs_line parse files r (CLine [tx "set-output-file"; f] true) = Exit.
Proof. reflexivity. Qed.
Theorem blank_densities : forall parse files r a b c d e g f, obs_line parse files r (CLine [tx "define-densities"; a; b; c; d; e; g; f] true) = Exit.
Proof.
  intros. apply control_refused. intros st H. apply parsed_says in H. unfold parsed in H. cbn [cl_words cl_blank tx w_text] in H. cbn [String.eqb Ascii.eqb Bool.eqb optional_info] in H.
  destruct (w_num a), (w_int b), (w_int c), (w_num d), (w_int e), (w_int g); discriminate.
Qed.
(** no output file *)
Theorem no_output : forall parse files opens w3j lines sts r, Forall2 osays lines sts -> obs_lines parse files orun0 lines = Ok r -> (forall f a, ~ In (Output f a) sts) ->
  obscalc parse files opens w3j lines = UB.
Proof.
  intros parse files opens w3j lines sts r H Hr Hno. unfold obscalc. rewrite Hr. cbn [bind].
  assert (Hout : forall sts r0 r, (forall f a, ~ In (Output f a) sts) -> run parse files r0 sts = Ok r -> r_out r = r_out r0).
  { clear. induction sts as [|s sts IH]; intros r0 r Hno Hr; [injection Hr as <-; reflexivity|]. cbn [run] in Hr. apply bind_inv in Hr. destruct Hr as (r1 & H1 & H2).
    rewrite (IH r1 r) by (try exact H2; intros f a Hin; apply (Hno f a); right; exact Hin). apply perform_performs in H1. destruct H1; try reflexivity. destruct (Hno f a). left. reflexivity. }
  rewrite (run_lines _ _ _ _ orun0 H) in Hr. rewrite (Hout sts orun0 r Hno Hr). reflexivity.
Qed.
Theorem no_output_refuted : exists parse files opens w3j lines r, obs_lines parse files orun0 lines = Ok r /\ length (r_dens r) = 1%nat /\ length (r_ops r) = 1%nat
  /\ obscalc parse files opens w3j lines = UB.
Proof.
  assert (HS : Forall2 osays (tl case_lines) (tl case_sts)) by (generalize case_says; intros H; inversion H; assumption).
  assert (HR : exists r, obs_lines case_parse case_files orun0 (tl case_lines) = Ok r /\ length (r_dens r) = 1%nat /\ length (r_ops r) = 1%nat).
  { rewrite (run_lines _ _ _ _ orun0 HS). eexists. split.
    - cbn [run tl case_sts perform bind orun0 r_out r_space r_ops r_dens]. change (case_files "orb") with (Some (OOrbitals [s_p; s_n])). cbn [bind r_out r_space r_ops r_dens].
      rewrite (proj2 (read_operator_ok case_files "E" "op" ("E", case_op))) by (exists case_op; repeat split). cbn [bind r_out r_space r_ops r_dens app].
      unfold stream_for, text_file. change (case_files "rho") with (Some (OText case_density)). cbn [check bind]. change (mk_wspace [s_p; s_n]) with case_space. rewrite case_stream. reflexivity.
    - split; reflexivity. }
  destruct HR as (r & E & L1 & L2). exists case_parse, case_files, (fun _ _ => true), case_3j, (tl case_lines), r. split; [exact E|]. split; [exact L1|]. split; [exact L2|].
  eapply no_output; [exact HS|exact E|]. intros f a [H|[H|[H|[]]]]; discriminate.
Qed.

(** ** Density files *)
Lemma single_state_other : forall l x twoJ g n, state_line l x -> ~ (n_2J x = twoJ /\ n_g x = g /\ n_n x = n) -> single_state l twoJ g n = AssertFail.
Proof.
  intros l x twoJ g n (sq & p & rest & -> & Hp) H. cbn [app single_state]. destruct (Z.eqb_spec (n_2J x) twoJ) as [EJ|_]; [|reflexivity]. cbn [cassert bind].
  destruct Hp as [[-> Hg]|[-> Hg]]; cbn [Z.eqb Pos.eqb orb cassert bind].
  - destruct (Z.eqb_spec g 0) as [Eg|_]; [|reflexivity]. cbn [cassert bind]. destruct (Z.eqb_spec (n_n x) n) as [En|_]; [|reflexivity]. destruct H. rewrite Hg, Eg. auto.
  - destruct (Z.eqb_spec g 1) as [Eg|_]; [|reflexivity]. cbn [cassert bind]. destruct (Z.eqb_spec (n_n x) n) as [En|_]; [|reflexivity]. destruct H. rewrite Hg, Eg. auto.
Qed.
Lemma single_state_cases : forall l x twoJ g n, state_line l x -> single_state l twoJ g n = AssertFail \/ (n_2J x = twoJ /\ n_g x = g /\ n_n x = n).
Proof.
  intros l x twoJ g n H. destruct (Z.eq_dec (n_2J x) twoJ), (Z.eq_dec (n_g x) g), (Z.eq_dec (n_n x) n); try (right; auto; fail); left; eapply single_state_other; try exact H; tauto.
Qed.
(** a file of other states or other numbers of orbitals *)
Theorem single_other : forall parse sp t bra ket a b np nn orbl data twoJb gb nb twoJk gk nk, single_file t bra ket a b np nn orbl data ->
  ~ ((n_2J bra = twoJb /\ n_g bra = gb /\ n_n bra = nb) /\ (n_2J ket = twoJk /\ n_g ket = gk /\ n_n ket = nk) /\ np = orbitals_in sp SP /\ nn = orbitals_in sp SN) ->
  single_stream parse sp twoJb gb nb twoJk gk nk t = AssertFail.
Proof.
  intros parse sp [ls nl] bra ket a b np nn orbl data twoJb gb nb twoJk gk nk [Hnl (l1 & l2 & l3 & l4 & l5 & l6 & l7 & dl & e1 & e2 & Hw & H1 & H2 & H3 & H4 & H5 & H6 & H7 & Hd) Ho] Hne.
  cbn [fst snd] in *. subst nl. cbn [app] in Hw.
  destruct (get_words0 _ _ _ Hw) as (r1 & W1 & G1). destruct (get_words0 _ _ _ W1) as (r2 & W2 & G2). destruct (get_words0 _ _ _ W2) as (r3 & W3 & G3).
  destruct (get_words0 _ _ _ W3) as (r4 & W4 & G4). destruct (get_words0 _ _ _ W4) as (r5 & W5 & G5). destruct (get_words0 _ _ _ W5) as (r6 & W6 & G6).
  destruct (ints_scan _ _ _ H1) as (? & S1 & _). destruct (ints_scan _ _ _ H4) as (? & S4 & _). destruct (ints_scan _ _ _ H5) as (? & S5 & _).
  destruct (counts_scan _ _ _ H6) as (? & S6 & H6'). destruct (counts_scan _ _ _ H6') as (? & S6' & _).
  unfold single_stream. cbn [fst snd]. rewrite G1, S1. cbn [bind]. cbn [Z.eqb Pos.eqb]. rewrite G2.
  destruct (single_state_cases l2 bra twoJb gb nb H2) as [E|Eb]; [rewrite E; reflexivity|]. assert (Eb' := Eb). destruct Eb as (<- & <- & <-). rewrite (single_state_ok _ _ H2). cbn [bind]. rewrite G3.
  destruct (single_state_cases l3 ket twoJk gk nk H3) as [E|Ek]; [rewrite E; reflexivity|]. assert (Ek' := Ek). destruct Ek as (<- & <- & <-). rewrite (single_state_ok _ _ H3). cbn [bind].
  destruct (Z.even (n_Z bra - n_N bra - (n_Z ket - n_N ket))); [|reflexivity]. cbn [cassert bind]. rewrite G4, S4. cbn [bind]. rewrite G5, S5. cbn [bind]. rewrite G6, S6. cbn [bind]. rewrite S6'. cbn [bind].
  unfold orbitals_agree. rewrite !species_number. destruct (Z.eqb_spec (orbitals_in sp SP) np) as [Ep|_]; [|reflexivity]. cbn [cassert bind].
  destruct (Z.eqb_spec (orbitals_in sp SN) nn) as [En|_]; [|reflexivity]. exfalso. apply Hne. split; [exact Eb'|]. split; [exact Ek'|]. split; congruence.
Qed.
(** densities before set-indexing *)
Theorem before_orbitals : forall parse files r twoJb gb nb twoJk gk nk file t bra ket a b np nn orbl data, r_space r = [] -> files file = Some (OText t) ->
  single_file t bra ket a b np nn orbl data -> orbl <> [] -> perform parse files r (Densities twoJb gb nb twoJk gk nk file None) = AssertFail.
Proof.
  intros parse files r twoJb gb nb twoJk gk nk file t bra ket a b np nn orbl data Hr Hf Ht Ho. cbn [perform stream_for]. rewrite Hf. cbn [check bind]. rewrite (proj2 (text_file_ok _ _ _) Hf). cbn [bind]. rewrite Hr.
  rewrite (single_other parse [] t bra ket a b np nn orbl data); [reflexivity|exact Ht|]. intros (_ & _ & Hp & Hn). cbn in Hp, Hn. destruct Ht as [_ _ Hl]. destruct orbl; [congruence|]. cbn [length] in Hl. lia.
Qed.
(** a short line of quantum numbers *)
Theorem short_header_refuted : exists parse sp ls, (length (nth 1 ls []) = 3)%nat /\ single_stream parse sp 0 0 1 0 0 1 (ls, true) = UB.
Proof. exists case_parse, case_space, [int_line [1520%Z]; int_line [1; 1; 1]%Z]. split; reflexivity. Qed.
(** a word in place of the number of the state *)
Theorem number_refuted : exists parse sp l2 ls d, nth 1 ls [] = l2 /\ nth_error l2 6 = Some (TChr Ascii.zero) /\ single_stream parse sp 0 0 0 0 0 0 (ls, true) = Ok d.
Proof.
  exists case_parse, case_space, (int_line [1; 1; 1; 0; 0; 1]%Z ++ [TChr Ascii.zero]).
  exists [int_line [1520%Z]; int_line [1; 1; 1; 0; 0; 1]%Z ++ [TChr Ascii.zero]; int_line [1; 1; 1; 0; 0; 1; 0]%Z; int_line [0%Z]; int_line [0%Z]; int_line [1; 1]%Z; int_line [0; 0]%Z; int_line [1%Z]; int_line [2%Z]].
  eexists. split; [reflexivity|]. split; [reflexivity|]. lazy -[Rdiv Rmult Rplus Rinv sqrt IZR ObioModel.hat]. reflexivity.
Qed.
(** in the formats of two files nothing is compared with the parities *)
Definition case_info : dtext := ([int_line [1500]; int_line [0]; int_line [1; 1]; int_line [1; 1]; []; []; int_line [1; 1; 0; 0; 1; 1; 0; 0; 1; 0; 1]; int_line [2; 1; 0; 0; 1; 1; 0; 0; 1; 0; 2]]%Z, true).
Definition case_multi : dtext := ([int_line [1500]; int_line [1; 1]; int_line [0; 0; 1; 0]; int_line [0; 0; 1; 0]; int_line [2]; [TNum 2%R]; [TNum 4%R]]%Z, true).
Theorem parity_refuted : exists sp ti t d d', multi_stream sp 0 0 1 0 0 1 ti t = Ok d /\ multi_stream sp 0 1 1 0 1 1 ti t = Ok d' /\ ds_od d = ds_od d'.
Proof.
  exists case_space, case_info, case_multi. eexists. eexists. split; [lazy -[Rdiv Rmult Rplus Rinv sqrt IZR ObioModel.hat k_sqrt_4pi]; reflexivity|]. split; [lazy -[Rdiv Rmult Rplus Rinv sqrt IZR ObioModel.hat k_sqrt_4pi]; reflexivity|]. reflexivity.
Qed.
Lemma multi_case : exists d, multi_stream case_space 0 0 1 0 0 1 case_info case_multi = Ok d
  /\ density_entry (od_dens (ds_od d)) 0 0 0 0 0 = 2 * k_sqrt_4pi / sqrt 2 /\ density_entry (od_dens (ds_od d)) 0 1 0 1 0 = 4 * k_sqrt_4pi / sqrt 2.
Proof. eexists. split; [lazy -[Rdiv Rmult Rplus Rinv sqrt IZR ObioModel.hat k_sqrt_4pi]; reflexivity|]. split; reflexivity. Qed.
(** ** a last line without newline *)
Lemma next_last : forall (ls : list dline) x l ws old, x <> [] -> with_words ls = l :: ws -> exists r, with_words r = ws
  /\ next_line old ls true = (l, open_text r true) /\ next_line old (ls ++ [x]) false = (l, open_text (r ++ [x]) false).
Proof.
  induction ls as [|y ls IH]; intros x l ws old Hx H; [discriminate|]. destruct y as [|t y].
  - cbn in H. destruct (IH x l ws [] Hx H) as (r & W & E1 & E2). exists r. split; [exact W|]. cbn [app next_line is_nil]. rewrite andb_false_r. destruct ls; [discriminate|]. split; [exact E1|exact E2].
  - cbn in H. injection H as <- <-. exists ls. split; [reflexivity|]. cbn [app next_line is_nil]. rewrite andb_false_r. split; [reflexivity|]. destruct ls; reflexivity.
Qed.
Lemma get_last : forall (ls : list dline) x l ws, x <> [] -> with_words ls = l :: ws -> exists r, with_words r = ws
  /\ forall old, get_line old (open_text ls true) = (l, open_text r true) /\ get_line old (open_text (ls ++ [x]) false) = (l, open_text (r ++ [x]) false).
Proof.
  intros ls x l ws Hx H. destruct (next_last ls x l ws [] Hx H) as (r & W & E1 & E2). exists r. split; [exact W|]. intros old. unfold get_line. cbn [open_text st_fail st_eof orb st_rest st_nl].
  destruct ls as [|[|t y] ls]; [discriminate|exact (conj E1 E2)|exact (conj E1 E2)].
Qed.
Lemma take_last : forall orbs (ls : list dline) x rest, x <> [] -> with_words ls = orbs ++ rest -> exists r, with_words r = rest
  /\ forall old, take_lines (length orbs) old (open_text ls true) = (orbs, open_text r true) /\ take_lines (length orbs) old (open_text (ls ++ [x]) false) = (orbs, open_text (r ++ [x]) false).
Proof.
  induction orbs as [|o orbs IH]; intros ls x rest Hx H; [exists ls; split; [exact H|split; reflexivity]|].
  destruct (get_last ls x o (orbs ++ rest) Hx H) as (r & Hr & E). destruct (IH r x rest Hx Hr) as (r' & Hr' & E'). exists r'. split; [exact Hr'|]. intros old.
  cbn [length take_lines]. rewrite (proj1 (E old)), (proj1 (E' o)), (proj2 (E old)), (proj2 (E' o)). auto.
Qed.
Lemma data_last : forall sp orbs (ls : list dline) x d, x <> [] -> data_1520 sp orbs false (ls ++ [x]) d = data_1520 sp orbs true ls d.
Proof.
  intros sp orbs ls x d Hx. revert d. induction ls as [|y ls IH]; intros d.
  - destruct x; [congruence|reflexivity].
  - cbn [app data_1520]. destruct (is_nil y); [apply IH|]. replace (is_nil (ls ++ [x])) with false by (destruct ls; reflexivity). rewrite andb_false_r. cbn [andb].
    destruct (scan_i y) as [[ia w]| | |]; cbn [bind]; try reflexivity. destruct (scan_i w) as [[ib w1]| | |]; cbn [bind]; try reflexivity. destruct (scan_i w1) as [[J0 w2]| | |]; cbn [bind]; try reflexivity.
    destruct (scan_d w2) as [[v w3]| | |]; cbn [bind]; try reflexivity. destruct (orbital_no orbs ia) as [a| | |]; cbn [bind]; try reflexivity. destruct (orbital_no orbs ib) as [b| | |]; cbn [bind]; try reflexivity.
    destruct (put_labelled sp d a b J0 (v / ObioModel.hat (fl_2j a))); cbn [bind]; try reflexivity. apply IH.
Qed.
Theorem single_no_newline : forall parse sp ls x bra ket a b np nn orbl data twoJb gb nb twoJk gk nk, single_file (ls, true) bra ket a b np nn orbl data -> x <> [] ->
  single_stream parse sp twoJb gb nb twoJk gk nk (ls ++ [x], false) = single_stream parse sp twoJb gb nb twoJk gk nk (ls, true).
Proof.
  intros parse sp ls x bra ket a b np nn orbl data twoJb gb nb twoJk gk nk [_ (l1 & l2 & l3 & l4 & l5 & l6 & l7 & dl & e1 & e2 & Hw & H1 & H2 & H3 & H4 & H5 & H6 & H7 & Hd) Ho] Hx.
  cbn [fst snd] in *. cbn [app] in Hw.
  destruct (get_last _ x _ _ Hx Hw) as (r1 & W1 & G1). destruct (get_last _ x _ _ Hx W1) as (r2 & W2 & G2). destruct (get_last _ x _ _ Hx W2) as (r3 & W3 & G3).
  destruct (get_last _ x _ _ Hx W3) as (r4 & W4 & G4). destruct (get_last _ x _ _ Hx W4) as (r5 & W5 & G5). destruct (get_last _ x _ _ Hx W5) as (r6 & W6 & G6).
  destruct (get_last _ x _ _ Hx W6) as (r7 & W7 & G7). destruct (take_last orbl r7 x dl Hx W7) as (r8 & W8 & G8).
  destruct (ints_scan _ _ _ H1) as (? & S1 & _). destruct (ints_scan _ _ _ H4) as (? & S4 & _). destruct (ints_scan _ _ _ H5) as (? & S5 & _).
  destruct (counts_scan _ _ _ H6) as (? & S6 & H6'). destruct (counts_scan _ _ _ H6') as (? & S6' & _).
  destruct (counts_scan _ _ _ H7) as (? & S7 & H7'). destruct (counts_scan _ _ _ H7') as (? & S7' & _).
  unfold single_stream. cbn [fst snd]. rewrite (proj1 (G1 [])), (proj2 (G1 [])), S1. cbn [bind]. cbn [Z.eqb Pos.eqb]. rewrite (proj1 (G2 [])), (proj2 (G2 [])).
  destruct (single_state l2 twoJb gb nb) as [[[Zb Nb] Mb]| | |]; cbn [bind]; try reflexivity. rewrite (proj1 (G3 l2)), (proj2 (G3 l2)).
  destruct (single_state l3 twoJk gk nk) as [[[Zk Nk] Mk]| | |]; cbn [bind]; try reflexivity. destruct (Z.even (Zb - Nb - (Zk - Nk))); [|reflexivity]. cbn [cassert bind].
  rewrite (proj1 (G4 l3)), (proj2 (G4 l3)), S4. cbn [bind]. rewrite (proj1 (G5 l4)), (proj2 (G5 l4)), S5. cbn [bind]. rewrite (proj1 (G6 l5)), (proj2 (G6 l5)), S6. cbn [bind]. rewrite S6'. cbn [bind].
  unfold orbitals_agree. rewrite !species_number. destruct (Z.eqb_spec (orbitals_in sp SP) np) as [Ep|_]; [|reflexivity]. cbn [cassert bind].
  destruct (Z.eqb_spec (orbitals_in sp SN) nn) as [En|_]; [|reflexivity]. cbn [cassert bind]. rewrite (proj1 (G7 l6)), (proj2 (G7 l6)), S7. cbn [bind]. rewrite S7'. cbn [bind].
  assert (Hlen : (Z.to_nat np + Z.to_nat nn)%nat = length orbl).
  { assert (0 <= np)%Z by (rewrite <- Ep; unfold orbitals_in; lia). assert (0 <= nn)%Z by (rewrite <- En; unfold orbitals_in; lia). lia. }
  rewrite Hlen, (proj1 (G8 l7)), (proj2 (G8 l7)). destruct (parse orbl); cbn [bind]; try reflexivity. destruct (init_storage selection (forget sp) a b (g0_of gb gk) ((Zb - Nb - (Zk - Nk)) / 2)); cbn [bind]; try reflexivity.
  cbn [open_text st_fail st_eof orb st_nl st_rest]. rewrite data_last by exact Hx. reflexivity.
Qed.
Theorem no_newline_refuted : exists parse sp ls x e d d', element_line x e /\ single_stream parse sp 0 0 1 0 0 1 (ls ++ [x], true) = Ok d /\ single_stream parse sp 0 0 1 0 0 1 (ls ++ [x], false) = Ok d'
  /\ density_entry (od_dens (ds_od d)) 0 0 0 0 0 = 3 / ObioModel.hat 1 /\ density_entry (od_dens (ds_od d')) 0 0 0 0 0 = 0.
Proof.
  exists case_parse, case_space, [int_line [1520%Z]; int_line [1; 1; 1; 0; 0; 1; 1]%Z; int_line [1; 1; 1; 0; 0; 1; 1]%Z; int_line [0%Z]; int_line [0%Z]; int_line [1; 1]%Z; int_line [1; 0]%Z; int_line [1%Z]; int_line [2%Z]], [TInt 1%Z; TInt 1%Z; TInt 0%Z; TNum 3], (DL 1 1 0 3).
  eexists. eexists. split; [exists (TNum 3), []; split; [reflexivity|]; split; [left; reflexivity|]; repeat split|].
  split; [lazy -[Rdiv Rmult Rplus Rinv sqrt IZR ObioModel.hat]; reflexivity|]. split; [lazy -[Rdiv Rmult Rplus Rinv sqrt IZR ObioModel.hat]; reflexivity|]. split; reflexivity.
Qed.
