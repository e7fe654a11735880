(** relative-gen, relative-xform or jpv2rel followed by moshinsky; jpv2rel and jpvstat: files which cannot be read. *)
From Coq Require Import String List ZArith Reals Bool Lia Lra.
From Verif Require Import Base BaseLemmas RMat OscModel OscSpec OscFinal BlockModel BlockProof ObioModel MixModel MixProof MoshModel JpvModel JpvSpec JpvProof IsoModel IsoSpec IsoFinal TrfModel TrfSpec TrfProof TrfFinal RmeModel RmeSpec RmeProof RmeFinal RmeCase WfModel WfSpec LenModel LenSpec LenProof RelxModel RelxSpec RelxProof RgModel MosModel MosSpec MosFile RgnModel RgnSpec RgnInput RgnProof RgnFile RgnJpv.
Import ListNotations.
Open Scope Z_scope.
Open Scope outcome_scope.

(** * Exchange of bra and ket *)
Lemma same_pair_parts : forall x y, same_pair x y = true -> rl_J x = rl_J y /\ rl_T x = rl_T y.
Proof. intros [[[L s] J] T] [[[L' s'] J'] T'] H. unfold same_pair in H. rewrite !andb_true_iff, !Z.eqb_eq in H. cbn. intuition congruence. Qed.
Lemma same_pair_sym : forall x y, same_pair x y = same_pair y x.
Proof. intros [[[L s] J] T] [[[L' s'] J'] T']. unfold same_pair. rewrite (Z.eqb_sym s), (Z.eqb_sym J), (Z.eqb_sym T). reflexivity. Qed.
Lemma potential_sym : forall V x n y m, symmetric_V V -> same_pair x y = true -> potential_at V x n y m = potential_at V y m x n.
Proof. intros V [[[L s] J] T] n [[[L' s'] J'] T'] m HV H. unfold same_pair in H. rewrite !andb_true_iff, !Z.eqb_eq in H. destruct H as [[-> ->] ->]. unfold potential_at. apply HV. Qed.
Lemma isoscalar_hermitian : forall flip V, flip_ok flip -> symmetric_V V -> hermitian_rel flip (isoscalar_rme V).
Proof.
  intros flip V Hf HV T0 x n y m Jx Tx Jy Ty. unfold isoscalar_rme. rewrite (same_pair_sym y x). destruct (T0 =? 0); cbn [andb]; [|ring]. destruct (same_pair x y) eqn:E; [|ring].
  destruct (same_pair_parts _ _ E) as [-> ->]. rewrite (Hf T0 _ _ Jy Ty), Rmult_1_l. apply potential_sym; assumption.
Qed.
Lemma species_hermitian : forall flip V, flip_ok flip -> (forall Tz, symmetric_V (V Tz)) -> hermitian_rel flip (species_rme V).
Proof.
  intros flip V Hf HV T0 x n y m Jx Tx Jy Ty. unfold species_rme. rewrite (same_pair_sym y x). destruct (same_pair x y) eqn:E; [|ring].
  destruct (same_pair_parts _ _ E) as [EJ ET]. rewrite EJ, ET, (Hf T0 _ _ Jy Ty), Rmult_1_l. 
  assert (P : forall Tz, potential_at (V Tz) x n y m = potential_at (V Tz) y m x n) by (intros Tz; apply potential_sym; auto).
  assert (EC : isospin_component (fun Tz => potential_at (V Tz) x n y m) T0 = isospin_component (fun Tz => potential_at (V Tz) y m x n) T0) by (unfold isospin_component; f_equal; apply lsum_ext; intros Tz _; rewrite P; reflexivity).
  destruct x as [[[L s] J] T], y as [[[L' s'] J'] T']. cbn in ET. subst T'. rewrite EC, P. reflexivity.
Qed.
Lemma rsum_swap : forall a b (f : nat -> nat -> R), rsum a (fun i => rsum b (fun j => f i j)) = rsum b (fun j => rsum a (fun i => f i j)).
Proof. intros a b f. unfold rsum. apply lsum_swap. Qed.
Lemma xform_hermitian : forall flip O Nmax F, hermitian_rel flip F -> hermitian_rel flip (xform_rme O Nmax F).
Proof.
  intros flip O Nmax F H T0 x n y m Jx Tx Jy Ty. unfold xform_rme. rewrite rsum_swap. unfold rsum at 1. unfold rsum at 2. rewrite <- lsum_scale. apply lsum_ext. intros j _. unfold rsum. rewrite <- lsum_scale. apply lsum_ext. intros i _.
  rewrite (H T0 x _ y _) by assumption. ring.
Qed.
Lemma up_to_hermitian : forall flip Nmax F, hermitian_rel flip F -> hermitian_rel flip (up_to Nmax F).
Proof. intros flip Nmax F H T0 x n y m Jx Tx Jy Ty. unfold up_to. rewrite (andb_comm (m <=? Nmax)). destruct ((n <=? Nmax) && (m <=? Nmax)); [apply H; assumption|ring]. Qed.
(** operators which are hermitian whatever the coefficients *)
Lemma is_ho_iff : forall N l, is_ho N l = true <-> ho N l.
Proof. intros N l. unfold is_ho, ho. rewrite !andb_true_iff, !Z.leb_le. tauto. Qed.
Lemma rlab_iff : forall x y, rlab_eqb x y = true <-> x = y.
Proof. intros [[[L s] J] T] [[[L' s'] J'] T']. unfold rlab_eqb. rewrite !andb_true_iff, !Z.eqb_eq. intuition congruence. Qed.
Lemma rlab_sym : forall x y, rlab_eqb x y = rlab_eqb y x.
Proof. intros [[[L s] J] T] [[[L' s'] J'] T']. unfold rlab_eqb. rewrite (Z.eqb_sym L), (Z.eqb_sym s), (Z.eqb_sym J), (Z.eqb_sym T). reflexivity. Qed.
Lemma delta_sym : forall {A} (d : forall x y : A, {x = y} + {x <> y}) a b, TrfSpec.delta d a b = TrfSpec.delta d b a.
Proof. intros A d a b. unfold TrfSpec.delta. destruct (d a b), (d b a); congruence. Qed.
Lemma scalar_symmetric : forall racah1 racah2 w3j w6j tgamma quad racah12 crme inverse_r sp name a o F, (forall steps n' n L, inverse_r steps n' n L = inverse_r steps n n' L) ->
  In name scalar_names -> made racah1 racah2 w3j w6j tgamma quad racah12 crme inverse_r sp name a o F ->
  forall T0 x n y m, ho n (lab_L x) -> ho m (lab_L y) -> rl_J x = rl_J y -> F T0 x n y m = F T0 y m x n /\ (rl_T x = rl_T y \/ F T0 x n y m = 0%R).
Proof.
  intros racah1 racah2 w3j w6j tgamma quad racah12 crme inverse_r sp name a o F Hi Hnm Hm T0 [[[L' s'] J'] T'] n [[[L s] J] T] m Hn Hm' HJ. cbn [lab_L rl_J rl_T] in *. subst J'.
  assert (Hsq : forall ct t, sqr_rme ct t T0 (L', s', J, T') n (L, s, J, T) m = sqr_rme ct t T0 (L, s, J, T) m (L', s', J, T') n /\ (T' = T \/ sqr_rme ct t T0 (L', s', J, T') n (L, s, J, T) m = 0%R)).
  { intros ct t. unfold sqr_rme, same. rewrite (Z.eqb_sym L' L), (Z.eqb_sym s' s), (Z.eqb_sym T' T). destruct (T0 =? t); cbn [andb]; [|auto]. destruct (Z.eqb_spec L L') as [->|]; cbn [andb]; [|auto]. destruct (s =? s'); cbn [andb]; [|auto].
    destruct (Z.eqb_spec T T') as [->|]; [|auto]. rewrite (sqr_symmetric n L' m L') by assumption. auto. }
  destruct Hm; try (exfalso; cbn in Hnm; intuition discriminate); auto.
  - (* identity *) unfold id_rel. rewrite (delta_sym dec4), (delta_sym Z.eq_dec n m). split; [reflexivity|]. unfold TrfSpec.delta at 2. destruct (dec4 _ _) as [E|_]; [left; congruence|right; ring].
  - unfold isospin_rme, same. rewrite (Z.eqb_sym L' L), (Z.eqb_sym s' s), (Z.eqb_sym T' T), (Z.eqb_sym n m). destruct (Z.eqb_spec T T') as [->|]; [auto|]. rewrite !andb_false_r. cbn [andb]. auto.
  - unfold su4_rme, same. rewrite (Z.eqb_sym L' L), (Z.eqb_sym s' s), (Z.eqb_sym T' T), (Z.eqb_sym n m). destruct (Z.eqb_spec T T') as [->|]; [destruct (Z.eqb_spec s s') as [->|]; [auto|]|]; rewrite !andb_false_r; cbn [andb]; auto.
  - unfold coulomb_rme. rewrite (rlab_sym (L', s', J, T')). destruct (rlab_eqb (L, s, J, T) (L', s', J, T')) eqn:E; [|auto]. apply rlab_iff in E. injection E as -> -> ->. rewrite (Hi steps). auto.
Qed.
Lemma scalar_hermitian : forall racah1 racah2 w3j w6j tgamma quad racah12 crme inverse_r sp name a o F flip, flip_ok flip -> (forall steps n' n L, inverse_r steps n' n L = inverse_r steps n n' L) ->
  In name scalar_names -> made racah1 racah2 w3j w6j tgamma quad racah12 crme inverse_r sp name a o F -> hermitian_rel flip (scalar_of F).
Proof.
  intros racah1 racah2 w3j w6j tgamma quad racah12 crme inverse_r sp name a o F flip Hf Hi Hnm Hm T0 x n y m Jx Tx Jy Ty. unfold scalar_of. rewrite (Z.eqb_sym (rl_J y)). destruct (Z.eqb_spec (rl_J x) (rl_J y)) as [EJ|]; cbn [andb]; [|ring].
  destruct (is_ho n (lab_L x)) eqn:E1; [|cbn [andb]; rewrite andb_false_r; ring]. destruct (is_ho m (lab_L y)) eqn:E2; cbn [andb]; [|ring]. apply is_ho_iff in E1, E2.
  destruct (scalar_symmetric _ _ _ _ _ _ _ _ _ _ _ _ _ _ Hi Hnm Hm T0 x n y m E1 E2 EJ) as [ES [ET|EZ]].
  - rewrite EJ, ET, (Hf T0 _ _ Jy Ty), ES. ring.
  - rewrite <- ES, EZ. ring.
Qed.
Lemma stores_scalar : forall Nmax Jmax sp o c F, rme_space Nmax sp -> o_J0 o = 0 -> stores_rel (Rel sp Nmax Jmax) o c F -> stores_rel (Rel sp Nmax Jmax) o c (scalar_of F).
Proof.
  intros Nmax Jmax sp o c F [Hall _] H0 H T0 HT. destruct (H T0 HT) as (s & ms & Hn & Nd & Hv). exists s, ms. split; [exact Hn|]. split; [exact Nd|]. cbn [rel_subs] in *.
  intros i k x y Hik Hx Hy Hr. destruct (Hv i k x y Hik Hx Hy Hr) as (q & m & Hq & Hm & R1 & R2 & A). exists q, m. repeat (split; [assumption|]). intros u v Hu Hv' Huv. rewrite (A u v Hu Hv' Huv). unfold scalar_of.
  assert (EJ : r_J x = r_J y). { destruct Hr as (HJ & _). rewrite H0 in HJ. unfold couples in HJ. destruct (Hall x (nth_error_In _ _ Hx)) as (_ & _ & _ & Cx & _). destruct (Hall y (nth_error_In _ _ Hy)) as (_ & _ & _ & Cy & _). unfold couples in Cx, Cy. lia. }
  change (rl_J (rl x)) with (r_J x). change (rl_J (rl y)) with (r_J y). change (lab_L (rl x)) with (r_L x). change (lab_L (rl y)) with (r_L y). rewrite EJ, Z.eqb_refl.
  destruct (Hall x (nth_error_In _ _ Hx)) as (Lx & _). destruct (Hall y (nth_error_In _ _ Hy)) as (Ly & _). rewrite !(proj2 (is_ho_iff _ _)); [reflexivity| |]; (split; [lia|]); rewrite Z.add_simpl_l, Z.even_mul; reflexivity.
Qed.
(** * Followed by moshinsky *)
Section Chain.
Variable u6jz : Z -> Z -> Z -> Z -> Z -> Z -> R.
Variable racah1 : Z -> Z -> Z -> Z -> Z -> Z -> Z -> R.
Variable u9j : Z -> Z -> Z -> Z -> Z -> Z -> Z -> R.
Variable mosh : Z -> Z -> Z -> Z -> Z -> Z -> Z -> Z -> Z -> R.
Variable flip : Z -> Z -> Z -> Z -> Z -> R.
Variable tol : R.
Variable M : basislib.
Variable B : rellib.
Notation mos_run := (mos_run u6jz racah1 u9j mosh flip tol M).
Notation two_body p Jmax J0 F := (jt_rme (jt_of M (m_rank p) (m_cutoff p)) (jj_rme u9j (tb_rme mosh (relcm_rme u6jz racah1 Jmax J0 F)))).
Lemma then_moshinsky : forall p o sp Nmax Jmax c F pn, read_rel M (m_source p) = Ok (o, Rel sp Nmax Jmax, c) -> ready M flip o Nmax p pn -> flip_ok flip -> racah_flip racah1 flip (o_J0 o) ->
  0 <= o_T0_min o -> o_T0_max o <= 2 -> rel_complete (Rel sp Nmax Jmax) -> stores_rel (Rel sp Nmax Jmax) o c F -> hermitian_rel flip F ->
  exists bs, mos_run p = Ok (Some (m_target p, FH2 (m_format p) bs)) /\ h2_blocks tol o pn (pn_sectors M pn (o_J0 o) (o_g0 o) (m_Tz0 p)) (two_body p Jmax (o_J0 o) F) bs.
Proof.
  intros p o sp Nmax Jmax c F pn Hr (R1 & R2 & (R3 & R4) & R5 & R6 & R7 & R8) Hf Hrf H0 H2 Hc Hs Hh. apply (run_rel_pn u6jz racah1 u9j mosh flip tol M p o (Rel sp Nmax Jmax) c F pn); assumption.
Qed.
(** an interaction file, the same for all species *)
Theorem jpv_then_moshinsky : forall depth disk ls p V name file q pn, jpv_input ls p -> j_T0_max p = 0 -> j_sources p = [name] -> disk name = Some file ->
  let sp := space_of B (j_Nmax p) (j_Jmax p) in rel_space (j_Nmax p) (j_Jmax p) sp -> symmetric_V V -> interaction_file depth sp (j_Jmax p) V file -> writable B (j_target p) = true ->
  flip_ok flip -> racah_flip racah1 flip 0 ->
  exists f, jpv_main B depth disk ls = Some (Ok (j_target p, f)) /\
  (m_source q = j_target p -> reads_back B M (j_target p) f -> ready M flip (OpLab 0 0 0 0) (j_Nmax p) q pn ->
   exists bs, mos_run q = Ok (Some (m_target q, FH2 (m_format q) bs)) /\ h2_blocks tol (OpLab 0 0 0 0) pn (pn_sectors M pn 0 0 (m_Tz0 q)) (two_body q (j_Jmax p) 0 (isoscalar_rme V)) bs).
Proof.
  intros depth disk ls p V name file q pn Hin HT Hs Hd sp (Hc & Hsp & HJ) Hsym Hf Hw Hfl Hrf.
  destruct (jpv_isoscalar depth disk B ls p V name file Hin HT Hs Hd Hsp (proj1 Hc) Hsym Hf Hw) as (c & E & Hh). eexists. split; [exact E|]. intros Hq (c' & Er & Hst) Hre. cbn [rf_o rf_Nmax rf_Jmax rf_c] in *.
  rewrite <- Hq in Er. apply (then_moshinsky q (OpLab 0 0 0 0) sp (j_Nmax p) (j_Jmax p) c' (isoscalar_rme V) pn Er Hre Hfl Hrf); try (cbn; lia); [exact Hc| |apply isoscalar_hermitian; assumption].
  apply Hst. apply held_stores; try (cbn; lia). exact Hh.
Qed.
(** interaction files for pp, nn and pn *)
Theorem species_then_moshinsky : forall depth disk ls p V pp nn pn fpp fnn fpn q sub, jpv_input ls p -> j_T0_max p = 2 -> j_sources p = [pp; nn; pn] -> disk pp = Some fpp -> disk nn = Some fnn -> disk pn = Some fpn ->
  let sp := space_of B (j_Nmax p) (j_Jmax p) in rel_space (j_Nmax p) (j_Jmax p) sp -> (forall Tz, symmetric_V (V Tz)) ->
  interaction_file depth sp (j_Jmax p) (V 1) fpp -> interaction_file depth sp (j_Jmax p) (V (-1)) fnn -> interaction_file depth sp (j_Jmax p) (V 0) fpn -> writable B (j_target p) = true ->
  flip_ok flip -> racah_flip racah1 flip 0 ->
  exists f, jpv_main B depth disk ls = Some (Ok (j_target p, f)) /\
  (m_source q = j_target p -> reads_back B M (j_target p) f -> ready M flip (OpLab 0 0 0 2) (j_Nmax p) q sub ->
   exists bs, mos_run q = Ok (Some (m_target q, FH2 (m_format q) bs)) /\ h2_blocks tol (OpLab 0 0 0 2) sub (pn_sectors M sub 0 0 (m_Tz0 q)) (two_body q (j_Jmax p) 0 (species_rme V)) bs).
Proof.
  intros depth disk ls p V pp nn pn fpp fnn fpn q sub Hin HT Hs D1 D2 D3 sp (Hc & Hsp & HJ) Hsym F1 F2 F3 Hw Hfl Hrf.
  destruct (jpv_species depth disk B ls p V pp nn pn fpp fnn fpn Hin HT Hs D1 D2 D3 Hsp (proj1 Hc) Hsym F1 F2 F3 Hw) as (c & E & Hh). eexists. split; [exact E|]. intros Hq (c' & Er & Hst) Hre. cbn [rf_o rf_Nmax rf_Jmax rf_c] in *.
  rewrite <- Hq in Er. apply (then_moshinsky q (OpLab 0 0 0 2) sp (j_Nmax p) (j_Jmax p) c' (species_rme V) sub Er Hre Hfl Hrf); try (cbn; lia); [exact Hc| |apply species_hermitian; assumption].
  apply Hst. apply held_stores; try (cbn; lia). exact Hh.
Qed.
(** a transformed operator *)
Theorem xform_then_moshinsky : forall ov schedule disk ls p f F O q pn, xf_input (fun n => match disk n with Some _ => true | None => false end) ls p -> disk (x_source p) = Some f ->
  let src := space_of B (rf_Nmax f) (rf_Jmax f) in let tgt := space_of B (x_Nmax p) (rf_Jmax f) in
  rel_space (rf_Nmax f) (rf_Jmax f) src -> rel_space (x_Nmax p) (rf_Jmax f) tgt -> in_order src tgt -> 0 <= o_T0_min (rf_o f) -> o_T0_max (rf_o f) <= 2 ->
  held src (rf_o f) (rf_c f) F -> hermitian_rel flip F -> symmetric_within F -> complete_schedule schedule -> (0 < x_ratio p)%R -> x_ratio p <> 1%R ->
  (forall L i j, ov (x_steps p) L (x_ratio p) i j = Some (O L i j)) -> writable B (x_target p) = true -> flip_ok flip -> racah_flip racah1 flip (o_J0 (rf_o f)) ->
  exists f', xf_main B ov schedule disk ls = Ok (x_target p, f') /\
  (m_source q = x_target p -> reads_back B M (x_target p) f' -> ready M flip (rf_o f) (x_Nmax p) q pn ->
   exists bs, mos_run q = Ok (Some (m_target q, FH2 (m_format q) bs))
   /\ h2_blocks tol (rf_o f) pn (pn_sectors M pn (o_J0 (rf_o f)) (o_g0 (rf_o f)) (m_Tz0 q)) (two_body q (rf_Jmax f) (o_J0 (rf_o f)) (xform_rme O (rf_Nmax f) F)) bs).
Proof.
  intros ov schedule disk ls p f F O q pn Hin Hd src tgt Hs Ht Ho H0 H2 Hh Hhe Hsym Hsch Hpos Hne Hov Hw Hfl Hrf.
  destruct (xf_made ov schedule B disk ls p f F O) as (c & E & Hc); try assumption. eexists. split; [exact E|]. intros Hq (c' & Er & Hst) Hre. cbn [rf_o rf_Nmax rf_Jmax rf_c] in *.
  rewrite <- Hq in Er. apply (then_moshinsky q (rf_o f) tgt (x_Nmax p) (rf_Jmax f) c' (xform_rme O (rf_Nmax f) F) pn Er Hre Hfl Hrf); try assumption; [apply Ht| |apply xform_hermitian; exact Hhe].
  apply Hst. apply held_stores; assumption.
Qed.
(** ** scalar operators of relative-gen.  The coefficients of relative-gen have doubled arguments, so [racah1d a b c d e f k] and [racah1 (a/2) ...] are the same C++ function;
    nothing depends on it here. *)
Theorem scalar_then_moshinsky : forall racah1d racah2 w3j w6j jrme tgamma quad racah12 crme jhalf cj1 cj2 inverse_r daejeon,
  let gen_main := gen_main racah1d racah2 w3j w6j jrme tgamma quad racah12 crme jhalf cj1 cj2 inverse_r daejeon B in
  let made := made racah1d racah2 w3j w6j tgamma quad racah12 crme inverse_r in
  forall ls p F q pn, gen_input (has_daejeon daejeon) ls p -> let sp := space_of B (g_Nmax p) (g_Jmax p) in rel_space (g_Nmax p) (g_Jmax p) sp -> identity_ok B ->
  (forall T' T, jrme T' T = if (T' =? T) then sqrt (IZR (T * (T + 1))) else 0%R) ->
  gamma_fn tgamma -> quad_ok quad -> one_spin jhalf racah1d racah2 cj1 cj2 -> diagonal2 racah2 -> (forall steps n' n L, inverse_r steps n' n L = inverse_r steps n n' L) ->
  o_J0 (g_o p) = 0 -> 0 <= o_T0_min (g_o p) -> o_T0_max (g_o p) <= 2 -> In (g_name p) scalar_names -> made sp (g_name p) (g_args p) (g_o p) F -> writable B (g_target p) = true ->
  flip_ok flip -> racah_flip racah1 flip 0 ->
  exists f, gen_main ls = Ok (g_target p, f) /\
  (m_source q = g_target p -> reads_back_num B M (g_target p) f -> ready M flip (g_o p) (g_Nmax p) q pn ->
   exists bs, mos_run q = Ok (Some (m_target q, FH2 (m_format q) bs))
   /\ h2_blocks tol (g_o p) pn (pn_sectors M pn 0 (o_g0 (g_o p)) (m_Tz0 q)) (two_body q (g_Jmax p) 0 (scalar_of F)) bs).
Proof.
  intros racah1d racah2 w3j w6j jrme tgamma quad racah12 crme jhalf cj1 cj2 inverse_r daejeon gm mk ls p F q pn Hin sp (Hc & Hsp & HJ) Hid Hj Hgam Hqd H1 Hd Hir H0 Hmin Hmax Hnm Hm Hw Hfl Hrf. unfold gm, mk in *.
  destruct (gen_made racah1d racah2 w3j w6j jrme tgamma quad racah12 crme jhalf cj1 cj2 inverse_r daejeon B ls p F) as (c & E & S); try assumption; [exact (proj1 Hc)|]. eexists. split; [exact E|].
  intros Hq (c' & Er & Hst) Hre. cbn [rf_o rf_Nmax rf_Jmax rf_c] in *. rewrite <- Hq in Er. rewrite <- H0 in Hrf |- *.
  apply (then_moshinsky q (g_o p) sp (g_Nmax p) (g_Jmax p) c' (scalar_of F) pn Er Hre Hfl Hrf); try assumption.
  - apply (stores_scalar (g_Nmax p)); [exact Hsp|exact H0|]. apply Hst. exact S.
  - eapply scalar_hermitian; eassumption.
Qed.
End Chain.
(** * Files which cannot be read *)
Theorem jpv_refused : forall B depth disk ls, (forall p, ~ jpv_input ls p) -> jpv_main B depth disk ls = Some Exit.
Proof. intros B depth disk ls H. unfold jpv_main. rewrite jpv_read_refuses by exact H. reflexivity. Qed.
Lemma sources_missing : forall depth disk sp Jmax s names, (exists n, In n names /\ disk n = None) -> forall r, read_sources depth disk sp Jmax s names <> Some (Ok r).
Proof.
  intros depth disk sp Jmax s names. induction names as [|a names IH]; intros (n & Hn & Hd) r; [destruct Hn|]. cbn [read_sources]. unfold read_source. destruct Hn as [->|Hn].
  - rewrite Hd. discriminate.
  - assert (H := IH (ex_intro _ n (conj Hn Hd))).
    destruct (disk a) as [[lines nl]|]; [|discriminate]. destruct (read_jpv depth sp Jmax s lines nl (rzero_blocks sp s)) as [[b| | |]|]; try discriminate.
    destruct (read_sources depth disk sp Jmax s names) as [[l| | |]|]; try discriminate. elim (H l). reflexivity.
Qed.
(** nothing is written unless all the sources exist *)
Theorem jpv_only : forall B depth disk ls name f, jpv_main B depth disk ls = Some (Ok (name, f)) -> exists p, jpv_input ls p /\ name = j_target p
  /\ rf_o f = OpLab 0 0 0 (j_T0_max p) /\ rf_Nmax f = j_Nmax p /\ rf_Jmax f = j_Jmax p /\ writable B name = true /\ forall s, In s (j_sources p) -> exists file, disk s = Some file.
Proof.
  intros B depth disk ls name f H. unfold jpv_main in H. destruct (jpv_read ls) as [p| | |] eqn:Ep; try discriminate. apply jpv_read_iff in Ep. exists p. split; [exact Ep|]. unfold jpv_run in H. cbn zeta in H.
  destruct (read_sources depth disk (space_of B (j_Nmax p) (j_Jmax p)) (j_Jmax p) (jt_sectors r_J r_T r_g (space_of B (j_Nmax p) (j_Jmax p)) 0 0 0) (j_sources p)) as [r|] eqn:Er; [|discriminate].
  injection H as H. apply bind_inv in H. destruct H as (bs & -> & H). apply bind_inv in H. destruct H as (z & _ & H).
  assert (Hx : exists c, (check (writable B (j_target p)) ;;; Ok (j_target p, RelFile (OpLab 0 0 0 (j_T0_max p)) (j_Nmax p) (j_Jmax p) c)) = Ok (name, f)).
  { destruct (j_T0_max p =? 0); [apply bind_inv in H; destruct H as (b & _ & H)|]; apply bind_inv in H; destruct H as (c & _ & H); exists c; exact H. }
  destruct Hx as (c & Hx). apply check_inv in Hx. destruct Hx as [Hw Hx]. injection Hx as <- <-. cbn [rf_o rf_Nmax rf_Jmax]. repeat (split; [auto|]).
  intros s Hs. destruct (disk s) as [file|] eqn:Ed; [eauto|]. exfalso. eapply sources_missing; [|exact Er]. eauto.
Qed.
(** ** jpvstat *)
Theorem stat_one : forall B depth disk a V file, a <> "--help"%string -> disk a = Some file -> let sp := space_of B 99 99 in
  rme_space 99 sp -> rspace_ok sp -> symmetric_V V -> interaction_file depth sp 99 V file -> stat_main B depth disk [a] = Some (Ok tt).
Proof.
  intros B depth disk a V file Ha Hd sp Hsp Hok Hsym Hf. unfold stat_main. cbn [stat_arguments]. rewrite (proj2 (String.eqb_neq _ _) Ha). fold sp.
  destruct (source_read depth disk sp 99 _ V a file Hd Hsp Hok Hsym Hf) as (ms & E & _). unfold scalar_sectors in E. rewrite E. reflexivity.
Qed.
(** another argument: the file is not read *)
Theorem stat_more : forall B depth disk a b l, a <> "--help"%string -> disk ""%string = None -> stat_main B depth disk (a :: b :: l) = Some Exit.
Proof. intros B depth disk a b l Ha Hd. unfold stat_main. cbn [stat_arguments]. rewrite (proj2 (String.eqb_neq _ _) Ha). unfold read_source. rewrite Hd. reflexivity. Qed.
Theorem stat_help : forall B depth disk args, args = [] \/ (exists l, args = "--help"%string :: l) -> stat_main B depth disk args = Some (Ok tt).
Proof. intros B depth disk args [->|(l & ->)]; [reflexivity|]. destruct l; reflexivity. Qed.
