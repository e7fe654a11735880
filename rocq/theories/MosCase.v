(** C142-C145: concrete cases. *)
From Coq Require Import String List ZArith Reals Bool Lia Lra.
From Verif Require Import Base BaseLemmas RMat OscModel OscFinal BlockModel BlockProof MapModel ObioModel ObioMore MixModel MixSpec MixProof MoshModel JpvModel IsoModel IsoSpec IsoProof TrfModel TrfSpec TrfProof TrfFinal TrfCase RgModel HmCase MosModel MosSpec MosProof MosFile.
Import ListNotations.
Open Scope Z_scope.
Open Scope outcome_scope.
Local Open Scope string_scope.

(** ** input *)
Definition in_rel_h2 : list (list word) := [[tx "tb"; iw "0" 0]; [tx "in.dat"; tx "rel"]; [tx "out.bin"; tx "jjjpn"; iw "15099" 15099; iw "0" 0]].
Definition p_rel_h2 : mparams := MParams TwoBody 0 "in.dat" KRel "out.bin" KJjjpn 15099 0.
Lemma input_case : mos_read (-1) in_rel_h2 = Ok p_rel_h2
  /\ mos_read (-1) [[tx "ob"; iw "4" 4]; [tx "in.dat"; tx "relcm"]; [tx "out.dat"; tx "lsjt"]] = Ok (MParams OneBody 4 "in.dat" KRelcm "out.dat" KLsjt (-1) 0).
Proof. split; reflexivity. Qed.
(** no Tz0, an unknown rank, only two lines *)
Lemma input_refused_case : mos_read (-1) [[tx "tb"; iw "0" 0]; [tx "in.dat"; tx "rel"]; [tx "out.bin"; tx "jjjpn"; iw "15099" 15099]] = Exit
  /\ mos_read (-1) [[tx "three"; iw "0" 0]; [tx "in.dat"; tx "rel"]; [tx "out.dat"; tx "lsjt"]] = Exit
  /\ mos_read (-1) [[tx "tb"; iw "0" 0]; [tx "in.dat"; tx "rel"]] = Exit.
Proof. repeat split; reflexivity. Qed.
(** the input is accepted although the transformation is impossible *)
Lemma inverse_case : forall u6jz racah1 u9j mosh flip tol B, exists p, mos_read (-1) [[tx "tb"; iw "0" 0]; [tx "in.dat"; tx "lsjt"]; [tx "out.dat"; tx "rel"]] = Ok p
  /\ mos_run u6jz racah1 u9j mosh flip tol B p = Exit.
Proof. intros. eexists. split; reflexivity. Qed.

Local Close Scope string_scope.
(** ** two nucleons without quanta *)
Definition s_orb : orb := (0, 1).
Definition jt0 : tspace := [TSub 0 1 0 [(s_orb, s_orb)]; TSub 1 0 0 [(s_orb, s_orb)]].
Definition pn0 : list psub := [PSub 0 1 0 [PS 0 s_orb 0 s_orb]; PSub 0 0 0 [PS 0 s_orb 0 s_orb]; PSub 1 0 0 [PS 0 s_orb 0 s_orb]; PSub 0 (-1) 0 [PS 0 s_orb 0 s_orb]].
Definition sectors0 (pn : list psub) (J0 g0 Tz0 : Z) : list (nat * nat) :=
  if Tz0 =? 0 then [(0, 0); (1, 1); (2, 2); (3, 3)]%nat else if Tz0 =? 1 then [(0, 1); (1, 3)]%nat else if Tz0 =? -1 then [(1, 0)]%nat else [].
Definition basis0 (writable : bool) (x y : R) : basislib := BasisLib
  (fun _ => ls0) (fun _ _ => ls0) (fun _ _ => jj0) (fun _ _ => jt0) (fun _ _ _ => pn0) sectors0
  (fun _ _ c _ => Ok c) (fun _ _ c _ _ => Ok c) (fun _ _ c _ => Ok c)
  (fun f => if String.eqb f "in.dat"%string then Ok (scalar0, rel0, diag0 x y) else Exit)
  (fun f => if String.eqb f "in.dat"%string then Ok (scalar0, 0, diag0 x y) else Exit)
  (fun _ => writable).
Lemma jt0_space : jt_space jt0.
Proof.
  unfold jt_space, jt0. constructor; [|constructor; [|constructor]]; cbn; (split; [lia|]); (split; [lia|]); intros a b [E|[]]; injection E as <- <-; (split; [reflexivity|]); reflexivity.
Qed.
Lemma gathers0 : forall flip, gathers flip (fun _ _ c _ => Ok c) scalar0 jj0 jt0.
Proof.
  intros flip c H S _. exists c. split; [reflexivity|]. split; [exact (stores_components _ _ _ _ _ _ _ S)|].
  intros T0 i k x y HT Hik Hx Hy Hr. destruct (S T0 HT) as (s & ms & E & N & I & M).
  assert (K : exists X Y, nth_error jj0 i = Some X /\ nth_error jj0 k = Some Y /\ fst X = JLab (t_J x) (t_T x) (t_g x) 0 /\ fst Y = JLab (t_J y) (t_T y) (t_g y) 0
    /\ snd X = [(with_l s_orb, with_l s_orb)] /\ snd Y = [(with_l s_orb, with_l s_orb)] /\ t_states x = [(s_orb, s_orb)] /\ t_states y = [(s_orb, s_orb)]).
  { destruct i as [|[|[|i]]]; cbn in Hx; try discriminate; destruct k as [|[|[|k]]]; cbn in Hy; try discriminate; injection Hx as <-; injection Hy as <-; eexists _, _; repeat split. }
  destruct K as (X & Y & HX & HY & LX & LY & SX & SY & Sx & Sy).
  assert (Hin : In (i, k) s). { apply I. split; [exact Hik|]. exists X, Y. rewrite LX, LY. auto. }
  apply In_nth_error in Hin. destruct Hin as [q Hq]. destruct (M q i k X Y Hq HX HY) as (m & Em & Er & Ec & Ea).
  exists s, ms, q, m. rewrite Sx, Sy. rewrite SX in Er. rewrite SY in Ec. do 6 (split; [assumption|]). intros u v a b d e Hu Hv _.
  destruct u as [|u]; [|destruct u; discriminate]. destruct v as [|v]; [|destruct v; discriminate]. cbn in Hu, Hv. injection Hu as <- <-. injection Hv as <- <-.
  rewrite (Ea 0%nat 0%nat (with_l s_orb, with_l s_orb) (with_l s_orb, with_l s_orb)) by (rewrite ?SX, ?SY; reflexivity). rewrite LX, LY. reflexivity.
Qed.
Lemma states0 : Forall (states_ok jt0) pn0.
Proof.
  apply Forall_forall. intros q [<-|[<-|[<-|[<-|[]]]]]; (split; [cbn; lia|]); (split; [cbn; lia|]); intros s [<-|[]]; cbn; (split; [lia|]); (split; [lia|]); (split; [intros _; split; reflexivity|]);
    intros x [<-|[<-|[]]] E1 E2 _; cbn in *; auto; discriminate.
Qed.
Lemma sectors0_ok : forall Tz0, sectors_ok scalar0 Tz0 pn0 (sectors0 pn0 0 0 Tz0).
Proof.
  intros Tz0 i k H. unfold sectors0 in H. destruct (Z.eqb_spec Tz0 0) as [->|_]; [|destruct (Z.eqb_spec Tz0 1) as [->|_]; [|destruct (Z.eqb_spec Tz0 (-1)) as [->|_]; [|destruct H]]].
  - destruct H as [E|[E|[E|[E|[]]]]]; injection E as <- <-; eexists _, _; (split; [reflexivity|]); (split; [reflexivity|]); cbn; unfold couples; cbn; repeat split; lia.
  - destruct H as [E|[E|[]]]; injection E as <- <-; eexists _, _; (split; [reflexivity|]); (split; [reflexivity|]); cbn; unfold couples; cbn; repeat split; lia.
  - destruct H as [E|[]]; injection E as <- <-; eexists _, _; (split; [reflexivity|]); (split; [reflexivity|]); cbn; unfold couples; cbn; repeat split; lia.
Qed.
Lemma spaces0 : forall w x y r N, spaces_ok (basis0 w x y) ls0 r N.
Proof. intros. split; [exact ls0_cm|]. split; [exact ls0_tb|exact ls0_covers]. Qed.
Lemma jj_spaces0 : forall w x y r N, jj_spaces_ok one5 (basis0 w x y) scalar0 r N.
Proof. intros. split; [exact jj0_space|]. split; [exact jj0_complete|]. split; [exact jt0_space|apply gathers0]. Qed.
Lemma pn_spaces0 : forall w x y r N Tz0, pn_spaces_ok (basis0 w x y) scalar0 r N 15099 Tz0 pn0.
Proof. intros. exists ByPN. split; [right; left; reflexivity|]. split; [reflexivity|]. split; [apply sectors0_ok|apply states0]. Qed.
Definition H0 (x y : R) := jj_rme one7 (tb_rme one9 (relcm_rme one6 one7 1 0 (F0 x y))).
Lemma H0_T1 : forall x y, H0 x y 0 (JLab 0 1 0 0) (0, 0, 1, (0, 0, 1)) (JLab 0 1 0 0) (0, 0, 1, (0, 0, 1)) = (2 * x)%R.
Proof. intros x y. unfold H0, jj_rme, tb_rme, relcm_rme; cbn; unfold Pos.to_nat; cbn; unfold one6, one7, one9, F0; cbn; ring. Qed.
Lemma H0_T0 : forall x y, H0 x y 0 (JLab 1 0 0 0) (0, 0, 1, (0, 0, 1)) (JLab 1 0 0 0) (0, 0, 1, (0, 0, 1)) = (2 * y)%R.
Proof. intros x y. unfold H0, jj_rme, tb_rme, relcm_rme; cbn; unfold Pos.to_nat; cbn; unfold one6, one7, one9, F0; cbn; ring. Qed.
Lemma jt0_T1 : forall x y, jt_rme jt0 (H0 x y) 0 (0, 1, 0) s_orb s_orb (0, 1, 0) s_orb s_orb = (2 * x)%R.
Proof.
  intros x y. unfold jt_rme. rewrite (proj2 (in_labels_ok jt0 (0, 1, 0))) by (cbn; auto). cbn [andb]. change (jlab_of (0, 1, 0) s_orb s_orb) with (JLab 0 1 0 0). change (pair_of s_orb s_orb) with ((0, 0, 1), (0, 0, 1)).
  rewrite H0_T1. unfold pair_factor. cbn. destruct (Req_EM_T 1 1) as [_|N]; [ring|destruct N; reflexivity].
Qed.
Lemma jt0_T0 : forall x y, jt_rme jt0 (H0 x y) 0 (1, 0, 0) s_orb s_orb (1, 0, 0) s_orb s_orb = (2 * y)%R.
Proof.
  intros x y. unfold jt_rme. rewrite (proj2 (in_labels_ok jt0 (1, 0, 0))) by (cbn; auto). cbn [andb]. change (jlab_of (1, 0, 0) s_orb s_orb) with (JLab 1 0 0 0). change (pair_of s_orb s_orb) with ((0, 0, 1), (0, 0, 1)).
  rewrite H0_T0. unfold pair_factor. cbn. destruct (Req_EM_T 1 1) as [_|N]; [ring|destruct N; reflexivity].
Qed.
Lemma jt0_outside : forall H T0 l a b l' c d, ~ In l (map tl jt0) \/ ~ In l' (map tl jt0) -> jt_rme jt0 H T0 l a b l' c d = 0%R.
Proof.
  intros H T0 l a b l' c d N. unfold jt_rme. destruct (in_labels jt0 l && in_labels jt0 l') eqn:E; [|reflexivity]. apply andb_true_iff in E. rewrite !in_labels_ok in E. tauto.
Qed.
Lemma cg_11 : cg 1 1 0 0 1 1 = 1%R.
Proof.
  pose proof (coefficient_cg 1 1 1 1 0) as K. specialize (K ltac:(lia) ltac:(lia) ltac:(lia) ltac:(lia) ltac:(lia) ltac:(lia)). cbn in K. injection K as K. symmetry. exact K.
Qed.
Lemma cg_00 : cg 0 0 0 0 0 0 = 1%R.
Proof.
  pose proof (coefficient_cg 0 0 0 0 0) as K. specialize (K ltac:(lia) ltac:(lia) ltac:(lia) ltac:(lia) ltac:(lia) ltac:(lia)). cbn in K. injection K as K. symmetry. exact K.
Qed.
(** two protons, J=0; proton and neutron, J=1 *)
Lemma element_pp : forall x y, wigner_eckart 0 0 (jt_rme jt0 (H0 x y)) (PSub 0 1 0 [PS 0 s_orb 0 s_orb]) (PSub 0 1 0 [PS 0 s_orb 0 s_orb]) (PS 0 s_orb 0 s_orb) (PS 0 s_orb 0 s_orb) = (2 * x)%R.
Proof.
  intros x y. unfold wigner_eckart. change (zrange 0 0) with [0]. cbn [lsum fold_right map q_J q_Tz q_g p_o1 p_o2]. unfold lsum. cbn [fold_right map]. rewrite jt0_T1.
  rewrite !(jt0_outside _ _ (0, 0, 0)) by (left; cbn; intuition discriminate). rewrite !(jt0_outside _ _ _ _ _ (0, 0, 0)) by (right; cbn; intuition discriminate).
  change (1 - 1) with 0. rewrite cg_11. unfold pair_norm. cbn. ring.
Qed.
Lemma element_pn : forall x y, wigner_eckart 0 0 (jt_rme jt0 (H0 x y)) (PSub 1 0 0 [PS 0 s_orb 0 s_orb]) (PSub 1 0 0 [PS 0 s_orb 0 s_orb]) (PS 0 s_orb 0 s_orb) (PS 0 s_orb 0 s_orb) = y.
Proof.
  intros x y. unfold wigner_eckart. change (zrange 0 0) with [0]. cbn [lsum fold_right map q_J q_Tz q_g p_o1 p_o2]. unfold lsum. cbn [fold_right map]. rewrite jt0_T0.
  rewrite !(jt0_outside _ _ (1, 1, 0)) by (left; cbn; intuition discriminate). rewrite !(jt0_outside _ _ _ _ _ (1, 1, 0)) by (right; cbn; intuition discriminate).
  change (0 - 0) with 0. rewrite cg_00. unfold pair_norm. cbn [Z.eqb]. assert (Q := sqrt_sqrt (1 / 2) ltac:(lra)).
  transitivity (sqrt (1 / 2) * sqrt (1 / 2) * (2 * y))%R; [ring|]. rewrite Q. field.
Qed.
Definition run0 (tol : R) (w : bool) (x y : R) : mparams -> outcome written := mos_run one6 one7 one7 one9 one5 tol (basis0 w x y).
(** the input above: the file has four blocks, that of two protons with 2x and that of J=1 with y *)
Lemma h2_case : forall tol x y, exists bs m1 m2, mos_main one6 one7 one7 one9 one5 tol (basis0 true x y) (-1) in_rel_h2 = Ok (Some ("out.bin"%string, FH2 15099 bs))
  /\ map fst bs = [(0, 0); (1, 1); (2, 2); (3, 3)]%nat /\ In (0%nat, 0%nat, m1) bs /\ In (2%nat, 2%nat, m2) bs /\ chopped tol (2 * x) (at_ m1 0 0) /\ chopped tol y (at_ m2 0 0).
Proof.
  intros tol x y. unfold mos_main. rewrite (proj1 input_case). cbn [bind].
  destruct (run_rel_pn one6 one7 one7 one9 one5 tol (basis0 true x y) p_rel_h2 scalar0 rel0 (diag0 x y) (F0 x y) pn0) as (bs & E & M & K); try reflexivity; try (cbn; lia); try apply no_quanta.
  - apply rel0_complete. - apply rel0_stores. - apply F0_hermitian. - repeat constructor; cbn; lia. - apply spaces0. - apply jj_spaces0. - apply pn_spaces0.
  - change (map fst bs = [(0, 0); (1, 1); (2, 2); (3, 3)]%nat) in M. destruct bs as [|[[? ?] m1] [|[[? ?] ?] [|[[? ?] m2] [|[[? ?] ?] [|? ?]]]]]; try discriminate. cbn in M. injection M as -> -> -> -> -> -> -> ->.
    eexists _, m1, m2. split; [exact E|]. split; [reflexivity|]. split; [cbn; auto|]. split; [cbn; auto|].
    destruct (K 0%nat 0%nat m1 _ _ (or_introl eq_refl) eq_refl eq_refl) as (_ & _ & V1). destruct (K 2%nat 2%nat m2 _ _ (or_intror (or_intror (or_introl eq_refl))) eq_refl eq_refl) as (_ & _ & V2).
    specialize (V1 0%nat 0%nat _ _ eq_refl eq_refl). specialize (V2 0%nat 0%nat _ _ eq_refl eq_refl). cbn [Nat.eqb Nat.leb negb andb] in V1, V2.
    change (jj_rme one7 (tb_rme one9 (relcm_rme one6 one7 (rel_Jmax rel0) (o_J0 scalar0) (F0 x y)))) with (H0 x y) in *.
    split.
    + rewrite <- (element_pp x y). exact V1.
    + rewrite <- (element_pn x y). exact V2.
Qed.
(** a relative-cm file with the same operator *)
Lemma relcm_source_case : forall tol x y, exists bs, run0 tol true x y (MParams TwoBody 0 "in.dat" KRelcm "out.bin" KJjjpn 15099 0) = Ok (Some ("out.bin"%string, FH2 15099 bs)).
Proof. intros tol x y. eexists. reflexivity. Qed.

(** ** success without a file: the stream for lsjt and jjjt files is not checked *)
Lemma nothing_written : exists u6jz racah1 u9j mosh flip tol B p p', m_to p = KLsjt /\ m_to p' = KJjjt
  /\ mos_run u6jz racah1 u9j mosh flip tol B p = Ok None /\ mos_run u6jz racah1 u9j mosh flip tol B p' = Ok None.
Proof.
  exists one6, one7, one7, one9, one5, 0%R, (basis0 false 1 1), (MParams TwoBody 0 "in.dat" KRel "out.dat" KLsjt (-1) 0), (MParams TwoBody 0 "in.dat" KRel "out.dat" KJjjt (-1) 0).
  repeat split; reflexivity.
Qed.
Lemma unknown_format : forall u6jz racah1 u9j mosh flip tol B p, m_to p = KJjjpn -> ~ In (m_format p) [0; 15099; 15200] ->
  forall w, mos_run u6jz racah1 u9j mosh flip tol B p <> Ok w.
Proof.
  intros u6jz racah1 u9j mosh flip tol B p Ht Hf w H. destruct (run_form _ _ _ _ _ _ _ p w H) as [_ [(_ & [E|E] & _)|(f & _ & K & _)]]; try congruence.
  destruct f; cbn in K; try congruence. destruct K as (_ & -> & K). contradiction.
Qed.
Lemma format_case : forall tol x y, run0 tol true x y (MParams TwoBody 0 "in.dat" KRel "out.bin" KJjjpn 15000 0) = Exit.
Proof. reflexivity. Qed.
Lemma negative_case : forall tol x y, run0 tol true x y (MParams TwoBody 0 "in.dat" KRel "out.bin" KJjjpn 15099 (-1)) = AssertFail.
Proof. reflexivity. Qed.
(** a change of charge by two without sectors: a file without blocks *)
Lemma empty_case : forall tol x y, run0 tol true x y (MParams TwoBody 0 "in.dat" KRel "out.bin" KJjjpn 15099 2) = Ok (Some ("out.bin"%string, FH2 15099 [])).
Proof. reflexivity. Qed.
(** a relative-cm file which lacks subspaces of the two-body space *)
Lemma relcm_too_small : exists B p G, m_from p = KRelcm /\ m_to p = KLsjt /\ read_cm B (m_source p) = Ok (scalar0, 0, [([(0, 0)%nat], [block0 1]); ([], []); ([], [])])
  /\ cm_space (cm_of B 0) /\ stores_ls (cm_of B 0) scalar0 [([(0, 0)%nat], [block0 1]); ([], []); ([], [])] G /\ tb_space (tb_of B TwoBody 0)
  /\ forall tol, mos_run one6 one7 one7 one9 one5 tol B p = UB.
Proof.
  exists (BasisLib (fun _ => [(Lab 0 0 0 1 0 0, [(0, 0, 0, 0)])]) (fun _ _ => ls0) (fun _ _ => jj0) (fun _ _ => jt0) (fun _ _ _ => pn0) sectors0
    (fun _ _ c _ => Ok c) (fun _ _ c _ _ => Ok c) (fun _ _ c _ => Ok c) (fun _ => Exit) (fun _ => Ok (scalar0, 0, [([(0, 0)%nat], [block0 1]); ([], []); ([], [])])) (fun _ => true)),
    (MParams TwoBody 0 "in.dat" KRelcm "out.dat" KLsjt (-1) 0), (fun _ _ _ _ _ => 1%R).
  split; [reflexivity|]. split; [reflexivity|]. split; [reflexivity|]. cbn [cm_of tb_of]. split; [|split; [|split; [exact ls0_tb|reflexivity]]].
  - destruct ls0_cm as [_ H]. unfold ls0 in H. inversion H; subst. split; [repeat constructor; cbn; tauto|]. constructor; [assumption|constructor].
  - intros T0 HT. unfold in_range in HT. cbn in HT. assert (T0 = 0) by lia. subst T0. eexists _, _. split; [reflexivity|]. split; [repeat constructor; cbn; tauto|]. split.
    + intros i k. split.
      * intros [E|[]]. injection E as <- <-. split; [lia|]. eexists _, _. split; [reflexivity|]. split; [reflexivity|]. cbn. unfold jt_rule, couples. cbn. lia.
      * intros (_ & x & y & Hx & Hy & _). destruct i as [|[|i]]; [|discriminate|discriminate]. destruct k as [|[|k]]; [|discriminate|discriminate]. left. reflexivity.
    + intros q i k x y Hq Hx Hy. destruct q as [|[|q]]; [|discriminate|discriminate]. cbn in Hq. injection Hq as <- <-. cbn in Hx, Hy. injection Hx as <-. injection Hy as <-.
      exists (block0 1). repeat split.
Qed.
(** a relative file with fewer quanta than the two-body space, by contrast, fails an assertion *)
Definition cm2 : list lssub := [(Lab 0 0 0 1 0 2, [(0, 0, 2, 0); (2, 0, 0, 0); (1, 1, 1, 1)])].
Lemma rel_too_small : forall tol, mos_run one6 one7 one7 one9 one5 tol
  (BasisLib (fun _ => cm2) (fun _ _ => ls0) (fun _ _ => jj0) (fun _ _ => jt0) (fun _ _ _ => pn0) sectors0 (fun _ _ c _ => Ok c) (fun _ _ c _ _ => Ok c) (fun _ _ c _ => Ok c)
     (fun _ => Ok (scalar0, rel0, diag0 1 1)) (fun _ => Exit) (fun _ => true))
  (MParams TwoBody 2 "in.dat" KRel "out.dat" KLsjt (-1) 0) = AssertFail.
Proof. reflexivity. Qed.
