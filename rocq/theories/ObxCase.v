(** Defects and cases for C136-C138. *)
From Coq Require Import String List ZArith Reals Bool Lra Lia.
From Verif Require Import Base BaseLemmas RMat H2Model MapModel XformModel SepModel OscModel OscSpec OscProof BlockModel BlockSpec BlockProof BlockFinal
  ObioModel ObioProof ObioFinal ObioMore MixModel MixProof MixFinal ObmModel ObmSpec ObmProof ObmFinal ObmFin2 ObmFin3 ObmFin4 ObmFin5 ObmFin6 NatModel RgModel HmModel HmSpec HmOspec HmProof HmMeans HmOb HmFinal HmCase
  StmtSpec StmtProof ObxModel ObxSpec ObxProof ObxMain.
Import ListNotations.
Open Scope R_scope.
Open Scope string_scope.
Open Scope list_scope.
Open Scope outcome_scope.

(** ** C136: the documented format *)
Theorem documented_ok : forall ws, documented ws -> ~ momentum ws -> ~ solid ws -> exists s, xsays (CLine ws false) s.
Proof.
  intros ws D NM NS. destruct D.
  - destruct H0 as [H0|[H0|[]]]; eexists; eapply xsay_basis; try eassumption; rewrite <- H0; cbn; tauto.
  - eexists; eapply xsay_length; eassumption.
  - eexists; eapply xsay_xform; eassumption.
  - assert (O : exists file, optional_text rest false file) by (destruct rest; eexists; constructor). destruct O as [file O].
    assert (G : exists x, In (w_text m, w_text i, x) generated_names).
    { cbn [documented_names In] in H0. repeat (destruct H0 as [H0|H0]; [injection H0 as E1 E2; rewrite <- E1, <- E2 in *;
        first [exfalso; apply NM; exists k, m, i, rest; split; [reflexivity|]; split; [assumption|]; rewrite <- E1, <- E2; cbn; tauto|eexists; cbn [generated_names In]; tauto]|]). destruct H0. }
    destruct G as [[[t order] q] G]. eexists. eapply xsay_generated; eassumption.
  - exfalso. apply NS. eexists k, m, _. split; [reflexivity|]. auto.
  - eexists; eapply xsay_input; eassumption.
  - eexists; eapply xsay_linear; eassumption.
  - eexists; eapply xsay_term; eassumption.
  - eexists; eapply xsay_tensor; try eassumption. constructor.
  - eexists; eapply xsay_tensor; try eassumption. constructor. eassumption.
  - eexists; eapply xsay_xform_source; eassumption.
  - eexists; eapply xsay_target; eassumption.
Qed.
Theorem momentum_refused : forall d c ws bl, momentum ws -> xread_line d c (CLine ws bl) = Exit.
Proof.
  intros d [rp xs ss ts] ws bl (k & m & i & rest & -> & Hk & H). unfold xread_line, read_source, next_text. cbn [cl_words bind]. rewrite Hk. cbn [String.eqb Ascii.eqb Bool.eqb bind].
  destruct H as [H|[H|[]]]; injection H as E1 E2; rewrite <- E1, <- E2; reflexivity.
Qed.
(** the rank is mandatory *)
Theorem solid_refused : forall d c k m i co a rest bl, w_text k = "define-source" -> w_text m = "solid-harmonic" ->
  (forall b rest', rest = b :: rest' -> w_int b = None) -> xread_line d c (CLine (k :: m :: i :: co :: a :: rest) bl) = Exit.
Proof.
  intros d [rp xs ss ts] k m i co a rest bl Hk Hm H. unfold xread_line, read_source, next_text, next_i. cbn [cl_words bind]. rewrite Hk. cbn [String.eqb Ascii.eqb Bool.eqb bind]. rewrite Hm. cbn [mode_table String.eqb Ascii.eqb Bool.eqb bind].
  destruct (w_int a); [|reflexivity]. cbn [bind]. destruct rest as [|b rest]; [reflexivity|]. rewrite (H b rest eq_refl). reflexivity.
Qed.
Theorem documented_refuted : exists w1 w2 w3, documented w1 /\ documented w2 /\ documented w3 /\ forall d c bl,
  xread_line d c (CLine w1 bl) = Exit /\ xread_line d c (CLine w2 bl) = Exit /\ xread_line d c (CLine w3 bl) = Exit.
Proof.
  exists [tx "define-source"; tx "kinematic"; tx "k.k"], [tx "define-source"; tx "solid-harmonic"; tx "Y2"; tx "r"; iw "2" 2],
    [tx "define-source"; tx "solid-harmonic"; tx "Y2"; tx "r"; iw "2" 2; tx "orbitals.dat"].
  split; [apply doc_generated; [reflexivity|cbn; tauto|cbn; lia]|]. split; [eapply doc_solid; [reflexivity|reflexivity|cbn; tauto|reflexivity|cbn; lia]|]. split; [eapply doc_solid; [reflexivity|reflexivity|cbn; tauto|reflexivity|cbn; lia]|].
  intros d c bl. split; [|split].
  - apply momentum_refused. eexists _, _, _, _. split; [reflexivity|]. split; [reflexivity|cbn; tauto].
  - apply solid_refused; try reflexivity. intros b rest' H. discriminate.
  - apply solid_refused; try reflexivity. intros b rest' H. injection H as <- _. reflexivity.
Qed.
(** an orbital file with the name of a number is taken for the rank *)
Theorem solid_misread_refuted : exists ws, documented ws /\ xsays (CLine ws false) (Source (XGenerated "Y2" (GRadial TR) 2 (8, 0, 0)%Z "")).
Proof.
  exists [tx "define-source"; tx "solid-harmonic"; tx "Y2"; tx "r"; iw "2" 2; iw "8" 8]. split; [eapply doc_solid; [reflexivity|reflexivity|cbn; tauto|reflexivity|cbn; lia]|].
  eapply (xsay_solid (tx "define-source") (tx "solid-harmonic") (tx "Y2") (tx "r") (iw "2" 2) (iw "8" 8) [] false TR 2 8 ""); try reflexivity; [cbn; tauto|constructor].
Qed.
(** nothing after the last mandatory word, but a blank at the end of the line *)
Theorem xblank_refuted : exists ws s, xsays (CLine ws false) s /\ forall d c, xread_line d c (CLine ws true) = Exit.
Proof.
  exists [tx "define-source"; tx "am"; tx "l2"]. eexists. split; [eapply (xsay_generated (tx "define-source") (tx "am") (tx "l2") []); [reflexivity|cbn; tauto|constructor]|].
  intros d [rp xs ss ts]. reflexivity.
Qed.
(** a transformation without a file is accepted when it is read; of two with one name the first counts *)
Theorem xxform_refuted : exists l1 l2 l3, xsays l1 (Transformation "a" "old.dat") /\ xsays l2 (Transformation "a" "new.dat") /\ xsays l3 (Transformation "" "") /\
  forall d, exists c, xread_control d [l1; l2; l3] = Ok c /\ assoc (xc_xforms c) "a" = Some "old.dat" /\ assoc (xc_xforms c) "" = Some "".
Proof.
  exists (CLine [tx "define-xform"; tx "a"; tx "old.dat"] false), (CLine [tx "define-xform"; tx "a"; tx "new.dat"] false), (CLine [tx "define-xform"] false).
  split; [exact (xsay_xform (tx "define-xform") (tx "a") (tx "old.dat") [] false eq_refl)|]. split; [exact (xsay_xform (tx "define-xform") (tx "a") (tx "new.dat") [] false eq_refl)|].
  split; [exact (xsay_xform_nothing (tx "define-xform") false eq_refl)|]. intros d. eexists. split; [reflexivity|]. split; reflexivity.
Qed.

(** ** C137, C138: failures *)
Section Failures.
Variable d : disk.
Variable spline : spline_me.
Variable crme : Z -> Z -> Z -> Z -> Z -> R.
Variable am_rme : am_type -> Z -> Z -> Z -> Z -> R.
Variable inv_sqrt_4pi : R.
Variable racah : Z -> Z -> Z -> Z -> Z -> Z -> R.
Hypothesis racah_zero : forall j' j j'' Ja Jb J, ~ coupled j (2 * J) j' -> racah j' j j'' Ja Jb J = 0.
Notation xconstruct := (xconstruct d spline crme am_rme inv_sqrt_4pi racah).
Notation xstage := (xstage d spline crme am_rme inv_sqrt_4pi racah).
Notation obmixer := (obmixer d spline crme am_rme inv_sqrt_4pi racah).
Lemma lacking_exit : forall rp l xs env ops s, (forall id, assoc l id = xs id) -> map fst ops = map fst env -> lacking d xs env s -> xconstruct rp l s ops = Exit.
Proof.
  intros rp l xs env ops s Hl N L.
  assert (Q : forall id, assoc env id = None <-> assoc ops id = None).
  { intros id. clear - N. revert env N. induction ops as [|[x a] ops IH]; intros [|[y b] env] N; try discriminate; [tauto|]. cbn in *. injection N as -> N. destruct (String.eqb id y); [split; discriminate|apply IH; exact N]. }
  destruct L as [L|L].
  - assert (L' : assoc ops (source_id s) <> None) by (intros E; apply L, Q, E). destruct s; cbn [source_id ObxModel.xconstruct] in *.
    + destruct (assoc ops id); [reflexivity|contradiction].
    + destruct (assoc ops id); [reflexivity|contradiction].
    + unfold linear_channel. destruct (assoc ops id); [reflexivity|contradiction].
    + unfold tensor_channel. destruct (assoc ops id); [reflexivity|contradiction].
    + unfold xform_ob_channel. destruct (assoc ops id); [|contradiction]. destruct (assoc ops src); [|reflexivity]. destruct (assoc l xf); reflexivity.
  - destruct s; cbn [ObxModel.xconstruct].
    + rewrite L. destruct (assoc ops id); reflexivity.
    + destruct L as [L1 L2]. apply String.eqb_neq in L1. unfold read_space. rewrite L1, L2. destruct (assoc ops id); reflexivity.
    + destruct terms as [|[i x] terms]; [contradiction|]. destruct L as [L1 L2]. apply Q in L2. apply String.eqb_neq in L1. unfold linear_channel. destruct (assoc ops id); [reflexivity|]. cbn [for_each ob_lc_term fst]. rewrite L1, L2. reflexivity.
    + unfold tensor_channel. destruct (assoc ops id); [reflexivity|]. cbn [assoc]. destruct L as [[L1 L2]|[L1 L2]]; apply Q in L2; apply String.eqb_neq in L1; rewrite L1, L2.
      * reflexivity.
      * match goal with |- match ?x with _ => _ end = _ => destruct x; reflexivity end.
    + unfold xform_ob_channel. rewrite Hl. destruct L as [L|L]; [apply Q in L|]; rewrite L; [reflexivity|]. destruct (assoc ops src); reflexivity.
Qed.
Theorem obmixer_lacking : forall lines sts pre s post env, Forall2 xsays lines sts -> well_placed d sts -> xforms_good d sts ->
  sources_of sts = pre ++ s :: post -> xstage (run_of d sts) (xform_file d sts) pre env -> lacking d (xform_file d sts) env s -> obmixer lines = Exit.
Proof.
  intros lines sts pre s post env S P X E SG L. destruct (xcontrol_ok d lines sts S P) as (c & Ec & M). unfold ObxModel.obmixer. rewrite Ec. cbn [bind].
  destruct (xxforms_ok d c sts M X) as (xs & Ex & Ax). rewrite Ex. cbn [bind]. rewrite (xm_run _ _ _ M), (xm_sources _ _ _ M), E.
  destruct (xstage_ok d spline crme am_rme inv_sqrt_4pi racah racah_zero _ xs _ _ env Ax SG) as (ops & Eo & N & _).
  unfold xconstruct_all in *. rewrite for_each_app, Eo. cbn [for_each bind]. rewrite (lacking_exit _ xs _ env ops s Ax N L). reflexivity.
Qed.
Theorem obmixer_no_operator : forall lines sts env pre id file post, Forall2 xsays lines sts -> well_placed d sts -> xforms_good d sts ->
  xstage (run_of d sts) (xform_file d sts) (sources_of sts) env -> orbital_space (run_space d sts) ->
  every ObxSpec.target_in sts = pre ++ (id, file) :: post -> (forall t, In t pre -> target_fine env (fst t)) -> assoc env id = None -> obmixer lines = Exit.
Proof.
  intros lines sts env pre id file post S P X SG Hsp E HT Hno. destruct (xcontrol_ok d lines sts S P) as (c & Ec & M). unfold ObxModel.obmixer. rewrite Ec. cbn [bind].
  destruct (xxforms_ok d c sts M X) as (xs & Ex & Ax). rewrite Ex. cbn [bind]. rewrite (xm_run _ _ _ M), (xm_sources _ _ _ M), (xm_targets _ _ _ M), E.
  destruct (xstage_ok d spline crme am_rme inv_sqrt_4pi racah racah_zero _ xs _ _ env Ax SG) as (ops & Eo & N & Henv). rewrite Eo. cbn [bind].
  destruct (outputs_ok spline (run_of d sts) ops env pre Henv Hsp HT) as (out & O & _).
  assert (Hno' : assoc ops id = None).
  { clear - N Hno. revert env N Hno. induction ops as [|[x a] ops IH]; intros [|[y b] env] N Hno; try discriminate; [reflexivity|]. cbn in *. injection N as -> N. destruct (String.eqb id y); [discriminate|exact (IH env N Hno)]. }
  clear - O Hno'. revert out O. induction pre as [|t pre IH]; intros out O; cbn [app map_blocks fst snd].
  - unfold write_channel at 1. rewrite Hno'. reflexivity.
  - cbn [map_blocks] in O. apply bind_inv in O. destruct O as (y & Hy & O). rewrite Hy. cbn [bind]. apply bind_inv in O. destruct O as (out' & O & _). rewrite (IH out' O). reflexivity.
Qed.
Theorem obmixer_xform : forall lines sts id file, Forall2 xsays lines sts -> well_placed d sts -> the_first (xform_called id) sts = Some file ->
  (d_ob d file = None \/ exists f, d_ob d file = Some f /\ of_q f <> (0, 0, 0)%Z) -> obmixer lines = Exit \/ obmixer lines = AssertFail.
Proof.
  intros lines sts id file S P E H. destruct (xcontrol_ok d lines sts S P) as (c & Ec & M). unfold ObxModel.obmixer. rewrite Ec. cbn [bind].
  assert (X : ~ xforms_good d sts) by (intros G; destruct (G id file E) as (f & G1 & G2); destruct H as [H|(f' & H1 & H2)]; congruence).
  destruct (xread_xforms d c) as [xs| | |] eqn:Ex; cbn [bind]; [exfalso; apply X; exact (proj1 (xxforms_inv d c sts xs M Ex))|left; reflexivity|right; reflexivity|].
  exfalso. clear - Ex. unfold xread_xforms in Ex. revert Ex. induction (xc_xforms c) as [|p l IH]; [discriminate|]. cbn [map_blocks].
  unfold open_file at 1, read_xform at 1. destruct (d_ob d (snd p)) as [f|]; cbn [bind]; [|discriminate]. destruct (q_eqb (of_q f) _); cbn [cassert bind]; [|discriminate].
  match goal with |- bind ?x _ = _ -> _ => destruct x; cbn [bind]; try discriminate end. exact IH.
Qed.
End Failures.
(** a linear combination without terms is accepted; writing it is undefined *)
Theorem xno_terms_refuted : forall d spline crme am_rme inv racah, exists lines sts, Forall2 xsays lines sts /\ well_placed d sts /\ obmixer d spline crme am_rme inv racah lines = UB.
Proof.
  intros. exists [CLine [tx "define-source"; tx "linear-combination"; tx "zero"] false; CLine [tx "define-target"; tx "zero"; tx "zero.dat"] false], [Source (XLinear "zero" []); Target "zero" "zero.dat"].
  split; [constructor; [eapply (xsay_linear (tx "define-source") (tx "linear-combination") (tx "zero") []); reflexivity|constructor; [exact (xsay_target (tx "define-target") (tx "zero") (tx "zero.dat") [] false eq_refl)|constructor]]|].
  split; [|reflexivity]. intros [|s0 [|s1 [|s2 pre]]] s post E; try discriminate; injection E as ?; subst; cbn; tauto.
Qed.
(** without set-basis everything is written on a space without orbitals *)
Theorem xno_basis_refuted : forall spline crme am_rme inv racah, exists d lines sts F, Forall2 xsays lines sts /\ well_placed d sts
  /\ (exists f, d_ob d "a.dat" = Some f /\ file_ok f [(LL SP 0 1, [0%Z])] (0, 0, 0)%Z /\ file_entry f 0 0 0 0 = 5)
  /\ sts = [Source (XInput "a" "a.dat" (0, 0, 0)%Z); Target "a" "out.dat"] /\ obmixer d spline crme am_rme inv racah lines = Ok [("out.dat", F)] /\ of_blocks F = [].
Proof.
  intros. exists (Disk (fun _ => None) (fun n => if String.eqb n "a.dat" then Some (ObFile [(LL SP 0 1, [0%Z])] [(LL SP 0 1, [0%Z])] (0, 0, 0)%Z [(0, 0)%nat] [Mat 1 1 (fun _ _ => 5)]) else None) (fun _ => None)).
  exists [CLine [tx "define-source"; tx "input"; tx "a"; tx "a.dat"; iw "0" 0; iw "0" 0; iw "0" 0] false; CLine [tx "define-target"; tx "a"; tx "out.dat"] false],
    [Source (XInput "a" "a.dat" (0, 0, 0)%Z); Target "a" "out.dat"]. eexists.
  split; [constructor; [eapply (xsay_input (tx "define-source") (tx "input") (tx "a") (tx "a.dat") (iw "0" 0) (iw "0" 0) (iw "0" 0) []); reflexivity|constructor; [exact (xsay_target (tx "define-target") (tx "a") (tx "out.dat") [] false eq_refl)|constructor]]|].
  split; [intros [|s0 [|s1 [|s2 pre]]] s post E; try discriminate; injection E as ?; subst; cbn; tauto|].
  split; [eexists; split; [reflexivity|]; split; [|reflexivity]; split; [reflexivity|]; split; [reflexivity|]; split; [reflexivity|]; split; [|reflexivity]; split; [constructor; [intros []|constructor]|constructor; [cbn; repeat split; lia|constructor]]|].
  split; [reflexivity|]. split; reflexivity.
Qed.

(** ** a control file, from its lines to the files written *)
(** there are numbers for any description *)
Lemma describable : forall sp q g, exists f, describes sp q f g.
Proof.
  intros sp [[J0 g0] Tz0] g.
  exists (fun I i K k => match nth_error sp I, nth_error sp K with
    | Some (a, ns), Some (b, ns') => match nth_error ns i, nth_error ns' k with Some n, Some n' => if selection J0 g0 Tz0 a b then g a n b n' else 0 | _, _ => 0 end
    | _, _ => 0 end).
  intros I i K k a n b n' (ns & E1 & E2) (ns' & E3 & E4). rewrite E1, E3, E2, E4. unfold allowed, coupled, selection, triangle_2.
  destruct (Z.abs (ll_2j b - 2 * J0) <=? ll_2j a)%Z eqn:C1; destruct (ll_2j a <=? ll_2j b + 2 * J0)%Z eqn:C2; destruct (Z.even (ll_l a + g0 + ll_l b)) eqn:C3; destruct (two_tz b + 2 * Tz0 =? two_tz a)%Z eqn:C4; cbn [andb];
    rewrite ?Z.leb_le, ?Z.leb_gt, ?Z.eqb_eq, ?Z.eqb_neq in *; try rewrite Z.even_spec in C3; (split; intros A; [try reflexivity; exfalso; destruct A as (A1 & A2 & A3); try lia; apply Z.even_spec in A2; congruence|try reflexivity; exfalso; apply A; auto]).
Qed.
Definition xcase_lines : list cline :=
  [CLine [tx "define-source"; tx "am"; tx "j2"] false;
   CLine [tx "define-source"; tx "kinematic"; tx "identity"; tx "core.dat"] false;
   CLine [tx "define-source"; tx "linear-combination"; tx "sum"] false;
   CLine [tx "add-source"; tx "j2"; iw "4" 4] false;
   CLine [tx "set-basis"; tx "laguerre"; tx "core.dat"] false;
   CLine [tx "add-source"; tx "j2"; iw "-1" (-1)] false;
   CLine [tx "define-target"; tx "identity"; tx "one.dat"] false;
   CLine [tx "define-target"; tx "sum"; tx "sum.dat"] true;
   CLine [tx "set-basis"; tx "oscillator"; tx "orbitals.dat"] false].
Definition xcase_sts : list xstatement :=
  [Source (XGenerated "j2" (GAm ATotal) 2 (0, 0, 0)%Z ""); Source (XGenerated "identity" (GRadial TOther) 0 (0, 0, 0)%Z "core.dat"); Source (XLinear "sum" []);
   ObxSpec.Term "j2" (IZR 4); Basis BLaguerre "core.dat"; ObxSpec.Term "j2" (IZR (-1)); ObxSpec.Target "identity" "one.dat"; ObxSpec.Target "sum" "sum.dat"; Basis BOscillator "orbitals.dat"].
Definition core : list (oinfo R) := [OI (LL SP 0 1) 0%Z 0].
Definition xcase_disk : disk := Disk (fun n => if String.eqb n "orbitals.dat" then Some [OI (LL SP 0 1) 0%Z 0; OI (LL SP 1 3) 0%Z 1; OI (LL SP 0 1) 1%Z 2] else if String.eqb n "core.dat" then Some core else None)
  (fun _ => None) (fun _ => None).
Definition xcase_space : lspace := [(LL SP 0 1, [0%Z; 1%Z]); (LL SP 1 3, [0%Z])].
Lemma xcase_says : Forall2 xsays xcase_lines xcase_sts.
Proof.
  unfold xcase_lines, xcase_sts. repeat apply Forall2_cons; [..|apply Forall2_nil].
  - eapply (xsay_generated (tx "define-source") (tx "am") (tx "j2") []); [reflexivity|cbn; tauto|constructor].
  - eapply (xsay_generated (tx "define-source") (tx "kinematic") (tx "identity") [tx "core.dat"]); [reflexivity|cbn; tauto|constructor].
  - exact (xsay_linear (tx "define-source") (tx "linear-combination") (tx "sum") [] false eq_refl eq_refl).
  - exact (xsay_term (tx "add-source") (tx "j2") (iw "4" 4) [] false _ eq_refl eq_refl).
  - eapply (xsay_basis (tx "set-basis") (tx "laguerre") (tx "core.dat") [] false); [reflexivity|cbn; tauto].
  - exact (xsay_term (tx "add-source") (tx "j2") (iw "-1" (-1)) [] false _ eq_refl eq_refl).
  - exact (xsay_target (tx "define-target") (tx "identity") (tx "one.dat") [] false eq_refl).
  - exact (xsay_target (tx "define-target") (tx "sum") (tx "sum.dat") [] true eq_refl).
  - eapply (xsay_basis (tx "set-basis") (tx "oscillator") (tx "orbitals.dat") [] false); [reflexivity|cbn; tauto].
Qed.
Lemma xcase_placed : well_placed xcase_disk xcase_sts.
Proof.
  unfold xcase_sts. intros pre s post. do 9 (destruct pre as [|? pre]; [intros H; injection H as <- <-; try exact I; try (eexists _, _; reflexivity); try discriminate|intros H; injection H as <- H; revert H]).
  intros H. destruct pre; discriminate H.
Qed.
Lemma xcase_run : run_of xcase_disk xcase_sts = Run BOscillator 1 xcase_space.
Proof. reflexivity. Qed.
Lemma xcase_regular : regular xcase_space.
Proof.
  split; [repeat constructor; cbn; lia|]. split; [constructor; [intros [H|[]]; discriminate H|repeat constructor; intros []]|]. split; [repeat constructor; cbn; intuition lia|].
  intros I K i n n' (x & E1 & E2) (y & E3 & E4). unfold xcase_space in *. destruct I as [|[|I]]; [..|destruct I; discriminate]; destruct K as [|[|K]]; try (destruct K; discriminate); injection E1 as <-; injection E3 as <-;
    cbn [snd] in *; destruct i as [|[|i]]; cbn in *; try congruence; destruct i; discriminate.
Qed.
Lemma core_regular : regular (forget (mk_wspace core)).
Proof.
  split; [repeat constructor; cbn; lia|]. split; [repeat constructor; intros []|]. split; [repeat constructor; cbn; intuition lia|].
  intros I K i n n' (x & E1 & E2) (y & E3 & E4). cbn in E1, E3. destruct I as [|I]; [|destruct I; discriminate]. destruct K as [|K]; [|destruct K; discriminate]. congruence.
Qed.
Theorem xprogram_case : forall spline crme am_rme inv, exists F1 F2, obmixer xcase_disk spline crme am_rme inv (fun _ _ _ _ _ _ => 0) xcase_lines = Ok [("one.dat", F1); ("sum.dat", F2)]
  /\ of_bra F1 = xcase_space /\ file_entry F1 0 0 0 0 = 1 /\ file_entry F1 0 1 0 1 = 0 /\ file_entry F1 1 0 1 0 = 0 /\ file_entry F2 0 1 0 1 = 9 / 4 /\ file_entry F2 1 0 1 0 = 45 / 4.
Proof.
  intros spline crme am_rme inv. destruct (describable xcase_space (0, 0, 0)%Z (diagonal (fun a _ => casimir ATotal a))) as [fj Dj].
  destruct (describable (forget (mk_wspace core)) (0, 0, 0)%Z (diagonal (fun _ _ => 1))) as [f1 D1].
  set (fs := fun I i K k => lsum [("j2", IZR 4); ("j2", IZR (-1))] (fun ic => snd ic * fj I i K k)).
  set (env := [("sum", (xcase_space, (0, 0, 0)%Z, fs)); ("identity", (forget (mk_wspace core), (0, 0, 0)%Z, f1)); ("j2", (xcase_space, (0, 0, 0)%Z, fj))] : list (string * opval)).
  destruct xcase_regular as (R1 & R2 & R3 & R4). destruct core_regular as (Q1 & Q2 & Q3 & Q4).
  destruct (obmixer_ok xcase_disk spline crme am_rme inv (fun _ _ _ _ _ _ => 0) ltac:(reflexivity) xcase_lines xcase_sts env xcase_says xcase_placed) as (out & E & F).
  - intros id file H. discriminate H.
  - rewrite xcase_run. change (sources_of xcase_sts) with ((([] ++ [XGenerated "j2" (GAm ATotal) 2 (0, 0, 0)%Z ""]) ++ [XGenerated "identity" (GRadial TOther) 0 (0, 0, 0)%Z "core.dat"]) ++ [XLinear "sum" [("j2", IZR 4); ("j2", IZR (-1))]]).
    unfold env. apply (xstage_snoc _ _ _ _ _ _ _ _ _ _ (XLinear "sum" [("j2", IZR 4); ("j2", IZR (-1))]));
      [apply (xstage_snoc _ _ _ _ _ _ _ _ _ _ (XGenerated "identity" (GRadial TOther) 0 (0, 0, 0)%Z "core.dat")); [apply (xstage_snoc _ _ _ _ _ _ _ _ _ _ (XGenerated "j2" (GAm ATotal) 2 (0, 0, 0)%Z "")); [constructor|reflexivity|]|reflexivity|]|reflexivity|].
    + eapply xdef_generated; [left; auto|apply made_square; [discriminate|exact xcase_regular]|exact Dj].
    + eapply xdef_generated; [right; split; [discriminate|eexists; split; reflexivity]|apply made_identity; exact core_regular|exact D1].
    + apply (xdef_linear _ _ _ _ _ _ _ _ _ "sum" _ xcase_space (0, 0, 0)%Z (fun _ => fj)); [discriminate|]. intros ic [<-|[<-|[]]]; reflexivity.
  - exact R1.
  - intros t [<-|[<-|[]]].
    + exists (forget (mk_wspace core)), (0, 0, 0)%Z, f1. split; [reflexivity|auto].
    + exists xcase_space, (0, 0, 0)%Z, fs. split; [reflexivity|auto].
  - change (every ObxSpec.target_in xcase_sts) with [("identity", "one.dat"); ("sum", "sum.dat")] in F. inversion F as [|? o1 ? out1 (N1 & v1 & A1 & W1) F']; subst. inversion F' as [|? o2 ? out2 (N2 & v2 & A2 & W2) F'']; subst. inversion F''; subst.
    destruct o1 as [n1 F1], o2 as [n2 F2]. cbn [fst snd] in *. subst n1 n2. injection A1 as <-. injection A2 as <-. exists F1, F2. split; [exact E|].
    change (run_space xcase_disk xcase_sts) with xcase_space in *. destruct W1 as ((B1 & _) & W1 & W1'). destruct W2 as (_ & W2 & _). split; [exact B1|].
    assert (S : forall I i a n, orbital_at xcase_space I i a n -> same_orbital xcase_space I i xcase_space I i) by (intros I i a n (ns & G1 & G2); exists (a, ns), (a, ns), n; auto).
    assert (O01 : orbital_at xcase_space 0 1 (LL SP 0 1) 1%Z) by (exists [0%Z; 1%Z]; auto). assert (O10 : orbital_at xcase_space 1 0 (LL SP 1 3) 0%Z) by (exists [0%Z]; auto).
    assert (C0 : orbital_at (forget (mk_wspace core)) 0 0 (LL SP 0 1) 0%Z) by (exists [0%Z]; auto).
    assert (AL : forall l j, (0 <= j)%Z -> allowed (0, 0, 0)%Z (LL SP l j) (LL SP l j)) by (intros l j Hj; unfold allowed, coupled; cbn [ll_2j ll_l]; split; [lia|]; split; [exists l; lia|reflexivity]).
    split; [rewrite (W1 0%nat 0%nat 0%nat 0%nat 0%nat 0%nat 0%nat 0%nat); [|exists (LL SP 0 1, [0%Z; 1%Z]), (LL SP 0 1, [0%Z]), 0%Z; auto ..];
      exact (proj1 (D1 _ _ _ _ _ _ _ _ C0 C0) (AL 0%Z 1%Z ltac:(lia)))|].
    assert (N01 : forall A a, ~ same_orbital xcase_space 0 1 (forget (mk_wspace core)) A a).
    { intros A a (x & y & n & G1 & G2 & _ & G4 & G5). injection G1 as <-. injection G4 as <-. destruct A as [|A]; [|destruct A; discriminate]. injection G2 as <-. destruct a as [|a]; [discriminate|destruct a; discriminate]. }
    assert (N10 : forall A a, ~ same_orbital xcase_space 1 0 (forget (mk_wspace core)) A a).
    { intros A a (x & y & n & G1 & G2 & G3 & _). injection G1 as <-. destruct A as [|A]; [|destruct A; discriminate]. injection G2 as <-. discriminate. }
    split; [apply W1'; [cbn; split; cbn; lia..|left; exact N01]|]. split; [apply W1'; [cbn; split; cbn; lia..|left; exact N10]|].
    split; [rewrite (W2 _ _ _ _ 0%nat 1%nat 0%nat 1%nat (S _ _ _ _ O01) (S _ _ _ _ O01)); unfold fs; cbn [lsum fold_right map snd]; rewrite (proj1 (Dj _ _ _ _ _ _ _ _ O01 O01) (AL 0%Z 1%Z ltac:(lia)))|
            rewrite (W2 _ _ _ _ 1%nat 0%nat 1%nat 0%nat (S _ _ _ _ O10) (S _ _ _ _ O10)); unfold fs; cbn [lsum fold_right map snd]; rewrite (proj1 (Dj _ _ _ _ _ _ _ _ O10 O10) (AL 1%Z 3%Z ltac:(lia)))];
      unfold diagonal, casimir; cbn -[IZR lsum]; unfold lsum; cbn [fold_right map snd]; lra.
Qed.
