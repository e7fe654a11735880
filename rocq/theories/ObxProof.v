(** Lemmas for C136: the control file of obmixer. *)
From Coq Require Import String List ZArith Reals Bool Lia.
From Verif Require Import Base BaseLemmas RMat H2Model MapModel XformModel SepModel OscModel BlockModel BlockSpec ObioModel ObioMore MixModel MixProof ObmModel ObmSpec NatModel RgModel HmModel HmSpec HmOspec HmProof HmMeans
  StmtSpec StmtProof ObxModel ObxSpec.
Import ListNotations.
Open Scope string_scope.
Open Scope list_scope.
Open Scope outcome_scope.

Definition xact (d : disk) (s : xstatement) (c : xcontrol) : outcome xcontrol :=
  let '(XControl rp xs ss ts) := c in
  match s with
  | Basis bt f => sp <- read_space d f ;; Ok (XControl (Run bt (rn_length rp) sp) xs ss ts)
  | Length b => Ok (XControl (Run (rn_basis rp) b (rn_space rp)) xs ss ts)
  | Transformation id file => Ok (XControl rp (add_xform xs id file) ss ts)
  | Source s => Ok (XControl rp xs (ss ++ [s]) ts)
  | Term id x => cassert (nonempty ss) ;;; ss' <- on_last (add_source (id, x)) ss ;; Ok (XControl rp xs ss' ts)
  | Target id f => Ok (XControl rp xs ss (ts ++ [(id, f)]))
  end.
Lemma mode_named : forall m i x, In (m, i, x) generated_names <-> exists table, mode_table m = Some table /\ named table i = Ok x.
Proof.
  intros m i x. split.
  - intros H. cbn [generated_names In] in H. repeat (destruct H as [H|H]; [injection H as <- <- <-; eexists; split; reflexivity|]). destruct H.
  - intros (table & T & N). unfold mode_table in T. unfold named in N.
    repeat match type of T with context [String.eqb m ?n] => destruct (String.eqb_spec m n); [subst; injection T as <-; unfold kinematic, angular_momenta, isospins, ladders in N; cbn [assoc] in N;
      repeat (match type of N with context [String.eqb i ?n] => destruct (String.eqb_spec i n); [subst; injection N as <-; cbn [generated_names In]; tauto|] end); discriminate|] end. discriminate.
Qed.
Lemma basis_named : forall b bt, In (b, bt) [("oscillator", BOscillator); ("laguerre", BLaguerre)] <-> named basis_names b = Ok bt.
Proof.
  intros b bt. split.
  - intros [H|[H|[]]]; injection H as <- <-; reflexivity.
  - unfold named, basis_names. cbn [assoc]. intros H. repeat match type of H with context [String.eqb b ?n] => destruct (String.eqb_spec b n); [subst; injection H as <-; cbn; tauto|] end. discriminate.
Qed.
Lemma radial_named : forall c t, In (c, t) [("r", TR); ("k", TK); ("ik", TK); ("o", TOther); ("g", TOther)] <-> named radial_names c = Ok t.
Proof.
  intros c t. split.
  - intros H. cbn [In] in H. repeat (destruct H as [H|H]; [injection H as <- <-; reflexivity|]). destruct H.
  - unfold named, radial_names. cbn [assoc]. intros H. repeat match type of H with context [String.eqb c ?n] => destruct (String.eqb_spec c n); [subst; injection H as <-; cbn; tauto|] end. discriminate.
Qed.
Lemma named_cases : forall A (t : list (string * A)) i, (exists x, named t i = Ok x) \/ named t i = Exit.
Proof. intros A t i. unfold named. destruct (assoc t i); eauto. Qed.
Ltac xsays_eq := unfold xread_line, read_source, next_q, next_text, next_i, next_d; cbn [cl_words cl_blank bind]; do 9 (reads; cbn [bind String.eqb Ascii.eqb Bool.eqb mode_table]).
Theorem xsays_acts : forall d line s c, xsays line s -> xread_line d c line = xact d s c.
Proof.
  intros d line s [rp xs ss ts] H. destruct H; xsays_eq; try reflexivity.
  - match goal with H : In _ _ |- _ => apply basis_named in H; rewrite H end. reflexivity.
  - match goal with H : In _ generated_names |- _ => apply mode_named in H; destruct H as (table & T & N) end. rewrite T, N. cbn [bind].
    match goal with H : optional_text _ _ _ |- _ => destruct H end; reflexivity.
  - match goal with H : In _ _ |- _ => apply radial_named in H; rewrite H end. cbn [bind]. match goal with H : optional_text _ _ _ |- _ => destruct H end; reflexivity.
  - match goal with H : optional_number _ _ _ |- _ => destruct H end; cbn [optional bind next_d]; reads; reflexivity.
Qed.
Theorem xline_cases : forall d c line, (exists s, xsays line s) \/ xread_line d c line = Exit
  \/ (xread_line d c line = AssertFail /\ keyword line "add-source" /\ xc_sources c = []).
Proof.
  intros d [rp xs ss ts] [[|k l] bl]; [right; left; reflexivity|]. unfold xread_line, next_text, next_i, next_d. cbn [cl_words cl_blank bind].
  destruct (String.eqb_spec (w_text k) "set-basis").
  { crack. destruct (named_cases _ basis_names (w_text w)) as [[bt N]|N]; rewrite N; [|crack]. left. eexists. eapply xsay_basis; [eassumption|]. apply basis_named. exact N. }
  destruct (String.eqb_spec (w_text k) "set-length-parameter"). { crack. left. eexists. eapply xsay_length; eassumption. }
  destruct (String.eqb_spec (w_text k) "define-xform").
  { left. destruct l as [|i [|f r]]; eexists; [apply xsay_xform_nothing|apply xsay_xform_no_file|apply xsay_xform]; assumption. }
  destruct (String.eqb_spec (w_text k) "define-source").
  { unfold read_source. destruct l as [|m [|i l]]; [right; left; reflexivity..|]. cbn [next_text bind]. destruct (mode_table (w_text m)) as [table|] eqn:T.
    { destruct (named_cases _ table (w_text i)) as [[[[t order] q] N]|N]; rewrite N; [|crack]. cbn [bind].
      assert (G : In (w_text m, w_text i, (t, order, q)) generated_names) by (apply mode_named; eauto).
      unfold optional. destruct l as [|f l]; [destruct bl; [crack|]|]; left; eexists; eapply xsay_generated; try eassumption; constructor. }
    destruct (String.eqb_spec (w_text m) "solid-harmonic").
    { unfold next_text, next_i. crack. destruct (named_cases _ radial_names (w_text w)) as [[t N]|N]; rewrite N; [|crack]. cbn [bind]. apply radial_named in N.
      unfold optional. destruct l as [|f l]; [destruct bl; [crack|]|]; left; eexists; eapply xsay_solid; try eassumption; constructor. }
    destruct (String.eqb_spec (w_text m) "input"). { unfold next_q, next_text, next_i. crack. left. eexists. eapply xsay_input; eassumption. }
    destruct (String.eqb_spec (w_text m) "linear-combination"). { left. eexists. eapply xsay_linear; eassumption. }
    destruct (String.eqb_spec (w_text m) "tensor-product").
    { unfold next_text, next_i. crack. unfold optional. destruct l as [|w5 l].
      - destruct bl; [crack|]. left. eexists. eapply xsay_tensor; try eassumption. apply no_number.
      - unfold next_d. cbn [bind]. destruct (w_num w5) eqn:?; [|crack]. left. eexists. eapply xsay_tensor; try eassumption. apply a_number. eassumption. }
    destruct (String.eqb_spec (w_text m) "xform"). { unfold next_text. crack. left. eexists. eapply xsay_xform_source; eassumption. }
    crack. }
  destruct (String.eqb_spec (w_text k) "add-source").
  { destruct ss as [|o ss]; [right; right; split; [reflexivity|split; [eexists _, _; split; [reflexivity|assumption]|reflexivity]]|].
    cbn [nonempty cassert bind]. crack. left. eexists. eapply xsay_term; eassumption. }
  destruct (String.eqb_spec (w_text k) "define-target"). { unfold next_text. crack. left. eexists. eapply xsay_target; eassumption. }
  crack.
Qed.
Lemma mode_solid : forall m i x, In (m, i, x) generated_names -> In m ["kinematic"; "am"; "isospin"; "ladder"].
Proof. intros m i x H. cbn [generated_names In] in H. repeat (destruct H as [H|H]; [injection H as <- _ _; cbn; tauto|]). destruct H. Qed.
Theorem xsays_one : forall line s t, xsays line s -> xsays line t -> s = t.
Proof.
  intros line s t H H'. destruct H; inversion H'; subst; try congruence;
    try (exfalso; match goal with G : In _ generated_names, E : w_text ?m = _ |- _ => apply mode_solid in G; rewrite E in G; cbn in G; repeat (destruct G as [G|G]; [discriminate|]); exact G end);
    repeat match goal with A : optional_number ?l ?b ?x, B : optional_number ?l ?b ?y |- _ => rewrite <- (optional_number_one _ _ _ _ A B) in *; clear B end;
    repeat match goal with A : optional_text ?l ?b ?x, B : optional_text ?l ?b ?y |- _ => assert (x = y) by exact (optional_text_one _ _ _ _ A B); subst; clear B end.
  - match goal with A : In _ _, B : In _ _ |- _ => apply basis_named in A, B; congruence end.
  - match goal with A : In _ generated_names, B : In _ generated_names |- _ => apply mode_named in A, B; destruct A as (T & M & N), B as (T' & M' & N'); rewrite M in M'; injection M' as <-; rewrite N in N'; injection N' as <- <- <- end. reflexivity.
  - match goal with A : In _ _, B : In _ _ |- _ => apply radial_named in A, B end. congruence.
  - congruence.
Qed.

(** ** what the file means *)
Lemma well_placed_snoc : forall d l s, well_placed d (l ++ [s]) <-> well_placed d l /\ fits d l s.
Proof. intros. apply (placed_step (fits d)). Qed.
Lemma well_placed_nil : forall d, well_placed d [].
Proof. intros d pre s post E. destruct pre; discriminate. Qed.
Lemma xmeans_nil : forall d, xmeans d xcontrol0 [].
Proof. intros d. constructor; try reflexivity. apply NoDup_nil. Qed.
Lemma add_xform_means : forall xs id file sts, (forall id, assoc xs id = the_first (xform_called id) sts) -> NoDup (map fst xs) ->
  (forall id', assoc (add_xform xs id file) id' = the_first (xform_called id') (sts ++ [Transformation id file])) /\ NoDup (map fst (add_xform xs id file)).
Proof.
  intros xs id file sts H N. split.
  - intros id0. rewrite the_first_snoc, <- H. cbn [xform_called]. unfold add_xform. destruct (assoc xs id) eqn:E.
    + destruct (assoc xs id0) eqn:E0; [reflexivity|]. destruct (String.eqb_spec id id0); [congruence|reflexivity].
    + rewrite assoc_app. destruct (assoc xs id0) eqn:E0; [reflexivity|]. cbn. destruct (String.eqb_spec id0 id), (String.eqb_spec id id0); congruence.
  - unfold add_xform. destruct (assoc xs id) eqn:E; [assumption|]. rewrite map_app. apply nodup_snoc; [assumption|]. apply assoc_none_in. exact E.
Qed.
Ltac xplain := constructor; cbn [xc_run xc_xforms xc_sources xc_targets];
  [unfold run_of, run_basis, run_space; rewrite ?the_last_snoc; cbn [basis_of length_of]|intros id0; rewrite the_first_snoc; cbn [xform_called]|
   |unfold sources_of; rewrite parts_snoc; cbn [source_of]; cbn [every flat_map app term_in]; rewrite ?at_last_same|rewrite every_snoc; cbn [target_in]; rewrite ?app_nil_r];
  try assumption; try reflexivity;
  try (match goal with H : forall id, assoc _ id = _ |- _ => rewrite <- H; destruct (assoc _ _); reflexivity end).
Theorem xstep_ok : forall d c pre s, xmeans d c pre -> fits d pre s -> exists c', xact d s c = Ok c' /\ xmeans d c' (pre ++ [s]).
Proof.
  intros d [rp xs ss ts] pre s [M1 M2 M3 M4 M5] F. cbn [xc_run xc_xforms xc_sources xc_targets] in *. destruct s; cbn [xact]; cbn [fits] in F.
  - unfold read_space. destruct (d_orbitals d file) as [os|] eqn:E; [|congruence]. cbn [open_file bind]. eexists. split; [reflexivity|]. xplain. rewrite E, M1. reflexivity.
  - eexists. split; [reflexivity|]. xplain. rewrite M1. reflexivity.
  - eexists. split; [reflexivity|]. destruct (add_xform_means xs id file pre M2 M3) as [A B]. xplain. rewrite A, the_first_snoc. reflexivity.
  - eexists. split; [reflexivity|]. xplain. rewrite map_app, M4. cbn. destruct s; cbn; rewrite ?app_nil_r; reflexivity.
  - destruct F as (i & t & F). assert (S := parts_last source_of term_in pre). rewrite F in S. destruct S as (ps & its & S). unfold sources_of in M4. rewrite S, map_app in M4. cbn [map summed fst snd] in M4.
    rewrite M4, on_last_snoc. cbn [add_source bind]. replace (nonempty (map summed ps ++ [XLinear i (t ++ its)])) with true by (destruct (map summed ps); reflexivity). cbn [cassert bind].
    eexists. split; [reflexivity|]. xplain. rewrite S, at_last_snoc, map_app. cbn. rewrite app_assoc. reflexivity.
  - eexists. split; [reflexivity|]. xplain. rewrite M5. reflexivity.
Qed.
Theorem xstep_refused : forall d c pre s, xmeans d c pre -> ~ fits d pre s ->
  xact d s c = match s with Term _ _ => match the_last source_of pre with None => AssertFail | Some _ => Exit end | _ => Exit end.
Proof.
  intros d [rp xs ss ts] pre s [M1 M2 M3 M4 M5] F. cbn [xc_run xc_xforms xc_sources xc_targets] in *. destruct s; cbn [fits] in F; try (contradiction (F I)); cbn [xact].
  - unfold read_space. destruct (d_orbitals d file); [exfalso; apply F; discriminate|reflexivity].
  - assert (S := parts_last source_of term_in pre). unfold sources_of in M4. destruct (the_last source_of pre) as [o|].
    + destruct S as (ps & its & S). rewrite S, map_app in M4. cbn [map] in M4. rewrite M4, on_last_snoc.
      replace (nonempty (map summed ps ++ [summed (o, its)])) with true by (destruct (map summed ps); reflexivity). cbn [cassert bind].
      destruct o as [| |i t| |]; try reflexivity. exfalso. apply F. eauto.
    + rewrite S in M4. cbn in M4. rewrite M4. reflexivity.
Qed.
Lemma fits_dec : forall d pre s, fits d pre s \/ ~ fits d pre s.
Proof.
  intros d pre s. destruct s; cbn; try (left; exact I).
  - destruct (d_orbitals d file); [left; discriminate|right; intros H; apply H; reflexivity].
  - destruct (the_last source_of pre) as [[| |i t| |]|]; try (right; intros (? & ? & ?); discriminate). left. exists i, t. reflexivity.
Qed.
Lemma xread_snoc : forall d lines line, xread_control d (lines ++ [line]) = bind (xread_control d lines) (fun c => xread_line d c line).
Proof. intros. unfold xread_control. rewrite for_each_app. destruct (for_each lines _ xcontrol0); [|reflexivity..]. cbn. destruct (xread_line _ _ line); reflexivity. Qed.
Theorem xcontrol_ok : forall d lines sts, Forall2 xsays lines sts -> well_placed d sts -> exists c, xread_control d lines = Ok c /\ xmeans d c sts.
Proof.
  intros d lines. induction lines as [|line lines IH] using rev_ind; intros sts H P.
  - inversion H; subst. exists xcontrol0. split; [reflexivity|apply xmeans_nil].
  - apply forall2_snoc in H. destruct H as (sts' & s & -> & H & Hs). apply well_placed_snoc in P. destruct P as [P F].
    destruct (IH sts' H P) as (c & E & M). destruct (xstep_ok d c sts' s M F) as (c' & E' & M'). exists c'. split; [|exact M'].
    rewrite xread_snoc, E. cbn [bind]. rewrite (xsays_acts d line s c Hs). exact E'.
Qed.
Theorem xcontrol_inv : forall d lines c, xread_control d lines = Ok c -> exists sts, Forall2 xsays lines sts /\ well_placed d sts /\ xmeans d c sts.
Proof.
  intros d lines. induction lines as [|line lines IH] using rev_ind; intros c H.
  - injection H as <-. exists []. split; [constructor|]. split; [apply well_placed_nil|apply xmeans_nil].
  - rewrite xread_snoc in H. apply bind_inv in H. destruct H as (c0 & E & H). destruct (IH c0 E) as (sts & S & P & M).
    destruct (xline_cases d c0 line) as [[s Hs]|[L|[L _]]]; [|congruence..]. rewrite (xsays_acts d line s c0 Hs) in H.
    exists (sts ++ [s]). assert (F : fits d sts s).
    { destruct (fits_dec d sts s) as [F|F]; [exact F|]. rewrite (xstep_refused d c0 sts s M F) in H. destruct s; try discriminate. destruct (the_last source_of sts); discriminate. }
    split; [apply Forall2_app; [exact S|constructor; [exact Hs|constructor]]|]. split; [apply well_placed_snoc; split; assumption|].
    destruct (xstep_ok d c0 sts s M F) as (c' & E' & M'). congruence.
Qed.
Lemma xread_app : forall d l1 line l2 c o, xread_control d l1 = Ok c -> xread_line d c line = o -> (forall x, o <> Ok x) -> o <> UB -> xread_control d (l1 ++ line :: l2) = o.
Proof.
  intros d l1 line l2 c o H L N U. unfold xread_control in *. rewrite for_each_app, H. cbn. rewrite L. destruct o as [x| | |]; [contradiction (N x eq_refl)|reflexivity..].
Qed.
(** the first line that says nothing, or is misplaced, ends the program *)
Theorem xcontrol_refused : forall d l1 line l2 sts, Forall2 xsays l1 sts -> well_placed d sts -> (forall s, ~ xsays line s) ->
  xread_control d (l1 ++ line :: l2) = Exit
  \/ (xread_control d (l1 ++ line :: l2) = AssertFail /\ keyword line "add-source" /\ every source_of sts = []).
Proof.
  intros d l1 line l2 sts S P N. destruct (xcontrol_ok d l1 sts S P) as (c & E & M).
  destruct (xline_cases d c line) as [[s Hs]|[L|[L [K Ez]]]]; [contradiction (N s Hs)| |].
  - left. eapply xread_app; try eassumption; discriminate.
  - right. split; [eapply xread_app; try eassumption; discriminate|]. split; [exact K|].
    rewrite (xm_sources _ _ _ M) in Ez. unfold sources_of in Ez. apply map_eq_nil in Ez. rewrite <- (parts_fst source_of term_in), Ez. reflexivity.
Qed.
Theorem xcontrol_misplaced : forall d l1 line l2 sts s, Forall2 xsays l1 sts -> well_placed d sts -> xsays line s -> ~ fits d sts s ->
  xread_control d (l1 ++ line :: l2) = match s with Term _ _ => match the_last source_of sts with None => AssertFail | Some _ => Exit end | _ => Exit end.
Proof.
  intros d l1 line l2 sts s S P Hs F. destruct (xcontrol_ok d l1 sts S P) as (c & E & M).
  assert (R := xstep_refused d c sts s M F). rewrite <- (xsays_acts d line s c Hs) in R. rewrite <- R.
  eapply xread_app; try eassumption; try reflexivity; rewrite R; destruct s; try discriminate; destruct (the_last source_of sts); discriminate.
Qed.
