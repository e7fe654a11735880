(** Lemmas for C137 and C138: operators and targets of obmixer. *)
From Coq Require Import String List ZArith Reals Bool Lra Lia.
From Verif Require Import Base BaseLemmas RMat H2Model MapModel XformModel SepModel OscModel OscSpec OscProof BlockModel BlockSpec BlockProof BlockFinal
  ObioModel ObioProof ObioFinal ObioMore MixModel MixProof MixFinal ObmModel ObmSpec ObmProof ObmFinal ObmFin2 ObmFin3 ObmFin4 ObmFin5 ObmFin6 NatModel RgModel HmModel HmSpec HmOspec HmProof HmMeans HmOb HmFinal
  StmtSpec StmtProof ObxModel ObxSpec ObxProof.
Import ListNotations.
Open Scope R_scope.
Open Scope string_scope.
Open Scope list_scope.
Open Scope outcome_scope.

Section Main.
Variable d : disk.
Variable spline : spline_me.
Variable crme : Z -> Z -> Z -> Z -> Z -> R.
Variable am_rme : am_type -> Z -> Z -> Z -> Z -> R.
Variable inv_sqrt_4pi : R.
Variable racah : Z -> Z -> Z -> Z -> Z -> Z -> R.
Notation xconstruct := (xconstruct d spline crme am_rme inv_sqrt_4pi racah).
Notation xconstruct_all := (xconstruct_all d spline crme am_rme inv_sqrt_4pi racah).
Notation made := (made spline crme am_rme inv_sqrt_4pi).
Notation xdefines := (xdefines d spline crme am_rme inv_sqrt_4pi racah).
Notation xstage := (xstage d spline crme am_rme inv_sqrt_4pi racah).
Notation generated_channel := (generated_channel spline crme am_rme inv_sqrt_4pi).
Notation obmixer := (obmixer d spline crme am_rme inv_sqrt_4pi racah).

Lemma kinematic_in : forall id A (x y : A), (if in_dec string_dec id ["identity"; "r"; "ik"; "r.r"; "ik.ik"] then x else y) = match assoc kinematic id with Some _ => x | None => y end.
Proof.
  intros id A x y. destruct (in_dec string_dec id ["identity"; "r"; "ik"; "r.r"; "ik.ik"]) as [H|H].
  - cbn [In] in H. repeat (destruct H as [<-|H]; [reflexivity|]). destruct H.
  - unfold kinematic. cbn [assoc]. repeat (match goal with |- context [String.eqb id ?n] => destruct (String.eqb_spec id n); [exfalso; apply H; subst; cbn; tauto|] end). reflexivity.
Qed.
(** a generated channel, on the space of its file or of the run *)
Theorem made_ok : forall rp space id t order q g ops, assoc ops id = None -> made rp (channel_space rp space) id t order q g ->
  exists s m, generated_channel rp id t order q space ops = Ok ((id, data_of (channel_space rp space) q s m) :: ops) /\ tensor_op (channel_space rp space) q s m /\ elements (channel_space rp space) q s m g.
Proof.
  intros rp space id t order q g ops Hno M. set (sp := channel_space rp space) in *.
  destruct M as [t order R | id t order J0 g0 Tz0 rad Hid Hrad | id t Hid R | id t Hid R | id order Tz0 Hid R | id up order J0 g0 Tz0 Hid R Hb].
  - assert (R' := R). destruct R' as (R1 & R2 & R3 & R4). destruct (generated_identity spline crme am_rme inv_sqrt_4pi (Run (rn_basis rp) (rn_length rp) sp) t order (0, 0, 0)%Z ops Hno) as (s & m & E & T & V).
    exists s, m. split; [refine (eq_trans _ E); unfold sp; destruct space as [sp0|]; [apply generated_space|destruct rp; reflexivity]|]. split; [exact T|]. cbn [rn_space] in *. intros I i K k a n b n' O1 O2. split; intros A.
    + rewrite (V _ _ _ _ _ _ _ _ O1 O2 A). destruct (scalar_index sp I i K k a n b n' R O1 O2 A) as [-> ->]. unfold diagonal. rewrite (same_n sp K i k b n n' R3 O1 O2). reflexivity.
    + destruct O1 as (ns & O1 & _). destruct O2 as (ns' & O2 & _). apply entry_absent. rewrite (proj2 T), (sectors_allowed sp _ I K _ _ O1 O2). exact A.
  - destruct (generated_solid spline crme am_rme inv_sqrt_4pi (Run (rn_basis rp) (rn_length rp) sp) id t order J0 g0 Tz0 ops rad Hid Hno Hrad) as (s & m & E & T & V). cbn [rn_space rn_length] in *.
    exists s, m. split; [refine (eq_trans _ E); unfold sp; destruct space as [sp0|]; [apply generated_space|destruct rp; reflexivity]|]. split; [exact T|].
    intros I i K k a n b n' O1 O2. destruct (V I i K k a n b n' O1 O2) as [V1 V2]. split; [|exact V2]. intros A. rewrite (V1 A). unfold solid_factor. rewrite kinematic_in. reflexivity.
  - destruct R as (R1 & R2 & R3 & R4). exact (generated_am spline crme am_rme inv_sqrt_4pi rp id t space ops Hid Hno R4 R3).
  - assert (R' := R). destruct R' as (R1 & R2 & R3 & R4). destruct (generated_square spline crme am_rme inv_sqrt_4pi rp id t space ops Hid Hno R1 R2) as (s & m & E & T & V). exists s, m. split; [exact E|]. split; [exact T|].
    fold sp in V, T. intros I0 i K k a n b n' O1 O2. destruct (orbital_sub _ _ _ _ _ O2) as [S1 S2]. rewrite (V I0 i K k a n O1 (conj S1 S2)). split; intros A.
    + destruct (scalar_index sp I0 i K k a n b n' R O1 O2 A) as [-> ->]. rewrite Nat.eqb_refl. unfold diagonal. rewrite (same_n sp K i k b n n' R3 O1 O2). reflexivity.
    + destruct (Nat.eqb_spec I0 K) as [->|]; [|reflexivity]. exfalso. apply A. destruct O1 as (ns & O1 & _). destruct O2 as (ns' & O2 & _). rewrite O1 in O2. injection O2 as <- <-.
      apply scalar_self. exact (space_spin_half _ _ _ _ R1 O1).
  - destruct R as (R1 & R2 & R3 & R4). destruct (generated_isospin spline crme am_rme inv_sqrt_4pi rp id order Tz0 space ops Hid Hno R4 R3) as (s & m & E & T & V). exists s, m. auto.
  - destruct (generated_ladder spline crme am_rme inv_sqrt_4pi rp id up order J0 g0 Tz0 space ops Hid Hno R Hb) as (s & m & E & T & V). exists s, m. auto.
Qed.
(** each channel adds one operator *)
Theorem xconstruct_new : forall rp xs s ops r, xconstruct rp xs s ops = Ok r -> exists od, r = (source_id s, od) :: ops /\ assoc ops (source_id s) = None.
Proof.
  intros rp xs s ops r H. destruct s; cbn [ObxModel.xconstruct source_id] in *.
  - destruct (assoc ops id) eqn:E; [discriminate|]. apply bind_inv in H. destruct H as (f & _ & H). unfold input_channel in H. rewrite E in H. apply bind_inv in H. destruct H as (_ & _ & H). apply bind_inv in H. destruct H as (_ & _ & H).
    unfold add_new in H. rewrite E in H. injection H as <-. eauto.
  - destruct (assoc ops id) eqn:E; [discriminate|]. apply bind_inv in H. destruct H as (sp & _ & H). unfold ObmModel.generated_channel in H. rewrite E in H. apply bind_inv in H. destruct H as (ms & _ & H).
    unfold add_new in H. rewrite E in H. injection H as <-. eauto.
  - unfold linear_channel in H. destruct (assoc ops id) eqn:E; [discriminate|]. apply bind_inv in H. destruct H as ([fl od] & _ & H). unfold add_new in H. rewrite E in H. injection H as <-. eauto.
  - exact (construct_new d spline crme am_rme inv_sqrt_4pi racah [] [] (OTensor id a b J0 scale) ops r H).
  - exact (construct_new d spline crme am_rme inv_sqrt_4pi racah [] xs (OXform id src xf) ops r H).
Qed.
Lemma xconstruct_snoc : forall rp xs ss s, xconstruct_all rp xs (ss ++ [s]) = bind (xconstruct_all rp xs ss) (xconstruct rp xs s).
Proof. intros. unfold ObxModel.xconstruct_all. rewrite for_each_app. match goal with |- context [bind ?x _] => destruct x end; [|reflexivity..]. cbn [bind for_each]. destruct (xconstruct rp xs s a); reflexivity. Qed.
Theorem xnames_once : forall rp xs ss ops, xconstruct_all rp xs ss = Ok ops -> map fst ops = rev (map source_id ss) /\ NoDup (map source_id ss).
Proof.
  intros rp xs ss. induction ss as [|s ss IH] using rev_ind; intros ops H; [injection H as <-; split; [reflexivity|constructor]|].
  rewrite xconstruct_snoc in H. apply bind_inv in H. destruct H as (ops0 & E & H). destruct (IH _ E) as [IH1 IH2]. destruct (xconstruct_new _ _ _ _ _ H) as (od & -> & Hno).
  rewrite map_app, rev_app_distr. cbn [map rev app fst]. rewrite IH1. split; [reflexivity|]. apply nodup_snoc; [exact IH2|].
  apply assoc_none_in in Hno. rewrite IH1 in Hno. intros Hin. apply Hno. rewrite <- in_rev. exact Hin.
Qed.
Hypothesis racah_zero : forall j' j j'' Ja Jb J, ~ coupled j (2 * J) j' -> racah j' j j'' Ja Jb J = 0.
Theorem xconstruct_ok : forall rp l xs env ops s sp q f, (forall id, assoc l id = xs id) -> (forall id sp q f, assoc env id = Some (sp, q, f) -> holds ops id sp q f) -> assoc ops (source_id s) = None ->
  xdefines rp xs env s (sp, q, f) -> exists r, xconstruct rp l s ops = Ok r /\ holds r (source_id s) sp q f.
Proof.
  intros rp l xs env ops s sp q f Hl Henv Hno D.
  inversion D as [id file q0 f0 sp0 G1 G2 | id t order q0 file sp0 f0 g G1 G2 G3 | id terms sp0 q0 f0 G1 G2 | id a b J0 scale sp0 Ja ga Ta fa Jb gb Tb fb G1 G2 G3 | id src xf sp0 q0 fo x f0 G1 G2 G3 G4 G5 G6 G7 G8 G9 G10]; subst; cbn [source_id ObxModel.xconstruct] in *.
  - destruct G2 as (F1 & F2 & F3 & F4). rewrite Hno, G1. cbn [open_file bind]. rewrite (input_ok id f0 q ops Hno (eq_trans F1 (eq_sym F2)) (eq_sym F3)).
    eexists. split; [reflexivity|]. rewrite F1, F3. apply holds_new; [exact F4|reflexivity].
  - rewrite Hno.
    assert (S : exists space, (if String.eqb file "" then Ok None else sp <- read_space d file ;; Ok (Some sp)) = Ok space /\ channel_space rp space = sp).
    { destruct G1 as [[-> ->]|(Hf & os & Ho & ->)]; [exists None; split; reflexivity|]. apply String.eqb_neq in Hf. rewrite Hf. unfold read_space. rewrite Ho. eexists. split; [reflexivity|reflexivity]. }
    destruct S as (space & S & <-). rewrite S. cbn [bind]. destruct (made_ok rp space id t order q g ops Hno G2) as (s & m & E & T & V). rewrite E. eexists. split; [reflexivity|].
    eapply described_holds; [cbn; rewrite String.eqb_refl; reflexivity|exact T|exact V|exact G3].
  - destruct (linear_ok ops id sp q terms f0 Hno G1 (fun ic Hic => Henv _ _ _ _ (G2 ic Hic))) as (s & m & E & T & V). rewrite E. eexists. split; [reflexivity|]. apply holds_new; assumption.
  - assert (X := construct_ok d spline crme am_rme inv_sqrt_4pi racah racah_zero [] l xs env ops (OTensor id a b J0 scale) _ _ _ Hl Henv Hno (def_tensor d crme am_rme racah [] xs env id a b J0 scale sp Ja ga Ta fa Jb gb Tb fb G1 G2 G3)). exact X.
  - assert (X := construct_ok d spline crme am_rme inv_sqrt_4pi racah racah_zero [] l xs env ops (OXform id src xf) _ _ _ Hl Henv Hno (def_xform d crme am_rme racah [] xs env id src xf _ q fo x f G1 G2 eq_refl G4 G5 G6 G7 G8 G9 G10)). exact X.
Qed.
Theorem xstage_ok : forall rp l xs ss env, (forall id, assoc l id = xs id) -> xstage rp xs ss env -> exists ops, xconstruct_all rp l ss = Ok ops /\ map fst ops = map fst env
  /\ forall id sp q f, assoc env id = Some (sp, q, f) -> holds ops id sp q f.
Proof.
  intros rp l xs ss env Hl H. induction H as [|ss env s [[sp q] f] H IH Hno D]; [exists []; split; [reflexivity|]; split; [reflexivity|discriminate]|].
  destruct IH as (ops & E & N & Henv).
  assert (Hno' : assoc ops (source_id s) = None).
  { destruct (assoc ops (source_id s)) eqn:Eo; [|reflexivity]. exfalso. apply assoc_none_in in Hno. apply Hno. rewrite <- N. clear - Eo. induction ops as [|[x a] ops IH]; [discriminate|]. cbn in *.
    destruct (String.eqb_spec (source_id s) x); [auto|right; auto]. }
  destruct (xconstruct_ok rp l xs env ops s sp q f Hl Henv Hno' D) as (r & Er & Hr). destruct (xconstruct_new _ _ _ _ _ Er) as (od & -> & _).
  exists ((source_id s, od) :: ops). rewrite xconstruct_snoc, E. cbn [bind]. split; [exact Er|]. split; [cbn; rewrite N; reflexivity|].
  intros id sp0 q0 f0 Ha. cbn [assoc] in Ha. destruct (String.eqb_spec id (source_id s)) as [->|].
  - injection Ha as <- <- <-. exact Hr.
  - apply holds_cons; [exact Hno'|apply Henv; exact Ha].
Qed.
Theorem xxforms_ok : forall c sts, xmeans d c sts -> xforms_good d sts -> exists xs, xread_xforms d c = Ok xs /\ forall id, assoc xs id = xform_file d sts id.
Proof.
  intros c sts M X. unfold xread_xforms. assert (MX := xm_xforms _ _ _ M). assert (M8 := xm_once _ _ _ M).
  destruct (map_blocks_ok _ _ (fun p => bind (open_file (d_ob d (snd p))) (fun f => bind (read_xform f) (fun f' => Ok (fst p, f')))) (xc_xforms c)) as (xs & E & _).
  { intros [id file] Hin. assert (A : assoc (xc_xforms c) id = Some file).
    { clear - Hin M8. induction (xc_xforms c) as [|[x y] l IH]; [destruct Hin|]. cbn in *. inversion M8; subst. destruct Hin as [H|H]; [injection H as -> ->; rewrite String.eqb_refl; reflexivity|].
      destruct (String.eqb_spec id x) as [->|]; [exfalso; apply H1; apply in_map_iff; exists (x, file); auto|auto]. }
    rewrite MX in A. destruct (X id file A) as (f & Ef & Eq). exists (id, f). cbn [snd fst]. rewrite Ef. cbn [open_file bind]. unfold read_xform. rewrite Eq. reflexivity. }
  exists xs. split; [exact E|]. intros id. assert (A := assoc_map_blocks _ _ _ E). specialize (A ltac:(intros p r H; apply bind_inv in H; destruct H as (f & _ & H); apply bind_inv in H; destruct H as (f' & _ & H); injection H as <-; reflexivity) id).
  unfold xform_file. rewrite <- MX. destruct (assoc (xc_xforms c) id) as [file|] eqn:Ex; [|exact A]. destruct A as (f & A1 & A2). rewrite A2. cbn [fst snd] in A1. apply bind_inv in A1. destruct A1 as (f0 & A1 & A3).
  apply bind_inv in A3. destruct A3 as (f1 & A3 & A4). injection A4 as ->. unfold read_xform in A3. destruct (q_eqb (of_q f0) _); [|discriminate]. cbn in A3. injection A3 as ->. unfold open_file in A1. destruct (d_ob d file); congruence.
Qed.
Theorem xxforms_inv : forall c sts xs, xmeans d c sts -> xread_xforms d c = Ok xs -> xforms_good d sts /\ forall id, assoc xs id = xform_file d sts id.
Proof.
  intros c sts xs M H. assert (F : xforms_good d sts).
  { intros id file E. rewrite <- (xm_xforms _ _ _ M) in E. unfold xread_xforms in H.
    assert (A := assoc_map_blocks _ _ _ H). specialize (A ltac:(intros p r G; apply bind_inv in G; destruct G as (f & _ & G); apply bind_inv in G; destruct G as (f' & _ & G); injection G as <-; reflexivity) id).
    rewrite E in A. destruct A as (f & A1 & _). cbn [fst snd] in A1. apply bind_inv in A1. destruct A1 as (f0 & A1 & A2). apply bind_inv in A2. destruct A2 as (f1 & A2 & A3). injection A3 as ->.
    unfold read_xform in A2. destruct (q_eqb (of_q f0) _) eqn:Eq; [|discriminate]. cbn in A2. injection A2 as ->. exists f. split; [unfold open_file in A1; destruct (d_ob d file); congruence|].
    unfold q_eqb in Eq. destruct (of_q f) as [[x y] z]. rewrite !andb_true_iff, !Z.eqb_eq in Eq. destruct Eq as [[-> ->] ->]. reflexivity. }
  split; [exact F|]. destruct (xxforms_ok c sts M F) as (xs' & E & A). congruence.
Qed.
(** the files written *)
Theorem target_written : forall rp ops env id, (forall id sp q f, assoc env id = Some (sp, q, f) -> holds ops id sp q f) -> orbital_space (rn_space rp) -> target_fine env id ->
  exists F v, write_channel spline rp id ops = Ok F /\ assoc env id = Some v /\ written (rn_space rp) v F.
Proof.
  intros rp ops env id Henv Hsp (sp & q & f & E & R1 & R2 & R3). destruct (Henv _ _ _ _ E) as (s & m & Eo & T & V).
  destruct (ObmFin2.write_ok spline rp id ops sp q s m Eo T R1 R2 R3 Hsp) as (s' & m' & W & T' & W1 & W2). exists (ObFile (rn_space rp) (rn_space rp) q s' m'), (sp, q, f).
  split; [exact W|]. split; [exact E|]. split; [split; [reflexivity|]; split; [reflexivity|]; split; [reflexivity|exact T']|]. split.
  - intros I i K k A a B b S1 S2. unfold file_entry. cbn [of_sectors of_blocks]. rewrite (W1 _ _ _ _ _ _ _ _ S1 S2).
    assert (X : forall I0 i0 A0 a0, same_orbital (rn_space rp) I0 i0 sp A0 a0 -> state sp A0 a0).
    { intros I0 i0 A0 a0 (x & y & n & _ & E2 & _ & _ & E4). split; [apply nth_error_Some; congruence|]. unfold sub_dim. rewrite E2. destruct y as [y1 y2]. apply nth_error_Some. cbn in E4. congruence. }
    apply V; eapply X; eassumption.
  - exact W2.
Qed.
Lemma outputs_ok : forall rp ops env ts, (forall id sp q f, assoc env id = Some (sp, q, f) -> holds ops id sp q f) -> orbital_space (rn_space rp) ->
  (forall t, In t ts -> target_fine env (fst t)) ->
  exists out, map_blocks (fun t : string * string => bind (write_channel spline rp (fst t) ops) (fun f => Ok (snd t, f))) ts = Ok out /\ Forall2 (output_of (rn_space rp) env) ts out.
Proof.
  intros rp ops env ts Henv Hsp. induction ts as [|t ts IH]; intros H; [exists []; split; [reflexivity|constructor]|].
  destruct IH as (out & E & F); [intros t' Ht; apply H; right; exact Ht|]. destruct (target_written rp ops env (fst t) Henv Hsp (H t (or_introl eq_refl))) as (f & v & W & A & Wr).
  exists ((snd t, f) :: out). split; [cbn [map_blocks]; rewrite W; cbn [bind]; rewrite E; reflexivity|]. constructor; [|exact F]. split; [reflexivity|]. exists v. auto.
Qed.
Theorem obmixer_ok : forall lines sts env, Forall2 xsays lines sts -> well_placed d sts -> xforms_good d sts ->
  xstage (run_of d sts) (xform_file d sts) (sources_of sts) env -> orbital_space (run_space d sts) ->
  (forall t, In t (every ObxSpec.target_in sts) -> target_fine env (fst t)) ->
  exists out, obmixer lines = Ok out /\ Forall2 (output_of (run_space d sts) env) (every ObxSpec.target_in sts) out.
Proof.
  intros lines sts env S P X SG Hsp HT. destruct (xcontrol_ok d lines sts S P) as (c & E & M). unfold ObxModel.obmixer. rewrite E. cbn [bind].
  destruct (xxforms_ok c sts M X) as (xs & Ex & Ax). rewrite Ex. cbn [bind]. rewrite (xm_run _ _ _ M), (xm_sources _ _ _ M), (xm_targets _ _ _ M).
  destruct (xstage_ok _ xs _ _ env Ax SG) as (ops & Eo & _ & Henv). rewrite Eo. cbn [bind].
  exact (outputs_ok (run_of d sts) ops env _ Henv Hsp HT).
Qed.
(** nothing else succeeds *)
Theorem obmixer_inv : forall lines out, obmixer lines = Ok out -> exists sts, Forall2 xsays lines sts /\ well_placed d sts /\ xforms_good d sts
  /\ NoDup (map source_id (sources_of sts)) /\ map fst out = map snd (every ObxSpec.target_in sts)
  /\ (forall t, In t (every ObxSpec.target_in sts) -> In (fst t) (map source_id (sources_of sts)))
  /\ (forall o, In o out -> of_bra (snd o) = run_space d sts /\ of_ket (snd o) = run_space d sts).
Proof.
  intros lines out H. unfold ObxModel.obmixer in H. apply bind_inv in H. destruct H as (c & E & H). apply bind_inv in H. destruct H as (xs & Ex & H). apply bind_inv in H. destruct H as (ops & Eo & H).
  destruct (xcontrol_inv d lines c E) as (sts & S & P & M). exists sts. split; [exact S|]. split; [exact P|]. split; [exact (proj1 (xxforms_inv c sts xs M Ex))|].
  destruct (xnames_once _ _ _ _ Eo) as [N1 N2]. rewrite (xm_sources _ _ _ M) in N1, N2. split; [exact N2|].
  rewrite (xm_targets _ _ _ M), (xm_run _ _ _ M) in H. clear - H N1.
  assert (W : forall id F, write_channel spline (run_of d sts) id ops = Ok F -> In id (map source_id (sources_of sts)) /\ of_bra F = run_space d sts /\ of_ket F = run_space d sts).
  { intros id F W. unfold write_channel in W. destruct (assoc ops id) as [o|] eqn:Ea; [|discriminate]. split.
    - apply in_rev. rewrite <- N1. clear - Ea. induction ops as [|[x a] l IH]; [discriminate|]. cbn in *. destruct (String.eqb_spec id x); [auto|right; auto].
    - apply bind_inv in W. destruct W as (q & _ & W). destruct (lspace_eqb (od_space o) (rn_space (run_of d sts))) eqn:El.
      + injection W as <-. apply lspace_eqb_true in El. cbn in *. auto.
      + apply bind_inv in W. destruct W as (xm & _ & W). apply bind_inv in W. destruct W as (mx & _ & W). apply bind_inv in W. destruct W as (ms & _ & W). injection W as <-. auto. }
  revert out H. induction (every ObxSpec.target_in sts) as [|t ts IH]; intros out H; cbn [map_blocks] in H.
  - injection H as <-. split; [reflexivity|]. split; intros ? [].
  - apply bind_inv in H. destruct H as (y & Hy & H). apply bind_inv in Hy. destruct Hy as (F & HF & Hy). injection Hy as <-. apply bind_inv in H. destruct H as (out' & Ho & H). injection H as <-.
    destruct (IH out' Ho) as (A & B & C). destruct (W _ _ HF) as (W1 & W2). cbn [map fst snd]. rewrite A. split; [reflexivity|]. split; [intros t' [<-|Ht]; auto|intros o [<-|Hin]; auto].
Qed.
End Main.
