(** The program of ew-gen: C140-C142. *)
From Coq Require Import String List ZArith Reals Bool Lra Lia.
From Verif Require Import Base BaseLemmas RMat H2Model MapModel XformModel SepModel OscModel OscSpec OscProof BlockModel BlockSpec BlockProof BlockFinal
  ObioModel ObioProof ObioFinal ObioMore MixModel MixProof MixFinal ObmModel ObmSpec ObmProof ObmFinal ObmFin2 ObmFin3 ObmFin4 ObmFin5 ObmFin6 NatModel RgModel HmModel HmSpec HmOspec HmProof HmMeans HmOb HmCase
  StmtSpec StmtProof ObxProof EwgModel EwgSpec EwgProof.
Import ListNotations.
Open Scope R_scope.
Open Scope string_scope.
Open Scope list_scope.
Open Scope outcome_scope.

Section Main.
Variable racah : Z -> Z -> Z -> Z -> Z -> Z -> R.
Variable inv_sqrt_4pi : R.
Hypothesis racah_zero : forall j' j j'' Ja Jb J, ~ coupled j (2 * J) j' -> racah j' j j'' Ja Jb J = 0.
Notation generate := (generate racah inv_sqrt_4pi).
Notation ewgen := (ewgen racah inv_sqrt_4pi).
Notation ew_elements_of := (ew_elements_of racah inv_sqrt_4pi).
Notation ew_output := (ew_output racah inv_sqrt_4pi).
Variable d : ewdisk.
(** the files of a target, given the scale factor; targets of weak operators do not need one *)
Definition target_good (sts : list ewstatement) (b : R) (t : ewtarget) : Prop :=
  (exists q f, ew_elements_of (ew_run_space d sts) b (radial_op d sts) (am_op d sts) (charge_op d sts) t q f)
  /\ match t with EmTarget _ _ _ _ => the_last scale_of sts = Some b | WeakTarget _ _ => True end.
Theorem generate_ok : forall r sts b t, ewmeans d r sts -> target_good sts b t ->
  exists F, generate r t = Ok F /\ ew_output (ew_run_space d sts) b (radial_op d sts) (am_op d sts) (charge_op d sts) t (ewfile t, F).
Proof.
  intros r sts b t [M1 M2 M3 M4 M5 _] [(q & f & E) Hb].
  assert (W : forall F, (file_ok F (ew_run_space d sts) q /\ forall I i K k, state (ew_run_space d sts) I i -> state (ew_run_space d sts) K k -> file_entry F I i K k = f I i K k) ->
    ew_output (ew_run_space d sts) b (radial_op d sts) (am_op d sts) (charge_op d sts) t (ewfile t, F)) by (intros F [G1 G2]; split; [destruct t; reflexivity|]; exists q, f; auto).
  revert W. inversion E as [lambda s file x R1 R2|ty s file a Ty A1 A2|lambda s file a x L A1 A2 R1 R2|lambda s file a x L A1 A2 R1 R2|file x R1 R2|file x a R1 R2 A1 A2]; subst; intros W; cbn [EwgModel.generate] in *.
  - rewrite M1, M2, Hb. rewrite <- M3 in R1. destruct (target_E_ok (ew_run_space d sts) b _ lambda s x R1 R2) as (F & E1 & E2 & E3). exists F. split; [exact E1|]. apply W. split; [exact E2|].
    intros I i K k S1 S2. destruct (state_orbital _ _ _ S1) as (y & n & O). rewrite (E3 _ _ _ _ _ _ O S2). destruct O as (ns & -> & _). reflexivity.
  - assert (X : exists F, target_M racah inv_sqrt_4pi (ew_space r) (ew_scale r) (of_kind_r (ew_radial r)) (ew_am r) (match ty with ElDs => false | _ => true end) 1 s = Ok F /\ file_ok F (ew_run_space d sts) (1, 0, 0)%Z
      /\ forall I i K k y n, orbital_at (ew_run_space d sts) I i y n -> state (ew_run_space d sts) K k -> file_entry F I i K k = species_factor s y * (sqrt 3 * inv_sqrt_4pi) * file_entry a I i K k).
    { rewrite M1, M2, Hb. apply target_M1_ok; [|exact A2]. rewrite <- M4 in A1. destruct ty; [contradiction (Ty eq_refl)|exact A1|exact A1]. }
    destruct X as (F & E1 & E2 & E3). exists F. split; [destruct ty; [contradiction (Ty eq_refl)|exact E1|exact E1]|]. apply W. split; [exact E2|].
    intros I i K k S1 S2. destruct (state_orbital _ _ _ S1) as (y & n & O). rewrite (E3 _ _ _ _ _ _ O S2). destruct O as (ns & -> & _). reflexivity.
  - rewrite M1, M2, Hb. rewrite <- M3 in R1. rewrite <- M4 in A1. destruct (target_Ds_ok racah inv_sqrt_4pi (ew_run_space d sts) b _ _ lambda s a x L A1 A2 R1 R2 racah_zero) as (F & E1 & E2 & E3). exists F. split; [exact E1|]. apply W. split; [exact E2|].
    intros I i K k S1 S2. destruct (state_orbital _ _ _ S1) as (y & n & O). rewrite (E3 _ _ _ _ _ _ O S2). destruct O as (ns & -> & _). reflexivity.
  - rewrite M1, M2, Hb. rewrite <- M3 in R1. rewrite <- M4 in A1. destruct (target_Dl_zero racah inv_sqrt_4pi (ew_run_space d sts) b _ _ lambda s a x L A1 A2 R1 R2 racah_zero) as (F & E1 & E2 & E3). exists F. split; [exact E1|]. apply W. split; [exact E2|]. exact E3.
  - rewrite M1. rewrite <- M5 in R1. destruct (target_F_ok racah (ew_run_space d sts) (ew_am r) _ x R1 R2) as (F & E1 & E2 & E3). exists F. split; [exact E1|]. apply W. split; [exact E2|]. intros I i K k _ _. apply E3.
  - rewrite M1. rewrite <- M5 in R1. rewrite <- M4 in A1. destruct (target_GT_ok racah (ew_run_space d sts) _ _ x a R1 R2 A1 A2 racah_zero) as (F & E1 & E2 & E3). exists F. split; [exact E1|]. apply W. split; [exact E2|]. exact E3.
Qed.
Theorem ewgen_ok : forall lines sts b, Forall2 ewsays lines sts -> Forall (readable d) sts -> Forall (target_good sts b) (every wanted sts) ->
  exists out, ewgen d lines = Ok out /\ Forall2 (ew_output (ew_run_space d sts) b (radial_op d sts) (am_op d sts) (charge_op d sts)) (every wanted sts) out.
Proof.
  intros lines sts b S P T. destruct (ewcontrol_ok d lines sts S P) as (r & E & M). unfold EwgModel.ewgen. rewrite E. cbn [bind]. rewrite (em_targets _ _ _ M).
  induction T as [|t ts T _ IH]; [exists []; split; [reflexivity|constructor]|]. destruct IH as (out & E' & O). destruct (generate_ok r sts b t M T) as (F & G1 & G2).
  exists ((ewfile t, F) :: out). split; [cbn [map_blocks]; rewrite G1; cbn [bind]; rewrite E'; reflexivity|constructor; assumption].
Qed.
(** what a target needs is there, on the orbitals of the run *)
Definition ready (sts : list ewstatement) (t : ewtarget) : Prop :=
  forall n, In n (needs t) -> exists f, supplied d sts n = Some f /\ of_bra f = ew_run_space d sts /\ of_ket f = ew_run_space d sts.
Lemma good_source : forall sts g x, Forall (readable d) sts -> (forall t y, g t = Some y -> readable d t -> exists f, good_file d y f) -> source_file d (the_first g sts) = Some x -> of_bra x = of_ket x.
Proof.
  intros sts g x F Hg E. destruct (the_first g sts) as [y|] eqn:Ef; [|discriminate].
  assert (G : exists f, good_file d y f). { induction sts as [|t sts IH]; [discriminate|]. inversion F; subst. cbn in Ef. destruct (g t) eqn:Et; [injection Ef as ->; eauto|auto]. }
  destruct G as (f & G1 & G2). cbn in E. rewrite G1 in E. injection E as <-. exact G2.
Qed.
Lemma power_file : forall n t y, power_of n t = Some y -> readable d t -> exists f, good_file d y f.
Proof. intros n [] y H G; try discriminate; cbn in *; destruct t; try discriminate; destruct (Z.eq_dec power n); [injection H as <-; exact G|discriminate]. Qed.
Lemma momentum_file : forall n t y, momentum_of n t = Some y -> readable d t -> exists f, good_file d y f.
Proof. intros n [] y H G; try discriminate; cbn in *; destruct t; try discriminate; destruct n; try discriminate; injection H as <-; exact G. Qed.
Lemma charge_file : forall n t y, charge_of n t = Some y -> readable d t -> exists f, good_file d y f.
Proof. intros n [] y H G; try discriminate; cbn in *; destruct (Z.eq_dec Tz0 n); [injection H as <-; exact G|discriminate]. Qed.
Lemma supplied_square : forall sts n f, Forall (readable d) sts -> supplied d sts n = Some f -> of_bra f = of_ket f.
Proof.
  intros sts [n|spin|] f F E; cbn in E; [eapply (good_source sts (power_of n))|eapply (good_source sts (momentum_of spin))|eapply (good_source sts (charge_of 1%Z))];
    try exact F; try exact E; [exact (power_file n)|exact (momentum_file spin)|exact (charge_file 1%Z)].
Qed.
Ltac supp := match goal with H : (if lspace_eqb ?a ?b then _ else _) = Ok _ |- _ => destruct (lspace_eqb a b) eqn:?; [|discriminate] end.
Theorem generate_inv : forall r sts t F, ewmeans d r sts -> Forall (readable d) sts -> generate r t = Ok F ->
  ready sts t /\ of_bra F = ew_run_space d sts /\ of_ket F = ew_run_space d sts.
Proof.
  intros r sts t F [M1 M2 M3 M4 M5 _] P H.
  assert (Q : forall n f, supplied d sts n = Some f -> lspace_eqb (of_bra f) (ew_run_space d sts) = true -> exists f, supplied d sts n = Some f /\ of_bra f = ew_run_space d sts /\ of_ket f = ew_run_space d sts).
  { intros n f E G. apply lspace_eqb_true in G. exists f. split; [exact E|]. split; [exact G|]. rewrite <- (supplied_square sts n f P E). exact G. }
  assert (Tm : forall (spin : bool) lambda s, target_M racah inv_sqrt_4pi (ew_space r) (ew_scale r) (of_kind_r (ew_radial r)) (ew_am r) (negb spin) lambda s = Ok F ->
    (forall n, In n (NAm spin :: if Z.eq_dec lambda 1 then [] else [NRadial (lambda - 1)]) -> exists f, supplied d sts n = Some f /\ of_bra f = ew_run_space d sts /\ of_ket f = ew_run_space d sts)
    /\ of_bra F = ew_run_space d sts /\ of_ket F = ew_run_space d sts).
  { intros spin lambda s G. unfold target_M in G. replace (if negb spin then AOrbital else ASpin) with (if spin then ASpin else AOrbital) in G by (destruct spin; reflexivity). rewrite M4 in G.
    destruct (am_op d sts spin) as [a|] eqn:Ea; [|discriminate]. rewrite M1 in G. destruct (lspace_eqb (of_bra a) (ew_run_space d sts)) eqn:Sa; cbn [cassert bind] in G; [|discriminate].
    apply bind_inv in G. destruct G as (m0 & G0 & G). apply bind_inv in G. destruct G as (ms & _ & G). injection G as <-. split; [|cbn; auto]. intros n [<-|Hn]; [exact (Q (NAm spin) a Ea Sa)|].
    destruct (Z.eq_dec lambda 1); [destruct Hn|]. destruct Hn as [<-|[]]. destruct (Z.eqb_spec (lambda - 1) 0); [lia|]. rewrite M3 in G0. destruct (radial_op d sts (lambda - 1)) as [x|] eqn:Ex; [|discriminate].
    destruct (lspace_eqb (of_bra x) (ew_run_space d sts)) eqn:Sx; cbn [cassert bind] in G0; [|discriminate]. exact (Q (NRadial (lambda - 1)) x Ex Sx). }
  unfold ready. destruct t as [[| |] lambda s file|gt file]; cbn [EwgModel.generate needs] in *.
  - unfold target_E in H. rewrite M3 in H. destruct (radial_op d sts lambda) as [x|] eqn:Ex; [|discriminate]. rewrite M1 in H. destruct (lspace_eqb (of_bra x) (ew_run_space d sts)) eqn:Sx; cbn [cassert bind] in H; [|discriminate].
    apply bind_inv in H. destruct H as (ms & _ & H). injection H as <-. split; [|cbn; auto]. intros n [<-|[]]. exact (Q (NRadial lambda) x Ex Sx).
  - exact (Tm false lambda s H).
  - exact (Tm true lambda s H).
  - unfold target_weak in H. rewrite M5, M1 in H. destruct (charge_op d sts 1) as [x|] eqn:Ex; [|discriminate]. destruct (lspace_eqb (of_bra x) (ew_run_space d sts)) eqn:Sx; cbn [cassert bind] in H; [|discriminate].
    destruct gt.
    + rewrite (M4 true) in H. destruct (am_op d sts true) as [a|] eqn:Ea; [|discriminate]. destruct (lspace_eqb (of_bra a) (ew_run_space d sts)) eqn:Sa; cbn [cassert bind] in H; [|discriminate].
      apply bind_inv in H. destruct H as (ms & _ & H). injection H as <-. split; [|cbn; auto]. intros n [<-|[<-|[]]]; [exact (Q NCharge x Ex Sx)|exact (Q (NAm true) a Ea Sa)].
    + injection H as <-. split; [|cbn; auto]. intros n [<-|[]]. exact (Q NCharge x Ex Sx).
Qed.
Theorem ewgen_inv : forall lines out, ewgen d lines = Ok out -> exists sts, Forall2 ewsays lines sts /\ Forall (readable d) sts
  /\ map fst out = map name_of (every wanted sts) /\ Forall (ready sts) (every wanted sts)
  /\ Forall (fun o => of_bra (snd o) = ew_run_space d sts /\ of_ket (snd o) = ew_run_space d sts) out.
Proof.
  intros lines out H. unfold EwgModel.ewgen in H. apply bind_inv in H. destruct H as (r & E & H). destruct (ewcontrol_inv d lines r E) as (sts & S & P & M). exists sts. split; [exact S|]. split; [exact P|].
  rewrite (em_targets _ _ _ M) in H. revert out H. induction (every wanted sts) as [|t ts IH]; intros out H; [injection H as <-; auto|]. cbn [map_blocks] in H. apply bind_inv in H. destruct H as (y & Hy & H). apply bind_inv in H. destruct H as (out' & H & H'). injection H' as <-.
  apply bind_inv in Hy. destruct Hy as (F & HF & Hy). injection Hy as <-. destruct (generate_inv r sts t F M P HF) as [R1 R2]. destruct (IH out' H) as (I1 & I2 & I3). cbn [map fst]. rewrite I1. split; [destruct t; reflexivity|]. auto.
Qed.
(** ** failures *)
Definition lacks (sts : list ewstatement) (t : ewtarget) : Prop := exists n, In n (needs t) /\ supplied d sts n = None.
Lemma generate_lacks : forall r sts t, ewmeans d r sts -> lacks sts t -> generate r t = Exit \/ generate r t = AssertFail.
Proof.
  intros r sts t [M1 M2 M3 M4 M5 _] (n & Hn & E).
  assert (Tm : forall (spin : bool) lambda s, In n (NAm spin :: if Z.eq_dec lambda 1 then [] else [NRadial (lambda - 1)]) ->
    target_M racah inv_sqrt_4pi (ew_space r) (ew_scale r) (of_kind_r (ew_radial r)) (ew_am r) (negb spin) lambda s = Exit
    \/ target_M racah inv_sqrt_4pi (ew_space r) (ew_scale r) (of_kind_r (ew_radial r)) (ew_am r) (negb spin) lambda s = AssertFail).
  { intros spin lambda s Hin. unfold target_M. replace (if negb spin then AOrbital else ASpin) with (if spin then ASpin else AOrbital) by (destruct spin; reflexivity). rewrite M4.
    destruct Hin as [<-|Hin]; [cbn in E; rewrite E; auto|]. destruct (am_op d sts spin) as [a|]; [|auto]. destruct (lspace_eqb (of_bra a) (ew_space r)); cbn [cassert bind]; [|auto].
    destruct (Z.eq_dec lambda 1); [destruct Hin|]. destruct Hin as [<-|[]]. destruct (Z.eqb_spec (lambda - 1) 0); [lia|]. rewrite M3. cbn in E. rewrite E. auto. }
  destruct t as [[| |] lambda s file|gt file]; cbn [EwgModel.generate needs] in *.
  - destruct Hn as [<-|[]]. cbn in E. unfold target_E. rewrite M3, E. auto.
  - exact (Tm false lambda s Hn).
  - exact (Tm true lambda s Hn).
  - unfold target_weak. rewrite M5. destruct Hn as [<-|Hn]; [cbn in E; rewrite E; auto|]. destruct (charge_op d sts 1); [|auto]. destruct (lspace_eqb (of_bra o) (ew_space r)); cbn [cassert bind]; [|auto]. destruct gt; [|destruct Hn]. destruct Hn as [<-|[]].
    rewrite (M4 true). cbn in E. rewrite E. auto.
Qed.
(** an operator on other orbitals *)
Definition elsewhere (sts : list ewstatement) (t : ewtarget) : Prop :=
  (forall n, In n (needs t) -> supplied d sts n <> None) /\ exists n f, hd_error (needs t) = Some n /\ supplied d sts n = Some f /\ of_bra f <> ew_run_space d sts.
Lemma generate_elsewhere : forall r sts t, ewmeans d r sts -> elsewhere sts t -> generate r t = AssertFail.
Proof.
  intros r sts t [M1 M2 M3 M4 M5 _] (_ & n & f & Hn & E & Hf). assert (L := lspace_eqb_ne _ _ Hf). rewrite <- M1 in L.
  destruct t as [[| |] lambda s file|gt file]; cbn [EwgModel.generate needs hd_error] in *; injection Hn as <-; cbn in E.
  - unfold target_E. rewrite M3, E, L. reflexivity.
  - unfold target_M. cbn iota. rewrite (M4 false), E, L. reflexivity.
  - unfold target_M. cbn iota. rewrite (M4 true), E, L. reflexivity.
  - unfold target_weak. rewrite M5, E, L. reflexivity.
Qed.
Lemma fails_at : forall r pre t post o, (forall x, In x pre -> exists F, generate r x = Ok F) -> generate r t = o -> (forall F, o <> Ok F) ->
  map_blocks (fun t => f <- generate r t ;; Ok (ewfile t, f)) (pre ++ t :: post) = match o with Exit => Exit | AssertFail => AssertFail | _ => UB end.
Proof.
  intros r pre t post o H G N. induction pre as [|x pre IH]; cbn [app map_blocks].
  - rewrite G. destruct o; [contradiction (N a eq_refl)|reflexivity..].
  - destruct (H x (or_introl eq_refl)) as [F E]. rewrite E. cbn [bind]. rewrite IH by (intros y Hy; apply H; right; exact Hy). destruct o; reflexivity.
Qed.
Theorem ewgen_lacks : forall lines sts b pre t post, Forall2 ewsays lines sts -> Forall (readable d) sts -> every wanted sts = pre ++ t :: post -> Forall (target_good sts b) pre ->
  lacks sts t -> ewgen d lines = Exit \/ ewgen d lines = AssertFail.
Proof.
  intros lines sts b pre t post S P E G L. destruct (ewcontrol_ok d lines sts S P) as (r & Er & M). unfold EwgModel.ewgen. rewrite Er. cbn [bind]. rewrite (em_targets _ _ _ M), E.
  assert (H : forall x, In x pre -> exists F, generate r x = Ok F) by (intros x Hx; rewrite Forall_forall in G; destruct (generate_ok r sts b x M (G x Hx)) as (F & HF & _); eauto).
  destruct (generate_lacks r sts t M L) as [X|X]; [left|right]; rewrite (fails_at r pre t post _ H X); try reflexivity; discriminate.
Qed.
Theorem ewgen_elsewhere : forall lines sts b pre t post, Forall2 ewsays lines sts -> Forall (readable d) sts -> every wanted sts = pre ++ t :: post -> Forall (target_good sts b) pre ->
  elsewhere sts t -> ewgen d lines = AssertFail.
Proof.
  intros lines sts b pre t post S P E G L. destruct (ewcontrol_ok d lines sts S P) as (r & Er & M). unfold EwgModel.ewgen. rewrite Er. cbn [bind]. rewrite (em_targets _ _ _ M), E.
  assert (H : forall x, In x pre -> exists F, generate r x = Ok F) by (intros x Hx; rewrite Forall_forall in G; destruct (generate_ok r sts b x M (G x Hx)) as (F & HF & _); eauto).
  rewrite (fails_at r pre t post _ H (generate_elsewhere r sts t M L)); [reflexivity|discriminate].
Qed.
(** without a scale factor an electric target is undefined, if it has an element at all *)
Theorem ewgen_unset : forall lines sts pre lambda s file post x, Forall2 ewsays lines sts -> Forall (readable d) sts -> the_last scale_of sts = None ->
  every wanted sts = pre ++ EmTarget ElE lambda s file :: post -> Forall (target_good sts 0) pre ->
  radial_op d sts lambda = Some x -> file_ok x (ew_run_space d sts) (lambda, Z.rem lambda 2, 0)%Z -> of_sectors x <> [] -> ewgen d lines = UB.
Proof.
  intros lines sts pre lambda s file post x S P N E G R1 R2 R3. destruct (ewcontrol_ok d lines sts S P) as (r & Er & M). unfold EwgModel.ewgen. rewrite Er. cbn [bind]. rewrite (em_targets _ _ _ M), E.
  assert (H : forall x, In x pre -> exists F, generate r x = Ok F) by (intros y Hy; rewrite Forall_forall in G; destruct (generate_ok r sts 0 y M (G y Hy)) as (F & HF & _); eauto).
  assert (X : generate r (EmTarget ElE lambda s file) = UB). { cbn. rewrite (em_space _ _ _ M), (em_scale _ _ _ M), N. eapply target_E_unset; [rewrite (em_radial _ _ _ M); exact R1|exact R2|exact R3]. }
  rewrite (fails_at r pre _ post _ H X); [reflexivity|discriminate].
Qed.
End Main.
