(** Defects and cases for C139-C142. *)
From Coq Require Import String List ZArith Reals Bool Lra Lia.
From Verif Require Import Base BaseLemmas RMat H2Model MapModel XformModel SepModel OscModel OscSpec OscProof BlockModel BlockSpec BlockProof BlockFinal
  ObioModel ObioProof ObioFinal ObioMore MixModel MixProof MixFinal ObmModel ObmSpec ObmProof ObmFinal ObmFin2 ObmFin3 ObmFin4 ObmFin5 ObmFin6 NatModel RgModel HmModel HmSpec HmOspec HmProof HmMeans HmOb HmCase
  StmtSpec StmtProof ObxProof EwgModel EwgSpec EwgProof EwgMain.
Import ListNotations.
Open Scope R_scope.
Open Scope string_scope.
Open Scope list_scope.
Open Scope outcome_scope.

Theorem ewdocumented_ok : forall ws, ewdocumented ws -> exists s, ewsays ws s /\ s <> Comment.
Proof.
  intros ws D. destruct D as [k f H|k a x H H0|k t a f n H H0 H1|k t f H H0|k t f H H0|k t a s f n H H0 H1 H2|k t f H H0].
  - eexists; split; [eapply ew_indexing; eassumption|discriminate].
  - eexists; split; [eapply ew_factor; eassumption|discriminate].
  - assert (X : exists ty, In (w_text t, ty) [("r", TR); ("k", TK); ("ik", TK); ("o", TOther); ("g", TOther)]) by (destruct H0 as [<-|[<-|[]]]; eexists; cbn; tauto).
    destruct X. eexists; split; [eapply ew_radial_source; eassumption|discriminate].
  - assert (X : exists ty, In (w_text t, ty) [("l", AOrbital); ("s", ASpin)]) by (destruct H0 as [<-|[<-|[]]]; eexists; cbn; tauto). destruct X. eexists; split; [eapply ew_am_source; eassumption|discriminate].
  - assert (X : exists ty, In (w_text t, ty) [("tz", 0%Z); ("t+", 1%Z); ("t-", (-1)%Z)]) by (destruct H0 as [<-|[<-|[<-|[]]]]; eexists; cbn; tauto). destruct X. eexists; split; [eapply ew_isospin_source; eassumption|discriminate].
  - assert (X : exists ty, In (w_text t, ty) [("E", ElE); ("Dl", ElDl); ("Ds", ElDs)]) by (destruct H0 as [<-|[<-|[<-|[]]]]; eexists; cbn; tauto).
    assert (Y : exists sp, In (w_text s, sp) [("p", Some SP); ("n", Some SN); ("total", None)]) by (destruct H2 as [<-|[<-|[<-|[]]]]; eexists; cbn; tauto).
    destruct X, Y. eexists; split; [eapply ew_em_target; eassumption|discriminate].
  - assert (X : exists ty, In (w_text t, ty) [("F", false); ("GT", true)]) by (destruct H0 as [<-|[<-|[]]]; eexists; cbn; tauto). destruct X. eexists; split; [eapply ew_weak_target; eassumption|discriminate].
Qed.
(** a comment needs a blank after its hash *)
Theorem ew_hash_refuted : exists a b, ewsays [tx "#"; tx a] Comment /\ (forall d r, ew_line d r [tx b] = Exit) /\ b = String.append "#" a.
Proof. exists "note", "#note". split; [eapply ew_comment; left; reflexivity|]. split; [intros d []; reflexivity|reflexivity]. Qed.
(** of two sources for one operator the first counts, of two scale factors the second *)
Theorem ew_twice_refuted : exists l1 l2 l3 l4, ewdocumented l1 /\ ewdocumented l2 /\ ewdocumented l3 /\ ewdocumented l4 /\
  forall sp x y, exists d r, ew_elements d "old.dat" = Some (const_file sp (1, 0, 0)%Z x, true) /\ ew_elements d "new.dat" = Some (const_file sp (1, 0, 0)%Z y, true)
    /\ ew_lines d [l1; l2; l3; l4] = Ok r /\ find_op am_eqb (ew_am r) ASpin = Some (const_file sp (1, 0, 0)%Z x) /\ ew_scale r = Some 3.
Proof.
  exists [tx "define-am-source"; tx "s"; tx "old.dat"], [tx "define-am-source"; tx "s"; tx "new.dat"], [tx "set-basis-scale-factor"; Word "2" None (Some 2)], [tx "set-basis-scale-factor"; Word "3" None (Some 3)].
  split; [apply ewdoc_am; [reflexivity|cbn; tauto]|]. split; [apply ewdoc_am; [reflexivity|cbn; tauto]|]. split; [eapply ewdoc_factor; reflexivity|]. split; [eapply ewdoc_factor; reflexivity|]. intros sp x y.
  set (d := EwDisk (fun _ => None) (fun n => if String.eqb n "old.dat" then Some (const_file sp (1, 0, 0)%Z x, true) else if String.eqb n "new.dat" then Some (const_file sp (1, 0, 0)%Z y, true) else None)).
  destruct (ewcontrol_ok d [[tx "define-am-source"; tx "s"; tx "old.dat"]; [tx "define-am-source"; tx "s"; tx "new.dat"]; [tx "set-basis-scale-factor"; Word "2" None (Some 2)]; [tx "set-basis-scale-factor"; Word "3" None (Some 3)]]
    [Momentum ASpin "old.dat"; Momentum ASpin "new.dat"; Scale 2; Scale 3]) as (r & E & M).
  - constructor; [eapply (ew_am_source (tx "define-am-source") (tx "s") (tx "old.dat") []); [reflexivity|cbn; tauto]|]. constructor; [eapply (ew_am_source (tx "define-am-source") (tx "s") (tx "new.dat") []); [reflexivity|cbn; tauto]|].
    constructor; [eapply ew_factor; reflexivity|]. constructor; [eapply ew_factor; reflexivity|]. constructor.
  - constructor; [eexists; split; reflexivity|]. constructor; [eexists; split; reflexivity|]. repeat constructor.
  - exists d, r. split; [reflexivity|]. split; [reflexivity|]. split; [exact E|]. split; [exact (em_am _ _ _ M true)|exact (em_scale _ _ _ M)].
Qed.
(** the sources of k and of t- and tz are read, but no target ever uses them *)
Theorem ew_unused : forall d t n, In n (needs t) -> forall l1 s l2, (exists p f, s = Radial TK p f \/ s = Radial TOther p f) \/ (exists z f, s = Charge z f /\ z <> 1%Z) ->
  supplied d (l1 ++ s :: l2) n = supplied d (l1 ++ l2) n.
Proof.
  intros d t n _ l1 s l2 H.
  assert (G : forall g : ewstatement -> option string, g s = None -> the_first g (l1 ++ s :: l2) = the_first g (l1 ++ l2)).
  { intros g E. induction l1 as [|x l1 IH]; cbn; [rewrite E; reflexivity|]. rewrite IH. reflexivity. }
  destruct n as [n|spin|]; cbn [supplied]; unfold radial_op, am_op, charge_op; rewrite G; try reflexivity;
    destruct H as [(p & f & [->| ->])|(z & f & -> & Hz)]; try reflexivity; cbn; destruct (Z.eq_dec z 1); [contradiction|reflexivity].
Qed.
(** without set-indexing there are no orbitals: an empty operator gives an empty file, any other fails *)
Theorem ew_no_indexing : forall racah inv_sqrt_4pi d lines sts b pre t post, Forall2 ewsays lines sts -> Forall (readable d) sts -> the_last orbitals_of sts = None ->
  (forall j' j j'' Ja Jb J, ~ coupled j (2 * J) j' -> racah j' j j'' Ja Jb J = 0) ->
  every wanted sts = pre ++ t :: post -> Forall (target_good racah inv_sqrt_4pi d sts b) pre ->
  (forall n, In n (needs t) -> exists f, supplied d sts n = Some f /\ of_bra f <> []) -> ewgen racah inv_sqrt_4pi d lines = AssertFail.
Proof.
  intros racah inv d lines sts b pre t post S P N Z E G H. eapply ewgen_elsewhere; try eassumption. split.
  - intros n Hn. destruct (H n Hn) as (f & -> & _). discriminate.
  - assert (X : exists n, hd_error (needs t) = Some n /\ In n (needs t)) by (destruct t as [[]|]; eexists; (split; [reflexivity|left; reflexivity])). destruct X as (n & X1 & X2). destruct (H n X2) as (f & Hf & Hf').
    exists n, f. split; [exact X1|]. split; [exact Hf|]. unfold ew_run_space. rewrite N. exact Hf'.
Qed.
(** ** a run *)
Definition ewcase_lines : list (list word) :=
  [[tx "#"; tx "case"]; []; [tx "set-indexing"; tx "orbitals.dat"]; [tx "define-weak-target"; tx "F"; tx "F.dat"];
   [tx "set-basis-scale-factor"; Word "2" None (Some 2)]; [tx "define-radial-source"; tx "r"; iw "2" 2; tx "r2.dat"]; [tx "define-em-target"; tx "E"; iw "2" 2; tx "p"; tx "E2p.dat"];
   [tx "define-em-target"; tx "E"; iw "2" 2; tx "n"; tx "E2n.dat"]; [tx "define-isospin-source"; tx "t+"; tx "tp.dat"]; [tx "define-am-source"; tx "l"; tx "l.dat"]; [tx "define-em-target"; tx "Dl"; iw "1" 1; tx "total"; tx "Dl1.dat"]].
Definition ewcase_sts : list ewstatement :=
  [Comment; Comment; Orbitals "orbitals.dat"; Wanted (WeakTarget false "F.dat"); Scale 2; Radial TR 2 "r2.dat"; Wanted (EmTarget ElE 2 (Some SP) "E2p.dat"); Wanted (EmTarget ElE 2 (Some SN) "E2n.dat");
   Charge 1 "tp.dat"; Momentum AOrbital "l.dat"; Wanted (EmTarget ElDl 1 None "Dl1.dat")].
Definition ewcase_disk : ewdisk := EwDisk (fun n => if String.eqb n "orbitals.dat" then Some [OI (LL SP 1 3) 0%Z 1] else None)
  (fun n => if String.eqb n "r2.dat" then Some (const_file p32 (2, 0, 0)%Z 5, true) else if String.eqb n "l.dat" then Some (const_file p32 (1, 0, 0)%Z 7, true)
    else if String.eqb n "tp.dat" then Some (const_file p32 (0, 0, 1)%Z 1, true) else None).
Lemma ewcase_says : Forall2 ewsays ewcase_lines ewcase_sts.
Proof.
  unfold ewcase_lines, ewcase_sts.
  constructor; [apply ew_comment; left; reflexivity|]. constructor; [apply ew_blank|]. constructor; [apply (ew_indexing (tx "set-indexing") (tx "orbitals.dat") []); reflexivity|].
  constructor; [apply (ew_weak_target (tx "define-weak-target") (tx "F") (tx "F.dat") []); [reflexivity|cbn; tauto]|]. constructor; [eapply ew_factor; reflexivity|].
  constructor; [eapply (ew_radial_source (tx "define-radial-source") (tx "r") (iw "2" 2) (tx "r2.dat") []); [reflexivity|cbn; tauto|reflexivity]|].
  constructor; [eapply (ew_em_target (tx "define-em-target") (tx "E") (iw "2" 2) (tx "p") (tx "E2p.dat") []); [reflexivity|cbn; tauto|reflexivity|cbn; tauto]|].
  constructor; [eapply (ew_em_target (tx "define-em-target") (tx "E") (iw "2" 2) (tx "n") (tx "E2n.dat") []); [reflexivity|cbn; tauto|reflexivity|cbn; tauto]|].
  constructor; [eapply (ew_isospin_source (tx "define-isospin-source") (tx "t+") (tx "tp.dat") []); [reflexivity|cbn; tauto]|].
  constructor; [eapply (ew_am_source (tx "define-am-source") (tx "l") (tx "l.dat") []); [reflexivity|cbn; tauto]|].
  constructor; [eapply (ew_em_target (tx "define-em-target") (tx "Dl") (iw "1" 1) (tx "total") (tx "Dl1.dat") []); [reflexivity|cbn; tauto|reflexivity|cbn; tauto]|]. constructor.
Qed.
Lemma ewcase_readable : Forall (readable ewcase_disk) ewcase_sts.
Proof. repeat (constructor; [first [exact I|discriminate|eexists; split; reflexivity]|]). constructor. Qed.
Theorem ewprogram_case : forall inv, exists F1 F2 F3 F4, ewgen (fun _ _ _ _ _ _ => 0) inv ewcase_disk ewcase_lines = Ok [("F.dat", F1); ("E2p.dat", F2); ("E2n.dat", F3); ("Dl1.dat", F4)]
  /\ of_bra F1 = p32 /\ of_q F2 = (2, 0, 0)%Z /\ file_entry F2 0 0 0 0 = 20 /\ file_entry F3 0 0 0 0 = 0 /\ file_entry F4 0 0 0 0 = 7 * (sqrt 3 * inv).
Proof.
  intros inv. set (rac := fun _ _ _ _ _ _ : Z => 0).
  assert (RS : ew_run_space ewcase_disk ewcase_sts = p32) by reflexivity.
  destruct (ewgen_ok rac inv ltac:(reflexivity) ewcase_disk ewcase_lines ewcase_sts 2 ewcase_says ewcase_readable) as (out & E & F).
  - change (every wanted ewcase_sts) with [WeakTarget false "F.dat"; EmTarget ElE 2 (Some SP) "E2p.dat"; EmTarget ElE 2 (Some SN) "E2n.dat"; EmTarget ElDl 1 None "Dl1.dat"]. unfold target_good. rewrite RS.
    constructor; [split; [|exact I]; eexists _, _; eapply el_F; [reflexivity|apply const_file_ok]|].
    constructor; [split; [|reflexivity]; eexists _, _; eapply el_E; [reflexivity|apply const_file_ok]|].
    constructor; [split; [|reflexivity]; eexists _, _; eapply el_E; [reflexivity|apply const_file_ok]|].
    constructor; [split; [|reflexivity]; eexists _, _; eapply el_M1; [discriminate|reflexivity|apply const_file_ok]|]. constructor.
  - change (every wanted ewcase_sts) with [WeakTarget false "F.dat"; EmTarget ElE 2 (Some SP) "E2p.dat"; EmTarget ElE 2 (Some SN) "E2n.dat"; EmTarget ElDl 1 None "Dl1.dat"] in F. rewrite RS in F.
    inversion F as [|? o1 ? out1 W1 F']; subst. inversion F' as [|? o2 ? out2 W2 F'']; subst. inversion F'' as [|? o3 ? out3 W3 F3']; subst. inversion F3' as [|? o4 ? out4 W4 F4']; subst. inversion F4'; subst.
    destruct o1 as [n1 F1], o2 as [n2 F2], o3 as [n3 F3], o4 as [n4 F4].
    destruct W1 as (N1 & q1 & f1 & _ & (A1 & _) & _). destruct W2 as (N2 & q2 & f2 & D2 & A2 & V2). destruct W3 as (N3 & q3 & f3 & D3 & _ & V3). destruct W4 as (N4 & q4 & f4 & D4 & _ & V4). cbn [fst snd name_of] in *. subst n1 n2 n3 n4.
    exists F1, F2, F3, F4. split; [exact E|]. split; [exact A1|]. assert (S : state p32 0 0) by (split; cbn; lia).
    assert (C : forall q x, In (0, 0)%nat (sectors_of p32 p32 q) -> file_entry (const_file p32 q x) 0 0 0 0 = x) by (intros q x Hi; unfold file_entry, const_file; cbn [of_sectors of_blocks]; apply const_entry; exact Hi).
    inversion D2 as [? ? ? r Hr _| | | | | ]; subst. injection Hr as <-. split; [exact (proj1 (proj2 (proj2 A2)))|].
    split; [rewrite (V2 0%nat 0%nat 0%nat 0%nat S S); cbn [nth_error p32 fst species_factor ll_sp]; rewrite (C (2, 0, 0)%Z 5); [unfold powerRZ; change (Pos.to_nat 2) with 2%nat; cbn; lra|vm_compute; tauto]|].
    inversion D3 as [? ? ? r Hr' _| | | | | ]; subst. injection Hr' as <-.
    split; [rewrite (V3 0%nat 0%nat 0%nat 0%nat S S); cbn [nth_error p32 fst species_factor ll_sp]; cbn; lra|].
    inversion D4 as [|? ? ? a _ Ha _| | | | ]; subst; [|lia..]. injection Ha as <-. rewrite (V4 0%nat 0%nat 0%nat 0%nat S S); cbn [nth_error p32 fst species_factor]. rewrite (C (1, 0, 0)%Z 7); [ring|vm_compute; tauto].
Qed.
Theorem ew_no_scale_refuted : exists d lines, Forall ewdocumented lines /\ forall inv, ewgen (fun _ _ _ _ _ _ => 0) inv d lines = UB.
Proof.
  exists ewcase_disk, [[tx "set-indexing"; tx "orbitals.dat"]; [tx "define-radial-source"; tx "r"; iw "2" 2; tx "r2.dat"]; [tx "define-em-target"; tx "E"; iw "2" 2; tx "p"; tx "E2p.dat"]].
  split; [constructor; [apply ewdoc_indexing; reflexivity|constructor; [eapply ewdoc_radial; [reflexivity|cbn; tauto|reflexivity]|constructor; [eapply ewdoc_em; [reflexivity|cbn; tauto|reflexivity|cbn; tauto]|constructor]]]|].
  intros inv. eapply (ewgen_unset (fun _ _ _ _ _ _ => 0) inv ltac:(reflexivity) ewcase_disk _ [Orbitals "orbitals.dat"; Radial TR 2 "r2.dat"; Wanted (EmTarget ElE 2 (Some SP) "E2p.dat")] [] 2%Z (Some SP) "E2p.dat" []).
  - constructor; [apply (ew_indexing (tx "set-indexing") (tx "orbitals.dat") []); reflexivity|]. constructor; [eapply (ew_radial_source (tx "define-radial-source") (tx "r") (iw "2" 2) (tx "r2.dat") []); [reflexivity|cbn; tauto|reflexivity]|].
    constructor; [eapply (ew_em_target (tx "define-em-target") (tx "E") (iw "2" 2) (tx "p") (tx "E2p.dat") []); [reflexivity|cbn; tauto|reflexivity|cbn; tauto]|constructor].
  - constructor; [discriminate|]. constructor; [eexists; split; reflexivity|]. repeat constructor.
  - reflexivity.
  - reflexivity.
  - constructor.
  - reflexivity.
  - apply const_file_ok.
  - intros H. vm_compute in H. discriminate H.
Qed.
