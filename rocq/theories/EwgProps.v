(** C139-C141: control file of ew-gen and the whole program.
    The definitions used in the statements are in StmtSpec.v, EwgSpec.v (control file, files written, documented format), EwgMain.v (target_good, ready, lacks,
    elsewhere), ObmSpec.v, BlockSpec.v, EwgModel.v (code), and, in the cases, the control file of EwgCase.v. *)
From Coq Require Import String List ZArith Reals Bool.
From Verif Require Import Base RMat H2Model MapModel OscModel BlockModel BlockSpec ObioModel MixModel ObmModel ObmSpec ObmFin5 RgModel HmModel HmCase StmtSpec EwgModel EwgSpec EwgProof EwgMain EwgCase.
Import ListNotations.
Open Scope R_scope.
Open Scope string_scope.
Open Scope list_scope.

(** C139.  Statements whose files can be read are read: orbitals, scale factor, sources, targets. *)
Theorem C139_read : forall d lines sts, Forall2 ewsays lines sts -> Forall (readable d) sts -> exists r, ew_lines d lines = Ok r /\ ewmeans d r sts.
Proof. exact ewcontrol_ok. Qed.
Print Assumptions C139_read.

(** C139.  Nothing else is read. *)
Theorem C139_only : forall d lines r, ew_lines d lines = Ok r -> exists sts, Forall2 ewsays lines sts /\ Forall (readable d) sts /\ ewmeans d r sts.
Proof. exact ewcontrol_inv. Qed.
Print Assumptions C139_only.

(** C139.  A line makes one statement. *)
Theorem C139_one_meaning : forall line s t, ewsays line s -> ewsays line t -> s = t.
Proof. exact ewsays_one. Qed.
Print Assumptions C139_one_meaning.

(** C139.  A line that makes none, and a file that cannot be read, end the program. *)
Theorem C139_refused : forall d l1 line l2 sts, Forall2 ewsays l1 sts -> Forall (readable d) sts -> (forall s, ewsays line s -> ~ readable d s) ->
  ew_lines d (l1 ++ line :: l2) = Exit.
Proof. exact ewcontrol_refused. Qed.
Print Assumptions C139_refused.

(** C139.  The documented lines make statements. *)
Theorem C139_documented : forall ws, ewdocumented ws -> exists s, ewsays ws s /\ s <> Comment.
Proof. exact ewdocumented_ok. Qed.
Print Assumptions C139_documented.

(** C139 refuted: a comment without a blank after its hash ends the program. *)
Theorem C139_hash_refuted : exists a b, ewsays [tx "#"; tx a] Comment /\ (forall d r, ew_line d r [tx b] = Exit) /\ b = String.append "#" a.
Proof. exact ew_hash_refuted. Qed.
Print Assumptions C139_hash_refuted.

(** C139 refuted: of two sources of one operator the first counts, of two scale factors the last. *)
Theorem C139_twice_refuted : exists l1 l2 l3 l4, ewdocumented l1 /\ ewdocumented l2 /\ ewdocumented l3 /\ ewdocumented l4 /\
  forall sp x y, exists d r, ew_elements d "old.dat" = Some (const_file sp (1, 0, 0)%Z x, true) /\ ew_elements d "new.dat" = Some (const_file sp (1, 0, 0)%Z y, true)
    /\ ew_lines d [l1; l2; l3; l4] = Ok r /\ find_op am_eqb (ew_am r) ASpin = Some (const_file sp (1, 0, 0)%Z x) /\ ew_scale r = Some 3.
Proof. exact ew_twice_refuted. Qed.
Print Assumptions C139_twice_refuted.

(** C140.  A file for each target, in order, on the orbitals of the run, with the elements of its operator. *)
Theorem C140_program : forall racah inv_sqrt_4pi, (forall j' j j'' Ja Jb J, ~ coupled j (2 * J) j' -> racah j' j j'' Ja Jb J = 0) -> forall d,
  let ewgen := ewgen racah inv_sqrt_4pi in let ew_output := ew_output racah inv_sqrt_4pi in let target_good := target_good racah inv_sqrt_4pi d in
  forall lines sts b, Forall2 ewsays lines sts -> Forall (readable d) sts -> Forall (target_good sts b) (every wanted sts) ->
  exists out, ewgen d lines = Ok out /\ Forall2 (ew_output (ew_run_space d sts) b (radial_op d sts) (am_op d sts) (charge_op d sts)) (every wanted sts) out.
Proof. exact ewgen_ok. Qed.
Print Assumptions C140_program.

(** C140.  A run that ends writes exactly the targets, on the orbitals of the run, and had all sources on these orbitals. *)
Theorem C140_only : forall racah inv_sqrt_4pi d, let ewgen := ewgen racah inv_sqrt_4pi in let ready := ready d in
  forall lines out, ewgen d lines = Ok out -> exists sts, Forall2 ewsays lines sts /\ Forall (readable d) sts
  /\ map fst out = map name_of (every wanted sts) /\ Forall (ready sts) (every wanted sts)
  /\ Forall (fun o => of_bra (snd o) = ew_run_space d sts /\ of_ket (snd o) = ew_run_space d sts) out.
Proof. exact ewgen_inv. Qed.
Print Assumptions C140_only.

Example C140_case : forall inv, exists F1 F2 F3 F4, ewgen (fun _ _ _ _ _ _ => 0) inv ewcase_disk ewcase_lines = Ok [("F.dat", F1); ("E2p.dat", F2); ("E2n.dat", F3); ("Dl1.dat", F4)]
  /\ of_bra F1 = p32 /\ of_q F2 = (2, 0, 0)%Z /\ file_entry F2 0 0 0 0 = 20 /\ file_entry F3 0 0 0 0 = 0 /\ file_entry F4 0 0 0 0 = 7 * (sqrt 3 * inv).
Proof. exact ewprogram_case. Qed.

(** C140.  Sources of k, t- and tz make no difference for any target. *)
Theorem C140_unused : forall d t n, In n (needs t) -> forall l1 s l2, (exists p f, s = Radial TK p f \/ s = Radial TOther p f) \/ (exists z f, s = Charge z f /\ z <> 1%Z) ->
  supplied d (l1 ++ s :: l2) n = supplied d (l1 ++ l2) n.
Proof. exact ew_unused. Qed.
Print Assumptions C140_unused.

(** C141.  A target without one of its sources ends the program. *)
Theorem C141_lacking : forall racah inv_sqrt_4pi, (forall j' j j'' Ja Jb J, ~ coupled j (2 * J) j' -> racah j' j j'' Ja Jb J = 0) -> forall d,
  let ewgen := ewgen racah inv_sqrt_4pi in let lacks := lacks d in let elsewhere := elsewhere d in let target_good := target_good racah inv_sqrt_4pi d in
  forall lines sts b pre t post, Forall2 ewsays lines sts -> Forall (readable d) sts -> every wanted sts = pre ++ t :: post -> Forall (target_good sts b) pre ->
  lacks sts t -> ewgen d lines = Exit \/ ewgen d lines = AssertFail.
Proof. exact ewgen_lacks. Qed.
Print Assumptions C141_lacking.

(** C141.  So does a target whose first source is on other orbitals. *)
Theorem C141_elsewhere : forall racah inv_sqrt_4pi, (forall j' j j'' Ja Jb J, ~ coupled j (2 * J) j' -> racah j' j j'' Ja Jb J = 0) -> forall d,
  let ewgen := ewgen racah inv_sqrt_4pi in let lacks := lacks d in let elsewhere := elsewhere d in let target_good := target_good racah inv_sqrt_4pi d in
  forall lines sts b pre t post, Forall2 ewsays lines sts -> Forall (readable d) sts -> every wanted sts = pre ++ t :: post -> Forall (target_good sts b) pre ->
  elsewhere sts t -> ewgen d lines = AssertFail.
Proof. exact ewgen_elsewhere. Qed.
Print Assumptions C141_elsewhere.

(** C141.  So does one with sources on some orbitals, if there is no set-indexing. *)
Theorem C141_no_indexing : forall racah inv_sqrt_4pi d lines sts b pre t post, Forall2 ewsays lines sts -> Forall (readable d) sts -> the_last orbitals_of sts = None ->
  (forall j' j j'' Ja Jb J, ~ coupled j (2 * J) j' -> racah j' j j'' Ja Jb J = 0) ->
  every wanted sts = pre ++ t :: post -> Forall (target_good racah inv_sqrt_4pi d sts b) pre ->
  (forall n, In n (needs t) -> exists f, supplied d sts n = Some f /\ of_bra f <> []) -> ewgen racah inv_sqrt_4pi d lines = AssertFail.
Proof. exact ew_no_indexing. Qed.
Print Assumptions C141_no_indexing.

(** C141.  Without a scale factor an electric target with elements is undefined ... *)
Theorem C141_no_scale : forall racah inv_sqrt_4pi, (forall j' j j'' Ja Jb J, ~ coupled j (2 * J) j' -> racah j' j j'' Ja Jb J = 0) -> forall d,
  let ewgen := ewgen racah inv_sqrt_4pi in let target_good := target_good racah inv_sqrt_4pi d in
  forall lines sts pre lambda s file post x, Forall2 ewsays lines sts -> Forall (readable d) sts -> the_last scale_of sts = None ->
  every wanted sts = pre ++ EmTarget ElE lambda s file :: post -> Forall (target_good sts 0) pre ->
  radial_op d sts lambda = Some x -> file_ok x (ew_run_space d sts) (lambda, Z.rem lambda 2, 0)%Z -> of_sectors x <> [] -> ewgen d lines = UB.
Proof. exact ewgen_unset. Qed.
Print Assumptions C141_no_scale.

(** C141 refuted: ... so some control files of documented lines are undefined. *)
Theorem C141_no_scale_refuted : exists d lines, Forall ewdocumented lines /\ forall inv, ewgen (fun _ _ _ _ _ _ => 0) inv d lines = UB.
Proof. exact ew_no_scale_refuted. Qed.
Print Assumptions C141_no_scale_refuted.

