(** C44, C45, C66-C70: the H2 mixer. *)
From Coq Require Import String List ZArith Reals Lra Lia Bool Permutation.
From Verif Require Import Base H2Model MapModel MapSpec RMat XformModel SepModel OscModel BlockModel SepSpec MixModel MixSpec MixProof MixFinal MixMore.
Import ListNotations.
Open Scope string_scope.
Open Scope list_scope.
Open Scope R_scope.

(** C44: whatever the channels are, every matrix written is the requested combination, chopped, of what the channels
    have produced for this sector. *)
Theorem C44_target_is_combination : forall F1 F2 F12 tol rp tgt cs targets out, NoDup (map fst cs) ->
  run F1 F2 F12 tol rp tgt cs targets = Ok out ->
  length out = length (ti_sectors tgt)
  /\ forall i ts row, nth_error (ti_sectors tgt) i = Some ts -> nth_error out i = Some row ->
     length row = length targets
  /\ forall k coefficients m, nth_error targets k = Some coefficients -> nth_error row k = Some m ->
     dims m ts /\ forall a b, (a < rows m)%nat -> (b < cols m)%nat ->
     exists v, produced (populate F1 F2 F12 rp tgt ts) cs a b v /\ chopped tol (combination coefficients v) (at_ m a b).
Proof. exact run_spec. Qed.
Print Assumptions C44_target_is_combination.

Theorem C44_runs : forall F1 F2 F12 tol rp tgt cs targets, NoDup (map fst cs) ->
  (forall ts c, In ts (ti_sectors tgt) -> In c cs ->
     exists v, populate F1 F2 F12 rp tgt ts c = Ok v /\ forall x, v = Some x -> dims x ts) ->
  is_ok (run F1 F2 F12 tol rp tgt cs targets).
Proof. exact run_ok. Qed.
Print Assumptions C44_runs.

(** an input channel produces the elements of its file, by the orbitals of the states *)
Theorem C44_input : forall f tgt ts, file_ok f -> index_ok tgt -> sector_of (ti_space tgt) ts ->
  exists mp, make_mapping (ti_orb (if_ix f)) (ti_space (if_ix f)) (ti_orb tgt) (ti_space tgt) = Ok mp
  /\ exists r, populate_input f mp ts = Ok r
  /\ (forall x, r = Some x -> dims x ts)
  /\ forall a b, (a < length (ss_states (s_bra ts)))%nat -> (b < length (ss_states (s_ket ts)))%nat ->
     labelled f tgt ts a b (match r with Some x => at_ x a b | None => 0 end).
Proof. exact input_channel. Qed.
Print Assumptions C44_input.

(** from files to targets *)
Theorem C44_mixed_files : forall F1 F2 F12 tol rp xs obs tgt fs targets, NoDup (map fst fs) -> index_ok tgt ->
  Forall (fun p => file_ok (snd p)) fs ->
  exists out, mixer F1 F2 F12 tol rp xs obs tgt (inputs fs) targets = Ok out
  /\ length out = length (ti_sectors tgt)
  /\ forall i ts row, nth_error (ti_sectors tgt) i = Some ts -> nth_error out i = Some row ->
     length row = length targets
  /\ forall k coefficients m, nth_error targets k = Some coefficients -> nth_error row k = Some m ->
     dims m ts /\ forall a b, (a < rows m)%nat -> (b < cols m)%nat ->
     exists v, (forall id f, In (id, f) fs -> labelled f tgt ts a b (v id)) /\ (forall id, ~ In id (map fst fs) -> v id = 0)
       /\ chopped tol (combination coefficients v) (at_ m a b).
Proof. exact mixer_inputs. Qed.
Print Assumptions C44_mixed_files.

(** a one-body operator of the quantum numbers of the target is upgraded to its two-body form; others fail the assertions *)
Theorem C44_operator_U : forall F1 F2 F12 rp xs obs tgt id ob os op, assoc obs ob = Some (os, op) ->
  (q_of op <> rp_q rp -> initialize rp xs obs tgt (id, SOperatorU ob) = AssertFail)
  /\ (q_of op = rp_q rp -> exists c, initialize rp xs obs tgt (id, SOperatorU ob) = Ok c /\ fst c = id
      /\ forall A ts, rp_A rp = Some A -> (A <> 1 /\ - two31 <= A - 1 < two31)%Z -> orbitals_half (ti_orb tgt) ->
         in_range (ti_orb tgt) (s_bra ts) -> in_range (ti_orb tgt) (s_ket ts) -> tri_ok (ss_J (s_bra ts)) (ss_J (s_ket ts)) (rp_J0 rp) ->
         exists r, populate F1 F2 F12 rp tgt ts c = Ok (Some r) /\ dims r ts
         /\ forall i j c d a b, orbs_of (ti_orb tgt) (s_bra ts) i (c, d) -> orbs_of (ti_orb tgt) (s_ket ts) j (a, b) ->
            at_ r i j = / IZR (A - 1) * (nfactor c d * nfactor a b *
              antisymmetrised (sum_of_both F1 F2 op (ss_J (s_bra ts)) (ss_J (s_ket ts))) c d (ss_J (s_bra ts)) a b (ss_J (s_ket ts)))).
Proof. exact operator_U. Qed.
Print Assumptions C44_operator_U.
(** two one-body operators over the same orbitals that couple to the quantum numbers of the target give the scaled two-body
    product; others fail the assertions *)
Theorem C44_operator_V : forall F1 F2 F12 rp xs obs tgt id a b scale osa osb opa opb, assoc obs a = Some (osa, opa) -> assoc obs b = Some (osb, opb) ->
  (~ (same_ospace osa osb /\ couple rp opa opb) -> initialize rp xs obs tgt (id, SOperatorV a b scale) = AssertFail)
  /\ (same_ospace osa osb -> couple rp opa opb -> exists c, initialize rp xs obs tgt (id, SOperatorV a b scale) = Ok c /\ fst c = id
      /\ forall ts, (ob_J0 opa = ob_J0 opb -> exchange_symmetric F12 (ob_J0 opa) (rp_J0 rp)) -> orbitals_half (ti_orb tgt) ->
         in_range (ti_orb tgt) (s_bra ts) -> in_range (ti_orb tgt) (s_ket ts) -> tri_ok (ss_J (s_bra ts)) (ss_J (s_ket ts)) (rp_J0 rp) ->
         exists r, populate F1 F2 F12 rp tgt ts c = Ok (Some r) /\ dims r ts
         /\ forall i j c d p q, orbs_of (ti_orb tgt) (s_bra ts) i (c, d) -> orbs_of (ti_orb tgt) (s_ket ts) j (p, q) ->
            at_ r i j = nfactor c d * nfactor p q *
              antisymmetrised (product_of_both F12 opa opb (rp_J0 rp) (ss_J (s_bra ts)) (ss_J (s_ket ts))) c d (ss_J (s_bra ts)) p q (ss_J (s_ket ts)) * scale).
Proof. exact operator_V. Qed.
Print Assumptions C44_operator_V.
(** names of operators that were not defined end the program *)
Theorem C44_operator_U_unknown : forall rp xs obs tgt id ob, assoc obs ob = None -> initialize rp xs obs tgt (id, SOperatorU ob) = Exit.
Proof. exact operator_U_unknown. Qed.
Print Assumptions C44_operator_U_unknown.
Theorem C44_operator_V_unknown : forall rp xs obs tgt id a b scale, assoc obs a = None \/ assoc obs b = None -> initialize rp xs obs tgt (id, SOperatorV a b scale) = Exit.
Proof. exact operator_V_unknown. Qed.
Print Assumptions C44_operator_V_unknown.
(** a transformed file: its elements in the given truncation, by the orbitals of the states, then transformed *)
Theorem C44_xform : forall F1 F2 F12 rp xs obs tgt id f pre xf ov, file_ok f -> index_ok pre -> index_ok tgt -> assoc xs xf = Some ov ->
  exists c, initialize rp xs obs tgt (id, SXform f pre xf) = Ok c /\ fst c = id
  /\ (forall i j s ps ts, nth_error (ti_sectors (if_ix f)) i = Some s -> nth_error (ti_sectors pre) j = Some ps -> sector_of (ti_space tgt) ts ->
       same_sector s ts -> same_sector ps ts ->
       exists p, dims p ps
       /\ (forall a b, (a < length (ss_states (s_bra ps)))%nat -> (b < length (ss_states (s_ket ps)))%nat -> labelled f pre ps a b (at_ p a b))
       /\ populate F1 F2 F12 rp tgt ts c = bind (transformed ov (ti_orb pre) (ti_orb tgt) ps ts p) (fun r => Ok (Some r)))
  /\ (forall ts, sector_of (ti_space tgt) ts -> (forall s, In s (ti_sectors (if_ix f)) -> ~ same_sector s ts) \/ (forall s, In s (ti_sectors pre) -> ~ same_sector s ts) ->
       populate F1 F2 F12 rp tgt ts c = Ok None).
Proof. exact xform_channel. Qed.
Print Assumptions C44_xform.
Theorem C44_xform_unknown : forall rp xs obs tgt id f pre xf, file_ok f -> index_ok pre -> assoc xs xf = None -> initialize rp xs obs tgt (id, SXform f pre xf) = Exit.
Proof. exact xform_unknown. Qed.
Print Assumptions C44_xform_unknown.

Theorem C44_order : forall F1 F2 F12 tol rp tgt cs cs' targets out, NoDup (map fst cs) -> Permutation cs cs' ->
  run F1 F2 F12 tol rp tgt cs targets = Ok out -> run F1 F2 F12 tol rp tgt cs' targets = Ok out.
Proof. exact run_order. Qed.
Print Assumptions C44_order.
Theorem C44_coefficient_order : forall F1 F2 F12 tol rp tgt cs targets targets' out,
  Forall2 (@Permutation (string * R)) targets targets' -> run F1 F2 F12 tol rp tgt cs targets = Ok out ->
  exists out', run F1 F2 F12 tol rp tgt cs targets' = Ok out' /\ Forall2 (Forall2 same_matrix) out out'.
Proof. exact run_coefficients. Qed.
Print Assumptions C44_coefficient_order.
Example C44_ex : forall F1 F2 F12, exists m,
  mixer F1 F2 F12 (/ 10) x_params [] [] (x_index 0) (inputs [("T", x_file 0 5); ("V", x_file 0 7)]) [[("V", 3); ("T", 2)]] = Ok [[m]]
  /\ at_ m 0 0 = 31.
Proof.
  intros F1 F2 F12.
  destruct (x_run F1 F2 F12 (/ 10) x_params [("T", x_file 0 5); ("V", x_file 0 7)] [("V", 3); ("T", 2)]) as (m & v & Hm & Hv & _ & Ch).
  - constructor; [intros [H|[]]; discriminate|]. constructor; [intros []|constructor].
  - intros p [<-|[<-|[]]]; eexists _, _; reflexivity.
  - exists m. split; [exact Hm|]. destruct Ch as [_ Ch]. unfold combination in Ch. cbn [lsum fst snd] in Ch.
    rewrite (Hv "T" 0%Z 5) in Ch by (left; reflexivity). rewrite (Hv "V" 0%Z 7) in Ch by (right; left; reflexivity).
    rewrite Ch; [lra|]. rewrite Rabs_right by lra. lra.
Qed.
Example C44_ex_hyp : index_ok (x_index 0) /\ file_ok (x_file 0 5) /\ sector_of (ti_space (x_index 0)) x_sec.
Proof. split; [apply x_index_ok|]. split; [apply x_file_ok|]. split; reflexivity. Qed.

(** two scalar operators couple to a scalar target; a vector and a scalar do not; the target sector is in range *)
Example C44_ex_operators : let op J := ObOp J 0 0 (fun _ _ => 1) in
  q_of (op 0%Z) = rp_q x_params /\ q_of (op 1%Z) <> rp_q x_params /\ couple x_params (op 0%Z) (op 0%Z) /\ couple x_params (op 1%Z) (op 1%Z) /\ ~ couple x_params (op 1%Z) (op 0%Z)
  /\ orbitals_half x_orb /\ in_range x_orb x_sub /\ tri_ok (ss_J x_sub) (ss_J x_sub) 0.
Proof.
  assert (E : Z.Even 0) by (exists 0%Z; reflexivity).
  cbn zeta. split; [reflexivity|]. split; [discriminate|]. split; [split; [unfold tri_ok; cbn; lia|split; [exact E|reflexivity]]|].
  split; [split; [unfold tri_ok; cbn; lia|split; [exact E|reflexivity]]|]. split; [intros (H & _); unfold tri_ok in H; cbn in H; lia|].
  split; [intros s; repeat constructor|]. split; [repeat constructor; cbn; lia|]. unfold tri_ok. cbn. lia.
Qed.

(** C45: refuted.  GenerateTargetMatrix skips names that are not in the map of source matrices. *)
Theorem C45_unknown_source_reported_refuted : forall F1 F2 F12, exists tol rp tgt sources coefficients id out,
  index_ok tgt /\ ti_sectors tgt <> [] /\ In id (map fst coefficients) /\ ~ In id (map fst sources)
  /\ mixer F1 F2 F12 tol rp [] [] tgt sources [coefficients] = Ok out.
Proof. exact misspelt. Qed.
Print Assumptions C45_unknown_source_reported_refuted.
(** what happens instead, in every run: the term is left out *)
Theorem C45_unknown_source_ignored : forall F1 F2 F12 tol rp tgt cs t1 t2 co1 co2 id c, ~ In id (map fst cs) ->
  run F1 F2 F12 tol rp tgt cs (t1 ++ (co1 ++ (id, c) :: co2) :: t2)
  = run F1 F2 F12 tol rp tgt cs (t1 ++ (co1 ++ co2) :: t2).
Proof. exact unknown_ignored. Qed.
Print Assumptions C45_unknown_source_ignored.

(** C66: refuted.  Without set-mass the number of nucleons is read uninitialised. *)
Theorem C66_mass_initialised_refuted : forall F1 F2 F12, exists tol rp tgt,
  index_ok tgt /\ mixer F1 F2 F12 tol rp [] [] tgt [("identity", SBuiltin)] [[("identity", 1)]] = UB.
Proof. exact no_mass_example. Qed.
Print Assumptions C66_mass_initialised_refuted.
(** in every run without set-mass *)
Theorem C66_without_mass_undefined : forall F1 F2 F12 tol rp xs obs tgt targets, rp_A rp = None -> ti_sectors tgt <> [] ->
  mixer F1 F2 F12 tol rp xs obs tgt [("identity", SBuiltin)] targets = UB.
Proof. exact no_mass. Qed.
Print Assumptions C66_without_mass_undefined.

(** C67: refuted.  The elements of a rank-2 operator are mixed into a scalar one. *)
Theorem C67_quantum_numbers_checked_refuted : forall F1 F2 F12, exists tol rp tgt f out m,
  index_ok tgt /\ file_ok f /\ Forall (allowed (ti_q (if_ix f))) (ti_sectors (if_ix f)) /\ Forall (allowed (ti_q tgt)) (ti_sectors tgt)
  /\ ti_q tgt = (rp_J0 rp, rp_g0 rp, rp_Tz0 rp) /\ ti_q (if_ix f) <> ti_q tgt
  /\ mixer F1 F2 F12 tol rp [] [] tgt [("quadrupole", SInput f)] [[("quadrupole", 1)]] = Ok out
  /\ nth_error out 0 = Some [m] /\ at_ m 0 0 <> 0.
Proof. exact wrong_rank. Qed.
Print Assumptions C67_quantum_numbers_checked_refuted.

(** C68: refuted. *)
Theorem C68_source_names_unique_refuted : forall F1 F2 F12, exists tol rp tgt f g out out',
  index_ok tgt /\ file_ok f /\ file_ok g
  /\ mixer F1 F2 F12 tol rp [] [] tgt [("V", SInput f); ("V", SInput g)] [[("V", 1)]] = Ok out
  /\ mixer F1 F2 F12 tol rp [] [] tgt [("V", SInput g); ("V", SInput f)] [[("V", 1)]] = Ok out'
  /\ out <> out'.
Proof. exact same_name. Qed.
Print Assumptions C68_source_names_unique_refuted.

(** C69: one-body linear combinations. *)
Theorem C69_linear_combination : forall mk ops id sp q co, assoc ops id = None -> co <> [] ->
  Forall (term_ok mk ops id sp q) co ->
  exists od, linear_combination mk ops id co = Ok ((id, od) :: ops)
  /\ od_space od = sp /\ od_q od = Some q /\ od_sectors od = mk sp q /\ sized sp (mk sp q) (od_blocks od)
  /\ forall i m, nth_error (od_blocks od) i = Some m ->
     forall a b, at_ m a b = combination co (fun id' => ob_element ops id' i a b).
Proof. exact linear_combination_ok. Qed.
Print Assumptions C69_linear_combination.
Theorem C69_unknown_term : forall mk ops id sp q co ic co', assoc ops id = None -> Forall (term_ok mk ops id sp q) co ->
  fst ic <> id -> assoc ops (fst ic) = None -> linear_combination mk ops id (co ++ ic :: co') = Exit.
Proof. exact linear_combination_unknown. Qed.
Print Assumptions C69_unknown_term.
Theorem C69_mismatched_term : forall mk ops id sp q co ic co' o q', assoc ops id = None -> co <> [] ->
  Forall (term_ok mk ops id sp q) co -> fst ic <> id -> assoc ops (fst ic) = Some o -> od_q o = Some q' ->
  od_space o <> sp \/ q' <> q -> linear_combination mk ops id (co ++ ic :: co') = AssertFail.
Proof. exact linear_combination_mismatch. Qed.
Print Assumptions C69_mismatched_term.
(** a name cannot be defined again *)
Theorem C69_redefinition : forall mk ops id o co, assoc ops id = Some o -> linear_combination mk ops id co = Exit.
Proof. exact redefinition. Qed.
Print Assumptions C69_redefinition.
Example C69_ex : Forall (term_ok y_mk [("T", y_op 5); ("V", y_op 7)] "H" y_space (0, 0, 0)%Z) [("T", 2); ("V", 3); ("T", 1)].
Proof.
  repeat (constructor; [split; [discriminate|]; eexists; split; [reflexivity|]; split; [reflexivity|]; split; [reflexivity|];
    repeat constructor|]). constructor.
Qed.
Example C69_ex_mismatch : forall v, od_q (ObData y_space (Some (2, 0, 0)%Z) [(0, 0)]%nat [Mat 1 1 (fun _ _ => v)]) = Some (2, 0, 0)%Z
  /\ (2, 0, 0)%Z <> (0, 0, 0)%Z.
Proof. intros v. split; [reflexivity|discriminate]. Qed.

(** C70: refuted.  H = T + H is accepted and gives 2 T. *)
Theorem C70_self_reference_refused_refuted : exists mk ops id co od m,
  assoc ops id = None /\ In id (map fst co) /\ linear_combination mk ops id co = Ok ((id, od) :: ops)
  /\ nth_error (od_blocks od) 0 = Some m /\ at_ m 0 0 = 2 * (1 * ob_element ops "T" 0 0 0).
Proof. exact self_reference. Qed.
Print Assumptions C70_self_reference_refused_refuted.
