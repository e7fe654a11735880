(** Proofs about the separable and transformed sources of MixModel.v. *)
From Coq Require Import String List ZArith Reals Bool Lia Lra.
From Verif Require Import Base BaseLemmas H2Model MapModel MapSpec MapFinal RMat XformModel XformSpec XformFinal SepModel SepSpec SepFinal OscModel BlockModel MixModel MixSpec MixProof.
Import ListNotations.
Open Scope R_scope.
Open Scope outcome_scope.

Definition q_of (op : obop) : Z * Z * Z := (ob_J0 op, ob_g0 op, ob_Tz0 op).
Definition rp_q (rp : params) : Z * Z * Z := (rp_J0 rp, rp_g0 rp, rp_Tz0 rp).
Definition same_ospace (a b : ospace) : Prop := a SP = b SP /\ a SN = b SN.
Definition couple (rp : params) (a b : obop) : Prop :=
  tri_ok (ob_J0 a) (ob_J0 b) (rp_J0 rp) /\ Z.Even (ob_g0 a + ob_g0 b + rp_g0 rp) /\ (ob_Tz0 a + ob_Tz0 b = rp_Tz0 rp)%Z.

Lemma ospace_eqb_spec : forall a b, ospace_eqb a b = true <-> same_ospace a b.
Proof.
  intros a b. unfold ospace_eqb, olist_eqb, same_ospace.
  destruct (list_eq_dec _ (a SP) (b SP)), (list_eq_dec _ (a SN) (b SN)); cbn; split; intros H; try discriminate; try tauto; auto; destruct H; congruence.
Qed.

(** the channel of an upgraded one-body operator *)
Lemma operator_U : forall F1 F2 F12 rp xs obs tgt id ob os op, assoc obs ob = Some (os, op) ->
  (q_of op <> rp_q rp -> initialize rp xs obs tgt (id, SOperatorU ob) = AssertFail)
  /\ (q_of op = rp_q rp -> exists c, initialize rp xs obs tgt (id, SOperatorU ob) = Ok c /\ fst c = id
      /\ forall A ts, rp_A rp = Some A -> (A <> 1 /\ - two31 <= A - 1 < two31)%Z -> orbitals_half (ti_orb tgt) ->
         in_range (ti_orb tgt) (s_bra ts) -> in_range (ti_orb tgt) (s_ket ts) -> tri_ok (ss_J (s_bra ts)) (ss_J (s_ket ts)) (rp_J0 rp) ->
         exists r, populate F1 F2 F12 rp tgt ts c = Ok (Some r) /\ dims r ts
         /\ forall i j c d a b, orbs_of (ti_orb tgt) (s_bra ts) i (c, d) -> orbs_of (ti_orb tgt) (s_ket ts) j (a, b) ->
            at_ r i j = / IZR (A - 1) * (nfactor c d * nfactor a b *
              antisymmetrised (sum_of_both F1 F2 op (ss_J (s_bra ts)) (ss_J (s_ket ts))) c d (ss_J (s_bra ts)) a b (ss_J (s_ket ts)))).
Proof.
  intros F1 F2 F12 rp xs obs tgt id ob os op H. unfold initialize, q_of, rp_q. rewrite H. split.
  - intros N. destruct (ob_J0 op =? rp_J0 rp)%Z eqn:E1; [|reflexivity]. destruct (ob_g0 op =? rp_g0 rp)%Z eqn:E2; [|reflexivity].
    destruct (ob_Tz0 op =? rp_Tz0 rp)%Z eqn:E3; [|reflexivity]. apply Z.eqb_eq in E1, E2, E3. congruence.
  - intros E. injection E as E1 E2 E3. rewrite E1, E2, E3, !Z.eqb_refl. cbn [cassert bind]. eexists. split; [reflexivity|]. split; [reflexivity|].
    intros A ts HA HA1 Ho Hb Hk Ht. unfold populate, mass. cbn [snd]. rewrite HA. cbn [bind].
    destruct (upgrade_perm F1 F2 op (ti_orb tgt) ts A Hb Hk Ho HA1) as (r & Er & Hd & Hf & _). rewrite Er. cbn [bind].
    exists r. split; [reflexivity|]. split; [exact Hd|]. rewrite <- E1 in Ht. exact (Hf Ht).
Qed.
Lemma operator_U_unknown : forall rp xs obs tgt id ob, assoc obs ob = None -> initialize rp xs obs tgt (id, SOperatorU ob) = Exit.
Proof. intros rp xs obs tgt id ob H. unfold initialize. rewrite H. reflexivity. Qed.

(** the channel of a product of two one-body operators *)
Lemma triangle_tri : forall a b c, triangle (2 * a) (2 * b) (2 * c) = true <-> tri_ok a b c.
Proof.
  intros a b c. unfold triangle, tri_ok. replace (2 * a + 2 * b + 2 * c)%Z with (2 * (a + b + c))%Z by ring. rewrite Z.even_mul. change (Z.even 2) with true. cbn [Datatypes.orb].
  rewrite andb_true_r, andb_true_iff, !Z.leb_le. lia.
Qed.
Lemma rem_even : forall z, (Z.rem z 2 =? 0)%Z = true <-> Z.Even z.
Proof.
  intros z. rewrite Z.eqb_eq. split; intros H.
  - exists (Z.quot z 2). pose proof (Z.quot_rem z 2 ltac:(lia)). lia.
  - destruct H as [k ->]. rewrite Z.mul_comm. apply Z.rem_mul. lia.
Qed.
Lemma operator_V : forall F1 F2 F12 rp xs obs tgt id a b scale osa osb opa opb, assoc obs a = Some (osa, opa) -> assoc obs b = Some (osb, opb) ->
  (~ (same_ospace osa osb /\ couple rp opa opb) -> initialize rp xs obs tgt (id, SOperatorV a b scale) = AssertFail)
  /\ (same_ospace osa osb -> couple rp opa opb -> exists c, initialize rp xs obs tgt (id, SOperatorV a b scale) = Ok c /\ fst c = id
      /\ forall ts, (ob_J0 opa = ob_J0 opb -> exchange_symmetric F12 (ob_J0 opa) (rp_J0 rp)) -> orbitals_half (ti_orb tgt) ->
         in_range (ti_orb tgt) (s_bra ts) -> in_range (ti_orb tgt) (s_ket ts) -> tri_ok (ss_J (s_bra ts)) (ss_J (s_ket ts)) (rp_J0 rp) ->
         exists r, populate F1 F2 F12 rp tgt ts c = Ok (Some r) /\ dims r ts
         /\ forall i j c d p q, orbs_of (ti_orb tgt) (s_bra ts) i (c, d) -> orbs_of (ti_orb tgt) (s_ket ts) j (p, q) ->
            at_ r i j = nfactor c d * nfactor p q *
              antisymmetrised (product_of_both F12 opa opb (rp_J0 rp) (ss_J (s_bra ts)) (ss_J (s_ket ts))) c d (ss_J (s_bra ts)) p q (ss_J (s_ket ts)) * scale).
Proof.
  intros F1 F2 F12 rp xs obs tgt id a b scale osa osb opa opb Ha Hb. unfold initialize. rewrite Ha, Hb. split.
  - intros N. destruct (ospace_eqb osa osb) eqn:E1; [|reflexivity].
    destruct (triangle _ _ _) eqn:E2; [|reflexivity]. destruct (Z.rem _ 2 =? 0)%Z eqn:E3; [|reflexivity].
    destruct (_ + _ =? rp_Tz0 rp)%Z eqn:E4; [|reflexivity].
    exfalso. apply N. split; [apply ospace_eqb_spec; exact E1|]. split; [apply triangle_tri; exact E2|]. split; [apply rem_even; exact E3|]. apply Z.eqb_eq. exact E4.
  - intros Hs (Ht & Hg & Hz). rewrite (proj2 (ospace_eqb_spec _ _) Hs), (proj2 (triangle_tri _ _ _) Ht), (proj2 (rem_even _) Hg), (proj2 (Z.eqb_eq _ _) Hz).
    cbn [cassert bind]. eexists. split; [reflexivity|]. split; [reflexivity|]. intros ts Hx Ho Hbr Hke HJ. unfold populate. cbn [snd].
    destruct (tensor_formula F12 (String.eqb a b) opa opb (ti_orb tgt) ts (rp_J0 rp) Hbr Hke Ho Ht) as (r & Er & Hd & Hf & _).
    { intros E. apply String.eqb_eq in E. subst b. congruence. }
    { exact Hx. }
    rewrite Er. cbn [bind]. eexists. split; [reflexivity|]. split; [exact Hd|]. cbn [at_]. intros i j c d p q Hi Hj. rewrite (Hf HJ i j c d p q Hi Hj). reflexivity.
Qed.
Lemma operator_V_unknown : forall rp xs obs tgt id a b scale, assoc obs a = None \/ assoc obs b = None -> initialize rp xs obs tgt (id, SOperatorV a b scale) = Exit.
Proof.
  intros rp xs obs tgt id a b scale H. unfold initialize. destruct H as [-> | ->]; [reflexivity|]. destruct (assoc obs a) as [[? ?]|]; reflexivity.
Qed.

(** the channel of a transformed file: the elements of the file, by the orbitals of the states of the given truncation, transformed *)
Lemma xform_channel : forall F1 F2 F12 rp xs obs tgt id f pre xf ov, file_ok f -> index_ok pre -> index_ok tgt -> assoc xs xf = Some ov ->
  exists c, initialize rp xs obs tgt (id, SXform f pre xf) = Ok c /\ fst c = id
  /\ (forall i j s ps ts, nth_error (ti_sectors (if_ix f)) i = Some s -> nth_error (ti_sectors pre) j = Some ps -> sector_of (ti_space tgt) ts ->
       same_sector s ts -> same_sector ps ts ->
       exists p, dims p ps
       /\ (forall a b, (a < length (ss_states (s_bra ps)))%nat -> (b < length (ss_states (s_ket ps)))%nat -> labelled f pre ps a b (at_ p a b))
       /\ populate F1 F2 F12 rp tgt ts c = (r <- transformed ov (ti_orb pre) (ti_orb tgt) ps ts p ;; Ok (Some r)))
  /\ (forall ts, sector_of (ti_space tgt) ts -> (forall s, In s (ti_sectors (if_ix f)) -> ~ same_sector s ts) \/ (forall s, In s (ti_sectors pre) -> ~ same_sector s ts) ->
       populate F1 F2 F12 rp tgt ts c = Ok None).
Proof.
  intros F1 F2 F12 rp xs obs tgt id f pre xf ov Hf Hp Ht Hx. pose proof Hf as [Hfi Hfr].
  destruct (remap_spec (ti_orb (if_ix f)) (ti_orb pre) _ _ (xk_space _ Hfi) (xk_space _ Hp)) as (mp & Emp & _).
  destruct (remap_spec (ti_orb pre) (ti_orb tgt) _ _ (xk_space _ Hp) (xk_space _ Ht)) as (mp' & Emp' & _).
  unfold initialize. rewrite Emp. cbn [bind]. rewrite Hx, Emp'. cbn [bind]. eexists. split; [reflexivity|]. split; [reflexivity|].
  unfold populate. cbn [snd]. unfold populate_xform. split.
  - intros i j s ps ts Hs Hps Hts S1 S2.
    rewrite (counterpart_found _ ts i s Hfi Hs S1), (counterpart_found _ ts j ps Hp Hps S2), Hs, Hps. cbn [get bind].
    assert (S3 : same_sector s ps) by (destruct S1, S2; split; congruence).
    assert (Hso : sector_of (ti_space pre) ps) by (exact (proj1 (Forall_forall _ _) (xk_sectors _ Hp) _ (nth_error_In _ _ Hps))).
    destruct (input_channel f pre ps Hf Hp Hso) as (mp2 & Emp2 & r & Er & Hd & Hl). assert (mp2 = mp) by congruence. subst mp2.
    unfold populate_input in Er. rewrite (counterpart_found _ ps i s Hfi Hs S3), Hs in Er. cbn [get bind] in Er.
    destruct (read_full f i s) as [m| | |]; try discriminate. cbn [bind] in *. destruct (remap R 0 rscale s ps mp m) as [p| | |]; try discriminate. cbn [bind] in *.
    injection Er as <-. exists p. split; [exact (Hd p eq_refl)|]. split; [exact Hl|]. reflexivity.
  - intros ts Hts H. destruct (counterpart (if_ix f) ts) as [i|] eqn:E1; [|reflexivity]. destruct (counterpart pre ts) as [j|] eqn:E2; [|reflexivity].
    destruct (counterpart_some _ _ _ Hfi E1) as (s & Hs & S1 & _). destruct (counterpart_some _ _ _ Hp E2) as (ps & Hps & S2 & _).
    exfalso. destruct H as [H | H]; [exact (H s (nth_error_In _ _ Hs) S1) | exact (H ps (nth_error_In _ _ Hps) S2)].
Qed.
Lemma xform_unknown : forall rp xs obs tgt id f pre xf, file_ok f -> index_ok pre -> assoc xs xf = None -> initialize rp xs obs tgt (id, SXform f pre xf) = Exit.
Proof.
  intros rp xs obs tgt id f pre xf [Hfi _] Hp Hx.
  destruct (remap_spec (ti_orb (if_ix f)) (ti_orb pre) _ _ (xk_space _ Hfi) (xk_space _ Hp)) as (mp & Emp & _).
  unfold initialize. rewrite Emp. cbn [bind]. rewrite Hx. reflexivity.
Qed.

Lemma redefinition : forall mk ops id o co, assoc ops id = Some o -> linear_combination mk ops id co = Exit.
Proof. intros mk ops id o co H. unfold linear_combination. rewrite H. reflexivity. Qed.
