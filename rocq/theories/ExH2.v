(** The example environment meets the hypotheses of the H2 file theorems. *)
From Coq Require Import String List ZArith Lia Bool.
From Verif Require Import Base BaseLemmas H2Model H2Spec ExEnv.
Import ListNotations.
Open Scope nat_scope.

Lemma ex_env_ok : env_ok ex_env.
Proof.
  constructor.
  - intros x. apply Z.mod_pos_bound. reflexivity.
  - intros x y. apply Z.eqb_eq.
Qed.

Lemma in_indexed : forall A (l : list A) i a, In (i, a) (indexed l) -> nth_error l i = Some a.
Proof.
  intros A l i a. unfold indexed.
  assert (G : forall (l : list A) k, In (i, a) (combine (seq k (length l)) l) -> exists j, i = k + j /\ nth_error l j = Some a).
  { clear. induction l as [|x l IH]; intros k H; [destruct H|]. cbn [length seq combine] in H. destruct H as [H|H].
    - injection H as -> ->. exists 0. split; [lia|reflexivity].
    - destruct (IH _ H) as (j & -> & Hj). exists (S j). split; [lia|assumption]. }
  intros H. destruct (G l 0 H) as (j & -> & Hj). exact Hj.
Qed.

Lemma ex_sectors_canonical : forall space J0 g0 Tz0, Forall canonical_sector (ex_sectors space J0 g0 Tz0).
Proof.
  intros space J0 g0 Tz0. apply Forall_forall. intros s Hs. unfold ex_sectors in Hs.
  apply in_flat_map in Hs. destruct Hs as ([i a] & Ha & Hs). apply in_flat_map in Hs. destruct Hs as ([j b] & Hb & Hs).
  apply in_indexed in Ha, Hb.
  destruct (Nat.leb_spec i j) as [Hij|Hij]; cbn [andb] in Hs; [|destruct Hs].
  match type of Hs with In _ (if ?c then _ else _) => destruct c end; [|destruct Hs].
  destruct Hs as [<-|[]]. split; [exact Hij|]. cbn [s_bi s_ki s_bra s_ket]. intros ->. congruence.
Qed.

Lemma ex_osc_species : forall sp N, Forall (fun o => o_sp o = sp) (ex_osc sp N).
Proof.
  intros sp N. apply Forall_forall. intros o Ho. unfold ex_osc in Ho.
  apply in_flat_map in Ho. destruct Ho as (M & _ & Ho). apply in_flat_map in Ho. destruct Ho as (l & _ & Ho).
  destruct (Z.even (M - l)); [|destruct Ho]. apply in_flat_map in Ho. destruct Ho as (tj & _ & Ho).
  destruct (0 <? tj)%Z; [|destruct Ho]. destruct Ho as [<-|[]]. reflexivity.
Qed.

Lemma ex_indexing_ok : forall o N1 N2 J0 g0 Tz0, indexing_ok ex_env (ex_ix o N1 N2 J0 g0 Tz0).
Proof.
  intros. constructor.
  - reflexivity.
  - reflexivity.
  - apply ex_sectors_canonical.
  - apply ex_osc_species.
  - apply ex_osc_species.
Qed.

Lemma ex_fits : forall c ix, c <> CAny -> Forall2 (fits_sector ex_env) (ix_sectors ex_env ix) (ex_ws c ix).
Proof.
  intros c ix Hc. unfold ex_ws, indexed. generalize 0 as k. induction (ix_sectors ex_env ix) as [|s ss IH]; intros k; [constructor|].
  cbn [length seq combine map fst snd]. constructor; [|apply IH]. split; [reflexivity|]. split; [reflexivity|assumption].
Qed.

Lemma ex_prints : forall c ix, Forall2 (fun s w => prints ex_env (snd w) s (fst w)) (ix_sectors ex_env ix) (ex_ws c ix).
Proof.
  intros c ix. unfold ex_ws, indexed. generalize 0 as k. induction (ix_sectors ex_env ix) as [|s ss IH]; intros k; [constructor|].
  cbn [length seq combine map fst snd]. constructor; [|apply IH]. intros b j _. eexists. reflexivity.
Qed.

(** sizes, decided by computation *)
Definition below_check (n : Z) (ss : list sector) : bool :=
  forallb (fun sp => (Z.of_nat (total_held sp ss) <=? n)%Z) [PP; NN; PN].
Lemma below_check_ok : forall n ss, below_check n ss = true -> sizes_below n ss.
Proof.
  intros n ss H sp. unfold below_check in H. rewrite forallb_forall in H. apply Z.leb_le, H. destruct sp; simpl; auto.
Qed.

(** the examples: all operators with J0 = 0 or 1 on the N1max = N2max = 1 space *)
Definition ix0 := ex_ix KTz 1 1 0 0 0.        (* scalar *)
Definition ix1 := ex_ix KTz 1 1 1 1 1.        (* charge-changing, parity-changing vector *)
Definition ix0p := ex_ix KPN 1 1 0 0 0.       (* the same spaces in pp, nn, pn order *)
Definition ix1p := ex_ix KPN 1 1 1 1 0.

Lemma ex_header_fits : forall o J0 g0 Tz0, in_i32 J0 = true -> in_i32 g0 = true -> in_i32 Tz0 = true ->
  header_fits ex_env (ex_ix o 1 1 J0 g0 Tz0).
Proof.
  intros o J0 g0 Tz0 H1 H2 H3. constructor; try assumption; try reflexivity;
    (match goal with |- Forall _ ?l => let l' := eval vm_compute in l in change l with l' end;
     repeat constructor).
Qed.
Lemma ex_header_fits_text : forall f o J0 g0 Tz0, in_i32 J0 = true -> in_i32 g0 = true -> in_i32 Tz0 = true ->
  header_fits_text ex_env f (ex_ix o 1 1 J0 g0 Tz0).
Proof.
  intros f o J0 g0 Tz0 H1 H2 H3. constructor; try assumption; try reflexivity;
    try (exists 1%Z; split; reflexivity).
  match goal with |- Forall _ ?l => let l' := eval vm_compute in l in change l with l' end.
  repeat constructor; discriminate.
Qed.

Lemma scheme0 : scheme ex_env V15200 ix0.
Proof.
  split; [reflexivity|]. split; [apply ex_header_fits; reflexivity|].
  split; [apply below_check_ok; vm_compute; reflexivity|]. split; reflexivity.
Qed.
Lemma scheme1 : scheme ex_env V15200 ix1.
Proof.
  split; [reflexivity|]. split; [apply ex_header_fits; reflexivity|].
  split; [apply below_check_ok; vm_compute; reflexivity|]. split; reflexivity.
Qed.
Lemma text_scheme1 : text_scheme ex_env V15200 ix1.
Proof.
  split; [reflexivity|]. split; [apply ex_header_fits_text; reflexivity|]. split; [reflexivity|]. split; [reflexivity|].
  split; [apply below_check_ok; vm_compute; reflexivity|]. split; reflexivity.
Qed.
Lemma Jmax1p : Jmax_fits ex_env ix1p.
Proof. intros []; vm_compute; reflexivity. Qed.
Lemma scheme1p : scheme ex_env V15099 ix1p.
Proof.
  split; [reflexivity|]. split; [apply ex_header_fits; reflexivity|]. split; [reflexivity|]. split; [exact Jmax1p|].
  apply below_check_ok; vm_compute; reflexivity.
Qed.
Lemma text_scheme1p : text_scheme ex_env V15099 ix1p.
Proof.
  split; [reflexivity|]. split; [apply ex_header_fits_text; reflexivity|]. split; [reflexivity|]. split; [exact Jmax1p|].
  apply below_check_ok; vm_compute; reflexivity.
Qed.
Lemma v0_0p : v0_scheme ex_env ix0p.
Proof. constructor; reflexivity. Qed.
Lemma scheme0p : scheme ex_env V0 ix0p.
Proof.
  split; [reflexivity|]. split; [exact v0_0p|]. split; [apply below_check_ok; vm_compute; reflexivity|].
  match goal with |- Forall _ ?l => let l' := eval vm_compute in l in change l with l' end.
  repeat constructor.
Qed.
Lemma record_fits_small : forall f ix, below_check 536870000 (ix_sectors ex_env ix) = true -> record_fits ex_env f ix.
Proof.
  intros f ix H. apply below_check_ok in H. destruct f; cbn [record_fits]; try exact I; intros sp; specialize (H sp); lia.
Qed.

(** labels fit: bounded by the number of orbitals *)
Definition labels_check (np : nat) (s : sector) : bool :=
  forallb (fun ab => (Z.of_nat (np + fst ab + 1) <? two31)%Z && (Z.of_nat (np + snd ab + 1) <? two31)%Z)
    (ss_states (s_bra s) ++ ss_states (s_ket s)).
Lemma labels_check_ok : forall np s, labels_check np s = true -> labels_fit np s.
Proof.
  intros np s H a b Hab. unfold labels_check in H. rewrite forallb_forall in H.
  specialize (H (a, b) ltac:(apply in_app_iff; assumption)). cbn [fst snd] in H.
  apply andb_true_iff in H. destruct H as [H1 H2]. apply Z.ltb_lt in H1, H2. auto.
Qed.
Lemma ex_labels : forall np ss, forallb (labels_check np) ss = true -> Forall (labels_fit np) ss.
Proof.
  intros np ss H. apply Forall_forall. intros s Hs. rewrite forallb_forall in H. apply labels_check_ok. auto.
Qed.
Lemma ex_J_fits : forall ss, forallb (fun s => in_i32 (2 * ss_J (s_bra s)) && in_i32 (2 * ss_J (s_ket s)))%bool ss = true -> Forall J_fits ss.
Proof.
  intros ss H. apply Forall_forall. intros s Hs. rewrite forallb_forall in H. specialize (H s Hs).
  apply andb_true_iff in H. exact H.
Qed.

Definition labels_ok (ix : indexing ex_env) : Prop :=
  Forall (labels_fit (length (ix_p ex_env ix))) (ix_sectors ex_env ix).
Lemma labels_ix0 : labels_ok ix0. Proof. apply ex_labels. vm_compute. reflexivity. Qed.
Lemma labels_ix1 : labels_ok ix1. Proof. apply ex_labels. vm_compute. reflexivity. Qed.
Lemma labels_ix0p : labels_ok ix0p. Proof. apply ex_labels. vm_compute. reflexivity. Qed.
Lemma labels_ix1p : labels_ok ix1p. Proof. apply ex_labels. vm_compute. reflexivity. Qed.
Lemma record_fits_1p : record_fits ex_env V15099 ix1p.
Proof. apply record_fits_small. vm_compute. reflexivity. Qed.
Lemma record_fits_0p : record_fits ex_env V0 ix0p.
Proof. apply record_fits_small. vm_compute. reflexivity. Qed.
Lemma sectors_1 : length (ix_sectors ex_env ix1) = 10. Proof. vm_compute. reflexivity. Qed.
Lemma sectors_0p : length (ix_sectors ex_env ix0p) = 13. Proof. vm_compute. reflexivity. Qed.
Lemma sectors_1p : length (ix_sectors ex_env ix1p) = 6. Proof. vm_compute. reflexivity. Qed.
Lemma ok_true : forall A (x : outcome A), match x with Ok _ => true | _ => false end = true -> is_ok x.
Proof. intros A [a| | |] H; try discriminate H. exists a. reflexivity. Qed.
Lemma exit_true : forall A (x : outcome A), match x with Exit => true | _ => false end = true -> x = Exit.
Proof. intros A [a| | |] H; try discriminate H. reflexivity. Qed.
Lemma assert_true : forall A (x : outcome A), match x with AssertFail => true | _ => false end = true -> x = AssertFail.
Proof. intros A [a| | |] H; try discriminate H. reflexivity. Qed.
Lemma ub_true : forall A (x : outcome A), match x with UB => true | _ => false end = true -> x = UB.
Proof. intros A [a| | |] H; try discriminate H. reflexivity. Qed.
Ltac run := first [apply ok_true | apply exit_true | apply assert_true | apply ub_true | idtac]; vm_compute; reflexivity.
