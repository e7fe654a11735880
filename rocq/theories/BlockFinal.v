From Coq Require Import List ZArith Reals Lra Lia Bool Psatz.
From Verif Require Import Base BaseLemmas RMat H2Model MapModel OscModel OscSpec OscProof OscFinal BlockModel BlockSpec BlockProof.
Import ListNotations.
Open Scope R_scope.

Definition pair_dec : forall x y : nat * nat, {x = y} + {x <> y}.
Proof. repeat decide equality. Defined.

Definition sandwich (source : lspace) sx mx so mo (I i K k : nat) : R :=
  ssum source (fun A a => ssum source (fun B b => entry sx mx A a I i * entry so mo A a B b * entry sx mx B b K k)).

Definition covered_at (source target : lspace) (sx so : lsectors) (x : nat * nat) : Prop :=
  forall A B, (A < length source)%nat -> (B < length source)%nat ->
    label_of source A = label_of target (fst x) -> label_of source B = label_of target (snd x) ->
    In (A, B) so /\ In (A, fst x) sx /\ In (B, snd x) sx.

Lemma label_unique : forall sp A B l, distinct_labels sp -> label_of sp A = Some l -> label_of sp B = Some l -> A = B.
Proof.
  intros sp A B l Hd HA HB. unfold label_of in *. unfold distinct_labels in Hd.
  rewrite <- nth_error_map in HA, HB.
  apply (proj1 (NoDup_nth_error _) Hd); [apply nth_error_Some; congruence|congruence].
Qed.

(** matrix elements of a transformation vanish between subspaces of different labels *)
Lemma xform_absent : forall source target sx mx A a I i, scalar_sectors source target sx -> label_of source A <> label_of target I ->
  entry sx mx A a I i = 0.
Proof. intros source target sx mx A a I i Hs Hne. apply entry_absent. intros Hin. apply Hne. apply Hs. exact Hin. Qed.

Lemma sandwich_sub : forall source target sx mx so mo I i K k A B l l', distinct_labels source -> scalar_sectors source target sx ->
  (A < length source)%nat -> (B < length source)%nat -> label_of source A = Some l -> label_of target I = Some l ->
  label_of source B = Some l' -> label_of target K = Some l' ->
  sandwich source sx mx so mo I i K k
  = rsum (sub_dim source B) (fun b => rsum (sub_dim source A) (fun a => entry sx mx A a I i * entry so mo A a B b) * entry sx mx B b K k).
Proof.
  intros source target sx mx so mo I i K k A B l l' Hd Hs HA HB LA LI LB LK. unfold sandwich.
  rewrite (ssum_subspace source A); [|exact HA|].
  - rewrite (rsum_ext _ _ (fun a => rsum (sub_dim source B) (fun b => entry sx mx A a I i * entry so mo A a B b * entry sx mx B b K k))).
    + rewrite rsum_swap. apply rsum_ext. intros b _. rewrite rsum_scale_r. reflexivity.
    + intros a _. rewrite (ssum_subspace source B); [reflexivity|exact HB|].
      intros J j _ Hne. rewrite (xform_absent source target sx mx J j K k Hs); [ring|]. rewrite LK. intros E. apply Hne. eapply label_unique; eassumption.
  - intros J j _ Hne. apply ssum_0. intros J' j' _. rewrite (xform_absent source target sx mx J j I i Hs); [ring|].
    rewrite LI. intros E. apply Hne. eapply label_unique; eassumption.
Qed.
Lemma sandwich_zero : forall source target sx mx so mo I i K k, scalar_sectors source target sx ->
  (forall A, label_of source A <> label_of target I) \/ (forall B, label_of source B <> label_of target K) -> sandwich source sx mx so mo I i K k = 0.
Proof.
  intros source target sx mx so mo I i K k Hs [H|H]; unfold sandwich; apply ssum_0; intros A a _; apply ssum_0; intros B b _.
  - rewrite (xform_absent source target sx mx A a I i Hs) by apply H. ring.
  - rewrite (xform_absent source target sx mx B b K k Hs) by apply H. ring.
Qed.

Lemma similarity_block_ok : forall source target sx mx so mo I K, op_ok source target sx mx -> op_ok source source so mo ->
  scalar_sectors source target sx -> distinct_labels source -> (I < length target)%nat -> (K < length target)%nat ->
  (exists m, similarity_block source target sx mx so mo (I, K) = Ok m /\ covered_at source target sx so (I, K)
     /\ rows m = sub_dim target I /\ cols m = sub_dim target K
     /\ forall i k, (i < sub_dim target I)%nat -> (k < sub_dim target K)%nat -> at_ m i k = sandwich source sx mx so mo I i K k)
  \/ (similarity_block source target sx mx so mo (I, K) = AssertFail /\ ~ covered_at source target sx so (I, K)).
Proof.
  intros source target sx mx so mo I K Hx Ho Hs Hd HI HK. unfold similarity_block, covered_at. cbn [fst snd].
  destruct (nth_error target I) as [tb|] eqn:EI; [|apply nth_error_None in EI; lia].
  destruct (nth_error target K) as [tk|] eqn:EK; [|apply nth_error_None in EK; lia]. cbn [get bind].
  assert (LI : label_of target I = Some (fst tb)) by (unfold label_of; rewrite EI; reflexivity).
  assert (LK : label_of target K = Some (fst tk)) by (unfold label_of; rewrite EK; reflexivity).
  destruct (look_up_subspace source (fst tb)) as [A|] eqn:EA.
  2:{ left. eexists. split; [reflexivity|]. pose proof (look_up_subspace_none _ _ EA) as NA. split; [intros A B _ _ E; rewrite LI in E; elim (NA A E)|]. split; [reflexivity|]. split; [reflexivity|].
      intros i k _ _. cbn. symmetry. apply (sandwich_zero source target); [exact Hs|]. left. intros A. rewrite LI. apply NA. }
  destruct (look_up_subspace source (fst tk)) as [B|] eqn:EB.
  2:{ left. eexists. split; [reflexivity|]. pose proof (look_up_subspace_none _ _ EB) as NB. split; [intros A' B _ _ _ E; rewrite LK in E; elim (NB B E)|]. split; [reflexivity|]. split; [reflexivity|].
      intros i k _ _. cbn. symmetry. apply (sandwich_zero source target); [exact Hs|]. right. intros B. rewrite LK. apply NB. }
  destruct (look_up_subspace_some _ _ _ EA) as [HA LA]. destruct (look_up_subspace_some _ _ _ EB) as [HB LB].
  destruct (look_up_sector so A B) as [io|] eqn:Eo.
  2:{ right. split; [reflexivity|]. intros H. apply look_up_none in Eo. apply Eo. apply (H A B); congruence. }
  destruct (look_up_sector sx A I) as [il|] eqn:El.
  2:{ right. split; [reflexivity|]. intros H. apply look_up_none in El. apply El. apply (H A B); congruence. }
  destruct (look_up_sector sx B K) as [ir|] eqn:Er.
  2:{ right. split; [reflexivity|]. intros H. apply look_up_none in Er. apply Er. apply (H A B); congruence. }
  left. destruct (op_look_up _ _ _ _ _ _ _ Ho Eo) as (o & No & Ro & Co & Vo & _ & _).
  destruct (op_look_up _ _ _ _ _ _ _ Hx El) as (ul & Nl & Rl & Cl & Vl & _ & _). destruct (op_look_up _ _ _ _ _ _ _ Hx Er) as (ur & Nr & Rr & Cr & Vr & _ & _).
  rewrite Nl, No, Nr. cbn [get bind]. unfold mmul, transpose. cbn [rows cols at_]. rewrite Rl, Ro, Nat.eqb_refl. cbn [cassert bind rows cols at_].
  rewrite Co, Rr, Nat.eqb_refl. cbn [cassert bind]. eexists. split; [reflexivity|]. split.
  { intros A' B' _ _ EA' EB'. rewrite LI in EA'. rewrite LK in EB'.
    assert (A' = A) by (eapply label_unique; eassumption). assert (B' = B) by (eapply label_unique; eassumption). subst A' B'.
    split; [|split]; eapply nth_error_In; eapply look_up_some; eassumption. }
  cbn [rows cols at_]. split; [exact Cl|]. split; [exact Cr|]. intros i k _ _.
  rewrite (sandwich_sub source target sx mx so mo I i K k A B (fst tb) (fst tk)) by assumption.
  apply rsum_ext. intros b _. rewrite Vr. f_equal. apply rsum_ext. intros a _. rewrite Vl, Vo. reflexivity.
Qed.

Lemma map_blocks_assert : forall A B (f : A -> outcome B) l, (forall x, In x l -> is_ok (f x) \/ f x = AssertFail) ->
  is_ok (map_blocks f l) \/ map_blocks f l = AssertFail.
Proof.
  intros A B f l. induction l as [|x l IH]; intros H; [left; exists []; reflexivity|]. cbn.
  destruct (H x (or_introl eq_refl)) as [[m E]|E]; rewrite E; cbn; [|right; reflexivity].
  destruct IH as [[r Er]|Er]; [intros y Hy; apply H; right; exact Hy| |]; rewrite Er; cbn; [left; eexists; reflexivity|right; reflexivity].
Qed.

Theorem similarity_product : forall source target sx mx so mo s, op_ok source target sx mx -> op_ok source source so mo ->
  scalar_sectors source target sx -> distinct_labels source -> NoDup s ->
  (forall x, In x s -> (fst x < length target)%nat /\ (snd x < length target)%nat) ->
  (covered source target sx so s ->
    exists r, similarity 0 0 0 source target sx mx so mo s = Ok r /\ op_ok target target s r
    /\ forall I i K k, In (I, K) s -> (i < sub_dim target I)%nat -> (k < sub_dim target K)%nat ->
       entry s r I i K k = ssum source (fun A a => ssum source (fun B b => entry sx mx A a I i * entry so mo A a B b * entry sx mx B b K k)))
  /\ (~ covered source target sx so s -> similarity 0 0 0 source target sx mx so mo s = AssertFail).
Proof.
  intros source target sx mx so mo s Hx Ho Hs Hd Hn Hr. unfold similarity. cbn [Z.eqb cassert bind].
  assert (B : forall x, In x s -> _) by (intros x Hin; exact (similarity_block_ok source target sx mx so mo (fst x) (snd x) Hx Ho Hs Hd (proj1 (Hr x Hin)) (proj2 (Hr x Hin)))).
  assert (Hcov : covered source target sx so s <-> forall x, In x s -> covered_at source target sx so x).
  { split.
    - intros H [I K] Hin A B'. apply (H I K A B' Hin).
    - intros H I K A B' Hin. apply (H (I, K) Hin A B'). }
  split.
  - intros Hc. rewrite Hcov in Hc. destruct (map_blocks_ok _ _ (similarity_block source target sx mx so mo) s) as (bs & E & L & N).
    { intros [I K] Hin. destruct (B (I, K) Hin) as [(m & E & _)|[_ H]]; [exists m; exact E|elim H; exact (Hc (I, K) Hin)]. }
    exists bs. split; [exact E|].
    apply (blocks_entry s bs (sub_dim target) (sub_dim target) (fun I i K k => sandwich source sx mx so mo I i K k) target target Hn Hr L).
    intros q I K Hq. pose proof (nth_error_In _ _ Hq) as Hin. destruct (N q (I, K) Hq) as (m & Em & Ef). exists m. split; [exact Em|].
    destruct (B (I, K) Hin) as [(m' & E' & _ & D)|[_ H]]; [|elim H; exact (Hc (I, K) Hin)]. cbn [fst snd] in E', D. rewrite E' in Ef. injection Ef as <-. exact D.
  - intros Hc. destruct (map_blocks_assert _ _ (similarity_block source target sx mx so mo) s) as [[bs E]|E]; [| |exact E].
    { intros [I K] Hin. destruct (B (I, K) Hin) as [(m & E & _)|[E _]]; [left; exists m; exact E|right; exact E]. }
    elim Hc. rewrite Hcov. intros [I K] Hin. destruct (In_nth_error _ _ Hin) as [q Hq]. destruct (map_blocks_inv _ _ _ _ _ E) as [_ N].
    destruct (N q _ Hq) as (m & _ & Em). destruct (B (I, K) Hin) as [(m' & _ & H & _)|[E' _]]; [exact H|cbn [fst snd] in E'; congruence].
Qed.

Lemma similarity_covered : forall source target sx mx so mo s r, op_ok source target sx mx -> op_ok source source so mo ->
  scalar_sectors source target sx -> distinct_labels source ->
  (forall x, In x s -> (fst x < length target)%nat /\ (snd x < length target)%nat) ->
  similarity 0 0 0 source target sx mx so mo s = Ok r -> covered source target sx so s.
Proof.
  intros source target sx mx so mo s r Hx Ho Hs Hd Hr E I K A B Hin. unfold similarity in E. cbn [Z.eqb cassert bind] in E.
  destruct (In_nth_error _ _ Hin) as [q Hq]. destruct (map_blocks_inv _ _ _ _ _ E) as [_ N]. destruct (N q _ Hq) as (m & _ & Em).
  destruct (Hr _ Hin) as [H1 H2]. destruct (similarity_block_ok source target sx mx so mo I K Hx Ho Hs Hd H1 H2) as [(m' & _ & H & _)|[E' _]]; [exact (H A B)|congruence].
Qed.
Theorem similarity_identity : forall sp sx mx so mo s r, op_ok sp sp sx mx -> op_ok sp sp so mo ->
  scalar_sectors sp sp sx -> distinct_labels sp -> NoDup s -> (forall x, In x s -> (fst x < length sp)%nat /\ (snd x < length sp)%nat) ->
  identity_matrix_on sp sx mx -> similarity 0 0 0 sp sp sx mx so mo s = Ok r ->
  forall I i K k, In (I, K) s -> (i < sub_dim sp I)%nat -> (k < sub_dim sp K)%nat -> entry s r I i K k = entry so mo I i K k.
Proof.
  intros sp sx mx so mo s r Hx Ho Hs Hd Hn Hr Hid E I i K k Hin Hi Hk.
  destruct (similarity_product sp sp sx mx so mo s Hx Ho Hs Hd Hn Hr) as [Hc _].
  destruct (Hc (similarity_covered _ _ _ _ _ _ _ _ Hx Ho Hs Hd Hr E)) as (r' & E' & _ & V). rewrite E' in E. injection E as ->.
  rewrite V by assumption. destruct (Hr _ Hin) as [HI HK]. cbn in HI, HK.
  rewrite (ssum_one sp I i).
  - rewrite (ssum_one sp K k).
    + rewrite (Hid I i I i), (Hid K k K k) by (split; assumption). rewrite !Nat.eqb_refl. cbn [andb]. ring.
    + split; assumption.
    + intros J j HJ Hne. rewrite (Hid J j K k) by (try exact HJ; split; assumption).
      destruct (Nat.eqb_spec J K) as [->|]; [|cbn; ring]. destruct (Nat.eqb_spec j k) as [->|]; [congruence|cbn; ring].
  - split; assumption.
  - intros J j HJ Hne. apply ssum_0. intros J' j' _. rewrite (Hid J j I i) by (try exact HJ; split; assumption).
    destruct (Nat.eqb_spec J I) as [->|]; [|cbn; ring]. destruct (Nat.eqb_spec j i) as [->|]; [congruence|cbn; ring].
Qed.
Theorem similarity_symmetric : forall source target sx mx so mo s r, op_ok source target sx mx -> op_ok source source so mo ->
  scalar_sectors source target sx -> distinct_labels source -> NoDup s -> (forall x, In x s -> (fst x < length target)%nat /\ (snd x < length target)%nat) ->
  symmetric_on source so mo -> similarity 0 0 0 source target sx mx so mo s = Ok r ->
  forall I i K k, In (I, K) s -> In (K, I) s -> (i < sub_dim target I)%nat -> (k < sub_dim target K)%nat -> entry s r I i K k = entry s r K k I i.
Proof.
  intros source target sx mx so mo s r Hx Ho Hs Hd Hn Hr Hsym E I i K k Hin Hin' Hi Hk.
  destruct (similarity_product source target sx mx so mo s Hx Ho Hs Hd Hn Hr) as [Hc _].
  destruct (Hc (similarity_covered _ _ _ _ _ _ _ _ Hx Ho Hs Hd Hr E)) as (r' & E' & _ & V). rewrite E' in E. injection E as ->.
  rewrite !V by assumption. rewrite ssum_swap. apply ssum_ext. intros A a HA. apply ssum_ext. intros B b HB. rewrite (Hsym A a B b HA HB). 
  rewrite (Hsym B b A a HB HA). ring.
Qed.

(** transforming with a product of transformations is transforming twice *)
Theorem similarity_twice : forall s1 s2 s3 su mu sv mv sw mw so mo t mt r r' s,
  op_ok s1 s2 su mu -> op_ok s2 s3 sv mv -> op_ok s1 s1 so mo -> scalar_sectors s1 s2 su -> scalar_sectors s2 s3 sv -> scalar_sectors s1 s3 sw ->
  distinct_labels s1 -> distinct_labels s2 -> NoDup t -> NoDup s -> NoDup sw ->
  (forall x, In x t -> (fst x < length s2)%nat /\ (snd x < length s2)%nat) -> (forall x, In x s -> (fst x < length s3)%nat /\ (snd x < length s3)%nat) ->
  (forall x, In x sw -> (fst x < length s1)%nat /\ (snd x < length s3)%nat) -> product_sectors su sv sw ->
  compose s1 s2 s2 s3 su mu sv mv sw = Ok mw ->
  similarity 0 0 0 s1 s2 su mu so mo t = Ok mt -> similarity 0 0 0 s2 s3 sv mv t mt s = Ok r -> similarity 0 0 0 s1 s3 sw mw so mo s = Ok r' ->
  forall I i K k, In (I, K) s -> (i < sub_dim s3 I)%nat -> (k < sub_dim s3 K)%nat -> entry s r I i K k = entry s r' I i K k.
Proof.
  intros s1 s2 s3 su mu sv mv sw mw so mo t mt r r' s Hu Hv Ho Su Sv Sw D1 D2 Nt Ns Nw Rt Rs Rw Pw Ew Et Er Er' I i K k Hin Hi Hk.
  destruct (compose_product s1 s2 s3 su mu sv mv sw Hu Hv Nw Rw) as (mw' & Ew' & Ow & Vw). rewrite Ew' in Ew. injection Ew as ->.
  destruct (similarity_product s1 s2 su mu so mo t Hu Ho Su D1 Nt Rt) as [Ht _].
  destruct (Ht (similarity_covered _ _ _ _ _ _ _ _ Hu Ho Su D1 Rt Et)) as (mt' & Et' & Ot & Vt). rewrite Et' in Et. injection Et as ->.
  pose proof (similarity_covered _ _ _ _ _ _ _ _ Hv Ot Sv D2 Rs Er) as Cv.
  destruct (similarity_product s2 s3 sv mv t mt s Hv Ot Sv D2 Ns Rs) as [Hr _]. destruct (Hr Cv) as (r1 & Er1 & _ & Vr). rewrite Er1 in Er. injection Er as ->.
  destruct (similarity_product s1 s3 sw mw so mo s Ow Ho Sw D1 Ns Rs) as [Hr' _].
  destruct (Hr' (similarity_covered _ _ _ _ _ _ _ _ Ow Ho Sw D1 Rs Er')) as (r2 & Er2 & _ & Vr'). rewrite Er2 in Er'. injection Er' as ->.
  rewrite Vr, Vr' by assumption.
  pose proof (entry_product s1 s2 s3 su mu sv mv sw mw Hu Hv Ow Pw Vw) as Vw'.
  transitivity (ssum s1 (fun A a => ssum s1 (fun B b => ssum s2 (fun C c => ssum s2 (fun D d =>
    entry su mu A a C c * entry sv mv C c I i * entry so mo A a B b * (entry su mu B b D d * entry sv mv D d K k)))))).
  - transitivity (ssum s2 (fun C c => ssum s2 (fun D d => ssum s1 (fun A a => ssum s1 (fun B b =>
      entry su mu A a C c * entry sv mv C c I i * entry so mo A a B b * (entry su mu B b D d * entry sv mv D d K k)))))).
    + apply ssum_ext. intros C c [HC Hc]. apply ssum_ext. intros D d [HD Hd].
      destruct (in_dec pair_dec (C, I) sv) as [H1|H1].
      2:{ rewrite (entry_absent sv) by exact H1. rewrite ssum_0; [ring|]. intros. apply ssum_0. intros. ring. }
      destruct (in_dec pair_dec (D, K) sv) as [H2|H2].
      2:{ rewrite (entry_absent sv mv D) by exact H2. rewrite ssum_0; [ring|]. intros. apply ssum_0. intros. ring. }
      destruct (Cv I K C D Hin HC HD (Sv _ _ H1) (Sv _ _ H2)) as [HCD _].
      rewrite (Vt C c D d HCD Hc Hd). rewrite Rmult_comm, <- Rmult_assoc.
      rewrite <- (ssum_scale s1). apply ssum_ext. intros A a _. rewrite <- ssum_scale. apply ssum_ext. intros B b _. ring.
    + etransitivity; [apply ssum_ext; intros C c _; apply ssum_swap|]. rewrite ssum_swap. apply ssum_ext. intros A a _.
      etransitivity; [apply ssum_ext; intros C c _; apply ssum_swap|]. apply ssum_swap.
  - apply ssum_ext. intros A a [HA Ha]. apply ssum_ext. intros B b [HB Hb].
    rewrite (Vw' A a I i Ha Hi), (Vw' B b K k Hb Hk). rewrite Rmult_assoc.
    rewrite <- ssum_scale_r. apply ssum_ext. intros C c _.
    rewrite <- ssum_scale, <- ssum_scale. apply ssum_ext. intros D d _. ring.
Qed.

(** ** C56: generated radial operators *)
Lemma spin_half_step : forall b k, spin_half b -> spin_half k -> ljpn_allowed 1 1 b k -> one_step (ll_l k) (ll_l b).
Proof.
  intros b k (H1 & H2 & H3) (K1 & K2 & K3) [H4 H5]. unfold one_step.
  apply Z.even_spec in H5. destruct H5 as [m Hm]. lia.
Qed.
Definition formula (is_k : bool) (order : Z) (bn bl kn kl : Z) : outcome num :=
  if (order =? 1)%Z then coordinate (2 * bn + bl) bl (2 * kn + kl) kl (if is_k then -1 else 1)
  else Ok (coordinate_sqr (2 * bn + bl) bl (2 * kn + kl) kl (if is_k then -1 else 1)).
Lemma element_block_ok : forall bra ket el (f : Z -> Z -> Z -> Z -> num) I K, (I < length bra)%nat -> (K < length ket)%nat ->
  (forall b k bn kn, nth_error bra I = Some b -> nth_error ket K = Some k -> In bn (snd b) -> In kn (snd k) ->
     el bn (ll_l (fst b)) kn (ll_l (fst k)) = Ok (f bn (ll_l (fst b)) kn (ll_l (fst k)))) ->
  exists m, element_block bra ket el (I, K) = Ok m /\ rows m = sub_dim bra I /\ cols m = sub_dim ket K
  /\ forall i j bn kn bl kl, n_of bra I i bn -> n_of ket K j kn -> l_of bra I bl -> l_of ket K kl -> at_ m i j = f bn bl kn kl.
Proof.
  intros bra ket el f I K HI HK H. unfold element_block, sub_dim. cbn [fst snd].
  destruct (nth_error bra I) as [[lb nb]|] eqn:EI; [|apply nth_error_None in EI; lia].
  destruct (nth_error ket K) as [[lk nk]|] eqn:EK; [|apply nth_error_None in EK; lia]. cbn [get bind fst snd].
  destruct (fill_ok _ (Num 0) (length nb) (length nk) (fun i j => bn <- get (nth_error nb i) ;; kn <- get (nth_error nk j) ;; el bn (ll_l lb) kn (ll_l lk))
    (fun i j => f (nth i nb 0%Z) (ll_l lb) (nth j nk 0%Z) (ll_l lk))) as (m & E & R & C & A).
  { intros i j Hi Hj. rewrite (nth_error_nth' nb 0%Z Hi), (nth_error_nth' nk 0%Z Hj). cbn [get bind].
    apply (H (lb, nb) (lk, nk)); try reflexivity; apply nth_In; assumption. }
  exists m. split; [exact E|]. split; [exact R|]. split; [exact C|].
  intros i j bn kn bl kl (x & Ex & Nx) (y & Ey & Ny) (x' & Ex' & Lx) (y' & Ey' & Ly). rewrite EI in Ex, Ex'. rewrite EK in Ey, Ey'.
  injection Ex as <-. injection Ey as <-. injection Ex' as <-. injection Ey' as <-. cbn [fst snd] in *.
  rewrite A by (apply nth_error_Some; congruence). rewrite (nth_error_nth _ _ _ Nx), (nth_error_nth _ _ _ Ny). rewrite Lx, Ly. reflexivity.
Qed.
Lemma orbital_space_nth : forall sp I x n, orbital_space sp -> nth_error sp I = Some x -> In n (snd x) -> spin_half (fst x) /\ (0 <= n)%Z.
Proof.
  intros sp I x n H E Hn. unfold orbital_space in H. rewrite Forall_forall in H. destruct (H x (nth_error_In _ _ E)) as [H1 H2]. split; [exact H1|].
  rewrite Forall_forall in H2. apply H2. exact Hn.
Qed.
Definition osc_case (order J0 g0 : Z) : Prop := (order = 1 /\ J0 = 1 /\ g0 = 1)%Z \/ (order = 2 /\ (J0 = 0 \/ J0 = 2) /\ g0 = 0)%Z.

Theorem radial_operator_oscillator : forall spline is_k order J0 g0 sp s, orbital_space sp -> osc_case order J0 g0 ->
  (forall I K, In (I, K) s -> exists b k, nth_error sp I = Some b /\ nth_error sp K = Some k /\ ljpn_allowed J0 g0 (fst b) (fst k)) ->
  exists bs, radial_operator spline BOscillator is_k order J0 g0 sp s = Ok bs /\ length bs = length s
  /\ forall q I K, nth_error s q = Some (I, K) -> exists m, nth_error bs q = Some m /\ rows m = sub_dim sp I /\ cols m = sub_dim sp K
    /\ forall i j bn kn bl kl, n_of sp I i bn -> n_of sp K j kn -> l_of sp I bl -> l_of sp K kl ->
       (exists x, at_ m i j = Num x) /\
       (if (order =? 1)%Z then coordinate (2 * bn + bl) bl (2 * kn + kl) kl (if is_k then -1 else 1)
        else Ok (coordinate_sqr (2 * bn + bl) bl (2 * kn + kl) kl (if is_k then -1 else 1))) = Ok (at_ m i j).
Proof.
  intros spline is_k order J0 g0 sp s Hsp Hc Hs. unfold radial_operator.
  set (sg := (if is_k then -1 else 1)%Z).
  set (f := fun bn bl kn kl => if (order =? 1)%Z
     then Num ((IZR sg * val (cdagger (2 * bn + bl) bl (2 * kn + kl) kl) + val (clower (2 * bn + bl) bl (2 * kn + kl) kl)) / k_sqrt_2)
     else coordinate_sqr (2 * bn + bl) bl (2 * kn + kl) kl sg).
  assert (G : forall I K b k bn kn, In (I, K) s -> nth_error sp I = Some b -> nth_error sp K = Some k -> In bn (snd b) -> In kn (snd k) ->
     formula is_k order bn (ll_l (fst b)) kn (ll_l (fst k)) = Ok (f bn (ll_l (fst b)) kn (ll_l (fst k)))
     /\ exists x, f bn (ll_l (fst b)) kn (ll_l (fst k)) = Num x).
  { intros I K b k bn kn Hin Eb Ek Hb Hk. destruct (Hs I K Hin) as (b' & k' & Eb' & Ek' & Hal). rewrite Eb in Eb'. rewrite Ek in Ek'.
    injection Eb' as <-. injection Ek' as <-. destruct (orbital_space_nth sp I b bn Hsp Eb Hb) as [Sb Nb]. destruct (orbital_space_nth sp K k kn Hsp Ek Hk) as [Sk Nk].
    unfold formula, f. destruct Hc as [(-> & -> & ->)|(-> & _ & _)]; cbn [Z.eqb Pos.eqb].
    - split; [|eexists; reflexivity]. apply coordinate_num; [apply ho_n; [exact Nk|apply Sk]|apply spin_half_step; assumption].
    - split; [reflexivity|]. apply sqr_num; apply ho_n; try assumption; [apply Sb|apply Sk]. }
  assert (EL : forall bn bl kn kl, radial_element spline BOscillator is_k order J0 g0 bn bl kn kl = formula is_k order bn bl kn kl).
  { intros. unfold radial_element, formula. destruct Hc as [(-> & -> & ->)|(-> & [-> | ->] & ->)]; reflexivity. }
  assert (B : forall x, In x s -> exists m, element_block sp sp (radial_element spline BOscillator is_k order J0 g0) x = Ok m
     /\ rows m = sub_dim sp (fst x) /\ cols m = sub_dim sp (snd x)
     /\ forall i j bn kn bl kl, n_of sp (fst x) i bn -> n_of sp (snd x) j kn -> l_of sp (fst x) bl -> l_of sp (snd x) kl -> at_ m i j = f bn bl kn kl).
  { intros [I K] Hin. cbn [fst snd]. destruct (Hs I K Hin) as (b & k & Eb & Ek & _).
    apply element_block_ok; [apply nth_error_Some; congruence|apply nth_error_Some; congruence|].
    intros b' k' bn kn Eb' Ek' Hb Hk. rewrite EL. apply (G I K b' k' bn kn Hin Eb' Ek' Hb Hk). }
  destruct (map_blocks_ok _ _ _ s (fun x Hx => let (m, H) := B x Hx in ex_intro _ m (proj1 H))) as (bs & E & L & N).
  exists bs. split; [exact E|]. split; [exact L|]. intros q I K Hq. destruct (N q (I, K) Hq) as (m & Em & Ef).
  destruct (B (I, K) (nth_error_In _ _ Hq)) as (m' & E' & R & C & A). rewrite E' in Ef. injection Ef as <-. cbn [fst snd] in *.
  exists m'. split; [exact Em|]. split; [exact R|]. split; [exact C|]. intros i j bn kn bl kl H1 H2 H3 H4. rewrite (A _ _ _ _ _ _ H1 H2 H3 H4).
  destruct H1 as (b & Eb & Nb). destruct H2 as (k & Ek & Nk). destruct H3 as (b2 & Eb2 & Lb). destruct H4 as (k2 & Ek2 & Lk).
  rewrite Eb in Eb2. rewrite Ek in Ek2. injection Eb2 as <-. injection Ek2 as <-. subst bl kl.
  destruct (G I K b k bn kn (nth_error_In _ _ Hq) Eb Ek (nth_error_In _ _ Nb) (nth_error_In _ _ Nk)) as [G1 G2]. split; [exact G2|exact G1].
Qed.

(** ** C57: overlaps of a basis with itself *)
Theorem self_overlaps : forall spline bt scale sp s, distinct_labels sp -> Forall (fun x => NoDup (snd x)) sp -> NoDup s ->
  (forall I K, In (I, K) s -> (I < length sp)%nat /\ (K < length sp)%nat) -> scalar_sectors sp sp s -> (forall I, (I < length sp)%nat -> In (I, I) s) ->
  exists bs, radial_overlaps spline 0 0 0 bt bt scale true sp sp s = Ok bs /\ op_ok sp sp s (map real_block bs)
  /\ identity_matrix_on sp s (map real_block bs) /\ Forall no_nan bs.
Proof.
  intros spline bt scale sp s Hd Hnd Hn Hr Hs Hall. unfold radial_overlaps. cbn [Z.eqb cassert bind].
  set (f := fun bn bl kn kl : Z => if (bn =? kn)%Z && (bl =? kl)%Z then Num 1 else Num 0).
  assert (EL : forall bn bl kn kl, overlap_element spline bt bt scale true bn bl kn kl = f bn bl kn kl).
  { intros. unfold overlap_element. destruct bt; reflexivity. }
  assert (B : forall x, In x s -> exists m, element_block sp sp (fun bn bl kn kl => Ok (overlap_element spline bt bt scale true bn bl kn kl)) x = Ok m
     /\ rows m = sub_dim sp (fst x) /\ cols m = sub_dim sp (snd x)
     /\ forall i j bn kn bl kl, n_of sp (fst x) i bn -> n_of sp (snd x) j kn -> l_of sp (fst x) bl -> l_of sp (snd x) kl -> at_ m i j = f bn bl kn kl).
  { intros [I K] Hin. cbn [fst snd]. destruct (Hr I K Hin) as [HI HK]. apply element_block_ok; [exact HI|exact HK|]. intros. rewrite EL. reflexivity. }
  assert (S : forall I i, (I < length sp)%nat -> (i < sub_dim sp I)%nat -> exists n l, n_of sp I i n /\ l_of sp I l).
  { intros I i HI Hi. unfold sub_dim in Hi. destruct (nth_error sp I) as [[lb nb]|] eqn:EI; [|lia]. exists (nth i nb 0%Z), (ll_l lb).
    split; [exists (lb, nb); split; [exact EI|apply nth_error_nth'; exact Hi]|exists (lb, nb); auto]. }
  destruct (map_blocks_ok _ _ _ s (fun x Hx => let (m, H) := B x Hx in ex_intro _ m (proj1 H))) as (bs & E & L & N).
  exists bs. split; [exact E|].
  assert (V : forall q I K, nth_error s q = Some (I, K) -> exists m, nth_error (map real_block bs) q = Some m /\ rows m = sub_dim sp I /\ cols m = sub_dim sp K
     /\ forall i k, (i < sub_dim sp I)%nat -> (k < sub_dim sp K)%nat -> at_ m i k = if Nat.eqb I K && Nat.eqb i k then 1 else 0).
  { intros q I K Hq. destruct (N q (I, K) Hq) as (m & Em & Ef). pose proof (nth_error_In _ _ Hq) as Hin.
    destruct (B (I, K) Hin) as (m' & E' & R & C & A). rewrite E' in Ef. injection Ef as <-. cbn [fst snd] in *.
    exists (real_block m'). split; [rewrite nth_error_map, Em; reflexivity|]. split; [exact R|]. split; [exact C|]. intros i k Hi Hk. cbn [real_block at_].
    destruct (Hr I K Hin) as [HI HK]. destruct (S I i HI Hi) as (n & l & Hn1 & Hl1). destruct (S K k HK Hk) as (n' & l' & Hn2 & Hl2).
    rewrite (A _ _ _ _ _ _ Hn1 Hn2 Hl1 Hl2). pose proof (Hs I K Hin) as Elab.
    assert (I = K). { destruct (nth_error sp I) as [x|] eqn:EI; [|apply nth_error_None in EI; lia].
      apply (label_unique sp I K (fst x) Hd); [unfold label_of; rewrite EI; reflexivity|rewrite <- Elab; unfold label_of; rewrite EI; reflexivity]. }
    subst K. rewrite Nat.eqb_refl. cbn [andb]. destruct Hl1 as (x & Ex & Lx). destruct Hl2 as (y & Ey & Ly). rewrite Ex in Ey. injection Ey as <-.
    subst l l'. unfold f. rewrite Z.eqb_refl, Bool.andb_true_r. destruct Hn1 as (x1 & Ex1 & Nx1). destruct Hn2 as (x2 & Ex2 & Nx2).
    rewrite Ex in Ex1, Ex2. injection Ex1 as <-. injection Ex2 as <-. rewrite Forall_forall in Hnd. pose proof (Hnd x (nth_error_In _ _ Ex)) as Nd.
    destruct (Nat.eqb_spec i k) as [->|Hne].
    - rewrite Nx1 in Nx2. injection Nx2 as <-. rewrite Z.eqb_refl. reflexivity.
    - destruct (Z.eqb_spec n n') as [->|]; [|reflexivity]. elim Hne. apply (proj1 (NoDup_nth_error _) Nd); [apply nth_error_Some; congruence|congruence]. }
  destruct (blocks_entry s (map real_block bs) (sub_dim sp) (sub_dim sp) (fun I i K k => if Nat.eqb I K && Nat.eqb i k then 1 else 0) sp sp Hn) as [O X].
  { intros [I K] Hin. apply Hr. exact Hin. }
  { rewrite map_length. exact L. }
  { exact V. }
  split; [exact O|]. split.
  - intros A a I i [HA Ha] [HI Hi]. destruct (in_dec pair_dec (A, I) s) as [Hin|Hnin]; [apply X; assumption|].
    rewrite entry_absent by exact Hnin. destruct (Nat.eqb_spec A I) as [->|]; [|reflexivity]. elim Hnin. apply Hall. exact HI.
  - rewrite Forall_forall. intros m Hm. destruct (In_nth_error _ _ Hm) as [q Hq].
    assert (Hlt : (q < length s)%nat) by (rewrite <- L; apply nth_error_Some; congruence).
    destruct (nth_error s q) as [[I K]|] eqn:Es; [|apply nth_error_None in Es; lia]. pose proof (nth_error_In _ _ Es) as Hin.
    destruct (N q _ Es) as (m' & Em' & Ef). rewrite Hq in Em'. injection Em' as <-.
    destruct (B (I, K) Hin) as (m' & E' & R & C & A). rewrite E' in Ef. injection Ef as <-. cbn [fst snd] in *. intros i j Hi Hj.
    destruct (Hr I K Hin) as [HI HK]. rewrite R in Hi. rewrite C in Hj. destruct (S I i HI Hi) as (n & l & Hn1 & Hl1). destruct (S K j HK Hj) as (n' & l' & Hn2 & Hl2).
    rewrite (A _ _ _ _ _ _ Hn1 Hn2 Hl1 Hl2). unfold f. destruct ((n =? n')%Z && (l =? l')%Z); discriminate.
Qed.
Theorem self_overlap_similarity : forall spline bt scale sp s bs so mo t r, distinct_labels sp -> Forall (fun x => NoDup (snd x)) sp -> NoDup s -> NoDup t ->
  (forall I K, In (I, K) s -> (I < length sp)%nat /\ (K < length sp)%nat) -> scalar_sectors sp sp s -> (forall I, (I < length sp)%nat -> In (I, I) s) ->
  op_ok sp sp so mo -> (forall x, In x t -> (fst x < length sp)%nat /\ (snd x < length sp)%nat) ->
  radial_overlaps spline 0 0 0 bt bt scale true sp sp s = Ok bs -> similarity 0 0 0 sp sp s (map real_block bs) so mo t = Ok r ->
  forall I i K k, In (I, K) t -> (i < sub_dim sp I)%nat -> (k < sub_dim sp K)%nat -> entry t r I i K k = entry so mo I i K k.
Proof.
  intros spline bt scale sp s bs so mo t r Hd Hnd Hn Hnt Hr Hs Hall Ho Hrt Eb Er.
  destruct (self_overlaps spline bt scale sp s Hd Hnd Hn Hr Hs Hall) as (bs' & E & O & Id & _). rewrite E in Eb. injection Eb as ->.
  eapply similarity_identity; eassumption.
Qed.

(** ** the other elements of radial operators and overlaps, and what is refused *)
Lemma blocks_elements : forall bra ket el (f : Z -> Z -> Z -> Z -> num) s,
  (forall I K, In (I, K) s -> (I < length bra)%nat /\ (K < length ket)%nat) -> (forall bn bl kn kl, el bn bl kn kl = Ok (f bn bl kn kl)) ->
  exists bs, map_blocks (element_block bra ket el) s = Ok bs /\ length bs = length s
  /\ forall q I K, nth_error s q = Some (I, K) -> exists m, nth_error bs q = Some m /\ rows m = sub_dim bra I /\ cols m = sub_dim ket K
    /\ forall i j bn kn bl kl, n_of bra I i bn -> n_of ket K j kn -> l_of bra I bl -> l_of ket K kl -> at_ m i j = f bn bl kn kl.
Proof.
  intros bra ket el f s Hs Hel.
  assert (B : forall x, In x s -> exists m, element_block bra ket el x = Ok m /\ rows m = sub_dim bra (fst x) /\ cols m = sub_dim ket (snd x)
     /\ forall i j bn kn bl kl, n_of bra (fst x) i bn -> n_of ket (snd x) j kn -> l_of bra (fst x) bl -> l_of ket (snd x) kl -> at_ m i j = f bn bl kn kl).
  { intros [I K] Hin. cbn [fst snd]. destruct (Hs I K Hin) as [HI HK]. apply element_block_ok; [exact HI|exact HK|]. intros. apply Hel. }
  destruct (map_blocks_ok _ _ _ s (fun x Hx => let (m, H) := B x Hx in ex_intro _ m (proj1 H))) as (bs & E & L & N).
  exists bs. split; [exact E|]. split; [exact L|]. intros q I K Hq. destruct (N q (I, K) Hq) as (m & Em & Ef).
  destruct (B (I, K) (nth_error_In _ _ Hq)) as (m' & E' & R & C & A). rewrite E' in Ef. injection Ef as <-. cbn [fst snd] in *.
  exists m'. auto.
Qed.
Theorem radial_operator_order_0 : forall spline bt is_k J0 g0 sp s, (forall I K, In (I, K) s -> (I < length sp)%nat /\ (K < length sp)%nat) ->
  exists bs, radial_operator spline bt is_k 0 J0 g0 sp s = Ok bs /\ length bs = length s
  /\ forall q I K, nth_error s q = Some (I, K) -> exists m, nth_error bs q = Some m /\ rows m = sub_dim sp I /\ cols m = sub_dim sp K
    /\ forall i j bn kn bl kl, n_of sp I i bn -> n_of sp K j kn -> l_of sp I bl -> l_of sp K kl ->
       at_ m i j = if (bn =? kn)%Z && (bl =? kl)%Z then Num 1 else Num 0.
Proof.
  intros spline bt is_k J0 g0 sp s Hs. apply (blocks_elements sp sp _ (fun bn bl kn kl => if (bn =? kn)%Z && (bl =? kl)%Z then Num 1 else Num 0) s Hs). reflexivity.
Qed.
Theorem radial_operator_spline : forall spline bt is_k order J0 g0 sp s, (forall I K, In (I, K) s -> (I < length sp)%nat /\ (K < length sp)%nat) ->
  order <> 0%Z -> (bt = BOscillator -> ~ osc_case order J0 g0) ->
  exists bs, radial_operator spline bt is_k order J0 g0 sp s = Ok bs /\ length bs = length s
  /\ forall q I K, nth_error s q = Some (I, K) -> exists m, nth_error bs q = Some m /\ rows m = sub_dim sp I /\ cols m = sub_dim sp K
    /\ forall i j bn kn bl kl, n_of sp I i bn -> n_of sp K j kn -> l_of sp I bl -> l_of sp K kl -> at_ m i j = spline bn bl bt kn kl 1 bt is_k order.
Proof.
  intros spline bt is_k order J0 g0 sp s Hs H0 Hc. apply (blocks_elements sp sp _ (fun bn bl kn kl => spline bn bl bt kn kl 1 bt is_k order) s Hs).
  intros. unfold radial_element. destruct (Z.eqb_spec order 0); [contradiction|]. destruct bt; [|reflexivity]. specialize (Hc eq_refl). unfold osc_case in Hc.
  destruct ((order =? 1)%Z && (J0 =? 1)%Z && (g0 =? 1)%Z) eqn:E1.
  { apply Bool.andb_true_iff in E1. destruct E1 as [E1 E3]. apply Bool.andb_true_iff in E1. destruct E1 as [E1 E2]. lia. }
  destruct ((order =? 2)%Z && ((J0 =? 0)%Z || (J0 =? 2)%Z) && (g0 =? 0)%Z) eqn:E2; [|reflexivity].
  apply Bool.andb_true_iff in E2. destruct E2 as [E2 E4]. apply Bool.andb_true_iff in E2. destruct E2 as [E2 E5]. apply Bool.orb_true_iff in E5. lia.
Qed.
Theorem radial_overlaps_spline : forall spline bb kb scale scale_is_1 bra ket s, (forall I K, In (I, K) s -> (I < length bra)%nat /\ (K < length ket)%nat) ->
  bb <> kb \/ scale_is_1 = false ->
  exists bs, radial_overlaps spline 0 0 0 bb kb scale scale_is_1 bra ket s = Ok bs /\ length bs = length s
  /\ forall q I K, nth_error s q = Some (I, K) -> exists m, nth_error bs q = Some m /\ rows m = sub_dim bra I /\ cols m = sub_dim ket K
    /\ forall i j bn kn bl kl, n_of bra I i bn -> n_of ket K j kn -> l_of bra I bl -> l_of ket K kl -> at_ m i j = spline bn bl bb kn kl scale kb false 0%Z.
Proof.
  intros spline bb kb scale is1 bra ket s Hs Hc. unfold radial_overlaps. cbn [Z.eqb cassert bind].
  apply (blocks_elements bra ket _ (fun bn bl kn kl => spline bn bl bb kn kl scale kb false 0%Z) s Hs).
  intros. unfold overlap_element. destruct Hc as [Hc| ->]; [|reflexivity]. destruct is1, bb, kb; cbn; congruence.
Qed.
Lemma scalar_only : forall (J0 g0 Tz0 : Z) A (k : outcome A), (J0, g0, Tz0) <> (0, 0, 0)%Z ->
  (cassert (J0 =? 0)%Z ;;; cassert (g0 =? 0)%Z ;;; cassert (Tz0 =? 0)%Z ;;; k) = AssertFail.
Proof.
  intros J0 g0 Tz0 A k H. destruct (Z.eqb_spec J0 0) as [->|]; [|reflexivity]. destruct (Z.eqb_spec g0 0) as [->|]; [|reflexivity].
  destruct (Z.eqb_spec Tz0 0) as [->|]; [|reflexivity]. congruence.
Qed.
Theorem similarity_refused : forall J0 g0 Tz0 source target sx mx so mo s, (J0, g0, Tz0) <> (0, 0, 0)%Z ->
  similarity J0 g0 Tz0 source target sx mx so mo s = AssertFail.
Proof. intros. apply scalar_only. assumption. Qed.
Theorem overlaps_refused : forall spline J0 g0 Tz0 bb kb scale scale_is_1 bra ket s, (J0, g0, Tz0) <> (0, 0, 0)%Z ->
  radial_overlaps spline J0 g0 Tz0 bb kb scale scale_is_1 bra ket s = AssertFail.
Proof. intros. apply scalar_only. assumption. Qed.
