(** C89-C93: refusals, truncation, and concrete cases. *)
From Coq Require Import List ZArith Reals Bool Lia Lra.
From Verif Require Import Base BaseLemmas RMat OscModel OscFinal BlockModel BlockProof ObioModel ObioFinal MoshModel JpvModel JpvSpec JpvProof IsoModel XformFinal TrfModel TrfSpec TrfProof TrfFinal TrfId.
Import ListNotations.
Open Scope Z_scope.
Open Scope outcome_scope.

(** relative quanta beyond those of the relative space *)
Lemma relcm_element_refused : forall u6jz racah1 flip rs sectors ms J0 T0 x y Nr lr Nr' lr' Nc lc, rel_Nmax rs < Z.max Nr Nr' ->
  relcm_element u6jz racah1 flip rs sectors ms J0 T0 x (Nr, lr, Nc, lc) y (Nr', lr', Nc, lc) = AssertFail.
Proof.
  intros. unfold relcm_element. rewrite !Z.eqb_refl. cbn [andb negb]. destruct (Z.leb_spec (Z.max Nr Nr') (rel_Nmax rs)); [lia|reflexivity].
Qed.
(** the relative angular momentum is cut off at Jmax, which has no effect from N + 1 on *)
Lemma relcm_cutoff : forall u6jz racah1 F Jmax Jmax' J0 T0 x p y q, lab_ok x -> lab_ok y -> cm_state x p -> cm_state y q ->
  b_N x + 1 <= Jmax -> b_N y + 1 <= Jmax -> b_N x + 1 <= Jmax' -> b_N y + 1 <= Jmax' ->
  relcm_rme u6jz racah1 Jmax J0 F T0 x p y q = relcm_rme u6jz racah1 Jmax' J0 F T0 x p y q.
Proof.
  intros u6jz racah1 F Jmax Jmax' J0 T0 x [[[Nr lr] Nc] lc] y [[[Nr' lr'] Nc'] lc'] (_ & Sx & _) (_ & Sy & _) (O1 & O2 & E1 & _) (O3 & O4 & E2 & _) H1 H2 H3 H4. unfold relcm_rme, osc in *.
  destruct ((Nc =? Nc') && (lc =? lc')); [|reflexivity].
  assert (K : forall (P : Z -> bool) (f : Z -> R) l s n, 0 <= l <= n -> 0 <= s <= 1 -> n + 1 <= Jmax -> n + 1 <= Jmax' -> (forall j, P j = true -> couples l s j) ->
    (forall j, P j = false -> f j = 0%R) -> lsum (zrange 0 Jmax) f = lsum (zrange 0 Jmax') f).
  { intros P f l s n L1 L2 L3 L4 HP H0.
    rewrite (lsum_ext _ (zrange 0 Jmax) f (fun j => if P j then f j else 0%R)) by (intros j _; destruct (P j) eqn:E; [reflexivity|apply H0; exact E]).
    rewrite (lsum_ext _ (zrange 0 Jmax') f (fun j => if P j then f j else 0%R)) by (intros j _; destruct (P j) eqn:E; [reflexivity|apply H0; exact E]).
    rewrite <- !(lsum_filter Z P). apply lsum_nodup_eq; try (apply NoDup_filter, NoDup_zrange). intros j. rewrite !filter_In, !in_zrange.
    split; intros [A B]; (split; [|exact B]); apply HP in B; unfold couples in B; lia. }
  rewrite (K (couplesb lr (b_S x)) _ lr (b_S x) (b_N x)); try lia.
  - apply lsum_ext. intros Jr _. apply (K (couplesb lr' (b_S y)) _ lr' (b_S y) (b_N y)); try lia.
    + intros j. apply couplesb_ok.
    + intros j Hj. rewrite Hj. destruct (couplesb lr (b_S x) Jr), (couplesb lc (b_J x) Jr); reflexivity.
  - intros j. apply couplesb_ok.
  - intros j Hj. rewrite Hj. cbn [andb]. apply lsum_0. reflexivity.
Qed.

(** ** the space of no quanta: one relative, relative-cm and two-body state for each of J T = 01 and 10 *)
Definition one6 (_ _ _ _ _ _ : Z) : R := 1%R.
Definition one7 (_ _ _ _ _ _ _ : Z) : R := 1%R.
Definition one9 (_ _ _ _ _ _ _ _ _ : Z) : R := 1%R.
Definition one5 (_ _ _ _ _ : Z) : R := 1%R.
Lemma no_quanta : coefficients_ok one6 one7 one7 one9 one5 0.
Proof.
  assert (L0 : forall N L a, N <= 0 -> lstate N L a -> N = 0 /\ L = 0 /\ a = (0, 0, 0, 0)).
  { intros N L [[[N1 l1] N2] l2] HN ((A1 & _) & (A2 & _) & A3 & A4). unfold couples in A4. assert (N1 = 0 /\ l1 = 0 /\ N2 = 0 /\ l2 = 0) by lia. intuition (subst; try reflexivity; lia). }
  unfold coefficients_ok. refine (conj _ (conj _ (conj _ (conj _ (conj _ (conj _ (conj _ _))))))).
  - intros T0 J T _ _. reflexivity.
  - intros T0 T T' Jr lc J Jr' J' _ _ _ _. unfold one7, one5. ring.
  - intros Jr lc J _ _. reflexivity.
  - intros lr lc S J L L' H1 H2 H3 H4 H5 H6 H7 H8. assert (lr = 0) by lia. assert (lc = 0) by lia. subst. unfold couples in *. assert (L = 0) by lia. assert (L' = 0) by lia. subst.
    assert (J = S) by lia. subst J. rewrite delta_eq. assert (S = 0 \/ S = 1) as [->| ->] by lia; cbn; unfold Pos.to_nat; cbn; unfold one6; ring.
  - intros N L a b HN Ha Hb. destruct (L0 N L a HN Ha) as (-> & -> & ->). destruct (L0 0 0 b HN Hb) as (_ & _ & ->). rewrite delta_eq. cbn. unfold Pos.to_nat. cbn. unfold one9. ring.
  - intros N L p a HN Hp Ha. destruct (L0 N L p HN Hp) as (-> & -> & ->). destruct (L0 0 0 a HN Ha) as (_ & _ & ->). cbn. unfold one9. ring.
  - intros l1 j1 l2 j2 j1' j2' J H1 H2 H3 HJ H4 H5 H6 H7 P1 P2 P3 P4 C1 C2. unfold half_j, couples in *. assert (l1 = 0) by lia. assert (l2 = 0) by lia. subst. assert (j1 = 1) by lia. assert (j2 = 1) by lia.
    assert (j1' = 1) by lia. assert (j2' = 1) by lia. subst. rewrite !delta_eq. assert (J = 0 \/ J = 1) as [->| ->] by lia; cbn; unfold Pos.to_nat; cbn; unfold one7; ring.
  - intros l1 j1 l2 j2 L S J H1 H2 H3 H4 H5 P1 P2 C1 HS C2 C3. unfold half_j, couples in *. assert (l1 = 0) by lia. assert (l2 = 0) by lia. subst. assert (j1 = 1) by lia. assert (j2 = 1) by lia.
    assert (L = 0) by lia. subst. assert (J = S) by lia. subst J. assert (S = 0 \/ S = 1) as [->| ->] by lia; cbn; unfold Pos.to_nat; cbn; unfold one7; ring.
Qed.
Definition rel0 : relspace := Rel [RSub 0 0 0 1 0 1%nat; RSub 0 1 1 0 0 1%nat] 0 1.
Definition ls0 : list lssub := [(Lab 0 0 0 1 0 0, [(0, 0, 0, 0)]); (Lab 0 1 1 0 0 0, [(0, 0, 0, 0)])].
Definition jj0 : list jjsub := [(JLab 0 1 0 0, [((0, 0, 1), (0, 0, 1))]); (JLab 1 0 0 0, [((0, 0, 1), (0, 0, 1))])].
Definition scalar0 : oplab := OpLab 0 0 0 0.
Definition block0 (x : R) : mat R := Mat 1 1 (fun _ _ => x).
Definition diag0 (x y : R) : components := [([(0, 0); (1, 1)]%nat, [block0 x; block0 y]); ([], []); ([], [])].
Definition F0 (x y : R) (T0 : Z) (a : rlab) (n : Z) (b : rlab) (m : Z) : R := (if dec4 a b then if rl_T a =? 1 then x else y else 0)%R.
Ltac nths H := repeat match type of H with nth_error _ ?i = Some _ => destruct i; cbn in H; [injection H as <-|try discriminate] end.
Lemma rel0_complete : rel_complete rel0.
Proof.
  split.
  - repeat constructor; cbn; intuition discriminate.
  - intros L S J T HL HS HC HJ HT Ho. cbn in *. assert (L = 0) by lia. subst L. unfold couples in HC. assert (S = 0 \/ S = 1) as [->| ->] by lia.
    + assert (J = 0) by lia. subst J. assert (T = 0 \/ T = 1) as [->| ->] by lia; [discriminate|]. exists (RSub 0 0 0 1 0 1%nat). repeat split; auto.
    + assert (J = 1) by lia. subst J. assert (T = 0 \/ T = 1) as [->| ->] by lia; [|discriminate]. exists (RSub 0 1 1 0 0 1%nat). repeat split; auto.
Qed.
Lemma rel0_stores : forall x y, stores_rel rel0 scalar0 (diag0 x y) (F0 x y).
Proof.
  intros x y T0 HT. unfold in_range in HT. cbn in HT. assert (T0 = 0) by lia. subst T0. eexists _, _. split; [reflexivity|]. split; [repeat constructor; cbn; intuition discriminate|].
  intros i k a b Hik Ha Hb (R1 & R2 & _). cbn [rel_subs rel0] in Ha, Hb. destruct i as [|[|[|i]]]; cbn in Ha; try discriminate; destruct k as [|[|[|k]]]; cbn in Hb; try discriminate; injection Ha as <-; injection Hb as <-.
  - exists 0%nat, (block0 x). repeat split.
  - unfold couples in R1. cbn in R1. lia.
  - lia.
  - exists 1%nat, (block0 y). repeat split.
Qed.
Lemma F0_hermitian : forall x y, hermitian_rel one5 (F0 x y).
Proof. intros x y T0 a n b m _ _ _ _. unfold F0, one5. destruct (dec4 a b) as [<-|N]; [destruct (dec4 a a); [ring|congruence]|]. destruct (dec4 b a); [congruence|ring]. Qed.
Lemma ls0_labs : Forall (fun x : lssub => lab_ok (fst x)) ls0.
Proof. repeat constructor; cbn; unfold couples; lia. Qed.
Lemma zero4 : forall N1 l1 N2 l2, osc N1 l1 -> osc N2 l2 -> N1 + N2 = 0 -> (N1, l1, N2, l2) = (0, 0, 0, 0).
Proof. unfold osc. intros N1 l1 N2 l2 H1 H2 H3. repeat f_equal; lia. Qed.
Lemma ls0_cm : cm_space ls0.
Proof.
  split; [repeat constructor; cbn; intuition discriminate|]. pose proof ls0_labs as L. unfold ls0 in *. inversion L as [|? ? L1 L']; subst. inversion L' as [|? ? L2 _]; subst.
  constructor; [|constructor; [|constructor]]; (split; [assumption|]; split; [repeat constructor; cbn; tauto|]); intros [[[N1 l1] N2] l2]; cbn [snd fst In]; split.
  - intros [E|[]]. injection E as <- <- <- <-. cbn. unfold osc, couples. cbn. lia.
  - intros (H1 & H2 & H3 & _). left. symmetry. apply zero4; assumption.
  - intros [E|[]]. injection E as <- <- <- <-. cbn. unfold osc, couples. cbn. lia.
  - intros (H1 & H2 & H3 & _). left. symmetry. apply zero4; assumption.
Qed.
Lemma ls0_tb : tb_space ls0.
Proof.
  split; [repeat constructor; cbn; intuition discriminate|]. pose proof ls0_labs as L. unfold ls0 in *. inversion L as [|? ? L1 L']; subst. inversion L' as [|? ? L2 _]; subst.
  constructor; [|constructor; [|constructor]]; (split; [assumption|]; split; [repeat constructor; cbn; tauto|]); intros p [<-|[]]; cbn; unfold osc, couples; cbn; repeat split; lia.
Qed.
Lemma ls0_covers : covers ls0 ls0.
Proof. intros i k x y H Hx Hy. exists i, k, x, y. auto. Qed.
Lemma jj0_space : jj_space jj0.
Proof. unfold jj_space, jj0. constructor; [|constructor; [|constructor]]; (split; [cbn; lia|]; split; [cbn; lia|]); intros p [<-|[]]; cbn; unfold osc; cbn; repeat split; lia. Qed.
Lemma jj0_complete : ls_complete ls0 jj0.
Proof.
  intros X p L S HX Hp HS HC HL Ht. destruct HX as [<-|[<-|[]]]; cbn in *; destruct Hp as [<-|[]]; cbn in *; destruct Ht as (H1 & H2 & H3 & H4 & H5); unfold couples in H4; assert (L = 0) by lia; subst L; unfold couples in HC.
  - assert (S = 0) by lia. subst S. eexists. split; [left; reflexivity|]. split; [reflexivity|left; reflexivity].
  - assert (S = 1) by lia. subst S. eexists. split; [right; left; reflexivity|]. split; [reflexivity|left; reflexivity].
Qed.
Lemma jj0_identity : identity_states 0 jj0.
Proof.
  unfold identity_states, jj0. constructor; [|constructor; [|constructor]]; (split; [cbn; lia|]; split; [reflexivity|]); intros p [<-|[]]; (split; [cbn; unfold half_j; lia|]); cbn; unfold couples; cbn; repeat split; lia.
Qed.
(** relative matrix elements x and y become 2x and 2y (antisymmetrized states of two equal orbitals, not normalized) *)
Lemma transform_case : forall x y, exists s m0 m1 r, moshinsky_rel one6 one7 one7 one9 one5 scalar0 rel0 (diag0 x y) ls0 ls0 jj0 = Ok ((s, [m0; m1]) :: r)
  /\ s = [(0, 0); (1, 1)]%nat /\ (at_ m0 0 0 = 2 * x /\ at_ m1 0 0 = 2 * y)%R.
Proof.
  intros x y. destruct (moshinsky_rel_ok one6 one7 one7 one9 one5 scalar0 rel0 (diag0 x y) (F0 x y) ls0 ls0 jj0) as (c' & E & S); try (cbn; lia); try apply no_quanta.
  - apply rel0_complete. - apply rel0_stores. - apply F0_hermitian. - apply ls0_cm. - repeat constructor; cbn; lia. - apply ls0_tb. - apply ls0_covers. - apply jj0_space. - apply jj0_complete.
  - destruct (S 0) as (s & ms & Hc & Nd & Hin & Hb); [cbn; unfold in_range; cbn; lia|]. destruct c' as [|[s' ms'] r]; [discriminate|]. cbn in Hc. injection Hc as -> ->.
    assert (Es : s = [(0, 0); (1, 1)]%nat).
    { clear - E. unfold moshinsky_rel in E. destruct (to_relcm _ _ _ _ _ _ _) as [c1| | |]; try discriminate. cbn [bind] in E. destruct (to_two_body _ _ _ _ _) as [c2| | |]; try discriminate. cbn [bind] in E.
      unfold to_jjjt, for_components in E. cbn [o_T0_min o_T0_max scalar0] in E. change (zrange 0 0) with [0] in E. cbn [for_each] in E. destruct (at_z c2 0) as [[a b]| | |]; try discriminate. cbn [bind] in E.
      destruct (map_blocks _ _) as [w| | |]; try discriminate. cbn in E. injection E as <- _ _. reflexivity. }
    subst s.
    destruct (Hb 0%nat 0%nat 0%nat _ _ eq_refl eq_refl eq_refl) as (m0 & Hm0 & _ & _ & V0). destruct (Hb 1%nat 1%nat 1%nat _ _ eq_refl eq_refl eq_refl) as (m1 & Hm1 & _ & _ & V1).
    specialize (V0 0%nat 0%nat _ _ eq_refl eq_refl). specialize (V1 0%nat 0%nat _ _ eq_refl eq_refl).
    assert (El : ms = [m0; m1]).
    { clear - E Hm0 Hm1. unfold moshinsky_rel in E. destruct (to_relcm _ _ _ _ _ _ _) as [c1| | |]; try discriminate. cbn [bind] in E. destruct (to_two_body _ _ _ _ _) as [c2| | |]; try discriminate. cbn [bind] in E.
      unfold to_jjjt, for_components in E. cbn [o_T0_min o_T0_max scalar0] in E. change (zrange 0 0) with [0] in E. cbn [for_each] in E. destruct (at_z c2 0) as [[a b]| | |]; try discriminate. cbn [bind] in E.
      destruct (map_blocks _ _) as [w| | |] eqn:Ew; try discriminate. cbn in E. injection E as <- _. destruct (map_blocks_inv _ _ _ _ _ Ew) as [L _]. cbn in L.
      destruct w as [|u [|v [|z w]]]; cbn in *; try discriminate. congruence. }
    subst ms. exists [(0, 0); (1, 1)]%nat, m0, m1, r. split; [exact E|]. split; [reflexivity|]. rewrite V0, V1. clear.
    split; unfold jj_rme, tb_rme, relcm_rme; cbn; unfold Pos.to_nat; cbn; unfold one6, one7, one9, F0; cbn; ring.
Qed.
Lemma rel0_identity : stores_rel rel0 scalar0 (diag0 1 1) id_rel.
Proof.
  intros T0 HT. unfold in_range in HT. cbn in HT. assert (T0 = 0) by lia. subst T0. eexists _, _. split; [reflexivity|]. split; [repeat constructor; cbn; intuition discriminate|].
  intros i k a b Hik Ha Hb (R1 & R2 & _). cbn [rel_subs rel0] in Ha, Hb. destruct i as [|[|[|i]]]; cbn in Ha; try discriminate; destruct k as [|[|[|k]]]; cbn in Hb; try discriminate; injection Ha as <-; injection Hb as <-.
  - exists 0%nat, (block0 1). split; [reflexivity|]. split; [reflexivity|]. split; [reflexivity|]. split; [reflexivity|]. intros u v Hu Hv _. cbn in Hu, Hv. assert (u = 0%nat) by lia. assert (v = 0%nat) by lia. subst. cbn. unfold id_rel. rewrite !delta_eq. ring.
  - unfold couples in R1. cbn in R1. lia.
  - lia.
  - exists 1%nat, (block0 1). split; [reflexivity|]. split; [reflexivity|]. split; [reflexivity|]. split; [reflexivity|]. intros u v Hu Hv _. cbn in Hu, Hv. assert (u = 0%nat) by lia. assert (v = 0%nat) by lia. subst. cbn. unfold id_rel. rewrite !delta_eq. ring.
Qed.
Lemma identity_case : exists c', moshinsky_rel one6 one7 one7 one9 one5 scalar0 rel0 (diag0 1 1) ls0 ls0 jj0 = Ok c' /\ stores_jj jj0 scalar0 c' id_jj
  /\ id_jj 0 (JLab 0 1 0 0) (0, 0, 1, (0, 0, 1)) (JLab 0 1 0 0) (0, 0, 1, (0, 0, 1)) = 2%R.
Proof.
  destruct (identity_ok one6 one7 one7 one9 one5 scalar0 rel0 (diag0 1 1) ls0 ls0 jj0) as (c' & E & S).
  - exact no_quanta. - reflexivity. - cbn; lia. - cbn; lia. - apply rel0_complete. - cbn; lia. - apply rel0_identity. - apply ls0_cm. - repeat constructor; cbn; lia. - apply ls0_tb. - apply ls0_covers.
  - apply jj0_space. - apply jj0_complete. - apply jj0_identity.
  - exists c'. split; [exact E|]. split; [exact S|]. unfold id_jj. rewrite !delta_eq. ring.
Qed.
(** relative-cm and two-body steps alone *)
Lemma relcm_case : forall x y, exists s m0 m1 r, to_relcm one6 one7 one5 scalar0 rel0 (diag0 x y) ls0 = Ok ((s, [m0; m1]) :: r) /\ (at_ m0 0 0 = x /\ at_ m1 0 0 = y)%R.
Proof. intros x y. eexists _, _, _, _. split; [reflexivity|]. cbn. unfold one6, one7. split; ring. Qed.
Lemma two_body_case : forall x y, exists s m0 m1 r, to_two_body one9 scalar0 ls0 (diag0 x y) ls0 = Ok ((s, [m0; m1]) :: r) /\ (at_ m0 0 0 = 2 * x /\ at_ m1 0 0 = 2 * y)%R.
Proof.
  intros x y. eexists _, _, _, _. split; [reflexivity|]. cbn. unfold one9.
  assert (Q := sqrt_sqrt 2 ltac:(lra)). split; [transitivity (sqrt 2 * sqrt 2 * x)%R|transitivity (sqrt 2 * sqrt 2 * y)%R]; try ring; rewrite Q; ring.
Qed.
Lemma jj_case : forall x y, exists s m0 m1 r, to_jjjt one7 one5 scalar0 ls0 (diag0 x y) jj0 = Ok ((s, [m0; m1]) :: r) /\ (at_ m0 0 0 = x /\ at_ m1 0 0 = y)%R.
Proof. intros x y. eexists _, _, _, _. split; [reflexivity|]. cbn. unfold one7. split; ring. Qed.
(** a two-body subspace which the relative-cm space lacks is not reported *)
Lemma two_body_missing : exists cm c tb G, cm_space cm /\ stores_ls cm scalar0 c G /\ tb_space tb /\ to_two_body one9 scalar0 cm c tb = UB.
Proof.
  exists [(Lab 0 0 0 1 0 0, [(0, 0, 0, 0)])], [([(0, 0)%nat], [block0 1]); ([], []); ([], [])], ls0, (fun _ _ _ _ _ => 1%R). split; [|split; [|split; [exact ls0_tb|reflexivity]]].
  - destruct ls0_cm as [_ H]. unfold ls0 in H. inversion H; subst. split; [repeat constructor; cbn; tauto|]. constructor; [assumption|constructor].
  - intros T0 HT. unfold in_range in HT. cbn in HT. assert (T0 = 0) by lia. subst T0. eexists _, _. split; [reflexivity|]. split; [repeat constructor; cbn; tauto|]. split.
    + intros i k. split.
      * intros [E|[]]. injection E as <- <-. split; [lia|]. eexists _, _. split; [reflexivity|]. split; [reflexivity|]. cbn. unfold jt_rule, couples. cbn. lia.
      * intros (_ & x & y & Hx & Hy & _). destruct i as [|[|i]]; [|discriminate|discriminate]. destruct k as [|[|k]]; [|discriminate|discriminate]. left. reflexivity.
    + intros q i k x y Hq Hx Hy. destruct q as [|[|q]]; [|discriminate|discriminate]. cbn in Hq. injection Hq as <- <-. cbn in Hx, Hy. injection Hx as <-. injection Hy as <-.
      exists (block0 1). repeat split.
Qed.
(** an LS state which the LS space lacks leaves its part of the jj state out *)
Lemma jj_missing : exists ls c jj H m s r X p, tb_space ls /\ stores_ls ls scalar0 c H /\ hermitian one5 b_J b_T H /\ jj_space jj /\ In X jj /\ In p (snd X)
  /\ to_jjjt one7 one5 scalar0 ls c jj = Ok ((s, [m]) :: r) /\ at_ m 0 0 = 0%R /\ jj_rme one7 H 0 (fst X) p (fst X) p = 1%R.
Proof.
  exists [(Lab 0 0 0 1 0 0, [])], [([(0, 0)%nat], [Mat 0 0 (fun _ _ => 1%R)]); ([], []); ([], [])], [(JLab 0 1 0 0, [((0, 0, 1), (0, 0, 1))])], (fun _ _ _ _ _ => 1%R).
  eexists _, _, _, _, _. split; [|split; [|split; [|split; [|split; [left; reflexivity|split; [left; reflexivity|split; [reflexivity|split]]]]]]].
  - split; [repeat constructor; cbn; tauto|]. constructor; [|constructor]. split; [unfold lab_ok, couples; cbn; lia|]. split; [constructor|intros p []].
  - intros T0 HT. unfold in_range in HT. cbn in HT. assert (T0 = 0) by lia. subst T0. eexists _, _. split; [reflexivity|]. split; [repeat constructor; cbn; tauto|]. split.
    + intros i k. split.
      * intros [E|[]]. injection E as <- <-. split; [lia|]. eexists _, _. split; [reflexivity|]. split; [reflexivity|]. cbn. unfold jt_rule, couples. cbn. lia.
      * intros (_ & x & y & Hx & Hy & _). destruct i as [|[|i]]; [|discriminate|discriminate]. destruct k as [|[|k]]; [|discriminate|discriminate]. left. reflexivity.
    + intros q i k x y Hq Hx Hy. destruct q as [|[|q]]; [|discriminate|discriminate]. cbn in Hq. injection Hq as <- <-. cbn in Hx, Hy. injection Hx as <-. injection Hy as <-.
      exists (Mat 0 0 (fun _ _ => 1%R)). repeat split.
  - intros T0 x a y b _ _ _ _. unfold one5. ring.
  - constructor; [|constructor]. cbn. split; [lia|]. split; [lia|]. intros p [<-|[]]. cbn. unfold osc. cbn. repeat split; lia.
  - cbn. ring.
  - unfold jj_rme. cbn. unfold Pos.to_nat. cbn. unfold one7. ring.
Qed.
(** relative angular momenta beyond Jmax are left out *)
Lemma cutoff_case : exists x p, lab_ok x /\ cm_state x p /\ relcm_rme one6 one7 0 0 (fun _ _ _ _ _ => 1%R) 0 x p x p = 0%R /\ relcm_rme one6 one7 1 0 (fun _ _ _ _ _ => 1%R) 0 x p x p = 1%R.
Proof.
  exists (Lab 0 1 1 0 0 0), (0, 0, 0, 0). split; [unfold lab_ok, couples; cbn; lia|]. split; [cbn; unfold osc, couples; cbn; lia|].
  unfold relcm_rme. cbn. unfold Pos.to_nat. cbn. unfold one6, one7. split; ring.
Qed.
