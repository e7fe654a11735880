(** Unit tensors (symmunit) and the choice of the operator in relative-gen. *)
From Coq Require Import String List ZArith Reals Bool Lia Lra.
From Verif Require Import Base RMat OscModel OscSpec OscFinal BlockModel BlockProof MoshModel JpvModel JpvSpec JpvProof IsoModel TrfModel TrfSpec TrfProof RmeModel RmeSpec RmeProof RmeFinal.
Import ListNotations.
Open Scope Z_scope.

Section Unit.
Variables (Nmax : Z) (sp : rspace) (o : oplab) (u : unit_labels).
Hypothesis space_ok : rme_space Nmax sp.
Hypothesis labels_ok : rspace_ok sp.
Hypothesis min_ok : 0 <= o_T0_min o.
Hypothesis max_ok : o_T0_max o <= 2.
Variables (ib ik : nat) (b k : rsub).
Hypothesis bra_sub : nth_error sp ib = Some b.
Hypothesis ket_sub : nth_error sp ik = Some k.
Hypothesis bra_lab : rl b = (u_Lp u, u_Sp u, u_Jp u, u_Tp u).
Hypothesis ket_lab : rl k = (u_L u, u_S u, u_J u, u_T u).

Lemma find_by_rl : forall i x L s J T, nth_error sp i = Some x -> rl x = (L, s, J, T) -> find_sub sp L s J T (Z.rem L 2) = Some i.
Proof.
  intros i x L s J T Hx Hr. injection Hr as E1 E2 E3 E4. destruct (space_nonneg _ _ space_ok _ _ Hx) as (HL & _ & _ & Hg). apply (find_sub_ok sp i x); [exact labels_ok|exact Hx|].
  unfold labels_of. rewrite Hg, Z.rem_mod_nonneg by lia. congruence.
Qed.
Lemma by_rl : forall i x j y, nth_error sp i = Some x -> nth_error sp j = Some y -> rl x = rl y -> i = j.
Proof.
  intros i x j y Hx Hy E. destruct (rl y) as [[[L s] J] T] eqn:El. pose proof (find_by_rl i x L s J T Hx E) as A. pose proof (find_by_rl j y L s J T Hy El) as B. congruence.
Qed.
Theorem unit_stored : forall i j, in_range o (u_T0 u) ->
  jt_rule (o_J0 o) (u_T0 u) (o_g0 o) (r_J b) (r_T b) (r_g b) (r_J k) (r_T k) (r_g k) ->
  (i < r_dim b)%nat -> (j < r_dim k)%nat -> u_Np u = u_Lp u + 2 * Z.of_nat i -> u_N u = u_L u + 2 * Z.of_nat j ->
  ((ib < ik)%nat \/ ib = ik /\ (i <= j)%nat) ->
  exists c, symmunit o sp u = Ok c /\ stores_num sp o c (unit_element u).
Proof.
  intros i j Hr Hj Hi Hk EN EN' Hcan. assert (HT : 0 <= u_T0 u <= 2) by (unfold in_range in Hr; lia).
  destruct (zero_operator_parts sp o min_ok max_ok) as (z & Ez & Lz & Nz). unfold symmunit. rewrite Ez. cbn [bind].
  rewrite (find_by_rl ib b _ _ _ _ bra_sub bra_lab). cbn [get bind]. rewrite bra_sub. cbn [get bind].
  rewrite (find_by_rl ik k _ _ _ _ ket_sub ket_lab). cbn [get bind]. rewrite ket_sub. cbn [get bind].
  destruct (Nz _ HT) as (ms & Hn & Lm & Hm). unfold at_z. rewrite (proj2 (Z.ltb_ge (u_T0 u) 0)) by lia. rewrite Hn. cbn [get bind].
  assert (Hin : In (ib, ik) (sectors_at sp o (u_T0 u))).
  { apply sectors_at_in. split; [exact Hr|]. split; [lia|]. exists b, k. auto. }
  apply In_nth_error in Hin. destruct Hin as [q Hq]. rewrite (look_up_ok _ _ _ _ (sectors_at_nodup sp o (u_T0 u)) Hq). cbn [get bind].
  pose proof bra_lab as Hbl. pose proof ket_lab as Hkl. injection Hbl as B1 B2 B3 B4. injection Hkl as K1 K2 K3 K4.
  assert (Eb : rel_state b (u_Np u) = Some i).
  { unfold rel_state. rewrite B1, EN. replace (u_Lp u + 2 * Z.of_nat i - u_Lp u) with (2 * Z.of_nat i) by lia. rewrite (proj2 (Z.leb_le _ _)) by lia. rewrite Z.even_mul. cbn [Z.even orb andb].
    rewrite Z.mul_comm, Z.div_mul by lia. rewrite (proj2 (Z.ltb_lt _ _)) by lia. rewrite Nat2Z.id. reflexivity. }
  assert (Ek : rel_state k (u_N u) = Some j).
  { unfold rel_state. rewrite K1, EN'. replace (u_L u + 2 * Z.of_nat j - u_L u) with (2 * Z.of_nat j) by lia. rewrite (proj2 (Z.leb_le _ _)) by lia. rewrite Z.even_mul. cbn [Z.even orb andb].
    rewrite Z.mul_comm, Z.div_mul by lia. rewrite (proj2 (Z.ltb_lt _ _)) by lia. rewrite Nat2Z.id. reflexivity. }
  rewrite Eb, Ek. replace (negb (Nat.eqb ib ik) || Nat.leb i j) with true.
  2: { destruct Hcan as [Hc|[-> Hc]]; [rewrite (proj2 (Nat.eqb_neq ib ik)) by lia; reflexivity|]. rewrite (proj2 (Nat.leb_le i j) Hc). symmetry. apply orb_true_r. }
  cbn [cassert bind]. destruct (Hm q ib ik b k Hq bra_sub ket_sub) as (m & Em & R1 & C1 & A). rewrite Em. cbn [get bind].
  rewrite R1, C1, (proj2 (Nat.ltb_lt _ _) Hi), (proj2 (Nat.ltb_lt _ _) Hk). cbn [andb cassert bind].
  unfold mat_put. rewrite R1, C1, (proj2 (Nat.ltb_lt _ _) Hi), (proj2 (Nat.ltb_lt _ _) Hk). cbn [andb cassert bind].
  assert (Hqm : (q < length ms)%nat) by (apply nth_error_Some; congruence).
  destruct (store_some _ ms q (mset m i j (Num 1)) Hqm) as (ms' & E' & L' & N' & O'). rewrite E'. cbn [bind].
  destruct (store_some _ z (Z.to_nat (u_T0 u)) (sectors_at sp o (u_T0 u), ms') ltac:(lia)) as (c & Ec & Lc & Nc & Oc). exists c. split; [exact Ec|]. split; [lia|].
  intros t Ht. exists (sectors_at sp o t). destruct (Z.eq_dec t (u_T0 u)) as [->|Hne].
  - exists ms'. split; [exact Nc|]. split; [apply sectors_at_nodup|]. split; [lia|]. split; [intros; apply sectors_at_in|].
    intros q' i' k' x y Hq' Hx Hy. destruct (Nat.eq_dec q' q) as [->|Hqq].
    + rewrite Hq in Hq'. injection Hq' as <- <-. rewrite bra_sub in Hx. injection Hx as <-. rewrite ket_sub in Hy. injection Hy as <-. exists (mset m i j (Num 1)).
      split; [exact N'|]. split; [exact R1|]. split; [exact C1|]. intros a c' Ha Hc'. unfold mset. cbn [at_]. unfold unit_element. rewrite bra_lab, ket_lab. rewrite !rlab_eqb_refl, Z.eqb_refl. cbn [andb].
      rewrite B1, K1, EN, EN', !same_number. destruct (Nat.eqb a i && Nat.eqb c' j); [reflexivity|]. apply A; assumption.
    + destruct (Hm q' i' k' x y Hq' Hx Hy) as (m' & Hm' & R' & C' & A'). exists m'. split; [rewrite O' by exact Hqq; exact Hm'|]. split; [exact R'|]. split; [exact C'|].
      intros a c' Ha Hc'. rewrite A' by assumption. unfold unit_element.
      destruct (rlab_eqb (rl x) (u_Lp u, u_Sp u, u_Jp u, u_Tp u)) eqn:E1; [|rewrite ?andb_false_r; reflexivity].
      destruct (rlab_eqb (rl y) (u_L u, u_S u, u_J u, u_T u)) eqn:E2; [|rewrite ?andb_false_r; reflexivity].
      apply rlab_eqb_ok in E1, E2. rewrite <- bra_lab in E1. rewrite <- ket_lab in E2. pose proof (by_rl _ _ _ _ Hx bra_sub E1) as ->. pose proof (by_rl _ _ _ _ Hy ket_sub E2) as ->.
      elim Hqq. apply (proj1 (NoDup_nth_error _) (sectors_at_nodup sp o (u_T0 u))); [apply nth_error_Some; congruence|congruence].
  - destruct (Nz t Ht) as (ms'' & Hn'' & Lm'' & Hm''). exists ms''. split; [rewrite Oc by lia; exact Hn''|]. split; [apply sectors_at_nodup|].
    split; [exact Lm''|]. split; [intros; apply sectors_at_in|]. intros q' i' k' x y Hq' Hx Hy. destruct (Hm'' q' i' k' x y Hq' Hx Hy) as (m' & Hm' & R' & C' & A').
    exists m'. split; [exact Hm'|]. split; [exact R'|]. split; [exact C'|]. intros a c' Ha Hc'. rewrite A' by assumption. unfold unit_element.
    rewrite (proj2 (Z.eqb_neq _ _) Hne). reflexivity.
Qed.
(** a sector that is not there: lower triangle, forbidden by the selection rules, or T0 not among the components *)
Theorem unit_no_sector : ~ (in_range o (u_T0 u) /\ (ib <= ik)%nat /\ jt_rule (o_J0 o) (u_T0 u) (o_g0 o) (r_J b) (r_T b) (r_g b) (r_J k) (r_T k) (r_g k)) ->
  symmunit o sp u = UB.
Proof.
  intros H. destruct (zero_operator_parts sp o min_ok max_ok) as (z & Ez & Lz & Nz). unfold symmunit. rewrite Ez. cbn [bind].
  rewrite (find_by_rl ib b _ _ _ _ bra_sub bra_lab). cbn [get bind]. rewrite bra_sub. cbn [get bind].
  rewrite (find_by_rl ik k _ _ _ _ ket_sub ket_lab). cbn [get bind]. rewrite ket_sub. cbn [get bind].
  unfold at_z. destruct (Z.ltb_spec (u_T0 u) 0); [reflexivity|]. destruct (Z_le_gt_dec (u_T0 u) 2) as [H2|H2].
  - destruct (Nz (u_T0 u) ltac:(lia)) as (ms & Hn & _). rewrite Hn. cbn [get bind].
    destruct (look_up_sector (sectors_at sp o (u_T0 u)) ib ik) as [q|] eqn:E; [|reflexivity]. exfalso. apply H. apply look_up_some in E. apply nth_error_In in E.
    apply sectors_at_in in E. destruct E as (R & Hle & x & y & Hx & Hy & Hj). split; [exact R|]. split; [exact Hle|]. congruence.
  - rewrite (proj2 (nth_error_None z (Z.to_nat (u_T0 u)))) by lia. reflexivity.
Qed.
(** states that are not there, in a sector that is *)
Theorem unit_no_state : in_range o (u_T0 u) -> (ib <= ik)%nat -> jt_rule (o_J0 o) (u_T0 u) (o_g0 o) (r_J b) (r_T b) (r_g b) (r_J k) (r_T k) (r_g k) ->
  (forall i j, (i < r_dim b)%nat -> (j < r_dim k)%nat -> ~ (u_Np u = u_Lp u + 2 * Z.of_nat i /\ u_N u = u_L u + 2 * Z.of_nat j)) ->
  symmunit o sp u = AssertFail.
Proof.
  intros Hr Hle Hj H. assert (HT : 0 <= u_T0 u <= 2) by (unfold in_range in Hr; lia).
  destruct (zero_operator_parts sp o min_ok max_ok) as (z & Ez & Lz & Nz). unfold symmunit. rewrite Ez. cbn [bind].
  rewrite (find_by_rl ib b _ _ _ _ bra_sub bra_lab). cbn [get bind]. rewrite bra_sub. cbn [get bind].
  rewrite (find_by_rl ik k _ _ _ _ ket_sub ket_lab). cbn [get bind]. rewrite ket_sub. cbn [get bind].
  destruct (Nz _ HT) as (ms & Hn & Lm & Hm). unfold at_z. rewrite (proj2 (Z.ltb_ge (u_T0 u) 0)) by lia. rewrite Hn. cbn [get bind].
  assert (Hin : In (ib, ik) (sectors_at sp o (u_T0 u))).
  { apply sectors_at_in. split; [exact Hr|]. split; [lia|]. exists b, k. auto. }
  apply In_nth_error in Hin. destruct Hin as [q Hq]. rewrite (look_up_ok _ _ _ _ (sectors_at_nodup sp o (u_T0 u)) Hq). cbn [get bind].
  destruct (Hm q ib ik b k Hq bra_sub ket_sub) as (m & Em & R1 & C1 & A).
  match goal with |- bind (cassert ?c) _ = _ => destruct c; cbn [cassert bind]; [|reflexivity] end. rewrite Em. cbn [get bind].
  destruct (rel_state b (u_Np u)) as [i|] eqn:Eb; [|reflexivity]. destruct (rel_state k (u_N u)) as [j|] eqn:Ek; [|reflexivity]. exfalso.
  pose proof bra_lab as Hbl. pose proof ket_lab as Hkl. injection Hbl as B1 _ _ _. injection Hkl as K1 _ _ _.
  unfold rel_state in Eb, Ek. destruct (_ && _) eqn:E1 in Eb; [|discriminate]. destruct (_ && _) eqn:E2 in Ek; [|discriminate]. injection Eb as <-. injection Ek as <-.
  rewrite !andb_true_iff, !Z.leb_le, Z.ltb_lt, Z.even_spec in E1, E2. destruct E1 as [[P1 [q1 Q1]] D1]. destruct E2 as [[P2 [q2 Q2]] D2].
  rewrite Q1 in *. rewrite Q2 in *. rewrite (Z.mul_comm 2 q1), Z.div_mul in * by lia. rewrite (Z.mul_comm 2 q2), Z.div_mul in * by lia.
  apply (H (Z.to_nat q1) (Z.to_nat q2)); [lia|lia|]. rewrite !Z2Nat.id by lia. lia.
Qed.
End Unit.
(** a subspace that is not there *)
Theorem unit_no_subspace : forall sp o u, 0 <= o_T0_min o -> o_T0_max o <= 2 ->
  (forall x, In x sp -> rl x <> (u_Lp u, u_Sp u, u_Jp u, u_Tp u)) \/ (forall x, In x sp -> rl x <> (u_L u, u_S u, u_J u, u_T u)) ->
  symmunit o sp u = UB.
Proof.
  intros sp o u H0 H2 H. destruct (zero_operator_parts sp o H0 H2) as (z & Ez & Lz & Nz). unfold symmunit. rewrite Ez. cbn [bind].
  assert (G : forall L s J T g i, find_sub sp L s J T g = Some i -> exists x, In x sp /\ rl x = (L, s, J, T)).
  { intros L s J T g i E. apply find_ix_some in E. destruct E as (x & Hx & Hh). apply has_labels_ok in Hh. exists x. split; [apply nth_error_In in Hx; exact Hx|].
    unfold labels_of in Hh. unfold rl. congruence. }
  destruct (find_sub sp (u_Lp u) _ _ _ _) as [i|] eqn:E1; [|reflexivity]. cbn [get bind]. destruct (nth_error sp i); [|reflexivity]. cbn [get bind].
  destruct (find_sub sp (u_L u) _ _ _ _) as [j|] eqn:E2; [|reflexivity]. exfalso. apply G in E1, E2. destruct E1 as (x & Hx & Ex). destruct E2 as (y & Hy & Ey).
  destruct H as [H|H]; [apply (H x Hx Ex)|apply (H y Hy Ey)].
Qed.
