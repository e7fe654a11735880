(** Proofs for C16-C19. *)
From Coq Require Import List ZArith Lia Bool Permutation.
From Verif Require Import Base BaseLemmas H2Model MapModel MapSpec.
Import ListNotations.
Open Scope nat_scope.
Open Scope outcome_scope.

(** * lookups *)
Definition reflects {A} (eqb : A -> A -> bool) := forall x y, eqb x y = true <-> x = y.

Lemma olabel_eqb_ok : reflects olabel_eqb.
Proof.
  intros [a b c] [a' b' c']. unfold olabel_eqb. cbn. rewrite !andb_true_iff, !Z.eqb_eq. split.
  - intros [[-> ->] ->]. reflexivity.
  - intros H. injection H. auto.
Qed.
Lemma species_eqb_ok : reflects species_eqb.
Proof. intros [] []; cbn; split; congruence. Qed.
Lemma labels_eqb_ok : reflects labels_eqb.
Proof.
  intros [[a b] c] [[a' b'] c']. unfold labels_eqb. rewrite !andb_true_iff, !Z.eqb_eq, (species_eqb_ok a a'). split.
  - intros [[-> ->] ->]. reflexivity.
  - intros H. injection H. auto.
Qed.
Lemma pair_eqb_ok : reflects pair_eqb.
Proof.
  intros [a b] [a' b']. unfold pair_eqb. cbn. rewrite andb_true_iff, !Nat.eqb_eq. split.
  - intros [-> ->]. reflexivity.
  - intros H. injection H. auto.
Qed.

Section Lookup.
Context {A : Type} (eqb : A -> A -> bool) (Heq : reflects eqb).
Lemma lookup_some : forall l x i, lookup eqb l x = Some i -> nth_error l i = Some x.
Proof.
  induction l as [|y l IH]; cbn; intros x i H; [discriminate|].
  destruct (eqb x y) eqn:E.
  - apply Heq in E. subst. injection H as <-. reflexivity.
  - destruct (lookup eqb l x) eqn:L; cbn in H; [|discriminate]. injection H as <-. cbn. auto.
Qed.
Lemma lookup_in : forall l x, In x l -> exists i, lookup eqb l x = Some i.
Proof.
  induction l as [|y l IH]; cbn; intros x H; [contradiction|].
  destruct (eqb x y) eqn:E; [eauto|]. destruct H as [H|H].
  - subst. assert (eqb x x = true) by (apply Heq; reflexivity). congruence.
  - destruct (IH x H) as [i ->]. cbn. eauto.
Qed.
Lemma lookup_none : forall l x, lookup eqb l x = None <-> ~ In x l.
Proof.
  intros l x. split.
  - intros H Hin. apply lookup_in in Hin. destruct Hin as [i Hi]. congruence.
  - intros H. destruct (lookup eqb l x) eqn:L; [|reflexivity]. apply lookup_some in L.
    apply nth_error_In in L. contradiction.
Qed.
Lemma lookup_nth : forall l x i, NoDup l -> nth_error l i = Some x -> lookup eqb l x = Some i.
Proof.
  intros l x i Hn H. destruct (lookup_in l x (nth_error_In _ _ H)) as [j Hj].
  pose proof (lookup_some _ _ _ Hj) as H'. rewrite Hj. f_equal.
  eapply NoDup_nth_error; [exact Hn| |congruence].
  apply nth_error_Some. congruence.
Qed.
End Lookup.

Lemma NoDup_nth_inj : forall A (l : list A) i j x, NoDup l -> nth_error l i = Some x -> nth_error l j = Some x -> i = j.
Proof.
  intros A l i j x Hn Hi Hj. eapply NoDup_nth_error; [exact Hn| |congruence]. apply nth_error_Some. congruence.
Qed.

(** * phases *)
Lemma i32_u64 : forall z, In z [(-1)%Z; 0%Z; 1%Z] -> i32 (u64 z) = z.
Proof. intros z H. repeat (destruct H as [<-|H]; [reflexivity|]). contradiction. Qed.
Lemma pow_m1_in : forall z, In (pow_m1 z) [(-1)%Z; 0%Z; 1%Z].
Proof. intros z. unfold pow_m1. destruct (Z.even z); cbn; auto. Qed.

Lemma phase_spec : forall a b J, Z.odd (ol_2j a) = true -> (0 <= ol_2j a)%Z -> Z.odd (ol_2j b) = true -> (0 <= ol_2j b)%Z ->
  pow_m1 (Z.quot (ol_2j a + ol_2j b) 2 + J + 1) = exchange_phase J a b.
Proof.
  intros a b J Ha Ha0 Hb Hb0. unfold pow_m1, exchange_phase.
  rewrite Z.quot_div_nonneg by lia.
  rewrite Z.even_add, Z.even_add, Z.even_sub.
  set (h := ((ol_2j a + ol_2j b) / 2)%Z).
  change (Z.even 1) with false.
  destruct (Z.even h), (Z.even J); reflexivity.
Qed.

Lemma sp_like : forall s, osp_eqb (sp1 s) (sp2 s) = true <-> like_species s.
Proof. intros []; cbn; unfold like_species; split; congruence. Qed.
Lemma sp_like_eq : forall s, like_species s -> sp1 s = sp2 s.
Proof. intros [] H; cbn; try reflexivity. elim H. reflexivity. Qed.

Lemma bind_Ok : forall A B (a : A) (k : A -> outcome B), bind (Ok a) k = k a.
Proof. reflexivity. Qed.

Lemma om_nth : forall src tgt sp i o, nth_error (src sp) i = Some o ->
  nth_error (orbital_mapping src tgt sp) i = Some (lookup olabel_eqb (tgt sp) o).
Proof. intros src tgt sp i o H. unfold orbital_mapping. rewrite nth_error_map, H. reflexivity. Qed.

(** * one state *)
Section OneSpace.
Variables (src tgt : ospace) (ssp tsp : list subspace).
Hypothesis Hs : space_ok src ssp.
Hypothesis Ht : space_ok tgt tsp.
Let om := orbital_mapping src tgt.

Lemma range_of : forall os sp s i a b, space_ok os sp -> In s sp -> nth_error (ss_states s) i = Some (a, b) ->
  (exists x, nth_error (os (sp1 (ss_species s))) a = Some x) /\ (exists y, nth_error (os (sp2 (ss_species s))) b = Some y)
  /\ (like_species (ss_species s) -> a <= b).
Proof.
  intros os sp s i a b H Hin Hn.
  pose proof (so_range _ _ H) as Hr. rewrite Forall_forall in Hr. specialize (Hr s Hin).
  rewrite Forall_forall in Hr. specialize (Hr (a, b) (nth_error_In _ _ Hn)). cbn in Hr. destruct Hr as [H1 [H2 H3]].
  apply nth_error_Some in H1. apply nth_error_Some in H2.
  split; [|split; [|exact H3]].
  - destruct (nth_error (os (sp1 (ss_species s))) a); eauto. congruence.
  - destruct (nth_error (os (sp2 (ss_species s))) b); eauto. congruence.
Qed.

Lemma odd_of : forall os sp x o, space_ok os sp -> In o (os x) -> Z.odd (ol_2j o) = true /\ (0 <= ol_2j o)%Z.
Proof.
  intros os sp x o H Hin. pose proof (so_halfint _ _ H x) as Hf. rewrite Forall_forall in Hf. auto.
Qed.

Lemma orbitals_fun : forall os s i p q, orbitals_of os s i p -> orbitals_of os s i q -> p = q.
Proof.
  intros os s i [a b] [c d] (x & y & H1 & H2 & H3) (x' & y' & H1' & H2' & H3').
  rewrite H1 in H1'. injection H1' as <- <-. cbn in *. congruence.
Qed.

Lemma orbitals_inj : forall os sp s i j p, space_ok os sp -> In s sp ->
  orbitals_of os s i p -> orbitals_of os s j p -> i = j.
Proof.
  intros os sp s i j [a b] H Hin (x & y & H1 & H2 & H3) (x' & y' & H1' & H2' & H3'). cbn in *.
  assert (x = x') by (eapply NoDup_nth_inj; [apply (so_orbitals _ _ H)|eassumption|eassumption]).
  assert (y = y') by (eapply NoDup_nth_inj; [apply (so_orbitals _ _ H)|eassumption|eassumption]).
  subst. pose proof (so_states _ _ H) as Hd. rewrite Forall_forall in Hd. destruct (Hd s Hin) as [Hn _].
  eapply NoDup_nth_inj; eassumption.
Qed.

Lemma orbitals_swap : forall os sp s i j a b, space_ok os sp -> In s sp -> like_species (ss_species s) ->
  orbitals_of os s i (a, b) -> orbitals_of os s j (b, a) -> a = b.
Proof.
  intros os sp s i j a b H Hin Hl (x & y & H1 & H2 & H3) (x' & y' & H1' & H2' & H3'). cbn in *.
  rewrite <- (sp_like_eq _ Hl) in *.
  assert (x = y') by (eapply NoDup_nth_inj; [apply (so_orbitals _ _ H)|eassumption|eassumption]).
  assert (y = x') by (eapply NoDup_nth_inj; [apply (so_orbitals _ _ H)|eassumption|eassumption]).
  destruct (range_of _ _ _ _ _ _ H Hin H1) as [_ [_ L1]]. destruct (range_of _ _ _ _ _ _ H Hin H1') as [_ [_ L2]].
  specialize (L1 Hl). specialize (L2 Hl). assert (x = y) by lia. subst. congruence.
Qed.

Lemma same_state_fun : forall s i t j j' p p', In s ssp -> In t tsp -> sub_labels s = sub_labels t ->
  same_state src s i tgt t j p -> same_state src s i tgt t j' p' -> j = j' /\ p = p'.
Proof.
  intros s i t j j' p p' Hin Hit Hl H H'.
  assert (Hsp : ss_species s = ss_species t) by (unfold sub_labels in Hl; congruence).
  destruct H as [a b H1 H2|a b H1 H2 L N]; destruct H' as [a' b' H1' H2'|a' b' H1' H2' L' N'];
    pose proof (orbitals_fun _ _ _ _ _ H1 H1') as Heq; injection Heq as <- <-.
  - split; [|reflexivity]. eapply (orbitals_inj tgt tsp t); eassumption.
  - rewrite Hsp in L'. elim N'. eapply orbitals_swap; [exact Ht| exact Hit| exact L'| exact H2| exact H2'].
  - rewrite Hsp in L. elim N. eapply orbitals_swap; [exact Ht| exact Hit| exact L| exact H2'| exact H2].
  - split; [|reflexivity]. eapply (orbitals_inj tgt tsp t); eassumption.
Qed.

Lemma same_state_inj : forall s i i' t j p p', In s ssp -> In t tsp -> sub_labels s = sub_labels t ->
  same_state src s i tgt t j p -> same_state src s i' tgt t j p' -> i = i'.
Proof.
  intros s i i' t j p p' Hin Hit Hl H H'.
  assert (Hsp : ss_species s = ss_species t) by (unfold sub_labels in Hl; congruence).
  destruct H as [a b H1 H2|a b H1 H2 L N]; destruct H' as [a' b' H1' H2'|a' b' H1' H2' L' N'];
    pose proof (orbitals_fun _ _ _ _ _ H2 H2') as Heq; injection Heq; intros; subst.
  - eapply (orbitals_inj src ssp s); eassumption.
  - elim N'. eapply orbitals_swap; [exact Hs| exact Hin| exact L'| exact H1'| exact H1].
  - elim N. eapply orbitals_swap; [exact Hs| exact Hin| exact L| exact H1| exact H1'].
  - eapply (orbitals_inj src ssp s); eassumption.
Qed.

Lemma same_state_range : forall s i t j p, same_state src s i tgt t j p -> i < length (ss_states s) /\ j < length (ss_states t).
Proof.
  intros s i t j p [a b (x & y & H & _) (x' & y' & H' & _)|a b (x & y & H & _) (x' & y' & H' & _) _ _];
    split; apply nth_error_Some; congruence.
Qed.

Lemma map_state_spec : forall s i ij t, In s ssp -> In t tsp -> sub_labels s = sub_labels t ->
  nth_error (ss_states s) i = Some ij ->
  exists k ph, map_state src om s t ij = Ok (k, ph)
  /\ forall j p, same_state src s i tgt t j p <-> k = Some j /\ p = i32 ph.
Proof.
  intros s i [x y] t Hin Hit Hl Hn.
  assert (Hsp : ss_species s = ss_species t) by (unfold sub_labels in Hl; congruence).
  destruct (range_of _ _ _ _ _ _ Hs Hin Hn) as [[o1 Ho1] [[o2 Ho2] Hle]].
  pose proof (om_nth _ tgt _ _ _ Ho1) as Hm1. pose proof (om_nth _ tgt _ _ _ Ho2) as Hm2.
  assert (Hdir : orbitals_of src s i (o1, o2)) by (exists x, y; auto).
  destruct (odd_of _ _ _ _ Hs (nth_error_In _ _ Ho1)) as [Od1 P1].
  destruct (odd_of _ _ _ _ Hs (nth_error_In _ _ Ho2)) as [Od2 P2].
  unfold map_state. cbn [fst snd]. rewrite Ho1, Ho2. cbn [get]. rewrite !bind_Ok. unfold om. rewrite Hm1, Hm2. cbn [get]. rewrite !bind_Ok.
  set (t1 := lookup olabel_eqb (tgt (sp1 (ss_species s))) o1).
  set (t2 := lookup olabel_eqb (tgt (sp2 (ss_species s))) o2).
  eexists. eexists. split; [reflexivity|].
  assert (Hb : forall j p, (osp_eqb (sp1 (ss_species s)) (sp2 (ss_species s)) && idx_gt t1 t2)%bool = false ->
     (lookup_state t t1 t2 = Some j /\ p = 1%Z) -> same_state src s i tgt t j p).
  { intros j p Hsw [Hk ->]. unfold lookup_state in Hk. destruct t1 as [c|] eqn:E1; [|discriminate].
    destruct t2 as [d|] eqn:E2; [|discriminate].
    apply (lookup_some _ pair_eqb_ok) in Hk. unfold t1 in E1. unfold t2 in E2.
    apply (lookup_some _ olabel_eqb_ok) in E1. apply (lookup_some _ olabel_eqb_ok) in E2.
    apply same_direct with o1 o2; [exact Hdir|]. exists c, d. rewrite <- Hsp. auto. }
  intros j p. destruct (osp_eqb (sp1 (ss_species s)) (sp2 (ss_species s)) && idx_gt t1 t2)%bool eqn:Hsw.
  - apply andb_prop in Hsw. destruct Hsw as [Hlk Hgt]. apply sp_like in Hlk.
    pose proof (sp_like_eq _ Hlk) as Heqs.
    assert (Hne : o1 <> o2).
    { intros <-. unfold t1, t2 in Hgt. rewrite <- Heqs in Hgt.
      destruct (lookup olabel_eqb (tgt (sp1 (ss_species s))) o1) as [c|]; cbn in Hgt; [|discriminate].
      apply Nat.ltb_lt in Hgt. lia. }
    split.
    + intros H. destruct H as [a b H1 H2|a b H1 H2 L N];
        pose proof (orbitals_fun _ _ _ _ _ Hdir H1) as Heq; injection Heq as <- <-;
        destruct H2 as (c & d & S1 & S2 & S3); cbn in S2, S3; rewrite <- Hsp in S2, S3.
      * exfalso. unfold t1, t2 in Hgt.
        rewrite (lookup_nth _ olabel_eqb_ok _ _ _ (so_orbitals _ _ Ht _) S2) in Hgt.
        rewrite (lookup_nth _ olabel_eqb_ok _ _ _ (so_orbitals _ _ Ht _) S3) in Hgt. cbn in Hgt.
        apply Nat.ltb_lt in Hgt. destruct (range_of _ _ _ _ _ _ Ht Hit S1) as [_ [_ Lt]].
        rewrite <- Hsp in Lt. specialize (Lt Hlk). lia.
      * assert (E1 : t2 = Some c) by (unfold t2; rewrite <- Heqs; apply (lookup_nth _ olabel_eqb_ok); [apply (so_orbitals _ _ Ht)|exact S2]).
        assert (E2 : t1 = Some d) by (unfold t1; rewrite Heqs; apply (lookup_nth _ olabel_eqb_ok); [apply (so_orbitals _ _ Ht)|exact S3]).
        rewrite E1, E2. cbn [lookup_state].
        assert (Hj : lookup pair_eqb (ss_states t) (c, d) = Some j).
        { apply (lookup_nth _ pair_eqb_ok); [|exact S1]. pose proof (so_states _ _ Ht) as Hd. rewrite Forall_forall in Hd. apply (Hd t Hit). }
        rewrite Hj. split; [reflexivity|]. rewrite i32_u64 by apply pow_m1_in. symmetry. apply phase_spec; auto.
    + intros [Hk ->]. rewrite Hk. rewrite i32_u64 by apply pow_m1_in. rewrite phase_spec by auto.
      unfold lookup_state in Hk. destruct t2 as [c|] eqn:E1; [|discriminate]. destruct t1 as [d|] eqn:E2; [|discriminate].
      apply (lookup_some _ pair_eqb_ok) in Hk. unfold t2 in E1. unfold t1 in E2.
      apply (lookup_some _ olabel_eqb_ok) in E1. apply (lookup_some _ olabel_eqb_ok) in E2.
      apply same_exchanged; [exact Hdir| |exact Hlk|exact Hne].
      exists c, d. cbn. rewrite <- Hsp. split; [exact Hk|]. split; [rewrite Heqs; exact E1|rewrite <- Heqs; exact E2].
  - split.
    + intros H. destruct H as [a b H1 H2|a b H1 H2 L N];
        pose proof (orbitals_fun _ _ _ _ _ Hdir H1) as Heq; injection Heq as <- <-;
        destruct H2 as (c & d & S1 & S2 & S3); cbn in S2, S3; rewrite <- Hsp in S2, S3.
      * assert (E1 : t1 = Some c) by (apply (lookup_nth _ olabel_eqb_ok); [apply (so_orbitals _ _ Ht)|exact S2]).
        assert (E2 : t2 = Some d) by (apply (lookup_nth _ olabel_eqb_ok); [apply (so_orbitals _ _ Ht)|exact S3]).
        rewrite E1, E2. cbn [lookup_state].
        assert (Hj : lookup pair_eqb (ss_states t) (c, d) = Some j).
        { apply (lookup_nth _ pair_eqb_ok); [|exact S1]. pose proof (so_states _ _ Ht) as Hd. rewrite Forall_forall in Hd. apply (Hd t Hit). }
        rewrite Hj. split; reflexivity.
      * exfalso. pose proof (sp_like_eq _ L) as Heqs.
        assert (E1 : t2 = Some c) by (unfold t2; rewrite <- Heqs; apply (lookup_nth _ olabel_eqb_ok); [apply (so_orbitals _ _ Ht)|exact S2]).
        assert (E2 : t1 = Some d) by (unfold t1; rewrite Heqs; apply (lookup_nth _ olabel_eqb_ok); [apply (so_orbitals _ _ Ht)|exact S3]).
        rewrite E1, E2 in Hsw. rewrite (proj2 (sp_like _) L) in Hsw. cbn in Hsw.
        apply Nat.ltb_ge in Hsw. destruct (range_of _ _ _ _ _ _ Ht Hit S1) as [_ [_ Lt]]. rewrite <- Hsp in Lt. specialize (Lt L).
        assert (c = d) by lia. subst. rewrite Heqs in S2. congruence.
    + intros [Hk ->]. apply Hb; [reflexivity|]. split; [exact Hk|]. rewrite Hk. reflexivity.
Qed.
End OneSpace.
