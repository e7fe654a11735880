(** Final forms of C16-C19. *)
From Coq Require Import List ZArith Lia Bool Permutation.
From Verif Require Import Base BaseLemmas H2Model MapModel MapSpec MapProof MapProof2.
Import ListNotations.
Open Scope nat_scope.
Open Scope outcome_scope.

Lemma remap_spec : forall src tgt ssp tsp, space_ok src ssp -> space_ok tgt tsp ->
  exists mp, make_mapping src ssp tgt tsp = Ok mp
  /\ forall D (d0 : D) dscale ss ts m, sector_of ssp ss -> sector_of tsp ts -> same_sector ss ts -> dims m ss ->
  exists r, remap D d0 dscale ss ts mp m = Ok r /\ dims r ts
  /\ (forall sb sk tb tk pb pk, same_state src (s_bra ss) sb tgt (s_bra ts) tb pb ->
        same_state src (s_ket ss) sk tgt (s_ket ts) tk pk -> at_ r tb tk = dscale (pb * pk)%Z (at_ m sb sk))
  /\ (forall tb tk, (forall sb p, ~ same_state src (s_bra ss) sb tgt (s_bra ts) tb p)
        \/ (forall sk p, ~ same_state src (s_ket ss) sk tgt (s_ket ts) tk p) -> at_ r tb tk = d0).
Proof.
  intros src tgt ssp tsp Hs Ht. exists (the_mapping src tgt ssp tsp). split; [apply make_mapping_eq; auto|].
  intros D d0 dscale ss ts m H1 H2 H3 H4.
  exact (remap_order_spec src tgt ssp tsp Hs Ht d0 dscale ss ts m H1 H2 H3 H4 _ (Permutation_refl _)).
Qed.

(** a source subspace without counterpart in the target space: the loop reads outside the empty
    vector of entries *)
Lemma remap_missing : forall src tgt ssp tsp, space_ok src ssp -> space_ok tgt tsp ->
  exists mp, make_mapping src ssp tgt tsp = Ok mp
  /\ forall D (d0 : D) dscale ss ts m, sector_of ssp ss -> dims m ss -> ~ sub_in (s_bra ss) tsp ->
     remap D d0 dscale ss ts mp m = UB.
Proof.
  intros src tgt ssp tsp Hs Ht. exists (the_mapping src tgt ssp tsp). split; [apply make_mapping_eq; auto|].
  intros D d0 dscale ss ts m [H1 H1'] H4 Hno.
  assert (Hne : forall s, In s ssp -> exists n, ss_size s = S n).
  { intros s Hin. pose proof (so_states _ _ Hs) as Hd. rewrite Forall_forall in Hd. destruct (Hd s Hin) as [_ Hne].
    unfold ss_size. destruct (ss_states s) as [|x l]; [elim Hne; reflexivity|]. exists (length l). reflexivity. }
  unfold remap, remap_in_order.
  destruct (Hne _ (nth_error_In _ _ H1)) as [nb ->]. destruct (Hne _ (nth_error_In _ _ H1')) as [nk ->].
  unfold pairs. cbn [seq list_prod map app loop2]. unfold remap_body at 1.
  rewrite (entry_missing src tgt ssp tsp Ht _ _ 0 H1 Hno). reflexivity.
Qed.


Lemma remap_schedule : forall src tgt ssp tsp, space_ok src ssp -> space_ok tgt tsp ->
  exists mp, make_mapping src ssp tgt tsp = Ok mp
  /\ forall D (d0 : D) dscale ss ts m order, sector_of ssp ss -> sector_of tsp ts -> same_sector ss ts -> dims m ss ->
     Permutation order (pairs (length (ss_states (s_bra ss))) (length (ss_states (s_ket ss)))) ->
     exists r r', remap D d0 dscale ss ts mp m = Ok r /\ remap_in_order D d0 dscale order ss ts mp m = Ok r'
       /\ same_matrix r r'.
Proof.
  intros src tgt ssp tsp Hs Ht. exists (the_mapping src tgt ssp tsp). split; [apply make_mapping_eq; auto|].
  intros D d0 dscale ss ts m order H1 H2 H3 H4 Hp.
  pose proof (fun order => remap_order_spec src tgt ssp tsp Hs Ht d0 dscale ss ts m H1 H2 H3 H4 order) as H.
  destruct (H _ (Permutation_refl _)) as (r & E & [Hd Hd'] & W & Z). destruct (H order Hp) as (r' & E' & [Hd1 Hd1'] & W' & Z').
  exists r, r'. split; [exact E|]. split; [exact E'|]. split; [congruence|]. split; [congruence|].
  intros i j _ _.
  (* decide whether some source state has image i (resp. j), by search over the finitely many *)
  pose proof (bra_spec src tgt ssp tsp Hs Ht ss ts H1 H2 H3) as Bs.
  pose proof (ket_spec src tgt ssp tsp Hs Ht ss ts H1 H2 H3) as Ks.
  assert (Dec : forall s t k, (forall i, i < length (ss_states s) -> exists o ph, entry (the_mapping src tgt ssp tsp) k i = Ok (o, ph)
      /\ forall j p, same_state src s i tgt t j p <-> o = Some j /\ p = i32 ph) ->
      forall j, (exists i p, same_state src s i tgt t j p) \/ (forall i p, ~ same_state src s i tgt t j p)).
  { clear. intros s t k Hk j.
    assert (G : forall n, n <= length (ss_states s) ->
       (exists i p, same_state src s i tgt t j p) \/ (forall i p, i < n -> ~ same_state src s i tgt t j p)).
    { induction n as [|n IH]; intros Hn; [right; intros; lia|]. destruct (IH ltac:(lia)) as [Hyes|Hno]; [left; exact Hyes|].
      destruct (Hk n ltac:(lia)) as (o & ph & _ & Hiff). destruct o as [j'|].
      - destruct (Nat.eq_dec j' j) as [->|Hne].
        + left. exists n, (i32 ph). apply Hiff. auto.
        + right. intros i p Hi Hss. assert (i = n \/ i < n) as [->|Hlt] by lia; [|eapply Hno; eauto].
          apply Hiff in Hss. destruct Hss as [Heq _]. injection Heq. congruence.
      - right. intros i p Hi Hss. assert (i = n \/ i < n) as [->|Hlt] by lia; [|eapply Hno; eauto].
        apply Hiff in Hss. destruct Hss as [Heq _]. discriminate. }
    destruct (G _ (le_n _)) as [Hyes|Hno]; [left; exact Hyes|right].
    intros i p Hss. apply (Hno i p (proj1 (same_state_range _ _ _ _ _ _ _ Hss)) Hss). }
  destruct (Dec _ _ _ Bs i) as [(sb & pb & B)|B].
  - destruct (Dec _ _ _ Ks j) as [(sk & pk & K)|K].
    + rewrite (W sb sk i j pb pk B K), (W' sb sk i j pb pk B K). reflexivity.
    + rewrite Z, Z' by (right; exact K). reflexivity.
  - rewrite Z, Z' by (left; exact B). reflexivity.
Qed.

(** distinct source states have distinct images, which are states of the target subspace *)
Lemma mapping_disjoint : forall src tgt ssp tsp, space_ok src ssp -> space_ok tgt tsp ->
  exists mp, make_mapping src ssp tgt tsp = Ok mp
  /\ forall x s t i k ph, nth_error ssp x = Some s -> In t tsp -> sub_labels s = sub_labels t ->
     i < length (ss_states s) -> entry mp x i = Ok (Some k, ph) ->
     k < length (ss_states t)
     /\ forall i' ph', i' < length (ss_states s) -> entry mp x i' = Ok (Some k, ph') -> i' = i.
Proof.
  intros src tgt ssp tsp Hs Ht. exists (the_mapping src tgt ssp tsp). split; [apply make_mapping_eq; auto|].
  intros x s t i k ph Hx Hit Hl Hi He.
  destruct (entry_spec src tgt ssp tsp Hs Ht x s t i Hx Hit Hl Hi) as (k1 & ph1 & E1 & S1).
  rewrite He in E1. injection E1 as <- <-.
  pose proof (proj2 (S1 k _) (conj eq_refl eq_refl)) as SS. split; [apply (same_state_range _ _ _ _ _ _ _ SS)|].
  intros i' ph' Hi' He'. destruct (entry_spec src tgt ssp tsp Hs Ht x s t i' Hx Hit Hl Hi') as (k2 & ph2 & E2 & S2).
  rewrite He' in E2. injection E2 as <- <-. pose proof (proj2 (S2 k _) (conj eq_refl eq_refl)) as SS'.
  eapply (same_state_inj src tgt ssp tsp Hs s i' i t); [eapply nth_error_In; exact Hx|exact Hit|exact Hl|exact SS'|exact SS].
Qed.

Lemma orbitals_ex : forall os sp s i, space_ok os sp -> In s sp -> i < length (ss_states s) -> exists a b, orbitals_of os s i (a, b).
Proof.
  intros os sp s i H Hin Hi. destruct (nth_error (ss_states s) i) as [[x y]|] eqn:E; [|apply nth_error_Some in Hi; congruence].
  destruct (range_of _ _ _ _ _ _ H Hin E) as [[a Ha] [[b Hb] _]]. exists a, b, x, y. auto.
Qed.

Lemma remap_identity : forall os sp, space_ok os sp ->
  exists mp, make_mapping os sp os sp = Ok mp
  /\ forall D (d0 : D) dscale, (forall x, dscale 1%Z x = x) -> forall x m, sector_of sp x -> dims m x ->
     exists r, remap D d0 dscale x x mp m = Ok r /\ same_matrix r m.
Proof.
  intros os sp H. destruct (remap_spec os os sp sp H H) as (mp & E & R). exists mp. split; [exact E|].
  intros D d0 dscale H1 x m Hx Hd. destruct (R D d0 dscale x x m Hx Hx (conj eq_refl eq_refl) Hd) as (r & Er & Hdr & W & _).
  exists r. split; [exact Er|]. destruct Hdr as [Hr Hc]. destruct Hd as [Hr' Hc']. split; [congruence|]. split; [congruence|].
  intros i j Hi Hj. rewrite Hr in Hi. rewrite Hc in Hj.
  destruct (orbitals_ex os sp _ i H (nth_error_In _ _ (proj1 Hx)) Hi) as (a & b & Ho).
  destruct (orbitals_ex os sp _ j H (nth_error_In _ _ (proj2 Hx)) Hj) as (c & d & Ho').
  rewrite (W i j i j 1%Z 1%Z (same_direct _ _ _ _ _ _ _ _ Ho Ho) (same_direct _ _ _ _ _ _ _ _ Ho' Ho')). apply H1.
Qed.

Lemma same_state_sym : forall src s i tgt t j p, sub_labels s = sub_labels t ->
  same_state src s i tgt t j p -> same_state tgt t j src s i p.
Proof.
  intros src s i tgt t j p Hl [a b H1 H2|a b H1 H2 L N].
  - apply same_direct with a b; assumption.
  - unfold sub_labels in Hl. injection Hl as Hsp HJ Hg.
    replace (exchange_phase (ss_J s) a b) with (exchange_phase (ss_J t) b a).
    + apply same_exchanged; auto. congruence.
    + unfold exchange_phase. rewrite HJ. rewrite (Z.add_comm (ol_2j b)). reflexivity.
Qed.

Lemma same_state_phase : forall src s i tgt t j p, same_state src s i tgt t j p -> p = 1%Z \/ p = (-1)%Z.
Proof.
  intros src s i tgt t j p [a b _ _|a b _ _ _ _]; [auto|]. unfold exchange_phase. destruct (Z.even _); auto.
Qed.

Lemma remap_back : forall A B asp bsp, space_ok A asp -> space_ok B bsp ->
  exists ab ba, make_mapping A asp B bsp = Ok ab /\ make_mapping B bsp A asp = Ok ba
  /\ forall D (d0 : D) dscale, (forall x, dscale 1%Z x = x) -> (forall x, dscale (-1)%Z (dscale (-1)%Z x) = x) ->
     forall x y m, sector_of asp x -> sector_of bsp y -> same_sector x y -> dims m x ->
     exists r1 r, remap D d0 dscale x y ab m = Ok r1 /\ remap D d0 dscale y x ba r1 = Ok r /\ dims r x
     /\ (forall i j, (exists i' p, same_state A (s_bra x) i B (s_bra y) i' p) -> (exists j' p, same_state A (s_ket x) j B (s_ket y) j' p) ->
           at_ r i j = at_ m i j)
     /\ (forall i j, (forall i' p, ~ same_state A (s_bra x) i B (s_bra y) i' p) \/ (forall j' p, ~ same_state A (s_ket x) j B (s_ket y) j' p) ->
           at_ r i j = d0).
Proof.
  intros A B asp bsp HA HB. destruct (remap_spec A B asp bsp HA HB) as (ab & E1 & R1). destruct (remap_spec B A bsp asp HB HA) as (ba & E2 & R2).
  exists ab, ba. split; [exact E1|]. split; [exact E2|]. intros D d0 dscale H1 Hm x y m Hx Hy [Sb Sk] Hd.
  destruct (R1 D d0 dscale x y m Hx Hy (conj Sb Sk) Hd) as (r1 & Er1 & Hd1 & W1 & _).
  destruct (R2 D d0 dscale y x r1 Hy Hx (conj (eq_sym Sb) (eq_sym Sk)) Hd1) as (r & Er & Hdr & W & Z).
  exists r1, r. split; [exact Er1|]. split; [exact Er|]. split; [exact Hdr|]. split.
  - intros i j (i' & p & Hi) (j' & q & Hj).
    rewrite (W i' j' i j p q (same_state_sym _ _ _ _ _ _ _ Sb Hi) (same_state_sym _ _ _ _ _ _ _ Sk Hj)).
    rewrite (W1 i j i' j' p q Hi Hj).
    destruct (same_state_phase _ _ _ _ _ _ _ Hi) as [->| ->]; destruct (same_state_phase _ _ _ _ _ _ _ Hj) as [->| ->]; cbn; rewrite ?H1, ?Hm; reflexivity.
  - intros i j H. apply Z. destruct H as [H|H]; [left|right]; intros k p Hk; eapply H; eapply same_state_sym; try exact Hk; auto.
Qed.
