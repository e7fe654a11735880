(** C23-C25, C53, C54. *)
From Coq Require Import List ZArith Reals Lra Lia Bool Permutation.
From Verif Require Import Base BaseLemmas H2Model MapModel MapSpec MapProof RMat XformModel XformSpec XformProof SepModel SepSpec SepProof.
Import ListNotations.
Open Scope R_scope.

Lemma orbs_lt : forall os s i p, orbs_of os s i p -> (i < ss_size s)%nat.
Proof.
  intros os s i p (? & ? & (? & ? & Hst & _) & _). unfold ss_size. apply nth_error_Some. rewrite Hst. discriminate.
Qed.
Lemma upgrade_perm : forall F1 F2 op os x A, in_range os (s_bra x) -> in_range os (s_ket x) -> orbitals_half os ->
  (A <> 1 /\ - two31 <= A - 1 < two31)%Z ->
  exists r, upgrade F1 F2 op os x A = Ok r /\ dims r x
  /\ (tri_ok (ss_J (s_bra x)) (ss_J (s_ket x)) (ob_J0 op) -> forall i j c d a b, orbs_of os (s_bra x) i (c, d) -> orbs_of os (s_ket x) j (a, b) ->
      at_ r i j = / IZR (A - 1) * (nfactor c d * nfactor a b *
        antisymmetrised (sum_of_both F1 F2 op (ss_J (s_bra x)) (ss_J (s_ket x))) c d (ss_J (s_bra x)) a b (ss_J (s_ket x))))
  /\ (~ tri_ok (ss_J (s_bra x)) (ss_J (s_ket x)) (ob_J0 op) -> forall i j, at_ r i j = 0).
Proof. intros. apply upgrade_ok; auto. Qed.
Lemma tri_dec : forall a b c, tri_ok a b c \/ ~ tri_ok a b c.
Proof. intros. unfold tri_ok. lia. Qed.

Lemma upgrade_exchange : forall F1 F2 op os x A r, in_range os (s_bra x) -> in_range os (s_ket x) -> orbitals_half os ->
  (A <> 1 /\ - two31 <= A - 1 < two31)%Z -> upgrade F1 F2 op os x A = Ok r ->
  (forall i j j' a b, (i < rows r)%nat -> orbs_of os (s_ket x) j (a, b) -> orbs_of os (s_ket x) j' (b, a) ->
     at_ r i j' = exch (ss_J (s_ket x)) a b * at_ r i j)
  /\ (forall i i' j c d, (j < cols r)%nat -> orbs_of os (s_bra x) i (c, d) -> orbs_of os (s_bra x) i' (d, c) ->
     at_ r i' j = exch (ss_J (s_bra x)) c d * at_ r i j).
Proof.
  intros F1 F2 op os x A r Hb Hk Ho HA E.
  destruct (upgrade_perm F1 F2 op os x A Hb Hk Ho HA) as (r' & E' & [Dr Dc] & H1 & H0).
  rewrite E in E'. injection E' as <-. split.
  - intros i j j' a b Hi Hj Hj'. destruct (tri_dec (ss_J (s_bra x)) (ss_J (s_ket x)) (ob_J0 op)) as [Ht|Ht].
    + rewrite Dr in Hi. destruct (orbs_exist _ _ _ Hb Hi) as [[c d] Hcd].
      rewrite (H1 Ht i j' c d b a Hcd Hj'), (H1 Ht i j c d a b Hcd Hj), anti_ket, (nfactor_comm b a). ring.
    + rewrite !(H0 Ht). ring.
  - intros i i' j c d Hj Hi Hi'. destruct (tri_dec (ss_J (s_bra x)) (ss_J (s_ket x)) (ob_J0 op)) as [Ht|Ht].
    + rewrite Dc in Hj. destruct (orbs_exist _ _ _ Hk Hj) as [[a b] Hab].
      rewrite (H1 Ht i' j d c a b Hi' Hab), (H1 Ht i j c d a b Hi Hab), anti_bra, (nfactor_comm d c). ring.
    + rewrite !(H0 Ht). ring.
Qed.

(** the tensor product without assumptions on the coefficients *)
Lemma tensor_raw : forall order F12 same op1 op2 os x K, in_range os (s_bra x) -> in_range os (s_ket x) ->
  tri_ok (ob_J0 op1) (ob_J0 op2) K -> Permutation order (pairs (ss_size (s_bra x)) (ss_size (s_ket x))) ->
  exists r, tensor_ord order F12 same op1 op2 os x K = Ok r /\ dims r x
  /\ (tri_ok (ss_J (s_bra x)) (ss_J (s_ket x)) K -> forall i j c d a b, orbs_of os (s_bra x) i (c, d) -> orbs_of os (s_ket x) j (a, b) ->
      at_ r i j = nfactor c d * nfactor a b * tensor_as F12 same op1 op2 K c d (ss_J (s_bra x)) a b (ss_J (s_ket x)))
  /\ (~ tri_ok (ss_J (s_bra x)) (ss_J (s_ket x)) K -> forall i j, at_ r i j = 0).
Proof.
  intros order F12 same op1 op2 os x K Hb Hk HK Hp. unfold tensor_ord. cbv zeta.
  rewrite (proj2 (triangle_int _ _ _) HK). cbn [cassert bind].
  destruct (triangle _ _ _) eqn:Et; cbn [negb].
  - destruct (matrix_ok os x order (fun c d a b => to_nas a b c d (tensor_as F12 same op1 op2 K c d (ss_J (s_bra x)) a b (ss_J (s_ket x)))) Hb Hk Hp)
      as (m & E & Er & Ec & Am). rewrite E. eexists. split; [reflexivity|]. split; [split; assumption|]. split.
    + intros _ i j c d a b H1 H2. rewrite (Am i j c d a b H1 H2), to_nas_spec. reflexivity.
    + intros Hnt. elim Hnt. apply triangle_int. exact Et.
  - eexists. split; [reflexivity|]. split; [split; reflexivity|]. split; [|reflexivity].
    intros Ht. apply triangle_int in Ht. congruence.
Qed.
Lemma tensor_exchange_ket : forall F12 same op1 op2 os x K r, in_range os (s_bra x) -> in_range os (s_ket x) -> orbitals_half os ->
  tri_ok (ob_J0 op1) (ob_J0 op2) K -> tensor F12 same op1 op2 os x K = Ok r ->
  forall i j j' a b, (i < rows r)%nat -> orbs_of os (s_ket x) j (a, b) -> orbs_of os (s_ket x) j' (b, a) ->
     at_ r i j' = exch (ss_J (s_ket x)) a b * at_ r i j.
Proof.
  intros F12 same op1 op2 os x K r Hb Hk Ho HK E i j j' a b Hi Hj Hj'.
  destruct (tensor_raw _ F12 same op1 op2 os x K Hb Hk HK (Permutation_refl _)) as (r' & E' & [Dr Dc] & H1 & H0).
  unfold tensor in E. rewrite E in E'. injection E' as <-.
  destruct (tri_dec (ss_J (s_bra x)) (ss_J (s_ket x)) K) as [Ht|Ht].
  - rewrite Dr in Hi. destruct (orbs_exist _ _ _ Hb Hi) as [[c d] Hcd].
    rewrite (H1 Ht i j' c d b a Hcd Hj'), (H1 Ht i j c d a b Hcd Hj), (nfactor_comm b a).
    destruct (orbs_half _ _ _ _ Ho Hcd). destruct (orbs_half _ _ _ _ Ho Hj). cbn in *.
    rewrite tensor_as_ket by assumption. ring.
  - rewrite !(H0 Ht). ring.
Qed.
Lemma tensor_exchange_bra : forall F12 same op1 op2 os x K r, in_range os (s_bra x) -> in_range os (s_ket x) -> orbitals_half os ->
  tri_ok (ob_J0 op1) (ob_J0 op2) K -> (same = true -> op1 = op2) ->
  (ob_J0 op1 = ob_J0 op2 -> exchange_symmetric F12 (ob_J0 op1) K) -> tensor F12 same op1 op2 os x K = Ok r ->
  forall i i' j c d, (j < cols r)%nat -> orbs_of os (s_bra x) i (c, d) -> orbs_of os (s_bra x) i' (d, c) ->
     at_ r i' j = exch (ss_J (s_bra x)) c d * at_ r i j.
Proof.
  intros F12 same op1 op2 os x K r Hb Hk Ho HK Hs Hsym E i i' j c d Hj Hi Hi'.
  destruct (tensor_ok _ F12 same op1 op2 os x K Hb Hk Ho HK Hs Hsym (Permutation_refl _)) as (r' & E' & [Dr Dc] & H1 & H0).
  unfold tensor in E. rewrite E in E'. injection E' as <-.
  destruct (tri_dec (ss_J (s_bra x)) (ss_J (s_ket x)) K) as [Ht|Ht].
  - rewrite Dc in Hj. destruct (orbs_exist _ _ _ Hk Hj) as [[a b] Hab].
    rewrite (H1 Ht i' j d c a b Hi' Hab), (H1 Ht i j c d a b Hi Hab), anti_bra, (nfactor_comm d c). ring.
  - rewrite !(H0 Ht). ring.
Qed.

(** C24 *)
Lemma tensor_formula : forall F12 same op1 op2 os x K, in_range os (s_bra x) -> in_range os (s_ket x) -> orbitals_half os ->
  tri_ok (ob_J0 op1) (ob_J0 op2) K -> (same = true -> op1 = op2) ->
  (ob_J0 op1 = ob_J0 op2 -> exchange_symmetric F12 (ob_J0 op1) K) ->
  exists r, tensor F12 same op1 op2 os x K = Ok r /\ dims r x
  /\ (tri_ok (ss_J (s_bra x)) (ss_J (s_ket x)) K -> forall i j c d a b, orbs_of os (s_bra x) i (c, d) -> orbs_of os (s_ket x) j (a, b) ->
      at_ r i j = nfactor c d * nfactor a b *
        antisymmetrised (product_of_both F12 op1 op2 K (ss_J (s_bra x)) (ss_J (s_ket x))) c d (ss_J (s_bra x)) a b (ss_J (s_ket x)))
  /\ (~ tri_ok (ss_J (s_bra x)) (ss_J (s_ket x)) K -> forall i j, at_ r i j = 0).
Proof. intros. apply tensor_ok; auto. Qed.
Lemma tensor_same_objects : forall F12 op os x K, tensor F12 true op op os x K = tensor F12 false op op os x K.
Proof. reflexivity. Qed.

(** any schedule of the parallel loops gives the same matrix *)
Lemma schedule_ok : forall F1 F2 F12 same op op1 op2 os x A K order,
  in_range os (s_bra x) -> in_range os (s_ket x) -> orbitals_half os ->
  Permutation order (pairs (ss_size (s_bra x)) (ss_size (s_ket x))) ->
  (A <> 1 /\ - two31 <= A - 1 < two31)%Z -> tri_ok (ob_J0 op1) (ob_J0 op2) K ->
  (exists r r', upgrade_ord order F1 F2 op os x A = Ok r /\ upgrade F1 F2 op os x A = Ok r' /\ same_matrix r r')
  /\ (exists r r', tensor_ord order F12 same op1 op2 os x K = Ok r /\ tensor F12 same op1 op2 os x K = Ok r' /\ same_matrix r r').
Proof.
  intros F1 F2 F12 same op op1 op2 os x A K order Hb Hk Ho Hp HA HK. split.
  - destruct (upgrade_ok order F1 F2 op os x A Hb Hk Ho HA Hp) as (r & E & [Dr Dc] & H1 & H0).
    destruct (upgrade_perm F1 F2 op os x A Hb Hk Ho HA) as (r' & E' & [Dr' Dc'] & H1' & H0').
    exists r, r'. split; [exact E|]. split; [exact E'|]. split; [congruence|]. split; [congruence|]. intros i j Hi Hj.
    rewrite Dr in Hi. rewrite Dc in Hj.
    destruct (tri_dec (ss_J (s_bra x)) (ss_J (s_ket x)) (ob_J0 op)) as [Ht|Ht].
    + destruct (orbs_exist _ _ _ Hb Hi) as [[c d] Hcd]. destruct (orbs_exist _ _ _ Hk Hj) as [[a b] Hab].
      rewrite (H1 Ht _ _ _ _ _ _ Hcd Hab), (H1' Ht _ _ _ _ _ _ Hcd Hab). reflexivity.
    + rewrite (H0 Ht), (H0' Ht). reflexivity.
  - destruct (tensor_raw order F12 same op1 op2 os x K Hb Hk HK Hp) as (r & E & [Dr Dc] & H1 & H0).
    destruct (tensor_raw _ F12 same op1 op2 os x K Hb Hk HK (Permutation_refl _)) as (r' & E' & [Dr' Dc'] & H1' & H0').
    exists r, r'. split; [exact E|]. split; [exact E'|]. split; [congruence|]. split; [congruence|]. intros i j Hi Hj.
    rewrite Dr in Hi. rewrite Dc in Hj.
    destruct (tri_dec (ss_J (s_bra x)) (ss_J (s_ket x)) K) as [Ht|Ht].
    + destruct (orbs_exist _ _ _ Hb Hi) as [[c d] Hcd]. destruct (orbs_exist _ _ _ Hk Hj) as [[a b] Hab].
      rewrite (H1 Ht _ _ _ _ _ _ Hcd Hab), (H1' Ht _ _ _ _ _ _ Hcd Hab). reflexivity.
    + rewrite (H0 Ht), (H0' Ht). reflexivity.
Qed.

(** * number operator *)
Lemma states_in_range : forall os s, states_ok os s -> in_range os s.
Proof.
  intros os s [_ H]. unfold in_range. rewrite Forall_forall in *. intros ij Hin. destruct (H _ Hin) as (a & b & Ha & Hb & _).
  split; apply nth_error_Some; congruence.
Qed.
Lemma orb_eqb_eq : forall a b, orb_eqb a b = true <-> o_sp a = o_sp b /\ o_ix a = o_ix b.
Proof.
  intros a b. unfold orb_eqb. rewrite andb_true_iff, Nat.eqb_eq. destruct (o_sp a), (o_sp b); cbn; intuition (try discriminate).
Qed.
Definition odelta (a b : orb) : R := if orb_eqb a b then 1 else 0.
Lemma tri_self : forall t, (0 <= t)%Z -> Z.odd t = true -> triangle t 0 t = true.
Proof.
  intros t H0 Ho. unfold triangle. rewrite Z.sub_0_r, Z.add_0_r, Z.abs_eq by exact H0. rewrite !Z.leb_refl. cbn.
  rewrite Z.even_add. destruct (Z.even t); reflexivity.
Qed.
(** orbitals of one space *)
Definition lives (os : ospace) (a : orb) : Prop := nth_error (os (o_sp a)) (o_ix a) = Some (o_lab a).
Lemma orbs_lives : forall os s i a b, orbs_of os s i (a, b) -> lives os a /\ lives os b.
Proof.
  intros os s i a b (la & lb & (x & y & Hst & Hx & Hy) & Hix & Ha & Hb & Sa & Sb). cbn in *. rewrite Hst in Hix.
  injection Hix as Ex Ey. unfold lives. rewrite Sa, Sb, Ha, Hb, <- Ex, <- Ey. auto.
Qed.
Lemma lives_eq : forall os a b, lives os a -> lives os b -> orb_eqb a b = true -> a = b.
Proof.
  intros os a b Ha Hb E. apply orb_eqb_eq in E. destruct E as [E1 E2]. unfold lives in *. rewrite E1, E2 in Ha.
  rewrite Hb in Ha. injection Ha as E3. destruct a, b; cbn in *; subst; reflexivity.
Qed.
Lemma matel_number : forall os a b, lives os a -> lives os b -> half_int a -> (0 <= tj a)%Z -> matel number_op a b = odelta a b.
Proof.
  intros os a b Ha Hb Hh H0. unfold matel, odelta, number_op at 2. cbn [ob_me].
  destruct (orb_eqb a b) eqn:E; [|destruct (ob_allowed _ _ _); reflexivity].
  apply (lives_eq os) in E; try assumption. subst b. unfold ob_allowed, number_op. cbn [ob_J0 ob_g0 ob_Tz0].
  change (2 * 0)%Z with 0%Z. rewrite (tri_self _ H0 Hh), !Z.add_0_r, Z.eqb_refl. cbn [andb].
  assert (Hr : (Z.rem (o_g a + o_g a) 2 = 0)%Z) by (apply Z.rem_divide; [lia|exists (o_g a); lia]).
  rewrite Hr. reflexivity.
Qed.
Lemma number_elem : forall F1 F2 os J c d a b, unit_scalar F1 -> unit_scalar F2 -> lives os a -> lives os b -> lives os c -> lives os d ->
  (forall o, In o [a; b; c; d] -> half_int o /\ (0 <= tj o)%Z) ->
  sum_of_both F1 F2 number_op J J c d a b = 2 * (odelta c a * odelta d b).
Proof.
  intros F1 F2 os J c d a b H1 H2 La Lb Lc Ld Ho. unfold sum_of_both.
  rewrite (matel_number os c a), (matel_number os d b) by (try assumption; apply Ho; cbn; auto).
  cbn [ob_J0 number_op]. unfold odelta. destruct (orb_eqb d b) eqn:Edb, (orb_eqb c a) eqn:Eca; try ring.
  apply (lives_eq os) in Edb; try assumption. apply (lives_eq os) in Eca; try assumption. subst. rewrite H1, H2. ring.
Qed.
Definition orbitals_pos (os : ospace) : Prop := forall x, Forall (fun o => (0 <= ol_2j o)%Z) (os x).
Lemma lives_ok : forall os a, orbitals_half os -> orbitals_pos os -> lives os a -> half_int a /\ (0 <= tj a)%Z.
Proof.
  intros os a Hh Hp Ha. apply nth_error_In in Ha. specialize (Hh (o_sp a)). specialize (Hp (o_sp a)).
  rewrite Forall_forall in Hh, Hp. split; [apply Hh|apply Hp]; exact Ha.
Qed.
Lemma number_ok : forall F1 F2 os x A, unit_scalar F1 -> unit_scalar F2 -> orbitals_half os -> orbitals_pos os ->
  s_bra x = s_ket x -> states_ok os (s_ket x) -> (0 <= ss_J (s_ket x))%Z -> (A <> 1 /\ - two31 <= A - 1 < two31)%Z ->
  exists r, upgrade F1 F2 number_op os x A = Ok r /\ dims r x
  /\ forall i j, (i < rows r)%nat -> (j < cols r)%nat ->
     (i = j -> at_ r i j = 2 / IZR (A - 1)) /\ (i <> j -> at_ r i j = 0).
Proof.
  intros F1 F2 os x A U1 U2 Hh Hpos Hd Hs HJ HA.
  assert (Hr : in_range os (s_ket x)) by (apply states_in_range; exact Hs).
  assert (Hr' : in_range os (s_bra x)) by (rewrite Hd; exact Hr).
  destruct (upgrade_perm F1 F2 number_op os x A Hr' Hr Hh HA) as (r & E & [Dr Dc] & H1 & _).
  exists r. split; [exact E|]. split; [split; assumption|]. intros i j Hi Hj. rewrite Dr in Hi. rewrite Dc in Hj.
  destruct (orbs_exist _ _ _ Hr' Hi) as [[c d] Hcd]. destruct (orbs_exist _ _ _ Hr Hj) as [[a b] Hab].
  assert (Ht : tri_ok (ss_J (s_bra x)) (ss_J (s_ket x)) (ob_J0 number_op)) by (rewrite Hd; unfold tri_ok; cbn; lia).
  rewrite (H1 Ht _ _ _ _ _ _ Hcd Hab). rewrite Hd in *. set (J := ss_J (s_ket x)) in *.
  destruct (orbs_lives _ _ _ _ _ Hcd) as [Lc Ld]. destruct (orbs_lives _ _ _ _ _ Hab) as [La Lb].
  assert (Hall : forall o, lives os o -> half_int o /\ (0 <= tj o)%Z) by (intros; eapply lives_ok; eassumption).
  assert (HG : forall c d a b, lives os a -> lives os b -> lives os c -> lives os d ->
     sum_of_both F1 F2 number_op J J c d a b = 2 * (odelta c a * odelta d b)).
  { intros. apply number_elem with (os := os); try assumption. intros o [<-|[<-|[<-|[<-|[]]]]]; auto. }
  unfold antisymmetrised. rewrite !HG by assumption. clear HG.
  (* facts about the two states *)
  assert (HA1 : IZR (A - 1) <> 0) by (apply IZR_neq; lia).
  assert (Hs2 : / sqrt 2 * / sqrt 2 = 1 / 2).
  { assert (Hq : sqrt 2 * sqrt 2 = 2) by (apply sqrt_sqrt; lra). rewrite <- Rinv_mult, Hq. lra. }
  assert (Hst : forall k p q, orbs_of os (s_ket x) k (p, q) -> pair_allowed os (s_ket x) (o_ix p, o_ix q)
     /\ nth_error (ss_states (s_ket x)) k = Some (o_ix p, o_ix q) /\ o_sp p = sp1 (ss_species (s_ket x)) /\ o_sp q = sp2 (ss_species (s_ket x))).
  { intros k p q (la & lb & _ & Hix & _ & _ & Sp & Sq). cbn in *. destruct Hs as [_ Hf]. rewrite Forall_forall in Hf.
    split; [apply Hf; eapply nth_error_In; exact Hix|]. auto. }
  destruct (Hst _ _ _ Hcd) as (Pcd & Ncd & Sc & Sd). destruct (Hst _ _ _ Hab) as (Pab & Nab & Sa & Sb).
  split.
  - intros <-. assert (Ep := orbs_unique _ _ _ _ _ Hcd Hab). injection Ep as -> ->.
    unfold nfactor, odelta. rewrite (proj2 (orb_eqb_eq a a)), (proj2 (orb_eqb_eq b b)) by auto. rewrite (orb_eqb_sym b a).
    destruct (orb_eqb a b) eqn:Eab.
    + apply (lives_eq os) in Eab; try assumption. subst b.
      destruct Pab as (la & lb & _ & _ & _ & HP & _). cbn [fst snd] in HP.
      assert (Hl : like_species (ss_species (s_ket x))).
      { intros El. rewrite El in Sa, Sb. cbn in Sa, Sb. congruence. }
      specialize (HP Hl eq_refl).
      assert (He : exch J a a = 1).
      { destruct (Hall a La) as [Ha _]. rewrite exch_parity by exact Ha. fold J in HP.
        replace (2 * J - tj a - tj a)%Z with (2 * (J - tj a))%Z by lia. rewrite parity_even, Z.even_sub, HP.
        unfold half_int in Ha. rewrite <- Z.negb_odd, Ha. cbn. ring. }
      rewrite He. unfold Rdiv. transitivity (8 * (/ sqrt 2 * / sqrt 2) * / IZR (A - 1) * / 2); [field; split; [exact HA1|apply Rgt_not_eq, sqrt_lt_R0; lra]|].
      rewrite Hs2. field. exact HA1.
    + rewrite !Rmult_0_r. assert (Hq := exch_sq J a b). transitivity (/ IZR (A - 1) * (1 + exch J a b * exch J a b)); [field; exact HA1|].
      rewrite Hq. field. exact HA1.
  - intros Hne.
    assert (Hd1 : odelta c a * odelta d b = 0).
    { unfold odelta. destruct (orb_eqb c a) eqn:Eca, (orb_eqb d b) eqn:Edb; try ring.
      apply orb_eqb_eq in Eca, Edb. elim Hne. destruct Hs as [Hn _]. 
      eapply (proj1 (NoDup_nth_error (ss_states (s_ket x))) Hn); [exact Hi|]. rewrite Ncd, Nab. destruct Eca as [_ ->], Edb as [_ ->]. reflexivity. }
    assert (Hd2 : odelta c b * odelta d a = 0).
    { unfold odelta. destruct (orb_eqb c b) eqn:Ecb, (orb_eqb d a) eqn:Eda; try ring.
      apply orb_eqb_eq in Ecb, Eda. destruct Ecb as [Ecb Icb], Eda as [Eda Ida].
      assert (Hl : like_species (ss_species (s_ket x))).
      { intros El. rewrite El in *. cbn in *. congruence. }
      destruct Pcd as (? & ? & _ & _ & Hc1 & _). destruct Pab as (? & ? & _ & _ & Hc2 & _). cbn [fst snd] in *.
      specialize (Hc1 Hl). specialize (Hc2 Hl). elim Hne. destruct Hs as [Hn _].
      eapply (proj1 (NoDup_nth_error (ss_states (s_ket x))) Hn); [exact Hi|]. rewrite Ncd, Nab. do 2 f_equal; lia. }
    rewrite (Rmult_comm (odelta d a)), (Rmult_comm (odelta d b)), Hd1, Hd2. ring.
Qed.

(** * symmetry of upgraded scalar operators *)
Lemma upgrade_symmetric : forall F1 F2 op os x A r, in_range os (s_ket x) -> orbitals_half os ->
  (A <> 1 /\ - two31 <= A - 1 < two31)%Z -> s_bra x = s_ket x ->
  (forall c d a b J, F1 c d J a b J (ob_J0 op) = F1 a b J c d J (ob_J0 op)) ->
  (forall c d a b J, F2 c d J a b J (ob_J0 op) = F2 a b J c d J (ob_J0 op)) ->
  (forall p q, matel op p q = matel op q p) ->
  upgrade F1 F2 op os x A = Ok r -> symmetric r.
Proof.
  intros F1 F2 op os x A r Hr Ho HA Hd S1 S2 Hm E.
  assert (Hr' : in_range os (s_bra x)) by (rewrite Hd; exact Hr).
  destruct (upgrade_perm F1 F2 op os x A Hr' Hr Ho HA) as (r' & E' & [Dr Dc] & H1 & H0).
  rewrite E in E'. injection E' as <-. split; [rewrite Dr, Dc, Hd; reflexivity|]. intros i j Hi Hj.
  destruct (tri_dec (ss_J (s_bra x)) (ss_J (s_ket x)) (ob_J0 op)) as [Ht|Ht]; [|rewrite !(H0 Ht); reflexivity].
  rewrite Dr in Hi. rewrite Dc in Hj.
  destruct (orbs_exist _ _ _ Hr' Hi) as [[c d] Hcd]. destruct (orbs_exist _ _ _ Hr Hj) as [[a b] Hab].
  rewrite (H1 Ht _ _ _ _ _ _ Hcd Hab). assert (Hcd' := Hcd). rewrite Hd in Hcd'. assert (Hab' := Hab). rewrite <- Hd in Hab'.
  rewrite (H1 Ht _ _ _ _ _ _ Hab' Hcd'). rewrite Hd. set (J := ss_J (s_ket x)).
  assert (HG : forall c d a b, sum_of_both F1 F2 op J J c d a b = sum_of_both F1 F2 op J J a b c d).
  { intros p q s t. unfold sum_of_both. rewrite S1, S2, (Hm p s), (Hm q t), (orb_eqb_sym q t), (orb_eqb_sym p s). reflexivity. }
  unfold antisymmetrised. rewrite (HG c d a b), (HG c d b a), (HG d c a b), (HG d c b a). ring.
Qed.

(** the timing test *)
Lemma timing_matrix_ok : forall x, s_bi x = s_ki x ->
  (exists r, timing_matrix x true true = Ok r /\ rows r = ss_size (s_ket x) /\ cols r = ss_size (s_ket x)
     /\ forall i j, (i < ss_size (s_ket x))%nat -> (j < ss_size (s_ket x))%nat -> at_ r i j = if Nat.leb i j then -1 else 0)
  /\ (forall store, exists r, timing_matrix x false store = Ok r /\ rows r = ss_size (s_ket x) /\ cols r = ss_size (s_ket x) /\ forall i j, at_ r i j = 0)
  /\ (exists r, timing_matrix x true false = Ok r /\ rows r = ss_size (s_ket x) /\ cols r = ss_size (s_ket x) /\ forall i j, at_ r i j = 0).
Proof.
  intros x E. unfold timing_matrix, is_diag. rewrite E, Nat.eqb_refl. cbn [cassert bind]. set (n := ss_size (s_ket x)). split; [|split].
  - rewrite loop2_filter. rewrite (loop2_ext _ _ _ (fun i j m => y <- Ok (-1) ;; mat_put m i j y)) by reflexivity.
    destruct (fill_loop R n n (fun _ _ => Ok (-1)) (fun _ _ => -1) (filter (fun p => negb (negb (Nat.leb (fst p) (snd p)))) (pairs n n)) (mzero 0 n n)) as (r & Er & Rr & Cr & A).
    + apply NoDup_filter, NoDup_pairs.
    + intros i j H. apply filter_In in H. destruct H as [H _]. apply in_pairs in H. destruct H. auto.
    + reflexivity.
    + reflexivity.
    + exists r. split; [exact Er|]. split; [exact Rr|]. split; [exact Cr|]. intros i j Hi Hj. destruct (A i j) as [A1 A2]. destruct (Nat.leb i j) eqn:L.
      * apply A1. apply filter_In. split; [apply in_pairs; auto|]. cbn. rewrite L. reflexivity.
      * rewrite A2; [reflexivity|]. intros H. apply filter_In in H. destruct H as [_ H]. cbn in H. rewrite L in H. discriminate.
  - intros store. exists (mzero 0 n n). repeat split.
  - rewrite (loop2_ext _ _ _ (fun i j m => Ok m)) by (intros i j s _; destruct (negb (Nat.leb i j)); reflexivity).
    exists (mzero 0 n n). split; [|repeat split]. generalize (pairs n n) as l. induction l as [|[i j] l IH]; [reflexivity|exact IH].
Qed.
Lemma timing_matrix_off : forall x loop store, s_bi x <> s_ki x -> timing_matrix x loop store = AssertFail.
Proof. intros x loop st E. unfold timing_matrix, is_diag. apply Nat.eqb_neq in E. rewrite E. reflexivity. Qed.
