(** Proofs for C20-C22. *)
From Coq Require Import List ZArith Reals Lra Lia Bool Permutation.
From Verif Require Import Base BaseLemmas H2Model MapModel MapSpec MapProof RMat XformModel XformSpec.
Import ListNotations.
Open Scope R_scope.

Definition ol0 : olabel := OL 0 0 1.
Definition O1 (ov : overlaps) (sp : ospecies) (a b : olabel) : R := one_body_overlap ov sp a b.
Definition phi (J : Z) (a b : olabel) : R := - parity_sign (2 * J - ol_2j a - ol_2j b).

Lemma same_lj_eq : forall a b, same_lj a b = true <-> ol_l a = ol_l b /\ ol_2j a = ol_2j b.
Proof. intros a b. unfold same_lj. rewrite andb_true_iff, !Z.eqb_eq. reflexivity. Qed.
Lemma O1_lj : forall ov sp a b, O1 ov sp a b = 0 \/ (ol_l a = ol_l b /\ ol_2j a = ol_2j b).
Proof.
  intros ov sp a b. unfold O1, one_body_overlap. destruct (same_lj a b) eqn:E; [|left; reflexivity].
  right. apply same_lj_eq. exact E.
Qed.
Lemma overlap_product_eq : forall ov spa spb a b c d,
  overlap_product ov spa spb a b c d = O1 ov spa a c * O1 ov spb b d.
Proof.
  intros. unfold overlap_product, O1, one_body_overlap. destruct (same_lj a c), (same_lj b d); cbn; ring.
Qed.
Lemma species_PN : forall s, species_eqb s PN = false -> like_species s.
Proof. intros [] H; discriminate || intros E; discriminate. Qed.
Lemma species_dec : forall s, s = PN \/ (species_eqb s PN = false /\ like_species s /\ sp1 s = sp2 s).
Proof. intros []; [right|right|left; reflexivity]; repeat split; intros E; discriminate. Qed.

Lemma tbo_pn : forall ov J a b c d, two_body_overlap ov PN J a b c d = O1 ov SP a c * O1 ov SN b d.
Proof. intros. unfold two_body_overlap. cbn. rewrite overlap_product_eq. ring. Qed.
Lemma tbo_like : forall ov s J a b c d, like_species s ->
  two_body_overlap ov s J a b c d
  = O1 ov (sp1 s) a c * O1 ov (sp1 s) b d + phi J a b * (O1 ov (sp1 s) a d * O1 ov (sp1 s) b c).
Proof.
  intros ov s J a b c d Hl. unfold two_body_overlap. destruct (species_dec s) as [->|[-> [_ <-]]]; [elim Hl; reflexivity|].
  rewrite !overlap_product_eq. unfold phi. ring.
Qed.

(** phases *)
Lemma phi_sq : forall J a b, phi J a b * phi J a b = 1.
Proof. intros. unfold phi, parity_sign. destruct (Z.even _); ring. Qed.
Lemma phi_comm : forall J a b, phi J a b = phi J b a.
Proof. intros. unfold phi. f_equal. f_equal. lia. Qed.
Lemma phi_same : forall J a b c d, (ol_2j a + ol_2j b = ol_2j c + ol_2j d)%Z -> phi J a b = phi J c d.
Proof. intros. unfold phi. f_equal. f_equal. lia. Qed.
Lemma phi_diag : forall J a b, ol_2j a = ol_2j b -> Z.odd (ol_2j a) = true ->
  phi J a b = if Z.even J then 1 else -1.
Proof.
  intros J a b E Ho. unfold phi, parity_sign. rewrite <- E.
  replace (2 * J - ol_2j a - ol_2j a)%Z with ((J - ol_2j a) * 2)%Z by lia. rewrite Z.div_mul by lia.
  rewrite Z.even_sub, <- (Z.negb_odd (ol_2j a)), Ho. cbn. destruct (Z.even J); cbn; ring.
Qed.
Lemma inv_sqrt2_sq : inv_sqrt2 * inv_sqrt2 = 1 / 2.
Proof.
  unfold inv_sqrt2. assert (H : sqrt 2 * sqrt 2 = 2) by (apply sqrt_sqrt; lra).
  assert (H0 : sqrt 2 <> 0) by (intros E; rewrite E in H; lra).
  apply (Rmult_eq_reg_r 2); [|lra]. rewrite <- H at 3. field. exact H0.
Qed.

(** element formula *)
Definition orb1 (os : ospace) (s : subspace) (ij : nat * nat) : olabel := nth (fst ij) (os (sp1 (ss_species s))) ol0.
Definition orb2 (os : ospace) (s : subspace) (ij : nat * nat) : olabel := nth (snd ij) (os (sp2 (ss_species s))) ol0.
Definition nfac (s : subspace) (ij : nat * nat) : R :=
  if species_eqb (ss_species s) PN then 1 else if Nat.eqb (fst ij) (snd ij) then inv_sqrt2 else 1.
Definition xel (ov : overlaps) (os ot : ospace) (s t : subspace) (ij kl : nat * nat) : R :=
  two_body_overlap ov (ss_species s) (ss_J s) (orb1 os s ij) (orb2 os s ij) (orb1 ot t kl) (orb2 ot t kl)
  * nfac s ij * nfac t kl.

Lemma allowed_orbs : forall os s ij, pair_allowed os s ij ->
  nth_error (os (sp1 (ss_species s))) (fst ij) = Some (orb1 os s ij)
  /\ nth_error (os (sp2 (ss_species s))) (snd ij) = Some (orb2 os s ij).
Proof.
  intros os s ij (a & b & Ha & Hb & _). unfold orb1, orb2.
  rewrite (nth_error_nth _ _ ol0 Ha), (nth_error_nth _ _ ol0 Hb). auto.
Qed.
Lemma state_orbitals_ok : forall os s i, states_ok os s -> (i < ss_size s)%nat ->
  state_orbitals os s i = Ok (fst (nth i (ss_states s) (O, O)), snd (nth i (ss_states s) (O, O)),
     orb1 os s (nth i (ss_states s) (O, O)), orb2 os s (nth i (ss_states s) (O, O))).
Proof.
  intros os s i [_ H] Hi. unfold state_orbitals. rewrite (nth_error_nth' _ (O, O) Hi). cbn [get bind].
  rewrite Forall_forall in H. destruct (allowed_orbs _ _ _ (H _ (nth_In _ (O, O) Hi))) as [Ha Hb].
  destruct (nth i (ss_states s) (O, O)) as [x y]. cbn [fst snd] in *. rewrite Ha. cbn [get bind]. rewrite Hb. reflexivity.
Qed.
Lemma complete_ok : forall os s, complete os s -> states_ok os s.
Proof. intros os s [Hn H]. split; [exact Hn|]. apply Forall_forall. intros x Hx. apply H. exact Hx. Qed.

Lemma xform_ok : forall ov os ot s t, states_ok os s -> states_ok ot t -> sub_labels s = sub_labels t ->
  exists m, xform_matrix ov os ot s t = Ok m /\ rows m = ss_size s /\ cols m = ss_size t
  /\ forall i j, (i < ss_size s)%nat -> (j < ss_size t)%nat ->
     at_ m i j = xel ov os ot s t (nth i (ss_states s) (O, O)) (nth j (ss_states t) (O, O)).
Proof.
  intros ov os ot s t Hs Ht E. unfold xform_matrix.
  assert (E1 : ss_species s = ss_species t) by (apply (f_equal (fun x => fst (fst x))) in E; exact E).
  assert (E2 : ss_J s = ss_J t) by (apply (f_equal (fun x => snd (fst x))) in E; exact E).
  rewrite <- E1, (proj2 (species_eqb_ok _ _) eq_refl). cbn [cassert bind].
  apply fill_ok. intros i j Hi Hj. unfold xform_element.
  rewrite (state_orbitals_ok _ _ _ Hs Hi). cbn [bind]. rewrite (state_orbitals_ok _ _ _ Ht Hj). cbn [bind].
  rewrite <- E1, (proj2 (species_eqb_ok _ _) eq_refl), <- E2, Z.eqb_refl. cbn [cassert bind].
  f_equal. unfold xel, nfac. rewrite <- E1.
  destruct (species_eqb (ss_species s) PN); [ring|]. destruct (Nat.eqb _ _), (Nat.eqb _ _); ring.
Qed.

(** * composition *)
Section Comp.
Variables (os oi ot : ospace) (s u t : subspace) (ov12 ov23 ov13 : overlaps).
Hypothesis Hlab1 : sub_labels s = sub_labels u.
Hypothesis Hlab2 : sub_labels u = sub_labels t.
Hypothesis Hodd : orbitals_ok oi.
Hypothesis Hcomp : composed oi ov12 ov23 ov13.
Hypothesis Hu : complete oi u.

Lemma lab_species : ss_species s = ss_species u /\ ss_species u = ss_species t.
Proof. split; [apply (f_equal (fun x => fst (fst x))) in Hlab1|apply (f_equal (fun x => fst (fst x))) in Hlab2]; assumption. Qed.
Lemma lab_J : ss_J s = ss_J u /\ ss_J u = ss_J t.
Proof. split; [apply (f_equal (fun x => snd (fst x))) in Hlab1|apply (f_equal (fun x => snd (fst x))) in Hlab2]; assumption. Qed.
Lemma lab_g : ss_g s = ss_g u.
Proof. apply (f_equal snd) in Hlab1. assumption. Qed.

Lemma O1_comp : forall sp a c, O1 ov13 sp a c = lsum (oi sp) (fun b => O1 ov12 sp a b * O1 ov23 sp b c).
Proof.
  intros sp a c. unfold O1 at 1, one_body_overlap. destruct (same_lj a c) eqn:E.
  - rewrite (Hcomp sp a c E), lsum_filter, Rplus_0_l. apply lsum_ext. intros b _.
    unfold O1, one_body_overlap. destruct (same_lj a b) eqn:Eb; [|ring].
    apply same_lj_eq in E. apply same_lj_eq in Eb.
    rewrite (proj2 (same_lj_eq b c)) by (destruct E as [<- <-], Eb as [-> ->]; auto). ring.
  - symmetry. apply lsum_0. intros b _. destruct (O1_lj ov12 sp a b) as [->|Eb]; [ring|].
    destruct (O1_lj ov23 sp b c) as [->|Ec]; [ring|].
    rewrite (proj2 (same_lj_eq a c)) in E; [discriminate|]. destruct Eb as [-> ->], Ec as [-> ->]. auto.
Qed.
Definition n1 := length (oi (sp1 (ss_species u))).
Definition n2 := length (oi (sp2 (ss_species u))).
Definition allp := list_prod (seq 0 n1) (seq 0 n2).

Lemma in_allp : forall cd, In cd allp <-> ((fst cd < n1)%nat /\ (snd cd < n2)%nat).
Proof. intros [c d]. unfold allp. rewrite in_prod_iff, !in_seq. cbn. lia. Qed.
Lemma NoDup_allp : NoDup allp.
Proof. apply NoDup_pairs. Qed.
(** from the states of the subspace to all pairs *)
Lemma to_all : forall f, (forall cd, In cd allp -> ~ pair_allowed oi u cd -> f cd = 0) ->
  lsum (ss_states u) f = lsum allp f.
Proof.
  intros f H. destruct Hu as [Hn Hiff].
  assert (Hsub : forall l, NoDup l -> (forall x, In x l -> In x allp) -> (forall x, In x allp -> ~ In x l -> f x = 0) ->
     lsum l f = lsum allp f).
  { intros l Hl Hin H0.
    assert (Hd : forall x y : nat * nat, {x = y} + {x <> y}) by (decide equality; apply Nat.eq_dec).
    set (q := fun x => if in_dec Hd x l then true else false).
    rewrite (lsum_nodup_eq _ l (filter q allp) f Hl (NoDup_filter _ NoDup_allp)).
    - rewrite lsum_filter. apply lsum_ext. intros x Hx. unfold q. destruct (in_dec Hd x l) as [|Hni]; [reflexivity|]. symmetry. auto.
    - intros x. rewrite filter_In. unfold q. destruct (in_dec Hd x l); split; intros Hx; try tauto; try (split; auto; fail).
      destruct Hx as [_ Hx]. discriminate. }
  apply Hsub; [exact Hn| |].
  - intros x Hx. apply Hiff in Hx. destruct (allowed_orbs _ _ _ Hx) as [Ha Hb]. apply in_allp.
    split; [unfold n1|unfold n2]; apply nth_error_Some; [rewrite Ha|rewrite Hb]; discriminate.
  - intros x Hx Hni. apply H; [exact Hx|]. intros Hp. apply Hni. apply Hiff. exact Hp.
Qed.
Lemma allp_sum : forall g, lsum allp (fun cd => g (orb1 oi u cd) (orb2 oi u cd))
  = lsum (oi (sp1 (ss_species u))) (fun c => lsum (oi (sp2 (ss_species u))) (fun d => g c d)).
Proof.
  intros g. unfold allp. rewrite lsum_prod. unfold orb1, orb2. cbn [fst snd].
  rewrite <- (rsum_nth _ ol0 (oi (sp1 (ss_species u)))). fold n1. apply rsum_ext. intros i _.
  rewrite <- (rsum_nth _ ol0 (oi (sp2 (ss_species u)))). reflexivity.
Qed.
Lemma allp_orbs : forall cd, In cd allp ->
  nth_error (oi (sp1 (ss_species u))) (fst cd) = Some (orb1 oi u cd)
  /\ nth_error (oi (sp2 (ss_species u))) (snd cd) = Some (orb2 oi u cd).
Proof.
  intros cd H. apply in_allp in H. destruct H as [H1 H2]. unfold orb1, orb2.
  split; apply nth_error_nth'; assumption.
Qed.
Lemma odd_orb1 : forall cd, In cd allp -> Z.odd (ol_2j (orb1 oi u cd)) = true.
Proof.
  intros cd H. apply allp_orbs in H. destruct H as [H _]. apply nth_error_In in H.
  destruct Hodd as [_ Ho]. specialize (Ho (sp1 (ss_species u))). rewrite Forall_forall in Ho. apply Ho. exact H.
Qed.

(** proton-neutron *)
Lemma comp_pn : forall ij kl, ss_species u = PN -> pair_allowed os s ij ->
  lsum (ss_states u) (fun cd => xel ov12 os oi s u ij cd * xel ov23 oi ot u t cd kl) = xel ov13 os ot s t ij kl.
Proof.
  intros ij kl E Hij. destruct lab_species as [E1 E2]. rewrite E in E1. rewrite E in E2. symmetry in E2.
  set (a := orb1 os s ij). set (b := orb2 os s ij). set (e := orb1 ot t kl). set (f := orb2 ot t kl).
  transitivity (lsum (ss_states u) (fun cd => (O1 ov12 SP a (orb1 oi u cd) * O1 ov12 SN b (orb2 oi u cd))
     * (O1 ov23 SP (orb1 oi u cd) e * O1 ov23 SN (orb2 oi u cd) f))).
  { apply lsum_ext. intros cd _. unfold xel, nfac. rewrite E, E1, E2, !tbo_pn. cbn. fold a b e f. ring. }
  rewrite to_all.
  - rewrite (allp_sum (fun c d => (O1 ov12 SP a c * O1 ov12 SN b d) * (O1 ov23 SP c e * O1 ov23 SN d f))).
    rewrite E. cbn [sp1 sp2]. unfold xel, nfac. rewrite E1, E2, tbo_pn. cbn [species_eqb].
    fold a b e f. rewrite !O1_comp, lsum_mul, !Rmult_1_r. apply lsum_ext. intros c _. apply lsum_ext. intros d _. ring.
  - intros cd Hin Hnot.
    destruct (O1_lj ov12 SP a (orb1 oi u cd)) as [->|[L1 J1]]; [ring|].
    destruct (O1_lj ov12 SN b (orb2 oi u cd)) as [->|[L2 J2]]; [ring|].
    elim Hnot. destruct (allp_orbs _ Hin) as [Hc Hd]. exists (orb1 oi u cd), (orb2 oi u cd).
    destruct Hij as (a' & b' & Ha & Hb & _ & _ & Htri & Hpar).
    apply (nth_error_nth _ _ ol0) in Ha. apply (nth_error_nth _ _ ol0) in Hb.
    change (a = a') in Ha. change (b = b') in Hb. subst a' b'.
    repeat split; auto; try (intros Hl; elim Hl; exact E).
    + destruct lab_J as [<- _]. lia.
    + destruct lab_J as [<- _]. lia.
    + rewrite <- L1, <- L2. rewrite <- lab_g; exact Hpar.
Qed.

(** like species *)
Lemma half_sum : forall n (F : nat * nat -> R), (forall c d, F (d, c) = F (c, d)) ->
  lsum (list_prod (seq 0 n) (seq 0 n)) (fun cd => if Nat.ltb (fst cd) (snd cd) then F cd
      else if Nat.eqb (fst cd) (snd cd) then 1 / 2 * F cd else 0)
  = 1 / 2 * lsum (list_prod (seq 0 n) (seq 0 n)) F.
Proof.
  intros n F Hs. set (G := fun cd : nat * nat => if Nat.ltb (fst cd) (snd cd) then F cd
      else if Nat.eqb (fst cd) (snd cd) then 1 / 2 * F cd else 0).
  assert (E : lsum (list_prod (seq 0 n) (seq 0 n)) G = lsum (list_prod (seq 0 n) (seq 0 n)) (fun cd => G (snd cd, fst cd))).
  { rewrite !lsum_prod. cbn [fst snd]. rewrite lsum_swap. reflexivity. }
  assert (E2 : lsum (list_prod (seq 0 n) (seq 0 n)) F = lsum (list_prod (seq 0 n) (seq 0 n)) G
      + lsum (list_prod (seq 0 n) (seq 0 n)) (fun cd => G (snd cd, fst cd))).
  { rewrite <- lsum_plus. apply lsum_ext. intros [c d] _. unfold G. cbn [fst snd].
    rewrite (Hs c d). destruct (Nat.ltb_spec c d), (Nat.ltb_spec d c), (Nat.eqb_spec c d), (Nat.eqb_spec d c); try lia; lra. }
  rewrite E2, <- E. lra.
Qed.

Lemma comp_like : forall ij kl, like_species (ss_species u) -> pair_allowed os s ij ->
  lsum (ss_states u) (fun cd => xel ov12 os oi s u ij cd * xel ov23 oi ot u t cd kl) = xel ov13 os ot s t ij kl.
Proof.
  intros ij kl Hlike Hij. destruct lab_species as [E1 E2]. destruct lab_J as [EJ1 EJ2].
  assert (Hspe : species_eqb (ss_species u) PN = false /\ sp1 (ss_species u) = sp2 (ss_species u)).
  { destruct (species_dec (ss_species u)) as [E|(H1 & _ & H3)]; [elim Hlike; exact E|auto]. }
  destruct Hspe as [Hspe Hsp].
  set (sp := sp1 (ss_species u)) in *. set (J := ss_J u) in *.
  set (a := orb1 os s ij). set (b := orb2 os s ij). set (e := orb1 ot t kl). set (f := orb2 ot t kl).
  set (A1 := fun c d => O1 ov12 sp a c * O1 ov12 sp b d + phi J a b * (O1 ov12 sp a d * O1 ov12 sp b c)).
  set (A2 := fun c d => O1 ov23 sp c e * O1 ov23 sp d f + phi J c d * (O1 ov23 sp c f * O1 ov23 sp d e)).
  set (F := fun cd => A1 (orb1 oi u cd) (orb2 oi u cd) * A2 (orb1 oi u cd) (orb2 oi u cd)).
  assert (HA1 : forall c d, A1 c d = 0 \/
     (ol_2j a + ol_2j b = ol_2j c + ol_2j d /\ Z.abs (ol_2j a - ol_2j b) = Z.abs (ol_2j c - ol_2j d)
      /\ ol_l a + ol_l b = ol_l c + ol_l d)%Z).
  { intros c d. unfold A1.
    destruct (O1_lj ov12 sp a c) as [H1|H1], (O1_lj ov12 sp b d) as [H2|H2],
      (O1_lj ov12 sp a d) as [H3|H3], (O1_lj ov12 sp b c) as [H4|H4];
      first [right; lia | left; try rewrite H1; try rewrite H2; try rewrite H3; try rewrite H4; ring]. }
  (* sum over canonical pairs *)
  transitivity (nfac s ij * nfac t kl * lsum (ss_states u)
     (fun cd => if Nat.ltb (fst cd) (snd cd) then F cd else if Nat.eqb (fst cd) (snd cd) then 1 / 2 * F cd else 0)).
  { rewrite <- lsum_scale. apply lsum_ext. intros cd Hcd. apply Hu in Hcd.
    unfold xel. rewrite E1, <- E2 || rewrite E1. rewrite EJ1.
    rewrite !tbo_like by exact Hlike. unfold F, A1, A2. fold a b e f. fold sp. fold J.
    unfold nfac at 2 3. rewrite Hspe.
    destruct Hcd as (c & d & _ & _ & Hcan & _). specialize (Hcan Hlike).
    destruct (Nat.ltb_spec (fst cd) (snd cd)), (Nat.eqb_spec (fst cd) (snd cd)); try lia; [ring|].
    rewrite <- inv_sqrt2_sq. ring. }
  rewrite to_all.
  - assert (Hn : n1 = n2) by (unfold n1, n2; rewrite <- Hsp; reflexivity).
    unfold allp. rewrite <- Hn. rewrite half_sum.
    + rewrite Hn at 2. fold allp. unfold F. rewrite (allp_sum (fun c d => A1 c d * A2 c d)). rewrite <- Hsp. fold sp.
      unfold xel. rewrite E1, EJ1, tbo_like by exact Hlike. fold sp a b e f J. rewrite !O1_comp.
      transitivity (nfac s ij * nfac t kl * (1 / 2 * lsum (oi sp) (fun c => lsum (oi sp) (fun d =>
         (O1 ov12 sp a c * O1 ov23 sp c e) * (O1 ov12 sp b d * O1 ov23 sp d f)
         + phi J a b * ((O1 ov12 sp a c * O1 ov23 sp c f) * (O1 ov12 sp b d * O1 ov23 sp d e))
         + phi J a b * ((O1 ov12 sp b c * O1 ov23 sp c e) * (O1 ov12 sp a d * O1 ov23 sp d f))
         + (O1 ov12 sp b c * O1 ov23 sp c f) * (O1 ov12 sp a d * O1 ov23 sp d e))))).
      { do 2 f_equal. apply lsum_ext. intros c _. apply lsum_ext. intros d _.
        transitivity (A1 c d * (O1 ov23 sp c e * O1 ov23 sp d f + phi J a b * (O1 ov23 sp c f * O1 ov23 sp d e))).
        - unfold A2. destruct (HA1 c d) as [->|(Hj & _ & _)]; [ring|]. rewrite (phi_same J a b c d Hj). reflexivity.
        - unfold A1. pose proof (phi_sq J a b) as Hsq. ring_simplify.
          replace (phi J a b ^ 2) with 1 by (rewrite <- Hsq; ring). ring. }
      assert (D : forall x y z w, lsum (oi sp) (fun c => lsum (oi sp) (fun d =>
           (O1 ov12 sp x c * O1 ov23 sp c y) * (O1 ov12 sp z d * O1 ov23 sp d w)))
         = lsum (oi sp) (fun c => O1 ov12 sp x c * O1 ov23 sp c y) * lsum (oi sp) (fun d => O1 ov12 sp z d * O1 ov23 sp d w)).
      { intros. rewrite lsum_mul. reflexivity. }
      rewrite (lsum_ext _ (oi sp) _ (fun c => lsum (oi sp) (fun d => (O1 ov12 sp a c * O1 ov23 sp c e) * (O1 ov12 sp b d * O1 ov23 sp d f))
         + phi J a b * lsum (oi sp) (fun d => (O1 ov12 sp a c * O1 ov23 sp c f) * (O1 ov12 sp b d * O1 ov23 sp d e))
         + phi J a b * lsum (oi sp) (fun d => (O1 ov12 sp b c * O1 ov23 sp c e) * (O1 ov12 sp a d * O1 ov23 sp d f))
         + lsum (oi sp) (fun d => (O1 ov12 sp b c * O1 ov23 sp c f) * (O1 ov12 sp a d * O1 ov23 sp d e)))).
      2:{ intros c _. rewrite !lsum_plus, !lsum_scale. reflexivity. }
      rewrite !lsum_plus, !lsum_scale, !D. lra.
    + (* exchange symmetry *)
      intros c d.
      assert (H1 : orb1 oi u (d, c) = orb2 oi u (c, d)) by (unfold orb1, orb2; cbn; fold sp; rewrite <- Hsp; reflexivity).
      assert (H2 : orb2 oi u (d, c) = orb1 oi u (c, d)) by (unfold orb1, orb2; cbn; fold sp; rewrite <- Hsp; reflexivity).
      unfold F. rewrite H1, H2. set (x := orb1 oi u (c, d)). set (y := orb2 oi u (c, d)).
      assert (HS1 : A1 y x = phi J a b * A1 x y).
      { unfold A1. pose proof (phi_sq J a b) as Hsq. ring_simplify. replace (phi J a b ^ 2) with 1 by (rewrite <- Hsq; ring). ring. }
      assert (HS2 : A2 y x = phi J x y * A2 x y).
      { unfold A2. rewrite (phi_comm J y x). pose proof (phi_sq J x y) as Hsq. ring_simplify. replace (phi J x y ^ 2) with 1 by (rewrite <- Hsq; ring). ring. }
      rewrite HS1, HS2. destruct (HA1 x y) as [->|(Hj & _ & _)]; [ring|].
      rewrite (phi_same J a b x y Hj). transitivity (phi J x y * phi J x y * (A1 x y * A2 x y)); [ring|]. rewrite phi_sq. ring.
  - (* excluded pairs vanish *)
    intros cd Hin Hnot.
    destruct (Nat.ltb_spec (fst cd) (snd cd)) as [Hlt|Hge]; [|destruct (Nat.eqb_spec (fst cd) (snd cd)) as [Heq|]; [|reflexivity]].
    + assert (F cd = 0) as ->; [|reflexivity]. unfold F.
      destruct (HA1 (orb1 oi u cd) (orb2 oi u cd)) as [->|(Hj & Hd & Hl)]; [ring|].
      elim Hnot. destruct (allp_orbs _ Hin) as [Hc Hd']. exists (orb1 oi u cd), (orb2 oi u cd).
      destruct Hij as (a' & b' & Ha & Hb & _ & _ & Htri & Hpar).
      apply (nth_error_nth _ _ ol0) in Ha. apply (nth_error_nth _ _ ol0) in Hb.
      change (a = a') in Ha. change (b = b') in Hb. subst a' b'.
      split; [exact Hc|]. split; [exact Hd'|]. split; [intros; lia|]. split; [intros; lia|]. split.
      * change (ss_J u) with J; rewrite <- EJ1; lia.
      * rewrite <- Hl, Hpar. rewrite lab_g. reflexivity.
    + assert (F cd = 0) as ->; [|ring]. unfold F.
      assert (Hsame : orb2 oi u cd = orb1 oi u cd) by (unfold orb1, orb2; rewrite <- Hsp; fold sp; rewrite Heq; reflexivity).
      rewrite Hsame. set (c := orb1 oi u cd) in *.
      destruct (O1_lj ov12 sp a c) as [Hz|[Lac Jac]]; [unfold A1; rewrite Hz; ring|].
      destruct (O1_lj ov12 sp b c) as [Hz|[Lbc Jbc]]; [unfold A1; rewrite Hz; ring|].
      destruct (Z.even J) eqn:EJ.
      * elim Hnot. destruct (allp_orbs _ Hin) as [Hc Hd']. exists c, c. rewrite Hsame in Hd'. fold c in Hc, Hd'.
        destruct Hij as (a' & b' & Ha & Hb & _ & _ & Htri & Hpar).
        apply (nth_error_nth _ _ ol0) in Ha. apply (nth_error_nth _ _ ol0) in Hb.
        change (a = a') in Ha. change (b = b') in Hb. subst a' b'.
        split; [exact Hc|]. split; [exact Hd'|]. split; [intros; lia|]. split; [intros; exact EJ|]. split.
        -- change (ss_J u) with J; rewrite <- EJ1; lia.
        -- rewrite <- lab_g, <- Hpar, Lac, Lbc. reflexivity.
      * assert (Hp : phi J a b = -1).
        { rewrite (phi_diag J a b) by (rewrite ?Jac, ?Jbc; auto; apply odd_orb1; exact Hin). rewrite EJ. reflexivity. }
        unfold A1. rewrite Hp. ring.
Qed.
Lemma comp_sum : forall ij kl, pair_allowed os s ij ->
  lsum (ss_states u) (fun cd => xel ov12 os oi s u ij cd * xel ov23 oi ot u t cd kl) = xel ov13 os ot s t ij kl.
Proof.
  intros ij kl H. destruct (species_dec (ss_species u)) as [E|(_ & E & _)]; [apply comp_pn|apply comp_like]; assumption.
Qed.
End Comp.
