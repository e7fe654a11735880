(** C22: the elements of a transformed matrix, by the overlaps of the orbitals. *)
From Coq Require Import List ZArith Reals Lra Lia Bool Permutation.
From Verif Require Import Base BaseLemmas H2Model MapModel MapSpec MapProof RMat XformModel XformSpec XformProof XformFinal SepModel SepSpec XformStates ExXform.
Import ListNotations.
Open Scope R_scope.

Lemma u_O1 : forall ov u x y, overlaps_by ov u -> o_sp x = o_sp y -> u x y = O1 ov (o_sp x) (o_lab x) (o_lab y).
Proof.
  intros ov u x y H E. destruct (H x y) as [H1 H2]. unfold O1, one_body_overlap. destruct (same_lj (o_lab x) (o_lab y)) eqn:S.
  - apply same_lj_eq in S. rewrite H1 by (split; [exact E|exact S]). ring.
  - apply H2. intros [_ S']. apply same_lj_eq in S'. congruence.
Qed.
Lemma u_other : forall ov u x y, overlaps_by ov u -> o_sp x <> o_sp y -> u x y = 0.
Proof. intros ov u x y H E. apply (H x y). intros [S _]. contradiction. Qed.
Lemma exch_phi : forall J a b, Z.odd (tj a) = true -> Z.odd (tj b) = true -> exch J a b = phi J (o_lab a) (o_lab b).
Proof.
  intros J a b Ha Hb. unfold exch, exchange_phase, phi, parity_sign. unfold tj in *.
  rewrite opp_IZR. f_equal. assert (E : ((2 * J - ol_2j (o_lab a) - ol_2j (o_lab b)) / 2 = J - (ol_2j (o_lab a) + ol_2j (o_lab b)) / 2)%Z).
  { apply Z.odd_spec in Ha. apply Z.odd_spec in Hb. destruct Ha as [p Hp]. destruct Hb as [q Hq]. rewrite Hp, Hq.
    replace (2 * J - (2 * p + 1) - (2 * q + 1))%Z with ((J - p - q - 1) * 2)%Z by lia. replace (2 * p + 1 + (2 * q + 1))%Z with ((p + q + 1) * 2)%Z by lia. rewrite !Z.div_mul by lia. lia. }
  rewrite E. destruct (Z.even _); reflexivity.
Qed.
Lemma exch_sq : forall J a b, exch J a b * exch J a b = 1.
Proof. intros. unfold exch, exchange_phase. destruct (Z.even _); cbn; ring. Qed.
Lemma nfactor_nfac : forall s x y c d, o_ix c = x -> o_ix d = y -> o_sp c = sp1 (ss_species s) -> o_sp d = sp2 (ss_species s) -> nfactor c d = nfac s (x, y).
Proof.
  intros s x y c d <- <- E1 E2. unfold nfactor, nfac, orb_eqb, inv_sqrt2. rewrite E1, E2. cbn [fst snd]. destruct (ss_species s); cbn; try reflexivity; destruct (Nat.eqb _ _); try reflexivity; unfold Rdiv; ring.
Qed.
Lemma overlap_xel : forall ov u os ot s t i j cd ab, overlaps_by ov u -> orbitals_half os -> orbitals_half ot -> sub_labels s = sub_labels t ->
  orbs_of os s i cd -> orbs_of ot t j ab -> state_overlap u cd ab (ss_J s) = xel ov os ot s t (st s i) (st t j).
Proof.
  intros ov u os ot s t i j [c d] [a b] H Os Ot L Hcd Hab.
  assert (Es : ss_species s = ss_species t) by (apply (f_equal (fun x => fst (fst x))) in L; exact L).
  destruct Hcd as (lc & ld & (x & y & N1 & Nx & Ny) & N2 & Ec & Ed & Sc & Sd). destruct Hab as (la & lb & (x' & y' & M1 & Mx & My) & M2 & Ea & Eb & Sa & Sb).
  cbn [fst snd] in *. rewrite N1 in N2. injection N2 as X Y. rewrite M1 in M2. injection M2 as X' Y'.
  assert (Ts : st s i = (x, y)) by (unfold st; apply nth_error_nth; exact N1). assert (Tt : st t j = (x', y')) by (unfold st; apply nth_error_nth; exact M1).
  unfold state_overlap. cbn [fst snd]. rewrite (nfactor_nfac s x y c d (eq_sym X) (eq_sym Y) Sc Sd), (nfactor_nfac t x' y' a b (eq_sym X') (eq_sym Y') Sa Sb).
  unfold xel. rewrite Ts, Tt. unfold orb1, orb2. cbn [fst snd]. rewrite (nth_error_nth _ _ ol0 Nx), (nth_error_nth _ _ ol0 Ny), (nth_error_nth _ _ ol0 Mx), (nth_error_nth _ _ ol0 My).
  assert (Hc : Z.odd (tj c) = true) by (unfold tj; rewrite Ec; exact (proj1 (Forall_forall _ _) (Os _) _ (nth_error_In _ _ Nx))).
  assert (Hd : Z.odd (tj d) = true) by (unfold tj; rewrite Ed; exact (proj1 (Forall_forall _ _) (Os _) _ (nth_error_In _ _ Ny))).
  assert (Ha : Z.odd (tj a) = true) by (unfold tj; rewrite Ea; exact (proj1 (Forall_forall _ _) (Ot _) _ (nth_error_In _ _ Mx))).
  assert (Hb : Z.odd (tj b) = true) by (unfold tj; rewrite Eb; exact (proj1 (Forall_forall _ _) (Ot _) _ (nth_error_In _ _ My))).
  unfold antisymmetrised. rewrite !exch_phi by assumption. rewrite <- Ec, <- Ed, <- Ea, <- Eb. rewrite <- Es in *.
  destruct (species_dec (ss_species s)) as [P|(P & Lk & S12)].
  - rewrite P in *. cbn [sp1 sp2] in *. rewrite tbo_pn.
    rewrite (u_other ov u c b H), (u_other ov u d a H) by congruence. rewrite (u_O1 ov u c a H), (u_O1 ov u d b H) by congruence. rewrite Sc, Sd.
    destruct (O1_lj ov SP (o_lab c) (o_lab a)) as [->|[_ J1]]; [ring|]. destruct (O1_lj ov SN (o_lab d) (o_lab b)) as [->|[_ J2]]; [ring|].
    rewrite (phi_same (ss_J s) (o_lab c) (o_lab d) (o_lab a) (o_lab b)) by lia.
    replace (1 / 2 * _) with (1 / 2 * (1 + phi (ss_J s) (o_lab a) (o_lab b) * phi (ss_J s) (o_lab a) (o_lab b)) * (O1 ov SP (o_lab c) (o_lab a) * O1 ov SN (o_lab d) (o_lab b))) by ring.
    rewrite phi_sq. field.
  - rewrite (tbo_like _ _ _ _ _ _ _ Lk). rewrite <- S12 in *. rewrite !(u_O1 ov u _ _ H) by congruence. rewrite Sc, Sd. set (sp := sp1 (ss_species s)).
    assert (G : forall p q v w, O1 ov sp p v * O1 ov sp q w = 0 \/ (ol_2j p = ol_2j v /\ ol_2j q = ol_2j w)).
    { intros p q v w. destruct (O1_lj ov sp p v) as [->|[_ J1]]; [left; ring|]. destruct (O1_lj ov sp q w) as [->|[_ J2]]; [left; ring|]. right. auto. }
    replace (1 / 2 * _) with (1 / 2 * ((1 + phi (ss_J s) (o_lab c) (o_lab d) * phi (ss_J s) (o_lab a) (o_lab b)) * (O1 ov sp (o_lab c) (o_lab a) * O1 ov sp (o_lab d) (o_lab b))
       + (phi (ss_J s) (o_lab a) (o_lab b) + phi (ss_J s) (o_lab c) (o_lab d)) * (O1 ov sp (o_lab c) (o_lab b) * O1 ov sp (o_lab d) (o_lab a)))) by ring.
    destruct (G (o_lab c) (o_lab d) (o_lab a) (o_lab b)) as [->|[J1 J2]]; destruct (G (o_lab c) (o_lab d) (o_lab b) (o_lab a)) as [->|[J3 J4]].
    + ring.
    + rewrite (phi_same (ss_J s) (o_lab a) (o_lab b) (o_lab c) (o_lab d)) by lia. field.
    + rewrite (phi_same (ss_J s) (o_lab c) (o_lab d) (o_lab a) (o_lab b)) by lia. rewrite phi_sq. field.
    + rewrite (phi_same (ss_J s) (o_lab c) (o_lab d) (o_lab a) (o_lab b)) by lia. rewrite phi_sq. field.
Qed.
Lemma elements_ok : forall ov u os ot x y m, overlaps_by ov u -> orbitals_half os -> orbitals_half ot ->
  states_ok os (s_bra x) -> states_ok os (s_ket x) -> states_ok ot (s_bra y) -> states_ok ot (s_ket y) ->
  sector_ok x -> sector_ok y -> same_sector x y -> dims m x ->
  exists r, transformed ov os ot x y m = Ok r /\ dims r y
  /\ forall B K i j ab cd, (forall k, (k < rows m)%nat -> orbs_of os (s_bra x) k (B k)) -> (forall l, (l < cols m)%nat -> orbs_of os (s_ket x) l (K l)) ->
     orbs_of ot (s_bra y) i ab -> orbs_of ot (s_ket y) j cd ->
     at_ r i j = rsum (rows m) (fun k => rsum (cols m) (fun l => state_overlap u (B k) ab (ss_J (s_bra x)) * at_ m k l * state_overlap u (K l) cd (ss_J (s_ket x)))).
Proof.
  intros ov u os ot x y m H Os Ot H1 H2 H3 H4 H5 H6 H7 H8. destruct (transformed_ok ov os ot x y m H1 H2 H3 H4 H5 H6 H7 H8) as (r & E & D & V).
  exists r. split; [exact E|]. split; [exact D|]. intros B K i j ab cd HB HK Hi Hj.
  assert (Li : (i < ss_size (s_bra y))%nat) by (destruct Hi as (? & ? & (? & ? & N & _) & _); apply nth_error_Some; congruence).
  assert (Lj : (j < ss_size (s_ket y))%nat) by (destruct Hj as (? & ? & (? & ? & N & _) & _); apply nth_error_Some; congruence).
  rewrite (V i j Li Lj). unfold sand. destruct H8 as [R C]. unfold ss_size in *. rewrite <- R, <- C. rewrite rsum_swap. apply rsum_ext. intros l Hl.
  rewrite <- rsum_scale_r. apply rsum_ext. intros k Hk.
  rewrite (overlap_xel ov u os ot _ _ k i (B k) ab H Os Ot (proj1 H7) (HB k Hk) Hi), (overlap_xel ov u os ot _ _ l j (K l) cd H Os Ot (proj2 H7) (HK l Hl) Hj). reflexivity.
Qed.
Lemma overlap_case : let u x y := if same_lj (o_lab x) (o_lab y) then 1 else 0 in
  state_overlap u (Orb SP 0 s0, Orb SP 0 s0) (Orb SP 0 s0, Orb SP 1 s1) 0 * sqrt 2 = 2.
Proof.
  unfold state_overlap, antisymmetrised, nfactor, orb_eqb, exch, exchange_phase. cbn -[sqrt IZR]. assert (Q : sqrt 2 * sqrt 2 = 2) by (apply sqrt_sqrt; lra).
  assert (Q0 : sqrt 2 <> 0) by (intros Q'; rewrite Q' in Q; lra). cbn. field. exact Q0.
Qed.
