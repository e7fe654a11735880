(** Proofs for C23-C25. *)
From Coq Require Import List ZArith Reals Lra Lia Bool Permutation.
From Verif Require Import Base BaseLemmas H2Model MapModel MapSpec MapProof RMat XformModel SepModel SepSpec.
Import ListNotations.
Open Scope R_scope.

Lemma odd_sum_half : forall a b, Z.odd a = true -> Z.odd b = true -> exists k, (a + b = 2 * k)%Z.
Proof.
  intros a b Ha Hb. apply Z.odd_spec in Ha, Hb. destruct Ha as [p ->], Hb as [q ->]. exists (p + q + 1)%Z. lia.
Qed.
Lemma half2 : forall k, (2 * k / 2 = k)%Z.
Proof. intros k. rewrite Z.mul_comm. apply Z.div_mul. lia. Qed.
Lemma parity_even : forall k, parity_sign (2 * k) = if Z.even k then 1 else -1.
Proof. intros k. unfold parity_sign. rewrite half2. reflexivity. Qed.
Lemma fold_parity : forall z, (if Z.even (z / 2) then 1 else -1) = parity_sign z.
Proof. reflexivity. Qed.
Definition sg (b : bool) : R := if b then 1 else -1.
Lemma sg_eqb : forall a b, sg (Bool.eqb a b) = sg a * sg b.
Proof. intros [] []; cbn; ring. Qed.
Lemma sg_sq : forall a, sg a * sg a = 1.
Proof. intros []; cbn; ring. Qed.

Lemma exch_parity : forall J a b, half_int a -> half_int b -> exch J a b = - parity_sign (2 * J - tj a - tj b).
Proof.
  intros J a b Ha Hb. unfold exch, exchange_phase. fold (tj a) (tj b). destruct (odd_sum_half _ _ Ha Hb) as [k Hk].
  rewrite Hk, half2. replace (2 * J - tj a - tj b)%Z with (2 * (J - k))%Z by lia. rewrite parity_even.
  destruct (Z.even (J - k)); cbn; ring.
Qed.
Lemma exch_sq : forall J a b, exch J a b * exch J a b = 1.
Proof. intros. unfold exch, exchange_phase. destruct (Z.even _); cbn; ring. Qed.
Lemma exch_comm : forall J a b, exch J a b = exch J b a.
Proof. intros. unfold exch, exchange_phase. rewrite Z.add_comm. reflexivity. Qed.
Lemma exch_exch : forall J' c d J a b, half_int c -> half_int d -> half_int a -> half_int b ->
  exch J' c d * exch J a b = parity_sign (2 * J' - tj c - tj d + 2 * J - tj a - tj b).
Proof.
  intros J' c d J a b Hc Hd Ha Hb. rewrite !exch_parity by assumption.
  destruct (odd_sum_half _ _ Ha Hb) as [k Hk]. destruct (odd_sum_half _ _ Hc Hd) as [k' Hk'].
  replace (2 * J - tj a - tj b)%Z with (2 * (J - k))%Z by lia.
  replace (2 * J' - tj c - tj d)%Z with (2 * (J' - k'))%Z by lia.
  replace (2 * (J' - k') + 2 * J - tj a - tj b)%Z with (2 * ((J' - k') + (J - k)))%Z by lia.
  rewrite !parity_even, Z.even_add. destruct (Z.even (J' - k')), (Z.even (J - k)); cbn; ring.
Qed.

Lemma orb_eqb_sym : forall a b, orb_eqb a b = orb_eqb b a.
Proof. intros a b. unfold orb_eqb. rewrite Nat.eqb_sym. destruct (o_sp a), (o_sp b); reflexivity. Qed.

(** the element formulas *)
Lemma upgrade_as_spec : forall F1 F2 op c d J' a b J, half_int c -> half_int d -> half_int a -> half_int b ->
  upgrade_as F1 F2 op c d J' a b J = antisymmetrised (sum_of_both F1 F2 op J' J) c d J' a b J.
Proof.
  intros F1 F2 op c d J' a b J Hc Hd Ha Hb. unfold antisymmetrised. rewrite exch_exch by assumption.
  rewrite !exch_parity by assumption. unfold upgrade_as, add_if, sum_of_both.
  destruct (orb_eqb d b), (orb_eqb c a), (orb_eqb d a), (orb_eqb c b); lra.
Qed.

Lemma tensor_as_same : forall F12 op K c d J' a b J,
  tensor_as F12 true op op K c d J' a b J = tensor_as F12 false op op K c d J' a b J.
Proof. reflexivity. Qed.
Lemma tensor_as_spec : forall F12 same op1 op2 K c d J' a b J,
  half_int c -> half_int d -> half_int a -> half_int b -> (same = true -> op1 = op2) ->
  (ob_J0 op1 = ob_J0 op2 -> exchange_symmetric F12 (ob_J0 op1) K) ->
  tensor_as F12 same op1 op2 K c d J' a b J = antisymmetrised (product_of_both F12 op1 op2 K J' J) c d J' a b J.
Proof.
  intros F12 same op1 op2 K c d J' a b J Hc Hd Ha Hb Hs Hsym.
  assert (E : tensor_as F12 same op1 op2 K c d J' a b J = tensor_as F12 false op1 op2 K c d J' a b J).
  { destruct same; [|reflexivity]. rewrite (Hs eq_refl). reflexivity. }
  rewrite E. unfold antisymmetrised. rewrite exch_exch by assumption. rewrite !exch_parity by assumption.
  unfold product_of_both, tensor_as. destruct (Z.eqb_spec (ob_J0 op1) (ob_J0 op2)) as [Ek|Hne].
  - specialize (Hsym Ek). rewrite <- Ek.
    rewrite (Hsym (tj c) (tj d) J' (tj a) (tj b) J) by assumption.
    rewrite (Hsym (tj c) (tj d) J' (tj b) (tj a) J) by assumption.
    rewrite !fold_parity.
    replace (2 * J' + tj c + tj d + 2 * J + tj a + tj b + 2 * ob_J0 op1 + 2 * ob_J0 op1 + 2 * K)%Z
      with (2 * J' + tj c + tj d + 2 * J + tj a + tj b + 4 * ob_J0 op1 + 2 * K)%Z by lia.
    replace (2 * J' + tj c + tj d + 2 * J + tj b + tj a + 4 * ob_J0 op1 + 2 * K)%Z
      with (2 * J' + tj c + tj d + 2 * J + tj a + tj b + 4 * ob_J0 op1 + 2 * K)%Z by lia.
    field.
  - field.
Qed.

(** exchanges of an antisymmetrised element *)
Lemma anti_ket : forall G c d J' a b J, antisymmetrised G c d J' b a J = exch J a b * antisymmetrised G c d J' a b J.
Proof.
  intros G c d J' a b J. unfold antisymmetrised. rewrite (exch_comm J b a). pose proof (exch_sq J a b) as H.
  transitivity (1 / 2 * (exch J a b * G c d a b + (exch J a b * exch J a b) * G c d b a
     + exch J' c d * exch J a b * G d c a b + exch J' c d * (exch J a b * exch J a b) * G d c b a)); [rewrite H|]; ring.
Qed.
Lemma anti_bra : forall G c d J' a b J, antisymmetrised G d c J' a b J = exch J' c d * antisymmetrised G c d J' a b J.
Proof.
  intros G c d J' a b J. unfold antisymmetrised. rewrite (exch_comm J' d c). pose proof (exch_sq J' c d) as H.
  transitivity (1 / 2 * (exch J' c d * G c d a b + exch J a b * exch J' c d * G c d b a
     + (exch J' c d * exch J' c d) * G d c a b + (exch J' c d * exch J' c d) * exch J a b * G d c b a)); [rewrite H|]; ring.
Qed.
(** ket exchange needs no symmetry of the coefficients *)
Lemma tensor_as_ket : forall F12 same op1 op2 K c d J' a b J,
  half_int c -> half_int d -> half_int a -> half_int b ->
  tensor_as F12 same op1 op2 K c d J' b a J = exch J a b * tensor_as F12 same op1 op2 K c d J' a b J.
Proof.
  intros F12 same op1 op2 K c d J' a b J Hc Hd Ha Hb. rewrite exch_parity by assumption.
  assert (E1 := exch_exch J' c d J a b Hc Hd Ha Hb). rewrite !exch_parity in E1 by assumption.
  unfold tensor_as.
  replace (2 * J' + tj c + tj d + 2 * J + tj b + tj a + 2 * ob_J0 op1 + 2 * ob_J0 op2 + 2 * K)%Z
    with (2 * J' + tj c + tj d + 2 * J + tj a + tj b + 2 * ob_J0 op1 + 2 * ob_J0 op2 + 2 * K)%Z by lia.
  replace (2 * J' - tj c - tj d + 2 * J - tj b - tj a)%Z with (2 * J' - tj c - tj d + 2 * J - tj a - tj b)%Z by lia.
  replace (2 * J - tj b - tj a)%Z with (2 * J - tj a - tj b)%Z by lia.
  rewrite <- E1. set (q := parity_sign (2 * J - tj a - tj b)) in *. set (p := parity_sign (2 * J' - tj c - tj d)).
  assert (Hq : q * q = 1) by (unfold q, parity_sign; destruct (Z.even _); ring).
  assert (Hq2 : q = 1 \/ q = -1) by (unfold q, parity_sign; destruct (Z.even _); auto).
  destruct Hq2 as [-> | ->]; destruct (ob_J0 op1 =? ob_J0 op2)%Z; lra.
Qed.

(** normalisation *)
Lemma to_nas_spec : forall a b c d me, to_nas a b c d me = nfactor c d * nfactor a b * me.
Proof.
  intros a b c d me. unfold to_nas, nfactor, inv_sqrt2. assert (H : sqrt 2 <> 0) by (apply Rgt_not_eq, sqrt_lt_R0; lra).
  destruct (orb_eqb a b), (orb_eqb c d); field; assumption.
Qed.
Lemma nfactor_comm : forall a b, nfactor a b = nfactor b a.
Proof. intros. unfold nfactor. rewrite orb_eqb_sym. reflexivity. Qed.

Lemma matel_spec : forall op x y, half_int x -> half_int y ->
  (selection_rules op x y -> matel op x y = ob_me op x y) /\ (~ selection_rules op x y -> matel op x y = 0).
Proof.
  intros op x y Hx Hy.
  assert (E : ob_allowed op x y = true <-> selection_rules op x y).
  { unfold ob_allowed, triangle, selection_rules. rewrite !andb_true_iff, !Z.leb_le, !Z.eqb_eq.
    assert (Hg : (Z.rem (o_g y + ob_g0 op + o_g x) 2 = 0 <-> Z.even (ol_l (o_lab x) + ob_g0 op + ol_l (o_lab y)) = true)%Z).
    { unfold o_g. rewrite Z.rem_divide by lia. rewrite Z.even_spec.
      assert (H1 := Z.div_mod (ol_l (o_lab y)) 2 ltac:(lia)). assert (H2 := Z.div_mod (ol_l (o_lab x)) 2 ltac:(lia)).
      set (p := (ol_l (o_lab y) / 2)%Z) in *. set (q := (ol_l (o_lab x) / 2)%Z) in *.
      split; intros [z Hz].
      - exists (z + p + q)%Z. lia.
      - exists (z - p - q)%Z. lia. }
    rewrite Hg. assert (He : Z.even (tj y + 2 * ob_J0 op + tj x) = Z.even (tj x + tj y)).
    { rewrite !Z.even_add, (Z.even_mul 2). cbn. destruct (Z.even (tj x)), (Z.even (tj y)); reflexivity. }
    rewrite He. tauto. }
  unfold matel. destruct (ob_allowed op x y); split; intros H; auto.
  - elim H. apply E. reflexivity.
  - apply E in H. discriminate.
Qed.

(** * matrices *)
Lemma state_orbs_ok : forall os s i p, orbs_of os s i p -> state_orbs os s i = Ok p.
Proof.
  intros os s i [a b] (la & lb & (x & y & Hst & Hx & Hy) & Hix & Ha & Hb & Sa & Sb).
  unfold state_orbs, state_orbitals. cbn [fst snd] in *. rewrite Hst. cbn [get bind]. rewrite Hx. cbn [get bind]. rewrite Hy. cbn [get bind].
  rewrite Hst in Hix. injection Hix as -> ->. destruct a, b. cbn in *. subst. reflexivity.
Qed.
Lemma orbs_exist : forall os s i, in_range os s -> (i < ss_size s)%nat -> exists p, orbs_of os s i p.
Proof.
  intros os s i H Hi. unfold in_range in H. rewrite Forall_forall in H.
  destruct (nth_error (ss_states s) i) as [[x y]|] eqn:E; [|apply nth_error_None in E; unfold ss_size in Hi; lia].
  destruct (H _ (nth_error_In _ _ E)) as [Hx Hy]. cbn in Hx, Hy.
  destruct (nth_error (os (sp1 (ss_species s))) x) as [a|] eqn:Ea; [|apply nth_error_None in Ea; lia].
  destruct (nth_error (os (sp2 (ss_species s))) y) as [b|] eqn:Eb; [|apply nth_error_None in Eb; lia].
  exists (Orb (sp1 (ss_species s)) x a, Orb (sp2 (ss_species s)) y b). exists a, b. cbn. repeat split; auto.
  exists x, y. auto.
Qed.
Lemma orbs_unique : forall os s i p q, orbs_of os s i p -> orbs_of os s i q -> p = q.
Proof. intros os s i p q H1 H2. apply state_orbs_ok in H1, H2. congruence. Qed.
Lemma orbs_half : forall os s i p, orbitals_half os -> orbs_of os s i p -> half_int (fst p) /\ half_int (snd p).
Proof.
  intros os s i [a b] Ho (la & lb & (x & y & _ & Hx & Hy) & _ & Ha & Hb & _). cbn in *.
  assert (H1 := Ho (sp1 (ss_species s))). assert (H2 := Ho (sp2 (ss_species s))). rewrite Forall_forall in H1, H2.
  unfold half_int, tj. rewrite Ha, Hb. split; [apply H1|apply H2]; eapply nth_error_In; eassumption.
Qed.
Lemma matrix_ok : forall os (x : sector) order (f : orb -> orb -> orb -> orb -> R),
  in_range os (s_bra x) -> in_range os (s_ket x) -> Permutation order (pairs (ss_size (s_bra x)) (ss_size (s_ket x))) ->
  exists m, fill_in_order order 0 (ss_size (s_bra x)) (ss_size (s_ket x)) (fun i j =>
      bind (state_orbs os (s_bra x) i) (fun cd => let '(c, d) := cd in
      bind (state_orbs os (s_ket x) j) (fun ab => let '(a, b) := ab in Ok (f c d a b)))) = Ok m
  /\ rows m = ss_size (s_bra x) /\ cols m = ss_size (s_ket x)
  /\ forall i j c d a b, orbs_of os (s_bra x) i (c, d) -> orbs_of os (s_ket x) j (a, b) -> at_ m i j = f c d a b.
Proof.
  intros os x order f Hb Hk Hp.
  set (g := fun i j => match state_orbs os (s_bra x) i, state_orbs os (s_ket x) j with
     | Ok (c, d), Ok (a, b) => f c d a b | _, _ => 0 end).
  destruct (fill_any_order R 0 (ss_size (s_bra x)) (ss_size (s_ket x)) (fun i j =>
      bind (state_orbs os (s_bra x) i) (fun cd => let '(c, d) := cd in
      bind (state_orbs os (s_ket x) j) (fun ab => let '(a, b) := ab in Ok (f c d a b)))) g order) as (m & E & Er & Ec & A).
  - intros i j Hi Hj. destruct (orbs_exist _ _ _ Hb Hi) as [[c d] H1]. destruct (orbs_exist _ _ _ Hk Hj) as [[a b] H2].
    apply state_orbs_ok in H1, H2. unfold g. rewrite H1, H2. reflexivity.
  - exact Hp.
  - exists m. split; [exact E|]. split; [exact Er|]. split; [exact Ec|]. intros i j c d a b H1 H2. rewrite A.
    + apply state_orbs_ok in H1, H2. unfold g. rewrite H1, H2. reflexivity.
    + destruct H1 as (? & ? & (? & ? & Hst & _) & _). unfold ss_size. apply nth_error_Some. rewrite Hst. discriminate.
    + destruct H2 as (? & ? & (? & ? & Hst & _) & _). unfold ss_size. apply nth_error_Some. rewrite Hst. discriminate.
Qed.

Lemma triangle_int : forall a b c, triangle (2 * a) (2 * b) (2 * c) = true <-> tri_ok a b c.
Proof.
  intros a b c. unfold triangle, tri_ok. rewrite !andb_true_iff, !Z.leb_le.
  replace (2 * a + 2 * b + 2 * c)%Z with (2 * (a + b + c))%Z by lia. rewrite Z.even_mul.
  change (Z.even 2) with true. rewrite orb_true_l. lia.
Qed.
Lemma sm_intro : forall (m m' : mat R), same_matrix m m' -> same_matrix m' m.
Proof. intros m m' (H1 & H2 & H3). repeat split; auto. intros i j Hi Hj. symmetry. apply H3; congruence. Qed.

Lemma upgrade_ok : forall order F1 F2 op os x A, in_range os (s_bra x) -> in_range os (s_ket x) -> orbitals_half os ->
  (A <> 1 /\ - two31 <= A - 1 < two31)%Z -> Permutation order (pairs (ss_size (s_bra x)) (ss_size (s_ket x))) ->
  exists r, upgrade_ord order F1 F2 op os x A = Ok r /\ dims r x
  /\ (tri_ok (ss_J (s_bra x)) (ss_J (s_ket x)) (ob_J0 op) -> forall i j c d a b, orbs_of os (s_bra x) i (c, d) -> orbs_of os (s_ket x) j (a, b) ->
      at_ r i j = / IZR (A - 1) * (nfactor c d * nfactor a b *
        antisymmetrised (sum_of_both F1 F2 op (ss_J (s_bra x)) (ss_J (s_ket x))) c d (ss_J (s_bra x)) a b (ss_J (s_ket x))))
  /\ (~ tri_ok (ss_J (s_bra x)) (ss_J (s_ket x)) (ob_J0 op) -> forall i j, at_ r i j = 0).
Proof.
  intros order F1 F2 op os x A Hb Hk Ho HA Hp. unfold upgrade_ord. cbv zeta.
  destruct (triangle _ _ _) eqn:Et; cbn [negb].
  - destruct (matrix_ok os x order (fun c d a b => to_nas a b c d (upgrade_as F1 F2 op c d (ss_J (s_bra x)) a b (ss_J (s_ket x)))) Hb Hk Hp)
      as (m & E & Er & Ec & Am). rewrite E. cbn [bind].
    assert (Hd : in_int (A - 1) && negb (A - 1 =? 0)%Z = true).
    { unfold in_int, two31 in *. rewrite !andb_true_iff, negb_true_iff, Z.eqb_neq, !Z.leb_le. lia. }
    rewrite Hd. cbn [defined bind]. eexists. split; [reflexivity|]. split; [split; cbn; assumption|]. split.
    + intros _ i j c d a b H1 H2. cbn. rewrite (Am i j c d a b H1 H2), to_nas_spec.
      destruct (orbs_half _ _ _ _ Ho H1) as [Hc Hd']. destruct (orbs_half _ _ _ _ Ho H2) as [Ha Hb']. cbn in *.
      rewrite upgrade_as_spec by assumption. unfold Rdiv. ring.
    + intros Hnt. elim Hnt. apply triangle_int. exact Et.
  - eexists. split; [reflexivity|]. split; [split; reflexivity|]. split; [|reflexivity].
    intros Ht. apply triangle_int in Ht. congruence.
Qed.
Lemma tensor_ok : forall order F12 same op1 op2 os x K, in_range os (s_bra x) -> in_range os (s_ket x) -> orbitals_half os ->
  tri_ok (ob_J0 op1) (ob_J0 op2) K -> (same = true -> op1 = op2) ->
  (ob_J0 op1 = ob_J0 op2 -> exchange_symmetric F12 (ob_J0 op1) K) ->
  Permutation order (pairs (ss_size (s_bra x)) (ss_size (s_ket x))) ->
  exists r, tensor_ord order F12 same op1 op2 os x K = Ok r /\ dims r x
  /\ (tri_ok (ss_J (s_bra x)) (ss_J (s_ket x)) K -> forall i j c d a b, orbs_of os (s_bra x) i (c, d) -> orbs_of os (s_ket x) j (a, b) ->
      at_ r i j = nfactor c d * nfactor a b *
        antisymmetrised (product_of_both F12 op1 op2 K (ss_J (s_bra x)) (ss_J (s_ket x))) c d (ss_J (s_bra x)) a b (ss_J (s_ket x)))
  /\ (~ tri_ok (ss_J (s_bra x)) (ss_J (s_ket x)) K -> forall i j, at_ r i j = 0).
Proof.
  intros order F12 same op1 op2 os x K Hb Hk Ho HK Hs Hsym Hp. unfold tensor_ord. cbv zeta.
  rewrite (proj2 (triangle_int _ _ _) HK). cbn [cassert bind].
  destruct (triangle _ _ _) eqn:Et; cbn [negb].
  - destruct (matrix_ok os x order (fun c d a b => to_nas a b c d (tensor_as F12 same op1 op2 K c d (ss_J (s_bra x)) a b (ss_J (s_ket x)))) Hb Hk Hp)
      as (m & E & Er & Ec & Am). rewrite E. eexists. split; [reflexivity|]. split; [split; assumption|]. split.
    + intros _ i j c d a b H1 H2. rewrite (Am i j c d a b H1 H2), to_nas_spec.
      destruct (orbs_half _ _ _ _ Ho H1) as [Hc Hd']. destruct (orbs_half _ _ _ _ Ho H2) as [Ha Hb']. cbn in *.
      rewrite tensor_as_spec by assumption. reflexivity.
    + intros Hnt. elim Hnt. apply triangle_int. exact Et.
  - eexists. split; [reflexivity|]. split; [split; reflexivity|]. split; [|reflexivity].
    intros Ht. apply triangle_int in Ht. congruence.
Qed.

(** C25 *)
Lemma identity_matrix_ok : forall x A, s_bi x = s_ki x -> (2 <= A)%Z -> (A * (A - 1) < two31)%Z ->
  exists r, identity_matrix x A = Ok r /\ rows r = ss_size (s_ket x) /\ cols r = ss_size (s_ket x)
  /\ forall i j, (i = j -> IZR (A * (A - 1)) / 2 * at_ r i j = 1) /\ (i <> j -> at_ r i j = 0).
Proof.
  intros x A Hd HA HB. unfold identity_matrix. rewrite (proj2 (Nat.eqb_eq _ _) Hd : is_diag x = true). cbn [cassert bind].
  assert (H0 : (0 < A * (A - 1))%Z) by nia. assert (H1 : (A <= A * (A - 1))%Z) by nia.
  assert (Hdef : in_int (A - 1) && in_int (A * (A - 1)) && negb (A * (A - 1) =? 0)%Z = true).
  { unfold in_int, two31 in *. rewrite !andb_true_iff, negb_true_iff, Z.eqb_neq, !Z.leb_le. lia. }
  rewrite Hdef. cbn [defined bind]. eexists. split; [reflexivity|]. cbn [rows cols at_].
  split; [reflexivity|]. split; [reflexivity|]. intros i j. split.
  - intros ->. rewrite Nat.eqb_refl. field. apply IZR_neq. lia.
  - intros Hne. rewrite (proj2 (Nat.eqb_neq _ _) Hne). ring.
Qed.
